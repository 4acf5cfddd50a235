(** The gateway's view of the cluster objects on Kubernetes
    (S/backends/kubernetes/backend.py).  The watch cache changes by events (C53); the
    queue is the set of keys put and not yet taken (C01-C05). *)
From Coq Require Import ZArith.
From stdpp Require Import gmap.

Notation key := positive.
Notation user := positive.
Inductive phase := PENDING | RUNNING | STOPPED | FAILED.
Definition phase_num (p : phase) : nat := match p with PENDING => 1 | RUNNING => 2 | STOPPED => 3 | FAILED => 4 end.
Global Instance phase_dec : EqDecision phase. Proof. solve_decision. Defined.
(** A cluster object: spec.username, status.phase, status.service, status.credentials
    (recorded or not), status.completionTime. *)
Record obj := Obj { username : user; ophase : phase; oservice : option positive; ocred : bool; ocompletion : option Z }.
(** A models.Cluster: user, status, the service its addresses name ([None]: addresses
    are empty), credentials, stop time. *)
Record view := View { v_user : user; v_status : phase; v_addr : option positive; v_cred : option positive; v_stop : option Z }.
(** [proc]: sync_cluster waiting for a secret: the key and the cluster being built. *)
Record state := State { cache : gmap key obj; dirty : gset key; proc : option (key * view); clusters : gmap key view; index : gmap user (gmap key view) }.
Definition init : state := State ∅ ∅ None ∅ ∅.
Inductive event :=
| EPut (k : key) (o : obj) | EGone (k : key)    (* on_cluster_event (536-538) after the cache changed *)
| EGet (k : key)                                (* sync_clusters_loop (540-545) takes k *)
| ESecret (r : option positive).                (* the secret is read, or that raises *)

(** The deleting branch (556-568). *)
Definition forget (k : key) (s : state) : state :=
  match clusters s !! k with
  | Some v =>
    let ix := match index s !! v_user v with
              | Some m => if decide (delete k m = ∅) then delete (v_user v) (index s) else <[v_user v := delete k m]> (index s)
              | None => index s
              end in
    State (cache s) (dirty s) (proc s) (delete k (clusters s)) ix
  | None => s
  end.
(** The cluster built from the object (576-607), before its credentials. *)
Definition build (o : obj) : view :=
  View (username o) (ophase o) (if decide (ophase o = RUNNING) then oservice o else None) None (ocompletion o).
Definition with_cred (v : view) (c : option positive) : view := View (v_user v) (v_status v) (v_addr v) c (v_stop v).
(** Lines 626-627. *)
Definition store (k : key) (v : view) (s : state) : state :=
  State (cache s) (dirty s) (proc s) (<[k := v]> (clusters s)) (<[v_user v := <[k := v]> (default ∅ (index s !! v_user v))]> (index s)).
(** sync_cluster (558-629). *)
Definition sync (k : key) (s : state) : state :=
  match cache s !! k with
  | None => forget k s
  | Some o =>
    let v := build o in
    match clusters s !! k with
    | Some (View _ _ _ (Some c) _) => store k (with_cred v (Some c)) s
    | _ => if (phase_num (ophase o) <=? phase_num RUNNING)%nat && ocred o
           then State (cache s) (dirty s) (Some (k, v)) (clusters s) (index s)
           else store k v s
    end
  end.
Definition step (s : state) (e : event) : state * unit :=
  (match e with
   | EPut k o => State (<[k := o]> (cache s)) ({[k]} ∪ dirty s) (proc s) (clusters s) (index s)
   | EGone k => State (delete k (cache s)) ({[k]} ∪ dirty s) (proc s) (clusters s) (index s)
   | EGet k =>
     match proc s with
     | None => if decide (k ∈ dirty s) then sync k (State (cache s) (dirty s ∖ {[k]}) None (clusters s) (index s)) else s
     | Some _ => s
     end
   | ESecret r =>
     match proc s with
     | Some (k, v) =>
       match r with
       | Some c => store k (with_cred v (Some c)) (State (cache s) (dirty s) None (clusters s) (index s))
       | None => State (cache s) ({[k]} ∪ dirty s) None (clusters s) (index s)   (* put_backoff (551) *)
       end
     | None => s
     end
   end, tt).

(** list_clusters (437-450) and get_cluster (428-435, without the waiting). *)
Definition select (sts : option (list phase)) (v : view) : bool :=
  match sts with None => (phase_num (v_status v) <=? phase_num RUNNING)%nat | Some l => bool_decide (v_status v ∈ l) end.
Definition list_clusters (s : state) (u : option user) (sts : option (list phase)) : list view :=
  match u with
  | None => List.filter (select sts) (map snd (map_to_list (clusters s)))
  | Some u => match index s !! u with Some m => List.filter (select sts) (map snd (map_to_list m)) | None => [] end
  end.
Definition get_cluster (s : state) (k : key) : option view := clusters s !! k.
