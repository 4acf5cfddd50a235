(** A running cluster on Kubernetes, from the size its scheduler works for to its worker
    pods: the heartbeat (C/scheduler_preload.py 248-267), on_cluster_heartbeat of the
    gateway (S/backends/kubernetes/backend.py 457-496), the cluster object at the API
    server, the controller's informer for it (utils.py 86-128, on_cluster_update at
    controller.py 572-575), its work queue (S/workqueue.py 73-137, 164-172) and
    reconciler_loop (583-619), and the worker pods (Kube_Model.v).

    S = dask-gateway-server/dask_gateway_server, C = dask-gateway/dask_gateway.
    Simplifications: one cluster, from the moment when its phase is Running, with a running
    scheduler and active; of the object only spec.replicas; of a heartbeat only the
    count, the only field that the gateway uses here; the work queue as far as this
    cluster's key is concerned (C01-C05).  The informer's cache is a position in the
    versions of the object that never goes back (C53). *)
From Coq Require Import ZArith.
From stdpp Require Import prelude gmap.
From Verif Require Import Kube_Model.
Open Scope Z_scope.

(** [d_vers]: spec.replicas in all versions of the object, [d_seen]: how many of them
    the controller's cache has gone through.  The key is on the queue ([d_dirty]), being
    processed ([d_busy]), to be put later ([d_timer], put_backoff).  [d_size]: the size
    the scheduler works for; [d_sent]: how many heartbeats were sent; [d_wire]: those that
    were neither handled nor lost, with their numbers. *)
Record depot := Depot { d_kube : Kube_Model.state; d_vers : list Z; d_seen : nat; d_dirty : bool; d_busy : bool; d_timer : bool;
  d_size : Z; d_sent : nat; d_wire : list (nat * Z) }.
(** The status patch to phase Running has just been seen; there is no spec.replicas yet
    (controller.py:746), and no worker. *)
Definition dinit : depot := Depot Kube_Model.init [0] 1 true false false 0 0 [].

(** What becomes of a heartbeat at the gateway: it does not know the cluster yet (470-472);
    the patch is made; it is refused; it is made although an error comes back. *)
Inductive arrival := AUnknown | APatched | AFailed | ALost.
Inductive devent :=
| DSize (k : Z)                             (* scale or adaptive scaling *)
| DBeat                                     (* the scheduler sends a heartbeat *)
| DArrive (i : nat) (r : arrival)           (* the gateway handles the i-th of those under way *)
| DLose (i : nat)
| DTouch                                    (* the object is changed otherwise *)
| DWatch (k : nat)                          (* the informer moves on by k versions, or lists again *)
| DPod (e : Kube_Model.event)               (* a pod changes; the informer; answers to requests *)
| DGet (expired : bool) (order : list pod)  (* a reconciler takes the key *)
| DTimer                                    (* the backoff is over *)
| DRestart (expired : bool).                (* the controller is restarted *)
Inductive dout := DNone | DSent (k : nat) | DPatched (k : nat) (v : Z).
Record dobs := DObs { o_kube : list (Kube_Model.event * list Kube_Model.obs); o_out : dout }.

(** backend.py 473-483. *)
Definition limited (lim : option Z) (k : Z) : Z := match lim with Some m => if m <? k then m else k | None => k end.
(** The part of the steps that Kube_Model.v tells: events that are not runs or restarts. *)
Definition pod_event (e : Kube_Model.event) : bool :=
  match e with EReconcile _ _ _ | ERestart _ _ | EDeliver true _ | ERelist true _ => false | _ => true end.
(** queue.put in the handlers (541, 556); the end of a run: put_backoff and task_done
    (600-605). *)
Definition puts (os : list Kube_Model.obs) : bool := existsb (fun o => match o with OCall _ true => true | _ => false end) os.
Definition ends (os : list Kube_Model.obs) : bool := existsb (fun o => match o with OReturn _ => true | _ => false end) os.
Definition requeues (os : list Kube_Model.obs) : bool := existsb (fun o => match o with OReturn true => true | _ => false end) os.
(** A step of Kube_Model.v and what it means for the queue. *)
Definition in_kube (e : Kube_Model.event) (dirty busy : bool) (s : depot) : depot * dobs :=
  let '(k, os) := Kube_Model.step (d_kube s) e in
  (Depot k (d_vers s) (d_seen s) (dirty || puts os) (busy && negb (ends os)) (d_timer s || requeues os) (d_size s) (d_sent s) (d_wire s), DObs [(e, os)] DNone).
(** spec.get("replicas", 0) of the cached object (746). *)
Definition replicas (s : depot) : Z := default 0 (d_vers s !! (d_seen s - 1)%nat).
(** A new version of the object. *)
Definition patch (v : Z) (s : depot) : depot := Depot (d_kube s) (d_vers s ++ [v]) (d_seen s) (d_dirty s) (d_busy s) (d_timer s) (d_size s) (d_sent s) (d_wire s).
(** The newest spec.replicas. *)
Definition newest (s : depot) : Z := default 0 (last (d_vers s)).
(** The patch of the heartbeat (485-493): one that changes nothing makes no new version. *)
Definition patch_replicas (v : Z) (s : depot) : depot := if v =? newest s then s else patch v s.
(** queue.put (104-107, 572-575). *)
Definition set_dirty (s : depot) : depot := Depot (d_kube s) (d_vers s) (d_seen s) true (d_busy s) (d_timer s) (d_size s) (d_sent s) (d_wire s).
(** Heartbeats under way. *)
Definition set_wire (l : list (nat * Z)) (s : depot) : depot := Depot (d_kube s) (d_vers s) (d_seen s) (d_dirty s) (d_busy s) (d_timer s) (d_size s) (d_sent s) l.
(** Nothing to be seen. *)
Definition nothing (s : depot) : depot * dobs := (s, DObs [] DNone).

(** One step; the places in the code are named with the events and functions above. *)
Definition dstep (lim : option Z) (s : depot) (e : devent) : depot * dobs :=
  match e with
  | DSize k => nothing (Depot (d_kube s) (d_vers s) (d_seen s) (d_dirty s) (d_busy s) (d_timer s) k (d_sent s) (d_wire s))
  | DBeat =>
      let k := S (d_sent s) in
      (Depot (d_kube s) (d_vers s) (d_seen s) (d_dirty s) (d_busy s) (d_timer s) (d_size s) k (d_wire s ++ [(k, d_size s)]), DObs [] (DSent k))
  | DArrive i r =>
      match d_wire s !! i with
      | Some (k, n) =>
          let s1 := set_wire (delete i (d_wire s)) s in
          let v := limited lim n in
          match r with
          | AUnknown | AFailed => nothing s1
          | APatched | ALost => (patch_replicas v s1, DObs [] (DPatched k v))
          end
      | None => nothing s
      end
  | DLose i => nothing (set_wire (delete i (d_wire s)) s)
  | DTouch => nothing (patch (newest s) s)
  | DWatch k =>
      nothing (set_dirty (Depot (d_kube s) (d_vers s) (Nat.min (length (d_vers s)) (d_seen s + k)) (d_dirty s) (d_busy s) (d_timer s) (d_size s) (d_sent s) (d_wire s)))
  | DPod e => if pod_event e then in_kube e (d_dirty s) (d_busy s) s else nothing s
  | DGet x order =>
      if d_dirty s && negb (d_busy s) && lists order (pending (inf (d_kube s))) then in_kube (EReconcile (replicas s) x order) false true s else nothing s
  | DTimer => if d_timer s then nothing (set_dirty (Depot (d_kube s) (d_vers s) (d_seen s) (d_dirty s) (d_busy s) false (d_size s) (d_sent s) (d_wire s))) else nothing s
  | DRestart x =>
      let '(s1, o) := in_kube (ERestart false x) true false s in
      (Depot (d_kube s1) (d_vers s1) (length (d_vers s1)) true false false (d_size s1) (d_sent s1) (d_wire s1), o)
  end.
