(** The life of one cluster on Kubernetes: Phase_Model.v together with the key of the
    cluster in the controller's work queue, and with what the controller's informers know
    about the scheduler's pod and the endpoints of its service
    (S/backends/kubernetes/controller.py 500-619, S/workqueue.py 73-172).

    S = dask-gateway-server/dask_gateway_server.
    Simplifications: those of Phase_Model.v; the work queue as far as this cluster's key is
    concerned (C01-C05); of the workers' pods only that they may put the key.  A run may use
    any value that the informers' caches had since it began. *)
From Coq Require Import ZArith.
From stdpp Require Import list.
From Verif Require Import Phase_Model.
Open Scope Z_scope.
Global Instance pphase_dec : EqDecision pphase. Proof. solve_decision. Defined.
Global Instance cstate_dec : EqDecision cstate. Proof. solve_decision. Defined.
Global Instance pod_dec : EqDecision pod. Proof. solve_decision. Defined.

(** [l_obj]: the object, its versions, and the run going on.  The key is on the queue
    ([l_dirty]), or to be put later ([l_timer], put_backoff).  [l_pods], [l_ends]: the
    scheduler's pod and the endpoints (ready or not) in the caches, the newest first, as
    far back as to the beginning of the run. *)
Record life := Life { l_obj : Phase_Model.state; l_dirty : bool; l_timer : bool; l_pods : list (option pod); l_ends : list (option bool) }.
Definition linit (o : obj) : life := Life (init o) false false [None] [None].
(** What the caches hold now. *)
Definition the_pod (s : life) : option pod := default None (head (l_pods s)).
Definition the_ends (s : life) : option bool := default None (head (l_ends s)).

Inductive levent :=
| LStop                                  (* stop_cluster: spec.active := False *)
| LScale (n : Z)                         (* a heartbeat: spec.replicas := n *)
| LWatch (n : nat)                       (* the informer sees n more versions of the object *)
| LPod (p : option pod)                  (* ... the scheduler's pod as changed, or deleted *)
| LEnds (e : option bool)                (* ... the endpoints as changed, or deleted *)
| LWake                                  (* an event of a worker's pod puts the key *)
| LGet                                   (* a reconciler takes the key *)
| LEnd (w : world) (applied ok : bool)   (* the run ends *)
| LTimer                                 (* the backoff is over *)
| LExpire (t : Z)                        (* cleanup_expired_cluster_records_loop *)
| LRestart (p : option pod) (e : option bool). (* the controller is restarted; its informers list anew *)

(** Any step of Phase_Model.v. *)
Definition with_obj (max_age : Z) (e : event) (s : life) : life * list obs :=
  let '(o, os) := step max_age (l_obj s) e in (Life o (l_dirty s) (l_timer s) (l_pods s) (l_ends s), os).
(** queue.put (workqueue.py 104-107). *)
Definition put (s : life) : life := Life (l_obj s) true (l_timer s) (l_pods s) (l_ends s).
(** cluster_key in self.stopped_clusters (504, 547, 566). *)
Definition stopping (s : life) : bool := match noted (l_obj s) with Some _ => true | None => false end.
(** on_pod_update for the scheduler (506-512), on_pod_delete (549-551). *)
Definition pod_matters (p : option pod) : bool :=
  match p with None => true | Some p => match container_state p with SRunning | STerminated => true | _ => false end end.
(** on_endpoints_update (564-570). *)
Definition ends_matter (e : option bool) : bool := match e with Some true => true | _ => false end.
(** The run raised, or asked to be repeated: put_backoff (594-603). *)
Definition again (os : list obs) : bool := existsb (fun o => match o with ORaised | ODone true => true | _ => false end) os.

(** One step; the places in the code are named with the events and functions above.  The
    cluster informer calls on_cluster_update for what it sees (572-575). *)
Definition lstep (max_age : Z) (s : life) (e : levent) : life * list obs :=
  match e with
  | LStop => with_obj max_age EStop s
  | LScale n => with_obj max_age (EScale n) s
  | LWatch n =>
      let '(s1, os) := with_obj max_age (ECache n) s in
      (if (seen (l_obj s) <? seen (l_obj s1))%nat then put s1 else s1, os)
  | LPod p =>
      let s1 := Life (l_obj s) (l_dirty s) (l_timer s) (p :: l_pods s) (l_ends s) in
      (if pod_matters p && negb (stopping s) then put s1 else s1, [])
  | LEnds e =>
      let s1 := Life (l_obj s) (l_dirty s) (l_timer s) (l_pods s) (e :: l_ends s) in
      (if ends_matter e && negb (stopping s) then put s1 else s1, [])
  | LWake => (if negb (stopping s) then put s else s, [])
  | LGet =>
      match l_dirty s, busy (l_obj s) with
      | true, None =>
          with_obj max_age EBegin (Life (l_obj s) false (l_timer s) [the_pod s] [the_ends s])
      | _, _ => (s, [])
      end
  | LEnd w applied ok =>
      if decide (seen_pod w ∈ l_pods s /\ endpoints w ∈ l_ends s) then
        let '(s1, os) := with_obj max_age (EEnd w applied ok) s in
        (Life (l_obj s1) (l_dirty s1) (l_timer s1 || again os) (l_pods s1) (l_ends s1), os)
      else (s, [])
  | LTimer => (if l_timer s then Life (l_obj s) true false (l_pods s) (l_ends s) else s, [])
  | LExpire t => with_obj max_age (EExpire t) s
  | LRestart p e =>
      let '(s1, os) := with_obj max_age ERestart s in (Life (l_obj s1) true false [p] [e], os)
  end.
