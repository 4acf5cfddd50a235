(** Model of how the Kubernetes controller keeps track of the worker pods of one
    cluster and scales it
    (dask-gateway-server/dask_gateway_server/backends/kubernetes/controller.py:
    ClusterInfo 74-142, on_pod_update 503-541, on_pod_delete 543-556,
    handle_running_cluster 734-755, create_pod/delete_pod 758-798, batch_create_pods
    800-821, handle_scale_up 823-852, handle_scale_down 854-881), together with the
    part of the API server it talks to: the pods that exist, and the watch events not
    yet delivered.  Only worker pods of one cluster, whose scheduler is running. *)
From Coq Require Import ZArith.
From stdpp Require Import gmap.
Local Open Scope Z_scope.

Definition pod := positive.
(** pod["status"]: the phase (or "Unknown" when it is missing), and the state of the
    container dask-worker if containerStatuses lists it (41-46).  [Active] is any other
    phase, that is Running.  The state of a container has exactly one key. *)
Inductive phase := Pending | Succeeded | Failed | Unknown | Active.
Inductive cstate := Waiting | Running | Terminated (code : Z).
Record status := Status { ph : phase; cs : option cstate }.

(** ClusterInfo (74-110); the time stamp is left out: whether expectations have
    expired is a parameter of the events. *)
Record info := Info { all_pods : gset pod; pending : gset pod; running : gset pod; succeeded : gset pod; failed : gset pod; creates : Z; deletes : Z }.
(** __init__ (81-87). *)
Definition info0 : info := Info ∅ ∅ ∅ ∅ ∅ 0 0.
(** set_expectations (89-95). *)
Definition set_expectations (i : info) (c d : Z) : info := Info (all_pods i) (pending i) (running i) (succeeded i) (failed i) c d.
(** expectations_fulfilled, should_trigger (97-108). *)
Definition fulfilled (i : info) : bool := (creates i <=? 0) && (deletes i <=? 0).
Definition should_trigger (expired : bool) (i : info) : bool := fulfilled i || expired.

(** _update (110-123). *)
Inductive kind := KPending | KRunning | KSucceeded | KFailed.
Definition kind_eqb (a b : kind) : bool :=
  match a, b with KPending, KPending | KRunning, KRunning | KSucceeded, KSucceeded | KFailed, KFailed => true | _, _ => false end.
Definition pods_of (i : info) (k : kind) : gset pod :=
  match k with KPending => pending i | KRunning => running i | KSucceeded => succeeded i | KFailed => failed i end.
Definition update (i : info) (k : kind) (p : pod) : info * bool :=
  let i1 := if decide (p ∈ all_pods i) then i
            else Info ({[p]} ∪ all_pods i) (pending i) (running i) (succeeded i) (failed i) (creates i - 1) (deletes i) in
  let set n s := if kind_eqb n k then {[p]} ∪ s else s ∖ {[p]} in
  let change := negb (bool_decide (p ∈ pods_of i1 k)) in
  (Info (all_pods i1) (set KPending (pending i1)) (set KRunning (running i1)) (set KSucceeded (succeeded i1)) (set KFailed (failed i1)) (creates i1) (deletes i1), change).
(** on_worker_deleted (137-142). *)
Definition worker_deleted (i : info) (p : pod) : info :=
  if decide (p ∈ all_pods i)
  then Info (all_pods i ∖ {[p]}) (pending i ∖ {[p]}) (running i ∖ {[p]}) (succeeded i ∖ {[p]}) (failed i ∖ {[p]}) (creates i) (deletes i - 1)
  else i.

(** Which on_worker_* method on_pod_update calls, if any (518-538). *)
Definition recognise (st : status) : option kind :=
  match ph st, cs st with
  | Unknown, _ | _, None => None
  | Pending, Some _ => Some KPending
  | Succeeded, Some _ => Some KSucceeded
  | Failed, Some _ => Some KFailed
  | Active, Some (Terminated c) => if c =? 0 then Some KSucceeded else None
  | Active, Some Running => Some KRunning
  | Active, Some Waiting => None
  end.
(** Does on_pod_update return early (519-523)? *)
Definition ignored (st : status) : bool := match ph st, cs st with Unknown, _ | _, None => true | _, _ => false end.
(** on_pod_update for a worker pod (515-541): the new info, and is the cluster put on
    the queue?  [stopping]: the cluster is in stopped_clusters. *)
Definition on_pod_update (stopping expired : bool) (i : info) (p : pod) (st : status) : info * bool :=
  if ignored st then (i, false)
  else match recognise st with
       | None => (i, should_trigger expired i && negb stopping)
       | Some k => let '(i1, change) := update i k p in
                   (i1, ((match k with KFailed => change | _ => false end) || should_trigger expired i1) && negb stopping)
       end.
(** on_pod_delete for a worker pod (552-556). *)
Definition on_pod_delete (stopping expired : bool) (i : info) (p : pod) : info * bool :=
  let i1 := worker_deleted i p in (i1, should_trigger expired i1 && negb stopping).

(** What the reconciler of this cluster is doing.  [Creating rest batch inflight bad
    todel]: in batch_create_pods, with [inflight] requests of the current batch (of
    size at most [batch]) unanswered, [bad]: one of the batch has failed, [rest] pods
    not submitted yet; [todel] to be deleted afterwards.  [Deleting todel bad]: waiting
    for the answers to these delete requests; [bad]: the value to return so far. *)
Inductive prog := Idle | Creating (rest batch inflight : nat) (bad : bool) (todel : list pod) | Deleting (todel : list pod) (bad : bool).
Inductive wev := Upd (p : pod) (st : status) | Del (p : pod).
(** [srv]: the pods that exist, with a note whether the pod has come to its end;
    [used]: the names ever used; [wq]: watch events not delivered yet; [cached]: keys of
    the informer's cache. *)
Record state := State { srv : gmap pod (status * bool); used : gset pod; wq : list wev; cached : gset pod; inf : info; pc : prog }.
Definition init : state := State ∅ ∅ [] ∅ info0 Idle.

(** Answer to a create request: made; refused and not made; an error although made. *)
Inductive cresp := Made (p : pod) | Refused | Lost (p : pod).
Inductive event :=
| EStatus (p : pod) (st : status)        (* the status of a pod changes *)
| EGone (p : pod)                        (* a pod is gone from the server *)
| EDeliver (stopping expired : bool)     (* the informer handles one watch event *)
| ERelist (stopping expired : bool)      (* the informer lists again *)
| ERestart (stopping expired : bool)     (* the controller is restarted; its informer has listed *)
| EReconcile (replicas : Z) (expired : bool) (order : list pod)
| ECreate (r : cresp)                    (* answer to one of the create requests *)
| EDelete (p : pod) (ok : bool).         (* answer to one of the delete requests *)
(** What can be observed of a step: handler calls with whether the cluster was put
    on the queue, requests sent, the return value of the reconciliation. *)
Inductive obs := OReset | OCall (w : wev) (put : bool) | OCreate (n : nat) | ODeletes (ps : list pod) | OReturn (requeue : bool).

(** An informer callback (utils.py 112-128): the cache is changed first. *)
Definition call (stopping expired : bool) (x : gset pod * info * list obs) (w : wev) : gset pod * info * list obs :=
  let '(c, i, o) := x in
  match w with
  | Upd p st => let '(i1, put) := on_pod_update stopping expired i p st in ({[p]} ∪ c, i1, o ++ [OCall w put])
  | Del p => let '(i1, put) := on_pod_delete stopping expired i p in (c ∖ {[p]}, i1, o ++ [OCall w put])
  end.
(** handle_initial (utils.py 86-110): the callbacks of a relist. *)
Definition relist_calls (s : state) : list wev :=
  map Del (elements (cached s ∖ dom (srv s))) ++ map (fun '(p, (st, _)) => Upd p st) (map_to_list (srv s)).
Definition relist (stopping expired : bool) (s : state) : state * list obs :=
  let '(c, i, o) := foldl (call stopping expired) (cached s, inf s, []) (relist_calls s) in
  (State (srv s) (used s) [] c i (pc s), o).

(** l[:delta] for delta <= 0. *)
Definition py_slice {A} (l : list A) (delta : Z) : list A :=
  if delta =? 0 then [] else take (Z.to_nat (Z.max 0 (Z.of_nat (length l) + delta))) l.
(** The requests to delete (reached with no creations left). *)
Definition start_deletes (s : state) (i : info) (todel : list pod) (bad : bool) : state * list obs :=
  match todel with
  | [] => (State (srv s) (used s) (wq s) (cached s) i Idle, [OReturn bad])
  | _ => (State (srv s) (used s) (wq s) (cached s) i (Deleting todel bad), [ODeletes todel])
  end.
(** handle_running_cluster with a running scheduler (740-756).  [order] is the order
    in which list(info.pending) lists the set; an order that does not list exactly
    the set is refused. *)
Definition lists (order : list pod) (x : gset pod) : bool := bool_decide (NoDup order) && bool_decide (list_to_set order = x).
Definition reconcile (s : state) (replicas : Z) (expired : bool) (order : list pod) : state * list obs :=
  let i := inf s in
  if negb (should_trigger expired i) then (s, [OReturn false])
  else
    let n_workers := Z.of_nat (size (running i ∪ pending i)) in
    let delta := replicas - n_workers in
    let stopped := elements (succeeded i ∪ failed i) in
    if 0 <? delta then
      (* handle_scale_up: expectations, then the first batch of one *)
      let i1 := set_expectations i delta (Z.of_nat (length stopped)) in
      (State (srv s) (used s) (wq s) (cached s) i1 (Creating (Z.to_nat (delta - 1)) 1 1 false stopped), [OCreate 1])
    else
      (* handle_scale_down *)
      let pods := py_slice order delta ++ stopped in
      match pods with
      | [] => (s, [OReturn false])
      | _ => start_deletes s (set_expectations i 0 (Z.of_nat (length pods))) pods false
      end.
(** The answer to a create request (create_pod 758-782), and when it was the last of
    its batch, what batch_create_pods does next (814-821). *)
Definition add_creates (i : info) (d : Z) : info := Info (all_pods i) (pending i) (running i) (succeeded i) (failed i) (creates i + d) (deletes i).
Definition created (s : state) (p : pod) : state :=
  let st := Status Pending None in
  State (<[p := (st, false)]> (srv s)) ({[p]} ∪ used s) (wq s ++ [Upd p st]) (cached s) (inf s) (pc s).
Definition answered (s : state) (ok : bool) : state * list obs :=
  match pc s with
  | Creating rest batch (S n) bad todel =>
    let i := if ok then inf s else add_creates (inf s) (-1) in
    let bad1 := bad || negb ok in
    match n with
    | S _ => (State (srv s) (used s) (wq s) (cached s) i (Creating rest batch n bad1 todel), [])
    | O =>
      if bad1 then start_deletes s (add_creates i (- Z.of_nat rest)) todel true
      else match rest with
           | O => start_deletes s i todel false
           | S _ => let m := Nat.min (2 * batch) rest in
                    (State (srv s) (used s) (wq s) (cached s) i (Creating (rest - m) (2 * batch) m false todel), [OCreate m])
           end
    end
  | _ => (s, [])
  end.
(** The answer to a delete request (delete_pod 784-798).  Failures include 404: its
    test reads exc.code, which an ApiException does not have, and that raises too. *)
Definition sub_deletes (i : info) : info := Info (all_pods i) (pending i) (running i) (succeeded i) (failed i) (creates i) (deletes i - 1).
Definition answered_delete (s : state) (p : pod) (ok : bool) : state * list obs :=
  match pc s with
  | Deleting todel bad =>
    if decide (p ∈ todel) then
      let i := if ok then inf s else sub_deletes (inf s) in
      let bad1 := bad || negb ok in
      match List.filter (fun q => negb (bool_decide (q = p))) todel with
      | [] => (State (srv s) (used s) (wq s) (cached s) i Idle, [OReturn bad1])
      | l => (State (srv s) (used s) (wq s) (cached s) i (Deleting l bad1), [])
      end
    else (s, [])
  | _ => (s, [])
  end.
(** Has the pod come to its end?  Then it never runs or waits again: the phases
    Succeeded and Failed are final, and with restartPolicy OnFailure (1184) a container
    that ended with 0 is not restarted. *)
Definition ended (st : status) : bool := match recognise st with Some KSucceeded | Some KFailed => true | _ => false end.
Definition alive (st : status) : bool := match recognise st with Some KPending | Some KRunning => true | _ => false end.

Definition step (s : state) (e : event) : state * list obs :=
  match e with
  | EStatus p st =>
    match srv s !! p with
    | Some (_, done) => if done && alive st then (s, [])
                        else (State (<[p := (st, done || ended st)]> (srv s)) (used s) (wq s ++ [Upd p st]) (cached s) (inf s) (pc s), [])
    | None => (s, [])
    end
  | EGone p =>
    match srv s !! p with
    | Some _ => (State (delete p (srv s)) (used s) (wq s ++ [Del p]) (cached s) (inf s) (pc s), [])
    | None => (s, [])
    end
  | EDeliver stopping expired =>
    match wq s with
    | [] => (s, [])
    | w :: q => let '(c, i, o) := call stopping expired (cached s, inf s, []) w in (State (srv s) (used s) q c i (pc s), o)
    end
  | ERelist stopping expired => relist stopping expired s
  | ERestart stopping expired =>
    let '(s1, o) := relist stopping expired (State (srv s) (used s) [] ∅ info0 Idle) in (s1, OReset :: o)
  | EReconcile replicas expired order =>
    match pc s with
    | Idle => if lists order (pending (inf s)) then reconcile s replicas expired order else (s, [])
    | _ => (s, [])
    end
  | ECreate r =>
    match pc s with
    | Creating _ _ (S _) _ _ =>
      match r with
      | Made p => if decide (p ∈ used s) then (s, []) else answered (created s p) true
      | Refused => answered s false
      | Lost p => if decide (p ∈ used s) then (s, []) else answered (created s p) false
      end
    | _ => (s, [])
    end
  | EDelete p ok => answered_delete s p ok
  end.
