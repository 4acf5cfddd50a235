(** Property C54: the gateway's view of the clusters on Kubernetes. *)
From Coq Require Import ZArith.
From stdpp Require Import gmap.
From Verif Require Import Trace View_Model View_Spec View_Proofs.

(** A key for which no update is pending is shown as its object in the cache, and not
    at all if there is none. *)
Theorem C54_current : forall h s k, exec step init h s -> done_with s k ->
  match cache s !! k, get_cluster s k with Some o, Some v => shown o v | None, None => True | _, _ => False end.
Proof. exact current. Qed.
Print Assumptions C54_current.
(** Addresses are served only for running clusters, at any time. *)
Theorem C54_addresses : forall h s k v a, exec step init h s -> get_cluster s k = Some v -> v_addr v = Some a -> v_status v = RUNNING.
Proof. exact addressed. Qed.
Print Assumptions C54_addresses.
(** A user is only listed clusters that carry their name, at any time. *)
Theorem C54_private : forall h s u sts v, exec step init h s -> v ∈ list_clusters s (Some u) sts -> v_user v = u.
Proof. exact private. Qed.
Print Assumptions C54_private.
(** Without a user name all clusters are listed. *)
Theorem C54_list_all : forall s sts v, v ∈ list_clusters s None sts <-> wanted sts v /\ exists k, get_cluster s k = Some v.
Proof. exact listed_all. Qed.
Print Assumptions C54_list_all.
(** After processing everything a user is listed exactly their objects in the cache; at
    any time the listing is that of all clusters, restricted to the user.  Missing: an
    object whose user name changes (see below). *)
Theorem C54_own_partial : forall owner h s u sts v, exec step init h s -> same_user owner h -> settled s ->
  v ∈ list_clusters s (Some u) sts <-> wanted sts v /\ exists k o, cache s !! k = Some o /\ username o = u /\ get_cluster s k = Some v.
Proof. exact own. Qed.
Print Assumptions C54_own_partial.
Theorem C54_consistent_partial : forall owner h s u sts v, exec step init h s -> same_user owner h ->
  v ∈ list_clusters s (Some u) sts <-> v ∈ list_clusters s None sts /\ v_user v = u.
Proof. exact listed_owner. Qed.
Print Assumptions C54_consistent_partial.
(** The pending updates can always be processed, if secrets can be read, and this
    changes nothing in the cache. *)
Theorem C54_drains : forall s, exists es, Forall (fun e => match e with EGet _ | ESecret (Some _) => True | _ => False end) es /\
  settled (fst (run step s es)) /\ cache (fst (run step s es)) = cache s.
Proof. exact drains. Qed.
Print Assumptions C54_drains.

Definition the_state (es : list event) : state := fst (run step init es).
Definition the_history (es : list event) : history := snd (run step init es).
Lemma the_run es : exec step init (the_history es) (the_state es).
Proof. apply (run_exec _ _ es). unfold the_state, the_history. by destruct (run step init es). Qed.

Global Instance obj_dec : EqDecision obj. Proof. solve_decision. Defined.
Global Instance view_dec : EqDecision view. Proof. solve_decision. Defined.
Definition o_start := Obj 1 RUNNING (Some 7%positive) true None.
Definition o_end := Obj 1 STOPPED (Some 7%positive) true (Some 60%Z).
Definition o_other := Obj 2 PENDING None false None.
(** Two users; a secret that cannot be read at first; then a cluster stops. *)
Definition ex_events := [EPut 5 o_start; EPut 6 o_other; EGet 5; ESecret None; EGet 6; EGet 5; EPut 5 o_end; ESecret (Some 9%positive); EGet 5].
Lemma nothing_left (s : state) : dirty s = ∅ -> proc s = None -> settled s.
Proof. intros H1 H2 k. split; [rewrite H1; apply not_elem_of_empty|]. intros v. by rewrite H2. Qed.
Example C54_example : settled (the_state ex_events) /\ same_user (fun k => if decide (k = 5%positive) then 1%positive else 2%positive) (the_history ex_events) /\
  get_cluster (the_state ex_events) 5 = Some (View 1 STOPPED None (Some 9%positive) (Some 60%Z)) /\
  list_clusters (the_state ex_events) (Some 1%positive) None = [] /\
  list_clusters (the_state ex_events) (Some 1%positive) (Some [STOPPED]) = [View 1 STOPPED None (Some 9%positive) (Some 60%Z)] /\
  list_clusters (the_state ex_events) (Some 2%positive) None = [View 2 PENDING None None None].
Proof. split; [apply nothing_left; [apply (bool_decide_unpack _); vm_compute; done|vm_compute; reflexivity]|]. split; [vm_compute; repeat constructor|]. repeat split; vm_compute; reflexivity. Qed.
Example C54_addresses_example : get_cluster (the_state (take 8 ex_events)) 5 = Some (View 1 RUNNING (Some 7%positive) (Some 9%positive) None).
Proof. vm_compute. reflexivity. Qed.

(** The full claim is false: a cluster object whose user name is changed stays in the
    former user's listing, also after it is deleted. *)
Definition moved_events := [EPut 5 o_start; EGet 5; ESecret (Some 9%positive); EPut 5 (Obj 2 RUNNING (Some 7%positive) true None); EGet 5].
Lemma nobody (s : state) u : cache s = ∅ -> ~ exists k o, cache s !! k = Some o /\ username o = u.
Proof. intros E (k & o & H & _). rewrite E in H. by rewrite lookup_empty in H. Qed.
Theorem C54_own_refuted : exists h s u v, exec step init h s /\ settled s /\ v ∈ list_clusters s (Some u) None /\ ~ exists k o, cache s !! k = Some o /\ username o = u.
Proof.
  exists (the_history (moved_events ++ [EGone 5; EGet 5])), (the_state (moved_events ++ [EGone 5; EGet 5])), 1%positive, (View 1 RUNNING (Some 7%positive) (Some 9%positive) None).
  split; [apply the_run|]. split; [apply nothing_left; [apply (bool_decide_unpack _); vm_compute; done|vm_compute; reflexivity]|]. split.
  - change (View 1 RUNNING (Some 7%positive) (Some 9%positive) None ∈ list_clusters (the_state (moved_events ++ [EGone 5; EGet 5])) (Some 1%positive) None). apply (bool_decide_unpack _). vm_compute. done.
  - apply nobody. apply (bool_decide_unpack _). vm_compute. done.
Qed.
Print Assumptions C54_own_refuted.
