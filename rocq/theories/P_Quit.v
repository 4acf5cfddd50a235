(** C157: the clusters of a program that ends. *)
From Coq Require Import Lia.
From stdpp Require Import prelude.
From Verif Require Import Quit_Model Quit_Proofs.
Local Open Scope nat_scope.

(** A cluster started with shutdown_on_close by a GatewayCluster whose object was neither closed nor
    given up, whatever else the program did: when the interpreter ends, the gateway is asked to
    stop it.  Partial: if no object is left whose construction failed before it had a gateway. *)
Theorem C157_exit_partial : forall es1 es2 n order,
  let i := length (s_objects (run es1)) in
  let es := es1 ++ Make false true true (Starts n) :: es2 in
  (forall sd, Close i sd ∉ es2) -> Drop i ∉ es2 -> (forall o, Exit o ∉ es) ->
  order ≡ₚ instances (run es) ->
  (forall j o, s_objects (run es) !! j = Some o -> o_held o = true -> o_health o <> Broken) ->
  (i, n) ∈ s_asks (run (es ++ [Exit order])).
Proof.
  intros es1 es2 n order i es Hc Hd He Ho Hb.
  assert (E1 : s_over (run es1) = false).
  { destruct (s_over (run es1)) eqn:E; [|done]. destruct (over_exit es1 E) as [o H]. destruct (He o). apply elem_of_app. by left. }
  set (o := made false true true (Starts n)).
  assert (K : s_objects (run es) !! i = Some o /\ s_over (run es) = false).
  { unfold es. rewrite run_app. cbn [fold_left].
    destruct (steps_keep es2 (step (run es1) (Make false true true (Starts n))) i o) as [H1 H2].
    - unfold step. rewrite E1. cbn. unfold i. by rewrite lookup_app_r, Nat.sub_diag.
    - done.
    - done.
    - intros x H. apply (He x). apply elem_of_app. right. by right.
    - split; [done|]. rewrite H2. unfold step. by rewrite E1. }
  destruct K as [K1 K2]. rewrite run_snoc. unfold step. rewrite K2. cbn.
  apply (cleanup_up order _ i o n); try done.
  - rewrite Ho. apply instances_nodup.
  - intros j x Hj Hx. rewrite Ho in Hj. apply in_instances_iff in Hj as (x' & Hx' & Hh & _). apply (Hb j x Hx). congruence.
  - rewrite Ho. apply in_instances_iff. by exists o.
Qed.
(** An object nothing refers to any more is closed at once. *)
Theorem C157_dropped : forall es1 es2 n,
  let i := length (s_objects (run es1)) in
  let es := es1 ++ Make false true true (Starts n) :: es2 in
  (forall sd, Close i sd ∉ es2) -> Drop i ∉ es2 -> (forall o, Exit o ∉ es) ->
  (i, n) ∈ s_asks (run (es ++ [Drop i])).
Proof.
  intros es1 es2 n i es Hc Hd He.
  assert (E1 : s_over (run es1) = false).
  { destruct (s_over (run es1)) eqn:E; [|done]. destruct (over_exit es1 E) as [o H]. destruct (He o). apply elem_of_app. by left. }
  set (o := made false true true (Starts n)).
  assert (K : s_objects (run es) !! i = Some o /\ s_over (run es) = false).
  { unfold es. rewrite run_app. cbn [fold_left].
    destruct (steps_keep es2 (step (run es1) (Make false true true (Starts n))) i o) as [H1 H2].
    - unfold step. rewrite E1. cbn. unfold i. by rewrite lookup_app_r, Nat.sub_diag.
    - done.
    - done.
    - intros x H. apply (He x). apply elem_of_app. right. by right.
    - split; [done|]. rewrite H2. unfold step. by rewrite E1. }
  destruct K as [K1 K2]. rewrite run_snoc. unfold step. rewrite K2. unfold drop. rewrite K1. cbn.
  by apply (close_up _ i o n).
Qed.
(** Nothing is asked for but clusters of objects with shutdown_on_close, and such as were closed
    with shutdown=True. *)
Theorem C157_only : forall es i n, (i, n) ∈ s_asks (run es) ->
  exists o, s_objects (run es) !! i = Some o /\ o_name o = Some n /\ (o_soc o = true \/ Close i (Some true) ∈ es).
Proof. intros es. apply (run_fine es). Qed.
(** A synchronous object asks at most once. *)
Theorem C157_once : forall es i o l1 n1 l2 n2 l3, s_objects (run es) !! i = Some o -> o_async o = false ->
  s_asks (run es) <> l1 ++ (i, n1) :: l2 ++ (i, n2) :: l3.
Proof.
  intros es i o l1 n1 l2 n2 l3 Ho Ha E. destruct (run_fine es) as [_ F]. specialize (F i o Ho Ha). rewrite E in F.
  change ((i, n1) :: l2 ++ (i, n2) :: l3) with ([(i, n1)] ++ l2 ++ [(i, n2)] ++ l3) in F. rewrite !count_app in F.
  assert (C : forall n, count i [(i, n)] = 1) by (intros n; unfold count; cbn; by rewrite Nat.eqb_refl). rewrite !C in F.
  destruct (o_health o); lia.
Qed.

Definition es0 : list event :=
  [Make false true true (Starts 7); Make false false true (Starts 8); Make true true true (Starts 9); Make false true true (Fails (Some 3));
   Make false true true (Starts 4); Close 1 (Some true); Make false true true NoGateway; Drop 5; Make false true true (Starts 5); Close 4 (Some false); Drop 6].
Example C157_case : s_asks (run es0) = [(3, 3); (1, 8); (6, 5)] /\ instances (run es0) = [0; 2] /\
  s_asks (run (es0 ++ [Exit [2; 0]])) = [(3, 3); (1, 8); (6, 5); (0, 7)].
Proof. repeat split; vm_compute; reflexivity. Qed.

(** The full claim, without the condition of C157_exit_partial, is false: one construction that
    failed for want of an address, kept by its traceback, and the clusters that come after it
    in the set are left running. *)
Theorem C157_exit_refuted : exists es n order, order ≡ₚ instances (run es) /\ s_over (run es) = false /\
  s_objects (run es) !! 0 = Some (made false true true (Starts n)) /\ s_asks (run (es ++ [Exit order])) = [].
Proof.
  exists [Make false true true (Starts 7); Make false true true NoGateway], 7, [1; 0].
  split; [vm_compute; apply perm_swap|]. repeat split; vm_compute; reflexivity.
Qed.
(** False: shutdown() ("Shutdown this cluster") asks for the cluster to be stopped.  After
    close(shutdown=False) it does nothing, ever. *)
Lemma closed_silent s es i o : s_objects s !! i = Some o -> o_health o = Closed -> o_async o = false ->
  (forall e, e ∈ es -> exists sd, e = Close i sd) -> s_asks (fold_left step es s) = s_asks s.
Proof.
  intros Ho Hh Ha. induction es as [|e es IH]; intros H; [done|]. cbn [fold_left].
  assert (step s e = s) as ->.
  { destruct (H e ltac:(left)) as [sd ->]. unfold step. destruct (s_over s); [done|]. unfold close. by rewrite Ho, Hh, Ha. }
  apply IH. intros x Hx. apply H. by right.
Qed.
Theorem C157_shutdown_refuted : exists es n, s_objects (run es) !! 0 = Some (set_health Closed (made false true true (Starts n))) /\ s_asks (run es) = [] /\
  forall es', (forall e, e ∈ es' -> e = Close 0 (Some true)) -> s_asks (run (es ++ es')) = [].
Proof.
  exists [Make false true true (Starts 7); Close 0 (Some false)], 7. split; [vm_compute; reflexivity|]. split; [vm_compute; reflexivity|].
  intros es' H. rewrite run_app. rewrite (closed_silent _ es' 0 (set_health Closed (made false true true (Starts 7)))); try (vm_compute; reflexivity).
  intros e He. exists (Some true). auto.
Qed.

Print Assumptions C157_exit_partial.
Print Assumptions C157_dropped.
Print Assumptions C157_only.
Print Assumptions C157_once.
Print Assumptions C157_exit_refuted.
Print Assumptions C157_shutdown_refuted.
