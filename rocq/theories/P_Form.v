(** C156: the widgets of the client's options. *)
From Coq Require Import QArith Qcanon Lia.
From stdpp Require Import prelude.
From Verif Require Import Form_Model Form_Proofs.
Local Open Scope Qc_scope.

(** Whatever is assigned and entered, a field's value is valid. *)
Theorem C156_valid : forall f es, allowed (f_kind f) (f_value f) -> allowed (f_kind f) (f_value (run f es)).
Proof.
  intros f es. rewrite !allowed_iff. intros H. induction es as [|e es IH] using rev_ind; [done|]. rewrite run_snoc.
  rewrite <- (kind_run f es) in IH |- *. by apply valid_step.
Qed.
(** What its input shows is the value, if no bound of a Float is zero and no number beyond 64 bits
    is assigned to an Integer with one bound. *)
Theorem C156_agree : forall k v es x, allowed k v -> small k v -> no_zero k -> (forall y, Assign y ∈ es -> small k y) ->
  f_input (run (Field k v None) es) = Some x -> f_value (run (Field k v None) es) = x.
Proof.
  intros k v es x Hv Hs Hz He Hx. apply allowed_iff in Hv. assert (Ha : agrees (Field k v None)) by (repeat split; auto).
  destruct (agrees_run (Field k v None) es Hz Ha He) as (_ & _ & [H|H]); rewrite H in Hx; congruence.
Qed.
(** Then a valid value that is assigned is the value, shown as well; an invalid one raises and
    changes nothing; a valid value that is entered is the value. *)
Theorem C156_assign : forall k v es x, allowed k v -> small k v -> no_zero k -> (forall y, Assign y ∈ es -> small k y) ->
  allowed k x -> small k x ->
  (set (run (Field k v None) es) x).2 = true /\ f_value (set (run (Field k v None) es) x).1 = x /\
  (forall y, f_input (set (run (Field k v None) es) x).1 = Some y -> y = x).
Proof.
  intros k v es x Hv Hs Hz He Hx Sx. apply allowed_iff in Hv, Hx. assert (Ha : agrees (Field k v None)) by (repeat split; auto).
  pose proof (agrees_run (Field k v None) es Hz Ha He) as Hr. rewrite agrees_set; rewrite ?kind_run; try done.
  cbn. split; [done|]. split; [done|]. intros y. destruct (f_input _); congruence.
Qed.
Theorem C156_refused : forall f x, ~ allowed (f_kind f) x -> set f x = (f, false).
Proof. intros f x H. unfold set. destruct (valid (f_kind f) x) eqn:E; [|done]. by apply allowed_iff in E. Qed.
Theorem C156_entered : forall k v es x y, allowed k v -> small k v -> no_zero k -> (forall y, Assign y ∈ es -> small k y) ->
  f_input (run (Field k v None) es) = Some y -> allowed k x -> small k x ->
  f_value (run (Field k v None) (es ++ [Enter x])) = x.
Proof.
  intros k v es x y Hv Hs Hz He Hy Hx Sx. pose proof Hv as Hv'. apply allowed_iff in Hv, Hx. rewrite run_snoc. cbn [step]. unfold enter. rewrite Hy, kind_run. cbn [f_kind].
  rewrite clamp_valid by done. pose proof (C156_agree k v es y Hv' Hs Hz He Hy) as E.
  destruct (decide (x = y)) as [-> |]; [done|]. by rewrite Hx.
Qed.

(** Mappings, for every way of reading and writing YAML that reads what it wrote: the input's text
    stands for the value, or it is marked as wrong and is no mapping that could be written. *)
Theorem C156_mapping : forall load dump n d es, (forall d t, dump d = Some t -> load t = Dict d) ->
  let s := mrun load dump (S (S n)) (Mapping d None false) es in
  forall t, m_input s = Some t ->
    (m_error s = false -> load t = Dict (m_value s)) /\ (m_error s = true -> forall d, load t = Dict d -> dump d = None).
Proof.
  intros load dump n d es Hrt s t Ht. pose proof (mrun_fits load dump n (Mapping d None false) es Hrt I) as Hf. fold s in Hf.
  unfold fits in Hf. rewrite Ht in Hf. destruct (m_error s); split; try done. intros _. by apply Hrt.
Qed.
(** A mapping that is assigned is the value and is shown; a text that is no mapping changes nothing
    and is marked; a text that is one sets the value. *)
Theorem C156_mapping_assign : forall load dump n d es d' t, (forall d t, dump d = Some t -> load t = Dict d) -> dump d' = Some t ->
  let s := mrun load dump (S (S n)) (Mapping d None false) (es ++ [MAssign d']) in
  m_value s = d' /\ forall x, m_input s = Some x -> x = t /\ m_error s = false.
Proof.
  intros load dump n d es d' t Hrt Hd. unfold mrun. rewrite fold_left_app. cbn [fold_left mstep].
  rewrite (mset_fits _ _ _ _ _ t Hrt); [|by apply mrun_fits|done]. cbn. split; [done|]. intros x. destruct (m_input _); [|done]. intros [= <-]. done.
Qed.
Theorem C156_mapping_enter : forall load dump n d es t x, (forall d t, dump d = Some t -> load t = Dict d) ->
  let s := mrun load dump (S (S n)) (Mapping d None false) es in
  let s' := mrun load dump (S (S n)) (Mapping d None false) (es ++ [MEnter t]) in
  m_input s = Some x -> x <> t ->
  (forall d', load t = Dict d' -> dump d' <> None -> m_value s' = d' /\ m_error s' = false) /\
  ((forall d', load t <> Dict d') -> m_value s' = m_value s /\ m_input s' = Some t /\ m_error s' = true).
Proof.
  intros load dump n d es t x Hrt s s' Hx Hn.
  assert (E : s' = mstep load dump (S (S n)) s (MEnter t)) by (unfold s', s, mrun; by rewrite fold_left_app).
  rewrite E. cbn [mstep]. rewrite Hx, decide_False by done. unfold handler. split.
  - intros d' Hl Hd. rewrite Hl. cbn [mset]. destruct (dump d') as [t'|] eqn:Hd'; [|done]. cbn [m_input].
    destruct (decide (t = t')) as [-> |]; [done|]. rewrite (Hrt d' t' Hd'), Hd'. cbn [m_input]. by rewrite decide_True.
  - intros Hl. destruct (load t) as [d'| |]; [by destruct (Hl d')|done..].
Qed.

Definition real0 : kind := Real (Some (q 1)) (Some (q 8)).
Definition es0 : list event := [Assign (q 3); Display; Enter (q 20); Assign (q 9); Enter (q 5)].
Example C156_case : allowed real0 (q 2) /\ no_zero real0 /\
  f_value (run (Field real0 (q 2) None) es0) = q 5 /\ f_input (run (Field real0 (q 2) None) es0) = Some (q 5) /\
  f_value (run (Field real0 (q 2) None) (take 3 es0)) = q 8 /\ f_value (run (Field real0 (q 2) None) (take 4 es0)) = q 8.
Proof.
  split; [apply allowed_iff; vm_compute; reflexivity|]. split; [split; intros H; vm_compute in H; discriminate|].
  repeat split; apply (bool_decide_unpack _); vm_compute; exact I.
Qed.
(** A YAML of which the text [S (S d)] is the mapping [d] as written, texts above 100 other ways to
    write it, 1 no mapping and 0 no YAML; mappings above 40 cannot be written. *)
Definition load0 (t : nat) : loaded :=
  match t with
  | 0 => Invalid | 1 => NotDict
  | S (S d) => if decide (100 <= d)%nat then Dict (d - 100) else Dict d
  end%nat.
Definition dump0 (d : nat) : option nat := if decide (d <= 40)%nat then Some (S (S d)) else None.
Example C156_mapping_case : (forall d t, dump0 d = Some t -> load0 t = Dict d) /\
  let s := fun es => mrun load0 dump0 9 (Mapping 3 None false) es in
  s [MDisplay; MEnter 109] = Mapping 7 (Some 9%nat) false /\
  s [MDisplay; MEnter 1] = Mapping 3 (Some 1%nat) true /\
  s [MDisplay; MEnter 1; MAssign 4] = Mapping 4 (Some 6%nat) false /\
  s [MDisplay; MAssign 41] = Mapping 3 (Some 5%nat) false.
Proof.
  split; [|repeat split; vm_compute; reflexivity]. intros d t. unfold dump0. destruct (decide _) as [H|]; [|done]. intros [= <-].
  cbn. rewrite decide_False by lia. done.
Qed.

(** False for a Float with a bound of zero: its input has no such bound, so it takes and shows a
    number that the field refuses; the options keep another one, and nothing marks that. *)
Theorem C156_zero_refuted : exists k v es x, allowed k v /\ f_input (run (Field k v None) es) = Some x /\
  ~ allowed k x /\ f_value (run (Field k v None) es) <> x.
Proof.
  exists (Real (Some 0) None), (q 1), [Display; Enter (q (-1))], (q (-1)). split; [apply allowed_iff; vm_compute; reflexivity|].
  split; [apply (bool_decide_unpack _); vm_compute; exact I|]. split; [rewrite allowed_iff; vm_compute; discriminate|].
  apply (bool_decide_unpack _); vm_compute; exact I.
Qed.
(** False for an Integer with a lower bound only: once it is displayed, a large number that is
    assigned becomes another one, without an exception. *)
Theorem C156_large_refuted : exists k v x y, allowed k v /\ allowed k x /\ x <> y /\
  (set (run (Field k v None) []) x).2 = true /\ f_value (set (run (Field k v None) []) x).1 = x /\
  (set (run (Field k v None) [Display]) x).2 = true /\ f_value (set (run (Field k v None) [Display]) x).1 = y.
Proof.
  exists (Whole (Some 0) None), (q 1), (q (2 ^ 64)), (q (2 ^ 63 - 1)).
  split; [apply allowed_iff; vm_compute; reflexivity|]. split; [apply allowed_iff; vm_compute; reflexivity|]. split; [apply (bool_decide_unpack _); vm_compute; exact I|].
  split; [vm_compute; reflexivity|]. split; [apply (bool_decide_unpack _); vm_compute; exact I|].
  split; [vm_compute; reflexivity|]. apply (bool_decide_unpack _); vm_compute; exact I.
Qed.

Print Assumptions C156_valid.
Print Assumptions C156_agree.
Print Assumptions C156_assign.
Print Assumptions C156_refused.
Print Assumptions C156_entered.
Print Assumptions C156_mapping.
Print Assumptions C156_mapping_assign.
Print Assumptions C156_mapping_enter.
Print Assumptions C156_zero_refuted.
Print Assumptions C156_large_refuted.
