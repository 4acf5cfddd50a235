(** Inputs and fields agree. *)
From Coq Require Import QArith Qcanon Lia.
From stdpp Require Import prelude.
From Verif Require Import Form_Model.
Local Open Scope Qc_scope.

Lemma leb_true a b : leb a b = true <-> a <= b.
Proof. unfold leb. destruct (Qclt_le_dec b a) as [H|H]; split; try done. intros H'. exfalso. by apply (Qclt_not_le _ _ H). Qed.
Lemma leb_false a b : leb a b = false -> b <= a.
Proof. unfold leb. destruct (Qclt_le_dec b a) as [H|H]; [|done]. intros _. by apply Qclt_le_weak. Qed.

(** No bound of a Float is zero. *)
Definition no_zero (k : kind) : Prop := match k with Real l h => l <> Some 0 /\ h <> Some 0 | _ => True end.
(** An Integer with one bound: a number that 64 bits can hold on the other side. *)
Definition small (k : kind) (x : Qc) : Prop :=
  match k with
  | Whole (Some _) None => x <= q (2 ^ 63 - 1)
  | Whole None (Some _) => q (- 2 ^ 63) <= x
  | _ => True
  end.
Lemma within_spec l h x : within l h x = true <-> (forall y, l = Some y -> y <= x) /\ (forall y, h = Some y -> x <= y).
Proof.
  unfold within. rewrite andb_true_iff. destruct l as [l|], h as [h|]; rewrite ?leb_true; naive_solver.
Qed.
(** What a field allows, as documented. *)
Definition allowed (k : kind) (x : Qc) : Prop :=
  match k with
  | Text => True
  | Choice o => x ∈ o
  | Whole l h | Real l h => (forall y, l = Some y -> y <= x) /\ (forall y, h = Some y -> x <= y)
  end.
Lemma allowed_iff k x : allowed k x <-> valid k x = true.
Proof.
  destruct k; cbn; [done| | |]; [symmetry; apply bool_decide_eq_true|symmetry; apply within_spec|symmetry; apply within_spec].
Qed.
Definition between (b : option Qc * option Qc) (x : Qc) : Prop := (forall y, b.1 = Some y -> y <= x) /\ (forall y, b.2 = Some y -> x <= y).
Lemma clamp_id k x : between (bounds k) x -> clamp k x = x.
Proof.
  unfold clamp, between. destruct (bounds k) as [l h]. cbn. intros [H1 H2].
  assert (E : raise_to l x = x).
  { destruct l as [l|]; [|done]. cbn. by rewrite (proj2 (leb_true l x) (H1 l eq_refl)). }
  rewrite E. destruct h as [h|]; [|done]. cbn. by rewrite (proj2 (leb_true x h) (H2 h eq_refl)).
Qed.
Lemma clamp_between k v x : between (bounds k) v -> between (bounds k) (clamp k x).
Proof.
  unfold clamp, between. destruct (bounds k) as [l h]. cbn. intros [H1 H2]. split.
  - intros y ->. assert (Hy : y <= raise_to (Some y) x).
    { cbn. destruct (leb y x) eqn:E; [by apply leb_true|apply Qcle_refl]. }
    destruct h as [h|]; [|done]. cbn [lower_to]. destruct (leb _ h) eqn:E; [done|].
    apply Qcle_trans with v; auto.
  - intros y ->. cbn [lower_to]. destruct (leb _ y) eqn:E; [by apply leb_true|apply Qcle_refl].
Qed.
Lemma between_iff k x : no_zero k -> (forall o, k <> Choice o) -> between (bounds k) x <-> valid k x = true /\ small k x.
Proof.
  unfold between. intros Hz Hc. destruct k as [|o|l h|l h]; cbn [bounds valid small].
  - cbn. naive_solver.
  - by destruct (Hc o).
  - rewrite within_spec. destruct l as [l|], h as [h|]; cbn [default fst snd]; naive_solver.
  - rewrite within_spec. destruct Hz as [Z1 Z2]. destruct l as [l|], h as [h|]; cbn [fst snd];
      repeat (rewrite decide_False by congruence); naive_solver.
Qed.

(** What is shown is what is held, and it is valid. *)
Definition agrees (f : field) : Prop := valid (f_kind f) (f_value f) = true /\ small (f_kind f) (f_value f) /\
  (f_input f = None \/ f_input f = Some (f_value f)).
Lemma choice_clamp o x : clamp (Choice o) x = x.
Proof. done. Qed.
Lemma clamp_valid k x : no_zero k -> valid k x = true -> small k x -> clamp k x = x.
Proof.
  intros Hz Hv Hs. destruct k as [|o| |]; [done|done|..]; apply clamp_id, between_iff; done.
Qed.
Lemma clamped_valid k v x : no_zero k -> valid k v = true -> small k v -> (forall o, k <> Choice o) -> valid k (clamp k x) = true /\ small k (clamp k x).
Proof.
  intros Hz Hv Hs Hc. apply between_iff; [done..|]. apply (clamp_between k v). by apply between_iff.
Qed.
Lemma kind_step f e : f_kind (step f e) = f_kind f.
Proof.
  destruct e as [x|x|]; cbn; unfold set, enter, display.
  - destruct (valid (f_kind f) x); [|done]. destruct (f_input f); [|done]. destruct (decide _); [done|]. by destruct (valid _ _).
  - destruct (f_input f); [|done]. destruct (decide _); [done|]. destruct (valid _ _); [done|]. destruct (f_kind f) eqn:Ek; done.
  - by destruct (f_input f).
Qed.
Lemma valid_step f e : valid (f_kind f) (f_value f) = true -> valid (f_kind f) (f_value (step f e)) = true.
Proof.
  intros Hv. destruct e as [x|x|]; cbn; unfold set, enter, display.
  - destruct (valid (f_kind f) x) eqn:E; [|done]. destruct (f_input f); [|done]. destruct (decide _); [done|].
    destruct (valid (f_kind f) (clamp _ _)) eqn:E'; done.
  - destruct (f_input f); [|done]. destruct (decide _); [done|].
    destruct (valid (f_kind f) (clamp (f_kind f) x)) eqn:E'; [done|]. destruct (f_kind f) eqn:Ek; cbn in *; done.
  - by destruct (f_input f).
Qed.
Lemma agrees_set f x : no_zero (f_kind f) -> agrees f -> valid (f_kind f) x = true -> small (f_kind f) x ->
  set f x = (Field (f_kind f) x (match f_input f with Some _ => Some x | None => None end), true).
Proof.
  intros Hz (Hv & Hs & Hi) Hx Sx. unfold set. rewrite Hx, clamp_valid by done.
  destruct Hi as [-> | ->]; [done|]. destruct (decide (x = f_value f)) as [<- |]; [done|]. by rewrite Hx.
Qed.
Lemma agrees_step f e : no_zero (f_kind f) -> agrees f -> (forall x, e = Assign x -> small (f_kind f) x) -> agrees (step f e).
Proof.
  intros Hz Ha He. destruct e as [x|x|]; cbn [step].
  - destruct (valid (f_kind f) x) eqn:Hx.
    + rewrite agrees_set by auto. cbn. split; [done|]. split; [by apply He|]. destruct (f_input f); auto.
    + unfold set. by rewrite Hx.
  - destruct Ha as (Hv & Hs & [Hi|Hi]); unfold enter; rewrite Hi; [by repeat split; auto|].
    destruct (decide _) as [|Hn]; [repeat split; auto|].
    destruct (valid (f_kind f) (clamp (f_kind f) x)) eqn:E.
    + split; [done|]. cbn. split; [|auto]. destruct (f_kind f) as [|o|l h|l h] eqn:Ek; [done|done| |done].
      apply (clamped_valid (Whole l h) (f_value f)); done.
    + destruct (f_kind f) as [|o|l h|l h] eqn:Ek.
      * done.
      * split; [by rewrite Ek|]. rewrite Ek. auto.
      * destruct (clamped_valid (Whole l h) (f_value f) x) as [H _]; try done. congruence.
      * destruct (clamped_valid (Real l h) (f_value f) x) as [H _]; try done. congruence.
  - destruct Ha as (Hv & Hs & Hi). unfold display. destruct Hi as [Hi|Hi]; rewrite Hi; [|repeat split; auto].
    rewrite clamp_valid by done. repeat split; auto.
Qed.
Lemma run_snoc f es e : run f (es ++ [e]) = step (run f es) e.
Proof. unfold run. by rewrite fold_left_app. Qed.
Lemma kind_run f es : f_kind (run f es) = f_kind f.
Proof. induction es as [|e es IH] using rev_ind; [done|]. by rewrite run_snoc, kind_step. Qed.
Lemma agrees_run f es : no_zero (f_kind f) -> agrees f -> (forall x, Assign x ∈ es -> small (f_kind f) x) -> agrees (run f es).
Proof.
  intros Hz Ha. induction es as [|e es IH] using rev_ind; intros H; [done|]. rewrite run_snoc. apply agrees_step.
  - by rewrite kind_run.
  - apply IH. intros x Hx. apply H, elem_of_app. by left.
  - intros x ->. rewrite kind_run. apply H, elem_of_app. right. left.
Qed.

(** * Mappings. *)
Definition fits (load : nat -> loaded) (dump : nat -> option nat) (s : mapping) : Prop :=
  match m_input s with
  | Some t => if m_error s then forall d, load t = Dict d -> dump d = None else dump (m_value s) = Some t
  | None => True
  end.
Lemma mset_fits load dump n s d t : (forall d t, dump d = Some t -> load t = Dict d) -> fits load dump s -> dump d = Some t ->
  mset load dump (S (S n)) s d = (Mapping d (match m_input s with Some _ => Some t | None => None end) (match m_input s with Some _ => false | None => m_error s end), true).
Proof.
  intros Hrt Hf Hd. cbn [mset]. rewrite Hd. unfold fits in Hf. destruct (m_input s) as [x|]; [|done].
  destruct (decide (x = t)) as [-> |Hn].
  - destruct (m_error s); [|done]. specialize (Hf d (Hrt d t Hd)). congruence.
  - rewrite (Hrt d t Hd). rewrite Hd. cbn [m_input]. rewrite decide_True by done. done.
Qed.
Lemma mstep_fits load dump n s e : (forall d t, dump d = Some t -> load t = Dict d) -> fits load dump s -> fits load dump (mstep load dump (S (S n)) s e).
Proof.
  intros Hrt Hf. destruct e as [d|t|]; cbn [mstep].
  - destruct (dump d) as [t|] eqn:Hd.
    + rewrite (mset_fits _ _ _ _ _ t) by done. unfold fits. cbn. by destruct (m_input s).
    + cbn [mset]. by rewrite Hd.
  - destruct (m_input s) as [x|] eqn:Hi; [|done]. destruct (decide _); [done|]. unfold handler.
    destruct (load t) as [d| |] eqn:Hl.
    + cbn [mset]. destruct (dump d) as [t'|] eqn:Hd.
      * cbn [m_input]. destruct (decide (t = t')) as [-> |Hn]; [done|]. rewrite (Hrt d t' Hd), Hd. cbn [m_input].
        rewrite decide_True by done. done.
      * unfold fits. cbn. intros d' E. congruence.
    + unfold fits. cbn. intros d'. by rewrite Hl.
    + unfold fits. cbn. intros d'. by rewrite Hl.
  - unfold fits in *. destruct (m_input s) as [x|] eqn:Hi; [by rewrite Hi|]. destruct (dump (m_value s)) eqn:Hd; [done|]. by rewrite Hi.
Qed.
Lemma mrun_fits load dump n s es : (forall d t, dump d = Some t -> load t = Dict d) -> fits load dump s -> fits load dump (mrun load dump (S (S n)) s es).
Proof.
  intros Hrt. unfold mrun. revert s. induction es as [|e es IH]; intros s Hf; [done|]. cbn [fold_left]. by apply IH, mstep_fits.
Qed.
