(** Histories of a state machine [step : S -> E -> S * O] (no code of /repo is
    modelled here): [run] executes a list of events and records, for each event,
    what it returned.  [exec s h s'] says the same as a relation, which is
    convenient for splitting histories. *)
From stdpp Require Import base list.

Section trace.
Context {S E O : Type} (step : S -> E -> S * O).

Fixpoint run (s : S) (es : list E) : S * list (E * O) :=
  match es with
  | [] => (s, [])
  | e :: es' => let '(s1, o) := step s e in
                let '(s2, h) := run s1 es' in (s2, (e, o) :: h)
  end.

Inductive exec : S -> list (E * O) -> S -> Prop :=
| exec_nil s : exec s [] s
| exec_cons s e o s1 h s2 : step s e = (s1, o) -> exec s1 h s2 -> exec s ((e, o) :: h) s2.

Lemma run_exec s es s' h : run s es = (s', h) -> exec s h s'.
Proof.
  revert s h; induction es as [|e es IH]; intros s h Hr; simpl in Hr.
  - injection Hr as <- <-. constructor.
  - destruct (step s e) as [s1 o] eqn:He. destruct (run s1 es) as [s2 h2] eqn:Hr2.
    injection Hr as <- <-. econstructor; [exact He|]. apply IH. exact Hr2.
Qed.

Lemma exec_run s h s' : exec s h s' -> run s (map fst h) = (s', h).
Proof.
  induction 1 as [s|s e o s1 h s2 He _ IH]; simpl; [reflexivity|].
  rewrite He, IH. reflexivity.
Qed.

Lemma exec_app s h1 h2 s' : exec s (h1 ++ h2) s' <-> exists m, exec s h1 m /\ exec m h2 s'.
Proof.
  revert s; induction h1 as [|[e o] h1 IH]; intros s; simpl; split.
  - intros Hx. exists s. split; [constructor|exact Hx].
  - intros (m & Hn & Hx). inversion Hn; subst. exact Hx.
  - intros Hx. inversion Hx as [|? ? ? s1 ? ? He Hr]; subst.
    apply IH in Hr as (m & H1 & H2). exists m. split; [econstructor; eauto|exact H2].
  - intros (m & H1 & H2). inversion H1 as [|? ? ? s1 ? ? He Hr]; subst.
    econstructor; [exact He|]. apply IH. eauto.
Qed.

Lemma exec_snoc_inv s h e o s' :
  exec s (h ++ [(e, o)]) s' -> exists m, exec s h m /\ step m e = (s', o).
Proof.
  intros (m & H1 & H2)%exec_app. inversion H2 as [|? ? ? s1 ? ? He Hr]; subst.
  inversion Hr; subst. eauto.
Qed.

(** Induction on histories from the right. *)
Lemma exec_ind_r (s0 : S) (P : list (E * O) -> S -> Prop) :
  P [] s0 ->
  (forall h s e o s', exec s0 h s -> P h s -> step s e = (s', o) -> P (h ++ [(e, o)]) s') ->
  forall h s, exec s0 h s -> P h s.
Proof.
  intros H0 Hs h. induction h as [|[e o] h IH] using rev_ind; intros s Hx.
  - inversion Hx; subst. exact H0.
  - apply exec_snoc_inv in Hx as (m & H1 & H2). eapply Hs; eauto.
Qed.

(** Invariant induction, with a condition on events that may depend on the
    history so far. *)
Lemma exec_inv (s0 : S) (ok : list (E * O) -> E -> Prop) (I : list (E * O) -> S -> Prop) :
  I [] s0 ->
  (forall h s e o s', I h s -> ok h e -> step s e = (s', o) -> I (h ++ [(e, o)]) s') ->
  forall h s, exec s0 h s ->
  (forall h1 e o h2, h = h1 ++ (e, o) :: h2 -> ok h1 e) -> I h s.
Proof.
  intros H0 Hs h s Hx. induction Hx as [|h s e o s' Hx IH He] using exec_ind_r; intros Hok; [exact H0|].
  eapply Hs; [apply IH| |exact He].
  - intros h1 e1 o1 h2 ->. eapply Hok. rewrite <- app_assoc. simpl. reflexivity.
  - eapply Hok. reflexivity.
Qed.
End trace.
