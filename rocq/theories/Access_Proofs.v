(** Proofs about Options objects in use. *)
From Coq Require Import Ascii String ZArith.
From stdpp Require Import prelude.
From Verif Require Import Router_Model ProxyLog_Model Json_Model Options_Model Options_Spec Options_Proofs Choose_Model Choose_Proofs Access_Model.

Section access.
Context (float_of : Z -> option fl) (own : bytes -> bool).
Notation oset := (oset float_of).
Lemma set_field_oset exc k x o : raised exc = true ->
  match oset k x o with
  | Some o' => set_field float_of exc k x o = (o', Nothing)
  | None => exists a, set_field float_of exc k x o = (o, a) /\ raised a = true
  end.
Proof.
  intros He. unfold Options_Model.oset, set_field. destruct (dget k o) as [c|]; cbn [mbind option_bind]; [|eauto].
  destruct (cvalidate float_of (cf_kind c) x); cbn [mbind option_bind]; eauto.
Qed.
Lemma osets_app l1 l2 o : osets float_of (l1 ++ l2) o = osets float_of l2 (osets float_of l1 o).
Proof. revert o. induction l1 as [|[k x] l1 IH]; intros o; [done|]. cbn [app osets]. apply IH. Qed.
Lemma set_field_osets exc k x o : raised exc = true -> fst (set_field float_of exc k x o) = osets float_of [(k, x)] o.
Proof.
  intros He. pose proof (set_field_oset exc k x o He) as H. cbn [osets]. destruct (oset k x o) as [o'|]; [by rewrite H|].
  by destruct H as (a & -> & _).
Qed.
(** update does the assignments before the first one that is refused. *)
Lemma update_all_spec l o : let '(o', a) := update_all float_of l o in
  match oupdate float_of l o with
  | Some o2 => o' = o2 /\ a = Nothing
  | None => raised a = true /\ exists l1 k x l2, l = l1 ++ (k, x) :: l2 /\ oupdate float_of l1 o = Some o' /\ oset k x o' = None
  end.
Proof.
  revert o. induction l as [|[k x] l IH]; intros o; [done|]. cbn [update_all oupdate].
  pose proof (set_field_oset KeyErr k x o eq_refl) as H. destruct (oset k x o) as [o1|] eqn:Ho; cbn [mbind option_bind].
  - rewrite H. cbn [raised]. specialize (IH o1). destruct (update_all float_of l o1) as [o' a]. destruct (oupdate float_of l o1) as [o2|]; [done|].
    destruct IH as (Ha & l1 & k' & x' & l2 & -> & Hu & Hx). split; [done|]. exists ((k, x) :: l1), k', x', l2. split; [done|].
    split; [|done]. cbn [oupdate]. rewrite Ho. done.
  - destruct H as (a & -> & Ha). rewrite Ha. split; [done|]. by exists [], k, x, l.
Qed.
Lemma oupdate_osets l o o' : oupdate float_of l o = Some o' -> o' = osets float_of l o.
Proof.
  revert o. induction l as [|[k x] l IH]; intros o; [by intros [= <-]|]. cbn [oupdate osets].
  destruct (oset k x o); cbn [mbind option_bind]; [|done]. apply IH.
Qed.
Lemma perform_osets u o : exists l, fst (perform float_of own u o) = osets float_of l o.
Proof.
  destruct u; cbn [perform fst]; try (by exists []).
  - eexists. by apply set_field_osets.
  - eexists. by apply set_field_osets.
  - destruct (dget k o); [by exists []|]. eexists. by apply set_field_osets.
  - pose proof (update_all_spec l o) as H. destruct (update_all float_of l o) as [o' a]. cbn [fst]. destruct (oupdate float_of l o) as [o2|] eqn:Hu.
    + destruct H as [-> _]. exists l. by apply oupdate_osets.
    + destruct H as (_ & l1 & k & x & l2 & _ & Hu1 & _). exists l1. by apply oupdate_osets.
Qed.
Lemma performs_osets us o : exists l, performs float_of own us o = osets float_of l o.
Proof.
  revert o. induction us as [|u us IH]; intros o; [by exists []|]. cbn [performs]. destruct (perform_osets u o) as [l1 ->].
  destruct (IH (osets float_of l1 o)) as [l2 ->]. exists (l1 ++ l2). by rewrite osets_app.
Qed.
Lemma raised_same u o : (forall l, u <> Update l) -> raised (snd (perform float_of own u o)) = true -> fst (perform float_of own u o) = o.
Proof.
  intros Hu. destruct u; cbn [perform fst snd]; try done.
  - pose proof (set_field_oset KeyErr k x o eq_refl) as H. destruct (oset k x o); [by rewrite H|]. by destruct H as (a & -> & _).
  - pose proof (set_field_oset AttrErr k x o eq_refl) as H. destruct (oset k x o); [by rewrite H|]. by destruct H as (a & -> & _).
  - destruct (dget k o); [done|]. pose proof (set_field_oset KeyErr k x o eq_refl) as H. destruct (oset k x o); [by rewrite H|]. by destruct H as (a & -> & _).
  - by destruct (Hu l).
Qed.
End access.
