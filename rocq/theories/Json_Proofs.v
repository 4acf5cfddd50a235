(** Facts about Python's comparison of numbers. *)
From Coq Require Import Ascii ZArith QArith Qcanon Lia.
From stdpp Require Import prelude.
From Verif Require Import Router_Model ProxyLog_Model Json_Model.
Local Open Scope Z_scope.

Lemma fin_lt p q : fltb (Fin p) (Fin q) = true <-> (p < q)%Qc.
Proof.
  unfold fltb. split.
  - destruct (p ?= q)%Qc eqn:E; [done| |done]. intros _. by apply Qclt_alt.
  - intros H. apply (proj1 (Qclt_alt _ _)) in H. fold (Qccompare p q) in H. by rewrite H.
Qed.
Lemma fltb_irrefl a : fltb a a = false.
Proof.
  destruct a as [| | |q]; try done. destruct (fltb (Fin q) (Fin q)) eqn:E; [|done].
  apply fin_lt in E. by apply Qclt_not_eq in E.
Qed.
Lemma fltb_asym a b : fltb a b = true -> fltb b a = false.
Proof.
  destruct a as [| | |p], b as [| | |q]; try done. intros H%fin_lt. destruct (fltb (Fin q) (Fin p)) eqn:E; [|done].
  apply fin_lt in E. apply (Qclt_trans _ _ _ H) in E. by apply Qclt_not_eq in E.
Qed.
Lemma fltb_Z a b : fltb (of_Z a) (of_Z b) = (a <? b).
Proof.
  apply eq_true_iff_eq. rewrite Z.ltb_lt. unfold of_Z. rewrite fin_lt. unfold Qclt. cbn.
  rewrite !Qred_correct. unfold Qlt, inject_Z. cbn. lia.
Qed.
(** Numbers other than NaN are totally ordered. *)
Lemma fltb_total a b : a <> NaN -> b <> NaN -> fltb a b = false -> fltb b a = false -> a = b.
Proof.
  destruct a as [| | |p], b as [| | |q]; try done. intros _ _ H1 H2. f_equal.
  unfold fltb in H1, H2. destruct (p ?= q)%Qc eqn:E; [by apply Qceq_alt in E|done|].
  apply (proj2 (Qcgt_alt _ _)) in E. apply fin_lt in E. unfold fltb in E. congruence.
Qed.
