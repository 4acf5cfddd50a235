From Coq Require Import ZArith List Lia.
From stdpp Require Import prelude.
From Verif Require Import Proc_Model Proc_Spec.
Local Open Scope Z_scope.

Lemma wait_fuel tab : forall n m t rem pause, 1 <= pause -> rem + 1 < Z.of_nat n -> rem + 1 < Z.of_nat m -> (0 < n)%nat -> (0 < m)%nat -> wait n tab t rem pause = wait m tab t rem pause.
Proof.
  induction n as [|n IH]; intros m t rem pause Hp Hn Hm H1 H2; [lia|]. destruct m as [|m]; [lia|]. cbn [wait].
  destruct (rem <? 0) eqn:E; [done|]. apply Z.ltb_ge in E. destruct (tab t); try done. apply IH; lia.
Qed.
(** The time that a wait takes. *)
Lemma wait_spec tab : forall n t rem pause, 1 <= pause -> 0 <= rem -> rem + 1 < Z.of_nat n ->
  match wait n tab t rem pause with
  | WDown t' => tab t' = Free /\ t <= t' <= t + rem
  | WRaised t' => tab t' = Denied /\ t <= t' <= t + rem
  | WTimeout t' => t + rem < t' /\ t' <= t + 2 * rem + pause /\ exists u, t <= u <= t + rem /\ t' <= 2 * u - t + pause /\ exists p, tab u = Held p
  end.
Proof.
  induction n as [|n IH]; intros t rem pause Hp Hr Hn; [lia|]. cbn [wait]. rewrite (proj2 (Z.ltb_ge _ _)) by lia.
  destruct (tab t) as [|p|] eqn:Et; [split; [done|lia]| |split; [done|lia]].
  destruct (Z_lt_le_dec (rem - pause) 0) as [Hneg|Hpos].
  - destruct n as [|n]; [lia|]. cbn [wait]. rewrite (proj2 (Z.ltb_lt _ _)) by lia. split; [lia|]. split; [lia|]. exists t. split; [lia|]. split; [lia|]. eauto.
  - specialize (IH (t + pause) (rem - pause) (2 * pause) ltac:(lia) Hpos ltac:(lia)). destruct (wait n tab _ _ _) as [t'|t'|t'].
    + destruct IH. split; [done|lia].
    + destruct IH as (H1 & H2 & u & H3 & H4 & H5). split; [lia|]. split; [lia|]. exists u. split; [lia|]. split; [lia|done].
    + destruct IH. split; [done|lia].
Qed.
Lemma shutdown_spec tab t timeout : 0 <= timeout ->
  match wait_is_shutdown tab t timeout with
  | WDown t' => tab t' = Free /\ t <= t' <= t + 10 * timeout
  | WRaised t' => tab t' = Denied /\ t <= t' <= t + 10 * timeout
  | WTimeout t' => 10 * timeout < t' - t <= 20 * timeout + 1 /\ exists u, t + 5 * timeout - 1 < u <= t + 10 * timeout /\ exists p, tab u = Held p
  end.
Proof.
  intros H. unfold wait_is_shutdown. pose proof (wait_spec tab (S (S (Z.to_nat (10 * timeout)))) t (10 * timeout) 1 ltac:(lia) ltac:(lia) ltac:(lia)) as W.
  destruct (wait _ tab t _ _) as [t'|t'|t']; [done| |done]. destruct W as (H1 & H2 & u & H3 & H4 & H5). split; [lia|]. exists u. split; [lia|done].
Qed.

Section attempts.
  Context (tab : table).
  Definition ok_methods (ms : list (sig * Z)) := Forall (fun m => 0 <= snd m) ms.
  Lemma attempts_prefix ms : forall t, signals (fst (attempts tab t ms)) `prefix_of` map fst ms.
  Proof.
    induction ms as [|[s T] ms IH]; intros t; [done|]. cbn [attempts].
    destruct (tab t); [| |apply prefix_nil]; (destruct (wait_is_shutdown tab t T) as [t'|t'|t'];
      [apply prefix_cons, prefix_nil| |apply prefix_cons, prefix_nil]); specialize (IH t'); destruct (attempts tab t' ms); by apply prefix_cons.
  Qed.
  Lemma attempts_first ms t : match fst (attempts tab t ms) with [] => True | (t', _, h) :: _ => t' = t /\ h = tab t end.
  Proof.
    destruct ms as [|[s T] ms]; [done|]. cbn [attempts].
    destruct (tab t) eqn:E; [| |done]; (destruct (wait_is_shutdown tab t T) as [t'|t'|t']; [done| |done]); by destruct (attempts tab t' ms).
  Qed.
  Lemma attempts_spaced (to : sig -> Z) ms : (forall m, m ∈ ms -> to (fst m) = snd m) -> ok_methods ms ->
    forall t, spaced (fun s => 10 * to s) (fun s => 20 * to s + 1) (fst (attempts tab t ms)).
  Proof.
    induction ms as [|[s T] ms IH]; intros Ht Ho t; [done|]. apply Forall_cons_iff in Ho as [HT Ho]. cbn [snd] in HT. cbn [attempts].
    assert (Hs : to s = T) by (apply (Ht (s, T)); by left).
    pose proof (shutdown_spec tab t T HT) as W.
    destruct (tab t); [| |done]; (destruct (wait_is_shutdown tab t T) as [t'|t'|t']; [done| |done]);
      pose proof (attempts_first ms t') as F; specialize (IH (fun m Hm => Ht m (elem_of_list_further _ _ _ Hm)) Ho t');
      destruct (attempts tab t' ms) as [l o]; cbn [fst] in *; cbn [spaced]; destruct l as [|[[t2 s2] h2] l]; try done; destruct F as [-> _]; (split; [rewrite Hs; lia|done]).
  Qed.
  Lemma attempts_receiver ms : forall t x, x ∈ fst (attempts tab t ms) -> snd x = tab (fst (fst x)).
  Proof.
    induction ms as [|[s T] ms IH]; intros t x Hx; [by apply elem_of_nil in Hx|]. cbn [attempts] in Hx.
    destruct (tab t) eqn:E; [| |by apply elem_of_nil in Hx]; (destruct (wait_is_shutdown tab t T) as [t'|t'|t'];
      [apply elem_of_list_singleton in Hx as ->; done| |apply elem_of_list_singleton in Hx as ->; done]);
      specialize (IH t' x); destruct (attempts tab t' ms); apply elem_of_cons in Hx as [->|Hx]; [done|auto|done|auto].
  Qed.
  Definition total (ms : list (sig * Z)) : Z := foldr (fun m a => 20 * snd m + 1 + a) 0 ms.
  Lemma total_nonneg ms : ok_methods ms -> 0 <= total ms.
  Proof. induction ms as [|[s T] ms IH]; intros H; [done|]. apply Forall_cons_iff in H as [H1 H2]. cbn [snd] in H1. cbn. specialize (IH H2). unfold total in IH. lia. Qed.
  Lemma attempts_time ms : ok_methods ms -> forall t, t <= end_time (snd (attempts tab t ms)) <= t + total ms.
  Proof.
    induction ms as [|[s T] ms IH]; intros Ho t; [cbn; lia|]. apply Forall_cons_iff in Ho as [HT Ho]. cbn [snd] in HT.
    pose proof (shutdown_spec tab t T HT) as W. pose proof (total_nonneg ms Ho) as P. change (total ((s, T) :: ms)) with (20 * T + 1 + total ms). cbn [attempts].
    destruct (tab t); [| |cbn; lia]; (destruct (wait_is_shutdown tab t T) as [t'|t'|t']; [cbn; lia| |cbn; lia]);
      specialize (IH Ho t'); destruct (attempts tab t' ms) as [l o]; cbn [snd] in *; lia.
  Qed.
  (** How it ends. *)
  Lemma attempts_stopped ms : ok_methods ms -> forall t t', snd (attempts tab t ms) = Stopped t' -> tab t' = Free /\ t <= t'.
  Proof.
    induction ms as [|[s T] ms IH]; intros Ho t t2 H; [done|]. apply Forall_cons_iff in Ho as [HT Ho]. cbn [snd] in HT.
    pose proof (shutdown_spec tab t T HT) as W. cbn [attempts] in H.
    destruct (tab t); [| |done]; (destruct (wait_is_shutdown tab t T) as [t'|t'|t']; [injection H as <-; split; [tauto|lia]| |done]);
      specialize (IH Ho t' t2); destruct (attempts tab t' ms) as [l o]; cbn [snd] in *; destruct (IH H); split; try done; lia.
  Qed.
  Lemma attempts_raised ms : ok_methods ms -> forall t t', snd (attempts tab t ms) = Raised t' -> tab t' = Denied.
  Proof.
    induction ms as [|[s T] ms IH]; intros Ho t t2 H; [done|]. apply Forall_cons_iff in Ho as [HT Ho]. cbn [snd] in HT.
    pose proof (shutdown_spec tab t T HT) as W. cbn [attempts] in H.
    destruct (tab t) eqn:E; [| |by injection H as <-]; (destruct (wait_is_shutdown tab t T) as [t'|t'|t']; [done| |injection H as <-; tauto]);
      specialize (IH Ho t' t2); destruct (attempts tab t' ms) as [l o]; cbn [snd] in *; auto.
  Qed.
  Lemma attempts_survived ms s T : ok_methods (ms ++ [(s, T)]) -> forall t t', snd (attempts tab t (ms ++ [(s, T)])) = Survived t' ->
    exists k h, last (fst (attempts tab t (ms ++ [(s, T)]))) = Some (k, s, h) /\ k + 10 * T < t' /\ exists u p, k + 5 * T - 1 < u < t' /\ tab u = Held p.
  Proof.
    induction ms as [|[s' T'] ms IH]; intros Ho t t2 H; cbn [app] in *; apply Forall_cons_iff in Ho as [HT Ho]; cbn [snd] in HT.
    - pose proof (shutdown_spec tab t T HT) as W. cbn [attempts] in *.
      destruct (tab t); [| |done]; (destruct (wait_is_shutdown tab t T) as [t'|t'|t']; [done| |done]); cbn [fst snd last] in *; injection H as <-;
        destruct W as (W1 & u & W2 & p1 & W3); exists t; eexists; (split; [done|]); (split; [lia|]); exists u, p1; (split; [lia|done]).
    - pose proof (shutdown_spec tab t T' HT) as W. cbn [attempts] in *.
      destruct (tab t); [| |done]; (destruct (wait_is_shutdown tab t T') as [t'|t'|t']; [done| |done]);
        specialize (IH Ho t' t2); destruct (attempts tab t' (ms ++ [(s, T)])) as [l o]; cbn [fst snd] in *;
        destruct (IH H) as (k & h & H1 & H2); exists k, h; (split; [|done]); destruct l; done.
  Qed.
  (** A process that is gone in time gets nothing more. *)
  Lemma attempts_mercy s T ms : 0 <= T -> forall t, (forall u, t + 5 * T - 1 < u <= t + 10 * T -> tab u = Free) -> (forall u, t <= u -> tab u <> Denied) ->
    exists t', attempts tab t ((s, T) :: ms) = ([(t, s, tab t)], Stopped t').
  Proof.
    intros HT t Hf Hd. cbn [attempts]. pose proof (shutdown_spec tab t T HT) as W. destruct (tab t) eqn:E; [| |by destruct (Hd t); [lia|]].
    all: destruct (wait_is_shutdown tab t T) as [t'|t'|t']; [by eexists| |destruct W as [W ?]; by destruct (Hd t'); [lia|]].
    all: destruct W as (W1 & u & W2 & p1 & W3); rewrite Hf in W3 by lia; done.
  Qed.
End attempts.
