(** Property C100: the proxy process of the gateway. *)
From Coq Require Import ZArith List Lia.
From stdpp Require Import prelude gmap.
From Verif Require Import Trace Super_Model Super_Spec Super_Proofs.
Local Open Scope Z_scope.

(** C100. There is never more than one proxy process alive... *)
Theorem C100_one : forall period t h s p q, 0 < period -> exec (step period) (init t) h s -> alive s p = true -> alive s q = true -> p = q.
Proof. intros period t h s p q Hp Hx H1 H2. pose proof (exec_good _ _ _ _ Hp Hx) as Hg. apply (g_one _ _ Hg) in H1, H2. congruence. Qed.
Print Assumptions C100_one.
(** ... when it has ended while it is watched, another one is started, or the start tried,
    before the status period (or 15 s) has passed... *)
Theorem C100_restarted : forall period t h1 s h2 s', 0 < period -> exec (step period) (init t) h1 s -> exec (step period) s h2 s' ->
  (exists p, cur s = Some p /\ alive s p = false) -> mon s <> None -> Forall (fun eo => ~ ends (fst eo)) h2 ->
  now s + Z.max period 30 < now s' -> exists x, x ∈ obs_of h2 /\ attempt x.
Proof.
  intros period t h1 s h2 s' Hp Hx1 Hx2 (p & Hc & Ha) Hm Hn Ht. eapply (restarted period s h2 s'); try done; [by eapply exec_good|]. unfold exited. by rewrite Hc, Ha.
Qed.
Print Assumptions C100_restarted.
(** ... after failed starts in pauses of 0.5 s, 1 s, 2 s, ..., 15 s, 15 s, ... *)
Theorem C100_pauses : forall period t0 h s e s' o x o1 t o2, 0 < period -> exec (step period) (init t0) h s -> step period s e = (s', o) -> x ∈ o -> attempt x -> mon s <> None ->
  obs_of h = o1 ++ OFailed t :: o2 -> Forall (fun o => ~ attempt o) o2 ->
  x = OFailed (t + pause (failures 0 o1)) \/ exists p, x = OStart (t + pause (failures 0 o1)) p.
Proof. exact spaced. Qed.
Print Assumptions C100_pauses.
(** ... once started it stays watched until the gateway ends... *)
Theorem C100_watched : forall period t h s, exec (step period) (init t) h s -> Forall (fun eo => ~ ends (fst eo)) h -> (exists x, x ∈ obs_of h /\ is_start x) -> mon s <> None.
Proof.
  intros period t h s Hx Hn Hs. assert (H : Forall (fun eo => ~ ends (fst eo)) h -> up s = true /\ (mon s = None -> cur s = None /\ Forall (fun o => ~ is_start o) (obs_of h))).
  { clear Hn Hs. eapply (exec_ind_r (step period) (init t) (fun h s => Forall (fun eo => ~ ends (fst eo)) h -> up s = true /\ (mon s = None -> cur s = None /\ Forall (fun o => ~ is_start o) (obs_of h)))); [| |exact Hx].
    - intros _. repeat split; constructor.
    - intros h1 s1 e o s' _ IH Hs Hf. apply Forall_app in Hf as [Hf He]. inversion_clear He as [|? ? He' _]. cbn [fst] in He'. destruct (IH Hf) as [Hu Hm]. rewrite obs_of_snoc. clear IH Hf.
      unfold step in Hs. rewrite Hu in Hs. cbn [negb] in Hs. destruct e as [sp|d|p|sp| | |]; try (by destruct He').
      + destruct (cur s1) eqn:Hc; [injection Hs as <- <-; split; [done|]; intros H; destruct (Hm H); congruence|].
        destruct (mon s1) eqn:Em; [injection Hs as <- <-; split; [done|]; intros H; congruence|]. destruct (Hm eq_refl) as [_ Hq].
        destruct (start s1 sp) as [[s2 o2]|] eqn:Es; [|injection Hs as <- <-; split; [done|]; rewrite app_nil_r; by rewrite Hc]. apply start_some in Es.
        destruct sp as [p|]; injection Hs as <- <-; [split; [by destruct Es as (_ & -> & _)|done]|]. destruct Es as [-> ->]. split; [done|]. intros _. split; [done|]. apply Forall_app. split; [done|]. repeat constructor. by intros [].
      + destruct (_ && _); injection Hs as <- <-; (split; [done|]); rewrite app_nil_r; done.
      + destruct (alive s1 p); injection Hs as <- <-; (split; [done|]); rewrite app_nil_r; done.
      + destruct (mon s1) as [m|] eqn:Em; [|injection Hs as <- <-; split; [done|]; rewrite app_nil_r; by rewrite Em].
        destruct (now s1 =? m_due m); [|injection Hs as <- <-; split; [done|]; congruence]. destruct (exited s1); [|injection Hs as <- <-; by split].
        destruct (start s1 sp) as [[s2 o2]|] eqn:Es; [|injection Hs as <- <-; split; [done|]; congruence]. apply start_some in Es.
        destruct sp; injection Hs as <- <-; (split; [|done]); [by destruct Es as (_ & -> & _)|by destruct Es as (-> & _)]. }
  destruct (H Hn) as [_ Hm]. intros E. destruct (Hm E) as [_ Hq]. destruct Hs as (x & Hx1 & Hx2). rewrite Forall_forall in Hq. by apply (Hq x).
Qed.
Print Assumptions C100_watched.
(** ... and when the gateway ends, in order or not, the process is told so (by SIGTERM or
    the end of its standard input), and no other one is started after it. *)
Theorem C100_ended : forall period t h1 s e s1 o h2 s2 p, 0 < period -> exec (step period) (init t) h1 s -> up s = true -> step period s e = (s1, o) -> e = ECleanup \/ e = ECrash ->
  cur s <> None \/ e = ECrash -> exec (step period) s1 h2 s2 ->
  (alive s p = true -> OTerm (now s) p ∈ o \/ OEof (now s) p ∈ o) /\ Forall (fun x => ~ is_start x) (obs_of h2).
Proof.
  intros period t h1 s e s1 o h2 s2 p Hp Hx Hu Hs He Hc Hx2. pose proof (exec_good _ _ _ _ Hp Hx) as Hg. unfold step in Hs. rewrite Hu in Hs. cbn [negb] in Hs.
  destruct He as [-> | ->]; injection Hs as <- <-; split.
  - intros Ha. left. rewrite (g_one _ _ Hg p Ha), Ha. left.
  - destruct Hc as [Hc|]; [|done]. eapply never_again; [exact Hx2|done|by left].
  - intros Ha. right. apply elem_of_list_fmap. exists p. split; [done|]. apply elem_of_list_filter. split; [done|].
    unfold alive in Ha. destruct (procs s !! p) as [b|] eqn:E; [|done]. apply elem_of_list_fmap. exists (p, b). split; [done|]. by apply elem_of_map_to_list.
  - eapply never_again; [exact Hx2|done|by right].
Qed.
Print Assumptions C100_ended.
(** The proxy dies; the first new start fails, the second works. *)
Definition ex : list event := [ESetup (Some 1%nat); ECheck None; ETime 60; ECheck None; ETime 10; EExit 1%nat; ETime 50; ECheck None; ETime 1; ECheck None; ETime 2; ECheck (Some 2%nat)].
Example C100_example : exists h1 h2 s1 s2, map fst (h1 ++ h2) = ex /\ exec (step 60) (init 0) h1 s1 /\ exec (step 60) s1 h2 s2 /\ (exists p, cur s1 = Some p /\ alive s1 p = false) /\ mon s1 <> None /\
  obs_of h2 = [OFailed 120; OFailed 121; OStart 123 2] /\ alive s2 2 = true.
Proof.
  pose (h1 := snd (run (step 60) (init 0) (take 6 ex))). pose (s1 := fst (run (step 60) (init 0) (take 6 ex))).
  pose (h2 := snd (run (step 60) s1 (drop 6 ex))). pose (s2 := fst (run (step 60) s1 (drop 6 ex))).
  exists h1, h2, s1, s2. split; [vm_compute; done|]. split; [apply (run_exec _ _ (take 6 ex)); subst h1 s1; apply surjective_pairing|].
  split; [apply (run_exec _ _ (drop 6 ex)); subst h2 s2; apply surjective_pairing|].
  split; [exists 1%nat; split; vm_compute; done|]. split; [vm_compute; done|]. split; vm_compute; done.
Qed.
