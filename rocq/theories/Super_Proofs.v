(** Proofs for C100. *)
From Coq Require Import ZArith List Lia.
From stdpp Require Import prelude gmap.
From Verif Require Import Trace Super_Model Super_Spec.
Local Open Scope Z_scope.

Lemma obs_of_snoc h e o : obs_of (h ++ [(e, o)]) = obs_of h ++ o.
Proof. unfold obs_of. rewrite map_app, concat_app. cbn. by rewrite app_nil_r. Qed.
Lemma obs_of_cons e o h : obs_of ((e, o) :: h) = o ++ obs_of h.
Proof. done. Qed.

(** * What is true of every state.  [k]: failed attempts in a row. *)
Record good (period : Z) (s : state) : Prop := {
  g_one : forall p, alive s p = true -> cur s = Some p;
  g_cur : forall p, cur s = Some p -> is_Some (procs s !! p);
  g_mon : mon s <> None -> cur s <> None /\ up s = true;
  g_due : forall m, mon s = Some m -> now s <= m_due m /\ m_due m <= now s + Z.max period max_backoff /\ 1 <= m_backoff m <= max_backoff }.
Lemma alive_insert s p q b t c m u : alive (State t (<[p := b]> (procs s)) c m u) q = if decide (p = q) then b else alive s q.
Proof. unfold alive. cbn [procs]. destruct (decide (p = q)) as [->|Hn]; [by rewrite lookup_insert|by rewrite lookup_insert_ne]. Qed.
Lemma start_some s sp s' o : start s sp = Some (s', o) ->
  match sp with
  | Some p => procs s !! p = None /\ s' = State (now s) (<[p := true]> (procs s)) (Some p) (mon s) (up s) /\ o = [OStart (now s) p]
  | None => s' = s /\ o = [OFailed (now s)]
  end.
Proof. unfold start. destruct sp as [p|]; [destruct (procs s !! p) eqn:E; [done|]|]; by intros [= <- <-]. Qed.
Lemma good_start period s p m u : 0 < period -> good period s -> procs s !! p = None -> (forall q, alive s q = true -> False) ->
  now s <= m_due m -> m_due m <= now s + Z.max period max_backoff -> 1 <= m_backoff m <= max_backoff -> u = true ->
  good period (State (now s) (<[p := true]> (procs s)) (Some p) (Some m) u).
Proof.
  intros Hp [G1 G2 G3 G4] Hn Hd H1 H2 H3 ->. split; cbn [cur procs mon now up].
  - intros q. rewrite alive_insert. destruct (decide (p = q)) as [->|]; [done|]. intros Ha. by apply Hd in Ha.
  - intros q [= <-]. rewrite lookup_insert. eauto.
  - done.
  - by intros m' [= <-].
Qed.
Lemma good_exit period s p u : good period s -> alive s p = true -> u = up s -> good period (State (now s) (<[p := false]> (procs s)) (cur s) (mon s) u).
Proof.
  intros [G1 G2 G3 G4] Ha ->. split; cbn [cur procs mon now up]; [|intros q Hq|done..].
  - intros q. rewrite alive_insert. destruct (decide (p = q)) as [->|]; [done|]. apply G1.
  - destruct (decide (p = q)) as [->|]; [rewrite lookup_insert; eauto|]. rewrite lookup_insert_ne by done. eauto.
Qed.
Lemma good_none period s u : good period s -> good period (State (now s) (procs s) (cur s) None u).
Proof. intros [G1 G2 G3 G4]. split; cbn [cur procs mon now up]; [exact G1|exact G2|done|done]. Qed.
Lemma good_due period s d b : good period s -> mon s <> None -> 1 <= b <= max_backoff -> now s <= d -> d <= now s + Z.max period max_backoff ->
  good period (set_mon s (Some (Monitor d b))).
Proof. intros [G1 G2 G3 G4] Hm Hb H1 H2. split; cbn [set_mon cur procs mon now up]; [exact G1|exact G2|auto|by intros m [= <-]]. Qed.
Lemma good_time period s d u : u = up s -> good period s -> 0 < d -> (match mon s with Some m => now s + d <=? m_due m | None => true end) = true ->
  good period (State (now s + d) (procs s) (cur s) (mon s) u).
Proof.
  intros -> [G1 G2 G3 G4] Hd Hm. split; cbn [cur procs mon now up]; [exact G1|exact G2|exact G3|]. intros m E. specialize (G4 m E). rewrite E in Hm. apply Z.leb_le in Hm. lia.
Qed.
Lemma good_step period s e s' o : 0 < period -> good period s -> step period s e = (s', o) -> good period s'.
Proof.
  intros Hp Hg. unfold step. destruct (up s) eqn:Hu; cbn [negb].
  - destruct e as [sp|d|p|sp| | |].
    + destruct (cur s) eqn:Hc, (mon s) eqn:Hm; try by intros [= <- <-]. destruct (start s sp) as [[s1 o1]|] eqn:Es; [|by intros [= <- <-]].
      apply start_some in Es. destruct sp as [p|]; intros [= <- <-]; [|by destruct Es as [-> _]]. destruct Es as (Hn & -> & _). unfold set_mon. cbn [now procs cur up]. rewrite Hu.
      apply good_start; cbn [m_due m_backoff]; unfold default_backoff, max_backoff; try lia; try done. intros q Hq. apply (g_one _ _ Hg) in Hq. congruence.
    + destruct (0 <? d) eqn:Hd; cbn [andb]; [|by intros [= <- <-]]. destruct (match mon s with Some _ => _ | None => _ end) eqn:Hm; intros [= <- <-]; [|done].
      apply good_time; [done|done| |done]. by apply Z.ltb_lt.
    + destruct (alive s p) eqn:Ha; intros [= <- <-]; [|done]. by apply good_exit.
    + destruct (mon s) as [m|] eqn:Hm; [|by intros [= <- <-]]. destruct (now s =? m_due m) eqn:Hd; [|by intros [= <- <-]].
      destruct (g_due _ _ Hg m Hm) as (D1 & D2 & D3). destruct (exited s) eqn:He.
      * destruct (start s sp) as [[s1 o1]|] eqn:Es; [|by intros [= <- <-]]. apply start_some in Es. destruct sp as [p|]; intros [= <- <-].
        -- destruct Es as (Hn & -> & _). unfold set_mon. cbn [now procs cur up]. rewrite Hu. apply good_start; cbn [m_due m_backoff]; unfold default_backoff, max_backoff; try lia; try done.
           intros q Hq. pose proof (g_one _ _ Hg q Hq) as Hc. unfold exited in He. rewrite Hc, Hq in He. done.
        -- destruct Es as [-> _]. apply good_due; [done|congruence|unfold max_backoff in *; lia..].
      * intros [= <- <-]. apply good_due; [done|congruence|unfold default_backoff, max_backoff in *; lia..].
    + intros [= <- <-]. by apply good_none.
    + intros [= <- <-]. by apply good_none.
    + intros [= <- <-]. by apply good_none.
  - destruct e as [sp|d|p|sp| | |]; try by intros [= <- <-].
    + destruct (0 <? d) eqn:Hd; intros [= <- <-]; [|done]. destruct Hg as [G1 G2 G3 G4]. split; cbn [cur procs mon now up]; [exact G1|exact G2| |].
      * intros Hm. apply G3 in Hm. destruct Hm. congruence.
      * intros m Hm. assert (mon s <> None) as H by congruence. apply G3 in H as [_ H]. congruence.
    + destruct (alive s p) eqn:Ha; intros [= <- <-]; [|done]. by apply good_exit.
Qed.
Lemma good_init period t : good period (init t).
Proof. by split. Qed.
Lemma exec_good period t h s : 0 < period -> exec (step period) (init t) h s -> good period s.
Proof. intros Hp Hx. eapply (exec_ind_r (step period) (init t) (fun _ s => good period s)); [apply good_init| |exact Hx]. intros. by eapply good_step. Qed.
Lemma exec_good_from period s h s' : 0 < period -> good period s -> exec (step period) s h s' -> good period s'.
Proof. intros Hp Hg Hx. induction Hx; [done|]. apply IHHx. by eapply good_step. Qed.

(** * Restarting *)
(** While the process is dead and no attempt is made, the due time stays. *)
Lemma waits period s e s' o : step period s e = (s', o) -> exited s = true -> up s = true -> mon s <> None -> ~ ends e ->
  (exists x, x ∈ o /\ attempt x) \/ (cur s' = cur s /\ exited s' = true /\ up s' = true /\ mon s' = mon s /\ o = []).
Proof.
  unfold step. intros Hs He Hu Hm Hn. rewrite Hu in Hs. cbn [negb] in Hs.
  destruct e as [sp|d|p|sp| | |]; try (by destruct Hn).
  - destruct (cur s) eqn:Hc; [|by unfold exited in He; rewrite Hc in He]. destruct (mon s) eqn:Em; injection Hs as <- <-; right; repeat split; congruence.
  - destruct (_ && _); injection Hs as <- <-; right; repeat split; done.
  - destruct (alive s p) eqn:Ha; injection Hs as <- <-; right; [|by repeat split]. cbn [cur mon up]. split; [done|]. split; [|by repeat split].
    unfold exited in *. cbn [cur]. destruct (cur s) as [q|]; [|done]. rewrite alive_insert. by destruct (decide (p = q)).
  - destruct (mon s) as [m|] eqn:Em; [|done]. destruct (now s =? m_due m); [|injection Hs as <- <-; right; repeat split; congruence]. rewrite He in Hs.
    destruct (start s sp) as [[s1 o1]|] eqn:Es; [|injection Hs as <- <-; right; repeat split; congruence]. apply start_some in Es. destruct sp as [p|]; injection Hs as <- <-.
    + left. destruct Es as (_ & _ & ->). eexists. split; [left|done].
    + left. destruct Es as (_ & ->). eexists. split; [left|done].
Qed.
Lemma restarted period s h s' : 0 < period -> good period s -> exec (step period) s h s' -> exited s = true -> mon s <> None -> Forall (fun eo => ~ ends (fst eo)) h ->
  now s + Z.max period max_backoff < now s' -> exists x, x ∈ obs_of h /\ attempt x.
Proof.
  intros Hp Hg Hx He Hm Hn Ht.
  assert (HG : forall s h s', exec (step period) s h s' -> good period s -> exited s = true -> mon s <> None -> Forall (fun eo => ~ ends (fst eo)) h ->
    (exists x, x ∈ obs_of h /\ attempt x) \/ mon s' = mon s).
  { clear -Hp. induction 1 as [s|s e o s1 h s2 Hs _ IH]; intros Hg He Hm Hn; [by right|]. inversion_clear Hn as [|? ? Hn1 Hn2]. cbn [fst] in Hn1.
    destruct (waits period s e s1 o Hs He (proj2 (g_mon _ _ Hg Hm)) Hm Hn1) as [(x & Hx & Ha)|(Hc & He1 & Hu1 & Hm1 & ->)].
    - left. exists x. rewrite obs_of_cons. split; [apply elem_of_app; by left|done].
    - destruct IH as [(x & Hx & Ha)|IH]; [by eapply good_step|done|by rewrite Hm1|done|left; exists x; by rewrite obs_of_cons|right; congruence]. }
  destruct (HG s h s' Hx Hg He Hm Hn) as [|Hmm]; [done|]. exfalso.
  pose proof (exec_good_from period s h s' Hp Hg Hx) as Hg'. destruct (mon s) as [m|] eqn:Em; [|done].
  destruct (g_due _ _ Hg m Em) as (_ & D2 & _). destruct (g_due _ _ Hg' m Hmm) as (D1 & _). lia.
Qed.

(** * The pauses *)
Lemma failures_app k a b : failures k (a ++ b) = failures (failures k a) b.
Proof. revert k. induction a as [|x a IH]; intros k; cbn [app failures]; [done|]. destruct x; apply IH. Qed.
(** After [k] failures in a row, the last at time [t]: the next check is due [pause (k-1)]
    after it. *)
Definition paced (os : list obs) (s : state) : Prop :=
  forall m, mon s = Some m ->
    match failures 0 os with
    | O => m_backoff m = 1
    | S k => exists o1 t o2, os = o1 ++ OFailed t :: o2 /\ Forall (fun o => ~ attempt o) o2 /\ exited s = true /\ m_due m = t + pause k /\ m_backoff m = pause (S k)
    end.
Lemma pause_succ k : Z.min (pause k * 2) 30 = pause (S k).
Proof. unfold pause. rewrite Nat2Z.inj_succ, Z.pow_succ_r by lia. lia. Qed.
Lemma paced_same os s s' : mon s' = mon s -> (exited s = true -> exited s' = true) -> paced os s -> paced os s'.
Proof.
  intros Em He H m Hm. rewrite Em in Hm. specialize (H m Hm). destruct (failures 0 os); [done|]. destruct H as (o1 & t & o2 & E & Ho & Hx & Hr). eexists _, _, _. eauto.
Qed.
Lemma paced_none os s : mon s = None -> paced os s.
Proof. intros E m Hm. congruence. Qed.
Lemma paced_step period s e s' o os : 0 < period -> good period s -> (cur s = None -> mon s = None) -> paced os s -> step period s e = (s', o) -> paced (os ++ o) s'.
Proof.
  intros Hp Hg Hcm Hpc. unfold step. destruct (up s) eqn:Hu; cbn [negb].
  - destruct e as [sp|d|p|sp| | |].
    + destruct (cur s) eqn:Hc, (mon s) eqn:Hm; try (intros [= <- <-]; rewrite app_nil_r; done). destruct (start s sp) as [[s1 o1]|] eqn:Es; [|intros [= <- <-]; by rewrite app_nil_r].
      apply start_some in Es. destruct sp as [p|]; intros [= <- <-].
      * destruct Es as (Hn & -> & ->). intros m [= <-]. rewrite failures_app. done.
      * destruct Es as [-> ->]. by apply paced_none.
    + destruct (_ && _); intros [= <- <-]; rewrite app_nil_r; [|done]. by apply (paced_same _ s).
    + destruct (alive s p) eqn:Ha; intros [= <- <-]; rewrite app_nil_r; [|done]. apply (paced_same _ s); [done| |done].
      unfold exited. cbn [cur]. destruct (cur s) as [q|]; [|done]. rewrite alive_insert. by destruct (decide (p = q)).
    + destruct (mon s) as [m|] eqn:Hm; [|intros [= <- <-]; by rewrite app_nil_r]. destruct (now s =? m_due m) eqn:Hd; [|intros [= <- <-]; by rewrite app_nil_r].
      apply Z.eqb_eq in Hd. destruct (exited s) eqn:He.
      * destruct (start s sp) as [[s1 o1]|] eqn:Es; [|intros [= <- <-]; by rewrite app_nil_r]. apply start_some in Es. destruct sp as [p|]; intros [= <- <-].
        -- destruct Es as (Hn & -> & ->). intros m' [= <-]. rewrite failures_app. done.
        -- destruct Es as [-> ->]. intros m' [= <-]. cbn [m_due m_backoff]. rewrite failures_app. cbn [failures].
           exists os, (now s), []. split; [done|]. split; [constructor|]. split; [done|]. specialize (Hpc m Hm).
           assert (m_backoff m = pause (failures 0 os)) as ->; [|split; [done|apply pause_succ]].
           destruct (failures 0 os); [by rewrite Hpc|]. by destruct Hpc as (? & ? & ? & _ & _ & _ & _ & ->).
      * intros [= <- <-]. rewrite app_nil_r. intros m' [= <-]. specialize (Hpc m Hm). destruct (failures 0 os); [done|]. destruct Hpc as (? & ? & ? & _ & _ & Hx & _). congruence.
    + intros [= <- <-]. by apply paced_none.
    + intros [= <- <-]. by apply paced_none.
    + intros [= <- <-]. by apply paced_none.
  - destruct e as [sp|d|p|sp| | |]; try (intros [= <- <-]; by rewrite app_nil_r).
    + destruct (0 <? d); intros [= <- <-]; rewrite app_nil_r; [|done]. by apply (paced_same _ s).
    + destruct (alive s p) eqn:Ha; intros [= <- <-]; rewrite app_nil_r; [|done]. apply (paced_same _ s); [done| |done].
      unfold exited. cbn [cur]. destruct (cur s) as [q|]; [|done]. rewrite alive_insert. by destruct (decide (p = q)).
Qed.
Lemma exec_paced period t h s : 0 < period -> exec (step period) (init t) h s -> paced (obs_of h) s.
Proof.
  intros Hp Hx. eapply (exec_ind_r (step period) (init t) (fun h s => paced (obs_of h) s)); [by apply paced_none| |exact Hx].
  intros h1 s1 e o s' Hx1 IH Hs. rewrite obs_of_snoc. pose proof (exec_good period t h1 s1 Hp Hx1) as Hg. eapply (paced_step period s1); try done.
  intros Hc. destruct (mon s1) eqn:Em; [|done]. destruct (g_mon _ _ Hg) as [H _]; [congruence|done].
Qed.
(** The time of an attempt by the monitor, after a failure. *)
Lemma attempt_time period s e s' o x : step period s e = (s', o) -> x ∈ o -> attempt x -> mon s <> None -> exists m, mon s = Some m /\ now s = m_due m /\ (x = OFailed (now s) \/ exists p, x = OStart (now s) p).
Proof.
  unfold step. intros Hs Hx Ha Hm. destruct (mon s) as [m|] eqn:Em; [|done]. exists m. split; [done|]. destruct (up s); cbn [negb] in Hs.
  - destruct e as [sp|d|p|sp| | |].
    + destruct (cur s); injection Hs as <- <-; by apply elem_of_nil in Hx.
    + destruct (_ && _); injection Hs as <- <-; by apply elem_of_nil in Hx.
    + destruct (alive s p); injection Hs as <- <-; by apply elem_of_nil in Hx.
    + destruct (now s =? m_due m) eqn:Hd; [|injection Hs as <- <-; by apply elem_of_nil in Hx]. apply Z.eqb_eq in Hd. split; [done|].
      destruct (exited s); [|injection Hs as <- <-; by apply elem_of_nil in Hx]. destruct (start s sp) as [[s1 o1]|] eqn:Es; [|injection Hs as <- <-; by apply elem_of_nil in Hx].
      apply start_some in Es. destruct sp as [p|]; injection Hs as <- <-; [destruct Es as (_ & _ & ->)|destruct Es as (_ & ->)]; apply elem_of_list_singleton in Hx as ->; eauto.
    + injection Hs as <- <-. by apply elem_of_nil in Hx.
    + injection Hs as <- <-. destruct (cur s); [|by apply elem_of_nil in Hx]. destruct (alive s n); [|by apply elem_of_nil in Hx]. by apply elem_of_list_singleton in Hx as ->.
    + injection Hs as <- <-. apply elem_of_list_fmap in Hx as (? & -> & _). done.
  - destruct e; try (injection Hs as <- <-; by apply elem_of_nil in Hx).
    + destruct (0 <? d); injection Hs as <- <-; by apply elem_of_nil in Hx.
    + destruct (alive s p); injection Hs as <- <-; by apply elem_of_nil in Hx.
Qed.
Lemma last_failed o1 t1 o2 o1' t1' o2' : o1 ++ OFailed t1 :: o2 = o1' ++ OFailed t1' :: o2' -> Forall (fun o => ~ attempt o) o2 -> Forall (fun o => ~ attempt o) o2' -> o1 = o1' /\ t1 = t1' /\ o2 = o2'.
Proof.
  revert o1'. induction o1 as [|x o1 IH]; intros [|x' o1'] E H1 H2; cbn in E; injection E.
  - by intros -> ->.
  - intros E2 <-. rewrite E2, Forall_app in H1. destruct H1 as [_ H1]. inversion_clear H1 as [|? ? Hb]. by destruct Hb.
  - intros E2 ->. rewrite <- E2, Forall_app in H2. destruct H2 as [_ H2]. inversion_clear H2 as [|? ? Hb]. by destruct Hb.
  - intros E2 ->. destruct (IH o1' E2 H1 H2) as (-> & -> & ->). done.
Qed.
Lemma spaced period t0 h s e s' o x o1 t o2 : 0 < period -> exec (step period) (init t0) h s -> step period s e = (s', o) -> x ∈ o -> attempt x -> mon s <> None ->
  obs_of h = o1 ++ OFailed t :: o2 -> Forall (fun o => ~ attempt o) o2 -> x = OFailed (t + pause (failures 0 o1)) \/ exists p, x = OStart (t + pause (failures 0 o1)) p.
Proof.
  intros Hp Hx Hs Hin Ha Hm E Ho. destruct (attempt_time _ _ _ _ _ _ Hs Hin Ha Hm) as (m & Em & Hd & Hk).
  pose proof (exec_paced _ _ _ _ Hp Hx m Em) as Hpc.
  assert (Hq : forall l k, Forall (fun o => ~ attempt o) l -> failures k l = k).
  { clear. induction l as [|y l IH]; intros k Hl; [done|]. inversion_clear Hl as [|? ? Hy Hl']. destruct y; cbn [failures]; first [by apply IH | exfalso; apply Hy; exact I]. }
  assert (Hf : failures 0 (obs_of h) = S (failures 0 o1)) by (rewrite E, failures_app; cbn [failures]; by apply Hq).
  rewrite Hf in Hpc. destruct Hpc as (o1' & t' & o2' & E' & Ho' & _ & Hdue & _). rewrite E in E'. destruct (last_failed _ _ _ _ _ _ E' Ho Ho') as (<- & <- & <-).
  rewrite Hd, Hdue in Hk. done.
Qed.

(** * The end *)
Lemma no_start period s e s' o : step period s e = (s', o) -> mon s = None -> cur s <> None \/ up s = false -> mon s' = None /\ (cur s' <> None \/ up s' = false) /\ Forall (fun o => ~ is_start o) o.
Proof.
  unfold step. intros Hs Hm Hc. rewrite Hm in Hs. destruct (up s) eqn:Hu; cbn [negb] in Hs.
  - destruct Hc as [Hc|]; [|done]. destruct e as [sp|d|p|sp| | |].
    + destruct (cur s) eqn:Hcc; [|done]. injection Hs as <- <-. by rewrite Hcc; repeat split; auto.
    + destruct (_ && _); injection Hs as <- <-; by repeat split; auto.
    + destruct (alive s p); injection Hs as <- <-; by repeat split; auto.
    + injection Hs as <- <-. by repeat split; auto.
    + injection Hs as <- <-. by repeat split; auto.
    + injection Hs as <- <-. split; [done|]. split; [by left|]. destruct (cur s) as [p|]; [destruct (alive s p)|]; repeat constructor; auto.
    + injection Hs as <- <-. split; [done|]. split; [by right|]. apply Forall_forall. intros x Hx. apply elem_of_list_fmap in Hx as (? & -> & _). by intros ?.
  - destruct e as [sp|d|p|sp| | |]; try (injection Hs as <- <-; by repeat split; auto).
    + destruct (0 <? d); injection Hs as <- <-; by repeat split; auto.
    + destruct (alive s p); injection Hs as <- <-; by repeat split; auto.
Qed.
Lemma never_again period s h s' : exec (step period) s h s' -> mon s = None -> cur s <> None \/ up s = false -> Forall (fun o => ~ is_start o) (obs_of h).
Proof.
  induction 1 as [|s e o s1 h s2 Hs _ IH]; intros Hm Hc; [constructor|]. rewrite obs_of_cons. destruct (no_start _ _ _ _ _ Hs Hm Hc) as (Hm1 & Hc1 & Ho). apply Forall_app. auto.
Qed.
