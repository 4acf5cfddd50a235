(** Proofs for C141 and C142, part 2: endless runs. *)
From Coq Require Import ZArith Lia.
From stdpp Require Import list.
From Verif Require Import Trace Phase_Model Phase_Spec Phase_Proofs Phase_Proofs2 KLife_Model KLife_Spec KLife_Proofs.
Open Scope Z_scope.

(** At rest the cluster is on hold. *)
Lemma idle_hold ma h s : lreach ma h s -> idle s -> on_hold (object s) (noted (l_obj s)) (the_pod s) (the_ends s).
Proof.
  intros (o0 & Hst & Hx) [Hse (Hd & Ht & Hb)]. pose proof (waits_all _ _ _ _ Hst Hx) as HW. unfold waits in HW. rewrite Hb in HW. destruct HW as [?|[?|[?|?]]]; [congruence|congruence|lia|done].
Qed.
Lemma noted_over ma h s : lreach ma h s -> noted (l_obj s) <> None \/ gone (l_obj s) = true -> exists v p, v ∈ versions (l_obj s) /\ shows v p /\ over p.
Proof.
  intros (o0 & Hst & Hx) [Hn|Hg]; [|by apply (so_gone _ (sound_all _ _ _ _ Hst Hx))]. destruct (lreach_phase _ _ _ _ Hx) as (h' & Hp). pose proof (good_all _ _ _ _ Hst Hp) as HG.
  destruct (noted (l_obj s)) as [t|] eqn:E; [|done]. destruct (g_noted _ _ HG t E) as (v & p & st & c & Hin & Hsh & Ho & _). eauto.
Qed.

Section run.
Context (ma : Z) (run : nat -> life) (ev : nat -> levent) (HE : endless ma run ev).
Notation ob i := (l_obj (run i)).
Notation vs i := (versions (l_obj (run i))).

Lemma reached i : exists h, lreach ma h (run i).
Proof.
  induction i as [|i (h & o0 & Hst & Hx)]; [apply HE|]. destruct (lstep ma (run i) (ev i)) as [s' o] eqn:E. exists (h ++ [(ev i, o)]), o0. split; [done|]. apply exec_app. exists (run i). split; [done|].
  rewrite (en_step _ _ _ HE), E. econstructor; [exact E|constructor].
Qed.
Lemma next i : exists os, lstep ma (run i) (ev i) = (run (S i), os).
Proof. rewrite (en_step _ _ _ HE). destruct (lstep _ _ _) as [s o]. by exists o. Qed.
Lemma good i : exists h, Good h (ob i).
Proof. destruct (reached i) as (h & o0 & Hst & Hx). destruct (lreach_phase _ _ _ _ Hx) as (h' & Hp). exists h'. by eapply good_all. Qed.
Lemma sound_at i : sound (run i).
Proof. destruct (reached i) as (h & o0 & Hst & Hx). by eapply sound_all. Qed.
Lemma waits_at i : waits (run i).
Proof. destruct (reached i) as (h & o0 & Hst & Hx). by eapply waits_all. Qed.
Lemma ne i : vs i <> [].
Proof. destruct (good i) as [h HG]. apply HG. Qed.
Lemma le i : (seen (ob i) <= length (vs i))%nat.
Proof. destruct (good i) as [h HG]. apply HG. Qed.

(** What one step does. *)
Record moves (s s' : life) (e : levent) : Prop := {
  mv_vers : versions (l_obj s') = versions (l_obj s) \/ exists v, versions (l_obj s') = versions (l_obj s) ++ [v] /\
     (active (current (l_obj s)) = false -> active v = false) /\
     (stat v = stat (current (l_obj s)) \/ exists o w a ok st', busy (l_obj s) = Some o /\ stat v = Some st' /\ result w o st' /\ e = LEnd w a ok);
  mv_seen : (seen (l_obj s) <= seen (l_obj s'))%nat;
  mv_wake : (seen (l_obj s) < seen (l_obj s'))%nat -> l_dirty s' = true;
  mv_dirty : l_dirty s = true -> l_dirty s' = true \/ (e = LGet /\ busy (l_obj s) = None);
  mv_timer : l_timer s = true -> l_timer s' = true \/ l_dirty s' = true;
  mv_fires : e = LTimer -> l_timer s = true -> l_dirty s' = true;
  mv_busy : forall o, busy (l_obj s) = Some o -> busy (l_obj s') = Some o \/ exists w a ok, e = LEnd w a ok /\ seen_pod w ∈ l_pods s /\ endpoints w ∈ l_ends s;
  mv_ends : forall w a ok, e = LEnd w a ok -> seen_pod w ∈ l_pods s -> endpoints w ∈ l_ends s -> busy (l_obj s') = None;
  mv_begin : busy (l_obj s) = None -> busy (l_obj s') = None \/ (e = LGet /\ busy (l_obj s') = cached (l_obj s));
  mv_get : e = LGet -> l_dirty s = true -> busy (l_obj s) = None -> busy (l_obj s') = cached (l_obj s) /\ l_pods s' = [the_pod s] /\ l_ends s' = [the_ends s];
  mv_pods : (forall p, p ∈ l_pods s' -> p ∈ l_pods s \/ p = the_pod s') /\ (forall e, e ∈ l_ends s' -> e ∈ l_ends s \/ e = the_ends s');
  mv_gone : gone (l_obj s) = true -> gone (l_obj s') = true }.
Ltac mv := try (solve [done | lia | auto | intros; congruence | intros; exfalso; congruence | intros; discriminate]).
Lemma moved s e s' os : lstep ma s e = (s', os) -> (forall p x, e <> LRestart p x) -> (seen (l_obj s) <= length (versions (l_obj s)))%nat -> sound s -> moves s s' e.
Proof.
  intros Hs Hr Hle HS. destruct (so_lists _ HS) as [Hpl Hel].
  assert (Hthe : the_pod s ∈ l_pods s /\ the_ends s ∈ l_ends s) by (unfold the_pod, the_ends; destruct (l_pods s), (l_ends s); try done; split; left).
  assert (Hw : forall v, stat v = stat (current (l_obj s)) -> (active (current (l_obj s)) = false -> active v = false) ->
    e = LStop \/ (exists k, e = LScale k) -> moves s (Life (write (l_obj s) v) (l_dirty s) (l_timer s) (l_pods s) (l_ends s)) e).
  { intros v H4 H5 He. destruct (write_frame (l_obj s) v) as (Es & Eb & En & Eg).
    assert (versions (write (l_obj s) v) = versions (l_obj s) \/ versions (write (l_obj s) v) = versions (l_obj s) ++ [v]) as Hv by (destruct (write_versions (l_obj s) v) as [->|[_ ->]]; auto).
    destruct He as [->|[k ->]]; (constructor; cbn [l_obj l_dirty l_timer l_pods l_ends]; rewrite ?Es, ?Eb, ?Eg; mv); (destruct Hv as [->| ->]; [by left|]; right; exists v; auto). }
  destruct e as [|k|k|p|x| | |w a ok| |t|p x]; cbn [lstep] in Hs.
  - unfold with_obj in Hs. cbn [step] in Hs. injection Hs as <- <-. apply Hw; eauto.
  - unfold with_obj in Hs. cbn [step] in Hs. injection Hs as <- <-. apply Hw; eauto.
  - unfold with_obj in Hs. cbn [step] in Hs. injection Hs as <- <-. cbn [l_obj seen].
    destruct (_ <? _)%nat eqn:El; [apply Nat.ltb_lt in El|apply Nat.ltb_ge in El]; unfold put; constructor; cbn; mv.
  - injection Hs as <- <-. destruct (_ && _); unfold put; (constructor; cbn; mv); (split; [intros q [->|Hq]%elem_of_cons; auto|auto]).
  - injection Hs as <- <-. destruct (_ && _); unfold put; (constructor; cbn; mv); (split; [auto|intros q [->|Hq]%elem_of_cons; auto]).
  - injection Hs as <- <-. destruct (negb _); unfold put; constructor; cbn; mv.
  - destruct (l_dirty s) eqn:Ed; [|injection Hs as <- <-; constructor; mv].
    destruct (busy (l_obj s)) as [o|] eqn:Eb; [injection Hs as <- <-; constructor; mv|].
    unfold with_obj in Hs. cbn [step l_obj] in Hs. rewrite Eb in Hs. destruct (cached (l_obj s)) as [o|] eqn:Ec; injection Hs as <- <-; cbn [l_obj l_dirty l_timer l_pods l_ends].
    + constructor; cbn; mv. split; intros q ->%elem_of_list_singleton; by right.
    + constructor; cbn; mv; [rewrite Eb, Ec; done|]. split; intros q ->%elem_of_list_singleton; by right.
  - destruct (decide _) as [[Hp He]|Hn]; [|injection Hs as <- <-; constructor; mv; intros w0 a0 ok0 [= <- <- <-] ? ?; by destruct Hn].
    unfold with_obj in Hs. cbn [step] in Hs. destruct (busy (l_obj s)) as [o|] eqn:Eb.
    + destruct (ends (l_obj s) o w a ok) as [o' os'] eqn:Ee. injection Hs as <- <-. apply ends_cases in Ee as (Es & Ebu & Eg & H).
      constructor; cbn [l_obj l_dirty l_timer l_pods l_ends]; rewrite ?Es, ?Ebu, ?Eg; mv.
      * destruct H as [(Ev & _)|[(Ev & _)|[(Ev & _)|(st' & Ev & _ & _ & HR)]]]; [by left..|]. right. eexists. split; [exact Ev|]. split; [done|]. right. exists o, w, a, ok, st'. auto.
      * intros ->. by left.
      * intros o1 [= <-]. right. eauto 10.
    + injection Hs as <- <-. rewrite orb_false_r. constructor; cbn; mv.
  - injection Hs as <- <-. destruct (l_timer s) eqn:Et; (constructor; cbn; mv).
  - unfold with_obj in Hs. cbn [step] in Hs. assert (forall s1, s1 = s -> moves s s1 (LExpire t)) as Hid by (intros ? ->; constructor; mv).
    destruct (noted (l_obj s)) as [t0|] eqn:En; [|injection Hs as <- <-; apply Hid; by destruct s]. destruct (_ <=? _); injection Hs as <- <-; [|apply Hid; by destruct s].
    constructor; cbn; mv.
  - by destruct (Hr p x).
Qed.
Lemma move i : moves (run i) (run (S i)) (ev i).
Proof. destruct (next i) as [os H]. eapply moved; [exact H|apply HE|apply le|apply sound_at]. Qed.

(** * Monotonicity *)
Lemma later_vers i j : (i <= j)%nat -> exists l, vs j = vs i ++ l.
Proof.
  induction 1 as [|j Hj (l & IH)]; [exists []; by rewrite app_nil_r|]. destruct (mv_vers _ _ _ (move j)) as [E|(v & E & _)]; rewrite E, IH; [eauto|]. rewrite <- app_assoc. eauto.
Qed.
Lemma later_seen i j : (i <= j)%nat -> (seen (ob i) <= seen (ob j))%nat.
Proof. induction 1 as [|j Hj IH]; [lia|]. pose proof (mv_seen _ _ _ (move j)). lia. Qed.
Lemma later_gone i j : (i <= j)%nat -> gone (ob i) = true -> gone (ob j) = true.
Proof. induction 1 as [|j Hj IH]; [done|]. intros H. by apply (mv_gone _ _ _ (move j)), IH. Qed.
Lemma current_at i : vs i !! (length (vs i) - 1)%nat = Some (current (ob i)).
Proof. pose proof (ne i) as Hne. unfold current. destruct (vs i) as [|v l _] using rev_ind; [done|]. rewrite last_snoc, app_length. cbn. rewrite Nat.add_sub. by rewrite lookup_app_r, Nat.sub_diag. Qed.
(** Every version was once the current one. *)
Lemma was_current i j n v : (i <= j)%nat -> (length (vs i) <= n)%nat -> vs j !! n = Some v -> exists k, (i <= k <= j)%nat /\ current (ob k) = v.
Proof.
  intros Hij. induction Hij as [|j Hj IH]; intros Hn Hv; [apply lookup_lt_Some in Hv; lia|].
  destruct (mv_vers _ _ _ (move j)) as [E|(x & E & _)].
  - rewrite E in Hv. destruct (IH Hn Hv) as (k & Hk & Ek). exists k. split; [lia|done].
  - rewrite E in Hv. apply lookup_app_Some in Hv as [Hv|[Hge Hv]].
    + destruct (IH Hn Hv) as (k & Hk & Ek). exists k. split; [lia|done].
    + apply list_lookup_singleton_Some in Hv as [_ <-]. exists (S j). split; [lia|]. unfold current. by rewrite E, last_snoc.
Qed.
Lemma cached_version i c : cached (ob i) = Some c -> vs i !! (seen (ob i) - 1)%nat = Some c /\ (0 < seen (ob i))%nat.
Proof. unfold cached. destruct (seen (ob i)) as [|n]; [done|]. cbn. rewrite Nat.sub_0_r. split; [done|lia]. Qed.
(** A version that is cached is one that was current since, if the cache has come so far. *)
Lemma cached_since i j c : (i <= j)%nat -> (length (vs i) <= seen (ob j))%nat -> cached (ob j) = Some c -> c = current (ob i) \/ exists k, (i <= k <= j)%nat /\ current (ob k) = c.
Proof.
  intros Hij Hl [Hc Hp]%cached_version. destruct (decide (seen (ob j) = length (vs i))) as [E|E].
  - left. destruct (later_vers i j Hij) as [l El]. pose proof (current_at i) as H. rewrite El in Hc. rewrite lookup_app_l in Hc by (apply lookup_lt_Some in H; lia). rewrite E in Hc. congruence.
  - right. eapply was_current; [done| |exact Hc]. lia.
Qed.

(** * Fairness *)
Context (HF : fair run ev).
Lemma gets i : l_dirty (run i) = true -> exists j, (i <= j)%nat /\ ev j = LGet /\ busy (ob j) = None /\ l_dirty (run j) = true.
Proof.
  intros Hd. destruct (fa_get _ _ HF i Hd) as (j & Hij & He & Hb). remember (j - i)%nat as d eqn:Ed. revert i Hd Hij Ed. induction d as [|d IH]; intros i Hd Hij Ed.
  - assert (i = j) as -> by lia. eauto.
  - destruct (mv_dirty _ _ _ (move i) Hd) as [Hd'|[He' Hb']].
    + destruct (IH (S i) Hd') as (k & Hk & H); [lia|lia|]. exists k. split; [lia|done].
    + exists i. eauto.
Qed.
Lemma fires i : l_timer (run i) = true -> exists j, (i <= j)%nat /\ l_dirty (run j) = true.
Proof.
  intros Ht. destruct (fa_timer _ _ HF i Ht) as (j & Hij & He). remember (j - i)%nat as d eqn:Ed. revert i Ht Hij Ed. induction d as [|d IH]; intros i Ht Hij Ed.
  - assert (i = j) as -> by lia. exists (S j). split; [lia|]. by apply (mv_fires _ _ _ (move j)).
  - destruct (mv_timer _ _ _ (move i) Ht) as [Ht'|Hd].
    + destruct (IH (S i) Ht') as (k & Hk & H); [lia|lia|]. exists k. split; [lia|done].
    + exists (S i). split; [lia|done].
Qed.
Lemma sees i j : (i <= j)%nat -> (seen (ob i) < seen (ob j))%nat -> exists k, (i <= k)%nat /\ l_dirty (run k) = true.
Proof.
  induction 1 as [|j Hj IH]; [lia|]. intros Hlt. destruct (decide (seen (ob i) < seen (ob j))%nat) as [H|H]; [by apply IH|].
  exists (S j). split; [lia|]. apply (mv_wake _ _ _ (move j)). lia.
Qed.
Lemma ends_some i o : busy (ob i) = Some o -> exists j w a ok, (i <= j)%nat /\ ev j = LEnd w a ok /\ seen_pod w ∈ l_pods (run j) /\ endpoints w ∈ l_ends (run j) /\ busy (ob j) = Some o.
Proof.
  intros Hb. destruct (fa_end _ _ HF i) as (j & w & a & ok & Hij & He & Hp & Hq); [by rewrite Hb|]. remember (j - i)%nat as d eqn:Ed. revert i Hb Hij Ed. induction d as [|d IH]; intros i Hb Hij Ed.
  - assert (i = j) as -> by lia. exists j, w, a, ok. auto.
  - destruct (mv_busy _ _ _ (move i) o Hb) as [Hb'|(w' & a' & ok' & He' & Hp' & Hq')].
    + destruct (IH (S i) Hb') as (k & w' & a' & ok' & Hk & H); [lia|lia|]. exists k, w', a', ok'. split; [lia|done].
    + exists i, w', a', ok'. auto.
Qed.
Lemma free i : exists j, (i <= j)%nat /\ busy (ob j) = None.
Proof.
  destruct (busy (ob i)) as [o|] eqn:Eb; [|by exists i]. destruct (ends_some i o Eb) as (j & w & a & ok & Hij & He & Hp & Hq & _). exists (S j). split; [lia|]. by eapply (mv_ends _ _ _ (move j)).
Qed.
(** From any moment on, a run begins later with what was current then or newer, or the
    controller has nothing to do. *)
Lemma next_run i : exists j, (i <= j)%nat /\ (length (vs i) <= seen (ob j))%nat /\ busy (ob j) = None /\
  ((ev j = LGet /\ l_dirty (run j) = true /\ exists o, cached (ob j) = Some o) \/
   (seen (ob j) = length (vs j) /\ on_hold (current (ob j)) (noted (ob j)) (the_pod (run j)) (the_ends (run j)))).
Proof.
  destruct (fa_watch _ _ HF i) as (j0 & H0 & Hl). destruct (free j0) as (j1 & H1 & Hb1).
  assert (Hd : forall j, (j1 <= j)%nat -> l_dirty (run j) = true -> exists j, (i <= j)%nat /\ (length (vs i) <= seen (ob j))%nat /\ busy (ob j) = None /\
    ((ev j = LGet /\ l_dirty (run j) = true /\ exists o, cached (ob j) = Some o) \/ (seen (ob j) = length (vs j) /\ on_hold (current (ob j)) (noted (ob j)) (the_pod (run j)) (the_ends (run j))))).
  { intros j Hj Hd. destruct (gets j Hd) as (k & Hk & He & Hb & Hdk). exists k. pose proof (later_seen j0 k ltac:(lia)). split_and!; [lia|lia|done|]. left. split_and!; [done|done|]. apply cached_some. pose proof (le k). pose proof (ne i). destruct (vs i); [done|]. cbn in *. lia. }
  pose proof (waits_at j1) as HW. unfold waits in HW. rewrite Hb1 in HW. destruct HW as [HW|[HW|[HW|HW]]].
  - by eapply Hd.
  - destruct (fires j1 HW) as (j & Hj & H). by eapply Hd.
  - destruct (fa_watch _ _ HF j1) as (j2 & H2 & Hl2). destruct (sees j1 j2 H2 ltac:(lia)) as (j & Hj & H). by eapply Hd.
  - pose proof (later_seen j0 j1 H1). destruct (decide (seen (ob j1) = length (vs j1))) as [E|E].
    + exists j1. split_and!; [lia|lia|done|]. by right.
    + pose proof (le j1). destruct (fa_watch _ _ HF j1) as (j2 & Hj2 & Hl2). destruct (sees j1 j2 Hj2 ltac:(lia)) as (j & Hj & H'). by eapply Hd.
Qed.
(** ... and ends, having met only what the caches held since. *)
Lemma pods_since i j : (i <= j)%nat -> (forall p, p ∈ l_pods (run j) -> p ∈ l_pods (run i) \/ exists k, (i <= k <= j)%nat /\ p = the_pod (run k)) /\
  (forall e, e ∈ l_ends (run j) -> e ∈ l_ends (run i) \/ exists k, (i <= k <= j)%nat /\ e = the_ends (run k)).
Proof.
  induction 1 as [|j Hj [IH1 IH2]]; [auto|]. destruct (mv_pods _ _ _ (move j)) as [H1 H2]. split.
  - intros p Hp. destruct (H1 p Hp) as [H| ->]; [|right; exists (S j); split; [lia|done]]. destruct (IH1 p H) as [?|(k & Hk & ->)]; [by left|]. right. exists k. split; [lia|done].
  - intros p Hp. destruct (H2 p Hp) as [H| ->]; [|right; exists (S j); split; [lia|done]]. destruct (IH2 p H) as [?|(k & Hk & ->)]; [by left|]. right. exists k. split; [lia|done].
Qed.
Lemma run_ends j o : ev j = LGet -> l_dirty (run j) = true -> busy (ob j) = None -> cached (ob j) = Some o ->
  exists k w a ok, (j < k)%nat /\ ev k = LEnd w a ok /\ busy (ob k) = Some o /\ seen_pod w ∈ l_pods (run k) /\ endpoints w ∈ l_ends (run k) /\
    (exists k', (j <= k')%nat /\ seen_pod w = the_pod (run k')) /\ (exists k', (j <= k')%nat /\ endpoints w = the_ends (run k')).
Proof.
  intros He Hd Hb Hc. destruct (mv_get _ _ _ (move j) He Hd Hb) as (Eb & Ep & Ee). rewrite Hc in Eb. destruct (ends_some (S j) o Eb) as (k & w & a & ok & Hk & He' & Hp & Hq & Hbk).
  exists k, w, a, ok. split; [lia|]. destruct (pods_since (S j) k Hk) as [P1 P2]. split_and!; try done.
  - destruct (P1 _ Hp) as [H|(k' & Hk' & E)]; [rewrite Ep in H; apply in_single in H; exists j; split; [lia|done]|]. exists k'. split; [lia|done].
  - destruct (P2 _ Hq) as [H|(k' & Hk' & E)]; [rewrite Ee in H; apply in_single in H; exists j; split; [lia|done]|]. exists k'. split; [lia|done].
Qed.
(** What such a run leaves when the API server answers well. *)
Lemma run_leaves k w a ok o : ev k = LEnd w a ok -> busy (ob k) = Some o -> seen_pod w ∈ l_pods (run k) -> endpoints w ∈ l_ends (run k) -> answers w -> a = true ->
  gone (ob k) = true \/ over (phase_of (status_of o)) \/ (exists st', stat o = Some st' /\ result w o st') \/
  (exists st', current (ob (S k)) = new_version (ob k) st' /\ result w o st').
Proof.
  intros He Hb Hp Hq Ha Hk. destruct (next k) as [os Hs]. rewrite He in Hs. cbn [lstep] in Hs. rewrite decide_True in Hs by done. unfold with_obj in Hs. cbn [step] in Hs. rewrite Hb in Hs.
  destruct (ends (ob k) o w a ok) as [o' os'] eqn:Ee. injection Hs as Hs _. rewrite <- Hs. cbn [l_obj]. apply ends_cases in Ee as (_ & _ & _ & H).
  destruct H as [(_ & _ & _ & H)|[(_ & H)|[(_ & _ & H)|(st' & Ev & _ & _ & H)]]]; [left; auto|auto|auto|]. right. right. right. exists st'. split; [|done]. unfold current at 1. by rewrite Ev, last_snoc.
Qed.
End run.
