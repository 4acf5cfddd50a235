(** Proofs for C141 and C142, part 3: clusters stop, start and fail; fair runs exist. *)
From Coq Require Import ZArith Lia.
From stdpp Require Import list.
From Verif Require Import Trace Phase_Model Phase_Spec Phase_Proofs Phase_Proofs2 Phase_Proofs3 KLife_Model KLife_Spec KLife_Proofs KLife_Live.
Open Scope Z_scope.

Section run.
Context (ma : Z) (run : nat -> life) (ev : nat -> levent) (HE : endless ma run ev) (HF : fair run ev) (n0 : nat) (HH : healthy ev n0).
Notation ob i := (l_obj (run i)).
Notation vs i := (versions (l_obj (run i))).
Notation phase_at i := (phase_of (status_of (current (l_obj (run i))))).

Lemma off_at i : Off (ob i).
Proof. destruct (reached ma run ev HE i) as (h & o0 & Hst & Hx). destruct (lreach_phase _ _ _ _ Hx) as (h' & Hp). by eapply off_all. Qed.
Lemma off_later i j : (i <= j)%nat -> active (current (ob i)) = false -> active (current (ob j)) = false.
Proof.
  induction 1 as [|j Hj IH]; [done|]. intros H. specialize (IH H). destruct (mv_vers _ _ _ (move ma run ev HE j)) as [E|(v & E & Hv & _)]; unfold current in *; rewrite E; [done|]. rewrite last_snoc. cbn. by apply Hv.
Qed.
Lemma off_cached i j c : (i <= j)%nat -> active (current (ob i)) = false -> (length (vs i) <= seen (ob j))%nat -> cached (ob j) = Some c -> active c = false.
Proof.
  intros Hij Ha Hl Hc. destruct (cached_since ma run ev HE i j c Hij Hl Hc) as [-> |(k & Hk & <-)]; [done|]. eapply off_later; [|exact Ha]. lia.
Qed.
Definition offS (s : life) : Prop := (forall o, busy (l_obj s) = Some o -> active o = false) /\ exists c, cached (l_obj s) = Some c /\ active c = false.
Lemma offS_step i : offS (run i) -> offS (run (S i)).
Proof.
  intros (Hb & c & Hc & Ha). pose proof (move ma run ev HE i) as HM.
  assert (HB : forall o, busy (ob (S i)) = Some o -> active o = false).
  { intros o Ho. destruct (busy (ob i)) as [o'|] eqn:Eb.
    - destruct (mv_busy _ _ _ HM o' Eb) as [E|(w & a & ok & He & Hp & Hq)]; [apply Hb; congruence|]. rewrite (mv_ends _ _ _ HM w a ok He Hp Hq) in Ho. done.
    - destruct (mv_begin _ _ _ HM Eb) as [E|[_ E]]; congruence. }
  split; [done|]. apply cached_version in Hc as [Hc Hp]. pose proof (mv_seen _ _ _ HM) as Hs. pose proof (le ma run ev HE (S i)) as Hl.
  destruct (cached_some (ob (S i))) as [c' Hc']; [lia|]. exists c'. split; [done|]. pose proof (cached_version _ _ _ Hc') as [Hv _].
  destruct (later_vers ma run ev HE i (S i) ltac:(lia)) as [l El]. eapply (o_mono _ (off_at (S i)) (seen (ob i) - 1) (seen (ob (S i)) - 1)); [lia| |exact Hv|exact Ha]. rewrite El. by apply lookup_app_l_Some.
Qed.
Lemma offS_later i j : (i <= j)%nat -> offS (run i) -> offS (run j).
Proof. induction 1 as [|j Hj IH]; [done|]. intros H. by apply offS_step, IH. Qed.
Lemma over_step i : offS (run i) -> over (phase_at i) -> over (phase_at (S i)).
Proof.
  intros [Hb _] Ho. destruct (mv_vers _ _ _ (move ma run ev HE i)) as [E|(v & E & _ & Hv)]; unfold current in *; rewrite E; [done|]. rewrite last_snoc. cbn.
  destruct Hv as [-> |(o & w & a & ok & st' & Hbo & -> & HR & _)]; [done|]. pose proof (rs_off _ _ _ HR (Hb o Hbo)) as Hs. cbn. unfold phase_of. rewrite Hs. by left.
Qed.
Lemma over_later i j : (i <= j)%nat -> offS (run i) -> over (phase_at i) -> over (phase_at j).
Proof. induction 1 as [|j Hj IH]; [done|]. intros H1 H2. apply over_step; [by eapply offS_later|auto]. Qed.
Lemma over_dec p : {over p} + {~ over p}.
Proof. destruct p; unfold over; (left; tauto) || (right; intros [?|?]; done). Qed.
Lemma ended_at i : over (phase_at i) -> has_ended (run i).
Proof. intros H. right. exists (phase_at i). split; [by apply shows_iff|done]. Qed.

Lemma stops i : active (object (run i)) = false -> exists j, (i <= j)%nat /\ forall k, (j <= k)%nat -> has_ended (run k).
Proof.
  intros Ha. unfold object in Ha. set (i1 := Nat.max i n0). assert (Ha1 : active (current (ob i1)) = false) by (eapply off_later; [|exact Ha]; lia).
  assert (exists m, (i1 <= m)%nat /\ offS (run m)) as (m & Hm & HS).
  { destruct (next_run ma run ev HE HF i1) as (j & Hj & Hl & Hb & [(He & Hd & o & Hc)|(Es & _)]).
    - exists (S j). split; [lia|]. pose proof (off_cached i1 j o Hj Ha1 Hl Hc) as Ho. destruct (mv_get _ _ _ (move ma run ev HE j) He Hd Hb) as (Eb & _). split; [intros o' Ho'; congruence|].
      pose proof (cached_version _ _ _ Hc) as [_ Hp]. pose proof (mv_seen _ _ _ (move ma run ev HE j)). destruct (cached_some (ob (S j))) as [c Hcc]; [pose proof (le ma run ev HE (S j)); lia|]. exists c. split; [done|].
      eapply (off_cached i1 (S j)); [lia|done|lia|done].
    - exists j. split; [done|]. split; [congruence|]. exists (current (ob j)). split; [apply cached_current; [done|by eapply ne]|]. by eapply off_later. }
  assert (exists j, (m <= j)%nat /\ (gone (ob j) = true \/ over (phase_at j))) as (j & Hj & Hj').
  { destruct (next_run ma run ev HE HF m) as (j & Hj & Hl & Hb & [(He & Hd & o & Hc)|(Es & (Hh & _))]).
    2:{ exists j. split; [done|]. right. apply Hh. eapply (off_later i1); [lia|done]. }
    assert (Hao : active o = false) by (eapply (off_cached i1 j); [lia|done|pose proof (later_vers ma run ev HE i1 m Hm) as [l El]; rewrite El, app_length in Hl; lia|done]).
    destruct (over_dec (phase_of (status_of o))) as [Ho|Ho].
    - destruct (cached_since ma run ev HE m j o Hj Hl Hc) as [-> |(k & Hk & <-)]; [exists m; auto|]. exists k. split; [lia|auto].
    - destruct (run_ends ma run ev HE HF j o He Hd Hb Hc) as (k & w & a & ok & Hk & Hek & Hbk & Hp & Hq & _). destruct (HH k w a ok) as (Hans & -> & ->); [lia|done|].
      destruct (run_leaves ma run ev HE k w true true o Hek Hbk Hp Hq Hans eq_refl) as [Hg|[Hov|[(st' & Est & HR)|(st' & Ecu & HR)]]].
      + exists k. split; [lia|auto].
      + done.
      + exfalso. pose proof (rs_off _ _ _ HR Hao) as E. apply Ho. rewrite Est. cbn. unfold phase_of. rewrite E. by left.
      + exists (S k). split; [lia|]. right. rewrite Ecu. cbn. unfold phase_of. rewrite (rs_off _ _ _ HR Hao). by left. }
  exists j. split; [lia|]. intros k Hk. destruct Hj' as [Hg|Ho]; [left; by eapply later_gone|]. apply ended_at. eapply (over_later j); [done| |done]. eapply (offS_later m); [done|done].
Qed.

(** The step that records the end: the deletions were confirmed. *)
Lemma turned j : ~ over (phase_at j) -> over (phase_at (S j)) -> exists st, OPatch st true ∈ (lstep ma (run j) (ev j)).2 /\ over (phase_of st) /\ forall r, r = Pod \/ r = Secret -> records st r ->
  ODelete r Ok ∈ (lstep ma (run j) (ev j)).2 \/ ODelete r NotFound ∈ (lstep ma (run j) (ev j)).2.
Proof.
  intros H1 H2. destruct (next ma run ev HE j) as [os Hs]. destruct (mv_vers _ _ _ (move ma run ev HE j)) as [E|(v & E & _ & Hv)]; [unfold current in *; by rewrite E in H2|].
  assert (Ecur : current (ob (S j)) = v) by (unfold current; by rewrite E, last_snoc). rewrite Ecur in H2.
  destruct Hv as [Hv|(o & w & a & ok & st' & Hb & Hv & HR & He)]; [by rewrite Hv in H2|]. rewrite Hv in H2. cbn in H2. rewrite He in Hs |- *. cbn [lstep] in Hs |- *.
  destruct (decide _) as [[Hp Hq]|]; [|injection Hs as Hs _; rewrite <- Hs in E; apply (f_equal length) in E; rewrite app_length in E; cbn in E; lia].
  destruct (with_obj ma (EEnd w a ok) (run j)) as [s1 o1] eqn:Ew. apply with_obj_step in Ew as (Ew & _). cbn [snd].
  injection Hs as Hs <-. assert (Eo : l_obj (run (S j)) = l_obj s1) by (by rewrite <- Hs). pose proof Ew as Ew'. cbn [step] in Ew. rewrite Hb in Ew. apply ends_out in Ew as (_ & _ & _ & [Ev|(st & Ev & _ & Hin)] & _).
  { rewrite Eo, Ev in E. apply (f_equal length) in E. rewrite app_length in E. cbn in E. lia. }
  rewrite Eo, Ev in E. apply app_inj_2 in E as [_ [= E]]; [|done]. assert (st = st') as -> by (rewrite <- E in Hv; by injection Hv).
  exists st'. split; [done|]. split; [done|]. intros r Hr Hrec. by eapply end_deletes.
Qed.
Lemma first_over i k : (i <= k)%nat -> ~ over (phase_at i) -> over (phase_at k) -> exists j, (i <= j < k)%nat /\ ~ over (phase_at j) /\ over (phase_at (S j)).
Proof.
  induction 1 as [|k Hk IH]; [done|]. intros H1 H2. destruct (over_dec (phase_at k)) as [H|H]; [|exists k; split; [lia|done]]. destruct (IH H1 H) as (j & Hj & H3). exists j. split; [lia|done].
Qed.
Lemma cleans i : active (object (run i)) = false -> ~ has_ended (run i) -> exists j, (i <= j)%nat /\ (gone (ob j) = true \/
  exists st, OPatch st true ∈ (lstep ma (run j) (ev j)).2 /\ over (phase_of st) /\ forall r, r = Pod \/ r = Secret -> records st r ->
    ODelete r Ok ∈ (lstep ma (run j) (ev j)).2 \/ ODelete r NotFound ∈ (lstep ma (run j) (ev j)).2).
Proof.
  intros Ha Hn. destruct (stops i Ha) as (k & Hk & H). destruct (H k ltac:(lia)) as [Hg|(p & Hs & Ho)]; [exists k; auto|]. apply shows_iff in Hs. unfold object in Hs.
  destruct (first_over i k Hk) as (j & Hj & H1 & H2); [intros Hx; apply Hn; by apply ended_at|by rewrite Hs|]. exists j. split; [lia|]. right. by apply turned.
Qed.

(** A cluster that goes on: [D] is what is to come about. *)
Section goal.
Context (D : obj -> Prop) (Ddec : forall o, {D o} + {~ D o}) (good : option pod -> option bool -> Prop).
Context (D_stat : forall o o', stat o = stat o' -> D o -> D o').
Context (D_over : forall o, over (phase_of (status_of o)) -> D o).
Context (D_run : forall o w st', active o = true -> ~ D o -> (forall st, stat o = Some st -> phase_of st = Pending -> pod_ st = true) -> stat o <> None ->
   good (seen_pod w) (endpoints w) -> result w o st' -> D (Obj true 0 (Some st'))).
Context (D_hold : forall o p e, active o = true -> ~ D o -> good p e -> on_hold o None p e -> False).
Context (on : forall k, active (object (run k)) = true).
Context (goods : forall k k', (n0 <= k)%nat -> (n0 <= k')%nat -> good (the_pod (run k)) (the_ends (run k'))).

Lemma no_over i : (forall v p, v ∈ vs i -> shows v p -> ~ over p) -> forall j, (i <= j)%nat -> (exists k, (i <= k <= j)%nat /\ D (current (ob k))) \/ (noted (ob j) = None /\ gone (ob j) = false).
Proof.
  intros Hv j Hij. destruct (reached ma run ev HE j) as [h Hr].
  destruct (decide (noted (ob j) = None /\ gone (ob j) = false)) as [?|Hn]; [by right|left].
  destruct (noted_over ma h (run j) Hr) as (v & p & Hin & Hs & Ho).
  { destruct (noted (ob j)); [by left|]. right. destruct (gone (ob j)); [done|]. by destruct Hn. }
  apply elem_of_list_lookup in Hin as [x Hx]. destruct (decide (x < length (vs i))%nat) as [Hlt|Hge].
  - exfalso. destruct (later_vers ma run ev HE i j Hij) as [l El]. rewrite El, lookup_app_l in Hx by done. eapply Hv; [by eapply elem_of_list_lookup_2|done|done].
  - destruct (was_current ma run ev HE i j x v Hij ltac:(lia) Hx) as (k & Hk & <-). exists k. split; [done|]. apply D_over. apply shows_iff in Hs. by rewrite Hs.
Qed.
Lemma all_on j v : v ∈ vs j -> active v = true.
Proof.
  intros Hin. destruct (active v) eqn:E; [done|]. exfalso. apply elem_of_list_lookup in Hin as [x Hx]. pose proof (current_at ma run ev HE j) as Hc.
  pose proof (lookup_lt_Some _ _ _ Hx). assert (off (current (ob j))) as Hoff by (eapply (o_mono _ (off_at j) x (length (vs j) - 1)); [lia|exact Hx|exact Hc|exact E]). specialize (on j). unfold off, object in *. congruence.
Qed.
Lemma round i m : (forall v p, v ∈ vs i -> shows v p -> ~ over p) -> (i <= m)%nat -> (n0 <= m)%nat ->
  exists j, (i <= j)%nat /\ (D (current (ob j)) \/ (m <= j)%nat /\ stat (current (ob m)) = None /\ stat (current (ob j)) <> None).
Proof.
  intros Hv Him Hnm. destruct (Ddec (current (ob m))) as [?|HDm]; [exists m; auto|].
  destruct (next_run ma run ev HE HF m) as (j & Hj & Hl & Hb & H).
  destruct (no_over i Hv j ltac:(lia)) as [(k & Hk & HD)|[Hno Hgo]]; [exists k; split; [lia|auto]|].
  destruct H as [(He & Hd & o & Hc)|(Es & Hh)].
  2:{ destruct (Ddec (current (ob j))) as [?|HDj]; [exists j; split; [lia|auto]|]. exfalso. rewrite Hno in Hh. eapply D_hold; [apply (on j)|exact HDj| |exact Hh]. apply goods; lia. }
  destruct (Ddec o) as [HDo|HDo].
  { destruct (cached_since ma run ev HE m j o Hj Hl Hc) as [-> |(k & Hk & <-)]; [done|]. exists k. split; [lia|auto]. }
  assert (Hin : o ∈ vs j) by (by eapply cached_in). pose proof (all_on j o Hin) as Hon.
  destruct (run_ends ma run ev HE HF j o He Hd Hb Hc) as (k & w & a & ok & Hk & Hek & Hbk & Hp & Hq & (k1 & Hk1 & E1) & (k2 & Hk2 & E2)). destruct (HH k w a ok) as (Hans & -> & ->); [lia|done|].
  destruct (no_over i Hv k ltac:(lia)) as [(k3 & Hk3 & HD)|[_ Hgo']]; [exists k3; split; [lia|auto]|].
  assert (Hpod : forall st, stat o = Some st -> phase_of st = Pending -> pod_ st = true) by (intros st; eapply so_pod; [by eapply sound_at|done]).
  assert (Hgd : good (seen_pod w) (endpoints w)) by (rewrite E1, E2; apply goods; lia).
  destruct (run_leaves ma run ev HE k w true true o Hek Hbk Hp Hq Hans eq_refl) as [Hg|[Hov|[(st' & Est & HR)|(st' & Ecu & HR)]]].
  - congruence.
  - by destruct HDo; apply D_over.
  - exfalso. apply HDo. eapply (D_stat (Obj true 0 (Some st'))); [by rewrite Est|]. eapply D_run; [exact Hon|done|exact Hpod|by rewrite Est|exact Hgd|exact HR].
  - destruct (stat o) as [st|] eqn:Est.
    + exists (S k). split; [lia|]. left. rewrite Ecu. eapply (D_stat (Obj true 0 (Some st'))); [done|]. eapply D_run; [exact Hon|done|by rewrite Est|by rewrite Est|exact Hgd|exact HR].
    + exists (S k). split; [lia|]. right. split; [lia|]. split; [|by rewrite Ecu].
      (* the snapshot is not older than what was current *)
      destruct (stat (current (ob m))) eqn:Em; [|done]. exfalso.
      apply cached_version in Hc as [Hx Hpos]. pose proof (current_at ma run ev HE m) as Hcm. destruct (later_vers ma run ev HE m j Hj) as [l El].
      eapply (so_stat _ (sound_at ma run ev HE j) (length (vs m) - 1) (seen (ob j) - 1)); [lia| |exact Hx| |exact Est].
      * rewrite El. by apply lookup_app_l_Some.
      * by rewrite Em.
Qed.
Lemma comes i : (forall v p, v ∈ vs i -> shows v p -> ~ over p) -> exists j, (i <= j)%nat /\ D (current (ob j)).
Proof.
  intros Hv. destruct (round i (Nat.max i n0) Hv ltac:(lia) ltac:(lia)) as (j & Hj & [HD|(Hm & _ & Hs)]); [eauto|].
  destruct (round i j Hv Hj ltac:(lia)) as (k & Hk & [HD|(_ & Hn & _)]); [eauto|]. done.
Qed.
End goal.

Lemma starts i : (forall k, active (object (run k)) = true) -> (forall v, v ∈ vs i -> shows v Pending) ->
  (forall k, (n0 <= k)%nat -> pod_runs (the_pod (run k)) /\ the_ends (run k) = Some true) ->
  exists j, (i <= j)%nat /\ ~ shows (object (run j)) Pending.
Proof.
  intros Hon Hv Hgood. unfold object. eapply (comes (fun o => ~ shows o Pending)) with (good := fun p e => pod_runs p /\ e = Some true).
  - intros o. destruct (decide (phase_of (status_of o) = Pending)) as [E|E]; [right; intros H; apply H|left; intros H; apply E]; by apply shows_iff.
  - intros o o' E H1 H2. apply H1. apply shows_iff. rewrite E. by apply shows_iff.
  - intros o Ho Hs. apply shows_iff in Hs. rewrite Hs in Ho. by destruct Ho.
  - intros o w st' Ha Hs Hpod Hst [Hp He] HR Hs'. assert (E : phase_of (status_of o) = Pending).
    { destruct (decide (phase_of (status_of o) = Pending)) as [E|E]; [done|]. exfalso. apply Hs. intros H. apply E. by apply shows_iff. }
    destruct (rs_on _ _ _ HR Ha E) as (_ & Hrun & _). apply shows_iff in Hs'. cbn in Hs'. unfold phase_of in Hs'. rewrite Hrun in Hs'; [done| |done|done].
    destruct (stat o) as [st|]; [|done]. cbn in *. by apply Hpod.
  - intros o p e Ha Hs [Hp He] (_ & H2 & _). assert (E : phase_of (status_of o) = Pending).
    { destruct (decide (phase_of (status_of o) = Pending)) as [E|E]; [done|]. exfalso. apply Hs. intros H. apply E. by apply shows_iff. }
    destruct (H2 eq_refl Ha E) as [H _]. by apply H.
  - done.
  - intros k k' Hk Hk'. split; [by apply Hgood|by apply Hgood].
  - intros v p Hin Hs [-> | ->]; specialize (Hv v Hin); by pose proof (shows_fun _ _ _ Hs Hv).
Qed.
Lemma fails i : (forall k, active (object (run k)) = true) -> (forall v p, v ∈ vs i -> shows v p -> ~ over p) ->
  (forall k, (n0 <= k)%nat -> pod_ended (the_pod (run k))) ->
  exists j p, (i <= j)%nat /\ shows (object (run j)) p /\ over p.
Proof.
  intros Hon Hv Hgood. enough (exists j, (i <= j)%nat /\ over (phase_at j)) as (j & Hj & Ho); [exists j, (phase_at j); split_and!; [done|by apply shows_iff|done]|].
  eapply (comes (fun o => over (phase_of (status_of o)))) with (good := fun p (_ : option bool) => pod_ended p).
  - intros o. apply over_dec.
  - by intros o o' ->.
  - done.
  - intros o w st' Ha Hs Hpod Hst Hp HR. cbn. assert (phase_ st' = Some Failed) as E; [|unfold phase_of; rewrite E; by right].
    destruct (phase_of (status_of o)) eqn:E.
    + destruct (rs_on _ _ _ HR Ha E) as (_ & _ & Hend). apply Hend; [|done]. destruct (stat o) as [st|]; [|done]. cbn in *. by apply Hpod.
    + apply (rs_run _ _ _ HR Ha E). by left.
    + destruct Hs. by left.
    + destruct Hs. by right.
  - intros o p e Ha Hs Hp (_ & H2 & H3). destruct (phase_of (status_of o)) eqn:E.
    + by destruct (H2 eq_refl Ha eq_refl).
    + by destruct (H3 eq_refl Ha eq_refl).
    + destruct Hs. by left.
    + destruct Hs. by right.
  - done.
  - intros k k' Hk _. by apply Hgood.
  - done.
Qed.
Lemma lost i : (forall k, active (object (run k)) = true) -> (forall v p, v ∈ vs i -> shows v p -> ~ over p) ->
  (forall k, (n0 <= k)%nat -> the_pod (run k) = None) ->
  exists j, (i <= j)%nat /\ ~ shows (object (run j)) Running.
Proof.
  intros Hon Hv Hgood. enough (exists j, (i <= j)%nat /\ phase_at j <> Running) as (j & Hj & Ho); [exists j; split; [done|]; intros H; apply Ho; by apply shows_iff|].
  eapply (comes (fun o => phase_of (status_of o) <> Running)) with (good := fun p (_ : option bool) => p = None).
  - intros o. destruct (decide (phase_of (status_of o) = Running)); [right|left]; tauto.
  - by intros o o' ->.
  - intros o [-> | ->]; done.
  - intros o w st' Ha Hs Hpod Hst Hp HR. cbn. assert (E : phase_of (status_of o) = Running) by (destruct (decide (phase_of (status_of o) = Running)); tauto).
    unfold phase_of. rewrite (rs_run _ _ _ HR Ha E); [done|]. by right.
  - intros o p e Ha Hs Hp (_ & _ & H3). assert (E : phase_of (status_of o) = Running) by (destruct (decide (phase_of (status_of o) = Running)); tauto). destruct (H3 eq_refl Ha E). done.
  - done.
  - intros k k' Hk _. by apply Hgood.
  - done.
Qed.
End run.

(** * Fair runs exist *)
(** The controller does one thing after the other; the API server answers well; the
    caches of pods and endpoints do not change. *)
Definition good_world (s : life) : world :=
  World (fun _ => Conflict) (fun _ => Ok) (the_pod s) (MkPod PPending None) (the_ends s) 0 (Some false).
Definition turn (i : nat) (s : life) : levent :=
  match (i mod 4)%nat with
  | 0%nat => LWatch (length (versions (l_obj s)))
  | 1%nat => LTimer
  | 2%nat => LEnd (good_world s) true true
  | _ => LGet
  end.
Fixpoint turns (ma : Z) (s : life) (i : nat) : life :=
  match i with O => s | S i => (lstep ma (turns ma s i) (turn i (turns ma s i))).1 end.
Lemma same_caches ma s e : e = LTimer \/ e = LGet \/ (exists k, e = LWatch k) \/ (exists w a ok, e = LEnd w a ok) -> l_pods s <> [] -> l_ends s <> [] ->
  the_pod (lstep ma s e).1 = the_pod s /\ the_ends (lstep ma s e).1 = the_ends s.
Proof.
  intros He Hp Hq. destruct (lstep ma s e) as [s' os] eqn:Hs. cbn [fst]. destruct He as [-> |[-> |[(k & ->)|(w & a & ok & ->)]]]; cbn [lstep] in Hs.
  - injection Hs as <- _. by destruct (l_timer s).
  - destruct (l_dirty s); [|by injection Hs as <- _]. destruct (busy (l_obj s)); [by injection Hs as <- _|]. apply with_obj_step in Hs as (_ & _ & _ & E1 & E2). unfold the_pod at 1, the_ends at 1. by rewrite E1, E2.
  - destruct (with_obj ma (ECache k) s) as [s1 o1] eqn:E. apply with_obj_step in E as (_ & _ & _ & E1 & E2). injection Hs as <- _. unfold the_pod, the_ends. destruct (_ <? _)%nat; cbn; by rewrite E1, E2.
  - destruct (decide _); [|by injection Hs as <- _]. destruct (with_obj ma _ s) as [s1 o1] eqn:E. apply with_obj_step in E as (_ & _ & _ & E1 & E2). injection Hs as <- _. unfold the_pod, the_ends. cbn. by rewrite E1, E2.
Qed.
Lemma turn_cases i s : turn i s = LTimer \/ turn i s = LGet \/ (exists k, turn i s = LWatch k) \/ (exists w a ok, turn i s = LEnd w a ok).
Proof. unfold turn. destruct (i mod 4)%nat as [|[|[|]]]; eauto 10. Qed.
Lemma mod_at i r : (r < 4)%nat -> exists j, (i <= j)%nat /\ (j mod 4 = r)%nat.
Proof.
  intros Hr. exists (4 * i + r)%nat. split; [lia|]. rewrite Nat.mul_comm, Nat.add_comm, Nat.mod_add by lia. by apply Nat.mod_small.
Qed.
Lemma turns_fair ma h s : lreach ma h s -> let run := turns ma s in let ev := fun i => turn i (run i) in endless ma run ev /\ fair run ev /\ healthy ev 0 /\
  (forall i, the_pod (run i) = the_pod s /\ the_ends (run i) = the_ends s) /\ (forall i, ev i <> LStop).
Proof.
  intros Hr. set (run := turns ma s). set (ev := fun i => turn i (run i)).
  assert (HE : endless ma run ev).
  { constructor; [by exists h|done|]. intros i p e. unfold ev. destruct (turn_cases i (run i)) as [H|[H|[[k H]|(w & a & ok & H)]]]; by rewrite H. }
  assert (Hlists : forall i, the_pod (run i) ∈ l_pods (run i) /\ the_ends (run i) ∈ l_ends (run i)).
  { intros i. destruct (so_lists _ (sound_at ma run ev HE i)) as [H1 H2]. unfold the_pod, the_ends. destruct (l_pods (run i)), (l_ends (run i)); try done. split; left. }
  split_and!; [done| | | |].
  - constructor.
    + intros i. destruct (mod_at i 0) as (j & Hj & Em); [lia|]. exists (S j). split; [lia|]. destruct (later_vers ma run ev HE i j Hj) as [l El].
      rewrite (en_step _ _ _ HE). unfold ev, turn. rewrite Em. cbn [lstep]. unfold with_obj. cbn [step]. cbn [l_obj seen fst]. pose proof (le ma run ev HE j) as Hle.
      assert (length (versions (l_obj (run i))) <= Nat.min (seen (l_obj (run j)) + length (versions (l_obj (run j)))) (length (versions (l_obj (run j)))))%nat by (rewrite El, app_length; lia).
      by destruct (_ <? _)%nat.
    + intros i _. destruct (mod_at i 2) as (j & Hj & Em); [lia|]. exists (S j). split; [lia|]. split.
      * unfold ev, turn. assert ((S j) mod 4 = 3)%nat as ->; [|done]. replace (S j) with (1 + j)%nat by lia. rewrite Nat.add_mod, Em by lia. done.
      * eapply (mv_ends _ _ _ (move ma run ev HE j)); [unfold ev, turn; rewrite Em; done|apply Hlists|apply Hlists].
    + intros i _. destruct (mod_at i 2) as (j & Hj & Em); [lia|]. exists j, (good_world (run j)), true, true. split_and!; [done|unfold ev, turn; by rewrite Em|apply Hlists|apply Hlists].
    + intros i _. destruct (mod_at i 1) as (j & Hj & Em); [lia|]. exists j. split; [done|]. unfold ev, turn. by rewrite Em.
  - intros j w a ok _. unfold ev, turn. destruct (j mod 4)%nat as [|[|[|]]]; try done. intros [= <- <- <-]. split_and!; [|done|done]. split_and!; [by right|by left|done].
  - intros i. induction i as [|i [IH1 IH2]]; [done|]. rewrite (en_step _ _ _ HE). destruct (so_lists _ (sound_at ma run ev HE i)) as [H1 H2].
    destruct (same_caches ma (run i) (ev i) (turn_cases i (run i)) H1 H2) as [-> ->]. done.
  - intros i. unfold ev. destruct (turn_cases i (run i)) as [H|[H|[[k H]|(w & a & ok & H)]]]; by rewrite H.
Qed.
Lemma runs_exist ma h s : lreach ma h s -> exists run ev, run 0%nat = s /\ endless ma run ev /\ fair run ev /\ healthy ev 0 /\
  (forall i, the_pod (run i) = the_pod s /\ the_ends (run i) = the_ends s) /\ (forall i, ev i <> LStop).
Proof. intros Hr. exists (turns ma s), (fun i => turn i (turns ma s i)). split; [done|]. by eapply turns_fair. Qed.
(** Without a request to stop the cluster stays active. *)
Lemma stays_on ma run ev : endless ma run ev -> (forall i, ev i <> LStop) -> active (object (run 0%nat)) = true -> forall i, active (object (run i)) = true.
Proof.
  intros HE Hev H0 i. induction i as [|i IH]; [done|]. destruct (next ma run ev HE i) as [os Hs]. specialize (Hev i). pose proof (en_life _ _ _ HE i) as Hl. unfold object in *. unfold lstep in Hs.
  assert (Hcur : forall l n b t g v, current (State (l ++ [v]) n b t g) = v) by (intros; unfold current; cbn; by rewrite last_snoc).
  destruct (ev i) as [|k|k|p|x| | |w a ok| |t|p x]; try done; unfold with_obj in Hs; cbn [step] in Hs.
  - injection Hs as <- _. cbn [l_obj]. unfold write. destruct (gone _); [done|]. by rewrite Hcur.
  - injection Hs as <- _. destruct (_ <? _)%nat; cbn [l_obj put]; by unfold current in *.
  - injection Hs as <- _. by destruct (_ && _).
  - injection Hs as <- _. by destruct (_ && _).
  - injection Hs as <- _. by destruct (negb _).
  - destruct (l_dirty _); [|by injection Hs as <- _]. destruct (busy (l_obj (run i))) eqn:Eb; [by injection Hs as <- _|]. cbn [l_obj] in Hs. rewrite Eb in Hs. destruct (cached _); injection Hs as <- _; by unfold current in *.
  - destruct (decide _); [|by injection Hs as <- _]. destruct (busy _) as [o|]; [|by injection Hs as <- _]. destruct (ends _ _ _ _ _) as [o' os'] eqn:Ee. injection Hs as <- _. cbn [l_obj].
    apply ends_cases in Ee as (_ & _ & _ & H). destruct H as [(Ev & _)|[(Ev & _)|[(Ev & _)|(st' & Ev & _)]]]; unfold current in *; rewrite Ev; try done. rewrite last_snoc. done.
  - injection Hs as <- _. by destruct (l_timer _).
  - destruct (noted _); [|by injection Hs as <- _]. destruct (_ <=? _); injection Hs as <- _; by unfold current in *.
  - by destruct (Hl p x).
Qed.
