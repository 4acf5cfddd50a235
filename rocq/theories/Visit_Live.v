(** Proofs of C123: a call ends. *)
From Coq Require Import ZArith Lia.
From stdpp Require Import prelude gmap.
From Verif Require Import Trace WorkQueue_Model Gateway_Model Gateway_Inv Gateway_Hist Gateway_Spec Gateway_Spec3 Gateway_Proofs Gateway_Proofs2
  Gateway_Live Gateway_Live2 Visit_Model Visit_Spec Visit_Proofs.
Open Scope Z_scope.

Section live.
Context (cf : cfg) (run : nat -> vgw) (ev : nat -> vevent).
Hypothesis HE : vendless cf run ev.
Notation grun := (fun i => v_gw (run i)).
Notation gev := (fun i => gevent cf (run i) (ev i)).

Lemma v_step i : step cf (v_gw (run i)) (gevent cf (run i) (ev i)) = (v_gw (run (S i)), (vstep cf (run i) (ev i)).2.2).
Proof.
  rewrite (ve_step _ _ _ HE i). destruct (vstep cf (run i) (ev i)) as [s' [ge o]] eqn:Hs.
  destruct (vstep_gw _ _ _ _ _ Hs) as [H1 H2]. cbn [fst snd] in *. subst ge. done.
Qed.
Lemma v_endless : endless cf grun gev.
Proof.
  constructor.
  - destruct (ve_from _ _ _ HE) as (h & Hi & Hr). exists (gw_part h). split; [done|]. by apply vreach_gw.
  - intros i. cbn beta. rewrite v_step. done.
  - apply (ve_life _ _ _ HE).
  - apply (ve_open _ _ _ HE).
Qed.
Lemma v_reach i : exists h, ids_ok cf (gw_part h) /\ vreach cf h (run i).
Proof.
  destruct (ve_from _ _ _ HE) as (h & Hi & Hr). induction i as [|i (h' & Hi' & Hr')]; [exists h; done|].
  destruct (vstep cf (run i) (ev i)) as [s' o] eqn:Hs. exists (h' ++ [(ev i, o)]). split.
  - rewrite gw_part_app. destruct Hi' as [Hf|Ho]; [left; done|]. right. intros e o' [Hin|Hin]%elem_of_app; [by eapply Ho|].
    apply elem_of_list_singleton in Hin. destruct (vstep_gw _ _ _ _ _ Hs) as [_ He]. destruct o as [ge os]. cbn [fst] in He.
    injection Hin as -> _. rewrite He. apply (ve_life _ _ _ HE).
  - apply exec_app. exists (run i). split; [done|]. econstructor; [|constructor]. rewrite (ve_step _ _ _ HE i), Hs. done.
Qed.
Lemma v_first i : first_life cf (run 0%nat) -> first_life cf (run i).
Proof.
  intros (h & Ho & Hr). induction i as [|i (h' & Ho' & Hr')]; [exists h; done|].
  destruct (vstep cf (run i) (ev i)) as [s' o] eqn:Hs. exists (h' ++ [(ev i, o)]). split.
  - rewrite gw_part_app. intros e o' [Hin|Hin]%elem_of_app; [by eapply Ho'|].
    apply elem_of_list_singleton in Hin. destruct (vstep_gw _ _ _ _ _ Hs) as [_ He]. destruct o as [ge os]. cbn [fst] in He.
    injection Hin as -> _. rewrite He. apply (ve_life _ _ _ HE).
  - apply exec_app. exists (run i). split; [done|]. econstructor; [|constructor]. rewrite (ve_step _ _ _ HE i), Hs. done.
Qed.

(** * The cluster settles: it runs, or it has to end *)
Section settle.
Hypothesis HF : vfair cf run ev.
Hypothesis Hfresh : fresh_ids cf.
Hypothesis Hfirst : first_life cf (run 0%nat).

Lemma settles i n c : objs (v_gw (run i)) !! n = Some c ->
  exists j d, (i <= j)%nat /\ objs (v_gw (run j)) !! n = Some d /\ (c_status d = RUNNING \/ c_target d <> RUNNING).
Proof.
  intros Hc. destruct (created_starts cf _ _ v_endless (vf_gw _ _ _ HF) i n c Hc) as (j & Hij & Hj).
  destruct (Hj j (le_n _)) as (d & Hd & Hs).
  destruct (vf_check _ _ _ HF j (r_start (c_row d) + cstart_timeout cf)) as (l & now & Hjl & Ht & El).
  destruct (cluster_later cf _ _ v_endless j l n d Hjl Hd) as (d' & Hd' & Hev).
  destruct (decide (c_target d' = RUNNING)) as [Etg|]; [|exists l, d'; split; [lia|]; auto].
  destruct (decide (c_status d' = RUNNING)) as [|Est]; [exists l, d'; split; [lia|]; auto|].
  destruct (v_first l Hfirst) as (h & Ho & Hr). pose proof (vreach_gw _ _ _ Hr) as Hg. assert (forall h, ids_ok cf h) as Hid by (left; done).
  assert (~ finished (c_status d')) as Hnf.
  { intros Hfin. destruct (fin_target _ _ _ _ _ (Hid _) Hg Hd' Hfin) as [E'|E']; rewrite E' in Etg; done. }
  pose proof (live_known cf _ _ n d' Hfresh Hg Hd' Hnf) as Hl.
  assert (c_status d' = SUBMITTED) as Esub.
  { destruct (Hj l Hjl) as (d2 & Hd2 & Hs2). assert (d2 = d') as -> by congruence.
    pose proof (k_row _ _ _ _ _ _ (reach_cok _ _ _ _ _ (Hid _) Hg Hd')) as [_ H1 _ _ _ _ _]. unfold c_status, c_target, finished in *.
    destruct (r_status (c_row d')) eqn:E; try done; [exfalso; by apply H1|exfalso; auto|exfalso; auto]. }
  pose proof (v_step l) as Hst. rewrite El in Hst. cbn [gevent] in Hst.
  assert (forall m x, lookup_cluster m (v_gw (run l)) = Some x -> c_status x = RUNNING -> c_target x = RUNNING -> is_Some (c_hb x)) as Hhb.
  { intros m x Hm Hms _. destruct (lookup_obj _ _ _ Hm) as [Hmo _]. eapply heard_one_life; eauto. }
  destruct (timeouts_exact cf _ _ now _ _ (Hid _) Hg (ve_up _ _ _ HE l) Hhb Hst) as [_ Hx].
  destruct (Hx n d' Hl) as (d2 & Hl2 & Hlate & _). exists (S l), d2. split; [lia|]. split; [apply (lookup_obj _ _ _ Hl2)|]. right.
  rewrite Hlate; [done|]. split; [done|]. left. split; [done|]. rewrite (e_begin _ _ Hev). lia.
Qed.
End settle.

(** * One call *)
Section call.
Context (k user : nat) (close new : bool).
Hypothesis HS : served run ev k.
Notation at_ i st := (v_calls (run i) !! k = Some (Visit user close new st)).
Definition ends (i : nat) : Prop := exists j st, (i <= j)%nat /\ at_ j st /\ over st.

Lemma call_step i st : at_ i st -> exists st' o, at_ (S i) st' /\ turn cf (run i) k (Visit user close new st) (ev i) o st'.
Proof.
  intros Hk. destruct (vstep cf (run i) (ev i)) as [s' o] eqn:Hs. pose proof (vstep_calls _ _ _ _ _ Hs) as Hc.
  destruct (calls_turn cf (run i) (ev i) o.2 k _ Hk) as (st' & H1 & H2). exists st', o.2. split; [|done].
  rewrite (ve_step _ _ _ HE i), Hs. cbn [fst]. rewrite Hc. exact H1.
Qed.
(** It stays where it is until it moves. *)
Lemma call_until i j st : (i <= j)%nat -> at_ i st -> at_ j st \/ exists l st' o, (i <= l < j)%nat /\ at_ l st /\ at_ (S l) st' /\ st' <> st /\
  turn cf (run l) k (Visit user close new st) (ev l) o st'.
Proof.
  intros Hij Hi. induction Hij as [|j Hij IH]; [auto|]. destruct IH as [IH|(l & st' & o & Hl & H)].
  - destruct (call_step j st IH) as (st' & o & H1 & H2). destruct (decide (st' = st)) as [->|Hn]; [auto|]. right. exists j, st', o. split; [lia|]. done.
  - right. exists l, st', o. split; [lia|]. done.
Qed.
Lemma advance i st : at_ i st -> ~ over st -> exists l st' o, (i <= l)%nat /\ at_ l st /\ at_ (S l) st' /\ st' <> st /\
  turn cf (run l) k (Visit user close new st) (ev l) o st'.
Proof.
  intros Hi Ho. destruct (se_moves _ _ _ HS i _ Hi) as [H|(j & Hij & Hj)]; [done|].
  destruct (call_until i j st Hij Hi) as [H|(l & st' & o & Hl & H)]; [done|]. exists l, st', o. split; [lia|]. done.
Qed.
Lemma ends_later i j : (i <= j)%nat -> ends j -> ends i.
Proof. intros Hij (l & st & Hl & H). exists l, st. split; [lia|]. done. Qed.
Lemma ends_now i st : at_ i st -> over st -> ends i. Proof. intros H1 H2. exists i, st. done. Qed.

Definition not_over st : bool := match st with Started _ _ | Failed _ _ => false | _ => true end.
Lemma not_over_ok st : not_over st = true -> ~ over st.
Proof. intros H [(n & r & ->)|(n & e & ->)]; done. Qed.
Lemma closing_ends i n er : at_ i (Closing n er) -> ends i.
Proof.
  intros Hi. destruct (advance i _ Hi) as (l & st' & o & Hil & _ & Hl & Hne & Ht); [by apply not_over_ok|].
  apply (ends_later i (S l)); [lia|]. apply (ends_now _ st' Hl). inversion Ht; subst; cbn in *; try done; right; eauto.
Qed.
Lemma fail_ends i n er : at_ i (fail (Visit user close new (Sleeping n)) n er) -> ends i.
Proof.
  intros H. assert (over (fail (Visit user close new (Sleeping n)) n er) \/ fail (Visit user close new (Sleeping n)) n er = Closing n er) as [Ho|Hc].
  - unfold fail. cbn [v_close]. destruct close; [auto|]. left. right. eauto.
  - apply (ends_now _ _ H Ho).
  - rewrite Hc in H. by apply (closing_ends i n er).
Qed.

(** From some day on no request of the call is timed out. *)
Context (i0 : nat).
Hypothesis Htime : forall j, (i0 <= j)%nat -> ev j <> VTimeout k.

Lemma no_cut l now : ev l <> VGateway (ERestart now).
Proof. intros E. pose proof (ve_life _ _ _ HE l) as H. rewrite E in H. done. Qed.

Definition fresh_answer (i n : nat) : Prop := exists l a, (i <= l)%nat /\ at_ (S l) (Told n a) /\ source user n a (v_gw (run l)).
Lemma fresh_later i j n : (i <= j)%nat -> ends j \/ fresh_answer j n -> ends i \/ fresh_answer i n.
Proof. intros Hij [H|(l & a & Hl & H)]; [left; by apply (ends_later i j)|right; exists l, a; split; [lia|done]]. Qed.

Lemma held_poll i n : (i0 <= i)%nat -> at_ i (Held n) -> ends i \/ fresh_answer i n.
Proof.
  intros H0 Hi. destruct (advance i _ Hi) as (l & st' & o & Hil & _ & Hl & Hne & Ht); [by apply not_over_ok|].
  inversion Ht as [e os E1 E2 E3|now os E1 E2 E3|os E1 E2 E3|code os E1 E2 E3|os E1 E2 E3|os E1 E2 E3|now os E1 E2 E3]; cbn [v_stage] in *; subst; try (unfold late, refuse in *; cbn [v_stage] in *; done).
  - unfold move in *. cbn [v_stage v_user] in *. destruct (objs (v_gw (run l)) !! n) as [c|] eqn:Ho; [|done]. destruct (c_ready c); [|done].
    right. exists l, (answer_of user c). split; [done|]. split; [exact Hl|]. right. exists c. done.
  - unfold late, wait_over in *. cbn [v_stage v_user] in *. destruct (objs (v_gw (run l)) !! n) as [c|] eqn:Ho; [|done]. cbn [fmap option_fmap option_map] in *.
    right. exists l, (answer_of user c). split; [done|]. split; [exact Hl|]. right. exists c. done.
  - exfalso. apply (Htime l); [lia|done].
  - left. apply (ends_later i (S l)); [lia|]. apply (fail_ends (S l) n EBroken). exact Hl.
  - exfalso. apply (no_cut l now). done.
Qed.
Lemma asking_poll i n : (i0 <= i)%nat -> at_ i (Asking n) -> ends i \/ fresh_answer i n.
Proof.
  intros H0 Hi. destruct (advance i _ Hi) as (l & st' & o & Hil & _ & Hl & Hne & Ht); [by apply not_over_ok|].
  inversion Ht as [e os E1 E2 E3|now os E1 E2 E3|os E1 E2 E3|code os E1 E2 E3|os E1 E2 E3|os E1 E2 E3|now os E1 E2 E3]; cbn [v_stage] in *; subst; try (unfold late, refuse, cut in *; cbn [v_stage] in *; done).
  - unfold move in *. cbn [v_stage v_user] in *. unfold arrive in *. destruct (lookup_cluster n (v_gw (run l))) as [c|] eqn:Ho; [destruct (c_ready c)|].
    + right. exists l, (answer_of user c). split; [done|]. split; [exact Hl|]. right. exists c. split; [apply (lookup_obj _ _ _ Ho)|done].
    + apply (fresh_later i (S l)); [lia|]. apply held_poll; [lia|exact Hl].
    + right. exists l, (AStatus 404). split; [done|]. split; [exact Hl|]. left. done.
  - exfalso. apply (Htime l); [lia|done].
  - left. apply (ends_later i (S l)); [lia|]. apply (fail_ends (S l) n EBroken). exact Hl.
Qed.
Lemma sleeping_poll i n : (i0 <= i)%nat -> at_ i (Sleeping n) -> ends i \/ fresh_answer i n.
Proof.
  intros H0 Hi. destruct (advance i _ Hi) as (l & st' & o & Hil & _ & Hl & Hne & Ht); [by apply not_over_ok|].
  inversion Ht as [e os E1 E2 E3|now os E1 E2 E3|os E1 E2 E3|code os E1 E2 E3|os E1 E2 E3|os E1 E2 E3|now os E1 E2 E3]; cbn [v_stage] in *; subst; try (unfold late, refuse, cut, timeout in *; cbn [v_stage] in *; done).
  - apply (fresh_later i (S l)); [lia|]. apply asking_poll; [lia|exact Hl].
  - left. apply (ends_later i (S l)); [lia|]. apply (fail_ends (S l) n EBroken). exact Hl.
Qed.
(** An answer is received. *)
Lemma told_next i n a : (i0 <= i)%nat -> at_ i (Told n a) ->
  ends i \/ exists l, (i <= l)%nat /\ at_ (S l) (receive (Visit user close new (Told n a)) n a).
Proof.
  intros H0 Hi. destruct (advance i _ Hi) as (l & st' & o & Hil & _ & Hl & Hne & Ht); [by apply not_over_ok|].
  inversion Ht as [e os E1 E2 E3|now os E1 E2 E3|os E1 E2 E3|code os E1 E2 E3|os E1 E2 E3|os E1 E2 E3|now os E1 E2 E3]; cbn [v_stage] in *; subst; try (unfold late, refuse, cut in *; cbn [v_stage] in *; done).
  - right. exists l. split; [done|]. exact Hl.
  - exfalso. apply (Htime l); [lia|done].
  - left. apply (ends_later i (S l)); [lia|]. apply (fail_ends (S l) n EBroken). exact Hl.
Qed.
Lemma receive_cases i n a st0 : at_ i (receive (Visit user close new st0) n a) -> ends i \/
  (at_ i (Sleeping n) /\ exists r, a = AReport r /\ (rp_status r = PPENDING \/ rp_status r = PSTOPPING)).
Proof.
  unfold receive. destruct a as [r|code]; [destruct (rp_status r) eqn:Er|]; intros H.
  - right. eauto 6.
  - left. apply (ends_now _ _ H). left. eauto.
  - right. eauto 6.
  - left. by apply (fail_ends i n ECluster).
  - left. by apply (fail_ends i n ECluster).
  - left. by apply (fail_ends i n (error_of code)).
Qed.
Lemma poll i st n : (i0 <= i)%nat -> at_ i st -> named st = Some n -> ends i \/ fresh_answer i n.
Proof.
  intros H0 Hi Hn. destruct st as [info mx|m|m|m|m a|m|m r|m er|[m|] er]; cbn [named] in Hn; try done; injection Hn as ->.
  - destruct (advance i _ Hi) as (l & st' & o & Hil & _ & Hl & Hne & Ht); [by apply not_over_ok|].
    inversion Ht as [e os E1 E2 E3|now os E1 E2 E3|os E1 E2 E3|code os E1 E2 E3|os E1 E2 E3|os E1 E2 E3|now os E1 E2 E3]; cbn [v_stage] in *; subst; try (unfold late, refuse, cut, timeout in *; cbn [v_stage] in *; done).
    + apply (fresh_later i (S l)); [lia|]. apply asking_poll; [lia|exact Hl].
    + left. apply (ends_later i (S l)); [lia|]. apply (ends_now _ _ Hl). right. cbn. eauto.
  - by apply asking_poll.
  - by apply held_poll.
  - destruct (told_next i n a H0 Hi) as [H|(l & Hil & Hl)]; [auto|]. destruct (receive_cases _ _ _ _ Hl) as [H|[H _]].
    + left. apply (ends_later i (S l)); [lia|done].
    + apply (fresh_later i (S l)); [lia|]. apply sleeping_poll; [lia|done].
  - by apply sleeping_poll.
  - left. apply (ends_now _ _ Hi). left. eauto.
  - left. by apply (closing_ends i n er).
  - left. apply (ends_now _ _ Hi). right. eauto.
Qed.

Section main.
Hypothesis HF : vfair cf run ev.
Hypothesis Hfresh : fresh_ids cf.
Hypothesis Hfirst : first_life cf (run 0%nat).

Lemma named_step i st n : at_ i st -> named st = Some n -> exists st', at_ (S i) st' /\ (named st' = Some n \/ over st').
Proof.
  intros Hi Hn. destruct (call_step i st Hi) as (st' & o & H1 & Ht). exists st'. split; [done|].
  destruct (named st') as [m|] eqn:Em.
  - destruct (named_turn _ _ _ _ _ _ _ Ht m Em) as [H|(now & info & mx & _ & H & _)]; cbn [v_stage] in H; [left; congruence|].
    subst st. done.
  - right. destruct st' as [info mx|x|x|x|x a|x|x r|x er|[x|] er]; try done; [|right; eauto]. exfalso. clear H1.
    inversion Ht as [e os E1 E2 E3|now os E1 E2 E3|os E1 E2 E3|code os E1 E2 E3|os E1 E2 E3|os E1 E2 E3|now os E1 E2 E3]; cbn [v_stage] in *; subst; try done;
      destruct st as [info' mx'|x|x|x|x a|x|x r|x er|[x|] er]; try done;
      unfold move, late, refuse, timeout, break, cut, receive, fail in *; cbn [v_stage v_close v_user] in *; repeat case_match; done.
Qed.
Lemma named_later i j st n : (i <= j)%nat -> at_ i st -> named st = Some n -> ends i \/ exists st', at_ j st' /\ named st' = Some n.
Proof.
  intros Hij Hi Hn. induction Hij as [|j Hij IH]; [right; eauto|]. destruct IH as [IH|(st1 & H1 & H2)]; [auto|].
  destruct (named_step j st1 n H1 H2) as (st2 & H3 & [H4|H4]); [right; eauto|]. left. exists (S j), st2. split; [lia|done].
Qed.
(** A later answer, and what follows from it. *)
Lemma answer_later i j st n : (i0 <= i)%nat -> (i <= j)%nat -> at_ i st -> named st = Some n -> ends i \/ exists l a, (j <= l)%nat /\ source user n a (v_gw (run l)) /\
  exists m, (l < m)%nat /\ at_ m (Sleeping n) /\ exists r, a = AReport r /\ (rp_status r = PPENDING \/ rp_status r = PSTOPPING).
Proof.
  intros H0 Hij Hi Hn. destruct (named_later i j st n Hij Hi Hn) as [H|(st1 & H1 & H2)]; [auto|].
  destruct (poll j st1 n) as [H|(l & a & Hl & Ha & Hs)]; [lia|done|done|left; by apply (ends_later i j)|].
  destruct (told_next (S l) n a) as [H|(m & Hm & Hr)]; [lia|done|left; apply (ends_later i (S l)); [lia|done]|].
  destruct (receive_cases _ _ _ _ Hr) as [H|[H (r & Er)]]; [left; apply (ends_later i (S m)); [lia|done]|].
  right. exists l, a. split; [done|]. split; [done|]. exists (S m). split; [lia|]. split; [done|]. eauto.
Qed.

(** A cluster that has to end. *)
Lemma told_call_ends i st n : (i0 <= i)%nat -> at_ i st -> named st = Some n -> to_end (v_gw (run i)) n -> ends i.
Proof.
  intros H0 Hi Hn Hto. destruct (told_ends cf _ _ v_endless (vf_gw _ _ _ HF) i n Hto) as (j & Hij & Hj).
  destruct (answer_later i j st n H0 Hij Hi Hn) as [H|(l & a & Hl & Hs & m & Hm & _ & r & -> & Hr)]; [done|]. exfalso.
  destruct Hs as [[? _]|(c & Hc & Ha)]; [done|]. symmetry in Ha. apply answer_report in Ha as (p & Hp & _ & ->). cbn [report_of rp_status] in Hr.
  destruct (Hj l Hl) as (c' & Hc' & Hf & _). cbn beta in Hc'. assert (c' = c) as -> by congruence. unfold model_status in Hp.
  destruct Hf as [Hf|Hf]; rewrite Hf in Hp; destruct (c_target c); simpl in Hp; destruct Hr; congruence.
Qed.
Lemma named_ends i st n : (i0 <= i)%nat -> at_ i st -> named st = Some n -> ends i.
Proof.
  intros H0 Hi Hn.
  (* an answer tells that the cluster is there *)
  destruct (answer_later i i st n H0 (le_n _) Hi Hn) as [H|(l & a & Hl & Hs & m & Hm & Hat & r & -> & _)]; [done|].
  destruct Hs as [[? _]|(c & Hc & _)]; [done|]. destruct (cluster_later cf _ _ v_endless l m n c) as (c1 & Hc1 & _); [lia|done|].
  cbn beta in Hc1.
  (* some day it is running, or has to end *)
  destruct (settles HF Hfresh Hfirst m n c1 Hc1) as (j & d & Hmj & Hd & Hor). apply (ends_later i m); [lia|].
  destruct (decide (c_target d = RUNNING)) as [Et|Et].
  2:{ destruct (named_later m j (Sleeping n) n Hmj Hat eq_refl) as [H|(st1 & H1 & H2)]; [done|].
      apply (ends_later m j); [done|]. apply (told_call_ends j st1 n); [lia|done|done|]. exists d. done. }
  destruct Hor as [Es|?]; [|done].
  destruct (answer_later m j (Sleeping n) n) as [H|(l2 & a & Hl2 & Hs & m2 & Hm2 & Hat2 & r2 & -> & Hr2)]; [lia|done|done|done|done|].
  destruct Hs as [[? _]|(c2 & Hc2 & Ha)]; [done|]. symmetry in Ha. apply answer_report in Ha as (p & Hp & _ & ->). cbn [report_of rp_status] in Hr2.
  destruct (cluster_later cf _ _ v_endless j l2 n d Hl2 Hd) as (d2 & Hd2 & Hev). cbn beta in Hd2. assert (d2 = c2) as -> by congruence.
  assert (c_target c2 <> RUNNING) as Ht2.
  { intros E. pose proof (e_status _ _ Hev) as Hst. rewrite Es in Hst. unfold model_status in Hp. rewrite E in Hp. destruct (c_status c2); simpl in *; try lia; destruct Hr2; congruence. }
  apply (ends_later m m2); [lia|]. apply (told_call_ends m2 (Sleeping n) n); [lia|done|done|].
  apply (to_end_later cf _ _ v_endless l2 m2 n); [lia|]. exists c2. done.
Qed.
End main.
End call.

Lemma call_returns k i user close new st n : served run ev k -> at_stage (run i) k user new close st -> waits_for n st ->
  (forall j, (i <= j)%nat -> says_running (v_gw (run j)) user n) -> (forall j, (i <= j)%nat -> ev j <> VBreak k) ->
  exists j r, (i <= j)%nat /\ at_stage (run j) k user new close (Started n r).
Proof.
  intros HS Hi Hw Hrun Hnb. unfold at_stage in *.
  set (good st := waits_for n st \/ (exists r, st = Told n (AReport r) /\ rp_status r = PRUNNING) \/ exists r, st = Started n r).
  assert (forall j, (i <= j)%nat -> exists st', v_calls (run j) !! k = Some (Visit user close new st') /\ good st') as Hgood.
  { intros j Hij. induction Hij as [|j Hij (st1 & H1 & H2)]; [exists st; split; [done|left; done]|].
    destruct (call_step k user close new j st1 H1) as (st2 & o & H3 & Ht). exists st2. split; [done|].
    destruct (Hrun j Hij) as (c & Hl & Hu & Hrep). unfold reported, get_cluster in Hrep. rewrite Hl in Hrep. cbn [fmap option_fmap option_map] in Hrep. injection Hrep as Hp.
    destruct (lookup_obj _ _ _ Hl) as [Hc _].
    assert (exists r, answer_of user c = AReport r /\ rp_status r = PRUNNING) as (r & Ea & Er).
    { unfold answer_of. rewrite Hp, decide_True by done. eexists. split; [done|]. done. }
    assert (good (Told n (AReport r))) as Hg1 by (right; left; eauto).
    inversion Ht as [e os E1 E2 E3|now os E1 E2 E3|os E1 E2 E3|code os E1 E2 E3|os E1 E2 E3|os E1 E2 E3|now os E1 E2 E3]; subst.
    - exact H2.
    - unfold move. cbn [v_stage v_user]. destruct H2 as [[->|[->|[->| ->]]]|[(r' & -> & Er')|(r' & ->)]].
      + left. unfold waits_for. auto.
      + unfold arrive. rewrite Hl. destruct (c_ready c); [rewrite Ea; exact Hg1|left; unfold waits_for; auto].
      + rewrite Hc. destruct (c_ready c); [rewrite Ea; exact Hg1|left; unfold waits_for; auto].
      + left. unfold waits_for. auto.
      + unfold receive. rewrite Er'. right. right. eauto.
      + right. right. eauto.
    - unfold late, wait_over. cbn [v_stage v_user]. destruct H2 as [[->|[->|[->| ->]]]|[(r' & -> & Er')|(r' & ->)]]; try (left; unfold waits_for; auto; fail); try (right; eauto; fail).
      rewrite Hc. cbn [fmap option_fmap option_map]. rewrite Ea. exact Hg1.
    - unfold refuse. cbn [v_stage v_user]. destruct H2 as [[->|[->|[->| ->]]]|[(r' & -> & Er')|(r' & ->)]]; try (left; unfold waits_for; auto; fail); right; eauto.
    - unfold timeout. cbn [v_stage v_user]. destruct H2 as [[->|[->|[->| ->]]]|[(r' & -> & Er')|(r' & ->)]]; try (left; unfold waits_for; auto; fail); right; eauto.
    - exfalso. by apply (Hnb j).
    - exfalso. by apply (no_cut j now). }
  assert (forall j st', (i <= j)%nat -> v_calls (run j) !! k = Some (Visit user close new st') -> over st' ->
    exists j r, (i <= j)%nat /\ v_calls (run j) !! k = Some (Visit user close new (Started n r))) as Hfin.
  { intros j st' Hij Hk Ho. destruct (Hgood j Hij) as (st2 & Hk2 & Hg). assert (st2 = st') as -> by congruence.
    destruct Hg as [[->|[->|[->| ->]]]|[(r' & -> & Er')|(r' & ->)]]; try (exfalso; destruct Ho as [(? & ? & ?)|(? & ? & ?)]; done).
    exists j, r'. done. }
  destruct (se_time _ _ _ HS) as (i0 & Htime). set (m := Nat.max i i0). destruct (Hgood m ltac:(unfold m; lia)) as (st1 & Hk1 & Hg1).
  assert (named st1 = Some n) as Hn by (destruct Hg1 as [[->|[->|[->| ->]]]|[(r' & -> & Er')|(r' & ->)]]; done).
  destruct (poll k user close new HS i0 Htime m st1 n ltac:(unfold m; lia) Hk1 Hn) as [(j & st' & Hj & Hk & Ho)|(l & a & Hl & Hk & _)].
  - apply (Hfin j st'); [unfold m in *; lia|done..].
  - destruct (Hgood (S l) ltac:(unfold m in *; lia)) as (st2 & Hk2 & Hg2).
    assert (st2 = Told n a) as -> by (unfold at_stage in *; congruence).
    destruct Hg2 as [[?|[?|[?| ?]]]|[(r' & E & Er')|(r' & ?)]]; try done. injection E as ->.
    destruct (told_next k user close new HS i0 Htime (S l) n _ ltac:(unfold m in *; lia) Hk) as [(j & st' & Hj & Hk' & Ho)|(l' & Hl' & Hk')].
    + apply (Hfin j st'); [unfold m in *; lia|done..].
    + unfold receive in Hk'. rewrite Er' in Hk'. exists (S l'), r'. split; [unfold m in *; lia|exact Hk'].
Qed.

Section done.
Hypothesis HF : vfair cf run ev.
Hypothesis Hfresh : fresh_ids cf.
Hypothesis Hfirst : first_life cf (run 0%nat).
Lemma call_later k v i j : (i <= j)%nat -> v_calls (run i) !! k = Some v -> exists st, v_calls (run j) !! k = Some (set_stage st v).
Proof.
  intros Hij Hi. induction Hij as [|j Hij (st & IH)]; [exists (v_stage v); rewrite set_stage_same; done|].
  destruct (call_step k (v_user v) (v_close v) (v_new v) j st IH) as (st' & o & H & _). exists st'. exact H.
Qed.
Lemma call_ends k i v : served run ev k -> v_calls (run i) !! k = Some v -> exists j st, (i <= j)%nat /\ v_calls (run j) !! k = Some (set_stage st v) /\ over st.
Proof.
  intros HS Hi. destruct (se_time _ _ _ HS) as (i0 & H0). destruct (call_later k v i (Nat.max i i0)) as (st & Hk); [lia|done|].
  assert (forall j, (i0 <= j)%nat -> forall st, v_calls (run j) !! k = Some (set_stage st v) -> (exists n, named st = Some n) -> ends k (v_user v) (v_close v) (v_new v) j) as Hnamed.
  { intros j Hj st1 H1 (n & Hn). eapply named_ends; eauto. }
  assert (ends k (v_user v) (v_close v) (v_new v) (Nat.max i i0)) as (j & st' & Hj & H1 & H2); [|exists j, st'; split; [lia|done]].
  destruct (named st) as [n|] eqn:En; [apply (Hnamed (Nat.max i i0) (Nat.le_max_r _ _) st Hk); eauto|].
  destruct st as [info mx|x|x|x|x a|x|x r|x er|[x|] er]; try done.
  - destruct (advance k (v_user v) (v_close v) (v_new v) HS _ _ Hk) as (l & st' & o & Hil & _ & Hl & Hne & Ht); [by apply not_over_ok|].
    apply (ends_later _ _ _ _ (Nat.max i i0) (S l)); [lia|].
    assert (named st' <> None \/ over st') as [H|H].
    { inversion Ht as [e os E1 E2 E3|now os E1 E2 E3|os E1 E2 E3|code os E1 E2 E3|os E1 E2 E3|os E1 E2 E3|now os E1 E2 E3]; cbn [v_stage] in *; subst; try (unfold late, cut, timeout in *; cbn [v_stage] in *; done).
      - unfold move in *. cbn [v_stage] in *. destruct o as [|[n| | | | | | | |] [|]]; try done. left. done.
      - unfold refuse in *. cbn [v_stage] in *. destruct (400 <=? code); [|done]. right. right. eauto.
      - right. right. unfold break. cbn. eauto. }
    + assert (i0 <= S l)%nat as Hle by lia. apply (Hnamed (S l) Hle st' Hl). destruct (named st') as [n|]; [eauto|done].
    + exists (S l), st'. done.
  - exists (Nat.max i i0), (Failed None er). split; [done|]. split; [exact Hk|]. right. eauto.
Qed.
End done.
End live.
