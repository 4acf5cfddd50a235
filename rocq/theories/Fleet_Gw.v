(** Facts about the gateway used for C113-C115. *)
From Coq Require Import ZArith Lia.
From stdpp Require Import prelude gmap.
From Verif Require Import Trace WorkQueue_Model WorkQueue_Proofs Router_Model Gateway_Model Gateway_Spec Gateway_Inv
  Gateway_Steps Gateway_Steps2 Gateway_Steps3 Gateway_Steps4 Gateway_Sync Gateway_Restart Gateway_Acts Gateway_Track Gateway_Busy
  Gateway_Hist Gateway_Ops Gateway_Proofs Gateway_Proofs2 Gateway_Proofs3 Gateway_Spec2 Gateway_Status.
Open Scope Z_scope.

(** ** Names the gateway knows *)
Definition older (s s' : gw) : Prop := (uuid s <= uuid s')%nat /\ forall n, (n < uuid s)%nat -> n ∈ by_name s' -> n ∈ by_name s.
Lemma forgets_names l s : forall n, n ∈ by_name (fold_left (fun s n => forget n s) l s) -> n ∈ by_name s.
Proof.
  revert s. induction l as [|a l IH]; intros s n H; simpl in H; [done|]. apply IH in H. unfold forget in H.
  destruct (objs s !! a); simpl in H; [|done]. apply elem_of_list_In, filter_In in H as [H _]. by apply elem_of_list_In.
Qed.
Lemma act_older cf s0 e s1 s2 : act cf s0 e s1 s2 -> older s0 s1 -> older s0 s2.
Proof.
  intros Ha [Hu Hn]. destruct Ha.
  all: try (split; [done|exact Hn]).
  all: try (unfold update_cluster; destruct (objs s1 !! n); split; done).
  all: try (unfold worker_stopped, update_worker; destruct (get_worker n w s1); split; done).
  - destruct H as (_ & E1 & _ & _ & _ & _ & E2 & _). unfold older. rewrite E1, E2. done.
  - simpl. split; [simpl; lia|]. simpl. intros n Hlt H. apply elem_of_app in H as [?|H]; [auto|]. apply elem_of_list_singleton in H. subst n. lia.
  - simpl. split; [simpl; lia|]. done.
  - destruct (cleanup_expired_objs cf now s1) as [_ (_ & _ & _ & E & _)]. split; [rewrite E; done|].
    intros n Hlt H. apply Hn; [done|]. unfold cleanup_expired in H. apply forgets_names in H. exact H.
Qed.
Lemma step_older cf s e s' o : (crash e = true -> fresh_ids cf) -> GInv cf s -> step cf s e = (s', o) -> older s s'.
Proof.
  intros Hf HG Hs. destruct (is_restart e) eqn:Er.
  - destruct e; try discriminate Er. simpl in Hs. injection Hs as <- <-. destruct (Hf eq_refl) as (fc & fw & Hid).
    destruct HG as [_ HY]. destruct (HY fc fw Hid) as [Hy _]. split; [rewrite restart_uuid; done|]. intros n _. by apply (restart_names cf fc fw).
  - assert (rtc (act cf s e) s s') as H.
    { pose proof (A_all cf s (proj1 HG) e Er) as H. rewrite Hs in H. exact H. }
    assert (forall a b, rtc (act cf s e) a b -> older s a -> older s b) as Hall.
    { induction 1; [done|]. eauto using act_older. }
    eapply Hall; [exact H|]. split; auto.
Qed.
Lemma older_trans a b c : older a b -> older b c -> older a c.
Proof. intros [H1 H2] [H3 H4]. split; [lia|]. intros n Hn H. apply H2, H4; [done|lia|done]. Qed.
Lemma leads_older cf s h s' : ids_ok cf h -> GInv cf s -> leads cf s h s' -> older s s'.
Proof.
  unfold leads. intros Hid HG Hx. induction Hx as [|s e o s1 h s2 Hs Hx IH]; [split; auto|].
  apply (ids_ok_app cf [(e, o)]) in Hid as [Hid1 Hid2].
  assert (crash e = true -> fresh_ids cf) as Hcr by (eapply ids_ok_crash; [exact Hid1|by left]).
  eapply older_trans; [eapply step_older; eauto|]. apply IH; [done|]. eapply GInv_step; eauto.
Qed.
Lemma known_back cf s h s' n c' : ids_ok cf h -> GInv cf s -> leads cf s h s' -> (n < uuid s)%nat -> lookup_cluster n s' = Some c' ->
  exists c, lookup_cluster n s = Some c /\ cl_later (uuid s) c c'.
Proof.
  intros Hid HG Hl Hn [Hc' Hin]%lookup_obj. destruct (leads_Later cf s h s' Hid HG Hl) as [_ HL]. destruct (HL n c' Hn Hc') as (c & Hc & HLc).
  exists c. split; [|done]. unfold lookup_cluster. rewrite decide_True; [done|]. apply (leads_older cf s h s' Hid HG Hl); done.
Qed.

(** ** Running workers *)
Lemma run_step cf s e s' o n c' x' : (crash e = true -> fresh_ids cf) -> GInv cf s -> step cf s e = (s', o) ->
  (forall m now, e <> EHeartbeat n m now) -> objs s' !! n = Some c' -> x' ∈ c_workers c' -> w_status x' = RUNNING ->
  exists c x, objs s !! n = Some c /\ x ∈ c_workers c /\ w_name x = w_name x' /\ w_status x = RUNNING /\ wevolve x x'.
Proof.
  intros Hf HG Hs Hne Hc' Hx' Hrun. pose proof (Later_step cf s e s' o Hf HG Hs) as [_ HL].
  assert (exists c x, objs s !! n = Some c /\ x ∈ c_workers c /\ w_name x = w_name x' /\ w_status x = RUNNING) as (c & x & Hc & Hx & En & Hr).
  { destruct (is_restart e) eqn:Er.
    - destruct e; try discriminate Er. simpl in Hs. injection Hs as <- <-. destruct (Hf eq_refl) as (fc & fw & Hid).
      destruct HG as [_ HY]. destruct (HY fc fw Hid) as [Hy _]. pose proof (restart_objs cf fc fw now s n Hy) as H. rewrite Hc' in H.
      destruct H as (c & _ & Hc & Hr). exists c, x'. split; [done|]. split; [|done]. rewrite <- (rl_workers _ _ _ Hr). done.
    - pose proof (step_tracked cf s e (proj1 HG) Er) as HT. rewrite Hs in HT. cbn [fst] in HT. destruct (objs s !! n) as [c|] eqn:Hc.
      + destruct (t_old _ _ _ HT n c c' Hc Hc') as [_ Hw]. destruct (Hw x' Hx') as [(x & Hx & HQ)|(_ & _ & E)]; [|congruence].
        exists c, x. split; [done|]. split; [done|]. split; [symmetry; apply HQ|].
        destruct (q_run _ _ _ _ _ HQ Hrun) as [?|(m & now & Ee & _)]; [done|]. exfalso. by apply (Hne m now).
      + destruct (t_new _ _ _ HT n c' Hc Hc') as (_ & _ & _ & _ & Hw). destruct (Hw x' Hx') as (_ & _ & E). congruence. }
  exists c, x. do 4 (split; [done|]). destruct (g_fresh _ _ _ _ (proj1 HG) _ _ Hc) as [F1 F2].
  destruct (HL n c' F1 Hc') as (d & Hd & Hcl). assert (d = c) as -> by congruence.
  destruct (l_old _ _ _ Hcl x' Hx') as (y & Hy & Hev). { rewrite <- En. apply F2, elem_of_list_fmap. eauto. }
  assert (y = x) as -> by (eapply worker_eq; eauto; [apply HG|]; rewrite <- (we_name _ _ Hev); congruence). done.
Qed.
Lemma run_since cf s h s' n c' x' : ids_ok cf h -> GInv cf s -> leads cf s h s' -> no_heartbeat n h ->
  objs s' !! n = Some c' -> x' ∈ c_workers c' -> w_status x' = RUNNING ->
  exists c x, objs s !! n = Some c /\ x ∈ c_workers c /\ w_name x = w_name x' /\ w_status x = RUNNING /\ wevolve x x'.
Proof.
  unfold leads. intros Hid HG Hx Hno Hc' Hx' Hrun. induction Hx as [s|s e o s1 h s2 Hs Hx IH].
  { exists c', x'. eauto using wevolve_refl. }
  apply (ids_ok_app cf [(e, o)]) in Hid as [Hid1 Hid2].
  assert (crash e = true -> fresh_ids cf) as Hcr by (eapply ids_ok_crash; [exact Hid1|by left]).
  destruct (IH Hid2) as (c & x & Hc & Hin & En & Hr & Hev); [by eapply GInv_step|intros m now o' H; apply (Hno m now o'); by right|done|].
  destruct (run_step cf s e s1 o n c x Hcr HG Hs) as (c0 & x0 & ? & ? & En0 & ? & Hev0); [intros m now ->; apply (Hno m now o); by left|done..|].
  exists c0, x0. do 2 (split; [done|]). split; [congruence|]. split; [done|]. by eapply wevolve_trans.
Qed.

(** ** Workers that are known to leave *)
Definition flagged (s : gw) (n w : nat) : Prop := forall c x, lookup_cluster n s = Some c -> x ∈ c_workers c -> w_name x = w ->
  c_target c <> RUNNING \/ finished (w_status x) \/ w_close x = true.
Lemma flagged_step cf s e s' o n w : (crash e = true -> fresh_ids cf) -> GInv cf s -> step cf s e = (s', o) -> (w < uuid s)%nat ->
  flagged s n w -> flagged s' n w.
Proof.
  intros Hf HG Hs Hw HF c' x' Hl' Hx' En. destruct (decide (n < uuid s)%nat) as [Hn|Hn].
  - destruct (step_older cf s e s' o Hf HG Hs) as [_ HO]. pose proof (Later_step cf s e s' o Hf HG Hs) as [_ HL].
    apply lookup_obj in Hl' as [Hc' Hin']. destruct (HL n c' Hn Hc') as (c & Hc & Hcl).
    destruct (l_old _ _ _ Hcl x' Hx') as (x & Hx & Hev); [lia|].
    destruct (HF c x) as [H|[H|H]]; [|done|rewrite <- (we_name _ _ Hev); done| | |].
    + unfold lookup_cluster. rewrite decide_True; auto.
    + left. by apply (l_tgt _ _ _ Hcl).
    + right. left. apply fin_iff, (we_fin _ _ Hev), fin_iff. done.
    + right. right. by apply (we_close _ _ Hev).
  - exfalso. apply lookup_obj in Hl' as [Hc' _].
    assert (objs s !! n = None) as Hnone. { destruct (objs s !! n) as [c|] eqn:Hc; [|done]. destruct (g_fresh _ _ _ _ (proj1 HG) _ _ Hc). lia. }
    destruct (is_restart e) eqn:Er.
    + destruct e; try discriminate Er. simpl in Hs. injection Hs as <- <-. destruct (Hf eq_refl) as (fc & fw & Hid).
      destruct HG as [_ HY]. destruct (HY fc fw Hid) as [Hy _]. pose proof (restart_objs cf fc fw now s n Hy) as H. rewrite Hc' in H.
      destruct H as (c & _ & Hc & _). congruence.
    + pose proof (step_tracked cf s e (proj1 HG) Er) as HT. rewrite Hs in HT. cbn [fst] in HT.
      destruct (t_new _ _ _ HT n c' Hnone Hc') as (_ & _ & _ & _ & HN). destruct (HN x' Hx') as (H & _). lia.
Qed.
Lemma flagged_by cf h s n m now s' o w : ids_ok cf h -> reach cf h s -> step cf s (EHeartbeat n m now) = (s', o) -> OAssertion ∉ o ->
  w ∈ m_closing m -> flagged s' n w.
Proof.
  intros Hid Hr Hs Ho Hw c' x' Hl' Hx' En. destruct (lookup_cluster n s) as [c|] eqn:Hl.
  2:{ simpl in Hs. unfold heartbeat in Hs. rewrite Hl in Hs. injection Hs as <- <-. congruence. }
  destruct (decide (c_target c = RUNNING)) as [Ht|Ht].
  - destruct (heartbeat_told cf h s n m now s' o c Hid Hr Hl Ht Hs Ho) as (d & Hd & HF).
    assert (d = c') as -> by (apply lookup_obj in Hl' as [Hc' _]; congruence).
    apply Forall2_in_r with (y := x') in HF as (x & Hx & T1 & _ & _ & _ & _ & T2 & T3); [|done]. right.
    destruct (decide (is_fin (w_status x) = true)) as [Hf|Hf]; rewrite <- fin_iff in Hf.
    + left. by rewrite (T2 Hf).
    + right. specialize (T3 Hf). unfold mentioned in T3. rewrite decide_True in T3 by congruence. tauto.
  - left. apply lookup_obj in Hl as [Hc _]. destruct (reach_tgt _ _ _ _ _ Hid Hr Hc) as [?|Hfin]; [done|].
    simpl in Hs. unfold heartbeat in Hs. destruct (lookup_cluster n s) as [c0|] eqn:Hl0; [|injection Hs as <- <-; congruence].
    assert (c0 = c) as -> by (apply lookup_obj in Hl0 as [? _]; congruence).
    assert (jlt RUNNING (c_target c) = true) as Hj by (destruct Hfin as [->| ->]; done). rewrite Hj in Hs. injection Hs as <- <-. congruence.
Qed.
