From Coq Require Import ZArith Lia.
From stdpp Require Import prelude gmap.
From Verif Require Import Trace WorkQueue_Model Router_Model Gateway_Model Gateway_Spec Gateway_Spec3 Gateway_Inv Gateway_Hist Gateway_Proofs Gateway_Proofs2 Gateway_Proofs3
  Gateway_Spec2 Gateway_Status Gateway_Size Report_Model Report_Spec Report_Proofs Fleet_Gw Fleet_Model Fleet_Spec Fleet_Proofs.
Open Scope Z_scope.

(** ** The gateway after a heartbeat without closing workers *)
Lemma classify_some m ws z : classify m ws = Some z -> forall x, x ∈ ws -> is_fin (w_status x) = false -> mentioned m (w_name x) = MNothing ->
  w_status x = SUBMITTED \/ w_status x = CREATED.
Proof.
  revert z. induction ws as [|w ws IH]; intros z Hz x Hx Hf Hm; [by apply elem_of_nil in Hx|]. simpl in Hz.
  destruct (classify m ws) as [[cr su ta ru cl]|] eqn:E; [|done]. simpl in Hz. apply elem_of_cons in Hx as [->|Hx]; [|by eapply IH].
  unfold is_fin in Hf. rewrite Hf in Hz. unfold mentioned in Hm.
  case_decide; [done|]. case_decide; [done|]. case_decide; [done|]. case_decide; [by left|]. case_decide; [by right|done].
Qed.
Lemma running_reported cf h1 s1 n m now s1' o h2 s2 c1 c2 x : ids_ok cf (h1 ++ (EHeartbeat n m now, o) :: h2) -> reach cf h1 s1 ->
  lookup_cluster n s1 = Some c1 -> c_target c1 = RUNNING -> Gateway_Model.step cf s1 (EHeartbeat n m now) = (s1', o) -> OAssertion ∉ o ->
  leads cf s1' h2 s2 -> no_heartbeat n h2 -> objs s2 !! n = Some c2 -> x ∈ c_workers c2 -> w_status x = RUNNING -> wanted x = true ->
  w_name x ∈ Gateway_Model.m_closing m \/ w_name x ∈ Gateway_Model.m_active m.
Proof.
  intros Hid Hr Hl Ht Hs Ho Hx Hno Hc2 Hin Hrun Hwa. destruct (ids_ok_app _ _ _ Hid) as [Hid1 Hid2].
  apply (ids_ok_app cf [(EHeartbeat n m now, o)]) in Hid2 as [Hid2 Hid3].
  pose proof (reach_GInv _ _ _ Hid1 Hr) as HG.
  assert (GInv cf s1') as HG' by (eapply GInv_step; [|exact HG|exact Hs]; done).
  destruct (run_since cf s1' h2 s2 n c2 x Hid3 HG' Hx Hno Hc2 Hin Hrun) as (d & y & Hd & Hy & En & Hry & Hev).
  destruct (heartbeat_told cf h1 s1 n m now s1' o c1 Hid1 Hr Hl Ht Hs Ho) as (d' & Hd' & HF). assert (d' = d) as -> by congruence.
  apply Forall2_in_r with (y := y) in HF as (x0 & Hx0 & T1 & _ & _ & _ & _ & T2 & T3); [|done].
  assert (~ finished (w_status x0)) as Hnf. { intros Hf. rewrite (T2 Hf) in Hry. rewrite Hry in Hf. destruct Hf; done. }
  specialize (T3 Hnf). rewrite <- En, T1. destruct (mentioned m (w_name x0)) eqn:Em.
  - left. unfold mentioned in Em. repeat (case_decide; [done|]). done.
  - right. unfold mentioned in Em. case_decide; [done|]. case_decide; [done|]. case_decide; done.
  - exfalso. destruct T3 as (_ & T3 & _). unfold wanted in Hwa. apply bool_decide_eq_true in Hwa. apply Hwa, fin_iff, (we_target2 _ _ Hev). rewrite T3. by destruct (w_close x0).
  - exfalso. destruct T3 as (T3 & _). cbn [Gateway_Model.step] in Hs. unfold heartbeat in Hs. rewrite Hl in Hs.
    assert (jlt RUNNING (c_target c1) = false) as Hj by (rewrite Ht; done). rewrite Hj in Hs.
    destruct (classify m (c_workers c1)) as [z|] eqn:Hz; [|injection Hs as _ <-; apply Ho; by left].
    destruct (classify_some m _ z Hz x0 Hx0) as [E|E]; [destruct (is_fin (w_status x0)) eqn:Hf; [by apply fin_iff in Hf|done]|done|congruence..].
Qed.

Lemma size_list_to_set_le {A} `{Countable A} (l : list A) : (size (list_to_set l : gset A) <= length l)%nat.
Proof.
  induction l as [|x l IH]; [done|]. change (size ({[x]} ∪ list_to_set l : gset A) <= S (length l))%nat.
  rewrite size_union_alt, size_singleton. etransitivity; [|apply le_n_S, IH]. apply le_n_S, subseteq_size. set_solver.
Qed.
(** ** Splitting a history at the scheduler's last events *)
Lemma sch_last n h hs x : sch_part n h = hs ++ [x] -> exists ha eo hb, h = ha ++ eo :: hb /\ sch_part n ha = hs /\ sch_part n [eo] = [x] /\ sch_part n hb = [].
Proof.
  induction h as [|eo h IH] using rev_ind; intros E; [by destruct hs|]. rewrite sch_app in E.
  assert (sch_part n [eo] = [] \/ exists y, sch_part n [eo] = [y]) as [E0|(y & E0)].
  { unfold sch_part. cbn [omap list_omap]. destruct (match eo.2 with FO_Sch _ _ _ => _ | _ => _ end); eauto. }
  - rewrite E0, app_nil_r in E. destruct (IH E) as (ha & eo' & hb & -> & H1 & H2 & H3). exists ha, eo', (hb ++ [eo]).
    split; [by rewrite <- app_assoc|]. do 2 (split; [done|]). rewrite sch_app, H3, E0. done.
  - rewrite E0 in E. apply app_inj_tail in E as [E ->]. exists h, eo, []. done.
Qed.
Section size.
Context (fc : fcfg).
(** Nothing under way and nothing sent: no heartbeat arrives. *)
Lemma silent n s h s' : fleads fc s h s' -> sch_part n h = [] -> s_wire (sch s n) = [] ->
  no_heartbeat n (gw_part h) /\ s_rep (sch s' n) = s_rep (sch s n) /\ s_wire (sch s' n) = [].
Proof.
  unfold fleads. induction 1 as [s|s e o s1 h s2 Hs Hx IH]; intros Hp Hw.
  { split; [|done]. intros m now o H. by apply elem_of_nil in H. }
  change ((e, o) :: h) with ([(e, o)] ++ h) in Hp |- *. rewrite sch_app in Hp. apply app_eq_nil in Hp as [Hp0 Hp1].
  assert (s_wire (sch s1 n) = [] /\ s_rep (sch s1 n) = s_rep (sch s n) /\ forall m now go, o <> FO_Gw (EHeartbeat n m now) go) as (H1 & H2 & H3).
  { destruct (sees fc s e s1 o n Hs) as [Q1 Q2 Q3 Q4|i -> _ H|re ro -> _ _ _ _ _ _ _ _|ch r m _ -> _ _ _|i k m now go _ -> Hi _ H].
    - rewrite Q3. do 2 (split; [done|]). intros m now go ->. destruct (Q1 _ _ eq_refl) as [_ HH]. by eapply HH.
    - rewrite H. cbn [s_wire s_rep]. rewrite Hw. by destruct i.
    - exfalso. unfold sch_part in Hp0. cbn [omap list_omap snd] in Hp0. rewrite decide_True in Hp0; done.
    - exfalso. unfold sch_part in Hp0. cbn [omap list_omap snd] in Hp0. rewrite decide_True in Hp0; done.
    - rewrite Hw in Hi. done. }
  destruct (IH Hp1 H1) as (I1 & I2 & I3). split; [|split; [congruence|done]]. rewrite gw_app. intros m now go Hin.
  apply elem_of_app in Hin as [Hin|Hin]; [|by eapply I1]. unfold gw_part in Hin. cbn [omap list_omap snd] in Hin.
  destruct o as [|ge go'|]; [by apply elem_of_nil in Hin| |by apply elem_of_nil in Hin]. apply elem_of_list_singleton in Hin as [= <- <-]. by eapply H3.
Qed.
Lemma no_hb_app n h1 h2 : no_heartbeat n h1 -> no_heartbeat n h2 -> no_heartbeat n (h1 ++ h2).
Proof. intros H1 H2 m now o [?|?]%elem_of_app; [by eapply H1|by eapply H2]. Qed.

(** What [up_to_date] means: the gateway has handled a heartbeat that tells the state
    of the scheduler, and none since. *)
Lemma told_all h s n : fids_ok fc h -> freach fc h s -> in_order n h -> up_to_date h n ->
  exists g1 gm now go g2, gw_part h = g1 ++ (EHeartbeat n gm now, go) :: g2 /\ OAssertion ∉ go /\ no_heartbeat n g2 /\
    (forall s1, reach (fc_gw fc) g1 s1 -> (n < uuid s1)%nat) /\ Gateway_Model.m_count gm = count (s_rep (sch s n)) /\ Gateway_Model.m_closing gm = [] /\
    (forall w, w ∈ Gateway_Model.m_active gm -> connected s n w) /\
    (size (list_to_set (Gateway_Model.m_active gm) : gset nat) <= n_connected s n)%nat.
Proof.
  intros Hid Hx Ho (hs & ch & m & E). change (hs ++ [(EBeat ch, OMsg m); (EAnswer true, ONone)]) with (hs ++ ([(EBeat ch, OMsg m)] ++ [(EAnswer true, ONone)])) in E.
  rewrite app_assoc in E. apply sch_last in E as (ha & [e o] & hb & -> & Ea & Ee & Eb).
  apply exec_app in Hx as (sa & Hxa & Hx). inversion Hx as [|? ? ? sb ? ? Hs Hxb]; subst.
  destruct (fids_app fc _ _ Hid) as [Hida _]. pose proof (ack_all fc n ha sa Hxa Hida) as [_ _ _ _ A4].
  assert (unanswered (sch_part n ha) m) as Hm by (rewrite Ea; apply unanswered_snoc; by left).
  destruct (A4 m Hm) as (_ & cnt & B1 & _ & B3).
  assert (o = FO_Sch n (EAnswer true) ONone) as ->.
  { unfold sch_part in Ee. cbn [omap list_omap snd] in Ee. destruct o as [| |n' re ro]; try done. destruct (decide (n' = n)) as [->|]; [|done]. congruence. }
  destruct (sees fc sa e sb _ n Hs) as [_ _ _ Q|? [=]|re ro [= <- <-] Hg Hr _ _ Hw _ _ Hack|? ? ? _ [=]|]; [|idtac|done].
  { unfold sch_part in Q. cbn [omap list_omap snd] in Q. rewrite decide_True in Q by done. done. }
  destruct (B3 (Hack eq_refl)) as ((g1 & now & go & g2 & Eg & Hgo & Hkn & Hno) & C2 & _).
  pose proof (in_order_app _ _ _ Ho) as Hoa. specialize (Hno Hoa). specialize (C2 Hoa).
  destruct (silent n sb hb s Hxb Eb) as (S1 & S2 & _); [congruence|].
  destruct (parts fc ha sa Hxa) as [_ HR]. specialize (HR n).
  pose proof (retire_exact true _ _ _ _ _ (Report_Model.m_closing m) HR Hr) as HRE.
  assert (Report_Model.m_closing m = []) as Hcl.
  { destruct (decide (Report_Model.m_closing m = [])) as [|Hne]; [done|]. exfalso. destruct HRE as [_ HRE]. discriminate HRE. eauto 6. }
  (* the state at the time of sending *)
  rewrite Ea in HR. apply exec_snoc_inv in HR as (r0 & HR0 & Hbeat).
  assert (workers (s_rep (sch sa n)) = workers r0 /\ count (s_rep (sch sa n)) = count r0) as [W1 W2].
  { unfold Report_Model.step in Hbeat. destruct (negb _); [done|]. destruct (Report_Model.hb r0); try done. injection Hbeat as <- _. done. }
  assert (workers (s_rep (sch sb n)) = workers (s_rep (sch sa n)) /\ count (s_rep (sch sb n)) = count (s_rep (sch sa n))) as [W3 W4].
  { clear -Hr. unfold Report_Model.step in Hr. destruct (negb _); [injection Hr as <-; done|]. destruct (Report_Model.hb (s_rep (sch sa n))) as [|[|? ?]|]; injection Hr as <-; done. }
  assert (forall p, p ∈ Report_Model.m_active m -> here r0 p) as HA by (intros p Hp; apply (active_closing true _ _ _ _ _ p HR0 Hbeat); auto).
  exists g1, (hb_of fc n cnt m), now, go, (g2 ++ gw_part ((e, FO_Sch n (EAnswer true) ONone) :: hb)).
  split; [rewrite gw_app, Eg, <- app_assoc; done|]. split; [done|]. split; [apply no_hb_app; done|]. split; [done|]. split; [|split; [|split]].
  - cbn. rewrite S2, W4. apply (B1 ch). rewrite Ea. apply last_snoc.
  - cbn. rewrite Hcl. done.
  - intros w. cbn. rewrite in_nats. intros (p & <- & Hp%elem_of_elements). exists p. split; [done|]. rewrite S2. destruct (HA p Hp) as (a & Haa).
    exists a. congruence.
  - cbn. unfold n_connected. rewrite S2, W3, W1.
    etransitivity; [apply size_list_to_set_le|]. rewrite map_length. change (length (elements (Report_Model.m_active m))) with (size (Report_Model.m_active m)).
    transitivity (size (Report_Model.names r0)); [apply subseteq_size; intros p Hp; by apply names_in, HA|].
    unfold Report_Model.names. etransitivity; [apply size_list_to_set_le|]. rewrite map_length. done.
Qed.

Lemma leads_det cf g1 s1 g2 s : reach cf (g1 ++ g2) s -> reach cf g1 s1 -> leads cf s1 g2 s.
Proof. intros (m & H1 & H2)%reach_app H. rewrite <- (reach_same _ _ _ _ H1 H). done. Qed.
Lemma size_core h s n c : fids_ok fc h -> freach fc h s -> in_order n h -> up_to_date h n -> on_air s n c -> idle (f_gw s) ->
  Z.of_nat (n_connected s n) <= asked_for s n c ->
  r_count (c_row c) = asked_for s n c /\ Z.of_nat (length (List.filter wanted (c_workers c))) <= asked_for s n c /\
  forall x, x ∈ c_workers c -> wanted x = true -> connected s n (w_name x) \/ w_status x = SUBMITTED.
Proof.
  intros Hid Hx Ho Hup (Hl & Hst & Htg) Hidle Hle. destruct (parts fc h s Hx) as [HG _].
  destruct (told_all h s n Hid Hx Ho Hup) as (g1 & gm & now & go & g2 & Eg & Hgo & Hno & Hkn & Hcnt & Hcl & Hact & Hsz).
  unfold fids_ok in Hid. rewrite Eg in Hid, HG. apply reach_app in HG as Hsplit. destruct Hsplit as (s1 & Hr1 & Hl1).
  specialize (Hkn s1 Hr1). destruct (ids_ok_app _ _ _ Hid) as [Hid1 Hid2]. pose proof (reach_GInv _ _ _ Hid1 Hr1) as HG1.
  destruct (known_back _ _ _ _ n c Hid2 HG1 Hl1 Hkn Hl) as (c1 & Hlc1 & Hlat).
  assert (c_target c1 = RUNNING) as Ht1. { destruct (decide (c_target c1 = RUNNING)); [done|]. by destruct (l_tgt _ _ _ Hlat). }
  inversion Hl1 as [|? ? ? s1' ? ? Hs Hl2]; subst. apply lookup_obj in Hl as [Hc _].
  destruct (wanted_bound _ g1 s1 n gm now s1' go g2 (f_gw s) c1 c Hid Hr1 Hlc1 Ht1 Hs Hgo Hl2 Hno Hc) as [Hcount Hbound].
  assert (r_count (c_row c) = asked_for s n c) as Hask.
  { rewrite Hcount. unfold asked_for. rewrite (l_max _ _ _ Hlat), Hcnt. done. }
  split; [done|]. split.
  - rewrite Hcl in Hbound. change (size (list_to_set [] : gset nat)) with 0%nat in Hbound. unfold n_wanted in Hbound. lia.
  - intros y Hy Hwa. destruct (idle_settled _ _ _ n c Hid HG Hidle Hc) as (_ & _ & Hw). destruct (Hw y Hy) as [_ Hw2].
    pose proof (reach_cok _ _ _ _ _ Hid HG Hc) as []. rewrite Forall_forall in k_workers. pose proof (k_workers y Hy) as HW.
    assert (is_fin (w_target y) = false) as Hnt.
    { unfold wanted in Hwa. apply bool_decide_eq_true in Hwa. destruct (is_fin (w_target y)) eqn:Ef; [|done]. by apply fin_iff in Ef. }
    destruct (w_status y) eqn:Es.
    + exfalso. apply Hw2; [|done]. destruct (wo_tgt _ _ _ _ _ _ HW) as [T1 T2].
      destruct (w_target y) eqn:Et; try done. exfalso. apply (k_bulk y Hy (or_intror Et)). done.
    + by right.
    + left. apply Hact. destruct (running_reported _ g1 s1 n gm now s1' go g2 (f_gw s) c1 c y Hid Hr1 Hlc1 Ht1 Hs Hgo Hl2 Hno Hc Hy Es Hwa) as [H|H]; [|done].
      rewrite Hcl in H. by apply elem_of_nil in H.
    + exfalso. apply (k_bulk y Hy (or_introl Es)). done.
    + exfalso. rewrite (wo_fin _ _ _ _ _ _ HW) in Hnt; [done|]. by rewrite Es.
    + exfalso. rewrite (wo_fin _ _ _ _ _ _ HW) in Hnt; [done|]. by rewrite Es.
Qed.
Lemma filter_nil_len {A} (f : A -> bool) l : (forall x, x ∈ l -> f x = false) -> length (List.filter f l) = 0%nat.
Proof. induction l as [|x l IH]; intros H; [done|]. simpl. rewrite (H x) by left. apply IH. intros y Hy. apply H. by right. Qed.
Lemma size_right h s n c : fids_ok fc h -> freach fc h s -> in_order n h -> up_to_date h n -> on_air s n c -> idle (f_gw s) ->
  Z.of_nat (n_connected s n) <= asked_for s n c -> none_left fc h n c -> right_size s n c.
Proof.
  intros Hid Hx Ho Hup Hon Hidle Hle Hleft. destruct (size_core h s n c Hid Hx Ho Hup Hon Hidle Hle) as (Hask & Hub & Hconn). split; [|done].
  destruct (parts fc h s Hx) as [HG _]. destruct Hon as (Hl & Hst & Htg). apply lookup_obj in Hl as [Hc _].
  apply Z.le_antisymm; [done|]. rewrite <- Hask. destruct Hleft as [Hnone|(h1 & i & now & o & h2 & s1 & s2 & c1 & c2 & E & Hx1 & Hs & Hl1 & (Hl2 & Hst2 & Htg2) & Hne & Hgone)].
  - pose proof (idle_enough _ _ _ n c Hid HG Hidle Hc Hst Htg) as H. rewrite (filter_nil_len retired) in H by done. lia.
  - destruct (parts fc h1 s1 Hx1) as [HG1 _].
    assert (exists gm go, o = FO_Gw (EHeartbeat n gm now) go) as (gm & go & ->).
    { cbn [fstep] in Hs. destruct (s_wire (sch s1 n) !! i) as [[k m]|]; [|injection Hs as <- <-; exfalso; apply Hne; congruence].
      destruct (Gateway_Model.step _ _ _) as [g go]. injection Hs as _ <-. eauto. }
    pose proof (gw_does fc _ _ _ _ _ Hs) as Hg. apply lookup_obj in Hl1 as [Hc1 _]. apply lookup_obj in Hl2 as [Hc2 _].
    assert (gw_part h = gw_part h1 ++ (EHeartbeat n gm now, go) :: gw_part h2) as Eg by (rewrite E, gw_app; done).
    unfold fids_ok in Hid. rewrite Eg in Hid, HG.
    assert (leads (fc_gw fc) (f_gw s1) ((EHeartbeat n gm now, go) :: gw_part h2) (f_gw s)) as Hld by (eapply leads_det; eauto).
    inversion Hld as [|? ? ? sx ? ? Hg' Hld2]; subst. assert (sx = f_gw s2) as -> by congruence.
    pose proof (idle_enough_changed _ _ _ _ _ _ _ _ _ _ _ _ _ Hid HG1 Hg Hc1 Hc2 Hne Hst2 Htg2 Hld2 Hidle Hc Hst Htg) as H.
    rewrite (filter_nil_len (fun x => retired x && _)) in H; [lia|]. intros x Hxin. destruct (retired x) eqn:Er; [|done]. simpl.
    apply bool_decide_eq_false. intros H0. apply H0. by apply Hgone.
Qed.
End size.
