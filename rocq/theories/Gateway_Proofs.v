(** The gateway properties, from the invariant and the history lemmas. *)
From Coq Require Import ZArith Lia.
From stdpp Require Import prelude gmap.
From Verif Require Import Trace WorkQueue_Model WorkQueue_Proofs Router_Model Gateway_Model Gateway_Spec Gateway_Inv
  Gateway_Steps Gateway_Steps2 Gateway_Steps3 Gateway_Steps4 Gateway_Sync Gateway_Restart Gateway_Acts Gateway_Track Gateway_Busy
  Gateway_Hist Gateway_Ops Gateway_Queue.
Open Scope Z_scope.

Lemma fin_iff j : finished j <-> is_fin j = true.
Proof. unfold finished, is_fin. destruct j; vm_compute; split; try done; intuition discriminate. Qed.
Lemma lookup_obj n s c : lookup_cluster n s = Some c -> objs s !! n = Some c /\ n ∈ by_name s.
Proof. unfold lookup_cluster. case_decide; done. Qed.
Lemma reach_cok cf h s n c : ids_ok cf h -> reach cf h s -> objs s !! n = Some c -> cok cf (Dof ∅ s) (Bof s) (routes s) n c.
Proof. intros Hid Hr Hc. apply (g_cok _ _ _ _ (reach_Inv _ _ _ Hid Hr)). done. Qed.
Lemma reach_later cf h1 h2 s1 s2 n c2 c1 : ids_ok cf (h1 ++ h2) -> reach cf h1 s1 -> leads cf s1 h2 s2 ->
  objs s1 !! n = Some c1 -> objs s2 !! n = Some c2 -> cl_later (uuid s1) c1 c2.
Proof.
  intros [Hid1 Hid2]%ids_ok_app Hr Hl H1 H2. pose proof (reach_GInv _ _ _ Hid1 Hr) as HG.
  destruct (leads_Later cf s1 h2 s2 Hid2 HG Hl) as [_ HL]. destruct (g_fresh _ _ _ _ (proj1 HG) _ _ H1) as [Hn _].
  destruct (HL n c2 Hn H2) as (d & Hd & HL'). congruence.
Qed.
Lemma leads_at cf s h s' x : leads cf s h s' -> x ∈ seen h -> exists ha e o hb sa sb,
  h = ha ++ (e, o) :: hb /\ x ∈ o /\ leads cf s ha sa /\ step cf sa e = (sb, o) /\ leads cf sb hb s'.
Proof.
  unfold leads. induction 1 as [s|s e o s1 h s2 Hs Hx IH]; [intros H; inversion H|]. rewrite seen_cons. intros [Hin|Hin]%elem_of_app.
  - exists [], e, o, h, s, s1. split; [done|]. split; [done|]. split; [constructor|]. done.
  - destruct (IH Hin) as (ha & e' & o' & hb & sa & sb & -> & H1 & H2 & H3 & H4). exists ((e, o) :: ha), e', o', hb, sa, sb.
    split; [done|]. split; [done|]. split; [econstructor; eauto|]. done.
Qed.
Lemma leads_snoc cf s h s1 e o s2 : leads cf s h s1 -> step cf s1 e = (s2, o) -> leads cf s (h ++ [(e, o)]) s2.
Proof. intros H1 H2. apply exec_app. exists s1. split; [done|]. econstructor; [done|constructor]. Qed.
Lemma leads_Step cf s e o s' : step cf s e = (s', o) -> leads cf s [(e, o)] s'.
Proof. intros H. econstructor; [done|constructor]. Qed.
Lemma ids_ok_sub cf h1 h2 h3 : ids_ok cf (h1 ++ h2 ++ h3) -> ids_ok cf (h1 ++ h2).
Proof. rewrite app_assoc. apply ids_ok_app. Qed.

Lemma reach_det cf h s s' : reach cf h s -> reach cf h s' -> s = s'.
Proof. intros H1%exec_run H2%exec_run. rewrite H1 in H2. by injection H2. Qed.

(** * C18 *)
Lemma status_forward cf h1 h2 s1 s2 n p1 p2 : ids_ok cf (h1 ++ h2) -> reach cf h1 s1 -> leads cf s1 h2 s2 ->
  reported n s1 p1 -> reported n s2 p2 -> forward p1 p2.
Proof.
  intros Hid Hr Hl R1 R2. unfold reported, get_cluster in *.
  destruct (lookup_cluster n s1) as [c1|] eqn:H1; [|done]. destruct (lookup_cluster n s2) as [c2|] eqn:H2; [|done].
  apply lookup_obj in H1 as [H1 _], H2 as [H2 _]. simpl in *. injection R1 as R1. injection R2 as R2.
  destruct (reach_later _ _ _ _ _ _ _ _ Hid Hr Hl H1 H2). unfold model_status, c_status, c_target in *.
  assert (is_fin (r_status (c_row c1)) = true -> r_status (c_row c2) = r_status (c_row c1)) as Hf.
  { intros E. destruct (l_fin E) as [->| ->]; done. }
  destruct (r_status (c_row c1)), (r_target (c_row c1)); try discriminate R1; injection R1 as <-;
  destruct (r_status (c_row c2)), (r_target (c_row c2)); try discriminate R2; injection R2 as <-; simpl in *;
    unfold forward; simpl; try (left; done); try (right; lia); try lia; try (specialize (Hf eq_refl); done).
Qed.

(** * C19 *)
Lemma fin_target cf h s n c : ids_ok cf h -> reach cf h s -> objs s !! n = Some c -> finished (c_status c) -> finished (c_target c).
Proof.
  intros Hid Hr Hc Hf. pose proof (k_row _ _ _ _ _ _ (reach_cok _ _ _ _ _ Hid Hr Hc)) as [].
  unfold finished, c_status, c_target in *. destruct Hf as [Hf|Hf]; [|auto]. specialize (ro_stopped Hf). destruct ro_tgt as [?|[?|?]]; auto. done.
Qed.
Lemma heartbeat_ignored cf h s n c m now : ids_ok cf h -> reach cf h s -> objs s !! n = Some c -> finished (c_target c) ->
  step cf s (EHeartbeat n m now) = (s, []).
Proof.
  intros Hid Hr Hc Hf. simpl. unfold heartbeat. destruct (lookup_cluster n s) as [d|] eqn:Hd; [|done].
  apply lookup_obj in Hd as [Hd _]. assert (d = c) as -> by congruence. destruct Hf as [-> | ->]; done.
Qed.
Lemma stopped_final cf h1 h2 s1 s2 n c1 : ids_ok cf (h1 ++ h2) -> reach cf h1 s1 -> leads cf s1 h2 s2 ->
  objs s1 !! n = Some c1 -> finished (c_status c1) ->
  (forall c2, objs s2 !! n = Some c2 -> c_row c2 = c_row c1 \/ c_row c2 = rset_target FAILED (c_row c1)) /\
  OStartC n ∉ seen h2 /\ (forall w, OStartW n w ∉ seen h2) /\
  forall m now, step cf s2 (EHeartbeat n m now) = (s2, []).
Proof.
  intros Hid Hr Hl Hc Hf. assert (Hid' := Hid). apply ids_ok_app in Hid' as [Hid1 Hid2].
  assert (forall ha hb sa c, h2 = ha ++ hb -> leads cf s1 ha sa -> objs sa !! n = Some c -> is_fin (c_status c) = true) as Hat.
  { intros ha hb sa c -> Hla Hca. destruct (reach_later cf h1 ha s1 sa n c c1) as []; eauto using ids_ok_sub.
    apply fin_iff in Hf. unfold c_status in *. destruct (l_fin Hf) as [->| ->]; done. }
  split; [|split; [|split]].
  - intros c2 Hc2. apply (reach_later cf h1 h2 s1 s2 n c2 c1); auto. apply fin_iff. done.
  - intros Hin. destruct (leads_at _ _ _ _ _ Hl Hin) as (ha & e & o & hb & sa & sb & E & Ho & Hla & Hs & _).
    rewrite E in Hid2. apply ids_ok_app in Hid2 as [Hida _].
    pose proof (leads_GInv cf s1 ha sa Hida (reach_GInv _ _ _ Hid1 Hr) Hla) as HG.
    destruct (step_startc _ _ _ _ _ _ HG Hs Ho) as (_ & _ & _ & _ & c & Hca & E' & _).
    pose proof (Hat _ _ _ _ E Hla Hca) as H. rewrite E' in H. done.
  - intros w Hin. destruct (leads_at _ _ _ _ _ Hl Hin) as (ha & e & o & hb & sa & sb & E & Ho & Hla & Hs & _).
    rewrite E in Hid2. apply ids_ok_app in Hid2 as [Hida _].
    pose proof (leads_GInv cf s1 ha sa Hida (reach_GInv _ _ _ Hid1 Hr) Hla) as HG.
    destruct (step_startw _ _ _ _ _ _ _ HG Hs Ho) as (_ & _ & _ & _ & c & x & Hca & Hx & _ & E' & _).
    pose proof (Hat _ _ _ _ E Hla Hca) as H. pose proof (k_workers _ _ _ _ _ _ (g_cok _ _ _ _ (proj1 HG) _ _ Hca)) as HW.
    rewrite Forall_forall in HW. pose proof (wo_done _ _ _ _ _ _ (HW x Hx) H) as H'. rewrite E' in H'. done.
  - intros m now. destruct (objs s2 !! n) as [c2|] eqn:Hc2.
    + eapply heartbeat_ignored; [exact Hid|apply reach_app; eauto|exact Hc2|].
      eapply fin_target; [exact Hid|apply reach_app; eauto|exact Hc2|]. apply fin_iff. eapply (Hat h2 []); eauto. by rewrite app_nil_r.
    + simpl. unfold heartbeat, lookup_cluster. rewrite Hc2. by case_decide.
Qed.
Lemma worker_final cf h1 h2 s1 s2 n c1 x1 : ids_ok cf (h1 ++ h2) -> reach cf h1 s1 -> leads cf s1 h2 s2 ->
  objs s1 !! n = Some c1 -> x1 ∈ c_workers c1 -> finished (w_status x1) ->
  (forall c2, objs s2 !! n = Some c2 -> exists x2, x2 ∈ c_workers c2 /\ w_name x2 = w_name x1 /\ w_start x2 = w_start x1 /\
     finished (w_status x2) /\ finished (w_target x2)) /\
  OStartW n (w_name x1) ∉ seen h2.
Proof.
  intros Hid Hr Hl Hc Hx Hf. assert (Hid' := Hid). apply ids_ok_app in Hid' as [Hid1 Hid2]. apply fin_iff in Hf.
  assert (forall ha hb sa c, h2 = ha ++ hb -> leads cf s1 ha sa -> objs sa !! n = Some c ->
          exists x, x ∈ c_workers c /\ wevolve x1 x /\ is_fin (w_status x) = true /\ is_fin (w_target x) = true) as Hat.
  { intros ha hb sa c -> Hla Hca. destruct (reach_later cf h1 ha s1 sa n c c1) as []; eauto using ids_ok_sub.
    destruct (l_workers x1 Hx) as (x & Hxx & Hev). exists x. split; [done|]. split; [done|]. pose proof (we_fin _ _ Hev Hf) as Hfx. split; [done|].
    assert (reach cf (h1 ++ ha) sa) as Hra by (apply reach_app; eauto).
    pose proof (k_workers _ _ _ _ _ _ (reach_cok cf (h1 ++ ha) sa n c (ids_ok_sub _ _ _ _ Hid) Hra Hca)) as HW.
    rewrite Forall_forall in HW. apply (wo_fin _ _ _ _ _ _ (HW x Hxx) Hfx). }
  split.
  - intros c2 Hc2. destruct (Hat h2 [] s2 c2) as (x & H1 & H2 & H3 & H4); [by rewrite app_nil_r|done|done|].
    exists x. split; [done|]. split; [apply H2|]. split; [apply H2|]. split; apply fin_iff; done.
  - intros Hin. destruct (leads_at _ _ _ _ _ Hl Hin) as (ha & e & o & hb & sa & sb & E & Ho & Hla & Hs & _).
    pose proof Hid2 as Hid2'. rewrite E in Hid2'. apply ids_ok_app in Hid2' as [Hida _].
    pose proof (leads_GInv cf s1 ha sa Hida (reach_GInv _ _ _ Hid1 Hr) Hla) as HG.
    destruct (step_startw _ _ _ _ _ _ _ HG Hs Ho) as (_ & _ & _ & _ & c & x & Hca & Hxa & En & E' & _).
    destruct (Hat _ _ _ _ E Hla Hca) as (y & H1 & H2 & H3 & _).
    assert (y = x) as -> by (eapply worker_eq; eauto; [apply HG|]; rewrite En; apply H2). rewrite E' in H3. done.
Qed.

(** * C20 *)
Lemma idle_D cf h s x : ids_ok cf h -> reach cf h s -> idle s -> ~ Dof ∅ s x.
Proof.
  intros Hid Hr [Hq Hb] [Hd|Hd]%(Dof_put _ _ _ (reach_timers _ _ _ Hr)); [|set_solver]. pose proof (reach_Inv _ _ _ Hid Hr) as [].
  assert (x ∉ processing (q s)) as Hp.
  { intros Hp. apply g_proc in Hp as [(k & p & Hk & _)|[=]]. rewrite Hb, lookup_empty in Hk. done. }
  assert (x ∈ queue (q s)) as Hin by (apply (qo_line _ g_q); done). rewrite Hq in Hin. inversion Hin.
Qed.
Lemma idle_B s p : idle s -> ~ Bof s p.
Proof. intros [_ Hb] (k & Hk). rewrite Hb, lookup_empty in Hk. done. Qed.
Lemma idle_settled cf h s n c : ids_ok cf h -> reach cf h s -> idle s -> objs s !! n = Some c ->
  (c_target c <> RUNNING -> finished (c_status c) /\ forall x, x ∈ c_workers c -> finished (w_status x)) /\
  (c_target c = RUNNING -> c_status c <> CREATED) /\
  forall x, x ∈ c_workers c -> (finished (w_target x) -> finished (w_status x)) /\ (w_target x = RUNNING -> w_status x <> CREATED).
Proof.
  intros Hid Hr Hi Hc. pose proof (reach_cok _ _ _ _ _ Hid Hr Hc) as [].
  assert (forall x, ~ Dof ∅ s x) as ND by (intros x; eapply idle_D; eauto).
  assert (forall p, ~ Bof s p) as NB by (intros p; eapply idle_B; eauto). rewrite Forall_forall in k_workers.
  assert (forall x, x ∈ c_workers c -> is_fin (w_target x) = true -> is_fin (w_status x) = true) as Hw.
  { intros x Hx Ht. destruct (is_fin (w_status x)) eqn:Hs; [done|]. destruct (wo_stop _ _ _ _ _ _ (k_workers x Hx) Hs Ht) as [H|H]; [by apply ND in H|by apply NB in H]. }
  split; [|split].
  - intros Ht. destruct (jlt (c_status c) CLOSING) eqn:Hlt; [exfalso; eapply ND; eauto|].
    destruct (is_fin (c_status c)) eqn:Hfin.
    { split; [apply fin_iff; done|]. intros x Hx. apply fin_iff. apply (wo_done _ _ _ _ _ _ (k_workers x Hx)). done. }
    exfalso. assert (c_status c = CLOSING) as Ecl by (destruct (c_status c); done).
    assert (ready_to_close cf c = true) as Hrd; [|destruct (o_ready Ecl Hrd) as [H|H]; [by apply ND in H|by apply NB in H]].
    unfold ready_to_close, all_at_least. rewrite Ecl. destruct (bulk cf) eqn:Hb.
    + apply orb_true_iff. left. rewrite bool_decide_true by done. simpl. apply forallb_forall. intros x Hx. apply elem_of_list_In in Hx.
      pose proof (k_workers x Hx) as HW. pose proof (wo_closing _ _ _ _ _ _ HW) as H. rewrite Ecl, Hb in H. specialize (H eq_refl).
      destruct (is_fin (w_target x)) eqn:Hft.
      * pose proof (Hw x Hx Hft) as Hs. destruct (w_status x); done.
      * assert (w_target x = CLOSING) as Et by (destruct (w_target x); done). unfold jge. destruct (jlt (w_status x) CLOSING) eqn:Hl; [|done].
        exfalso. eapply ND. apply (wo_close _ _ _ _ _ _ HW); done.
    + apply orb_true_iff. right. apply forallb_forall. intros x Hx. apply elem_of_list_In in Hx.
      pose proof (k_workers x Hx) as HW. pose proof (wo_closing _ _ _ _ _ _ HW) as H. rewrite Ecl, Hb in H. specialize (H eq_refl). apply Hw; done.
  - intros Ht E. destruct (o_start E Ht) as [H|H]; [by apply ND in H|by apply NB in H].
  - intros x Hx. split.
    + intros Hf. apply fin_iff. apply Hw; [done|]. apply fin_iff. done.
    + intros Ht E. destruct (wo_start _ _ _ _ _ _ (k_workers x Hx) E Ht) as [H|H]; [by apply ND in H|by apply NB in H].
Qed.
Lemma stop_sets cf n f s c : lookup_cluster n s = Some c -> c_target c = RUNNING \/ finished (c_target c) ->
  exists c', objs (step cf s (EStop n f)).1 !! n = Some c' /\ c_target c' <> RUNNING /\ c_workers c' = c_workers c.
Proof.
  intros Hc Ht. simpl. unfold stop_cluster. rewrite Hc. apply lookup_obj in Hc as [Hc _].
  destruct (jge RUNNING (c_target c)) eqn:E.
  - exists (cset_row (rset_target (if f then FAILED else STOPPED) (c_row c)) c). simpl. rewrite (row_upd s n _ c Hc), lookup_insert. split; [done|].
    split; [by destruct f|done].
  - exists c. split; [done|]. split; [|done]. intros E'. rewrite E' in E. done.
Qed.
Lemma reach_tgt cf h s n c : ids_ok cf h -> reach cf h s -> objs s !! n = Some c -> c_target c = RUNNING \/ finished (c_target c).
Proof.
  intros Hid Hr Hc. pose proof (k_row _ _ _ _ _ _ (reach_cok _ _ _ _ _ Hid Hr Hc)) as []. unfold finished, c_target. tauto.
Qed.
Lemma stop_carried_out cf h1 h2 s1 s n f o c1 c : ids_ok cf (h1 ++ (EStop n f, o) :: h2) ->
  reach cf h1 s1 -> lookup_cluster n s1 = Some c1 -> reach cf (h1 ++ (EStop n f, o) :: h2) s ->
  idle s -> objs s !! n = Some c -> finished (c_status c) /\ forall x, x ∈ c_workers c -> finished (w_status x).
Proof.
  intros Hid Hr1 Hc1 Hr Hi Hc. destruct (idle_settled cf _ s n c Hid Hr Hi Hc) as [H _]. apply H.
  apply reach_app in Hr as (m & Hm & Hl).
  assert (m = s1) as -> by (eapply reach_det; eauto).
  inversion Hl as [|? ? ? s1' ? ? Hs Hl']; subst. pose proof (ids_ok_app _ _ _ Hid) as [Hid1 _].
  destruct (stop_sets cf n f s1 c1 Hc1) as (c' & Hc' & Ht & _).
  { eapply (reach_tgt cf h1 s1); eauto. apply (lookup_obj _ _ _ Hc1). }
  rewrite Hs in Hc'. simpl in Hc'. assert (ids_ok cf ((h1 ++ [(EStop n f, o)]) ++ h2)) as Hid' by (rewrite <- app_assoc; done).
  apply (l_tgt _ _ _ (reach_later cf (h1 ++ [(EStop n f, o)]) h2 s1' s n c c' Hid' (leads_snoc _ _ _ _ _ _ _ Hr1 Hs) Hl' Hc' Hc)). done.
Qed.

(** * C21 *)
Lemma wanted_active x : wanted x = w_active x.
Proof. unfold wanted, w_active, finished, jlt. apply bool_decide_ext. destruct (w_target x); simpl; split; intros; try lia; intuition (try discriminate). Qed.
Lemma filter_wanted l : List.filter wanted l = List.filter w_active l.
Proof. apply List.filter_ext. intros x. apply wanted_active. Qed.
Lemma created_max cf h s u i m t n c : ids_ok cf h -> reach cf h s -> (EStart u i m t, [OCreated n]) ∈ h -> objs s !! n = Some c ->
  r_max (c_row c) = m /\ r_user (c_row c) = u /\ r_info (c_row c) = i /\ r_start (c_row c) = t.
Proof.
  intros Hid Hr (ha & hb & ->)%elem_of_list_split Hc. apply reach_app in Hr as (s1 & Hr1 & Hl).
  inversion Hl as [|? ? ? s1' ? ? Hs Hl']; subst.
  assert (ids_ok cf ((ha ++ [(EStart u i m t, [OCreated n])]) ++ hb)) as Hid' by (rewrite <- app_assoc; done).
  pose proof Hs as Hs'. simpl in Hs. unfold start_cluster, create_cluster in Hs. injection Hs as <- Hn.
  set (s1' := qput _ _) in *. assert (exists d, objs s1' !! n = Some d /\ r_max (c_row d) = m /\ r_user (c_row d) = u /\ r_info (c_row d) = i /\ r_start (c_row d) = t) as (d & Hd & E1 & E2 & E3 & E4).
  { subst n. unfold s1'. simpl. rewrite lookup_insert. eexists. split; [done|]. done. }
  destruct (reach_later cf _ hb s1' s n c d Hid' (leads_snoc _ _ _ _ _ _ _ Hr1 Hs') Hl' Hd Hc). repeat split; congruence.
Qed.
Lemma worker_cap cf h s u i m t n c : ids_ok cf h -> reach cf h s -> (EStart u i (Some m) t, [OCreated n]) ∈ h -> 0 <= m -> objs s !! n = Some c ->
  Z.of_nat (length (List.filter wanted (c_workers c))) <= m /\ r_count (c_row c) <= m.
Proof.
  intros Hid Hr Hin Hm Hc. destruct (created_max cf h s u i (Some m) t n c Hid Hr Hin Hc) as (E & _).
  pose proof (reach_cok _ _ _ _ _ Hid Hr Hc) as []. specialize (k_cap m E). destruct k_row. specialize (ro_count m E).
  rewrite filter_wanted. unfold active_workers in k_cap. lia.
Qed.

(** * C22: enough workers *)
Lemma filter_le_or {A} (f g k : A -> bool) (l : list A) : (forall x, x ∈ l -> f x = true -> g x = true \/ k x = true) ->
  (length (List.filter f l) <= length (List.filter g l) + length (List.filter k l))%nat.
Proof.
  induction l as [|x l IH]; intros H; simpl; [lia|]. assert (forall y, y ∈ l -> f y = true -> g y = true \/ k y = true) as H' by (intros; apply H; [by right|done]).
  specialize (IH H'). pose proof (H x ltac:(by left)) as Hx. destruct (f x), (g x), (k x); simpl; try lia; destruct (Hx eq_refl); done.
Qed.
Lemma idle_enough cf h s n c : ids_ok cf h -> reach cf h s -> idle s -> objs s !! n = Some c -> c_status c = RUNNING -> c_target c = RUNNING ->
  r_count (c_row c) <= Z.of_nat (length (List.filter wanted (c_workers c))) + Z.of_nat (length (List.filter retired (c_workers c))).
Proof.
  intros Hid Hr Hi Hc Hs Ht. pose proof (reach_cok _ _ _ _ _ Hid Hr Hc) as [].
  destruct (o_scale Hs Ht) as [Hle|HD]; [|by eapply idle_D in HD]. unfold n_covers in Hle.
  destruct (idle_settled cf h s n c Hid Hr Hi Hc) as (_ & _ & Hw).
  pose proof (filter_le_or covers wanted retired (c_workers c)) as H. etransitivity; [exact Hle|]. rewrite <- Nat2Z.inj_add. apply Nat2Z.inj_le, H.
  intros x Hx Hcov. destruct (Hw x Hx) as [H1 _]. unfold covers in Hcov. unfold wanted, retired.
  destruct (is_fin (w_status x)) eqn:Hf.
  - right. apply orb_true_iff in Hcov as [Hcl|Hcl]; [|unfold is_fin, jge in Hf; rewrite Hcl in Hf; done].
    rewrite Hcl. apply andb_true_iff. split; [|done]. apply bool_decide_eq_true. apply fin_iff. done.
  - left. apply bool_decide_eq_true. intros Hft. apply H1, fin_iff in Hft. congruence.
Qed.

(** * C23 *)
Lemma cluster_stop_called cf h s n c : ids_ok cf h -> reach cf h s -> objs s !! n = Some c -> finished (c_status c) -> stop_called_c n (seen h).
Proof. intros Hid Hr Hc Hf. apply (h_cstop _ _ _ (reach_ops _ _ _ Hid Hr) n c Hc). left. apply fin_iff. done. Qed.
Lemma worker_stop_called cf h s n c x : ids_ok cf h -> reach cf h s -> objs s !! n = Some c -> x ∈ c_workers c ->
  OStartW n (w_name x) ∈ seen h -> finished (w_status x) -> stop_called_w (bulk cf) n (w_name x) (seen h) \/ start_cut cf n (w_name x) h.
Proof. intros Hid Hr Hc Hx Ho Hf. apply (h_wstop _ _ _ (reach_ops _ _ _ Hid Hr) n c x Hc Hx Ho). left. apply fin_iff. done. Qed.
Lemma worker_stop_called_one_life cf h s n c x : one_life h -> reach cf h s -> objs s !! n = Some c -> x ∈ c_workers c ->
  OStartW n (w_name x) ∈ seen h -> finished (w_status x) -> stop_called_w (bulk cf) n (w_name x) (seen h).
Proof.
  intros Hol Hr Hc Hx Ho Hf. destruct (worker_stop_called cf h s n c x (or_intror Hol) Hr Hc Hx Ho Hf) as [?|(h1 & now & o & h2 & s' & -> & _)]; [done|].
  specialize (Hol (ERestart now) o). discriminate Hol. apply elem_of_app. right. by left.
Qed.

(** * C24 *)
Lemma two_of {A} (f : A -> bool) (l1 l2 l3 : list A) x y : f x = true -> f y = true -> (2 <= length (List.filter f (l1 ++ x :: l2 ++ y :: l3)))%nat.
Proof. intros Hx Hy. rewrite List.filter_app, app_length. simpl. rewrite Hx. simpl. rewrite List.filter_app, app_length. simpl. rewrite Hy. simpl. lia. Qed.
Lemma started_once cf h1 h2 s1 s2 : ids_ok cf h1 -> reach cf h1 s1 -> one_life h2 -> leads cf s1 h2 s2 ->
  (forall n l1 l2 l3, seen h2 <> l1 ++ OStartC n :: l2 ++ OStartC n :: l3) /\
  (forall n w l1 l2 l3, seen h2 <> l1 ++ OStartW n w :: l2 ++ OStartW n w :: l3).
Proof.
  intros Hid Hr Hol Hl. pose proof (reach_GInv _ _ _ Hid Hr) as HG. split.
  - intros n l1 l2 l3 E. destruct (leads_starts_c cf s1 h2 s2 n HG Hol Hl) as [H _]. rewrite E in H.
    pose proof (two_of (is_startc n) l1 l2 l3 (OStartC n) (OStartC n)) as H2. simpl in H2. rewrite bool_decide_true in H2 by done. specialize (H2 eq_refl eq_refl). lia.
  - intros n w l1 l2 l3 E. destruct (leads_starts_w cf s1 h2 s2 n w HG Hol Hl) as [H _]. rewrite E in H.
    pose proof (two_of (is_startw n w) l1 l2 l3 (OStartW n w) (OStartW n w)) as H2. simpl in H2. rewrite bool_decide_true in H2 by done. specialize (H2 eq_refl eq_refl). lia.
Qed.
Lemma one_operation cf h s k1 k2 p1 p2 : ids_ok cf h -> reach cf h s -> busy s !! k1 = Some p1 -> busy s !! k2 = Some p2 -> pc_item p1 = pc_item p2 ->
  k1 = k2 /\ p1 = p2.
Proof.
  intros Hid Hr H1 H2 E. pose proof (g_inj _ _ _ _ (reach_Inv _ _ _ Hid Hr) _ _ _ _ H1 H2 E) as <-. split; [done|]. congruence.
Qed.
Lemma no_concurrent cf h s : ids_ok cf h -> reach cf h s ->
  (forall n, starting_c s n -> ~ stopping_c s n) /\ (forall n w, starting_w s n w -> ~ stopping_w s n w).
Proof.
  intros Hid Hr. split.
  - intros n (k & Hk) (k' & Hk'). destruct (one_operation cf h s k k' _ _ Hid Hr Hk Hk' eq_refl) as [_ [=]].
  - intros n w (k & Hk) (k' & Hk'). destruct (one_operation cf h s k k' _ _ Hid Hr Hk Hk' eq_refl) as [_ [=]].
Qed.

(** * C25 *)
Lemma live_known cf h s n c : fresh_ids cf -> reach cf h s -> objs s !! n = Some c -> ~ finished (c_status c) -> lookup_cluster n s = Some c.
Proof.
  intros Hid Hr Hc Hf. destruct (reach_Sync cf h s Hid Hr) as (fc & fw & _ & Ho). unfold lookup_cluster. case_decide as H; [done|].
  exfalso. apply Hf, fin_iff, (Ho n c Hc H).
Qed.
Lemma routes_live cf h s k n a : ids_ok cf h -> reach cf h s -> routes s !! (k, n) = Some a -> exists c,
  objs s !! n = Some c /\ (c_status c = RUNNING \/ c_status c = CLOSING) /\
  a = match k with RSNI => r_sched (c_row c) | RPATH => r_dash (c_row c) end /\ (fresh_ids cf -> lookup_cluster n s = Some c).
Proof.
  intros Hid Hr Ha. pose proof (reach_Inv _ _ _ Hid Hr) as HI. destruct (g_routes _ _ _ _ HI _ _ _ Ha) as [c Hc]. exists c. split; [done|].
  pose proof (reach_cok _ _ _ _ _ Hid Hr Hc) as [].
  assert (c_proxied c && live_route (c_status c) = true /\ a = match k with RSNI => r_sched (c_row c) | RPATH => r_dash (c_row c) end) as [H ->].
  { destruct k; [rewrite k_sni in Ha by eauto|rewrite k_path in Ha by eauto]; (destruct (c_proxied c && live_route (c_status c)); [|done]).
    - injection Ha as <-. done.
    - destruct (r_dash (c_row c)); [done|]. injection Ha as <-. done. }
  apply andb_true_iff in H as [_ H]. assert (c_status c = RUNNING \/ c_status c = CLOSING) as Hst by (destruct (c_status c); auto; discriminate).
  split; [done|]. split; [done|]. intros Hfr. eapply live_known; eauto. intros [E|E]; rewrite E in Hst; destruct Hst; done.
Qed.
Lemma idle_routed cf h s n c : ids_ok cf h -> reach cf h s -> idle s -> objs s !! n = Some c -> c_status c = RUNNING -> c_target c = RUNNING ->
  routes s !! (RSNI, n) = Some (r_sched (c_row c)) /\ r_sched (c_row c) <> [] /\
  routes s !! (RPATH, n) = (if decide (r_dash (c_row c) = []) then None else Some (r_dash (c_row c))).
Proof.
  intros Hid Hr Hi Hc Hs Ht. pose proof (reach_cok _ _ _ _ _ Hid Hr Hc) as []. destruct (c_proxied c) eqn:Hp.
  2:{ exfalso. eapply idle_D; eauto. }
  rewrite k_sni, k_path, Hs by (rewrite Hs; auto). simpl. split; [done|]. split; [apply k_row; done|]. by destruct (r_dash (c_row c)).
Qed.

(** * C26 *)
Lemma sync_agree fc fw s : Sync fc fw s -> indexes_agree s.
Proof.
  intros [[]]. assert (forall n, n ∈ by_name s <-> is_Some (lookup_cluster n s)) as Hk.
  { intros n. unfold lookup_cluster. case_decide as H; split; auto; [done|]. intros [? [=]]. }
  assert (forall n (P : cluster -> Prop), (n ∈ by_name s /\ exists c, objs s !! n = Some c /\ P c) <-> exists c, lookup_cluster n s = Some c /\ P c) as HP.
  { intros n P. split.
    - intros (H & c & Hc & Hp). exists c. unfold lookup_cluster. rewrite decide_True by done. done.
    - intros (c & Hc & Hp). apply lookup_obj in Hc as [? ?]. eauto. }
  constructor; auto.
  - intros id n. rewrite x_id. apply HP.
  - intros u n. rewrite x_user. apply HP.
Qed.
Lemma ended_expired cf h s n c now : ids_ok cf h -> reach cf h s -> objs s !! n = Some c -> ended_before (now - max_age cf) (c_row c) <-> expired cf now (c_row c).
Proof.
  intros Hid Hr Hc. pose proof (k_row _ _ _ _ _ _ (reach_cok _ _ _ _ _ Hid Hr Hc)) as []. unfold ended_before, expired. split; [tauto|].
  intros (t & Ht & Hlt). split; [|eauto]. apply fin_iff, ro_stop. rewrite Ht. eauto.
Qed.
Lemma purge_exact cf h s now s' o : fresh_ids cf -> reach cf h s -> down s = None -> step cf s (ECleanup now) = (s', o) ->
  (forall n c, lookup_cluster n s' = Some c <-> lookup_cluster n s = Some c /\ ~ ended_before (now - max_age cf) (c_row c)) /\
  (forall id r, db_c s' !! id = Some r <-> db_c s !! id = Some r /\ ~ ended_before (now - max_age cf) r) /\
  (forall wid cid x, db_w s' !! wid = Some (cid, x) <-> db_w s !! wid = Some (cid, x) /\ exists r, db_c s' !! cid = Some r) /\
  indexes_agree s' /\ q s' = q s /\ busy s' = busy s /\ routes s' = routes s.
Proof.
  intros Hid Hr Hd Hs. destruct (reach_Sync cf h s Hid Hr) as (fc & fw & Hy & Ho). pose proof Hs as Hs0. simpl in Hs. rewrite Hd in Hs. injection Hs as <- <-.
  destruct (purge_spec cf fc fw s now Hy) as [P1 P2 P3 P4 P5 P6 P7 P8 P9].
  assert (forall id r, db_c s !! id = Some r -> ended_before (now - max_age cf) r <-> expired cf now r) as He.
  { intros id r H. destruct (y_db _ _ _ Hy id r H) as (n & c & Hn & Hc & <-). rewrite (y_row _ _ _ Hy n c Hn Hc) in H. injection H as <-.
    eapply ended_expired; [left; done|done|done]. }
  split; [|split; [|split; [|split]]].
  - intros n c. unfold lookup_cluster. rewrite P2. split.
    + case_decide as Hn; [|done]. intros Hc. apply P6 in Hn as [Hn Hx]. rewrite decide_True by done. split; [done|].
      rewrite (ended_expired cf h s n c now (or_introl Hid) Hr Hc). eauto.
    + case_decide as Hn; [|intros [[=] _]]. intros [Hc Hx]. rewrite decide_True; [done|]. apply P6. split; [done|]. intros d Hdd.
      assert (d = c) as -> by congruence. rewrite <- (ended_expired cf h s n c now (or_introl Hid) Hr Hc). done.
  - intros id r. rewrite P8. split; intros [H1 H2]; (split; [done|]); [rewrite (He id r H1)|rewrite <- (He id r H1)]; done.
  - intros wid cid x. rewrite P9. simpl. split; intros [H1 (r & H2)]; (split; [done|]); exists r; [apply P8|apply P8 in H2]; done.
  - destruct (GInv_step cf s (ECleanup now) (cleanup_expired cf now s) [] ltac:(done) (reach_GInv _ _ _ (or_introl Hid) Hr)) as [_ HY]; [simpl; rewrite Hd; done|].
    destruct Hid as (fc' & fw' & Hid). destruct (HY fc' fw' Hid) as [Hy' _]. eapply sync_agree; eauto.
  - unfold cleanup_expired. generalize (omap (fun id => by_id s !! id) (map fst (map_to_list (filter (fun kv : nat * crow => is_expired (now - max_age cf) kv.2 = true) (db_c s))))) as l.
    match goal with |- forall l, q (fold_left _ l ?x) = _ /\ _ => set (s2 := x) end.
    change (q s) with (q s2). change (busy s) with (busy s2). change (routes s) with (routes s2). clearbody s2. intros l. revert s2.
    induction l as [|n l IH]; intros s2; simpl; [done|]. destruct (IH (forget n s2)) as (-> & -> & ->). unfold forget. destruct (objs s2 !! n); done.
Qed.

(** * C27 *)
Lemma memory_is_database cf h s : fresh_ids cf -> reach cf h s ->
  (forall id r, db_c s !! id = Some r <-> exists n c, lookup_cluster n s = Some c /\ c_id c = id /\ c_row c = r) /\
  (forall wid cid x, db_w s !! wid = Some (cid, x) <->
     exists n c, lookup_cluster n s = Some c /\ c_id c = cid /\ x ∈ c_workers c /\ w_id x = wid).
Proof.
  intros Hid Hr. destruct (reach_Sync cf h s Hid Hr) as (fc & fw & Hy & _).
  assert (forall n c, n ∈ by_name s -> objs s !! n = Some c -> lookup_cluster n s = Some c) as Hl by (intros; unfold lookup_cluster; rewrite decide_True; done).
  split.
  - intros id r. split.
    + intros H. destruct (y_db _ _ _ Hy id r H) as (n & c & Hn & Hc & <-). exists n, c. split; [auto|]. split; [done|].
      rewrite (y_row _ _ _ Hy n c Hn Hc) in H. congruence.
    + intros (n & c & Hc & <- & <-). apply lookup_obj in Hc as [Hc Hn]. apply (y_row _ _ _ Hy n c); done.
  - intros wid cid x. split.
    + intros H. destruct (y_wdb _ _ _ Hy wid _ H) as (n & c & Hn & Hc & E). simpl in E. subst cid. exists n, c. split; [auto|]. split; [done|].
      apply (y_wk _ _ _ Hy n c); done.
    + intros (n & c & Hc & <- & Hx). apply lookup_obj in Hc as [Hc Hn]. apply (y_wk _ _ _ Hy n c); done.
Qed.
Lemma dirty_puts xs s : dirty (q (qputs xs s)) = list_to_set xs ∪ dirty (q s) /\ processing (q (qputs xs s)) = processing (q s).
Proof.
  unfold qputs. revert s. induction xs as [|x xs IH]; intros s; simpl; [split; [set_solver|done]|].
  destruct (IH (qput x s)) as [-> ->]. unfold qput. simpl. destruct (put_core x (q s)) as (-> & _ & -> & _). split; [set_solver|done].
Qed.
Lemma restart_keeps cf h s now : fresh_ids cf -> reach cf h s -> let s' := (step cf s (ERestart now)).1 in
  (forall n, match lookup_cluster n s, lookup_cluster n s' with
             | Some c, Some c' => same_record c c' | None, None => True | _, _ => False end) /\
  indexes_agree s' /\ db_c s' = db_c s /\ db_w s' = db_w s /\
  (forall x, x ∈ queue (q s') <-> unfinished_item s x) /\ NoDup (queue (q s')) /\ busy s' = ∅ /\ routes s' = ∅.
Proof.
  intros Hid Hr. cbn [step fst]. set (s' := restart cf now s). assert (reach cf (h ++ [(ERestart now, [])]) s') as Hr' by (apply (leads_snoc cf _ _ s); [done|reflexivity]).
  pose proof Hid as (fc & fw & Hid0). destruct (proj2 (reach_GInv _ _ _ (or_introl Hid) Hr) fc fw Hid0) as [Hy _].
  destruct (reach_Sync cf _ s' Hid Hr') as (fc' & fw' & Hy' & _). pose proof (reach_Inv _ _ _ (or_introl Hid) Hr') as HI'.
  pose proof (reach_Inv _ _ _ (or_introl Hid) Hr) as HI.
  assert (forall n, match lookup_cluster n s, lookup_cluster n s' with
             | Some c, Some c' => same_record c c' | None, None => True | _, _ => False end) as Hlk.
  { intros n. unfold lookup_cluster. pose proof (restart_names cf fc fw now s n Hy) as Hn. fold s' in Hn.
    pose proof (restart_objs cf fc fw now s n Hy) as Ho. fold s' in Ho. destruct (objs s' !! n) as [d|].
    - destruct Ho as (c & Hin & Hc & []). rewrite decide_True by done. rewrite Hc. rewrite decide_True by (apply Hn; done). done.
    - rewrite decide_False by done. by case_decide. }
  assert (busy s' = ∅) as Hb by (unfold s'; rewrite restart_eq, busy_puts; done).
  split; [done|]. split; [by eapply sync_agree|].
  destruct (same_data_puts (restart_items (restart0 cf now s)) (restart0 cf now s)) as (_ & _ & _ & _ & E5 & E6 & _).
  split; [unfold s'; rewrite restart_eq, E5; done|]. split; [unfold s'; rewrite restart_eq, E6; done|].
  split; [|split; [apply HI'|split; [done|]]].
  2:{ unfold s'. rewrite restart_eq. apply qputs_objs. }
  intros x. rewrite (qo_line _ (g_q _ _ _ _ HI') x). destruct (dirty_puts (restart_items (restart0 cf now s)) (restart0 cf now s)) as [E1 E2].
  unfold s'. rewrite restart_eq, E1, E2. cbn [q restart0 init dirty processing]. rewrite (right_id_L ∅ (∪)), elem_of_list_to_set.
  transitivity (x ∈ restart_items (restart0 cf now s)); [split; [intros [? _]; done|intros ?; split; [done|set_solver]]|].
  unfold restart_items. rewrite elem_of_list_In, in_flat_map. unfold unfinished_item. split.
  - intros (d & Hd & Hx). apply filter_In in Hd as [Hd Hs]. apply elem_of_list_In in Hd. unfold all_clusters in Hd. apply elem_of_list_omap in Hd as (n & Hn & Hd).
    apply load_lookup with (fc := fc) (fw := fw) in Hd as (c & Hn' & Hc & ->); [|done].
    pose proof (load_reloaded fc fw now s n c Hy Hn' Hc) as Hrl. set (d := load_cluster _ _ _ _) in *. destruct Hrl.
    assert (c_name d = n) as En. { unfold c_name. rewrite rl_row. apply (k_name _ _ _ _ _ _ (g_cok _ _ _ _ HI n c Hc)). }
    destruct Hx as [<-|Hx].
    + simpl. rewrite En. exists c. unfold lookup_cluster. rewrite decide_True by done. split; [done|]. unfold c_status in *. rewrite rl_row in Hs.
      rewrite fin_iff. unfold is_fin, jge. rewrite Hs. done.
    + apply in_map_iff in Hx as (y & <- & Hy0). apply filter_In in Hy0 as [Hy0 Hys]. simpl. rewrite En. exists c. unfold lookup_cluster. rewrite decide_True by done. split; [done|].
      exists y. apply elem_of_list_In in Hy0. rewrite rl_workers in Hy0. split; [done|]. split; [done|]. rewrite fin_iff. unfold is_fin, jge. rewrite Hys. done.
  - intros (c & Hl & Hx). apply lookup_obj in Hl as [Hc Hn]. destruct x as [n o]. simpl in *.
    pose proof (load_reloaded fc fw now s n c Hy Hn Hc) as Hrl. set (d := load_cluster _ _ _ _) in *.
    assert (objs (restart0 cf now s) !! n = Some d) as Hd by (apply (load_lookup fc fw); [done|]; eauto). destruct Hrl.
    assert (c_name d = n) as En. { unfold c_name. rewrite rl_row. apply (k_name _ _ _ _ _ _ (g_cok _ _ _ _ HI n c Hc)). }
    assert (is_fin (c_status c) = false) as Hnf.
    { destruct o as [w|]; [|rewrite fin_iff in Hx; destruct (is_fin (c_status c)); [by destruct Hx|done]].
      destruct Hx as (y & Hyin & _ & Hyf). destruct (is_fin (c_status c)) eqn:E; [|done]. exfalso. apply Hyf, fin_iff.
      pose proof (k_workers _ _ _ _ _ _ (g_cok _ _ _ _ HI n c Hc)) as HW. rewrite Forall_forall in HW. apply (wo_done _ _ _ _ _ _ (HW y Hyin) E). }
    exists d. split.
    + apply filter_In. split.
      * apply elem_of_list_In. apply elem_of_list_omap. exists n. split; [|done]. apply (load_names_spec fc fw); done.
      * unfold c_status in *. rewrite rl_row. unfold is_fin, jge in Hnf. by destruct (jlt _ _).
    + rewrite En. destruct o as [w|]; [|by left]. right. destruct Hx as (y & Hyin & <- & Hyf).
      apply in_map_iff. exists y. split; [done|]. apply filter_In. split; [apply elem_of_list_In; rewrite rl_workers; done|].
      rewrite fin_iff in Hyf. unfold is_fin, jge in Hyf. by destruct (jlt _ _).
Qed.

(** * C28 *)
Lemma stop_unknown cf n f s : lookup_cluster n s = None \/ (exists p, reported n s p /\ (p = PSTOPPING \/ p = PSTOPPED \/ p = PFAILED)) ->
  step cf s (EStop n f) = (s, []).
Proof.
  intros H. simpl. unfold stop_cluster. destruct (lookup_cluster n s) as [c|] eqn:Hc; [|done].
  destruct H as [[=]|(p & Hp & H)]. unfold reported, get_cluster in Hp. rewrite Hc in Hp. simpl in Hp. injection Hp as Hp. unfold model_status in Hp.
  destruct (jge RUNNING (c_target c)) eqn:E; [|done]. exfalso.
  destruct (c_status c), (c_target c); try discriminate Hp; try discriminate E; injection Hp as <-; destruct H as [?|[?|?]]; done.
Qed.
Lemma stop_wins cf h1 s1 n f c1 s1' o h2 s2 : ids_ok cf (h1 ++ (EStop n f, o) :: h2) -> reach cf h1 s1 -> lookup_cluster n s1 = Some c1 ->
  step cf s1 (EStop n f) = (s1', o) -> leads cf s1' h2 s2 ->
  ~ reported n s2 PRUNNING /\ ~ reported n s2 PPENDING /\
  (forall c2, objs s2 !! n = Some c2 -> length (c_workers c2) = length (c_workers c1) /\
     forall x2, x2 ∈ c_workers c2 -> exists x1, x1 ∈ c_workers c1 /\ w_name x1 = w_name x2) /\
  (forall w, OStartW n w ∈ seen h2 -> exists x1, x1 ∈ c_workers c1 /\ w_name x1 = w).
Proof.
  intros Hid Hr Hc1 Hs Hl. pose proof (ids_ok_app _ _ _ Hid) as [Hid1 _]. pose proof (lookup_obj _ _ _ Hc1) as [Ho1 _].
  destruct (stop_sets cf n f s1 c1 Hc1 (reach_tgt _ _ _ _ _ Hid1 Hr Ho1)) as (c' & Hc' & Ht & Ew). rewrite Hs in Hc'. simpl in Hc'.
  assert (ids_ok cf ((h1 ++ [(EStop n f, o)]) ++ h2)) as Hid' by (rewrite <- app_assoc; done).
  pose proof (leads_snoc _ _ _ _ _ _ _ Hr Hs) as Hr1.
  assert (forall ha hb sa c, h2 = ha ++ hb -> leads cf s1' ha sa -> objs sa !! n = Some c -> cl_later (uuid s1') c' c) as Hat.
  { intros ha hb sa c -> Hla Hca. eapply reach_later; [|exact Hr1|exact Hla|done|done]. rewrite app_assoc in Hid'. apply ids_ok_app in Hid'. apply Hid'. }
  assert (forall p, reported n s2 p -> p = PRUNNING \/ p = PPENDING -> False) as Hrep.
  { intros p Hp Hpp. unfold reported, get_cluster in Hp. destruct (lookup_cluster n s2) as [c2|] eqn:Hc2; [|done].
    apply lookup_obj in Hc2 as [Hc2 _]. simpl in Hp. injection Hp as Hp.
    pose proof (l_tgt _ _ _ (Hat h2 [] s2 c2 (eq_sym (app_nil_r _)) Hl Hc2) Ht) as Ht2. unfold model_status in Hp.
    destruct (c_status c2), (c_target c2); try discriminate Hp; try done; injection Hp as <-; destruct Hpp; done. }
  split; [intros H; eapply Hrep; eauto|]. split; [intros H; eapply Hrep; eauto|]. split.
  - intros c2 Hc2. pose proof (Hat h2 [] s2 c2 (eq_sym (app_nil_r _)) Hl Hc2) as HL.
    assert (forall x2, x2 ∈ c_workers c2 -> exists x1, x1 ∈ c_workers c1 /\ w_name x1 = w_name x2) as Hb.
    { intros x2 Hx2. destruct (l_back _ _ _ HL Ht x2 Hx2) as (x1 & Hx1 & Hev). exists x1. rewrite <- Ew. split; [done|]. symmetry. apply Hev. }
    split; [|done].
    assert (NoDup (names c1)) as N1 by apply (reach_cok _ _ _ _ _ Hid1 Hr Ho1).
    assert (reach cf ((h1 ++ [(EStop n f, o)]) ++ h2) s2) as Hr2 by (apply reach_app; exists s1'; split; done).
    assert (NoDup (names c2)) as N2 by apply (reach_cok _ _ _ _ _ Hid' Hr2 Hc2).
    assert (length (names c1) = length (names c2)) as E; [|unfold names in E; rewrite !map_length in E; done].
    apply Nat.le_antisymm; apply submseteq_length, NoDup_submseteq; try done; intros w (x & -> & Hx)%elem_of_list_fmap.
    + rewrite <- Ew in Hx. destruct (l_workers _ _ _ HL x Hx) as (x' & Hx' & Hev). apply elem_of_list_fmap. exists x'. split; [symmetry; apply Hev|done].
    + destruct (Hb x Hx) as (x1 & Hx1 & En). apply elem_of_list_fmap. exists x1. done.
  - intros w Hin. destruct (leads_at _ _ _ _ _ Hl Hin) as (ha & e & oo & hb & sa & sb & E & Ho & Hla & Hst & _).
    pose proof Hid' as Hid''. rewrite E, app_assoc in Hid''. apply ids_ok_app in Hid'' as [Hida _].
    assert (reach cf ((h1 ++ [(EStop n f, o)]) ++ ha) sa) as Hra by (apply reach_app; exists s1'; split; done).
    destruct (step_startw _ _ _ _ _ _ _ (reach_GInv _ _ _ Hida Hra) Hst Ho) as (_ & _ & _ & _ & c & x & Hca & Hx & En & _).
    destruct (l_back _ _ _ (Hat _ _ _ _ E Hla Hca) Ht x Hx) as (x1 & Hx1 & Hev). exists x1. rewrite <- Ew, <- En. split; [done|]. symmetry. apply Hev.
Qed.

(** * C29 *)
Lemma reportable cf h s n c : ids_ok cf h -> reach cf h s -> objs s !! n = Some c ->
  is_Some (model_status c) \/ (c_status c = STOPPED /\ c_target c = FAILED).
Proof.
  intros Hid Hr Hc. pose proof (k_row _ _ _ _ _ _ (reach_cok _ _ _ _ _ Hid Hr Hc)) as []. unfold model_status, c_status, c_target.
  destruct (r_status (c_row c)), (r_target (c_row c)); simpl; eauto; exfalso;
    try (destruct ro_tgt as [?|[?|?]]; done); try (by apply ro_closing); try (by apply ro_stopped); try (by specialize (ro_failed eq_refl)).
Qed.
Lemma list_never_fails cf h s user : ids_ok cf h -> reach cf h s -> is_Some (list_clusters user None s).
Proof.
  intros Hid Hr. unfold list_clusters.
  assert (Forall (fun c => exists n, objs s !! n = Some c) (user_clusters user s)) as HF.
  { apply Forall_forall. intros c Hc. unfold user_clusters, all_clusters in Hc. destruct user; apply elem_of_list_omap in Hc as (n' & _ & H); eauto. }
  assert (exists cs, select_clusters None (user_clusters user s) = Some cs /\ Forall (fun c => is_Some (model_status c)) cs) as (cs & -> & Hcs).
  { induction HF as [|c l (n & Hc) HF (cs & IH1 & IH2)]; simpl; [eauto|]. rewrite IH1. simpl. eexists. split; [done|].
    destruct (c_active c) eqn:Ha; [|done]. constructor; [|done]. destruct (reportable cf h s n c Hid Hr Hc) as [?|[_ E]]; [done|].
    unfold c_active in Ha. rewrite E in Ha. done. }
  simpl. clear HF. induction Hcs as [|c l [p Hp] HF IH]; simpl; [eauto|]. rewrite Hp. simpl. destruct IH as [l' IH]. simpl in IH. rewrite IH. simpl. eauto.
Qed.
(** * C62 *)
Lemma flags_match cf h s n c : ids_ok cf h -> reach cf h s -> objs s !! n = Some c ->
  (c_ready c = true <-> c_status c = RUNNING \/ c_status c = CLOSING \/ finished (c_status c)) /\
  (c_shutdown c = true <-> finished (c_status c)).
Proof.
  intros Hid Hr Hc. pose proof (reach_cok _ _ _ _ _ Hid Hr Hc) as []. rewrite k_ready, k_shut, fin_iff. unfold finished. split; [|done].
  destruct (c_status c); vm_compute; intuition (try done).
Qed.
