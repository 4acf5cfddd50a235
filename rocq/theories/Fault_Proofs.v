(** The properties of the gateway when database calls fail (C131-C139). *)
From Coq Require Import ZArith Lia.
From stdpp Require Import prelude gmap.
From Verif Require Import Trace WorkQueue_Model WorkQueue_Proofs Router_Model Gateway_Model Gateway_Spec Gateway_Inv Gateway_Steps Gateway_Steps2
  Gateway_Steps3 Gateway_Steps4 Gateway_Sync Gateway_Restart Gateway_Acts Gateway_Track Gateway_Busy Gateway_Hist Gateway_Ops Gateway_Queue Gateway_Proofs
  Fault_Model Fault_Spec Fault_Ok Fault_Good Fault_Steps Fault_Chain Fault_Hist.
Open Scope Z_scope.

(** * Histories *)
Lemma freach_app cf h1 h2 s : freach cf (h1 ++ h2) s <-> exists s1, freach cf h1 s1 /\ fleads cf s1 h2 s.
Proof. apply exec_app. Qed.
Lemma fseen_app h1 h2 : fseen (h1 ++ h2) = fseen h1 ++ fseen h2.
Proof. unfold fseen. rewrite map_app, concat_app. done. Qed.
Lemma fseen_cons fe o h : fseen ((fe, o) :: h) = o ++ fseen h. Proof. done. Qed.
Lemma fleads_at cf s h s' x : fleads cf s h s' -> x ∈ fseen h -> exists ha fe o hb sa sb,
  h = ha ++ (fe, o) :: hb /\ x ∈ o /\ fleads cf s ha sa /\ fstep cf sa fe = (sb, o) /\ fleads cf sb hb s'.
Proof.
  unfold fleads. induction 1 as [s|s e o s1 h s2 Hs Hx IH]; [intros H; inversion H|]. rewrite fseen_cons. intros [Hin|Hin]%elem_of_app.
  - exists [], e, o, h, s, s1. split; [done|]. split; [done|]. split; [constructor|]. done.
  - destruct (IH Hin) as (ha & e' & o' & hb & sa & sb & -> & H1 & H2 & H3 & H4). exists ((e, o) :: ha), e', o', hb, sa, sb.
    split; [done|]. split; [done|]. split; [econstructor; eauto|]. done.
Qed.
Lemma Mode_cok cf many s n c : Mode cf many s -> objs s !! n = Some c -> exists g d, N g = N s /\ Inv cf None ∅ g /\ objs g !! n = Some d /\
  c_row d = c_row c /\ c_workers d = c_workers c /\ cok cf (Dof ∅ g) (Bof g) (routes g) n d /\ busy g = busy s.
Proof.
  intros [(g & HN & HI) _] Hc. symmetry in HN. destruct (N_obj _ _ _ _ HN Hc) as (d & Hd & E). apply norm_inv in E as (_ & E1 & _ & _ & _ & E2).
  exists g, d. split; [done|]. split; [done|]. split; [done|]. split; [done|]. split; [done|]. split; [apply (g_cok _ _ _ _ HI _ _ Hd)|].
  pose proof (N_rest _ _ HN) as (_ & _ & _ & _ & _ & _ & _ & _ & H & _). done.
Qed.
Lemma Mode_fresh cf many s n c : Mode cf many s -> objs s !! n = Some c -> (n < uuid s)%nat.
Proof.
  intros HM Hc. destruct (Mode_cok cf many s n c HM Hc) as (g & d & HN & HI & Hd & _). destruct (g_fresh _ _ _ _ HI _ _ Hd) as [H _].
  pose proof (N_rest _ _ HN) as (_ & _ & _ & _ & _ & E & _). rewrite E in H. done.
Qed.
(** Two moments of one history. *)
Lemma two_moments cf h1 h2 s1 s2 : life_ok cf (h1 ++ h2) -> freach cf h1 s1 -> fleads cf s1 h2 s2 ->
  exists many, alloweds many h1 /\ alloweds many h2 /\ Mode cf many s1 /\ Mode cf many s2 /\
    forall n c1 c2, objs s1 !! n = Some c1 -> objs s2 !! n = Some c2 -> fl c1 c2.
Proof.
  intros (many & [Ha1 Ha2]%alloweds_app & Hf)%life_mode Hr Hl. exists many. split; [done|]. split; [done|].
  pose proof (Mode_reach cf many h1 s1 Ha1 Hf Hr) as HM. destruct (Mode_leads cf many h2 s1 s2 Ha2 HM Hl) as [HM2 [_ HL]].
  split; [done|]. split; [done|]. intros n c1 c2 H1 H2. destruct (HL n c2) as (c & Hc & Hfl); [eapply Mode_fresh; eauto|done|]. congruence.
Qed.

(** * C131 *)
Lemma fforward cf h1 h2 s1 s2 n p1 p2 : life_ok cf (h1 ++ h2) -> freach cf h1 s1 -> fleads cf s1 h2 s2 ->
  reported n s1 p1 -> reported n s2 p2 -> forward p1 p2.
Proof.
  intros Hok Hr Hl R1 R2. destruct (two_moments cf h1 h2 s1 s2 Hok Hr Hl) as (many & _ & _ & _ & _ & HL). unfold reported, get_cluster in *.
  destruct (lookup_cluster n s1) as [c1|] eqn:H1; [|done]. destruct (lookup_cluster n s2) as [c2|] eqn:H2; [|done].
  apply lookup_obj in H1 as [H1 _], H2 as [H2 _]. simpl in *. injection R1 as R1. injection R2 as R2.
  destruct (HL n c1 c2 H1 H2). unfold model_status, c_status, c_target in *.
  assert (is_fin (r_status (c_row c1)) = true -> r_status (c_row c2) = r_status (c_row c1)) as Hf by (intros E; apply f_fin; done).
  clear f_fin f_workers f_back HL.
  destruct (r_status (c_row c1)), (r_target (c_row c1)); try discriminate R1; injection R1 as <-;
  destruct (r_status (c_row c2)), (r_target (c_row c2)); try discriminate R2; injection R2 as <-; simpl in *;
    unfold forward; simpl; try (left; done); try (right; lia); try lia; try (specialize (Hf eq_refl); done).
Qed.
Lemma ffinal cf h1 h2 s1 s2 n c1 : life_ok cf (h1 ++ h2) -> freach cf h1 s1 -> fleads cf s1 h2 s2 ->
  objs s1 !! n = Some c1 -> finished (c_status c1) ->
  (forall c2, objs s2 !! n = Some c2 -> c_status c2 = c_status c1 /\ r_stop (c_row c2) = r_stop (c_row c1)) /\
  FObs (OStartC n) ∉ fseen h2 /\ (forall w, FObs (OStartW n w) ∉ fseen h2).
Proof.
  intros Hok Hr Hl Hc Hf. destruct (life_mode cf _ Hok) as (many & [Ha1 Ha2]%alloweds_app & Hfr).
  pose proof (Mode_reach cf many h1 s1 Ha1 Hfr Hr) as HM1. apply fin_iff in Hf.
  assert (forall ha hb sa c, h2 = ha ++ hb -> fleads cf s1 ha sa -> objs sa !! n = Some c -> fl c1 c /\ Mode cf many sa) as Hat.
  { intros ha hb sa c -> Hla Hca. apply alloweds_app in Ha2 as [Ha2 _]. destruct (Mode_leads cf many ha s1 sa Ha2 HM1 Hla) as [HM2 [_ HL]].
    split; [|done]. destruct (HL n c) as (d & Hd & Hfl); [eapply Mode_fresh; eauto|done|]. congruence. }
  assert (forall x, x ∈ fseen h2 -> opens x = true -> exists sa p ob, Mode cf many sa /\ x = FObs ob /\ begun sa p ob /\
            forall c, objs sa !! n = Some c -> is_fin (c_status c) = true) as Hop.
  { intros x Hx Ho. destruct (fleads_at _ _ _ _ _ Hl Hx) as (ha & fe & o & hb & sa & sb & E & Hxo & Hla & Hs & _).
    assert (Mode cf many sa) as HMa by (eapply (Mode_leads cf many ha s1); eauto; rewrite E in Ha2; apply alloweds_app in Ha2; apply Ha2).
    destruct (fcrash fe) eqn:Ec.
    { exfalso. destruct fe as [[] lt fs|]; try discriminate Ec. cbn [fstep step plain] in Hs. injection Hs as _ <-. inversion Hxo. }
    destruct (fstep_busy cf sa fe Ec (proj1 HMa)) as [[_ Hq]|(k & p & ob & q' & _ & E' & Hb)]; rewrite Hs in *.
    - rewrite (Hq x Hxo) in Ho. done.
    - injection E' as _ ->. apply elem_of_list_singleton in Hxo as ->. exists sa, p, ob. split; [done|]. split; [done|]. split; [done|].
      intros c Hca. destruct (Hat ha _ sa c E Hla Hca) as [[] _]. destruct (f_fin Hf) as [-> _]. done. }
  split; [|split].
  - intros c2 Hc2. destruct (Hat h2 [] s2 c2) as [[] _]; [by rewrite app_nil_r|done|done|]. auto.
  - intros Hin. destruct (Hop _ Hin eq_refl) as (sa & p & ob & _ & [= <-] & Hb & Hfin). destruct p; simpl in Hb; [..|by destruct Hb as (? & _ & [=])].
    + destruct Hb as [[= <-] (c & Hcc & Es & _)]. specialize (Hfin c Hcc). rewrite Es in Hfin. done.
    + destruct Hb as (? & _ & _ & [=]).
    + destruct Hb as [[=] _].
  - intros w Hin. destruct (Hop _ Hin eq_refl) as (sa & p & ob & HMa & [= <-] & Hb & Hfin). destruct p; simpl in Hb; [..|by destruct Hb as (? & _ & [=])].
    + destruct Hb as [[=] _].
    + destruct Hb as (? & _ & _ & [=]).
    + destruct Hb as [[= <- <-] (x & Hx & Es & _)]. unfold get_worker in Hx. destruct (objs sa !! n) as [c|] eqn:Hcc; simpl in Hx; [|done].
      specialize (Hfin c eq_refl). destruct (Mode_cok cf many sa n c HMa Hcc) as (g & d & _ & _ & _ & Er & Ew & Hk & _).
      pose proof (k_workers _ _ _ _ _ _ Hk) as HW. rewrite Forall_forall, Ew in HW. unfold c_status in Hfin. rewrite <- Er in Hfin.
      pose proof (find_worker_some _ _ _ Hx) as [Hin' _]. pose proof (wo_done _ _ _ _ _ _ (HW x Hin') Hfin) as H. rewrite Es in H. done.
Qed.

(** * C132 *)
Lemma inv_settled cf s n c : Inv cf None ∅ s -> at_rest s -> objs s !! n = Some c -> settled c.
Proof.
  intros HI [Hi Ht] Hc. pose proof (g_cok _ _ _ _ HI _ _ Hc) as [].
  assert (forall x, ~ Dof ∅ s x) as ND.
  { intros x [[Hd|[t Hd]]|Hd]; [|rewrite Ht in Hd; done|set_solver]. destruct HI, Hi as [Hq Hb].
    assert (x ∉ processing (q s)) as Hp.
    { intros Hp. apply g_proc in Hp as [(k & p & Hk & _)|[=]]. rewrite Hb, lookup_empty in Hk. done. }
    assert (x ∈ queue (q s)) as Hin by (apply (qo_line _ g_q); done). rewrite Hq in Hin. inversion Hin. }
  assert (forall p, ~ Bof s p) as NB by (intros p; eapply idle_B; eauto). rewrite Forall_forall in k_workers.
  assert (forall x, x ∈ c_workers c -> is_fin (w_target x) = true -> is_fin (w_status x) = true) as Hw.
  { intros x Hx Htx. destruct (is_fin (w_status x)) eqn:Hs; [done|]. destruct (wo_stop _ _ _ _ _ _ (k_workers x Hx) Hs Htx) as [H|H]; [by apply ND in H|by apply NB in H]. }
  split; [|split].
  - intros Htx. destruct (jlt (c_status c) CLOSING) eqn:Hlt; [exfalso; eapply ND; eauto|].
    destruct (is_fin (c_status c)) eqn:Hfin.
    { split; [apply fin_iff; done|]. intros x Hx. apply fin_iff. apply (wo_done _ _ _ _ _ _ (k_workers x Hx)). done. }
    exfalso. assert (c_status c = CLOSING) as Ecl by (destruct (c_status c); done).
    assert (ready_to_close cf c = true) as Hrd; [|destruct (o_ready Ecl Hrd) as [H|H]; [by apply ND in H|by apply NB in H]].
    unfold ready_to_close, all_at_least. rewrite Ecl. destruct (bulk cf) eqn:Hb.
    + apply orb_true_iff. left. rewrite bool_decide_true by done. simpl. apply forallb_forall. intros x Hx. apply elem_of_list_In in Hx.
      pose proof (k_workers x Hx) as HW. pose proof (wo_closing _ _ _ _ _ _ HW) as H. rewrite Ecl, Hb in H. specialize (H eq_refl).
      destruct (is_fin (w_target x)) eqn:Hft.
      * pose proof (Hw x Hx Hft) as Hs. destruct (w_status x); done.
      * assert (w_target x = CLOSING) as Et by (destruct (w_target x); done). unfold jge. destruct (jlt (w_status x) CLOSING) eqn:Hl; [|done].
        exfalso. eapply ND. apply (wo_close _ _ _ _ _ _ HW); done.
    + apply orb_true_iff. right. apply forallb_forall. intros x Hx. apply elem_of_list_In in Hx.
      pose proof (k_workers x Hx) as HW. pose proof (wo_closing _ _ _ _ _ _ HW) as H. rewrite Ecl, Hb in H. specialize (H eq_refl). apply Hw; done.
  - intros Htx E. destruct (o_start E Htx) as [H|H]; [by apply ND in H|by apply NB in H].
  - intros x Hx. split.
    + intros Hf. apply fin_iff. apply Hw; [done|]. apply fin_iff. done.
    + intros Htx E. destruct (wo_start _ _ _ _ _ _ (k_workers x Hx) E Htx) as [H|H]; [by apply ND in H|by apply NB in H].
Qed.
Lemma clean_mode cf h : clean_ok cf h -> exists many, alloweds many h /\ (many = true -> fresh_ids cf).
Proof. intros [H1 [H2|H2]]; apply life_mode; [left; done|right; split; [done|]]. apply clean_kept. done. Qed.
Lemma clean_inv cf h s : clean_ok cf h -> freach cf h s -> Inv cf None ∅ s.
Proof.
  intros Hok Hr. destruct (clean_mode cf h Hok) as (many & Ha & Hf). eapply (strict_leads cf many h (gw_init cf)); eauto; [apply Hok|apply Mode_init; done|apply Inv_gw_init].
Qed.
Lemma fsettled cf h s n c : clean_ok cf h -> freach cf h s -> at_rest s -> objs s !! n = Some c -> settled c.
Proof. intros Hok Hr. apply inv_settled with cf. eapply clean_inv; eauto. Qed.
Lemma heals cf h1 now lt fs o h2 s n c : fresh_ids cf -> only kept h1 -> only clean h2 ->
  freach cf (h1 ++ (FE (ERestart now) lt fs, o) :: h2) s -> at_rest s -> objs s !! n = Some c -> settled c.
Proof.
  intros Hid Hk Hc (s1 & Hr1 & Hl)%freach_app. inversion Hl as [|? ? ? s2 ? ? Hs Hl']; subst. cbn [fstep step plain fst] in Hs. injection Hs as <- _.
  assert (alloweds true h1) as Ha1 by (intros fe o' Hin Hr; by apply (Hk fe o' RolledBack Hin Hr)).
  assert (alloweds true h2) as Ha2 by (intros fe o' Hin Hr; by apply (clean_kept _ Hc fe o' RolledBack Hin Hr)).
  pose proof (Mode_reach cf true h1 s1 Ha1 (fun _ => Hid) Hr1) as HM.
  pose proof (Mode_step cf true s1 (FE (ERestart now) lt []) ltac:(simpl; set_solver) HM) as [HM2 _]. cbn [fstep step plain fst] in HM2.
  apply inv_settled with cf. eapply (strict_leads cf true h2); eauto.
  destruct HM as [HL HM]. destruct (HM eq_refl) as (fc & fw & Hidf & Hy & _). eapply frestart_inv; eauto.
Qed.

(** * C133 *)
Lemma fone_operation cf h s k1 k2 p1 p2 : life_ok cf h -> freach cf h s -> busy s !! k1 = Some p1 -> busy s !! k2 = Some p2 -> pc_item p1 = pc_item p2 ->
  k1 = k2 /\ p1 = p2.
Proof.
  intros Hok Hr H1 H2 E. destruct (life_mode cf h Hok) as (many & Ha & Hf). destruct (Mode_reach cf many h s Ha Hf Hr) as [(g & HN & HI) _].
  pose proof (N_rest _ _ HN) as (_ & _ & _ & _ & _ & _ & _ & _ & Eb & _). rewrite <- Eb in H1, H2.
  pose proof (g_inj _ _ _ _ HI _ _ _ _ H1 H2 E) as <-. split; [done|]. congruence.
Qed.
Lemma LInv_inj cf s k1 k2 p1 p2 : LInv cf s -> busy s !! k1 = Some p1 -> busy s !! k2 = Some p2 -> pc_item p1 = pc_item p2 -> k1 = k2.
Proof.
  intros (g & HN & HI) H1 H2 E. pose proof (N_rest _ _ HN) as (_ & _ & _ & _ & _ & _ & _ & _ & Eb & _). rewrite <- Eb in H1, H2.
  apply (g_inj _ _ _ _ HI _ _ _ _ H1 H2 E).
Qed.
Lemma fno_concurrent cf h s : life_ok cf h -> freach cf h s ->
  (forall n, starting_c s n -> ~ stopping_c s n) /\ (forall n w, starting_w s n w -> ~ stopping_w s n w).
Proof.
  intros Hid Hr. split.
  - intros n (k & Hk) (k' & Hk'). destruct (fone_operation cf h s k k' _ _ Hid Hr Hk Hk' eq_refl) as [_ [=]].
  - intros n w (k & Hk) (k' & Hk'). destruct (fone_operation cf h s k k' _ _ Hid Hr Hk Hk' eq_refl) as [_ [=]].
Qed.
(** ** A start operation that is over *)
Lemma set_db_objs a b s : objs (set_db_w a (set_db_c b s)) = objs s /\ busy (set_db_w a (set_db_c b s)) = busy s. Proof. done. Qed.
Lemma upd_busy n f s : busy (update_cluster n f s) = busy s.
Proof. unfold update_cluster. destruct (objs s !! n); done. Qed.
Lemma call_upd n f s fs c : objs s !! n = Some c -> let r := call (update_cluster n f) s fs in
  busy r.1.1 = busy s /\ (objs r.1.1 !! n = Some c \/ objs r.1.1 !! n = Some (cset_row (f (c_row c)) c)) /\
  (r.2 = true -> objs r.1.1 !! n = Some (cset_row (f (c_row c)) c)).
Proof.
  intros Hc. assert (objs (update_cluster n f s) !! n = Some (cset_row (f (c_row c)) c)) as E by (rewrite (row_upd s n f c Hc), lookup_insert; done).
  destruct fs as [|[] fs]; simpl; rewrite ?upd_busy; auto. split; [done|]. split; [|done]. auto.
Qed.
Definition past (n : nat) (x : item) (r : gw * list fobs) : Prop :=
  FRetry x ∈ r.2 \/ exists c, objs r.1 !! n = Some c /\ c_status c <> CREATED.
Lemma finish_objs x s : objs (finish x s) = objs s. Proof. done. Qed.
Lemma past_failed lt n s fs c : objs s !! n = Some c -> past n (n, None) (settle lt (n, None) (cluster_failed n s fs)).
Proof.
  intros Hc. unfold cluster_failed, seq. pose proof (call_upd n (fun r => rset_target FAILED (rset_status SUBMITTED r)) s fs c Hc) as (_ & _ & H).
  destruct (call _ s fs) as [[s1 fs1] []]; simpl.
  - right. simpl in H. eexists. split; [apply H; done|]. done.
  - left. by left.
Qed.
Lemma fresume_start cf k n o now lt fs s c : busy s !! k = Some (InStartCluster n) -> objs s !! n = Some c ->
  let r := fresume cf k o now lt fs s in busy r.1 !! k = Some (InStartCluster n) \/ past n (n, None) r.
Proof.
  intros Hb Hc. unfold fresume. rewrite Hb. assert (objs (release k s) !! n = Some c) as Hc0 by done. destruct o.
  - pose proof (call_upd n (rset_state st) s fs c Hc) as (Eb & Ho & _). destruct (call _ s fs) as [[s1 fs1] []]; simpl in *; [left; rewrite Eb; done|].
    right. assert (exists c1, objs (release k s1) !! n = Some c1) as [c1 Hc1] by (simpl; destruct Ho; eauto).
    destruct (past_failed lt n (release k s1) fs1 c1 Hc1) as [H|H]; [left; by right|right; done].
  - right. unfold orelse. pose proof (call_upd n (rset_status SUBMITTED) (release k s) fs c Hc0) as (Eb & Ho & Hok).
    destruct (call _ (release k s) fs) as [[s1 fs1] []]; simpl fst in *; simpl snd in *.
    + right. eexists. split; [simpl; apply Hok; done|]. done.
    + destruct Ho as [Ho|Ho]; eapply past_failed; eauto.
  - right. eapply past_failed; eauto.
Qed.
(** Between two starts of a cluster the first one is retried. *)
Definition started (s : gw) (n : nat) : Prop := starting_c s n \/ exists c, objs s !! n = Some c /\ c_status c <> CREATED.
Lemma LInv_bstart cf s n : LInv cf s -> starting_c s n -> exists c, objs s !! n = Some c.
Proof.
  intros (g & HN & HI) (k & Hk). pose proof (N_rest _ _ HN) as (_ & _ & _ & _ & _ & _ & _ & _ & Eb & _). rewrite <- Eb in Hk.
  destruct (g_pcs _ _ _ _ HI _ _ Hk) as (c & Hc & _). destruct (N_obj _ _ _ _ HN Hc) as (d & Hd & _). eauto.
Qed.
Lemma fstep_started cf s fe n : fcrash fe = false -> LInv cf s -> started s n ->
  FObs (OStartC n) ∉ (fstep cf s fe).2 /\ (started (fstep cf s fe).1 n \/ FRetry (n, None) ∈ (fstep cf s fe).2).
Proof.
  intros Hcr HL Hst. destruct (fstep_loose cf fe s Hcr HL) as [HL' HE]. split.
  - intros Hin. destruct (fstep_busy cf s fe Hcr HL) as [[_ Hq]|(k & p & ob & q' & Hk & E & Hb)]; [specialize (Hq _ Hin); done|].
    rewrite E in Hin. apply elem_of_list_singleton in Hin. injection Hin as <-. destruct p; simpl in Hb; [..|by destruct Hb as (? & _ & [=])].
    2:{ destruct Hb as (? & _ & _ & [=]). } 2:{ destruct Hb as [[=] _]. }
    destruct Hb as [[= <-] (c & Hc & Es & _)]. destruct Hst as [(k' & Hk')|(c' & Hc' & Ns)]; [|congruence].
    assert (busy (fstep cf s fe).1 = <[k := InStartCluster n]> (busy s)) as Eb by (rewrite E; done).
    assert (k = k') as ->; [|congruence]. apply (LInv_inj cf (fstep cf s fe).1 k k' (InStartCluster n) (InStartCluster n) HL'); [rewrite Eb; apply lookup_insert| |done].
    rewrite Eb. destruct (decide (k = k')) as [->|Hne]; [apply lookup_insert|]. rewrite lookup_insert_ne; done.
  - destruct Hst as [(k & Hk)|(c & Hc & Ns)].
    + assert ((exists o now lt fs, fe = FE (EBackend k o now) lt fs) \/ forall o now lt fs, fe <> FE (EBackend k o now) lt fs) as [(o & now & lt & fs & ->)|Hne].
      { destruct fe as [[] lt fs|]; try (right; intros; discriminate). destruct (decide (k0 = k)) as [->|Hne]; [left; eauto 10|right; congruence]. }
      * destruct (LInv_bstart cf s n HL) as [c Hc]; [exists k; done|]. cbn [fstep].
        destruct (fresume_start cf k n o now lt fs s c Hk Hc) as [H|[H|H]]; [left; left; exists k; done|right; done|left; right; done].
      * left. left. exists k. apply fstep_keep; done.
    + left. right. destruct (HE n c Hc) as (c' & Hc' & []). exists c'. split; [done|]. intros E. apply Ns. rewrite E in e_status.
      destruct (c_status c); simpl in e_status; (done || lia).
Qed.
Lemma fstart_begins cf s fe n : fcrash fe = false -> LInv cf s -> FObs (OStartC n) ∈ (fstep cf s fe).2 ->
  (fstep cf s fe).2 = [FObs (OStartC n)] /\ started (fstep cf s fe).1 n.
Proof.
  intros Hcr HL Hin. destruct (fstep_busy cf s fe Hcr HL) as [[_ Hq]|(k & p & ob & q' & Hk & E & Hb)]; [specialize (Hq _ Hin); done|].
  rewrite E in *. simpl in *. apply elem_of_list_singleton in Hin. injection Hin as <-. split; [done|].
  destruct p; simpl in Hb; [..|by destruct Hb as (? & _ & [=])].
  2:{ destruct Hb as (? & _ & _ & [=]). } 2:{ destruct Hb as [[=] _]. }
  destruct Hb as [[= <-] _]. left. exists k. simpl. apply lookup_insert.
Qed.
Lemma leads_started cf s h s' n : fone_life h -> LInv cf s -> started s n -> fleads cf s h s' ->
  forall l2 l3, fseen h = l2 ++ FObs (OStartC n) :: l3 -> FRetry (n, None) ∈ l2.
Proof.
  intros Hol HL Hst Hx. induction Hx as [s|s fe o s1 h s2 Hs Hx IH]; intros l2 l3 E; [by destruct l2|]. rewrite fseen_cons in E.
  assert (fcrash fe = false) as Hcr by (apply (Hol fe o); by left). destruct (fstep_started cf s fe n Hcr HL Hst) as [H1 H2].
  destruct (fstep_loose cf fe s Hcr HL) as [HL1 _]. rewrite Hs in H1, H2, HL1. simpl in *.
  apply app_eq_app in E as (l & [[E1 E2]|[E1 E2]]).
  - (* the start lies in o *) destruct l as [|y l]; simpl in E2.
    + rewrite app_nil_r in E1. subst l2. destruct H2 as [H2|H2]; [|done]. exfalso.
      assert (FRetry (n, None) ∈ ([] : list fobs)) as H; [|inversion H]. eapply (IH ltac:(intros fe' o' Hin; apply (Hol fe' o'); by right) HL1 H2). symmetry. exact E2.
    + injection E2 as <- _. exfalso. apply H1. rewrite E1. apply elem_of_app. right. by left.
  - rewrite E1. apply elem_of_app. destruct H2 as [H2|H2]; [|by left]. right.
    eapply (IH ltac:(intros fe' o' Hin; apply (Hol fe' o'); by right) HL1 H2). exact E2.
Qed.
Lemma start_again cf h1 h2 s1 s2 n l1 l2 l3 : life_ok cf h1 -> freach cf h1 s1 -> fone_life h2 -> fleads cf s1 h2 s2 ->
  fseen h2 = l1 ++ FObs (OStartC n) :: l2 ++ FObs (OStartC n) :: l3 -> FRetry (n, None) ∈ l2.
Proof.
  intros Hok Hr Hol Hl. destruct (life_mode cf h1 Hok) as (many & Ha & Hf). destruct (Mode_reach cf many h1 s1 Ha Hf Hr) as [HL _]. clear Hok Hr Ha Hf.
  revert l1. induction Hl as [s|s fe o s1 h s2 Hs Hx IH]; intros l1 E; [by destruct l1|]. rewrite fseen_cons in E.
  assert (fcrash fe = false) as Hcr by (apply (Hol fe o); by left). destruct (fstep_loose cf fe s Hcr HL) as [HL1 _].
  pose proof (fstart_begins cf s fe n Hcr HL) as HB. rewrite Hs in HL1, HB. simpl in *.
  assert (fone_life h) as Hol' by (intros fe' o' Hin; apply (Hol fe' o'); by right).
  apply app_eq_app in E as (l & [[E1 E2]|[E1 E2]]).
  - destruct l as [|y l]; simpl in E2; [apply (IH Hol' HL1 [] (eq_sym E2))|]. injection E2 as <- E2.
    destruct HB as [HB1 HB2]; [rewrite E1; apply elem_of_app; right; by left|]. rewrite HB1 in E1.
    assert (l = []) as -> by (destruct l1 as [|? l1]; simpl in E1; [injection E1 as ->; done|injection E1 as _ E1; by destruct l1]).
    simpl in E2. eapply (leads_started cf s1 h s2 n Hol' HL1 HB2 Hx). symmetry. exact E2.
  - apply (IH Hol' HL1 l E2).
Qed.

(** * C134 *)
Definition stop_seen (n : nat) (l : list fobs) : Prop := exists l1 st l2, l = l1 ++ FObs (OStopC n st) :: l2 /\ FObs (OStartC n) ∉ l2.
Lemma stop_seen_app n l o : stop_seen n l -> FObs (OStartC n) ∉ o -> stop_seen n (l ++ o).
Proof. intros (l1 & st & l2 & -> & H) Ho. exists l1, st, (l2 ++ o). split; [rewrite <- app_assoc; done|]. intros [?|?]%elem_of_app; done. Qed.
Lemma LInv_bstop cf s n : LInv cf s -> stopping_c s n -> exists c, objs s !! n = Some c /\ c_status c = CLOSING.
Proof.
  intros (g & HN & HI) (k & Hk). pose proof (N_rest _ _ HN) as (_ & _ & _ & _ & _ & _ & _ & _ & Eb & _). rewrite <- Eb in Hk.
  destruct (g_pcs _ _ _ _ HI _ _ Hk) as (c & Hc & _). simpl in Hc. destruct (b_stop _ _ _ _ _ _ (g_cok _ _ _ _ HI _ _ Hc)) as [Es _]; [exists k; done|].
  destruct (N_obj _ _ _ _ HN Hc) as (d & Hd & E). apply norm_inv in E as (_ & E & _). exists d. split; [done|]. unfold c_status in *. rewrite E. done.
Qed.
Lemma cluster_stop_seen cf h s n c : life_ok cf h -> freach cf h s -> objs s !! n = Some c -> finished (c_status c) -> stop_seen n (fseen h).
Proof.
  intros (many & Ha & Hf)%life_mode Hr Hc Hfin. apply fin_iff in Hfin.
  assert (forall n, (exists c, objs s !! n = Some c /\ is_fin (c_status c) = true) \/ stopping_c s n -> stop_seen n (fseen h)) as HS; [|apply HS; eauto].
  clear Hc Hfin n c. revert Ha. unfold freach in Hr. pattern h, s. revert h s Hr. apply exec_ind_r.
  - intros _ n [(c & Hc & _)|(k & Hk)]; simpl in *; rewrite lookup_empty in *; done.
  - intros h s fe o s' Hr IH Hs [Ha1 Ha2]%alloweds_app n Hn. specialize (IH Ha1). rewrite fseen_app. unfold fseen at 2. simpl. rewrite app_nil_r.
    assert (allowed many fe) as Hal by (apply (Ha2 fe o); by left). destruct (Mode_reach cf many h s Ha1 Hf Hr) as [HL HM].
    destruct (fcrash fe) eqn:Hcr.
    + destruct many; [|simpl in Hal; congruence]. destruct (HM eq_refl) as (fc & fw & Hid & Hy & _).
      destruct fe as [[] lt fs|]; try discriminate Hcr. cbn [fstep step plain fst snd] in Hs. injection Hs as <- <-. simpl. rewrite app_nil_r.
      destruct Hn as [(c & Hc & Hfin)|(k & Hk)].
      * pose proof (restart_objs cf fc fw now s n Hy) as H. rewrite Hc in H. destruct H as (c0 & _ & Hc0 & []). apply IH. left. exists c0. split; [done|].
        unfold c_status in *. congruence.
      * rewrite restart_eq, busy_puts in Hk. simpl in Hk. rewrite lookup_empty in Hk. done.
    + pose proof (fstep_fin cf s fe Hcr HL) as HF. pose proof (fstep_busy cf s fe Hcr HL) as HB. rewrite Hs in HF, HB. simpl in *.
      assert ((exists c, objs s !! n = Some c /\ is_fin (c_status c) = true) \/ stopping_c s n \/ exists st, o = [FObs (OStopC n st)]) as Hold.
      { destruct Hn as [(c & Hc & Hfin)|(k & Hk)]; [destruct (HF n c Hc Hfin); auto|].
        destruct HB as [[HB _]|(k' & p & ob & q' & Hk' & E & Hb)]; [right; left; exists k; auto|].
        injection E as -> ->. simpl in Hk. destruct (decide (k = k')) as [->|Hne].
        - rewrite lookup_insert in Hk. injection Hk as ->. simpl in Hb. destruct Hb as (c & _ & _ & ->). eauto.
        - rewrite lookup_insert_ne in Hk by done. right. left. exists k. done. }
      assert (FObs (OStartC n) ∉ o) as Hns.
      { intros Hin. destruct HB as [[_ HB]|(k' & p & ob & q' & Hk' & E & Hb)]; [specialize (HB _ Hin); done|]. injection E as _ ->.
        apply elem_of_list_singleton in Hin. injection Hin as <-. destruct p; simpl in Hb; [..|by destruct Hb as (? & _ & [=])].
        2:{ destruct Hb as (? & _ & _ & [=]). } 2:{ destruct Hb as [[=] _]. }
        destruct Hb as [[= <-] (c & Hc & Es & _)]. destruct Hold as [(d & Hd & Hfd)|[Hst|(st & [=])]].
        - assert (d = c) as -> by congruence. rewrite Es in Hfd. done.
        - destruct (LInv_bstop cf s n HL Hst) as (d & Hd & Ed). congruence. }
      destruct Hold as [H|[H|(st & ->)]]; [apply stop_seen_app; auto..|]. exists (fseen h), st, []. split; [done|]. intros H. inversion H.
Qed.

(** * C135 *)
Lemma fcreated_max cf h s u i m t lt fs n c : life_ok cf h -> freach cf h s -> (FE (EStart u i m t) lt fs, [FObs (OCreated n)]) ∈ h -> objs s !! n = Some c ->
  r_max (c_row c) = m /\ r_user (c_row c) = u /\ r_info (c_row c) = i /\ r_start (c_row c) = t.
Proof.
  intros Hok Hr (ha & hb & ->)%elem_of_list_split Hc. apply freach_app in Hr as (s1 & Hr1 & Hl).
  inversion Hl as [|? ? ? s1' ? ? Hs Hl']; subst.
  assert (life_ok cf ((ha ++ [(FE (EStart u i m t) lt fs, [FObs (OCreated n)])]) ++ hb)) as Hok' by (rewrite <- app_assoc; done).
  assert (freach cf (ha ++ [(FE (EStart u i m t) lt fs, [FObs (OCreated n)])]) s1') as Hr2 by (apply freach_app; exists s1; split; [done|econstructor; [done|constructor]]).
  destruct (two_moments cf _ hb s1' s Hok' Hr2 Hl') as (many & _ & _ & _ & _ & HL).
  cbn [fstep] in Hs. unfold fstart_cluster in Hs.
  assert (exists d, objs s1' !! n = Some d /\ r_max (c_row d) = m /\ r_user (c_row d) = u /\ r_info (c_row d) = i /\ r_start (c_row d) = t) as (d & Hd & E1 & E2 & E3 & E4).
  { destruct fs as [|[] fs]; simpl in Hs; try discriminate Hs; injection Hs as <- Hn; subst n; simpl; rewrite lookup_insert; eexists; (split; [reflexivity|]); done. }
  destruct (HL n d c Hd Hc). repeat split; congruence.
Qed.
Lemma fworker_cap cf h s u i m t lt fs n c : life_ok cf h -> freach cf h s -> (FE (EStart u i (Some m) t) lt fs, [FObs (OCreated n)]) ∈ h -> 0 <= m -> objs s !! n = Some c ->
  Z.of_nat (length (List.filter wanted (c_workers c))) <= m /\ r_count (c_row c) <= m.
Proof.
  intros Hok Hr Hin Hm Hc. destruct (fcreated_max cf h s u i (Some m) t lt fs n c Hok Hr Hin Hc) as (E & _).
  destruct (life_mode cf h Hok) as (many & Ha & Hf). pose proof (Mode_reach cf many h s Ha Hf Hr) as HM.
  destruct (Mode_cok cf many s n c HM Hc) as (g & d & _ & _ & _ & Er & Ew & Hk & _). destruct Hk. rewrite Er in *. specialize (k_cap m E). destruct k_row. specialize (ro_count m E).
  rewrite filter_wanted. unfold active_workers in k_cap. rewrite Ew in k_cap. lia.
Qed.

(** * C136, C137 *)
Lemma kept_sync cf h s : fresh_ids cf -> only kept h -> freach cf h s -> exists fc fw, idf cf fc fw /\ Sync fc fw s /\ LInv cf s.
Proof.
  intros Hid Hk Hr. destruct (Mode_reach cf true h s) as [HL HM]; auto.
  - intros fe o Hin Hf. by apply (Hk fe o RolledBack Hin Hf).
  - destruct (HM eq_refl) as (fc & fw & ? & ? & _). eauto.
Qed.
Lemma sync_memory fc fw s : Sync fc fw s ->
  (forall id r, db_c s !! id = Some r <-> exists n c, lookup_cluster n s = Some c /\ c_id c = id /\ c_row c = r) /\
  (forall wid cid x, db_w s !! wid = Some (cid, x) <->
     exists n c, lookup_cluster n s = Some c /\ c_id c = cid /\ x ∈ c_workers c /\ w_id x = wid).
Proof.
  intros Hy. assert (forall n c, n ∈ by_name s -> objs s !! n = Some c -> lookup_cluster n s = Some c) as Hl by (intros; unfold lookup_cluster; rewrite decide_True; done).
  split.
  - intros id r. split.
    + intros H. destruct (y_db _ _ _ Hy id r H) as (n & c & Hn & Hc & <-). exists n, c. split; [auto|]. split; [done|].
      rewrite (y_row _ _ _ Hy n c Hn Hc) in H. congruence.
    + intros (n & c & Hc & <- & <-). apply lookup_obj in Hc as [Hc Hn]. apply (y_row _ _ _ Hy n c); done.
  - intros wid cid x. split.
    + intros H. destruct (y_wdb _ _ _ Hy wid _ H) as (n & c & Hn & Hc & E). simpl in E. subst cid. exists n, c. split; [auto|]. split; [done|].
      apply (y_wk _ _ _ Hy n c); done.
    + intros (n & c & Hc & <- & Hx). apply lookup_obj in Hc as [Hc Hn]. apply (y_wk _ _ _ Hy n c); done.
Qed.
Lemma fmemory cf h s : fresh_ids cf -> only kept h -> freach cf h s ->
  (forall id r, db_c s !! id = Some r <-> exists n c, lookup_cluster n s = Some c /\ c_id c = id /\ c_row c = r) /\
  (forall wid cid x, db_w s !! wid = Some (cid, x) <->
     exists n c, lookup_cluster n s = Some c /\ c_id c = cid /\ x ∈ c_workers c /\ w_id x = wid).
Proof. intros Hid Hk Hr. destruct (kept_sync cf h s Hid Hk Hr) as (fc & fw & _ & Hy & _). eapply sync_memory; eauto. Qed.
Lemma frestart_keeps cf h s now lt fs : fresh_ids cf -> only kept h -> freach cf h s -> let s' := (fstep cf s (FE (ERestart now) lt fs)).1 in
  (forall n, match lookup_cluster n s, lookup_cluster n s' with
             | Some c, Some c' => same_record c c' | None, None => True | _, _ => False end) /\
  indexes_agree s' /\ db_c s' = db_c s /\ db_w s' = db_w s /\ busy s' = ∅ /\ routes s' = ∅.
Proof.
  intros Hid Hk Hr. cbn [fstep step plain fst]. set (s' := restart cf now s). destruct (kept_sync cf h s Hid Hk Hr) as (fc & fw & Hidf & Hy & HL).
  split; [|split; [|split; [|split; [|split]]]].
  - intros n. unfold lookup_cluster. pose proof (restart_names cf fc fw now s n Hy) as Hn. fold s' in Hn.
    pose proof (restart_objs cf fc fw now s n Hy) as Ho. fold s' in Ho. destruct (objs s' !! n) as [d|].
    + destruct Ho as (c & Hin & Hc & []). rewrite decide_True by done. rewrite Hc. rewrite decide_True by (apply Hn; done). done.
    + rewrite decide_False by done. by case_decide.
  - apply (sync_agree fc fw). apply restart_sync; done.
  - destruct (same_data_puts (restart_items (restart0 cf now s)) (restart0 cf now s)) as (_ & _ & _ & _ & E5 & E6 & _). unfold s'. rewrite restart_eq, E5. done.
  - destruct (same_data_puts (restart_items (restart0 cf now s)) (restart0 cf now s)) as (_ & _ & _ & _ & E5 & E6 & _). unfold s'. rewrite restart_eq, E6. done.
  - unfold s'. rewrite restart_eq, busy_puts. done.
  - unfold s'. rewrite restart_eq. apply qputs_objs.
Qed.
Lemma row_expired cf now r : row_ok r -> ended_before (now - max_age cf) r <-> expired cf now r.
Proof.
  intros []. unfold ended_before, expired. split; [tauto|]. intros (t & Ht & Hlt). split; [|eauto]. apply fin_iff, ro_stop. rewrite Ht. eauto.
Qed.
Lemma fpurge cf h s now lt fs s' o : fresh_ids cf -> only kept h -> freach cf h s -> down s = None -> RolledBack ∉ fs ->
  fstep cf s (FE (ECleanup now) lt fs) = (s', o) ->
  (s' = s /\ o = [FLogged]) \/
  ((forall n c, lookup_cluster n s' = Some c <-> lookup_cluster n s = Some c /\ ~ ended_before (now - max_age cf) (c_row c)) /\
   (forall id r, db_c s' !! id = Some r <-> db_c s !! id = Some r /\ ~ ended_before (now - max_age cf) r) /\
   (forall wid cid x, db_w s' !! wid = Some (cid, x) <-> db_w s !! wid = Some (cid, x) /\ exists r, db_c s' !! cid = Some r) /\
   indexes_agree s' /\ (fs = [] -> o = [])).
Proof.
  intros Hid Hk Hr Hd Hf Hs. destruct (kept_sync cf h s Hid Hk Hr) as (fc & fw & Hidf & Hy & HL). cbn [fstep] in Hs. rewrite Hd in Hs.
  rewrite (fcleanup_eq cf fc fw now fs s Hy) in Hs.
  assert ((s' = s /\ o = [FLogged]) \/ (s' = cleanup_expired cf now s /\ (fs = [] -> o = []))) as [H|[-> Ho]]; [|left; done|right].
  { destruct fs as [|[] fs]; simpl in Hs; injection Hs as <- <-.
    - right. done.
    - right. split; [done|]. intros [=].
    - left. done.
    - exfalso. apply Hf. by left.
    - right. split; [done|]. intros [=]. }
  destruct (purge_spec cf fc fw s now Hy) as [P1 P2 P3 P4 P5 P6 P7 P8 P9].
  pose proof (fun n c Hc => row_expired cf now _ (LInv_row cf s n c HL Hc)) as Hex.
  assert (forall id r, db_c s !! id = Some r -> ended_before (now - max_age cf) r <-> expired cf now r) as He.
  { intros id r H. destruct (y_db _ _ _ Hy id r H) as (n & c & Hn & Hc & <-). rewrite (y_row _ _ _ Hy n c Hn Hc) in H. injection H as <-. eauto. }
  split; [|split; [|split; [|split; [|done]]]].
  - intros n c. unfold lookup_cluster. rewrite P2. split.
    + case_decide as Hn; [|done]. intros Hc. apply P6 in Hn as [Hn Hx]. rewrite decide_True by done. split; [done|]. rewrite (Hex n c Hc). eauto.
    + case_decide as Hn; [|intros [[=] _]]. intros [Hc Hx]. rewrite decide_True; [done|]. apply P6. split; [done|]. intros d Hdd.
      assert (d = c) as -> by congruence. rewrite <- (Hex n c Hc). done.
  - intros id r. rewrite P8. split; intros [H1 H2]; (split; [done|]); [rewrite (He id r H1)|rewrite <- (He id r H1)]; done.
  - intros wid cid x. rewrite P9. simpl. split; intros [H1 (r & H2)]; (split; [done|]); exists r; [apply P8|apply P8 in H2]; done.
  - apply (sync_agree fc fw). apply (prim_purge_sync cf fc fw); done.
Qed.

(** A row that has expired and whose cluster is not in the index. *)
Lemma forget_id m s id : by_id s !! id = None -> by_id (forget m s) !! id = None.
Proof. intros H. unfold forget. destruct (objs s !! m); [|done]. simpl. apply lookup_delete_None. auto. Qed.
Lemma pop_ids_fails ids s id : id ∈ ids -> by_id s !! id = None -> (pop_ids ids s).2 = false.
Proof.
  revert s. induction ids as [|i ids IH]; intros s Hin Hn; [inversion Hin|]. simpl. destruct (by_id s !! i) as [m|] eqn:E; [|done].
  apply elem_of_cons in Hin as [->|Hin]; [congruence|]. apply IH; [done|]. apply forget_id. done.
Qed.
Lemma purge_stuck cf id r now fs s : db_c s !! id = Some r -> is_expired (now - max_age cf) r = true -> by_id s !! id = None ->
  exists s', fcleanup cf now fs s = (s', [FLogged]) /\ db_c s' = db_c s /\ db_w s' = db_w s.
Proof.
  intros Hr Hx Hn. unfold fcleanup. set (s2 := set_db_w _ _). set (ids := map fst _).
  assert (id ∈ ids) as Hin.
  { unfold ids. apply elem_of_list_fmap. exists (id, r). split; [done|]. apply elem_of_map_to_list, map_filter_lookup_Some. done. }
  pose proof (pop_ids_fails ids s2 id Hin Hn) as H. destruct (pop_ids ids s2) as [s3 b]. simpl in H. subst b.
  destruct fs as [|[] fs]; eexists; (split; [reflexivity|]); done.
Qed.

(** * C138 *)
(** [x] is in line, or will be at a time not later than [lt] and the longest delay. *)
Definition due (lt : Z) (x : item) (s : gw) : Prop :=
  x ∈ dirty (q s) \/ exists t, timers (q s) !! x = Some t /\ t <= lt + max_delay (q s).
Lemma task_done_fields (x : item) qq : timers (task_done x qq) = timers qq /\ dirty (task_done x qq) = dirty qq /\ max_delay (task_done x qq) = max_delay qq.
Proof.
  unfold task_done. case_decide; [|done].
  match goal with |- context [wakeup_next ?z] => destruct (wakeup_next_fields z) as (_ & Em & _ & _ & _ & Ed & Et & _) end. rewrite Em, Ed, Et. done.
Qed.
Lemma settle_retry lt x r y : FRetry y ∈ (settle lt x r).2 -> due lt y (settle lt x r).1.
Proof.
  destruct r as [[s1 fs1] []]; simpl; [intros H; inversion H|]. intros H. apply elem_of_list_singleton in H. injection H as ->. unfold due. simpl.
  destruct (task_done_fields x (put_backoff lt x (q s1))) as (-> & -> & ->).
  unfold put_backoff, backoff. set (d := backoff_delay _ _ _). set (q1 := set_failures _ (q s1)).
  assert (d <= max_delay q1) as Hd by (unfold d, backoff_delay, q1; simpl; lia).
  unfold put_after.
  destruct (timers q1 !! x) as [w|] eqn:Hw; [destruct (lt + d <? w) eqn:Hlt|]; cbv zeta.
  - destruct (0 <? d) eqn:H0.
    + right. exists (lt + d). simpl. rewrite lookup_insert. split; [done|]. unfold q1 in Hd. simpl in Hd. lia.
    + left. rewrite (proj1 (proj2 (proj2 (put_core x _)))). set_solver.
  - right. exists w. split; [done|]. apply Z.ltb_ge in Hlt. lia.
  - destruct (0 <? d) eqn:H0.
    + right. exists (lt + d). simpl. rewrite lookup_insert. split; [done|]. unfold q1 in Hd. simpl in Hd. lia.
    + left. rewrite (proj1 (proj2 (proj2 (put_core x _)))). set_solver.
Qed.
Lemma no_retry_logged r x : FRetry x ∉ (logged r).2.
Proof. destruct r as [[s1 fs1] []]; simpl; intros H; [inversion H|]. apply elem_of_list_singleton in H. done. Qed.
Lemma no_retry_answer r x : FRetry x ∉ (answer r).2.
Proof. destruct r as [[s1 fs1] []]; simpl; intros H; [inversion H|]. apply elem_of_list_singleton in H. done. Qed.
Lemma no_retry_nil x : FRetry x ∉ ([] : list fobs). Proof. intros H. inversion H. Qed.
Lemma no_retry_one x o : FRetry x ∈ [FObs o] -> False. Proof. intros H. apply elem_of_list_singleton in H. done. Qed.
Ltac quiet_retry H := exfalso; first [exact (no_retry_nil _ H) | exact (no_retry_logged _ _ H) | exact (no_retry_answer _ _ H) | exact (no_retry_one _ _ H)].
Lemma reconcile_retry cf k x0 now lt fs s x : FRetry x ∈ (freconcile cf k x0 now lt fs s).2 -> due lt x (freconcile cf k x0 now lt fs s).1.
Proof.
  unfold freconcile. destruct x0 as [n [w|]]; cbn [fst snd].
  - unfold freconcile_worker. destruct (get_worker n w s) as [wk|]; [|intros H; quiet_retry H].
    repeat match goal with |- context [if ?b then _ else _] => match b with decide (w_status wk = CLOSING) => fail 1 | is_ready _ _ _ => fail 1 | _ => destruct b end end;
      first [apply settle_retry | intros H; quiet_retry H].
  - unfold freconcile_cluster. destruct (objs s !! n) as [c|]; [|intros H; quiet_retry H].
    repeat match goal with |- context [if ?b then _ else _] => destruct b end;
      first [apply settle_retry | intros H; quiet_retry H].
Qed.
Lemma got_retry cf k now lt fs s r x : FRetry x ∈ (fgot cf k now lt fs s r).2 -> due lt x (fgot cf k now lt fs s r).1.
Proof. destruct r as [q' [[k0 [x0| | |]]|]]; cbn [fgot]; [apply reconcile_retry|intros H; quiet_retry H..]. Qed.
Lemma resume_retry cf k o now lt fs s x : FRetry x ∈ (fresume cf k o now lt fs s).2 -> due lt x (fresume cf k o now lt fs s).1.
Proof.
  unfold fresume. destruct (busy s !! k) as [[n|n|n w|n w]|]; [..|intros H; quiet_retry H]; destruct o;
    first [apply settle_retry | intros H; quiet_retry H | idtac];
    (destruct (call _ s fs) as [[s1 fs1] []]; [intros H; quiet_retry H|]; cbn [fst snd];
     intros H; apply elem_of_cons in H as [H|H]; [discriminate H|apply settle_retry; exact H]).
Qed.
Lemma fretried cf s e lt fs s' o x : fstep cf s (FE e lt fs) = (s', o) -> FRetry x ∈ o -> due lt x s'.
Proof.
  intros Hs Hin. enough (FRetry x ∈ (fstep cf s (FE e lt fs)).2 -> due lt x (fstep cf s (FE e lt fs)).1) as H by (rewrite Hs in H; exact (H Hin)).
  clear s' o Hs Hin. destruct e; cbn [fstep].
  - unfold fstart_cluster. destruct (call _ s fs) as [[s1 fs1] []]; intros H; [quiet_retry H|]. apply elem_of_list_singleton in H. discriminate H.
  - unfold fstop_cluster. destruct (lookup_cluster n s); [|intros H; quiet_retry H]. destruct (jge _ _); intros H; quiet_retry H.
  - unfold fheartbeat. destruct (lookup_cluster n s); [|intros H; quiet_retry H]. destruct (jlt _ _); [intros H; quiet_retry H|].
    destruct (classify m (c_workers c)); intros H; quiet_retry H.
  - destruct (down s); [intros H; quiet_retry H|]. unfold fcheck_timeouts. destruct (find_late _ _ _) as [[cs ws]|]; intros H; quiet_retry H.
  - intros H. exfalso. apply elem_of_list_fmap in H as (? & [=] & _).
  - destruct oks; [|intros H; exfalso; apply elem_of_list_fmap in H as (? & [=] & _)]. unfold fcheck_clusters_end. destruct (chk_c s); intros H; quiet_retry H.
  - intros H. exfalso. apply elem_of_list_fmap in H as (? & [=] & _).
  - destruct oks; [|intros H; exfalso; apply elem_of_list_fmap in H as (? & [=] & _)]. unfold fcheck_workers_end. destruct (chk_w s); intros H; quiet_retry H.
  - destruct (down s); [intros H; quiet_retry H|]. intros H. destruct (fcleanup_objs cf now fs s) as (_ & _ & _ & E). specialize (E _ H). discriminate E.
  - destruct (decide _); [|intros H; quiet_retry H]. destruct (busy s !! k); [intros H; quiet_retry H|]. destruct (tasks (q s) !! k); [intros H; quiet_retry H|]. apply got_retry.
  - apply got_retry.
  - apply resume_retry.
  - intros H. exfalso. apply elem_of_list_fmap in H as (? & [=] & _).
  - destruct (down s); [intros H; quiet_retry H|]. unfold fshutdown. destruct (stop_on_shutdown cf); [|intros H; quiet_retry H].
    destruct (ffail_clusters _ _ _) as [[s1 fs1] []]; intros H; [quiet_retry H|]. apply elem_of_list_singleton in H. discriminate H.
  - intros H. exfalso. apply elem_of_list_fmap in H as (? & [=] & _).
Qed.
Lemma ftimer cf h s x t lt : life_ok cf h -> freach cf h s -> timers (q s) !! x = Some t -> t <= lt ->
  let s' := (fstep cf s (FTimer lt x)).1 in x ∈ queue (q s') \/ x ∈ processing (q s').
Proof.
  intros Hok Hr Ht Hle. destruct (life_mode cf h Hok) as (many & Ha & Hf). pose proof (Mode_reach cf many h s Ha Hf Hr) as HM.
  destruct (Mode_step cf many s (FTimer lt x)) as [[(g & HN & HI) _] _]; [destruct many; simpl; [set_solver|done]|done|].
  set (s' := (fstep cf s (FTimer lt x)).1) in *. cbv zeta. destruct (N_q _ _ HN) as (<- & <- & Ed & _).
  assert (x ∈ dirty (q g)) as Hd.
  { rewrite Ed. unfold s'. cbn [fstep fst]. unfold WorkQueue_Model.step. rewrite Ht. apply Z.leb_le in Hle. rewrite Hle. simpl. unfold put_delayed.
    rewrite (proj1 (proj2 (proj2 (put_core x _)))). set_solver. }
  destruct (decide (x ∈ processing (q g))); [by right|]. left. apply (qo_line _ (g_q _ _ _ _ HI)). done.
Qed.
(** * C139 *)
Lemma fflags cf h s n c : clean_ok cf h -> freach cf h s -> objs s !! n = Some c ->
  (c_ready c = true <-> c_status c <> CREATED /\ c_status c <> SUBMITTED) /\ (c_shutdown c = true <-> finished (c_status c)).
Proof.
  intros Hok Hr Hc. pose proof (g_cok _ _ _ _ (clean_inv cf h s Hok Hr) _ _ Hc) as []. rewrite k_ready, k_shut, fin_iff. split; [|done].
  destruct (c_status c); vm_compute; split; try done; intuition discriminate.
Qed.
