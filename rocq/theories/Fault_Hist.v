(** What holds after every history with failing database calls. *)
From Coq Require Import ZArith Lia.
From stdpp Require Import prelude gmap.
From Verif Require Import Trace WorkQueue_Model WorkQueue_Proofs Router_Model Gateway_Model Gateway_Spec Gateway_Inv Gateway_Steps Gateway_Steps2
  Gateway_Steps3 Gateway_Steps4 Gateway_Sync Gateway_Restart Gateway_Hist Fault_Model Fault_Spec Fault_Ok Fault_Good Fault_Steps Fault_Chain.
Open Scope Z_scope.

(** * The invariants *)
(** Up to delayed items and flags. *)
Definition LInv (cf : cfg) (s : gw) : Prop := exists g, N g = N s /\ Inv cf None ∅ g.
Lemma LInv_of cf s : Inv cf None ∅ s -> LInv cf s. Proof. intros H. exists s. done. Qed.
Lemma evolve_norm c d : norm c = norm d -> evolve c d.
Proof.
  intros (H1 & H2 & H3 & H4 & H5 & H6)%norm_inv. constructor; unfold c_name, c_status, c_target; rewrite ?H1, ?H2; auto.
  exists (c_workers d), []. rewrite app_nil_r, H6. split; [done|]. split; [|done]. apply Forall_Forall2_diag, Forall_forall. intros; apply wevolve_refl.
Qed.
Lemma Evolve_norm s g : N g = N s -> Evolve s g.
Proof. intros HN n c Hc. symmetry in HN. destruct (N_obj _ _ _ _ HN Hc) as (d & Hd & E). exists d. split; [done|]. apply evolve_norm. done. Qed.
Lemma LInv_row cf s n c : LInv cf s -> objs s !! n = Some c -> row_ok (c_row c).
Proof.
  intros (g & HN & HI) Hc. symmetry in HN. destruct (N_obj _ _ _ _ HN Hc) as (d & Hd & E). apply norm_inv in E as (_ & <- & _).
  apply (k_row _ _ _ _ _ _ (g_cok _ _ _ _ HI _ _ Hd)).
Qed.
Lemma Evolve_trans s s1 s2 : (forall n c, objs s !! n = Some c -> row_ok (c_row c)) -> Evolve s s1 -> Evolve s1 s2 -> Evolve s s2.
Proof.
  intros Hr H1 H2 n c Hc. destruct (H1 n c Hc) as (d & Hd & E1). destruct (H2 n d Hd) as (e & He & E2). exists e. split; [done|].
  eapply evolve_trans; eauto.
Qed.
Lemma Evolve_refl s : Evolve s s. Proof. intros n c Hc. exists c. split; [done|apply evolve_refl]. Qed.
Lemma fstep_loose cf fe s : fcrash fe = false -> LInv cf s -> LInv cf (fstep cf s fe).1 /\ Evolve s (fstep cf s fe).1.
Proof.
  intros Hr HL. pose proof (fun n c => LInv_row cf s n c HL) as Hrow. destruct HL as (g & HN & HI).
  destruct (fstep_ok cf false s Hrow fe s) as (g' & HN' & HI' & HE').
  - destruct fe as [[]|]; done.
  - done.
  - exists g. split; [done|]. split; [done|]. apply Evolve_norm. done.
  - split; [exists g'; done|]. eapply Evolve_trans; [done|exact HE'|]. apply Evolve_norm. done.
Qed.
Lemma fstep_strict cf fe s : fcrash fe = false -> (forall f, f ∈ faults fe -> clean f) -> Inv cf None ∅ s -> Inv cf None ∅ (fstep cf s fe).1.
Proof.
  intros Hr Hf HI. destruct (fstep_ok cf true s (fun n c => LInv_row cf s n c (LInv_of _ _ HI)) fe s) as [H _].
  - destruct fe as [[]|]; done.
  - intros _. apply Forall_forall. exact Hf.
  - split; [done|apply Evolve_refl].
  - done.
Qed.

(** * Sync *)
Section sync.
Context (cf : cfg) (fc fw : nat -> nat) (Hid : idf cf fc fw).
Notation Sync := (Sync fc fw).
Lemma Sync_norm s g : N g = N s -> Sync s -> Sync g.
Proof.
  intros HN Hy. pose proof (N_rest _ _ HN) as (E1 & E2 & E3 & E4 & E5 & E6 & E7 & E8 & _).
  assert (forall n c, objs g !! n = Some c -> exists d, objs s !! n = Some d /\ c_id d = c_id c /\ c_row d = c_row c /\ c_workers d = c_workers c) as F.
  { intros n c Hc. destruct (N_obj _ _ _ _ HN Hc) as (d & Hd & E). apply norm_inv in E as (? & ? & _ & _ & _ & ?). eauto. }
  assert (forall n c, objs s !! n = Some c -> exists d, objs g !! n = Some d /\ c_id d = c_id c /\ c_row d = c_row c /\ c_workers d = c_workers c) as B.
  { intros n c Hc. symmetry in HN. destruct (N_obj _ _ _ _ HN Hc) as (d & Hd & E). apply norm_inv in E as (? & ? & _ & _ & _ & ?). eauto. }
  destruct Hy as [[] ? ? ? ? ? ? ? ? ? ? ?]. constructor; [constructor|..]; rewrite ?E1, ?E2, ?E3, ?E4, ?E5, ?E6, ?E7, ?E8; auto.
  - intros n Hn. destruct (x_obj n Hn) as [c Hc]. destruct (B n c Hc) as (d & -> & _). eauto.
  - intros id n. rewrite x_id. split; intros (Hn & c & Hc & E); (split; [done|]).
    + destruct (B n c Hc) as (d & Hd & ? & _). exists d. split; [done|congruence].
    + destruct (F n c Hc) as (d & Hd & ? & _). exists d. split; [done|congruence].
  - intros u n. rewrite x_user. split; intros (Hn & c & Hc & E); (split; [done|]).
    + destruct (B n c Hc) as (d & Hd & _ & ? & _). exists d. split; [done|congruence].
    + destruct (F n c Hc) as (d & Hd & _ & ? & _). exists d. split; [done|congruence].
  - intros n c Hc. destruct (F n c Hc) as (d & Hd & _ & E & _). unfold c_name. rewrite <- E. apply y_name. done.
  - intros n c Hc. destruct (F n c Hc) as (d & Hd & _ & _ & E). unfold names. rewrite <- E. apply y_names with n. done.
  - intros n m c d Hc Hd E. destruct (F n c Hc) as (c' & Hc' & E1' & _). destruct (F m d Hd) as (d' & Hd' & E2' & _). eapply y_inj; eauto. congruence.
  - intros n c Hc. destruct (F n c Hc) as (d & Hd & E & _). rewrite <- E. eapply y_cids; eauto.
  - intros n c Hn Hc. destruct (F n c Hc) as (d & Hd & E & E' & _). rewrite <- E, <- E'. eapply y_row; eauto.
  - intros id r Hr. destruct (y_db id r Hr) as (n & c & Hn & Hc & E). destruct (B n c Hc) as (d & Hd & ? & _). exists n, d. split; [done|]. split; [done|congruence].
  - intros n c x Hc Hx. destruct (F n c Hc) as (d & Hd & _ & _ & E). rewrite <- E in Hx. eapply y_wids; eauto.
  - intros n m c d x y Hc Hd Hx Hyy. destruct (F n c Hc) as (c' & Hc' & _ & _ & E). destruct (F m d Hd) as (d' & Hd' & _ & _ & E').
    rewrite <- E in Hx. rewrite <- E' in Hyy. eapply y_winj; eauto.
  - intros n c wid x Hn Hc. destruct (F n c Hc) as (d & Hd & E & _ & E'). rewrite <- E, <- E'. eapply y_wk; eauto.
  - intros wid p Hp. destruct (y_wdb wid p Hp) as (n & c & Hn & Hc & E). destruct (B n c Hc) as (d & Hd & ? & _). exists n, d. split; [done|]. split; [done|congruence].
Qed.
Lemma restart_norm now s g : N g = N s -> restart cf now g = restart cf now s.
Proof. intros HN. pose proof (N_rest _ _ HN) as (E1 & E2 & E3 & E4 & E5 & E6 & E7 & E8 & _). unfold restart. rewrite E4, E5, E6, E7, E8. done. Qed.
Lemma frestart_inv now s : Sync s -> LInv cf s -> Inv cf None ∅ (restart cf now s).
Proof.
  intros Hy (g & HN & HI). rewrite <- (restart_norm now s g HN). apply (restart_inv cf fc fw); [|done]. eapply Sync_norm; eauto.
Qed.
Lemma frestart_out now s : Sync s -> Out (restart cf now s).
Proof.
  intros Hy n c Hc Hn. exfalso. apply Hn. apply (restart_names cf fc fw _ _ _ Hy).
  pose proof (restart_objs cf fc fw now s n Hy) as H. rewrite Hc in H. destruct H as (c0 & H & _). exact H.
Qed.

(** ** One event *)
Lemma R_closed s0 rel : closed_under cf s0 false rel (rtc (prim cf false) s0).
Proof.
  constructor.
  - intros n f s Hf _. apply R_row; done.
  - intros n w f s Hf. apply R_wk; done.
  - intros n g s Hg. apply R_attr; done.
  - intros. eapply rtc_r; [done|]. apply p_new.
  - intros n now s Hn Hs. eapply rtc_r; [done|]. apply p_neww. apply (prims_grow cf s0 s Hs). auto.
  - intros. apply R_setq; done.
  - intros. apply R_routes; done.
  - intros. apply R_chk_c; done.
  - intros. apply R_chk_w; done.
  - intros. apply R_down; done.
  - intros. apply R_release; done.
  - intros; done.
Qed.
End sync.

(** * One event, any kept predicate *)
Definition is_fcleanup (fe : fevent) : bool := match fe with FE (ECleanup _) _ _ => true | _ => false end.
(** An operation of the backend begins. *)
Definition opens (o : fobs) : bool :=
  match o with FObs (OStartC _) | FObs (OStopC _ _) | FObs (OStartW _ _) | FObs (OStopW _ _ _) => true | _ => false end.
Definition quiet (l : list fobs) : Prop := forall o, o ∈ l -> opens o = false.
Lemma quiet_nil : quiet []. Proof. intros o Ho. inversion Ho. Qed.
Lemma quiet_one o : opens o = false -> quiet [o].
Proof. intros H o' ->%elem_of_list_singleton. done. Qed.
Lemma quiet_cons o l : opens o = false -> quiet l -> quiet (o :: l).
Proof. intros H Hl o' [->|Ho]%elem_of_cons; auto. Qed.
Lemma quiet_settle lt x r : quiet (settle lt x r).2.
Proof. destruct r as [[s1 fs1] []]; simpl; [apply quiet_nil|apply quiet_one; done]. Qed.
Lemma quiet_logged r : quiet (logged r).2.
Proof. destruct r as [[s1 fs1] []]; simpl; [apply quiet_nil|apply quiet_one; done]. Qed.
Lemma quiet_answer r : quiet (answer r).2.
Proof. destruct r as [[s1 fs1] []]; simpl; [apply quiet_nil|apply quiet_one; done]. Qed.
Global Hint Resolve quiet_nil quiet_one quiet_settle quiet_logged quiet_answer : core.
Lemma quiet_resume cf k o now lt fs s : quiet (fresume cf k o now lt fs s).2.
Proof.
  unfold fresume. destruct (busy s !! k) as [[]|]; [..|apply quiet_nil]; destruct o; auto;
    destruct (call _ s fs) as [[s1 fs1] []]; cbn [snd]; try (apply quiet_one; done); (apply quiet_cons; [done|auto]).
Qed.
Definition opening (cf : cfg) (s : gw) (r : gw * list fobs) : Prop := exists k p ob q', busy s !! k = None /\
  r = (suspend k p (set_q q' s), [FObs ob]) /\ begun s p ob.
Lemma begun_q q' s p ob : begun (set_q q' s) p ob -> begun s p ob.
Proof. destruct p; done. Qed.
Lemma fgot_T cf k now lt fs s r junk rel T : closed_under cf s junk rel T ->
  busy s !! k = None -> (junk = false -> Out s) -> nrb junk fs -> T s ->
  let r := fgot cf k now lt fs s r in (T r.1 /\ quiet r.2) \/ opening cf s r.
Proof.
  intros HT Hk Ho Hf Hs. destruct r as [q' [[k0 [x| | |]]|]]; simpl; try (left; split; [apply (c_q _ _ _ _ _ HT); done|auto]; done).
  pose proof (c_q _ _ _ _ _ HT q' s Hs) as H1. unfold freconcile. destruct x as [n [w|]]; cbn [fst snd].
  - destruct (turn_worker cf s junk rel T HT k n w now lt fs (set_q q' s) Hf H1) as [[H [E|E]]|(p & ob & E & _ & Hb)].
    + left. split; [done|]. rewrite E. auto.
    + left. split; [done|]. rewrite E. auto.
    + right. exists k, p, ob, q'. split; [done|]. split; [done|]. eapply begun_q; eauto.
  - destruct (turn_cluster cf s junk rel T HT k n now lt fs (set_q q' s)) as [[H [E|E]]|(p & ob & E & _ & Hb)]; [|done|done|..].
    + intros c Hj Hc Hfin. destruct (decide (n ∈ by_name s)); [done|]. rewrite (Ho Hj n c Hc) in Hfin; done.
    + left. split; [done|]. rewrite E. auto.
    + left. split; [done|]. rewrite E. auto.
    + right. exists k, p, ob, q'. split; [done|]. split; [done|]. eapply begun_q; eauto.
Qed.
Lemma fstep_T cf s fe junk T : closed_under cf s junk (fun k => exists o now lt fs, fe = FE (EBackend k o now) lt fs) T ->
  (forall k p, busy s !! k = Some p -> tasks (q s) !! k = None) ->
  fcrash fe = false -> (is_fcleanup fe = false) -> (junk = false -> Out s) -> nrb junk (faults fe) -> T s ->
  (T (fstep cf s fe).1 /\ quiet (fstep cf s fe).2) \/ opening cf s (fstep cf s fe).
Proof.
  intros HT Htk Hr Hcl Ho Hf Hs. destruct fe as [e lt fs|lt x]; [|left; split; [cbn [fstep fst]; apply (c_q _ _ _ _ _ HT); done|auto]]. simpl in Hf.
  destruct e; try discriminate Hr; try discriminate Hcl; cbn [fstep fst].
  - left. split; [eapply T_start; eauto|]. unfold fstart_cluster. destruct (call _ s fs) as [[s1 fs1] []]; simpl; auto.
  - left. split; [eapply T_stop; eauto|]. unfold fstop_cluster. destruct (lookup_cluster n s); [|auto]. destruct (jge _ _); auto.
  - left. split; [eapply T_heartbeat; eauto|]. unfold fheartbeat. destruct (lookup_cluster n s); [|auto]. destruct (jlt _ _); [auto|]. destruct (classify _ _); [auto|]. apply quiet_one. done.
  - left. destruct (down s); [split; [done|auto]|]. split; [eapply T_check_timeouts; eauto|]. unfold fcheck_timeouts. destruct (find_late _ _ _) as [[]|]; [auto|]. apply quiet_one. done.
  - left. simpl. destruct (down s); [split; [done|auto]|]. destruct (chk_c s); (split; [|auto]); [done|]. apply (c_chkc _ _ _ _ _ HT). done.
  - left. destruct oks; [split; [eapply T_check_clusters; eauto|unfold fcheck_clusters_end; destruct (chk_c s); auto]|].
    split; [apply (c_chkc _ _ _ _ _ HT); done|apply quiet_nil].
  - left. simpl. destruct (down s); [split; [done|auto]|]. destruct (chk_w s); (split; [|auto]); [done|]. apply (c_chkw _ _ _ _ _ HT). done.
  - left. destruct oks; [split; [eapply T_check_workers; eauto|unfold fcheck_workers_end; destruct (chk_w s); auto]|].
    split; [apply (c_chkw _ _ _ _ _ HT); done|apply quiet_nil].
  - case_decide; [|left; split; [done|auto]]. destruct (busy s !! k) eqn:Hb; [left; split; [done|auto]|].
    destruct (tasks (q s) !! k) eqn:Ht; [left; split; [done|auto]|]. eapply fgot_T; eauto.
  - destruct (tasks (q s) !! k) as [t|] eqn:Hk.
    + eapply fgot_T; eauto. destruct (busy s !! k) eqn:Hb; [|done]. rewrite (Htk _ _ Hb) in Hk. done.
    + left. simpl. rewrite Hk. simpl. split; [apply (c_q _ _ _ _ _ HT); done|auto].
  - left. split; [|apply quiet_resume]. eapply T_resume; [exact HT|exists o, now, lt, fs; done| |done|done]. intros n Hb. exists k. done.
  - left. destruct (down s); [split; [done|auto]|]. split; [eapply T_shutdown; eauto|]. unfold fshutdown.
    destruct (stop_on_shutdown cf); [|auto]. destruct (ffail_clusters _ _ fs) as [[s1 fs1] []]; simpl; auto.
  - left. simpl. unfold close_queue. destruct (down s); [|split; [done|auto]]. destruct (forallb _ _); (split; [|auto]); [apply (c_q _ _ _ _ _ HT)|]; done.
Qed.
Lemma LInv_tasks cf s k p : LInv cf s -> busy s !! k = Some p -> tasks (q s) !! k = None.
Proof.
  intros (g & HN & HI) Hk. pose proof (N_rest _ _ HN) as (_ & _ & _ & _ & _ & _ & _ & _ & Eb & _). pose proof (N_q _ _ HN) as (_ & _ & _ & Et).
  rewrite <- Et. apply (g_tasks _ _ _ _ HI k p). congruence.
Qed.

(** The elementary facts. *)
Section facts.
Context (cf : cfg).
Lemma fin_closed s0 rel : closed_under cf s0 true rel (fun s => forall n c, objs s !! n = Some c -> is_fin (c_status c) = true ->
  (exists c0, objs s0 !! n = Some c0 /\ is_fin (c_status c0) = true) \/ stopping_c s0 n).
Proof.
  constructor; try (intros; simpl in *; eauto; done).
  - intros n f s _ Hf Hs m c Hc Hfin. unfold update_cluster in Hc. destruct (objs s !! n) as [c0|] eqn:Hn; [|eauto]. simpl in Hc.
    destruct (decide (m = n)) as [->|Hne]; [|rewrite lookup_alter_ne in Hc by done; eauto].
    rewrite lookup_alter, Hn in Hc. simpl in Hc. injection Hc as <-. unfold c_status in Hfin. simpl in Hfin.
    destruct (Hf _ Hfin) as [H|H]; [|auto]. eapply Hs; eauto.
  - intros n w f s _ Hs m c Hc Hfin. unfold update_worker in Hc. destruct (get_worker n w s); [|eauto]. simpl in Hc.
    destruct (decide (m = n)) as [->|Hne]; [|rewrite lookup_alter_ne in Hc by done; eauto].
    rewrite lookup_alter in Hc. destruct (objs s !! n) as [c0|] eqn:Hn; [|done]. simpl in Hc. injection Hc as <-. eapply Hs; [exact Hn|exact Hfin].
  - intros n g s Hg Hs m c Hc Hfin. simpl in Hc.
    destruct (decide (m = n)) as [->|Hne]; [|rewrite lookup_alter_ne in Hc by done; eauto].
    rewrite lookup_alter in Hc. destruct (objs s !! n) as [c0|] eqn:Hn; [|done]. simpl in Hc. injection Hc as <-.
    unfold c_status in *. rewrite (proj1 (proj2 (Hg c0))) in Hfin. eapply Hs; [exact Hn|exact Hfin].
  - intros user info mx now s Hs m c Hc Hfin. unfold create_cluster in Hc. simpl in Hc.
    apply lookup_insert_Some in Hc as [[<- <-]|[_ Hc]]; [done|eauto].
  - intros n now s _ Hs m c Hc Hfin. unfold create_worker in Hc. simpl in Hc.
    destruct (decide (m = n)) as [->|Hne]; [|rewrite lookup_alter_ne in Hc by done; eauto].
    rewrite lookup_alter in Hc. destruct (objs s !! n) as [c0|] eqn:Hn; [|done]. simpl in Hc. injection Hc as <-. eapply Hs; [exact Hn|exact Hfin].
Qed.
Lemma busy_closed s0 junk rel : closed_under cf s0 junk rel (fun s => forall j, ~ rel j -> busy s !! j = busy s0 !! j).
Proof.
  constructor; try (intros; simpl in *; eauto; done).
  - intros n f s _ _ Hs. unfold update_cluster. destruct (objs s !! n); done.
  - intros n w f s _ Hs. unfold update_worker. destruct (get_worker n w s); done.
  - intros k s Hk Hs j Hj. simpl. rewrite lookup_delete_ne; [auto|]. intros ->. done.
Qed.
Lemma sub_closed s0 junk rel : closed_under cf s0 junk rel (fun s => forall j p, busy s !! j = Some p -> busy s0 !! j = Some p).
Proof.
  constructor; try (intros; simpl in *; eauto; done).
  - intros n f s _ _ Hs. unfold update_cluster. destruct (objs s !! n); done.
  - intros n w f s _ Hs. unfold update_worker. destruct (get_worker n w s); done.
  - intros k s Hk Hs j p. simpl. intros [_ H]%lookup_delete_Some. auto.
Qed.
Lemma new_closed s0 junk rel : closed_under cf s0 junk rel (fun s => (uuid s0 <= uuid s)%nat /\
  forall n, is_Some (objs s !! n) -> is_Some (objs s0 !! n) \/ (uuid s0 <= n)%nat).
Proof.
  constructor; try (intros; simpl in *; eauto; done).
  - intros n f s _ _ [Hu Hs]. unfold update_cluster. destruct (objs s !! n); [|done]. split; [done|]. intros m. simpl. rewrite lookup_alter_is_Some. auto.
  - intros n w f s _ [Hu Hs]. unfold update_worker. destruct (get_worker n w s); [|done]. split; [done|]. intros m. simpl. rewrite lookup_alter_is_Some. auto.
  - intros n g s _ [Hu Hs]. split; [done|]. intros m. simpl. rewrite lookup_alter_is_Some. auto.
  - intros user info mx now s [Hu Hs]. unfold create_cluster. simpl. split; [lia|]. intros m. rewrite lookup_insert_is_Some. intros [<-|[_ Hm]]; [auto|auto].
  - intros n now s _ [Hu Hs]. unfold create_worker. simpl. split; [lia|]. intros m. rewrite lookup_alter_is_Some. auto.
Qed.

(** The purge with the database calls. *)
Lemma fcleanup_objs now fs s : objs (fcleanup cf now fs s).1 = objs s /\ busy (fcleanup cf now fs s).1 = busy s /\ uuid (fcleanup cf now fs s).1 = uuid s /\
  forall o, o ∈ (fcleanup cf now fs s).2 -> o = FLogged.
Proof.
  unfold fcleanup. set (s2 := set_db_w _ _). set (ids := map fst _). destruct (pop_ids ids s2) as [s3 b] eqn:E.
  destruct (pop_ids_objs _ _ _ _ E) as [H1 H2]. destruct H2 as (? & ? & ? & ? & ?).
  destruct b; destruct fs as [|[] fs]; simpl; repeat split; try done; intros o Ho; set_solver.
Qed.
End facts.

(** * The purge *)
Lemma omap_ext_in {A B} (f g : A -> option B) (l : list A) : (forall x, x ∈ l -> f x = g x) -> omap f l = omap g l.
Proof.
  induction l as [|x l IH]; intros H; [done|]. assert (omap f l = omap g l) as E by (apply IH; intros y Hy; apply H; by right).
  unfold omap in *. simpl. rewrite (H x) by (by left). rewrite E. done.
Qed.
Lemma pop_ids_all ids s : NoDup ids -> (forall id, id ∈ ids -> exists n c, by_id s !! id = Some n /\ objs s !! n = Some c /\ c_id c = id) ->
  pop_ids ids s = (fold_left (fun s n => forget n s) (omap (fun id => by_id s !! id) ids) s, true).
Proof.
  revert s. induction ids as [|id ids IH]; intros s Hnd H; [done|]. apply NoDup_cons in Hnd as [Hni Hnd].
  destruct (H id) as (n & c & H1 & H2 & H3); [by left|]. simpl. rewrite H1. simpl.
  assert (forall i, i ∈ ids -> by_id (forget n s) !! i = by_id s !! i) as Hsame.
  { intros i Hi. unfold forget. rewrite H2. simpl. rewrite lookup_delete_ne; [done|]. intros <-. rewrite H3 in Hi. done. }
  rewrite (IH (forget n s) Hnd).
  - f_equal. f_equal. apply omap_ext_in. done.
  - intros i Hi. destruct (H i) as (m & d & Hm & Hd & E); [by right|]. exists m, d. rewrite Hsame by done. destruct (forget_objs n s) as [-> _]. done.
Qed.
Lemma fcleanup_eq cf fc fw now fs s : Sync fc fw s ->
  fcleanup cf now fs s = logged (call (fun _ => cleanup_expired cf now s) s fs).
Proof.
  intros Hy. unfold fcleanup. set (s2 := set_db_w _ _). set (dead := filter _ (db_c s)).
  assert (pop_ids (map fst (map_to_list dead)) s2 = (cleanup_expired cf now s, true)) as ->; [|done].
  rewrite pop_ids_all; [done|apply NoDup_fst_map_to_list|].
  intros id (r & Hr)%elem_of_list_fmap. destruct Hr as [-> Hr]. destruct r as [id r]. apply elem_of_map_to_list in Hr.
  apply map_filter_lookup_Some in Hr as [Hr _]. destruct (purge_indexes fc fw s id r Hy Hr) as (n & c & H1 & _ & H2 & H3 & _). exists n, c. done.
Qed.
Lemma fcleanup_cases cf fc fw now fs s : Sync fc fw s -> RolledBack ∉ fs ->
  (fcleanup cf now fs s).1 = s \/ (fcleanup cf now fs s).1 = cleanup_expired cf now s.
Proof.
  intros Hy Hf. rewrite (fcleanup_eq cf fc fw now fs s Hy). destruct fs as [|[] fs]; simpl; auto. exfalso. apply Hf. by left.
Qed.

(** * One event *)
Section events.
Context (cf : cfg) (s : gw) (fe : fevent).
Context (Hcr : fcrash fe = false) (HL : LInv cf s).
Lemma fstep_fin n c : objs (fstep cf s fe).1 !! n = Some c -> is_fin (c_status c) = true ->
  (exists c0, objs s !! n = Some c0 /\ is_fin (c_status c0) = true) \/ stopping_c s n.
Proof.
  intros Hc Hfin. destruct (is_fcleanup fe) eqn:Hcl.
  - destruct fe as [[] lt fs|]; try discriminate Hcl. simpl in Hc. destruct (down s); [eauto|].
    destruct (fcleanup_objs cf now fs s) as [E _]. rewrite E in Hc. eauto.
  - destruct (fstep_T cf s fe true _ (fin_closed cf s _)) as [[H _]|(k & p & ob & q' & Hk & E & Hb)].
    + intros. eapply LInv_tasks; eauto.
    + done.
    + done.
    + done.
    + by left.
    + intros m d Hd Hf. eauto.
    + eapply H; eauto.
    + rewrite E in Hc. left. exists c. done.
Qed.
Lemma fstep_new : (uuid s <= uuid (fstep cf s fe).1)%nat /\
  forall n, is_Some (objs (fstep cf s fe).1 !! n) -> is_Some (objs s !! n) \/ (uuid s <= n)%nat.
Proof.
  destruct (is_fcleanup fe) eqn:Hcl.
  - destruct fe as [[] lt fs|]; try discriminate Hcl. simpl. destruct (down s); [auto|].
    destruct (fcleanup_objs cf now fs s) as (E & _ & E' & _). rewrite E, E'. auto.
  - destruct (fstep_T cf s fe true _ (new_closed cf s true _)) as [[H _]|(k & p & ob & q' & Hk & E & Hb)].
    + intros. eapply LInv_tasks; eauto.
    + done.
    + done.
    + done.
    + by left.
    + split; [lia|auto].
    + exact H.
    + rewrite E. simpl. auto.
Qed.
(** The operations that are running. *)
Lemma fstep_keep k p : (forall o now lt fs, fe <> FE (EBackend k o now) lt fs) -> busy s !! k = Some p -> busy (fstep cf s fe).1 !! k = Some p.
Proof.
  intros Hne Hp. destruct (is_fcleanup fe) eqn:Hcl.
  - destruct fe as [[] lt fs|]; try discriminate Hcl. simpl. destruct (down s); [done|].
    destruct (fcleanup_objs cf now fs s) as (_ & E & _). rewrite E. done.
  - destruct (fstep_T cf s fe true _ (busy_closed cf s true _)) as [[H _]|(j & p' & ob & q' & Hk & E & Hb)].
    + intros. eapply LInv_tasks; eauto.
    + done.
    + done.
    + done.
    + by left.
    + done.
    + rewrite H; [done|]. intros (o & now & lt & fs & ->). by eapply Hne.
    + rewrite E. simpl. rewrite lookup_insert_ne; [done|]. intros ->. congruence.
Qed.
Lemma fstep_busy : ((forall j p, busy (fstep cf s fe).1 !! j = Some p -> busy s !! j = Some p) /\ quiet (fstep cf s fe).2) \/ opening cf s (fstep cf s fe).
Proof.
  destruct (is_fcleanup fe) eqn:Hcl.
  - left. destruct fe as [[] lt fs|]; try discriminate Hcl. cbn [fstep]. destruct (down s); [split; [done|auto]|].
    destruct (fcleanup_objs cf now fs s) as (_ & E & _ & Eo). rewrite E. split; [done|]. intros o Ho. rewrite (Eo o Ho). done.
  - destruct (fstep_T cf s fe true _ (sub_closed cf s true _)) as [H|H]; auto.
    + intros. eapply LInv_tasks; eauto.
    + done.
    + by left.
Qed.
Lemma fstep_sync fc fw : idf cf fc fw -> RolledBack ∉ faults fe -> Sync fc fw s -> Out s ->
  Sync fc fw (fstep cf s fe).1 /\ Out (fstep cf s fe).1.
Proof.
  intros Hid Hf Hy Ho. pose proof Hid as (I1 & I2 & I3 & I4). destruct (is_fcleanup fe) eqn:Hcl.
  - destruct fe as [[] lt fs|]; try discriminate Hcl. simpl in *. destruct (down s); [done|].
    destruct (fcleanup_cases cf fc fw now fs s Hy Hf) as [-> | ->]; [done|]. split; [by apply (prim_purge_sync cf fc fw)|].
    destruct (purge_spec cf fc fw s now Hy) as [P1 P2 P3 P4 P5 P6 P7 P8 P9].
    intros n c. rewrite P2. intros Hn Hin. destruct (decide (n ∈ by_name s)) as [Hin'|Hin']; [|exact (Ho n c Hn Hin')].
    destruct (is_fin (c_status c)) eqn:Hfi; [done|]. exfalso. apply Hin, P6. split; [done|]. intros d Hd (t & Ht & _).
    assert (d = c) as -> by congruence. destruct (ro_stop _ (LInv_row cf s n c HL Hn)) as [H _].
    unfold c_status in Hfi. rewrite H in Hfi; [done|]. rewrite Ht. eauto.
  - assert (rtc (prim cf false) s (fstep cf s fe).1) as HR.
    { destruct (fstep_T cf s fe false _ (R_closed cf s _)) as [[H _]|(j & p' & ob & q' & Hk & E & Hb)].
      + intros. eapply LInv_tasks; eauto.
      + done.
      + done.
      + done.
      + by right.
      + apply rtc_refl.
      + exact H.
      + rewrite E. apply rtc_once. apply p_same. done. }
    split; [eapply prims_sync; eauto|]. destruct (prims_grow cf s _ HR) as [G1 G2].
    destruct (fstep_loose cf fe s Hcr HL) as [_ HE].
    intros n c' Hn Hin. destruct (G2 n) as [[c Hc0]|]; [by exists c'| |done].
    destruct (HE n c Hc0) as (c'' & Hn' & Hev). assert (c'' = c') as -> by congruence.
    assert (is_fin (c_status c) = true) as Hfi by (eapply Ho; eauto). destruct (e_fin _ _ Hev Hfi) as [-> _]. done.
Qed.
End events.

(** * One state and a later one *)
Record fl (c c' : cluster) : Prop := {
  f_name : c_name c' = c_name c; f_user : r_user (c_row c') = r_user (c_row c);
  f_max : r_max (c_row c') = r_max (c_row c); f_info : r_info (c_row c') = r_info (c_row c);
  f_begin : r_start (c_row c') = r_start (c_row c);
  f_status : (jnum (c_status c) <= jnum (c_status c'))%nat;
  f_target : (jnum (c_target c) <= jnum (c_target c'))%nat;
  f_tgt : c_target c <> RUNNING -> c_target c' <> RUNNING;
  f_fin : is_fin (c_status c) = true -> c_status c' = c_status c /\ r_stop (c_row c') = r_stop (c_row c);
  f_workers : forall x, x ∈ c_workers c -> exists x', x' ∈ c_workers c' /\ wevolve x x';
  f_back : c_target c <> RUNNING -> forall x', x' ∈ c_workers c' -> exists x, x ∈ c_workers c /\ wevolve x x' }.
Lemma fl_refl c : fl c c.
Proof. constructor; eauto using wevolve_refl. Qed.
Lemma fl_trans a b c : fl a b -> fl b c -> fl a c.
Proof.
  intros [] []. constructor; try congruence; try lia; auto.
  - intros Hf. destruct (f_fin0 Hf) as [E1 E2]. rewrite <- E1 in Hf. destruct (f_fin1 Hf) as [E3 E4]. split; congruence.
  - intros x Hx. destruct (f_workers0 x Hx) as (y & Hy & E). destruct (f_workers1 y Hy) as (z & Hz & E'). eauto using wevolve_trans.
  - intros Ht z Hz. destruct (f_back1 (f_tgt0 Ht) z Hz) as (y & Hy & E'). destruct (f_back0 Ht y Hy) as (x & Hx & E). eauto using wevolve_trans.
Qed.
Definition FLater (s s' : gw) : Prop :=
  (uuid s <= uuid s')%nat /\
  forall n c', (n < uuid s)%nat -> objs s' !! n = Some c' -> exists c, objs s !! n = Some c /\ fl c c'.
Lemma FLater_refl s : FLater s s.
Proof. split; [done|]. intros n c _ H. eauto using fl_refl. Qed.
Lemma FLater_trans a b c : FLater a b -> FLater b c -> FLater a c.
Proof.
  intros [U1 H1] [U2 H2]. split; [lia|]. intros n d Hn Hd. destruct (H2 n d) as (e & He & L2); [lia|done|].
  destruct (H1 n e Hn He) as (f & Hf & L1). exists f. split; [done|]. eapply fl_trans; eauto.
Qed.

(** [many]: more than one lifetime. *)
Definition Mode (cf : cfg) (many : bool) (s : gw) : Prop :=
  LInv cf s /\ (many = true -> exists fc fw, idf cf fc fw /\ Sync fc fw s /\ Out s).
Definition allowed (many : bool) (fe : fevent) : Prop :=
  if many then RolledBack ∉ faults fe else fcrash fe = false.
Lemma Mode_step cf many s fe : allowed many fe -> Mode cf many s -> Mode cf many (fstep cf s fe).1 /\ FLater s (fstep cf s fe).1.
Proof.
  intros Ha [HL HM]. destruct (fcrash fe) eqn:Ec.
  - destruct many; [|simpl in Ha; congruence]. destruct (HM eq_refl) as (fc & fw & Hid & Hy & Ho).
    destruct fe as [[] lt fs|]; try discriminate Ec. cbn [fstep step plain fst]. split; [split|].
    + apply LInv_of. eapply frestart_inv; eauto.
    + intros _. exists fc, fw. split; [done|]. split; [apply restart_sync; done|eapply frestart_out; eauto].
    + split; [rewrite restart_uuid; done|]. intros n c' Hn Hc'.
      pose proof (restart_objs cf fc fw now s n Hy) as H. rewrite Hc' in H. destruct H as (c & Hin & Hc & Hr). exists c. split; [done|].
      destruct Hr as [R1 R2 R3 _ _ _ _ _]. constructor; unfold c_name, c_status, c_target; rewrite ?R2; auto.
      * intros x Hx. exists x. split; [rewrite R3; done|apply wevolve_refl].
      * intros _ x Hx. exists x. split; [rewrite <- R3; done|apply wevolve_refl].
  - destruct (fstep_loose cf fe s Ec HL) as [HL' HE]. split; [split; [done|]|].
    + intros Hm. subst many. destruct (HM eq_refl) as (fc & fw & Hid & Hy & Ho). exists fc, fw. split; [done|]. eapply fstep_sync; eauto.
    + destruct (fstep_new cf s fe Ec HL) as [U1 U2]. split; [done|]. intros n c' Hn Hc'. destruct (U2 n) as [[c Hc]|]; [by exists c'| |lia].
      exists c. split; [done|]. destruct (HE n c Hc) as (c'' & Hc'' & Hev). assert (c'' = c') as -> by congruence.
      pose proof (LInv_row cf s n c HL Hc) as Hrow. destruct Hev.
      constructor; auto.
      * intros Ht. destruct (ro_tgt _ Hrow) as [E|E]; [unfold c_target in Ht; congruence|].
        pose proof (jle_running _ _ e_target E) as E'. unfold c_target in *. intuition congruence.
      * intros x Hx. destruct e_workers as (ws1 & ws2 & E & HF & _). destruct (Forall2_in_l _ _ _ _ HF Hx) as (y & Hy & Hw). exists y.
        split; [rewrite E; apply elem_of_app; auto|done].
      * intros Ht x' Hx'. destruct e_workers as (ws1 & ws2 & E & HF & Hnil). rewrite (Hnil Ht), app_nil_r in E. rewrite E in Hx'.
        eapply Forall2_in_r; eauto.
Qed.
Definition alloweds (many : bool) (h : history) : Prop := forall fe o, (fe, o) ∈ h -> allowed many fe.
Lemma alloweds_app many h1 h2 : alloweds many (h1 ++ h2) <-> alloweds many h1 /\ alloweds many h2.
Proof.
  unfold alloweds. split; [intros H; split; intros fe o Hin; apply (H fe o), elem_of_app; auto|].
  intros [H1 H2] fe o [Hin|Hin]%elem_of_app; eauto.
Qed.
Lemma Mode_leads cf many h s s' : alloweds many h -> Mode cf many s -> fleads cf s h s' -> Mode cf many s' /\ FLater s s'.
Proof.
  intros Ha HM Hx. induction Hx as [|s fe o s1 h s2 Hs Hx IH]; [split; [done|apply FLater_refl]|].
  destruct (Mode_step cf many s fe) as [HM1 HL1]; [apply (Ha fe o); by left|done|]. rewrite Hs in HM1, HL1. simpl in *.
  destruct IH as [HM2 HL2]; [intros fe' o' Hin; apply (Ha fe' o'); by right|done|]. split; [done|]. eapply FLater_trans; eauto.
Qed.
Lemma Mode_init cf many : (many = true -> fresh_ids cf) -> Mode cf many (gw_init cf).
Proof.
  intros Hf. split; [apply LInv_of, Inv_gw_init|]. intros Hm. destruct (Hf Hm) as (fc & fw & Hid). exists fc, fw. split; [done|].
  apply (GInv_init cf). done.
Qed.
Lemma life_mode cf h : life_ok cf h -> exists many, alloweds many h /\ (many = true -> fresh_ids cf).
Proof.
  intros [H|[H1 H2]]; [exists false|exists true]; (split; [|done]).
  - intros fe o Hin. apply (H fe o Hin).
  - intros fe o Hin Hr. by apply (H2 fe o RolledBack Hin Hr).
Qed.
Lemma Mode_reach cf many h s : alloweds many h -> (many = true -> fresh_ids cf) -> freach cf h s -> Mode cf many s.
Proof. intros Ha Hf Hr. eapply (Mode_leads cf many h (gw_init cf)); eauto using Mode_init. Qed.

(** The invariant itself, when failures are clean. *)
Lemma clean_kept h : only clean h -> only kept h.
Proof. intros H fe o f Hin Hf E. subst f. destruct (H fe o _ Hin Hf); done. Qed.
Lemma strict_leads cf many h s s' : only clean h -> alloweds many h -> Mode cf many s -> Inv cf None ∅ s -> fleads cf s h s' -> Inv cf None ∅ s'.
Proof.
  intros Hc Ha HM HI Hx. induction Hx as [|s fe o s1 h s2 Hs Hx IH]; [done|].
  destruct (Mode_step cf many s fe) as [HM1 HL1]; [apply (Ha fe o); by left|done|]. rewrite Hs in HM1, HL1. simpl in *.
  apply IH; [intros fe' o' f' Hin; apply (Hc fe' o' f'); by right|intros fe' o' Hin; apply (Ha fe' o'); by right|done|].
  replace s1 with (fstep cf s fe).1 by (rewrite Hs; done). destruct (fcrash fe) eqn:Ec.
  - destruct many; [|specialize (Ha fe o ltac:(by left)); simpl in Ha; congruence]. destruct HM as [HL HM]. destruct (HM eq_refl) as (fc & fw & Hid & Hy & Ho).
    destruct fe as [[] lt fs|]; try discriminate Ec. cbn [fstep step plain fst]. eapply frestart_inv; eauto.
  - apply fstep_strict; [done| |done]. intros f Hf. apply (Hc fe o f); [by left|done].
Qed.
