(** What holds after every history. *)
From Coq Require Import ZArith Lia.
From stdpp Require Import prelude gmap.
From Verif Require Import Trace WorkQueue_Model WorkQueue_Proofs Router_Model Gateway_Model Gateway_Spec Gateway_Inv
  Gateway_Steps Gateway_Steps2 Gateway_Steps3 Gateway_Steps4 Gateway_Sync Gateway_Restart Gateway_Acts Gateway_Track Gateway_Busy.
Open Scope Z_scope.

(** * Reachable states *)
Definition idf (cf : cfg) (fc fw : nat -> nat) : Prop :=
  (forall i j, fc i = fc j -> i = j) /\ (forall i j, fw i = fw j -> i = j) /\
  (forall k ids, alloc_c cf k ids = fc k) /\ (forall k ids, alloc_w cf k ids = fw k).
Definition GInv (cf : cfg) (s : gw) : Prop :=
  Inv cf None ∅ s /\ forall fc fw, idf cf fc fw -> Sync fc fw s /\ Out s.
Lemma GInv_init cf : GInv cf (gw_init cf).
Proof.
  split; [apply Inv_gw_init|]. intros fc fw _. split; [|intros n c; simpl; rewrite lookup_empty; done].
  constructor; simpl; try (intros; rewrite lookup_empty in *; done); try (intros; set_solver).
  constructor; simpl; try (intros; set_solver); try (intros; rewrite lookup_empty in *; set_solver).
  constructor.
Qed.
Lemma GInv_step cf s e s' o : (crash e = true -> fresh_ids cf) -> GInv cf s -> step cf s e = (s', o) -> GInv cf s'.
Proof.
  intros Hf [HI HY] Hs. destruct (crash e) eqn:Ec.
  - destruct e; try discriminate Ec. simpl in Hs. injection Hs as <- <-. destruct (Hf eq_refl) as (fc & fw & Hid).
    split; [|intros fc' fw' Hid']; [|split].
    + eapply restart_inv; eauto. apply HY. exact Hid.
    + apply restart_sync. apply HY. done.
    + intros n c Hc Hn. exfalso. apply Hn. destruct (HY fc' fw' Hid') as [Hy _]. apply (restart_names _ _ _ _ _ _ Hy).
      pose proof (restart_objs cf fc' fw' now s n Hy) as H. rewrite Hc in H. destruct H as (c0 & H & _). exact H.
  - destruct (step_inv cf e s s' o Ec HI Hs) as [HI' HE]. split; [done|]. intros fc fw Hid. destruct (HY fc fw Hid) as [Hy Ho].
    split; [|eapply step_out; eauto]. destruct Hid as (I1 & I2 & I3 & I4). eapply (prims_sync cf fc fw I1 I2 I3 I4 true s); [|done].
    assert (s' = (step cf s e).1) as -> by (rewrite Hs; done). apply R_step; auto. apply rtc_refl.
Qed.
Lemma ids_ok_app cf h1 h2 : ids_ok cf (h1 ++ h2) -> ids_ok cf h1 /\ ids_ok cf h2.
Proof.
  intros [H|H]; [split; by left|]. split; right; intros e o Hin; eapply H; apply elem_of_app; eauto.
Qed.
Lemma ids_ok_crash cf h e o : ids_ok cf h -> (e, o) ∈ h -> crash e = true -> fresh_ids cf.
Proof. intros [H|H] Hin Hc; [done|]. rewrite (H _ _ Hin) in Hc. done. Qed.
Lemma leads_GInv cf s h s' : ids_ok cf h -> GInv cf s -> leads cf s h s' -> GInv cf s'.
Proof.
  unfold leads. intros Hid HG Hx. induction Hx as [|s e o s1 h s2 Hs Hx IH]; [done|].
  apply (ids_ok_app cf [(e, o)]) in Hid as [Hid1 Hid2]. apply IH; [done|]. eapply GInv_step; [|exact HG|exact Hs].
  eapply ids_ok_crash; [exact Hid1|]. by left.
Qed.
Lemma reach_GInv cf h s : ids_ok cf h -> reach cf h s -> GInv cf s.
Proof. intros Hid Hr. eapply leads_GInv; [exact Hid|apply GInv_init|exact Hr]. Qed.
Lemma reach_Inv cf h s : ids_ok cf h -> reach cf h s -> Inv cf None ∅ s.
Proof. intros Hid Hr. apply (reach_GInv cf h s Hid Hr). Qed.
Lemma reach_Sync cf h s : fresh_ids cf -> reach cf h s -> exists fc fw, Sync fc fw s /\ Out s.
Proof. intros (fc & fw & Hid) Hr. exists fc, fw. apply (reach_GInv cf h s); [left; exists fc, fw; done|done|done]. Qed.
Lemma reach_app cf h1 h2 s : reach cf (h1 ++ h2) s <-> exists m, reach cf h1 m /\ leads cf m h2 s.
Proof. apply exec_app. Qed.
Lemma seen_app h1 h2 : seen (h1 ++ h2) = seen h1 ++ seen h2.
Proof. unfold seen. rewrite map_app, concat_app. done. Qed.
Lemma seen_snoc h e o : seen (h ++ [(e, o)]) = seen h ++ o.
Proof. rewrite seen_app. unfold seen at 2. simpl. rewrite app_nil_r. done. Qed.
Lemma seen_cons e o h : seen ((e, o) :: h) = o ++ seen h. Proof. done. Qed.

(** * One state and a later one *)
Record cl_later (u : nat) (c c' : cluster) : Prop := {
  l_name : c_name c' = c_name c; l_user : r_user (c_row c') = r_user (c_row c);
  l_max : r_max (c_row c') = r_max (c_row c); l_info : r_info (c_row c') = r_info (c_row c);
  l_begin : r_start (c_row c') = r_start (c_row c);
  l_status : (jnum (c_status c) <= jnum (c_status c'))%nat;
  l_target : (jnum (c_target c) <= jnum (c_target c'))%nat;
  l_tgt : c_target c <> RUNNING -> c_target c' <> RUNNING;
  l_fin : is_fin (c_status c) = true -> c_row c' = c_row c \/ c_row c' = rset_target FAILED (c_row c);
  l_workers : forall x, x ∈ c_workers c -> exists x', x' ∈ c_workers c' /\ wevolve x x';
  l_old : forall x', x' ∈ c_workers c' -> (w_name x' < u)%nat -> exists x, x ∈ c_workers c /\ wevolve x x';
  l_back : c_target c <> RUNNING -> forall x', x' ∈ c_workers c' -> exists x, x ∈ c_workers c /\ wevolve x x' }.
Definition Later (s s' : gw) : Prop :=
  (uuid s <= uuid s')%nat /\
  forall n c', (n < uuid s)%nat -> objs s' !! n = Some c' -> exists c, objs s !! n = Some c /\ cl_later (uuid s) c c'.
Lemma cl_later_refl u c : cl_later u c c.
Proof. constructor; eauto using wevolve_refl. Qed.
Lemma cl_later_trans u u' a b c : (u <= u')%nat -> cl_later u a b -> cl_later u' b c -> cl_later u a c.
Proof.
  intros Hu [] []. constructor; try congruence; try lia; auto.
  - intros Hf. assert (r_status (c_row b) = r_status (c_row a)) as E by (destruct (l_fin0 Hf) as [->| ->]; done).
    destruct l_fin1 as [->| ->]; [unfold c_status in *; rewrite E; done|auto|].
    destruct (l_fin0 Hf) as [->| ->]; auto.
  - intros x Hx. destruct (l_workers0 x Hx) as (y & Hy & E). destruct (l_workers1 y Hy) as (z & Hz & E'). eauto using wevolve_trans.
  - intros z Hz Hlt. destruct (l_old1 z Hz) as (y & Hy & E'); [lia|]. destruct (l_old0 y Hy) as (x & Hx & E).
    { rewrite <- (we_name _ _ E'). done. }
    eauto using wevolve_trans.
  - intros Ht z Hz. destruct (l_back1 (l_tgt0 Ht) z Hz) as (y & Hy & E'). destruct (l_back0 Ht y Hy) as (x & Hx & E). eauto using wevolve_trans.
Qed.
Lemma Later_refl s : Later s s.
Proof. split; [done|]. intros n c _ H. eauto using cl_later_refl. Qed.
Lemma Later_trans a b c : Later a b -> Later b c -> Later a c.
Proof.
  intros [U1 H1] [U2 H2]. split; [lia|]. intros n d Hn Hd. destruct (H2 n d) as (e & He & L2); [lia|done|].
  destruct (H1 n e Hn He) as (f & Hf & L1). exists f. split; [done|]. eapply cl_later_trans; eauto.
Qed.
Lemma worker_eq cf s n c x y : Inv cf None ∅ s -> objs s !! n = Some c -> x ∈ c_workers c -> y ∈ c_workers c -> w_name x = w_name y -> x = y.
Proof. intros HI. apply (worker_by_name cf s HI). Qed.
Lemma Forall2_in_l {A B} (R : A -> B -> Prop) l k x : Forall2 R l k -> x ∈ l -> exists y, y ∈ k /\ R x y.
Proof.
  induction 1 as [|a b l k H HF IH]; intros Hx; [inversion Hx|]. apply elem_of_cons in Hx as [->|Hx]; [exists b; split; [by left|done]|].
  destruct (IH Hx) as (y & ? & ?). exists y. split; [by right|done].
Qed.
Lemma Forall2_in_r {A B} (R : A -> B -> Prop) l k y : Forall2 R l k -> y ∈ k -> exists x, x ∈ l /\ R x y.
Proof.
  induction 1 as [|a b l k H HF IH]; intros Hx; [inversion Hx|]. apply elem_of_cons in Hx as [->|Hx]; [exists a; split; [by left|done]|].
  destruct (IH Hx) as (x & ? & ?). exists x. split; [by right|done].
Qed.
Lemma restart_uuid cf now s : uuid (restart cf now s) = uuid s.
Proof. rewrite restart_eq. destruct (same_data_puts (restart_items (restart0 cf now s)) (restart0 cf now s)) as (_ & _ & _ & _ & _ & _ & -> & _). done. Qed.
Lemma Later_step cf s e s' o : (crash e = true -> fresh_ids cf) -> GInv cf s -> step cf s e = (s', o) -> Later s s'.
Proof.
  intros Hf HG Hs. pose proof (GInv_step cf s e s' o Hf HG Hs) as [HI' _]. destruct HG as [HI HY]. destruct (crash e) eqn:Ec.
  - destruct e; try discriminate Ec. simpl in Hs. injection Hs as <- <-. destruct (Hf eq_refl) as (fc & fw & Hid).
    destruct (HY fc fw Hid) as [Hy _]. split; [rewrite restart_uuid; done|]. intros n c' Hn Hc'.
    pose proof (restart_objs cf fc fw now s n Hy) as H. rewrite Hc' in H. destruct H as (c & Hin & Hc & Hr). exists c. split; [done|].
    destruct Hr as [R1 R2 R3 _ _ _ _ _].
    constructor; unfold c_name, c_status, c_target; rewrite ?R2; auto.
    + intros x Hx. exists x. split; [rewrite R3; done|apply wevolve_refl].
    + intros x Hx _. exists x. split; [rewrite <- R3; done|apply wevolve_refl].
    + intros _ x Hx. exists x. split; [rewrite <- R3; done|apply wevolve_refl].
  - destruct (step_inv cf e s s' o Ec HI Hs) as [_ HE]. pose proof (step_tracked cf s e HI Ec) as HT. rewrite Hs in HT. simpl in HT.
    destruct HT as [T1 T2 T3]. split; [done|]. intros n c' Hn Hc'. destruct (objs s !! n) as [c|] eqn:Hc; [|destruct (T3 n c' Hc Hc'); lia].
    exists c. split; [done|]. destruct (HE n c Hc) as (c'' & Hc'' & Hev). assert (c'' = c') as -> by congruence.
    destruct (T2 n c c' Hc Hc') as [HP HW]. pose proof (k_row _ _ _ _ _ _ (g_cok _ _ _ _ HI _ _ Hc)) as Hrow. destruct Hev.
    assert (forall x, x ∈ c_workers c -> exists x', x' ∈ c_workers c' /\ wevolve x x') as Hfor.
    { intros x Hx. destruct e_workers as (ws1 & ws2 & E & HF & _). destruct (Forall2_in_l _ _ _ _ HF Hx) as (y & Hy & Hw). exists y.
      split; [rewrite E; apply elem_of_app; auto|done]. }
    constructor; auto.
    + intros Ht. destruct (ro_tgt _ Hrow) as [E|E]; [unfold c_target in Ht; congruence|].
      pose proof (jle_running _ _ e_target E) as E'. unfold c_target in *. intuition congruence.
    + apply (p_frozen _ _ _ _ _ HP).
    + intros x' Hx' Hlt. destruct (HW x' Hx') as [(x & Hx & Hwp)|[Hnew _]]; [|lia]. destruct (Hfor x Hx) as (y & Hy & Hwe).
      assert (y = x') as -> by (eapply worker_eq; eauto; rewrite (we_name _ _ Hwe), (q_name _ _ _ _ _ Hwp); done). eauto.
    + intros Ht x' Hx'. destruct e_workers as (ws1 & ws2 & E & HF & Hnil). rewrite (Hnil Ht), app_nil_r in E. rewrite E in Hx'.
      eapply Forall2_in_r; eauto.
Qed.
Lemma leads_Later cf s h s' : ids_ok cf h -> GInv cf s -> leads cf s h s' -> Later s s'.
Proof.
  unfold leads. intros Hid HG Hx. induction Hx as [|s e o s1 h s2 Hs Hx IH]; [apply Later_refl|].
  apply (ids_ok_app cf [(e, o)]) in Hid as [Hid1 Hid2].
  assert (crash e = true -> fresh_ids cf) as Hcr by (eapply ids_ok_crash; [exact Hid1|by left]).
  eapply Later_trans; [eapply Later_step; eauto|]. apply IH; [done|]. eapply GInv_step; eauto.
Qed.

(** * What is seen *)
Lemma begins_wk cf s n w o : begins cf s (InStartWorker n w) o -> exists c x, objs s !! n = Some c /\ x ∈ c_workers c /\ w_name x = w /\ w_status x = CREATED.
Proof. intros (_ & c & x & H1 & H2 & H3 & H4 & _). eauto 8. Qed.
Lemma step_startc cf s e s' o n : GInv cf s -> step cf s e = (s', o) -> OStartC n ∈ o ->
  crash e = false /\ o = [OStartC n] /\ starting_c s' n /\ objs s' = objs s /\ exists c, objs s !! n = Some c /\ c_status c = CREATED /\ c_target c = RUNNING /\ ~ starting_c s n.
Proof.
  intros [HI _] Hs Hin. destruct (crash e) eqn:Ec; [destruct e; try discriminate Ec; simpl in Hs; injection Hs as <- <-; inversion Hin|].
  destruct (step_bcase cf s HI e s' o Ec Hs) as [? Hq _|? ? ? ? ? ? Hq|? ? ? ? ? Hq|? ? ? ? ? ? ? Hq|? ? ? ? ? ? ? ? Hq|k p ob Hev Hk Hb Hob Hu Hq Hbeg Hfree|? ? ? ? ? ? ? ? Hq].
  - destruct Hq as [->|[->| ->]]; rewrite ?elem_of_list_singleton in Hin; [inversion Hin|done|done].
  - subst. apply elem_of_list_singleton in Hin. done.
  - subst. inversion Hin.
  - subst. apply elem_of_list_singleton in Hin. done.
  - subst. apply elem_of_list_singleton in Hin. done.
  - subst. apply elem_of_list_singleton in Hin. subst ob. split; [done|]. split; [done|].
    destruct p as [m|m|m w|m w]; simpl in Hbeg.
    + destruct Hbeg as ([= <-] & c & Hc & E1 & E2). split; [exists k; rewrite Hb, lookup_insert; done|]. split; [done|]. exists c. repeat (split; [done|]).
      intros (k' & Hk'). apply (Hfree (InStartCluster n)); [exists k'; done|done].
    + destruct Hbeg as (c & _ & ? & _). done.
    + destruct Hbeg as [? _]. done.
    + destruct Hbeg as (c & x & _ & _ & _ & ? & _). done.
  - subst. inversion Hin.
Qed.
Lemma step_startw cf s e s' o n w : GInv cf s -> step cf s e = (s', o) -> OStartW n w ∈ o ->
  crash e = false /\ o = [OStartW n w] /\ starting_w s' n w /\ objs s' = objs s /\
  exists c x, objs s !! n = Some c /\ x ∈ c_workers c /\ w_name x = w /\ w_status x = CREATED /\ w_target x = RUNNING /\ ~ starting_w s n w.
Proof.
  intros [HI _] Hs Hin. destruct (crash e) eqn:Ec; [destruct e; try discriminate Ec; simpl in Hs; injection Hs as <- <-; inversion Hin|].
  destruct (step_bcase cf s HI e s' o Ec Hs) as [? Hq _|? ? ? ? ? ? Hq|? ? ? ? ? Hq|? ? ? ? ? ? ? Hq|? ? ? ? ? ? ? ? Hq|k p ob Hev Hk Hb Hob Hu Hq Hbeg Hfree|? ? ? ? ? ? ? ? Hq].
  - destruct Hq as [->|[->| ->]]; rewrite ?elem_of_list_singleton in Hin; [inversion Hin|done|done].
  - subst. apply elem_of_list_singleton in Hin. done.
  - subst. inversion Hin.
  - subst. apply elem_of_list_singleton in Hin. done.
  - subst. apply elem_of_list_singleton in Hin. done.
  - subst. apply elem_of_list_singleton in Hin. subst ob. split; [done|]. split; [done|].
    destruct p as [m|m|m v|m v]; simpl in Hbeg.
    + destruct Hbeg as [? _]. done.
    + destruct Hbeg as (c & _ & ? & _). done.
    + destruct Hbeg as ([= <- <-] & c & x & Hc & Hx & E1 & E2 & E3). split; [exists k; rewrite Hb, lookup_insert; done|]. split; [done|].
      exists c, x. repeat (split; [done|]). intros (k' & Hk'). apply (Hfree (InStartWorker n w)); [exists k'; done|done].
    + destruct Hbeg as (c & x & _ & _ & _ & ? & _). done.
  - subst. inversion Hin.
Qed.
(** A state report: only while the start operation runs. *)
Lemma step_statec cf s e s' o n st : GInv cf s -> step cf s e = (s', o) -> OStateC n st ∈ o ->
  o = [OStateC n st] /\ (exists k now, e = EBackend k (Yields st) now /\ busy s !! k = Some (InStartCluster n)) /\
  s' = update_cluster n (rset_state st) s.
Proof.
  intros [HI _] Hs Hin. destruct (crash e) eqn:Ec; [destruct e; try discriminate Ec; simpl in Hs; injection Hs as <- <-; inversion Hin|].
  destruct (step_bcase cf s HI e s' o Ec Hs) as [? Hq _|? ? ? ? ? ? Hq|? ? ? ? ? Hq|k m st' now He Hk Hs' Hq|? ? ? ? ? ? ? ? Hq|k p ob Hev Hk Hb Hob Hu Hq Hbeg Hfree|? ? ? ? ? ? ? ? Hq].
  - destruct Hq as [->|[->| ->]]; rewrite ?elem_of_list_singleton in Hin; [inversion Hin|done|done].
  - subst. apply elem_of_list_singleton in Hin. done.
  - subst. inversion Hin.
  - subst. apply elem_of_list_singleton in Hin. injection Hin as <- <-. split; [done|]. split; [|done]. eauto.
  - subst. apply elem_of_list_singleton in Hin. done.
  - subst. apply elem_of_list_singleton in Hin. subst ob. destruct p as [m|m|m v|m v]; simpl in Hbeg.
    + destruct Hbeg as [? _]. done.
    + destruct Hbeg as (c & _ & ? & _). done.
    + destruct Hbeg as [? _]. done.
    + destruct Hbeg as (c & x & _ & _ & _ & ? & _). done.
  - subst. inversion Hin.
Qed.
Lemma step_statew cf s e s' o n w st : GInv cf s -> step cf s e = (s', o) -> OStateW n w st ∈ o ->
  o = [OStateW n w st] /\ (exists k now, e = EBackend k (Yields st) now /\ busy s !! k = Some (InStartWorker n w)) /\
  s' = update_worker n w (wset_state st) s.
Proof.
  intros [HI _] Hs Hin. destruct (crash e) eqn:Ec; [destruct e; try discriminate Ec; simpl in Hs; injection Hs as <- <-; inversion Hin|].
  destruct (step_bcase cf s HI e s' o Ec Hs) as [? Hq _|? ? ? ? ? ? Hq|? ? ? ? ? Hq|? ? ? ? ? ? ? Hq|k m v st' now He Hk Hs' Hq|k p ob Hev Hk Hb Hob Hu Hq Hbeg Hfree|? ? ? ? ? ? ? ? Hq].
  - destruct Hq as [->|[->| ->]]; rewrite ?elem_of_list_singleton in Hin; [inversion Hin|done|done].
  - subst. apply elem_of_list_singleton in Hin. done.
  - subst. inversion Hin.
  - subst. apply elem_of_list_singleton in Hin. done.
  - subst. apply elem_of_list_singleton in Hin. injection Hin as <- <- <-. split; [done|]. split; [|done]. eauto.
  - subst. apply elem_of_list_singleton in Hin. subst ob. destruct p as [m|m|m v|m v]; simpl in Hbeg.
    + destruct Hbeg as [? _]. done.
    + destruct Hbeg as (c & _ & ? & _). done.
    + destruct Hbeg as [? _]. done.
    + destruct Hbeg as (c & x & _ & _ & _ & ? & _). done.
  - subst. inversion Hin.
Qed.
(** A new stop operation is seen. *)
Lemma step_stopping_c cf s e s' o n : GInv cf s -> step cf s e = (s', o) -> stopping_c s' n ->
  stopping_c s n \/ exists c, objs s !! n = Some c /\ o = [OStopC n (r_state (c_row c))] /\ objs s' = objs s /\ c_status c = CLOSING /\ ready_to_close cf c = true.
Proof.
  intros [HI _] Hs (k0 & Hin). destruct (crash e) eqn:Ec.
  { destruct e; try discriminate Ec; simpl in Hs; injection Hs as <- <-. rewrite restart_eq, busy_puts in Hin. simpl in Hin. rewrite lookup_empty in Hin. done. }
  destruct (step_bcase cf s HI e s' o Ec Hs) as [Hb Hq _|? ? ? ? ? Hb Hq|? ? ? ? -> Hq|k m st' now He Hk Hs' Hq|k m v st' now He Hk Hs' Hq|k p ob Hev Hk Hb Hob Hu Hq Hbeg Hfree|k p ob now He Ho Hk Hb Hq].
  - left. exists k0. rewrite <- Hb. done.
  - left. exists k0. rewrite <- Hb. done.
  - left. exists k0. done.
  - left. exists k0. rewrite Hs', busy_row in Hin. done.
  - left. exists k0. rewrite Hs', busy_wk in Hin. done.
  - rewrite Hb in Hin. apply lookup_insert_Some in Hin as [[<- ->]|[_ Hin]]; [|left; exists k0; done]. right. simpl in Hbeg.
    destruct Hbeg as (c & Hc & -> & E1 & E2). exists c. done.
  - left. exists k0. rewrite Hb in Hin. apply lookup_delete_Some in Hin as [_ Hin]. done.
Qed.
Lemma step_stopping_w cf s e s' o n w : GInv cf s -> step cf s e = (s', o) -> stopping_w s' n w ->
  stopping_w s n w \/ exists c x, objs s !! n = Some c /\ x ∈ c_workers c /\ w_name x = w /\ o = [OStopW n w (w_state x)] /\ objs s' = objs s /\ w_status x <> CREATED.
Proof.
  intros [HI _] Hs (k0 & Hin). destruct (crash e) eqn:Ec.
  { destruct e; try discriminate Ec; simpl in Hs; injection Hs as <- <-. rewrite restart_eq, busy_puts in Hin. simpl in Hin. rewrite lookup_empty in Hin. done. }
  destruct (step_bcase cf s HI e s' o Ec Hs) as [Hb Hq _|? ? ? ? ? Hb Hq|? ? ? ? -> Hq|k m st' now He Hk Hs' Hq|k m v st' now He Hk Hs' Hq|k p ob Hev Hk Hb Hob Hu Hq Hbeg Hfree|k p ob now He Ho Hk Hb Hq].
  - left. exists k0. rewrite <- Hb. done.
  - left. exists k0. rewrite <- Hb. done.
  - left. exists k0. done.
  - left. exists k0. rewrite Hs', busy_row in Hin. done.
  - left. exists k0. rewrite Hs', busy_wk in Hin. done.
  - rewrite Hb in Hin. apply lookup_insert_Some in Hin as [[<- ->]|[_ Hin]]; [|left; exists k0; done]. right. simpl in Hbeg.
    destruct Hbeg as (c & x & Hc & Hx & Ex & -> & E1 & E2). exists c, x. done.
  - left. exists k0. rewrite Hb in Hin. apply lookup_delete_Some in Hin as [_ Hin]. done.
Qed.
(** A start operation goes on until its end is recorded. *)
Lemma step_starting cf s e s' o k p : GInv cf s -> step cf s e = (s', o) -> crash e = false -> busy s !! k = Some p ->
  busy s' !! k = Some p \/ exists oc now, e = EBackend k oc now /\ (oc = Ends \/ oc = Raises).
Proof.
  intros [HI _] Hs Ec Hin.
  destruct (step_bcase cf s HI e s' o Ec Hs) as [Hb Hq _|? ? ? ? ? Hb Hq|? ? ? ? -> Hq|k' m st' now He Hk Hs' Hq|k' m v st' now He Hk Hs' Hq|k' p' ob Hev Hk Hb Hob Hu Hq Hbeg Hfree|k' p' ob now He Ho Hk Hb Hq].
  - left. rewrite Hb. done.
  - left. rewrite Hb. done.
  - left. done.
  - left. rewrite Hs', busy_row. done.
  - left. rewrite Hs', busy_wk. done.
  - left. rewrite Hb. rewrite lookup_insert_ne; [done|]. congruence.
  - destruct (decide (k' = k)) as [->|E]; [right; eauto|]. left. rewrite Hb, lookup_delete_ne; done.
Qed.
