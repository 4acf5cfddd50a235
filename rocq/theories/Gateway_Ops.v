(** Start and stop operations along a history (for C19, C23, C24, C32). *)
From Coq Require Import ZArith Lia.
From stdpp Require Import prelude gmap.
From Verif Require Import Trace WorkQueue_Model WorkQueue_Proofs Router_Model Gateway_Model Gateway_Spec Gateway_Inv
  Gateway_Steps Gateway_Steps2 Gateway_Steps3 Gateway_Steps4 Gateway_Sync Gateway_Restart Gateway_Acts Gateway_Track Gateway_Busy Gateway_Hist.
Open Scope Z_scope.

(** * At most one start in a lifetime *)
Lemma count_snoc (o : obs) (l : list obs) e os : length (List.filter (fun x => e x) (l ++ os)) = (length (List.filter e l) + length (List.filter e os))%nat.
Proof. rewrite List.filter_app, app_length. done. Qed.
Definition is_startc (n : nat) (o : obs) : bool := match o with OStartC m => bool_decide (m = n) | _ => false end.
Definition is_startw (n w : nat) (o : obs) : bool := match o with OStartW m v => bool_decide (m = n /\ v = w) | _ => false end.
Lemma filter_none {A} (f : A -> bool) (l : list A) : (forall x, x ∈ l -> f x = false) -> List.filter f l = [].
Proof.
  induction l as [|a l IH]; intros H; [done|]. simpl. rewrite (H a) by (by left). apply IH. intros x Hx. apply H. by right.
Qed.
Lemma leads_starts_c cf s0 h s n : GInv cf s0 -> one_life h -> leads cf s0 h s ->
  (length (List.filter (is_startc n) (seen h)) <= 1)%nat /\
  (OStartC n ∈ seen h -> (n < uuid s)%nat /\ forall c, objs s !! n = Some c -> starting_c s n \/ c_status c <> CREATED).
Proof.
  intros HG Hl Hx. revert Hl. unfold leads in Hx. revert h s Hx.
  apply (exec_ind_r (step cf) s0 (fun h s => one_life h -> (length (List.filter (is_startc n) (seen h)) <= 1)%nat /\
  (OStartC n ∈ seen h -> (n < uuid s)%nat /\ forall c, objs s !! n = Some c -> starting_c s n \/ c_status c <> CREATED))).
  - intros _. split; [simpl; lia|]. intros H. inversion H.
  - intros h s e o s' Hx IH Hs Hl. assert (one_life h) as Hl1 by (intros a b Hab; eapply Hl; apply elem_of_app; eauto).
    assert (crash e = false) as Ec by (eapply Hl; apply elem_of_app; right; by left).
    destruct (IH Hl1) as [IH1 IH2]. clear IH.
    assert (GInv cf s) as HGs by (eapply leads_GInv; [right; exact Hl1|exact HG|exact Hx]).
    rewrite seen_snoc, List.filter_app, app_length.
    destruct (decide (OStartC n ∈ o)) as [Ho|Ho].
    + destruct (step_startc _ _ _ _ _ _ HGs Hs Ho) as (_ & -> & Hst & Hobj & c & Hc & E1 & E2 & Hns). split.
      * simpl. rewrite bool_decide_eq_true_2 by done. simpl.
        assert (List.filter (is_startc n) (seen h) = []) as ->; [|simpl; lia].
        apply filter_none. intros x Hxin. destruct (is_startc n x) eqn:Ex; [|done]. destruct x; try discriminate Ex. simpl in Ex.
        apply bool_decide_eq_true in Ex as ->. destruct (IH2 Hxin) as [_ H]. destruct (H c Hc); [done|congruence].
      * intros _. destruct (Later_step cf s e s' [OStartC n]) as [HU _]; [rewrite Ec; done|done|done|].
        destruct (g_fresh _ _ _ _ (proj1 HGs) _ _ Hc). split; [lia|]. intros c' _. by left.
    + assert (List.filter (is_startc n) o = []) as ->.
      { apply filter_none. intros x Hxin. destruct (is_startc n x) eqn:Ex; [|done]. destruct x; try discriminate Ex. simpl in Ex.
        apply bool_decide_eq_true in Ex as ->. done. }
      split; [simpl; lia|]. intros [Hin|Hin]%elem_of_app; [|done]. destruct (IH2 Hin) as [Hu Hst].
      destruct (Later_step cf s e s' o) as [HU HL]; [rewrite Ec; done|done|done|]. split; [lia|]. intros c' Hc'.
      destruct (HL n c' Hu Hc') as (c & Hc & Hcl). destruct (Hst c Hc) as [(k & Hk)|Hne].
      2:{ right. pose proof (l_status _ _ _ Hcl) as HJ. intros E. rewrite E in HJ. destruct (c_status c); simpl in HJ; try lia. done. }
      destruct (step_starting cf s e s' o k _ HGs Hs Ec Hk) as [?|(oc & now & -> & Hoc)]; [left; exists k; done|]. right.
      simpl in Hs. unfold resume in Hs. rewrite Hk in Hs. destruct Hoc as [->| ->]; injection Hs as <- <-; simpl in Hc'.
      * erewrite (row_upd (release k s)) in Hc' by exact Hc. rewrite lookup_insert in Hc'. injection Hc' as <-. done.
      * erewrite (row_upd (release k s)) in Hc' by exact Hc. rewrite lookup_insert in Hc'. injection Hc' as <-. done.
Qed.
Lemma upd_worker_in s n w f c : objs s !! n = Some c -> objs (update_worker n w f s) !! n = Some (cset_workers (map_worker w f (c_workers c)) c).
Proof. intros H. rewrite (worker_upd s n w f c H), lookup_insert. done. Qed.
Lemma map_worker_name w f l x : x ∈ map_worker w f l -> w_name x = w -> (forall y, w_name (f y) = w_name y) -> exists y, y ∈ l /\ w_name y = w /\ x = f y.
Proof.
  intros (y & -> & Hy)%elem_of_list_fmap E Hf. case_decide as Ey; [|done]. eauto.
Qed.
(** The end of a worker's start operation. *)
Lemma start_ends cf s k n w oc now s' o c' x' : busy s !! k = Some (InStartWorker n w) -> oc = Ends \/ oc = Raises ->
  step cf s (EBackend k oc now) = (s', o) -> objs s' !! n = Some c' -> x' ∈ c_workers c' -> w_name x' = w -> is_Some (objs s !! n) -> w_status x' = SUBMITTED.
Proof.
  intros Hk Hoc Hs Hc' Hx' E [c Hc]. simpl in Hs. unfold resume in Hs. rewrite Hk in Hs. destruct Hoc as [->| ->]; injection Hs as <- <-.
  - simpl in Hc'. rewrite (upd_worker_in (release k s) n w _ c Hc) in Hc'. injection Hc' as <-. simpl in Hx'.
    destruct (map_worker_name _ _ _ _ Hx' E) as (y & _ & _ & ->); done.
  - simpl in Hc'. rewrite lookup_alter, (upd_worker_in (release k s) n w _ c Hc) in Hc'. injection Hc' as <-. simpl in Hx'.
    destruct (map_worker_name _ _ _ _ Hx' E) as (y & _ & _ & ->); done.
Qed.
Lemma leads_starts_w cf s0 h s n w : GInv cf s0 -> one_life h -> leads cf s0 h s ->
  (length (List.filter (is_startw n w) (seen h)) <= 1)%nat /\
  (OStartW n w ∈ seen h -> (n < uuid s)%nat /\ (w < uuid s)%nat /\
    forall c x, objs s !! n = Some c -> x ∈ c_workers c -> w_name x = w -> starting_w s n w \/ w_status x <> CREATED).
Proof.
  intros HG Hl Hx. revert Hl. unfold leads in Hx. revert h s Hx.
  apply (exec_ind_r (step cf) s0 (fun h s => one_life h -> (length (List.filter (is_startw n w) (seen h)) <= 1)%nat /\
  (OStartW n w ∈ seen h -> (n < uuid s)%nat /\ (w < uuid s)%nat /\
    forall c x, objs s !! n = Some c -> x ∈ c_workers c -> w_name x = w -> starting_w s n w \/ w_status x <> CREATED))).
  - intros _. split; [simpl; lia|]. intros H. inversion H.
  - intros h s e o s' Hx IH Hs Hl. assert (one_life h) as Hl1 by (intros a b Hab; eapply Hl; apply elem_of_app; eauto).
    assert (crash e = false) as Ec by (eapply Hl; apply elem_of_app; right; by left).
    destruct (IH Hl1) as [IH1 IH2]. clear IH.
    assert (GInv cf s) as HGs by (eapply leads_GInv; [right; exact Hl1|exact HG|exact Hx]).
    rewrite seen_snoc, List.filter_app, app_length.
    destruct (decide (OStartW n w ∈ o)) as [Ho|Ho].
    + destruct (step_startw _ _ _ _ _ _ _ HGs Hs Ho) as (_ & -> & Hst & Hobj & c & x & Hc & Hxc & E0 & E1 & E2 & Hns). split.
      * simpl. rewrite bool_decide_eq_true_2 by done. simpl.
        assert (List.filter (is_startw n w) (seen h) = []) as ->; [|simpl; lia].
        apply filter_none. intros y Hxin. destruct (is_startw n w y) eqn:Ex; [|done]. destruct y; try discriminate Ex. simpl in Ex.
        apply bool_decide_eq_true in Ex as [-> ->]. destruct (IH2 Hxin) as (_ & _ & H). destruct (H c x Hc Hxc E0); [done|congruence].
      * intros _. destruct (Later_step cf s e s' [OStartW n w]) as [HU _]; [rewrite Ec; done|done|done|].
        destruct (g_fresh _ _ _ _ (proj1 HGs) _ _ Hc) as [F1 F2]. split; [lia|]. split.
        { assert (w < uuid s)%nat; [|lia]. apply F2. apply elem_of_list_fmap. eauto. }
        intros c1 x1 _ _ _. by left.
    + assert (List.filter (is_startw n w) o = []) as ->.
      { apply filter_none. intros x Hxin. destruct (is_startw n w x) eqn:Ex; [|done]. destruct x; try discriminate Ex. simpl in Ex.
        apply bool_decide_eq_true in Ex as [-> ->]. done. }
      split; [simpl; lia|]. intros [Hin|Hin]%elem_of_app; [|done]. destruct (IH2 Hin) as (Hu & Hw & Hst).
      destruct (Later_step cf s e s' o) as [HU HL]; [rewrite Ec; done|done|done|]. split; [lia|]. split; [lia|]. intros c' x' Hc' Hx' E.
      destruct (HL n c' Hu Hc') as (c & Hc & Hcl). destruct (l_old _ _ _ Hcl x' Hx') as (x & Hxc & Hev); [lia|].
      assert (w_name x = w) as E' by (rewrite <- E; symmetry; apply Hev).
      destruct (Hst c x Hc Hxc E') as [(k & Hk)|Hne]; [|right; by apply (we_created _ _ Hev)].
      destruct (step_starting cf s e s' o k _ HGs Hs Ec Hk) as [?|(oc & now & -> & Hoc)]; [left; exists k; done|]. right.
      erewrite (start_ends cf s k n w oc now s' o c' x'); eauto.
Qed.

(** * States and stops *)
Lemma last_cstate_app n l1 l2 : (forall st, OStateC n st ∉ l2) -> last_cstate n (l1 ++ l2) = last_cstate n l1.
Proof.
  intros H. unfold last_cstate. rewrite fold_left_app. generalize (fold_left (fun st o => match o with OStateC m st' => if decide (m = n) then st' else st | _ => st end) l1 0%nat) as a.
  induction l2 as [|o l2 IH]; intros a; simpl; [done|]. rewrite IH by (intros st Hin; apply (H st); by right).
  destruct o; try done. destruct (decide (n0 = n)) as [->|]; [|done]. exfalso. apply (H st). by left.
Qed.
Lemma last_wstate_app n w l1 l2 : (forall st, OStateW n w st ∉ l2) -> last_wstate n w (l1 ++ l2) = last_wstate n w l1.
Proof.
  intros H. unfold last_wstate. rewrite fold_left_app. generalize (fold_left (fun st o => match o with OStateW m v st' => if decide (m = n /\ v = w) then st' else st | _ => st end) l1 0%nat) as a.
  induction l2 as [|o l2 IH]; intros a; simpl; [done|]. rewrite IH by (intros st Hin; apply (H st); by right).
  destruct o; try done. destruct (decide (n0 = n /\ w0 = w)) as [[-> ->]|]; [|done]. exfalso. apply (H st). by left.
Qed.
Lemma last_cstate_snoc n l st : last_cstate n (l ++ [OStateC n st]) = st.
Proof. unfold last_cstate. rewrite fold_left_app. simpl. rewrite decide_True; done. Qed.
Lemma last_wstate_snoc n w l st : last_wstate n w (l ++ [OStateW n w st]) = st.
Proof. unfold last_wstate. rewrite fold_left_app. simpl. rewrite decide_True; done. Qed.
Lemma last_cstate_0 n l : (forall st, OStateC n st ∉ l) -> last_cstate n l = 0%nat.
Proof. intros H. apply (last_cstate_app n [] l H). Qed.
Lemma last_wstate_0 n w l : (forall st, OStateW n w st ∉ l) -> last_wstate n w l = 0%nat.
Proof. intros H. apply (last_wstate_app n w [] l H). Qed.
Lemma stop_called_c_app n l k : stop_called_c n l -> OStartC n ∉ k -> (forall st, OStateC n st ∉ k) -> stop_called_c n (l ++ k).
Proof.
  intros (l1 & l2 & -> & H1 & H2) H3 H4. exists l1, (l2 ++ k). split; [rewrite <- app_assoc; done|].
  split; [rewrite elem_of_app; tauto|]. intros st. rewrite elem_of_app. intros [?|?]; [eapply H2|eapply H4]; eauto.
Qed.
Lemma stop_called_w_app b n w l k : stop_called_w b n w l -> OStartW n w ∉ k -> (forall st, OStateW n w st ∉ k) -> stop_called_w b n w (l ++ k).
Proof.
  intros (l1 & o & l2 & -> & H0 & H1 & H2) H3 H4. exists l1, o, (l2 ++ k). split; [rewrite <- app_assoc; done|]. split; [done|].
  split; [rewrite elem_of_app; tauto|]. intros st. rewrite elem_of_app. intros [?|?]; [eapply H2|eapply H4]; eauto.
Qed.
Lemma start_cut_app cf n w h k : start_cut cf n w h -> start_cut cf n w (h ++ k).
Proof. intros (h1 & now & o & h2 & s & -> & H1 & H2). exists h1, now, o, (h2 ++ k), s. split; [rewrite <- app_assoc; done|done]. Qed.

Record Ops (cf : cfg) (h : list (event * list obs)) (s : gw) : Prop := {
  h_c : forall n st, OStateC n st ∈ seen h -> (n < uuid s)%nat;
  h_w : forall n w, (OStartW n w ∈ seen h \/ exists st, OStateW n w st ∈ seen h) -> (n < uuid s)%nat /\ (w < uuid s)%nat;
  h_cstate : forall n c, objs s !! n = Some c -> r_state (c_row c) = last_cstate n (seen h);
  h_wstate : forall n c x, objs s !! n = Some c -> x ∈ c_workers c -> w_state x = last_wstate n (w_name x) (seen h);
  h_cstop : forall n c, objs s !! n = Some c -> is_fin (c_status c) = true \/ stopping_c s n -> stop_called_c n (seen h);
  h_bulk : forall n c, objs s !! n = Some c -> stopping_c s n -> exists l1 st l2, seen h = l1 ++ OStopC n st :: l2 /\
           forall x, x ∈ c_workers c -> OStartW n (w_name x) ∉ l2 /\ forall st, OStateW n (w_name x) st ∉ l2;
  h_wstart : forall n c x, objs s !! n = Some c -> x ∈ c_workers c -> OStartW n (w_name x) ∈ seen h ->
           w_status x <> CREATED \/ starting_w s n (w_name x) \/ start_cut cf n (w_name x) h;
  h_wstop : forall n c x, objs s !! n = Some c -> x ∈ c_workers c -> OStartW n (w_name x) ∈ seen h ->
           is_fin (w_status x) = true \/ stopping_w s n (w_name x) ->
           stop_called_w (bulk cf) n (w_name x) (seen h) \/ start_cut cf n (w_name x) h;
  h_run : forall n c x, objs s !! n = Some c -> x ∈ c_workers c -> w_status x = RUNNING ->
           exists m now o, (EHeartbeat n m now, o) ∈ h /\ (w_name x ∈ m_active m \/ w_name x ∈ m_closing m) }.

(** In states where a cluster is closed or being stopped, nothing of it starts or reports. *)
Section quiet.
Context (cf : cfg) (s s' : gw) (e : event) (o : list obs) (n : nat) (c : cluster).
Hypothesis HG : GInv cf s.
Hypothesis Hs : step cf s e = (s', o).
Hypothesis Hc : objs s !! n = Some c.
Lemma cok_of : cok cf (Dof ∅ s) (Bof s) (routes s) n c.
Proof. apply (g_cok _ _ _ _ (proj1 HG)). done. Qed.
Lemma wok_of x : x ∈ c_workers c -> wk_ok cf (Dof ∅ s) (Bof s) n (c_status c) x.
Proof. intros Hx. pose proof (k_workers _ _ _ _ _ _ cok_of) as H. rewrite Forall_forall in H. auto. Qed.
Lemma quiet_c : is_fin (c_status c) = true \/ stopping_c s n -> OStartC n ∉ o /\ forall st, OStateC n st ∉ o.
Proof.
  intros Hf. assert (c_status c <> CREATED) as Hne.
  { destruct Hf as [Hf|Hf]; [intros E; rewrite E in Hf; done|]. destruct (b_stop _ _ _ _ _ _ cok_of Hf) as [-> _]. done. }
  split.
  - intros Hin. destruct (step_startc _ _ _ _ _ _ HG Hs Hin) as (_ & _ & _ & _ & d & Hd & E & _). congruence.
  - intros st Hin. destruct (step_statec _ _ _ _ _ _ _ HG Hs Hin) as (_ & (k & now & _ & Hk) & _). apply Hne.
    apply (b_start _ _ _ _ _ _ cok_of). exists k. done.
Qed.
Lemma same_worker x y : x ∈ c_workers c -> y ∈ c_workers c -> w_name x = w_name y -> x = y.
Proof. intros. eapply worker_eq; eauto. apply HG. Qed.
Lemma quiet_w x : x ∈ c_workers c -> is_fin (w_status x) = true \/ stopping_w s n (w_name x) \/ stopping_c s n ->
  OStartW n (w_name x) ∉ o /\ forall st, OStateW n (w_name x) st ∉ o.
Proof.
  intros Hx Hf. pose proof (wok_of x Hx) as Hok.
  assert (w_status x <> CREATED /\ ~ starting_w s n (w_name x)) as [Hne Hns].
  { destruct Hf as [Hf|[Hf|Hf]].
    - split; [intros E; rewrite E in Hf; done|]. intros Hb. destruct (wb_start _ _ _ _ _ _ Hok Hb) as [[E|E] _]; rewrite E in Hf; done.
    - destruct (wb_stop _ _ _ _ _ _ Hok Hf) as [_ E]. split; [done|]. intros (k' & Hk'). destruct Hf as (k & Hk).
      assert (k = k') as -> by (eapply (g_inj _ _ _ _ (proj1 HG)); eauto; done). congruence.
    - destruct (b_stop _ _ _ _ _ _ cok_of Hf) as [Ecl Hr]. assert (jge (w_status x) CLOSING = true) as Hge.
      { unfold ready_to_close, all_at_least in Hr. apply orb_true_iff in Hr as [Hr|Hr].
        - apply andb_true_iff in Hr as [_ Hr]. apply andb_true_iff in Hr as [_ Hr]. rewrite forallb_forall in Hr. apply Hr, elem_of_list_In. done.
        - rewrite forallb_forall in Hr. specialize (Hr x). rewrite <- elem_of_list_In in Hr. specialize (Hr Hx). destruct (w_status x); done. }
      split; [intros E; rewrite E in Hge; done|]. intros Hb. destruct (wb_start _ _ _ _ _ _ Hok Hb) as [[E|E] _]; rewrite E in Hge; done. }
  split.
  - intros Hin. destruct (step_startw _ _ _ _ _ _ _ HG Hs Hin) as (_ & _ & _ & _ & d & y & Hd & Hy & E & E1 & _).
    assert (d = c) as -> by congruence. apply Hne. rewrite (same_worker x y); auto.
  - intros st Hin. destruct (step_statew _ _ _ _ _ _ _ _ HG Hs Hin) as (_ & (k & now & _ & Hk) & _). apply Hns. exists k. done.
Qed.
End quiet.

Lemma no_statec n (o : list obs) : (exists st, OStateC n st ∈ o) \/ forall st, OStateC n st ∉ o.
Proof.
  induction o as [|a o IH]; [right; intros st H; inversion H|]. destruct IH as [(st & H)|H]; [left; exists st; by right|].
  assert ((exists st, a = OStateC n st) \/ forall st, a <> OStateC n st) as [(st & ->)|Ha].
  { destruct a; try (right; done). destruct (decide (n0 = n)) as [->|]; [left; eauto|right; congruence]. }
  - left. exists st. by left.
  - right. intros st [E|?]%elem_of_cons; [by eapply Ha|by eapply H].
Qed.
Lemma no_statew n w (o : list obs) : (exists st, OStateW n w st ∈ o) \/ forall st, OStateW n w st ∉ o.
Proof.
  induction o as [|a o IH]; [right; intros st H; inversion H|]. destruct IH as [(st & H)|H]; [left; exists st; by right|].
  assert ((exists st, a = OStateW n w st) \/ forall st, a <> OStateW n w st) as [(st & ->)|Ha].
  { destruct a; try (right; done). destruct (decide (n0 = n /\ w0 = w)) as [[-> ->]|]; [left; eauto|right; intros st' [= -> ->]; tauto]. }
  - left. exists st. by left.
  - right. intros st [E|?]%elem_of_cons; [by eapply Ha|by eapply H].
Qed.
Lemma busy_names cf s k p : GInv cf s -> busy s !! k = Some p -> exists c, objs s !! (pc_item p).1 = Some c /\ ((pc_item p).1 < uuid s)%nat /\
  forall w, (pc_item p).2 = Some w -> (w < uuid s)%nat.
Proof.
  intros [HI _] Hk. destruct (g_pcs _ _ _ _ HI _ _ Hk) as (c & Hc & Hw). exists c. destruct (g_fresh _ _ _ _ HI _ _ Hc) as [F1 F2]. auto.
Qed.
Lemma step_names_c cf s e s' o n st : GInv cf s -> step cf s e = (s', o) -> OStateC n st ∈ o -> (n < uuid s)%nat /\ is_Some (objs s !! n).
Proof.
  intros HG Hs Hin. destruct (step_statec _ _ _ _ _ _ _ HG Hs Hin) as (_ & (k & now & _ & Hk) & _).
  destruct (busy_names _ _ _ _ HG Hk) as (c & Hc & Hu & _). simpl in *. eauto.
Qed.
Lemma step_names_w cf s e s' o n w : GInv cf s -> step cf s e = (s', o) -> (OStartW n w ∈ o \/ exists st, OStateW n w st ∈ o) ->
  (n < uuid s)%nat /\ (w < uuid s)%nat /\ is_Some (objs s !! n).
Proof.
  intros HG Hs [Hin|(st & Hin)].
  - destruct (step_startw _ _ _ _ _ _ _ HG Hs Hin) as (_ & _ & _ & _ & c & x & Hc & Hx & E & _).
    destruct (g_fresh _ _ _ _ (proj1 HG) _ _ Hc) as [F1 F2]. split; [done|]. split; [|eauto]. apply F2, elem_of_list_fmap. eauto.
  - destruct (step_statew _ _ _ _ _ _ _ _ HG Hs Hin) as (_ & (k & now & _ & Hk) & _).
    destruct (busy_names _ _ _ _ HG Hk) as (c & Hc & Hu & Hw). simpl in *. split; [done|]. split; [auto|eauto].
Qed.

Section ops_step.
Context (cf : cfg) (h : list (event * list obs)) (s : gw) (e : event) (o : list obs) (s' : gw).
Hypothesis Hr : reach cf h s.
Hypothesis HG : GInv cf s.
Hypothesis HO : Ops cf h s.
Hypothesis Hs : step cf s e = (s', o).
Notation h' := (h ++ [(e, o)]).

Lemma ops_restart : (crash e = true) -> fresh_ids cf -> Ops cf h' s'.
Proof.
  intros Ec (fc & fw & Hid). destruct e; try discriminate Ec. simpl in Hs. injection Hs as <- <-. destruct HO.
  pose proof (seen_snoc h (ERestart now) []) as Hseen. rewrite app_nil_r in Hseen.
  destruct (proj2 HG fc fw Hid) as [Hy _].
  assert (busy (restart cf now s) = ∅) as Hb by (rewrite restart_eq, busy_puts; done).
  assert (forall n d, objs (restart cf now s) !! n = Some d -> exists c, objs s !! n = Some c /\ reloaded now c d) as Hobj.
  { intros n d Hd. pose proof (restart_objs cf fc fw now s n Hy) as H. rewrite Hd in H. destruct H as (c & _ & Hc & Hrl). eauto. }
  assert (forall n, ~ stopping_c (restart cf now s) n) as NC by (intros n (k & Hk); rewrite Hb, lookup_empty in Hk; done).
  assert (forall n w, ~ stopping_w (restart cf now s) n w) as NW by (intros n w (k & Hk); rewrite Hb, lookup_empty in Hk; done).
  constructor; rewrite ?Hseen, ?restart_uuid; auto.
  - intros n d Hd. destruct (Hobj n d Hd) as (c & Hc & []). rewrite rl_row. auto.
  - intros n d x Hd Hx. destruct (Hobj n d Hd) as (c & Hc & []). rewrite rl_workers in Hx. eauto.
  - intros n d Hd [Hf|Hf]; [|by apply NC in Hf]. destruct (Hobj n d Hd) as (c & Hc & []). unfold c_status in Hf. rewrite rl_row in Hf. eauto.
  - intros n d Hd Hf. by apply NC in Hf.
  - intros n d x Hd Hx Hin. destruct (Hobj n d Hd) as (c & Hc & []). rewrite rl_workers in Hx.
    destruct (h_wstart0 n c x Hc Hx Hin) as [?|[?|?]]; [auto| |right; right; by apply start_cut_app].
    right; right. exists h, now, [], [], s. done.
  - intros n d x Hd Hx Hin [Hf|Hf]; [|by apply NW in Hf]. destruct (Hobj n d Hd) as (c & Hc & []). rewrite rl_workers in Hx.
    destruct (h_wstop0 n c x Hc Hx Hin) as [?|?]; [auto..|right; by apply start_cut_app].
  - intros n d x Hd Hx Hrn. destruct (Hobj n d Hd) as (c & Hc & []). rewrite rl_workers in Hx.
    destruct (h_run0 n c x Hc Hx Hrn) as (m & t & os & Hin & Hw). exists m, t, os. split; [|done]. apply elem_of_app. auto.
Qed.

Lemma ops_plain : crash e = false -> Ops cf h' s'.
Proof.
  intros Ec. pose proof (step_tracked cf s e (proj1 HG) Ec) as HT. rewrite Hs in HT. simpl in HT. destruct HT as [T1 T2 T3].
  assert (Later s s') as HL by (eapply (Later_step cf s e); [rewrite Ec; done|done|done]).
  assert (GInv cf s') as HG' by (eapply (GInv_step cf s e); [rewrite Ec; done|done|done]).
  destruct HO. pose proof (seen_snoc h e o) as Hseen.
  (* old and new clusters and workers *)
  assert (forall n c', objs s' !! n = Some c' -> objs s !! n = None -> (forall st, OStateC n st ∉ seen h ++ o) /\ ~ stopping_c s' n) as Hnewc.
  { intros n c' Hc' Hn. destruct (T3 n c' Hn Hc') as (Hu & _). split.
    - intros st [Hin|Hin]%elem_of_app; [apply h_c0 in Hin; lia|]. destruct (step_names_c _ _ _ _ _ _ _ HG Hs Hin). lia.
    - intros Hst. destruct (step_stopping_c _ _ _ _ _ _ HG Hs Hst) as [(k & Hk)|(c & Hc & _)]; [|congruence].
      destruct (busy_names _ _ _ _ HG Hk) as (c & Hc & _). simpl in Hc. congruence. }
  assert (forall n w, (uuid s <= w)%nat -> OStartW n w ∉ seen h ++ o /\ forall st, OStateW n w st ∉ seen h ++ o) as Hneww.
  { intros n w Hw. split.
    - intros [Hin|Hin]%elem_of_app.
      + destruct (h_w0 n w); [auto|lia].
      + destruct (step_names_w _ _ _ _ _ n w HG Hs) as (_ & ? & _); [auto|lia].
    - intros st [Hin|Hin]%elem_of_app.
      + destruct (h_w0 n w); [eauto|lia].
      + destruct (step_names_w _ _ _ _ _ n w HG Hs) as (_ & ? & _); [eauto|lia]. }
  assert (forall n c' x', objs s' !! n = Some c' -> x' ∈ c_workers c' ->
          (exists c x, objs s !! n = Some c /\ x ∈ c_workers c /\ wP s e n x x' /\ cP s e n c c') \/
          (OStartW n (w_name x') ∉ seen h ++ o /\ (forall st, OStateW n (w_name x') st ∉ seen h ++ o) /\ w_state x' = 0%nat /\ w_status x' = CREATED /\ (uuid s <= w_name x')%nat)) as Hw.
  { intros n c' x' Hc' Hx'. destruct (objs s !! n) as [c|] eqn:Hc.
    - destruct (T2 n c c' Hc Hc') as [HP HW]. destruct (HW x' Hx') as [(x & Hx & Hq)|(W1 & W2 & W3)]; [left; exists c, x; done|].
      right. destruct (Hneww n (w_name x') W1). auto.
    - destruct (T3 n c' Hc Hc') as (Hu & _ & _ & _ & HW). destruct (HW x' Hx') as (W1 & W2 & W3). right. destruct (Hneww n (w_name x') W1). auto. }
  constructor; rewrite ?Hseen.
  - intros n st [Hin|Hin]%elem_of_app; [apply h_c0 in Hin; lia|]. destruct (step_names_c _ _ _ _ _ _ _ HG Hs Hin). lia.
  - intros n w Hin. assert ((OStartW n w ∈ seen h \/ exists st, OStateW n w st ∈ seen h) \/ (OStartW n w ∈ o \/ exists st, OStateW n w st ∈ o)) as [H|H].
    { destruct Hin as [Hin|(st & Hin)]; apply elem_of_app in Hin as [?|?]; eauto. }
    + destruct (h_w0 n w H). lia.
    + destruct (step_names_w _ _ _ _ _ n w HG Hs H) as (? & ? & _). lia.
  - intros n c' Hc'. destruct (objs s !! n) as [c|] eqn:Hc.
    2:{ destruct (T3 n c' Hc Hc') as (_ & E & _). rewrite E. symmetry. apply last_cstate_0. apply (Hnewc n c'); done. }
    destruct (T2 n c c' Hc Hc') as [HP _]. destruct (no_statec n o) as [(st & Hin)|Hno].
    + destruct (step_statec _ _ _ _ _ _ _ HG Hs Hin) as (-> & _ & ->). rewrite last_cstate_snoc.
      rewrite (row_upd s n _ c Hc), lookup_insert in Hc'. injection Hc' as <-. done.
    + rewrite last_cstate_app by done. rewrite <- (h_cstate0 n c Hc). destruct (p_state _ _ _ _ _ HP) as [E|(k & st & now & Ee & Hk)]; [done|].
      exfalso. subst e. simpl in Hs. unfold resume in Hs. rewrite Hk in Hs. injection Hs as <- <-. apply (Hno st). by left.
  - intros n c' x' Hc' Hx'. destruct (Hw n c' x' Hc' Hx') as [(c & x & Hc & Hx & HQ & _)|(_ & Hn & -> & _)]; [|symmetry; by apply last_wstate_0].
    destruct (no_statew n (w_name x') o) as [(st & Hin)|Hno].
    + destruct (step_statew _ _ _ _ _ _ _ _ HG Hs Hin) as (-> & _ & ->). rewrite last_wstate_snoc.
      rewrite (upd_worker_in s n _ _ c Hc) in Hc'. injection Hc' as <-. simpl in Hx'.
      destruct (map_worker_name _ _ _ _ Hx' eq_refl) as (y & _ & _ & E); [done|]. rewrite E. done.
    + rewrite last_wstate_app by done. rewrite (q_name _ _ _ _ _ HQ) in Hno |- *. rewrite <- (h_wstate0 n c x Hc Hx).
      destruct (q_state _ _ _ _ _ HQ) as [E|(k & st & now & Ee & Hk)]; [done|].
      exfalso. subst e. simpl in Hs. unfold resume in Hs. rewrite Hk in Hs. injection Hs as <- <-. apply (Hno st). by left.
  - intros n c' Hc' Hf. destruct (objs s !! n) as [c|] eqn:Hc.
    2:{ exfalso. destruct (T3 n c' Hc Hc') as (_ & _ & E & _). destruct (Hnewc n c' Hc' Hc) as [_ Hns]. destruct Hf; [congruence|done]. }
    destruct (T2 n c c' Hc Hc') as [HP _].
    assert (is_fin (c_status c) = true \/ stopping_c s n \/ o = [OStopC n (r_state (c_row c))]) as Hcase.
    { destruct Hf as [Hf|Hf].
      - destruct (p_fin _ _ _ _ _ HP Hf); auto.
      - destruct (step_stopping_c _ _ _ _ _ _ HG Hs Hf) as [?|(d & Hd & E & _)]; [auto|]. assert (d = c) as -> by congruence. auto. }
    assert (is_fin (c_status c) = true \/ stopping_c s n -> stop_called_c n (seen h ++ o)) as Hold.
    { intros H. destruct (quiet_c cf s s' e o n c HG Hs Hc H). apply stop_called_c_app; eauto. }
    destruct Hcase as [?|[?| ->]]; [auto..|]. exists (seen h), []. rewrite (h_cstate0 n c Hc). split; [done|].
    split; [intros H; inversion H|]. intros st H; inversion H.
  - intros n c' Hc' Hf. destruct (step_stopping_c _ _ _ _ _ _ HG Hs Hf) as [Hst|(c & Hc & -> & Ho & _)].
    + assert (exists c, objs s !! n = Some c) as [c Hc]. { destruct Hst as (k & Hk). destruct (busy_names _ _ _ _ HG Hk) as (c & Hc & _). eauto. }
      destruct (h_bulk0 n c Hc Hst) as (l1 & st & l2 & E & Hq). exists l1, st, (l2 ++ o). split; [rewrite E, <- app_assoc; done|].
      intros x' Hx'. destruct (Hw n c' x' Hc' Hx') as [(d & x & Hd & Hx & HQ & _)|(H1 & H2 & _)].
      * assert (d = c) as -> by congruence. rewrite (q_name _ _ _ _ _ HQ). destruct (Hq x Hx) as [Q1 Q2].
        destruct (quiet_w cf s s' e o n c HG Hs Hc x Hx) as [Q3 Q4]; [auto|]. split; [rewrite elem_of_app; tauto|].
        intros st'. rewrite elem_of_app. intros [?|?]; [by eapply Q2|by eapply Q4].
      * rewrite E in H1, H2. split; [intros H; apply H1|intros st' H; apply (H2 st')]; rewrite <- app_assoc; apply elem_of_app; right; simpl; by right.
    + exists (seen h), (r_state (c_row c)), []. split; [done|]. intros x' _. split; [|intros st]; intros H; inversion H.
  - intros n c' x' Hc' Hx' Hin. destruct (Hw n c' x' Hc' Hx') as [(c & x & Hc & Hx & HQ & _)|(H1 & _)]; [|done].
    rewrite (q_name _ _ _ _ _ HQ) in Hin |- *. apply elem_of_app in Hin as [Hin|Hin].
    2:{ destruct (step_startw _ _ _ _ _ _ _ HG Hs Hin) as (_ & _ & ? & _). auto. }
    destruct (h_wstart0 n c x Hc Hx Hin) as [Hne|[(k & Hk)|?]]; [| |right; right; by apply start_cut_app].
    + left. destruct HL as [_ HL]. destruct (g_fresh _ _ _ _ (proj1 HG) _ _ Hc) as [F1 F2]. destruct (HL n c' F1 Hc') as (d & Hd & Hcl).
      assert (d = c) as -> by congruence. destruct (l_old _ _ _ Hcl x' Hx') as (y & Hy & Hev).
      { rewrite (q_name _ _ _ _ _ HQ). apply F2, elem_of_list_fmap. eauto. }
      assert (y = x) as ->. { eapply worker_eq; eauto; [apply HG|]. rewrite <- (we_name _ _ Hev). apply HQ. }
      by apply (we_created _ _ Hev).
    + destruct (step_starting cf s e s' o k _ HG Hs Ec Hk) as [?|(oc & now & Ee & Hoc)]; [right; left; exists k; done|]. left.
      subst e. erewrite (start_ends cf s k n (w_name x) oc now s' o c' x'); eauto. apply HQ.
  - intros n c' x' Hc' Hx' Hin Hf. destruct (Hw n c' x' Hc' Hx') as [(c & x & Hc & Hx & HQ & HP)|(H1 & _)]; [|done].
    rewrite (q_name _ _ _ _ _ HQ) in Hin, Hf |- *.
    assert (is_fin (w_status x) = true \/ stopping_w s n (w_name x) \/ stopping_c s n -> OStartW n (w_name x) ∈ seen h) as Hin'.
    { intros H. apply elem_of_app in Hin as [?|Hin]; [done|]. destruct (quiet_w cf s s' e o n c HG Hs Hc x Hx H) as [Q _]. done. }
    assert (is_fin (w_status x) = true \/ stopping_w s n (w_name x) -> stop_called_w (bulk cf) n (w_name x) (seen h ++ o) \/ start_cut cf n (w_name x) h') as Hold.
    { intros H. assert (is_fin (w_status x) = true \/ stopping_w s n (w_name x) \/ stopping_c s n) as H' by tauto.
      destruct (quiet_w cf s s' e o n c HG Hs Hc x Hx H') as [Q1 Q2].
      destruct (h_wstop0 n c x Hc Hx (Hin' H') H); [left; by apply stop_called_w_app|right; by apply start_cut_app]. }
    destruct Hf as [Hf|Hf].
    + destruct (q_fin _ _ _ _ _ HQ Hf) as [?|[?|[[Hcr Hns]|Hb]]]; [by auto..| |].
      * (* dropped before it was started *)
        apply elem_of_app in Hin as [Hin|Hin].
        -- destruct (h_wstart0 n c x Hc Hx Hin) as [?|[?|?]]; [done|done|right; by apply start_cut_app].
        -- exfalso. destruct (step_startw _ _ _ _ _ _ _ HG Hs Hin) as (_ & _ & _ & Ho & _). rewrite Ho in Hc'. assert (c' = c) as -> by congruence.
           assert (x' = x) as -> by (eapply worker_eq; eauto; [apply HG|apply HQ]). rewrite Hcr in Hf. done.
      * destruct (is_fin (w_status x)) eqn:Hfx; [auto|].
        destruct (quiet_w cf s s' e o n c HG Hs Hc x Hx) as [Q1 Q2]; [auto|].
        destruct (h_bulk0 n c Hc Hb) as (l1 & st & l2 & E & Hq). destruct (Hq x Hx) as [Q3 Q4].
        left. exists l1, (OStopC n st), (l2 ++ o). split; [rewrite E, <- app_assoc; done|]. split.
        -- right. split; [|eauto]. destruct (b_stop _ _ _ _ _ _ (cok_of cf s n c HG Hc) Hb) as [_ Hrd].
           unfold ready_to_close, all_at_least in Hrd. apply orb_true_iff in Hrd as [Hrd|Hrd].
           ++ apply andb_true_iff in Hrd as [_ Hrd]. apply andb_true_iff in Hrd as [Hrd _]. done.
           ++ rewrite forallb_forall in Hrd. specialize (Hrd x). rewrite <- elem_of_list_In in Hrd. specialize (Hrd Hx). unfold is_fin in Hfx. congruence.
        -- split; [rewrite elem_of_app; tauto|]. intros st'. rewrite elem_of_app. intros [?|?]; [by eapply Q4|by eapply Q2].
    + destruct (step_stopping_w _ _ _ _ _ _ _ HG Hs Hf) as [?|(d & y & Hd & Hy & E & -> & _)]; [auto|]. left.
      assert (d = c) as -> by congruence. assert (y = x) as -> by (eapply worker_eq; eauto; apply HG).
      exists (seen h), (OStopW n (w_name x) (w_state x)), []. split; [done|]. rewrite (h_wstate0 n c x Hc Hx). split; [by left|].
      split; [|intros st]; intros H; inversion H.
  - intros n c' x' Hc' Hx' Hrun. destruct (Hw n c' x' Hc' Hx') as [(c & x & Hc & Hx & HQ & _)|(_ & _ & _ & E & _)]; [|congruence].
    rewrite (q_name _ _ _ _ _ HQ). destruct (q_run _ _ _ _ _ HQ Hrun) as [Hold|(m & now & Ee & Hm)].
    + destruct (h_run0 n c x Hc Hx Hold) as (m & t & os & Hin & Hm). exists m, t, os. split; [|done]. apply elem_of_app. auto.
    + exists m, now, o. split; [|done]. apply elem_of_app. right. rewrite Ee. by left.
Qed.
End ops_step.
Lemma reach_ops cf h s : ids_ok cf h -> reach cf h s -> Ops cf h s.
Proof.
  intros Hid Hr. revert Hid. unfold reach in Hr. revert h s Hr.
  apply (exec_ind_r (step cf) (gw_init cf) (fun h s => ids_ok cf h -> Ops cf h s)).
  - intros _. constructor; simpl; try (intros; exfalso; rewrite ?lookup_empty in *; done).
    + intros n st H. inversion H.
    + intros n w [H|[st H]]; inversion H.
  - intros h s e o s' Hx IH Hs Hid. destruct (ids_ok_app _ _ _ Hid) as [Hid1 Hid2].
    pose proof (reach_GInv cf h s Hid1 Hx) as HG. destruct (crash e) eqn:Ec.
    + eapply ops_restart; eauto. eapply (ids_ok_crash cf _ e o Hid2); [by left|done].
    + eapply ops_plain; eauto.
Qed.
