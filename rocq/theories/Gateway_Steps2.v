(** Reconcilers preserve the invariant of the gateway model. *)
From Coq Require Import ZArith Lia.
From stdpp Require Import prelude gmap.
From Verif Require Import Trace WorkQueue_Model WorkQueue_Proofs Router_Model Gateway_Model Gateway_Inv Gateway_Steps.
Open Scope Z_scope.

(** ** The queue *)
Lemma qputs_q xs s : q (qputs xs s) = fold_left (fun qq x => put x qq) xs (q s).
Proof. unfold qputs. revert s. induction xs as [|x xs IH]; intros s; simpl; [done|]. rewrite IH. done. Qed.

Lemma get_turn_item (k : nat) (qq q' : wq item) x : get_turn k qq = (q', Some (Item x)) ->
  (exists l, queue qq = x :: l /\ queue q' = l) /\ processing q' = {[x]} ∪ processing qq /\
  dirty q' = dirty qq ∖ {[x]} /\ timers q' = timers qq /\ tasks q' = delete k (tasks qq).
Proof.
  unfold get_turn, get_. destruct (queue qq) as [|y l] eqn:Hq.
  - destruct (closed qq); intros [=].
  - destruct (closed qq); intros [=]. subst. simpl. split; [eauto|done].
Qed.
Lemma get_turn_other (k : nat) (qq q' : wq item) r : get_turn k qq = (q', r) -> (forall x, r <> Some (Item x)) ->
  queue q' = queue qq /\ processing q' = processing qq /\ dirty q' = dirty qq /\ timers q' = timers qq /\
  (forall j, j <> k -> tasks qq !! j = None -> tasks q' !! j = None).
Proof.
  unfold get_turn, get_. destruct (queue qq) as [|y l] eqn:Hq.
  - destruct (closed qq); intros [= <- <-] Hr; simpl; repeat (split; [done|]); intros j Hj Hk.
    + rewrite lookup_delete_ne; done.
    + rewrite lookup_insert_ne; done.
  - destruct (closed qq); intros [= <- <-] Hr; simpl.
    + repeat (split; [done|]). intros j Hj Hk. rewrite lookup_delete_ne; done.
    + exfalso. eapply Hr. done.
Qed.

Section steps2.
Context (cf : cfg) (s0 : gw).
Hypothesis Hrow0 : forall n c, objs s0 !! n = Some c -> row_ok (c_row c).
Notation Good := (Good cf s0).

(** Another queue with the same contents. *)
Lemma Good_queue cur X s q' : Good cur X s ->
  queue q' = queue (q s) -> processing q' = processing (q s) -> dirty q' = dirty (q s) -> timers q' = timers (q s) ->
  (forall j p, busy s !! j = Some p -> tasks (q s) !! j = None -> tasks q' !! j = None) -> Good cur X (set_q q' s).
Proof.
  intros [HI HE] H1 H2 H3 H4 H5. split; [|exact HE]. destruct HI. constructor; simpl; auto.
  - destruct g_q. constructor; rewrite ?H1, ?H2, ?H3; auto.
  - intros x. rewrite H2. auto.
  - intros k p Hk. eapply H5; eauto.
  - unfold Bof, Dof, pend in *. simpl. rewrite H3, H4. auto.
Qed.

(** ** The end of an item *)
Lemma Good_finish x s : Good (Some x) ∅ s -> Good None ∅ (finish x s).
Proof. intros [HI HE]. split; [by apply Inv_finish|]. eapply Evolve_same; [exact HE|done]. Qed.

Lemma Inv_drop cur x s : Inv cf cur {[x]} s ->
  (forall c, objs s !! x.1 = Some c -> cok cf (Dof {[x]} s) (Bof s) (routes s) x.1 c -> cok cf (Dof ∅ s) (Bof s) (routes s) x.1 c) ->
  Inv cf cur ∅ s.
Proof.
  intros HI Hc. destruct HI. constructor; auto. intros n c Hn.
  destruct (decide (n = x.1)) as [->|E]; [auto|]. eapply cok_mono; [| | |apply g_cok; exact Hn]; auto.
  intros y Hy [?|H]; [left; done|]. apply elem_of_singleton in H. subst y. congruence.
Qed.
Lemma Good_drop cur x s : Good cur {[x]} s ->
  (forall c, objs s !! x.1 = Some c -> cok cf (Dof {[x]} s) (Bof s) (routes s) x.1 c -> cok cf (Dof ∅ s) (Bof s) (routes s) x.1 c) ->
  Good cur ∅ s.
Proof. intros [HI HE] Hc. split; [by eapply Inv_drop|done]. Qed.

Lemma not_busy x X s p : Inv cf (Some x) X s -> Bof s p -> pc_item p <> x.
Proof. intros HI (k & Hk) E. eapply (g_cur _ _ _ _ HI); [exact Hk|]. congruence. Qed.

Lemma Dof_one x s y : y <> x -> Dof {[x]} s y -> Dof ∅ s y.
Proof. intros E [?|H]; [left; done|]. apply elem_of_singleton in H. done. Qed.

(** Workers do not look at the cluster's item. *)
Lemma wk_ok_other (D D' : item -> Prop) (B : pc -> Prop) n cs ws : (forall w, D (n, Some w) -> D' (n, Some w)) ->
  Forall (wk_ok cf D B n cs) ws -> Forall (wk_ok cf D' B n cs) ws.
Proof.
  intros HD Hw. eapply Forall_impl; [exact Hw|]. intros w []. constructor; auto.
  - intros H1 H2. destruct (wo_start H1 H2); auto.
  - intros H1 H2. destruct (wo_stop H1 H2); auto.
  - intros H1. destruct (wb_start H1) as [? [?|?]]; auto.
Qed.
Lemma cok_drop (D D' : item -> Prop) (B : pc -> Prop) R n c : cok cf D B R n c ->
  (forall w, D (n, Some w) -> D' (n, Some w)) ->
  (c_status c = CREATED -> c_target c = RUNNING -> D' (n, None) \/ B (InStartCluster n)) ->
  (jlt (c_status c) CLOSING = true -> c_target c <> RUNNING -> D' (n, None)) ->
  (c_status c = CLOSING -> ready_to_close cf c = true -> D' (n, None) \/ B (InStopCluster n)) ->
  (c_status c = RUNNING -> c_target c = RUNNING -> c_proxied c = false -> D' (n, None)) ->
  (c_status c = RUNNING -> c_target c = RUNNING -> r_count (c_row c) <= Z.of_nat (n_covers c) \/ D' (n, None)) ->
  cok cf D' B R n c.
Proof. intros [] HD H1 H2 H3 H4 H5. constructor; auto. eapply wk_ok_other; eauto. Qed.

(** ** Cluster operations *)

(** _cluster_to_running *)
Lemma wk_ok_status (D : item -> Prop) (B : pc -> Prop) n cs cs' w :
  jlt cs CLOSING = true -> jlt cs' CLOSING = true -> wk_ok cf D B n cs w -> wk_ok cf D B n cs' w.
Proof.
  intros H1 H2 []. constructor; auto.
  - destruct cs'; done.
  - destruct cs'; done.
Qed.
Lemma Good_running cur s n c : Good cur {[(n, None)]} s -> objs s !! n = Some c -> c_status c = SUBMITTED ->
  c_target c = RUNNING -> r_sched (c_row c) <> [] ->
  Good cur {[(n, None)]} (upd_obj n (cset_ready true) (update_cluster n (rset_status RUNNING) s)).
Proof.
  intros HG Hn Hs Ht Hr.
  destruct (update_cluster_spec n (rset_status RUNNING) s c Hn) as [Ho1 Hs1].
  destruct (upd_obj_spec n (cset_ready true) (update_cluster n (rset_status RUNNING) s) (cset_row (rset_status RUNNING (c_row c)) c)) as [Ho2 Hs2].
  { rewrite Ho1. apply lookup_insert. }
  rewrite Ho1, insert_insert in Ho2.
  pose proof (same_rest_trans _ _ _ Hs1 Hs2) as Hs3. clear Hs1 Hs2 Ho1.
  eapply Good_set; eauto.
  - pose proof (evolve_refl c) as []. constructor; auto.
    + rewrite Hs. simpl. lia.
    + rewrite Hs. done.
  - intros []. assert (Dof {[(n, None)]} s (n, None)) as HDn by (right; set_solver).
    assert (c_proxied c = false) as Hp.
    { destruct (c_proxied c); [|done]. rewrite Hs in k_proxied. specialize (k_proxied eq_refl). done. }
    rewrite Hp in *. simpl in *.
    constructor; try done; auto.
    + destruct k_row. unfold c_status, c_target in *. constructor; simpl; auto; try done. rewrite Hs in ro_stop. exact ro_stop.
    + rewrite Hs in k_shut. done.
    + eapply Forall_impl; [exact k_workers|]. intros w. apply wk_ok_status; [rewrite Hs|]; done.
    + intros _. simpl. rewrite Hp. apply k_sni. left. rewrite Hs. done.
    + intros _. simpl. rewrite Hp. apply k_path. left. rewrite Hs. done.
    + intros Hb. rewrite b_start in Hs; done.
    + intros Hb. destruct (b_stop Hb). congruence.
Qed.

(** _check_cluster_proxied *)
Lemma Good_proxied cur s n c : Good cur {[(n, None)]} s -> objs s !! n = Some c -> c_status c = RUNNING ->
  c_target c = RUNNING ->
  Good cur {[(n, None)]} (check_proxied n s) /\
  exists c', objs (check_proxied n s) !! n = Some c' /\ c_row c' = c_row c /\ c_workers c' = c_workers c /\ c_proxied c' = true.
Proof.
  intros HG Hn Hs Ht. unfold check_proxied. rewrite Hn. destruct (c_proxied c) eqn:Hp.
  { split; [done|]. exists c. done. }
  set (rs := match r_dash (c_row c) with [] => routes s | d => <[(RPATH, n) := d]> (routes s) end).
  set (s1 := set_routes (<[(RSNI, n) := r_sched (c_row c)]> rs) s).
  destruct (upd_obj_spec n (cset_proxied true) s1 c Hn) as [Ho Hr].
  split. 2:{ rewrite Ho. exists (cset_proxied true c). rewrite lookup_insert. done. }
  destruct HG as [HI HE]. destruct Hr as (R1 & R2 & R3 & R4 & R5).
  pose proof (g_cok _ _ _ _ HI _ _ Hn) as [].
  split.
  2:{ eapply Evolve_set; eauto. pose proof (evolve_refl c) as []. constructor; auto. }
  eapply Inv_set; eauto.
  - intros k m E. rewrite R3. simpl. rewrite lookup_insert_ne by congruence.
    unfold rs. destruct (r_dash (c_row c)); [done|]. rewrite lookup_insert_ne by congruence. done.
  - intros w. rewrite R4. apply (g_fresh _ _ _ _ HI _ _ Hn).
  - assert (Dof {[(n, None)]} (upd_obj n (cset_proxied true) s1) = Dof {[(n, None)]} s) as -> by (unfold Dof; rewrite R1; done).
    rewrite Hp in k_sni, k_path. simpl in *. 
    change (c_status (cset_proxied true c)) with (c_status c) in *.
    constructor; auto; change (c_status (cset_proxied true c)) with (c_status c).
    + rewrite Hs. done.
    + simpl. rewrite lookup_insert. rewrite Hs. done.
    + simpl. intros _. rewrite lookup_insert_ne by congruence. rewrite Hs. simpl. unfold rs.
      destruct (r_dash (c_row c)); [apply k_path; left; rewrite Hs; done|]. rewrite ?lookup_insert. done.
Qed.

(** _check_cluster_scale *)
Lemma Good_cworker cur X s n c now : Good cur X s -> objs s !! n = Some c -> c_status c = RUNNING -> c_target c = RUNNING ->
  (forall mx, r_max (c_row c) = Some mx -> Z.of_nat (length (active_workers c)) + 1 <= Z.max 0 mx) ->
  let '(w, s') := create_worker cf n now s in
  Good cur ({[(n, Some w)]} ∪ X) s' /\
  exists c', objs s' !! n = Some c' /\ c_row c' = c_row c /\ c_proxied c' = c_proxied c /\
             length (active_workers c') = S (length (active_workers c)).
Proof.
  intros HG Hn Hs Ht Hcap. unfold create_worker.
  set (w := uuid s). set (id := alloc_w _ _ _). set (x := Wk _ _ _ _ _ _ _ _).
  set (s1 := set_db_w _ _). assert (objs s1 !! n = Some c) as Hn1 by done.
  destruct (upd_obj_spec n (fun c => cset_workers (c_workers c ++ [x]) c) s1 c Hn1) as [Ho Hr].
  set (s' := upd_obj n _ s1) in *. set (c' := cset_workers (c_workers c ++ [x]) c) in *.
  assert (length (active_workers c') = S (length (active_workers c))) as Hlen.
  { unfold active_workers. simpl. rewrite List.filter_app, app_length. simpl. lia. }
  split. 2:{ exists c'. rewrite Ho, lookup_insert. done. }
  destruct HG as [HI HE]. destruct Hr as (R1 & R2 & R3 & R4 & R5).
  pose proof (g_cok _ _ _ _ HI _ _ Hn) as [].
  assert (names c' = names c ++ [w]) as Hnm by (unfold names; simpl; rewrite map_app; done).
  destruct (g_fresh _ _ _ _ HI _ _ Hn) as [Hfr Hfw].
  split.
  2:{ eapply (Evolve_set s0 s); eauto. constructor; auto; simpl.
      exists (c_workers c), [x]. split; [done|]. split; [|rewrite Ht; done].
      apply Forall_Forall2_diag, Forall_forall. intros; apply wevolve_refl. }
  assert (Dof ({[(n, Some w)]} ∪ X) s (n, Some w)) as HDw by (right; set_solver).
  assert (forall y, Dof X s y -> Dof ({[(n, Some w)]} ∪ X) s y) as HD by (intros y; unfold Dof; rewrite elem_of_union; tauto).
  eapply (Inv_set cf cur X _ s s' n c c'); eauto.
  - rewrite R4. simpl. lia.
  - intros y _ Hy. apply elem_of_union. auto.
  - intros v Hv. rewrite Hnm. apply elem_of_app. auto.
  - intros v. rewrite Hnm, elem_of_app, elem_of_list_singleton, R4. simpl. intros [Hv| ->]; [specialize (Hfw v Hv); lia|]. unfold w. lia.
  - assert (Dof ({[(n, Some w)]} ∪ X) s' = Dof ({[(n, Some w)]} ∪ X) s) as -> by (unfold Dof; rewrite R1; done).
    rewrite R3. change (routes s1) with (routes s).
    constructor; auto.
    + rewrite Hnm. apply NoDup_app. split; [done|]. split; [|apply NoDup_singleton].
      intros v Hv ->%elem_of_list_singleton. specialize (Hfw _ Hv). unfold w in Hfw. lia.
    + simpl. apply Forall_app. split.
      * eapply Forall_impl; [exact k_workers|]. intros v. apply wk_ok_mono; [|done]. auto.
      * apply Forall_singleton. constructor; simpl; auto; try done.
        -- intros [?|?]; done.
        -- change (c_status c') with (c_status c). rewrite Hs. done.
        -- change (c_status c') with (c_status c). rewrite Hs. done.
        -- intros (k & Hk). exfalso. destruct (g_pcs _ _ _ _ HI _ _ Hk) as (c2 & Hc2 & Hin). simpl in *.
           assert (c2 = c) by congruence. subst c2. specialize (Hfw _ (Hin _ eq_refl)). unfold w in Hfw. lia.
    + intros v [Hv| ->%elem_of_list_singleton]%elem_of_app Hcl; [apply (k_bulk v Hv Hcl)|]. destruct Hcl as [?|?]; done.
    + intros mx Hmx. rewrite Hlen. specialize (Hcap mx Hmx). lia.
    + intros H1. change (c_status c') with (c_status c) in H1. congruence.
    + intros H1. change (c_status c') with (c_status c) in H1. congruence.
    + intros _ _. destruct (o_scale Hs Ht) as [H|]; [left|auto]. unfold n_covers in *. simpl.
      rewrite List.filter_app, app_length. lia.
    + intros Hb. destruct (b_stop Hb). congruence.
Qed.

Lemma Good_cworkers cur X k n now s c : Good cur X s -> objs s !! n = Some c -> c_status c = RUNNING -> c_target c = RUNNING ->
  (forall mx, r_max (c_row c) = Some mx -> Z.of_nat (length (active_workers c)) + Z.of_nat k <= Z.max 0 mx) ->
  Good cur X (create_workers cf k n now s) /\
  exists c', objs (create_workers cf k n now s) !! n = Some c' /\ c_row c' = c_row c /\ c_proxied c' = c_proxied c /\
             length (active_workers c') = (k + length (active_workers c))%nat.
Proof.
  revert s c. induction k as [|k IH]; intros s c HG Hn Hs Ht Hcap; cbn [create_workers].
  { split; [done|]. exists c. done. }
  pose proof (Good_cworker cur X s n c now HG Hn Hs Ht) as Hc.
  destruct (create_worker cf n now s) as [w s1]. destruct Hc as (HG1 & c1 & Hn1 & Hr1 & Hp1 & Hl1).
  { intros mx Hmx. specialize (Hcap mx Hmx). lia. }
  destruct (IH (qput (n, Some w) s1) c1) as (HG2 & c2 & Hn2 & Hr2 & Hp2 & Hl2).
  - apply Good_put. done.
  - done.
  - unfold c_status. rewrite Hr1. done.
  - unfold c_target. rewrite Hr1. done.
  - rewrite Hr1. intros mx Hmx. specialize (Hcap mx Hmx). lia.
  - split; [exact HG2|]. exists c2. split; [exact Hn2|]. split; [congruence|]. split; [congruence|]. lia.
Qed.

Lemma active_covers (D : item -> Prop) (B : pc -> Prop) n cs ws : Forall (wk_ok cf D B n cs) ws ->
  (length (List.filter w_active ws) <= length (List.filter covers ws))%nat.
Proof.
  induction 1 as [|w ws Hw Hws IH]; simpl; [done|].
  assert (w_active w = true -> covers w = true) as H.
  { unfold w_active, covers. intros Ha. destruct (jlt (w_status w) STOPPED) eqn:E; [by rewrite orb_true_r|].
    exfalso. assert (is_fin (w_status w) = true) as Hf by (destruct (w_status w); done).
    apply (wo_fin _ _ _ _ _ _ Hw) in Hf. destruct (w_target w); done. }
  destruct (w_active w); [rewrite H by done; simpl; lia|]. destruct (covers w); simpl; lia.
Qed.

Lemma Good_scale s n c now : Good (Some (n, None)) {[(n, None)]} s -> objs s !! n = Some c ->
  c_status c = RUNNING -> c_target c = RUNNING -> c_proxied c = true ->
  Good (Some (n, None)) ∅ (check_scale cf n now s).
Proof.
  intros HG Hn Hs Ht Hp. unfold check_scale. rewrite Hn. case_decide.
  { apply Good_put. eapply Good_more; [|apply Good_ctarget; [auto|auto|exact HG]]. set_solver. }
  pose proof (g_cok _ _ _ _ (proj1 HG) _ _ Hn) as Hc.
  set (k := Z.to_nat _).
  destruct (Good_cworkers (Some (n, None)) {[(n, None)]} k n now s c HG Hn Hs Ht) as (HG1 & c' & Hn' & Hr' & Hp' & Hl').
  { intros mx Hmx. pose proof (ro_count _ (k_row _ _ _ _ _ _ Hc) mx Hmx). pose proof (k_cap _ _ _ _ _ _ Hc mx Hmx). unfold k. lia. }
  eapply Good_drop; [exact HG1|]. simpl. intros c2 Hc2 Hok. assert (c2 = c') by congruence. subst c2.
  assert (c_status c' = RUNNING) as Hs' by (unfold c_status; rewrite Hr'; done).
  assert (c_target c' = RUNNING) as Ht' by (unfold c_target; rewrite Hr'; done).
  eapply cok_drop; [exact Hok|..].
  - intros w. apply Dof_one. done.
  - congruence.
  - congruence.
  - congruence.
  - congruence.
  - intros _ _. left. pose proof (active_covers _ _ _ _ _ (k_workers _ _ _ _ _ _ Hok)) as Hle.
    unfold n_covers. unfold active_workers in *. rewrite Hr'. unfold k in Hl'. lia.
Qed.

(** _cluster_to_closing *)
Lemma at_workers_filter (P : worker -> bool) f c : NoDup (names c) ->
  map (at_workers (map w_name (List.filter P (c_workers c))) f) (c_workers c) = map (fun x => if P x then f x else x) (c_workers c).
Proof.
  intros Hd. apply map_ext_in. intros x Hx. apply elem_of_list_In in Hx. unfold at_workers.
  destruct (P x) eqn:HP.
  - rewrite decide_True; [done|]. apply (elem_of_list_fmap_1 w_name).
    apply elem_of_list_In, filter_In. split; [by apply elem_of_list_In|done].
  - rewrite decide_False; [done|]. intros (y & E & Hy)%elem_of_list_fmap.
    apply elem_of_list_In, filter_In in Hy as [Hy HPy]. apply elem_of_list_In in Hy.
    rewrite (nodup_map_inj w_name _ _ _ Hd Hx Hy E) in HP. congruence.
Qed.
Lemma filter_nodup (P : worker -> bool) ws : NoDup (map w_name ws) -> NoDup (map w_name (List.filter P ws)).
Proof.
  induction ws as [|x ws IH]; simpl; intros Hd; [constructor|]. apply NoDup_cons in Hd as [Hx Hd].
  destruct (P x); simpl; [|auto]. constructor; [|auto]. intros (y & E & Hy)%elem_of_list_fmap. apply Hx. rewrite E.
  apply (elem_of_list_fmap_1 w_name). apply elem_of_list_In, filter_In in Hy as [Hy _]. apply elem_of_list_In. done.
Qed.

Lemma closing_worker (D D' : item -> Prop) (B : pc -> Prop) n cs x (t := if bulk cf then CLOSING else STOPPED) :
  jlt cs CLOSING = true -> wk_ok cf D B n cs x ->
  (forall w, D (n, Some w) -> D' (n, Some w)) -> (jlt (w_target x) t = true -> D' (n, Some (w_name x))) ->
  wk_ok cf D' B n CLOSING (if jlt (w_target x) t then wset_target t x else x).
Proof.
  intros Hcs [] HD Hx.
  destruct (jlt (w_target x) t) eqn:Hj.
  - specialize (Hx eq_refl). assert (is_fin (w_target x) = false) as Hnf.
    { unfold t in Hj. destruct (w_target x), (bulk cf); done. }
    assert (w_target x <> CLOSING) as Hnct.
    { intros E. unfold t in Hj. rewrite (wo_bulk (or_intror E)), E in Hj. done. }
    assert (w_status x <> CLOSING) as Hncs.
    { intros E. specialize (wo_cl E). destruct (w_target x); done. }
    assert (is_fin (w_status x) = false) as Hns.
    { destruct (is_fin (w_status x)); [|done]. rewrite wo_fin in Hnf; done. }
    constructor; simpl; auto.
    + unfold t. destruct (bulk cf); done.
    + congruence.
    + unfold t. destruct (bulk cf); [done|]. intros [?|?]; done.
    + unfold t. destruct (bulk cf); done.
    + done.
    + intros Hb. split; [|auto]. apply wb_start. done.
    + intros Hb. destruct (wb_stop Hb). congruence.
  - constructor; auto.
    + intros _. unfold t in *. destruct (w_target x), (bulk cf); done.
    + done.
    + intros H1 H2. destruct (wo_start H1 H2); auto.
    + intros H1 H2. destruct (wo_stop H1 H2); auto.
    + intros Hb. destruct (wb_start Hb) as [? [?|?]]; auto.
Qed.

Lemma closing_evolve (l : list worker) (t := if bulk cf then CLOSING else STOPPED) :
  Forall2 wevolve l (map (fun x => if jlt (w_target x) t then wset_target t x else x) l).
Proof.
  induction l as [|x l IH]; simpl; constructor; [|done].
  destruct (jlt (w_target x) t) eqn:HP; [|apply wevolve_refl]. unfold t in *. constructor; simpl; auto.
  * intros _. destruct (bulk cf); simpl; lia.
  * intros Hf. destruct (w_target x), (bulk cf); done.
Qed.
Lemma closing_spec n c s : objs s !! n = Some c -> NoDup (names c) ->
  let t := if bulk cf then CLOSING else STOPPED in
  let P := fun w => jlt (w_target w) t in
  let ws := map w_name (List.filter P (c_workers c)) in
  let items := map (fun w => (n, Some w)) ws ++ match ws with [] => [(n, None)] | _ => [] end in
  let c' := cset_ready true (cset_row (rset_status CLOSING (c_row c))
              (cset_workers (map (fun x => if P x then wset_target t x else x) (c_workers c)) c)) in
  objs (cluster_to_closing cf n c s) = <[n := c']> (objs s) /\
  q (cluster_to_closing cf n c s) = q (qputs items s) /\ busy (cluster_to_closing cf n c s) = busy s /\
  routes (cluster_to_closing cf n c s) = routes s /\ uuid (cluster_to_closing cf n c s) = uuid s /\
  down (cluster_to_closing cf n c s) = down s.
Proof.
  intros Hn Hd t P ws items c'. unfold cluster_to_closing. fold t. fold P. fold ws.
  destruct (update_workers_spec n ws (wset_target t) s c Hn) as [Ho1 (Q1 & B1 & R1 & U1 & D1)]; [apply filter_nodup; done|done|].
  unfold ws in Ho1 at 2. rewrite (at_workers_filter P (wset_target t) c Hd) in Ho1.
  set (s1 := update_workers n ws (wset_target t) s) in *.
  set (c1 := cset_workers _ c) in *.
  set (s2 := qputs (map (fun w => (n, Some w)) ws) s1).
  destruct (qputs_objs (map (fun w => (n, Some w)) ws) s1) as (Ho2 & B2 & R2 & U2 & D2). fold s2 in Ho2, B2, R2, U2, D2.
  destruct (update_cluster_spec n (rset_status CLOSING) s2 c1) as [Ho3 (Q3 & B3 & R3 & U3 & D3)].
  { rewrite Ho2, Ho1. apply lookup_insert. }
  set (s3 := update_cluster n (rset_status CLOSING) s2) in *.
  set (s4 := match ws with [] => qput (n, None) s3 | _ :: _ => s3 end).
  assert (objs s4 = objs s3 /\ busy s4 = busy s3 /\ routes s4 = routes s3 /\ uuid s4 = uuid s3 /\ down s4 = down s3) as (Ho4 & B4 & R4 & U4 & D4).
  { unfold s4. destruct ws; done. }
  assert (q s4 = fold_left (fun qq x => put x qq) (match ws with [] => [(n, None)] | _ => [] end) (q s3)) as Q4.
  { unfold s4. destruct ws; done. }
  destruct (upd_obj_spec n (cset_ready true) s4 (cset_row (rset_status CLOSING (c_row c1)) c1)) as [Ho5 (Q5 & B5 & R5 & U5 & D5)].
  { rewrite Ho4, Ho3. apply lookup_insert. }
  split. { rewrite Ho5, Ho4, Ho3, Ho2, Ho1. rewrite !insert_insert. done. }
  split. { rewrite Q5, Q4, Q3. unfold s2. rewrite !qputs_q, Q1. unfold items. rewrite fold_left_app. done. }
  split; [congruence|]. split; [congruence|]. split; congruence.
Qed.

Lemma Good_closing s n c : Good (Some (n, None)) {[(n, None)]} s -> objs s !! n = Some c ->
  jlt (c_status c) CLOSING = true -> c_target c <> RUNNING ->
  Good (Some (n, None)) ∅ (cluster_to_closing cf n c s).
Proof.
  intros HG Hn Hs Ht. pose proof (g_cok _ _ _ _ (proj1 HG) _ _ Hn) as Hc.
  destruct (closing_spec n c s Hn (k_nodup _ _ _ _ _ _ Hc)) as (Ho & Q & B & R & U & D).
  set (t := if bulk cf then CLOSING else STOPPED) in *.
  set (P := fun w => jlt (w_target w) t) in *.
  set (ws := map w_name (List.filter P (c_workers c))) in *.
  set (items := map (fun w => (n, Some w)) ws ++ match ws with [] => [(n, None)] | _ => [] end) in *.
  set (c' := cset_ready true _) in *.
  assert (forall p, Bof s p -> pc_item p <> (n, None)) as Hnb by (intros p; eapply not_busy; apply HG).
  assert (c_status c' = CLOSING) as Hs' by done.
  set (sA := set_objs (<[n := c']> (objs s)) s).
  assert (Good (Some (n, None)) (list_to_set items ∪ ∅) sA) as HGA.
  { rewrite (right_id_L ∅ (∪)). eapply (Good_set cf s0 Hrow0 (Some (n, None)) {[(n, None)]} _ s sA n c c'); [exact HG|exact Hn|done|done|..].
    - intros x Hx ->%elem_of_singleton. done.
    - unfold names. simpl. rewrite map_map. apply map_ext. intros x. destruct (jlt (w_target x) t); done.
    - constructor; try done.
      + rewrite Hs'. destruct (c_status c); simpl in *; try done; lia.
      + destruct (c_status c); done.
      + exists (c_workers c'), []. split; [by rewrite app_nil_r|]. split; [|done]. unfold c'. cbn [c_workers cset_ready cset_row cset_workers].
        apply closing_evolve.
    - intros Hc2. pose proof Hc2 as Hc2'. destruct Hc2'.
      assert (forall w, Dof {[(n, None)]} s (n, Some w) -> Dof (list_to_set items) s (n, Some w)) as HD.
      { intros w [?|H]; [left; done|]. apply elem_of_singleton in H. done. }
      constructor; auto.
      + destruct k_row. unfold c_status, c_target in *. constructor; simpl; auto; try done.
        rewrite ro_stop. destruct (r_status (c_row c)); done.
      + change (c_shutdown c = false). rewrite k_shut. destruct (c_status c); done.
      + unfold names in *. simpl. rewrite map_map. erewrite map_ext; [exact k_nodup|]. intros x. simpl. destruct (jlt (w_target x) t); done.
      + rewrite Hs'. simpl. apply Forall_forall. intros y (x & -> & Hx)%elem_of_list_fmap.
        eapply closing_worker; [exact Hs|rewrite Forall_forall in k_workers; apply k_workers; done|exact HD|].
        intros HP. right. apply elem_of_list_to_set, elem_of_app. left.
        apply (elem_of_list_fmap_1 (fun w => (n, Some w))). unfold ws. apply (elem_of_list_fmap_1 w_name).
        apply elem_of_list_In, filter_In. split; [by apply elem_of_list_In|done].
      + intros mx Hmx. specialize (k_cap mx Hmx). unfold active_workers in *. simpl.
        pose proof (filter_map_ge w_active (fun x => if jlt (w_target x) t then wset_target t x else x) (c_workers c)) as Hge.
        feed specialize Hge; [|lia]. intros x _. destruct (jlt (w_target x) t) eqn:HP; [|done]. unfold t in HP. unfold w_active.
        intros _. destruct (w_target x), (bulk cf); done.
      + intros _. rewrite k_sni by (left; intros E; rewrite E in Hs; done). change (c_proxied c') with (c_proxied c). destruct (c_proxied c); [|done].
        specialize (k_proxied eq_refl). rewrite Hs'. destruct (c_status c); done.
      + intros _. rewrite k_path by (left; intros E; rewrite E in Hs; done). change (c_proxied c') with (c_proxied c). destruct (c_proxied c); [|done].
        specialize (k_proxied eq_refl). rewrite Hs'. destruct (c_status c); done.
      + done.
      + done.
      + intros _ Hrd. destruct ws as [|w0 l] eqn:Hws.
        { left. right. apply elem_of_list_to_set. subst items. simpl. left. }
        exfalso. assert (w0 ∈ map w_name (List.filter P (c_workers c))) as Hw0 by (fold ws; rewrite Hws; left).
        apply elem_of_list_fmap in Hw0 as (x & _ & Hx). apply elem_of_list_In, filter_In in Hx as [Hx HP].
        assert (x ∈ c_workers c) as Hx' by (apply elem_of_list_In; done).
        rewrite Forall_forall in k_workers. specialize (k_workers x Hx'). destruct k_workers.
        assert (forall j, all_at_least j c' = true -> jge (w_status x) j = true) as Hall.
        { intros j. unfold all_at_least. rewrite forallb_forall. intros H. specialize (H (wset_target t x)). simpl in H.
          apply H. apply in_map_iff. exists x. unfold P in HP. rewrite HP. done. }
        unfold ready_to_close in Hrd. apply orb_true_iff in Hrd as [Hrd|Hrd].
        * apply andb_true_iff in Hrd as [_ Hrd]. apply andb_true_iff in Hrd as [Hbk Hrd]. apply Hall in Hrd.
          unfold P, t in HP. rewrite Hbk in HP.
          assert (is_fin (w_status x) = false). { destruct (is_fin (w_status x)); [|done]. specialize (wo_fin eq_refl). destruct (w_target x); done. }
          destruct (w_status x); try done. specialize (wo_cl eq_refl). destruct (w_target x); done.
        * apply Hall in Hrd. specialize (wo_fin Hrd). unfold P, t in HP. destruct (w_target x), (bulk cf); done.
      + done.
      + done.
      + intros Hb. exfalso. apply Hnb in Hb. done.
      + intros Hb. exfalso. apply Hnb in Hb. done. }
  apply Good_puts in HGA.
  destruct (qputs_objs items sA) as (Ho2 & B2 & R2 & U2 & D2).
  eapply Good_same; [exact HGA|rewrite Ho2; exact Ho|].
  unfold same_rest. rewrite B2, R2, U2, D2. split; [rewrite Q, !qputs_q; done|]. auto.
Qed.
End steps2.
