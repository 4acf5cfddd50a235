(** The size of a running cluster from some moment on: what C22 says about the
    whole history, relative to a state in which the cluster had enough workers. *)
From Coq Require Import ZArith Lia.
From stdpp Require Import prelude gmap.
From Verif Require Import Trace WorkQueue_Model WorkQueue_Proofs Router_Model Gateway_Model Gateway_Spec Gateway_Inv
  Gateway_Steps Gateway_Steps2 Gateway_Steps3 Gateway_Steps4 Gateway_Sync Gateway_Restart Gateway_Acts Gateway_Track Gateway_Busy
  Gateway_Hist Gateway_Ops Gateway_Proofs Gateway_Proofs2 Gateway_Proofs3 Gateway_Queue Gateway_Spec3 Gateway_Live Gateway_Live2.
Open Scope Z_scope.

Definition alive (x : worker) : bool := jlt (w_status x) STOPPED.
Lemma alive_fin x : alive x = negb (is_fin (w_status x)).
Proof. unfold alive, is_fin, jge, jlt. destruct (w_status x); done. Qed.

Lemma filter_le {A} (f g : A -> bool) (l : list A) : (forall x, x ∈ l -> f x = true -> g x = true) ->
  (length (List.filter f l) <= length (List.filter g l))%nat.
Proof.
  induction l as [|x l IH]; intros H; simpl; [lia|].
  assert (length (List.filter f l) <= length (List.filter g l))%nat as Hl by (apply IH; intros y Hy; apply H; by right).
  destruct (f x) eqn:Ef; [rewrite (H x) by (done || by left); simpl; lia|]. destruct (g x); simpl; lia.
Qed.

(** * Taking the cluster's item *)
Lemma handle_alive cf s e n c' : Inv cf None ∅ s -> crash e = false -> takes cf s e (n, None) -> objs (step cf s e).1 !! n = Some c' ->
  c_status c' = RUNNING -> c_target c' = RUNNING -> r_count (c_row c') <= Z.of_nat (length (List.filter alive (c_workers c'))).
Proof.
  intros HI Hcr Ht Hc' Hst' Htg'. destruct (step cf s e) as [s' o] eqn:Hs. destruct (step_inv cf e s s' o Hcr HI Hs) as [HI' HE].
  cbn [fst] in Hc'. assert (s' = (step cf s e).1) as Hs' by (rewrite Hs; done).
  pose proof (g_cok _ _ _ _ HI' _ _ Hc') as Hok'.
  assert (length (active_workers c') <= length (List.filter alive (c_workers c')))%nat as Hact.
  { apply filter_le. intros x Hx Ha. pose proof (k_workers _ _ _ _ _ _ Hok') as HW. rewrite Forall_forall in HW. specialize (HW x Hx).
    rewrite alive_fin. apply negb_true_iff. destruct (is_fin (w_status x)) eqn:Hf; [|done]. apply (wo_fin _ _ _ _ _ _ HW) in Hf.
    unfold w_active in Ha. unfold is_fin in Hf. destruct (w_target x); done. }
  destruct (takes_reconcile _ _ _ _ Ht) as (k & now & q' & E). rewrite E in Hs'. clear Hs E.
  unfold reconcile in Hs'. cbn [fst snd] in Hs'. unfold reconcile_cluster in Hs'. change (objs (set_q q' s)) with (objs s) in Hs'.
  destruct (objs s !! n) as [c|] eqn:Hn; [|subst s'; cbn in Hc'; congruence].
  destruct (HE n c Hn) as (c'' & Hc'' & Hev). assert (c'' = c') as -> by congruence. clear Hc''.
  assert (c_target c = RUNNING) as Htg.
  { destruct (ro_tgt _ (k_row _ _ _ _ _ _ (g_cok _ _ _ _ HI _ _ Hn))) as [?|H]; [done|]. pose proof (e_target _ _ Hev) as L.
    rewrite Htg' in L. unfold c_target in L. destruct H as [H|H]; rewrite H in L; simpl in L; lia. }
  destruct (jge (c_status c) STOPPED) eqn:H1.
  { pose proof (e_status _ _ Hev) as L. rewrite Hst' in L. destruct (c_status c); try done; simpl in L; lia. }
  rewrite Htg in Hs'. rewrite decide_False in Hs' by (by intros [?|?]). rewrite decide_True in Hs' by done.
  destruct (decide (c_status c = CREATED)) as [H2|H2].
  { subst s'. cbn in Hc'. congruence. }
  cbn [fst] in Hs'. set (s1 := if decide _ then _ else _) in Hs'.
  assert (exists c1, objs s1 !! n = Some c1 /\ c_target c1 = RUNNING) as (c1 & Hn1 & Htg1).
  { unfold s1. case_decide; [|exists c; done].
    destruct (update_cluster_spec n (rset_status RUNNING) (set_q q' s) c Hn) as [Ho _].
    cbn [objs upd_obj set_objs]. rewrite lookup_alter, Ho, lookup_insert. eexists. split; [done|]. done. }
  clearbody s1. rewrite Hn1 in Hs'. case_decide as Hr1; [|subst s'; unfold finish in Hc'; cbn [objs set_q] in Hc'; congruence].
  set (s2 := check_proxied n s1) in Hs'.
  assert (exists c2, objs s2 !! n = Some c2) as (c2 & Hn2).
  { unfold s2, check_proxied. rewrite Hn1. destruct (c_proxied c1) eqn:Hp; [exists c1; done|].
    eexists. cbn [objs upd_obj set_objs]. rewrite lookup_alter. cbn [objs set_routes]. rewrite Hn1. done. }
  clearbody s2. unfold check_scale in Hs'. rewrite Hn2 in Hs'. case_decide.
  - exfalso. subst s'. unfold finish in Hc'. cbn [objs qput set_q] in Hc'. destruct (update_cluster_spec n (rset_target FAILED) s2 c2 Hn2) as [Ho _].
    rewrite Ho, lookup_insert in Hc'. injection Hc' as <-. done.
  - set (kk := Z.to_nat _) in *. destruct (created_workers cf kk n now s2 c2 Hn2) as (d & Hd & Hrd & _ & Hld).
    assert (d = c') as -> by (subst s'; unfold finish in Hc'; cbn [objs set_q] in Hc'; congruence).
    rewrite Hrd. unfold kk in Hld. lia.
Qed.

(** * A changed size is looked at *)
Lemma hb_count_dirty n m now s c c' : objs s !! n = Some c -> objs (heartbeat n m now s).1 !! n = Some c' -> r_count (c_row c') <> r_count (c_row c) ->
  (n, None) ∈ dirty (q (heartbeat n m now s).1).
Proof.
  intros Hc. unfold heartbeat. destruct (lookup_cluster n s) as [d|] eqn:Hl; [|cbn [fst]; intros; congruence].
  apply lookup_obj in Hl as [Hd _]. assert (d = c) as -> by congruence.
  destruct (jlt _ _); [cbn [fst]; intros; congruence|].
  assert (objs (upd_obj n (cset_hb (Some now)) s) !! n = Some (cset_hb (Some now) c)) as H1 by (simpl; rewrite lookup_alter, Hc; done).
  destruct (classify _ _) as [z|]; [|cbn [fst]; rewrite H1; intros [= <-]; done].
  cbn [fst]. fold (hb_count c m). intros Hc' Hne.
  match type of Hc' with context [z_targets z ++ ?l] => set (extra := l) in * end.
  match type of Hc' with context [set_targets n (z_targets z ++ extra) ?x] => set (s2 := x) in * end.
  match goal with |- _ ∈ dirty (q ?x) => set (s5 := x) in * end.
  assert (qg s2 s5) as Hg.
  { unfold s5. eapply qg_trans; [|apply qg_wks].
    assert (qg s2 (qputs (map (fun t : nat * job => (n, Some t.1)) (z_targets z ++ extra)) (set_targets n (z_targets z ++ extra) s2))) as H3.
    { eapply qg_trans; [apply qg_targets|apply qg_puts]. }
    destruct (z_running z); [done|]. eapply qg_trans; [exact H3|]. eapply qg_trans; [apply qg_attr|apply qg_wks]. }
  assert ((n, None) ∈ dirty (q s2)) as H2.
  2:{ destruct Hg as [xs Hx]. rewrite Hx. by apply puts_dirty. }
  destruct (hb_count c m =? r_count (c_row c)) eqn:Ec.
  2:{ unfold s2. rewrite orb_true_r. cbn [q qput set_q]. destruct (put_core (n, @None nat) (q (update_cluster n (fun r => if negb false then rset_count (hb_count c m) (if decide (c_status c = RUNNING) then r else rset_addresses (m_api m) (m_sched m) (m_dash m) r) else (if decide (c_status c = RUNNING) then r else rset_addresses (m_api m) (m_sched m) (m_dash m) r)) (upd_obj n (cset_hb (Some now)) s)))) as (_ & _ & Hd' & _).
      rewrite Hd'. set_solver. }
  exfalso. apply Hne.
  assert (exists c2, objs s2 !! n = Some c2 /\ r_count (c_row c2) = r_count (c_row c)) as (c2 & H2 & E2).
  { unfold s2. destruct (_ || _).
    - eexists. split; [unfold qput; simpl; rewrite (row_upd _ n _ _ H1), lookup_insert; done|]. destruct (decide _); done.
    - eauto. }
  assert (exists c5, objs s5 !! n = Some c5 /\ c_row c5 = c_row c2) as (c5 & H5 & E5).
  { unfold s5. set (s3 := qputs _ (set_targets n _ s2)).
    assert (exists c3, objs s3 !! n = Some c3 /\ c_row c3 = c_row c2) as (c3 & H3 & E3).
    { unfold s3. rewrite puts_objs. erewrite targets_in by exact H2. eexists. split; done. }
    clearbody s3. destruct (z_running z) as [|w ws].
    - erewrite wks_in by exact H3. eexists. split; [done|]. done.
    - assert (objs (upd_obj n (cset_fails 0%nat) s3) !! n = Some (cset_fails 0%nat c3)) as H4 by (simpl; rewrite lookup_alter, H3; done).
      erewrite wks_in by (apply wks_in; exact H4). eexists. split; [done|]. done. }
  congruence.
Qed.
Lemma count_dirty cf s e n c c' : Inv cf None ∅ s -> crash e = false -> objs s !! n = Some c -> objs (step cf s e).1 !! n = Some c' ->
  r_count (c_row c') <> r_count (c_row c) -> (n, None) ∈ dirty (q (step cf s e).1).
Proof.
  intros HI Hcr Hc Hc' Hne. pose proof (step_tracked cf s e HI Hcr) as HT. destruct (t_old _ _ _ HT n c c' Hc Hc') as [HP _].
  destruct (p_count _ _ _ _ _ HP) as [Hh|?]; [|done]. destruct e; try discriminate Hh. cbn [step] in *.
  destruct (decide (n0 = n)) as [->|Hn]; [eapply hb_count_dirty; eauto|]. rewrite hb_elsewhere in Hc' by done. congruence.
Qed.

(** * A worker that ends unannounced is replaced *)
Lemma rest_dirty cf n w s c x : objs s !! n = Some c -> get_worker n w s = Some x -> c_target c = RUNNING -> w_close x = false ->
  (n, None) ∈ dirty (q (worker_stopped_rest cf n w s)).
Proof.
  intros Hc Hx Ht Hcl. unfold worker_stopped_rest. rewrite Hc, Hx.
  assert ((n, None) ∈ dirty (q (qput (n, None) s))) as H.
  { cbn [q qput set_q]. destruct (put_core (n, @None nat) (q s)) as (_ & _ & Hd & _). rewrite Hd. set_solver. }
  destruct (ready_to_close cf c); [done|]. rewrite decide_True by done. done.
Qed.
Lemma end_dirty cf s e n c c' x x' : Inv cf None ∅ s -> crash e = false -> objs s !! n = Some c -> objs (step cf s e).1 !! n = Some c' ->
  c_status c = RUNNING -> c_target c' = RUNNING -> x ∈ c_workers c -> x' ∈ c_workers c' -> w_name x' = w_name x ->
  is_fin (w_status x) = false -> is_fin (w_status x') = true -> w_close x' = false -> (n, None) ∈ dirty (q (step cf s e).1).
Proof.
  intros HI Hcr Hc Hc' Hst Htg' Hx Hx' Hnm Hf Hf' Hcl.
  destruct (step cf s e) as [s' o] eqn:Hs. destruct (step_inv cf e s s' o Hcr HI Hs) as [HI' HE]. cbn [fst] in *.
  pose proof (step_tracked cf s e HI Hcr) as HT. rewrite Hs in HT. cbn [fst] in HT. destruct (t_old _ _ _ HT n c c' Hc Hc') as [_ HW].
  destruct (HW x' Hx') as [(y & Hy & HQ)|(_ & _ & E)]; [|rewrite E in Hf'; done].
  assert (y = x) as -> by (eapply (worker_eq cf s n c); eauto; rewrite <- Hnm; symmetry; apply (q_name _ _ _ _ _ HQ)). clear Hy.
  (* an event that keeps the workers *)
  assert (objs s' = objs s -> False) as Hkeep.
  { intros E. rewrite E in Hc'. assert (c' = c) as -> by congruence.
    assert (x' = x) as -> by (eapply (worker_eq cf s n c); eauto). congruence. }
  assert (forall k now s1, s' = finish k (worker_stopped_rest cf n (w_name x) (worker_stopped n (w_name x) now s1)) -> (n, None) ∈ dirty (q s')) as Hend.
  { intros k now s1 E. set (s2 := worker_stopped n (w_name x) now s1) in *.
    assert (objs s' = objs s2) as Eo by (rewrite E; unfold finish; cbn [objs set_q]; apply rest_objs).
    assert (get_worker n (w_name x) s2 = Some x') as Hg.
    { unfold get_worker. rewrite <- Eo, Hc'. cbn. destruct (find_worker_in (w_name x) (c_workers c')) as [y Hy].
      { rewrite <- Hnm. apply elem_of_list_fmap. eauto. }
      rewrite Hy. apply find_worker_some in Hy as [Hy1 Hy2]. f_equal. eapply (worker_eq cf s' n c'); eauto. congruence. }
    rewrite E. unfold finish. cbn [q set_q]. apply done_dirty. eapply rest_dirty; eauto. rewrite <- Eo. done. }
  destruct (q_end _ _ _ _ _ HQ Hf') as [?|[[(k & oc & now & -> & Hk & Ho)|(k & now & q' & He & Hg)]|Hb]]; [congruence| | |].
  - cbn [step] in Hs. unfold resume in Hs. rewrite Hk in Hs. destruct oc as [st| |]; [by destruct (Ho st)| |];
      injection Hs as <- _; eapply Hend; done.
  - assert ((step cf s e).1 = s \/ (exists v, (step cf s e).1 = set_q v s) \/ (step cf s e).1 = (reconcile_worker cf k n (w_name x) now (set_q q' s)).1) as Hcase.
    { destruct He as [-> | ->]; cbn [step].
      - case_decide; [|auto]. destruct (busy s !! k); [auto|]. destruct (tasks (q s) !! k) eqn:Et; [auto|].
        cbn [WorkQueue_Model.step]. rewrite Et, Hg. right. right. done.
      - cbn [WorkQueue_Model.step]. destruct (tasks (q s) !! k) as [[]|] eqn:Et; try (right; left; eexists; done).
        rewrite Hg. right. right. done. }
    rewrite Hs in Hcase. cbn [fst] in Hcase. destruct Hcase as [E|[[v E]|E]]; [exfalso; apply Hkeep; rewrite E; done..|].
    unfold reconcile_worker in E.
    assert (get_worker n (w_name x) (set_q q' s) = Some x) as Hgw.
    { unfold get_worker. cbn [objs set_q]. rewrite Hc. cbn. destruct (find_worker_in (w_name x) (c_workers c)) as [y Hy]; [apply elem_of_list_fmap; eauto|].
      rewrite Hy. apply find_worker_some in Hy as [Hy1 Hy2]. f_equal. eapply (worker_eq cf s n c); eauto. }
    rewrite Hgw in E. unfold is_fin in Hf. rewrite Hf in E.
    case_decide as D1.
    { exfalso. apply (k_bulk _ _ _ _ _ _ (g_cok _ _ _ _ HI _ _ Hc) x Hx (or_intror D1)).
      destruct (HE n c Hc) as (c2 & Hc2 & Hev). assert (c2 = c') as -> by congruence. pose proof (e_target _ _ Hev) as Hle.
      rewrite Htg' in Hle. destruct (ro_tgt _ (k_row _ _ _ _ _ _ (g_cok _ _ _ _ HI _ _ Hc))) as [H|[H|H]]; [done|..];
        unfold c_target in Hle; rewrite H in Hle; simpl in Hle; lia. }
    case_decide; [|case_decide; exfalso; apply Hkeep; rewrite E; done].
    destruct (jlt CREATED (w_status x)); [exfalso; apply Hkeep; rewrite E; done|]. cbn [fst] in E. eapply Hend. exact E.
  - exfalso. destruct (b_stop _ _ _ _ _ _ (g_cok _ _ _ _ HI _ _ Hc) Hb) as [E _]. congruence.
Qed.

(** * The invariant *)
Section since.
Context (E : list nat) (n : nat).
(** Workers that are not finished, or whose end was announced, except those in [E]. *)
Definition cov (x : worker) : bool := alive x || (w_close x && negb (bool_decide (w_name x ∈ E))).
Definition Enough (s : gw) : Prop :=
  (n < uuid s)%nat /\ (forall w, w ∈ E -> (w < uuid s)%nat) /\
  forall c, objs s !! n = Some c ->
    (forall x, x ∈ c_workers c -> w_name x ∈ E -> is_fin (w_status x) = true) /\
    (jge (c_status c) RUNNING = true) /\
    (c_status c = RUNNING -> c_target c = RUNNING ->
      r_count (c_row c) <= Z.of_nat (length (List.filter cov (c_workers c))) \/ (n, None) ∈ dirty (q s)).

Lemma filter_F2 {A} (R : A -> A -> Prop) (p : A -> bool) l k : Forall2 R l k -> (forall x y, R x y -> x ∈ l -> y ∈ k -> p x = true -> p y = true) ->
  (length (List.filter p l) <= length (List.filter p k))%nat.
Proof.
  induction 1 as [|x y l k H HF IH]; intros Hp; simpl; [lia|].
  assert (length (List.filter p l) <= length (List.filter p k))%nat as Hl by (apply IH; intros a b Hr Ha Hb; apply Hp; [done|by right|by right]).
  destruct (p x) eqn:Ex; [rewrite (Hp x y H) by (done || by left); simpl; lia|]. destruct (p y); simpl; lia.
Qed.
Lemma dirty_step0 cf s e s' x : qcase cf s e s' -> x ∈ dirty (q s) -> takes cf s e x \/ x ∈ dirty (q s').
Proof.
  intros HC Hx. destruct HC as [Hb [xs Hxs]|k Ha Hq Hb Hg|k Ha Hb Hg Hcl|He Hb Hq|k y q' p Ha Hk Ht Hg Hp Hq Hb|k y q' xs Ha Hk Ht Hg Hq Hb|k p o now xs He Ho Hk Hq Hb].
  - right. rewrite Hxs. by apply puts_dirty.
  - right. destruct (get_turn_other _ _ _ _ Hg) as (_ & _ & Ed & _); [done|]. rewrite Ed. done.
  - right. destruct (get_turn_other _ _ _ _ Hg) as (_ & _ & Ed & _); [done|]. rewrite Ed. done.
  - right. rewrite Hq. done.
  - destruct (decide (x = y)) as [->|Ne]; [auto|]. right. destruct (get_turn_item _ _ _ _ Hg) as (_ & _ & Hd & _). rewrite Hq, Hd. set_solver.
  - destruct (decide (x = y)) as [->|Ne]; [auto|]. right. destruct (get_turn_item _ _ _ _ Hg) as (_ & _ & Hd & _).
    rewrite Hq. apply done_dirty, puts_dirty. rewrite Hd. set_solver.
  - right. rewrite Hq. apply done_dirty, puts_dirty. done.
Qed.
Lemma puts_all (xs : list item) s x : x ∈ xs -> x ∈ dirty (q (qputs xs s)).
Proof.
  revert s. induction xs as [|y xs IH]; intros s Hx; [inversion Hx|]. apply elem_of_cons in Hx as [->|Hx]; [|by apply IH].
  change (qputs (y :: xs) s) with (qputs xs (qput y s)). destruct (qg_puts xs (qput y s)) as [zs Hz]. rewrite Hz. apply puts_dirty.
  cbn [q qput set_q]. destruct (put_core y (q s)) as (_ & _ & Hd & _). rewrite Hd. set_solver.
Qed.
Lemma restart_dirty cf fc fw now s d : Sync fc fw s -> objs (restart cf now s) !! n = Some d -> c_name d = n -> is_fin (c_status d) = false ->
  (n, None) ∈ dirty (q (restart cf now s)).
Proof.
  intros Hy Hd En Hf. pose proof (restart_objs cf fc fw now s n Hy) as H. rewrite Hd in H. destruct H as (c & Hn & Hc & Hr).
  rewrite restart_eq in *. apply puts_all. rewrite (proj1 (qputs_objs _ _)) in Hd.
  apply elem_of_list_In, in_flat_map. exists d. split; [|left; rewrite En; done]. apply filter_In. split.
  - apply elem_of_list_In. unfold all_clusters. apply elem_of_list_omap. exists n. split; [|done]. eapply load_names_spec; done.
  - unfold is_fin, jge, jlt in *. destruct (c_status d); done.
Qed.

Lemma Enough_step cf s e s' o : (crash e = true -> fresh_ids cf) -> GInv cf s -> Q cf (q s) -> step cf s e = (s', o) -> Enough s -> Enough s'.
Proof.
  intros Hf HG HQ Hs (Hn & HE & HJ). pose proof (GInv_step cf s e s' o Hf HG Hs) as HG'. pose proof (Later_step cf s e s' o Hf HG Hs) as [HU HL].
  split; [lia|]. split; [intros w Hw; specialize (HE w Hw); lia|]. intros c' Hc'. destruct (HL n c' Hn Hc') as (c & Hc & L).
  destruct (HJ c Hc) as (J1 & J2 & J3). split; [|split].
  - intros x' Hx' Hin. destruct (l_old _ _ _ L x' Hx') as (x & Hx & Hw); [auto|]. apply (we_fin _ _ Hw), J1; [done|]. rewrite <- (we_name _ _ Hw). done.
  - pose proof (l_status _ _ _ L) as Hl. unfold jge, jlt in *. destruct (c_status c), (c_status c'); simpl in *; try done; lia.
  - intros Hst' Htg'.
    assert (c_status c = RUNNING) as Hst.
    { pose proof (l_status _ _ _ L) as Hl. rewrite Hst' in Hl. destruct (c_status c); simpl in *; try done; lia. }
    assert (c_target c = RUNNING) as Htg by (destruct (decide (c_target c = RUNNING)) as [?|H]; [done|]; by apply (l_tgt _ _ _ L) in H).
    destruct (decide ((n, None) ∈ dirty (q s'))) as [?|Hnd]; [auto|]. left.
    assert (s' = (step cf s e).1) as Es by (rewrite Hs; done).
    destruct (crash e) eqn:Ec.
    { exfalso. apply Hnd. destruct e; try discriminate Ec. cbn [step fst] in Es. destruct (Hf eq_refl) as (fc & fw & Hid).
      destruct (proj2 HG fc fw Hid) as [Hy _]. rewrite Es. rewrite Es in Hc'. eapply restart_dirty; eauto.
      - rewrite <- Es in Hc'. apply (k_name _ _ _ _ _ _ (g_cok _ _ _ _ (proj1 HG') _ _ Hc')).
      - rewrite Hst'. done. }
    destruct (decide ((n, None) ∈ dirty (q s))) as [Hd|Hd].
    { pose proof (step_qcase cf s (proj1 HG) (q_nc _ _ HQ) e Ec) as HC. destruct (dirty_step0 _ _ _ _ _ HC Hd) as [Ht|?]; [|rewrite <- Es in *; done].
      rewrite Es in Hc'. etransitivity; [eapply handle_alive; eauto; apply HG|]. apply Nat2Z.inj_le, filter_le.
      intros x Hx Ha. unfold cov. rewrite Ha. done. }
    destruct (J3 Hst Htg) as [Hle|?]; [|done].
    assert (r_count (c_row c') = r_count (c_row c)) as ->.
    { destruct (decide (r_count (c_row c') = r_count (c_row c))) as [?|Hne]; [done|]. exfalso. apply Hnd. rewrite Es. rewrite Es in Hc'.
      eapply count_dirty; eauto. apply HG. }
    etransitivity; [exact Hle|]. apply Nat2Z.inj_le. destruct (step_inv cf e s s' o Ec (proj1 HG) Hs) as [_ HEv].
    destruct (HEv n c Hc) as (c'' & Hc'' & Hev). assert (c'' = c') as -> by congruence. destruct (e_workers _ _ Hev) as (ws1 & ws2 & Ew & HF & _).
    rewrite Ew, List.filter_app, app_length. etransitivity; [|apply Nat.le_add_r]. eapply filter_F2; [exact HF|].
    intros x x' Hw Hx Hx' Hcov. assert (x' ∈ c_workers c') as Hxc by (rewrite Ew; apply elem_of_app; auto).
    unfold cov in *. rewrite (we_name _ _ Hw). apply orb_true_iff in Hcov as [Ha|Ha].
    + rewrite alive_fin in Ha. apply negb_true_iff in Ha. rewrite (alive_fin x'). destruct (is_fin (w_status x')) eqn:Hfx; [|done]. simpl.
      assert (w_close x' = true) as ->.
      { destruct (w_close x') eqn:Hcl; [done|]. exfalso. apply Hnd. rewrite Es. rewrite Es in Hc'.
        eapply (end_dirty cf s e n c c' x x'); eauto; [apply HG|apply (we_name _ _ Hw)]. }
      simpl. apply negb_true_iff, bool_decide_eq_false. intros Hin. rewrite (J1 x Hx Hin) in Ha. done.
    + apply andb_true_iff in Ha as [Hcl Hin]. rewrite (we_close _ _ Hw Hcl), Hin. apply orb_true_r.
Qed.
Lemma Enough_leads cf h1 s1 h2 s2 : ids_ok cf (h1 ++ h2) -> reach cf h1 s1 -> leads cf s1 h2 s2 -> Enough s1 -> Enough s2.
Proof.
  intros Hid Hr Hl. revert h1 Hid Hr. unfold leads in Hl. induction Hl as [|s e o s' h s2 Hs Hl IH]; intros h1 Hid Hr HJ; [done|].
  apply (IH (h1 ++ [(e, o)])); [rewrite <- app_assoc; exact Hid|eapply leads_snoc; [exact Hr|exact Hs]|].
  destruct (ids_ok_app _ _ _ Hid) as [Hid1 Hid2].
  apply (Enough_step cf s e s' o); [|exact (reach_GInv _ _ _ Hid1 Hr)|exact (reach_Q _ _ _ Hid1 Hr)|exact Hs|exact HJ].
  eapply ids_ok_crash; [exact Hid2|]. by left.
Qed.
End since.

Lemma gone_spec c w : w ∈ gone c <-> exists x, x ∈ c_workers c /\ w_name x = w /\ is_fin (w_status x) = true.
Proof.
  unfold gone. rewrite elem_of_list_fmap. split.
  - intros (x & -> & Hx). apply elem_of_list_In, filter_In in Hx as [Hx Hf]. exists x. split; [by apply elem_of_list_In|]. split; [done|].
    apply fin_iff. apply bool_decide_eq_true in Hf. done.
  - intros (x & Hx & <- & Hf). exists x. split; [done|]. apply elem_of_list_In, filter_In. split; [by apply elem_of_list_In|].
    apply bool_decide_eq_true, fin_iff. done.
Qed.
Lemma idle_enough_since cf h1 s1 h2 s2 n c1 c2 : ids_ok cf (h1 ++ h2) -> reach cf h1 s1 -> leads cf s1 h2 s2 ->
  objs s1 !! n = Some c1 -> c_status c1 = RUNNING -> c_target c1 = RUNNING ->
  r_count (c_row c1) <= Z.of_nat (length (present c1)) \/ (n, None) ∈ dirty (q s1) ->
  idle s2 -> objs s2 !! n = Some c2 -> c_status c2 = RUNNING -> c_target c2 = RUNNING ->
  r_count (c_row c2) <= Z.of_nat (length (List.filter wanted (c_workers c2))) +
    Z.of_nat (length (List.filter (fun x => retired x && bool_decide (w_name x ∉ gone c1)) (c_workers c2))).
Proof.
  intros Hid Hr Hl Hc1 Hst1 Htg1 Hen Hi Hc2 Hst2 Htg2. destruct (ids_ok_app _ _ _ Hid) as [Hid1 Hid2].
  pose proof (reach_GInv _ _ _ Hid1 Hr) as HG1.
  assert (reach cf (h1 ++ h2) s2) as Hr2 by (apply reach_app; eauto).
  assert (Enough (gone c1) n s2) as HJ.
  { eapply Enough_leads; eauto. destruct (g_fresh _ _ _ _ (proj1 HG1) _ _ Hc1) as [Hf1 Hf2]. split; [done|]. split.
    - intros w (x & Hx & <- & _)%gone_spec. apply Hf2. apply elem_of_list_fmap. exists x. done.
    - intros c Hc. assert (c = c1) as -> by congruence. split; [|split].
      + intros x Hx (y & Hy & Ey & Hfy)%gone_spec.
        assert (x = y) as -> by (eapply (worker_eq cf s1 n c1); eauto; apply HG1). done.
      + rewrite Hst1. done.
      + intros _ _. destruct Hen as [Hen|?]; [|auto]. left. etransitivity; [exact Hen|]. unfold present. rewrite map_length. apply Nat2Z.inj_le, filter_le.
        intros x _ Ha. apply bool_decide_eq_true in Ha. unfold cov. rewrite alive_fin.
        destruct (is_fin (w_status x)) eqn:Hf; [|done]. exfalso. apply Ha, fin_iff. done. }
  destruct HJ as (_ & _ & HJ). destruct (HJ c2 Hc2) as (_ & _ & H). destruct (H Hst2 Htg2) as [Hle|Hd].
  2:{ exfalso. apply (idle_D cf (h1 ++ h2) s2 (n, None) Hid Hr2 Hi). left. left. done. }
  destruct (idle_settled cf (h1 ++ h2) s2 n c2 Hid Hr2 Hi Hc2) as (_ & _ & Hw).
  etransitivity; [exact Hle|]. rewrite <- Nat2Z.inj_add. apply Nat2Z.inj_le, filter_le_or.
  intros x Hx Hcov. destruct (Hw x Hx) as [H1 _]. unfold cov in Hcov. rewrite alive_fin in Hcov.
  destruct (is_fin (w_status x)) eqn:Hf.
  - right. simpl in Hcov. apply andb_true_iff in Hcov as [Hcl Hin]. apply negb_true_iff, bool_decide_eq_false in Hin.
    apply andb_true_iff. split.
    + unfold retired. rewrite Hcl. apply andb_true_iff. split; [|done]. apply bool_decide_eq_true. apply fin_iff. done.
    + apply bool_decide_eq_true. done.
  - left. unfold wanted. apply bool_decide_eq_true. intros Hft. apply H1, fin_iff in Hft. congruence.
Qed.
(** A heartbeat that changes the requested size puts the cluster into the queue. *)
Lemma hb_change_queued cf h s n m now s' o c c' : ids_ok cf h -> reach cf h s -> step cf s (EHeartbeat n m now) = (s', o) ->
  objs s !! n = Some c -> objs s' !! n = Some c' -> r_count (c_row c') <> r_count (c_row c) -> (n, None) ∈ dirty (q s').
Proof.
  intros Hid Hr Hs Hc Hc' Hne. assert (s' = (step cf s (EHeartbeat n m now)).1) as -> by (rewrite Hs; done).
  eapply count_dirty; eauto. eapply reach_Inv; eauto.
Qed.
Lemma idle_enough_changed cf h1 s1 n m now s1' o h2 s2 c0 c1 c2 :
  ids_ok cf (h1 ++ (EHeartbeat n m now, o) :: h2) -> reach cf h1 s1 -> step cf s1 (EHeartbeat n m now) = (s1', o) ->
  objs s1 !! n = Some c0 -> objs s1' !! n = Some c1 -> r_count (c_row c1) <> r_count (c_row c0) ->
  c_status c1 = RUNNING -> c_target c1 = RUNNING -> leads cf s1' h2 s2 ->
  idle s2 -> objs s2 !! n = Some c2 -> c_status c2 = RUNNING -> c_target c2 = RUNNING ->
  r_count (c_row c2) <= Z.of_nat (length (List.filter wanted (c_workers c2))) +
    Z.of_nat (length (List.filter (fun x => retired x && bool_decide (w_name x ∉ gone c1)) (c_workers c2))).
Proof.
  intros Hid Hr Hs Hc0 Hc1 Hne Hst Htg Hl. rewrite (cons_middle _ h1 h2), app_assoc in Hid. destruct (ids_ok_app _ _ _ Hid) as [Hid1 _].
  destruct (ids_ok_app _ _ _ Hid1) as [Hid0 _].
  eapply (idle_enough_since cf (h1 ++ [(EHeartbeat n m now, o)]) s1' h2); eauto.
  - apply reach_app. exists s1. split; [done|]. econstructor; [exact Hs|constructor].
  - right. eapply hb_change_queued; eauto.
Qed.
