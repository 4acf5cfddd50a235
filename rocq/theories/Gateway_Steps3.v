(** Reconcilers and backend operations preserve the invariant of the gateway model. *)
From Coq Require Import ZArith Lia.
From stdpp Require Import prelude gmap.
From Verif Require Import Trace WorkQueue_Model WorkQueue_Proofs Router_Model Gateway_Model Gateway_Inv Gateway_Steps Gateway_Steps2.
Open Scope Z_scope.

Section steps3.
Context (cf : cfg) (s0 : gw).
Hypothesis Hrow0 : forall n c, objs s0 !! n = Some c -> row_ok (c_row c).
Notation Good := (Good cf s0).

Lemma Good_suspend s k p c : let n := (pc_item p).1 in
  Good (Some (pc_item p)) {[pc_item p]} s -> busy s !! k = None -> tasks (q s) !! k = None ->
  objs s !! n = Some c -> (forall w, (pc_item p).2 = Some w -> w ∈ names c) ->
  cok cf (Dof ∅ s) (fun p' => Bof s p' \/ p' = p) (routes s) n c ->
  Good None ∅ (suspend k p s).
Proof.
  intros n [HI HE] Hk Hq Hn Hw Hc. split; [eapply Inv_suspend; eauto|]. eapply Evolve_same; [exact HE|done].
Qed.

Lemma cluster_low c : row_ok (c_row c) -> jge (c_status c) STOPPED = false -> c_status c <> CLOSING -> jlt (c_status c) CLOSING = true.
Proof. intros _. destruct (c_status c); done. Qed.

(** Suspending inside a cluster operation does not change the workers' view. *)
Lemma wk_ok_cluster_pc (D D' : item -> Prop) (B : pc -> Prop) n cs ws p :
  (forall w, D (n, Some w) -> D' (n, Some w)) -> (pc_item p).2 = None ->
  Forall (wk_ok cf D B n cs) ws -> Forall (wk_ok cf D' (fun p' => B p' \/ p' = p) n cs) ws.
Proof.
  intros HD Hp Hw. eapply Forall_impl; [exact Hw|]. intros w []. constructor; auto.
  - intros H1 H2. destruct (wo_start H1 H2); auto.
  - intros H1 H2. destruct (wo_stop H1 H2); auto.
  - intros [H1| <-]; [|done]. destruct (wb_start H1) as [? [?|?]]; auto.
  - intros [H1| <-]; [|done]. auto.
Qed.

Lemma reconcile_cluster_good k n now s : Good (Some (n, None)) {[(n, None)]} s ->
  busy s !! k = None -> tasks (q s) !! k = None -> Good None ∅ (reconcile_cluster cf k n now s).1.
Proof.
  intros HG Hk Hq. unfold reconcile_cluster.
  destruct (objs s !! n) as [c|] eqn:Hn.
  2:{ simpl. apply Good_finish. eapply Good_drop; [exact HG|]. simpl. congruence. }
  pose proof (g_cok _ _ _ _ (proj1 HG) _ _ Hn) as Hc.
  assert (forall w, Dof {[(n, None)]} s (n, Some w) -> Dof ∅ s (n, Some w)) as HD by (intros w; apply Dof_one; done).
  assert (forall p, Bof s p -> pc_item p <> (n, None)) as Hnb by (intros p; eapply not_busy; apply HG).
  destruct (jge (c_status c) STOPPED) eqn:Hst.
  { simpl. apply Good_finish. eapply Good_drop; [exact HG|]. simpl. intros c2 Hc2 Hok. assert (c2 = c) by congruence. subst c2.
    eapply cok_drop; [exact Hok|exact HD|..]; destruct (c_status c); done. }
  destruct (decide (c_target c = STOPPED \/ c_target c = FAILED)) as [Ht|Ht].
  { destruct (decide (c_status c = CLOSING)) as [Hs|Hs].
    - destruct (ready_to_close cf c) eqn:Hr.
      + assert (jlt CREATED (c_status c) = true) as -> by (rewrite Hs; done). simpl.
        eapply (Good_suspend s k (InStopCluster n) c); eauto; [done|]. simpl.
        destruct Hc. constructor; auto.
        * eapply wk_ok_cluster_pc; eauto.
        * intros H1. congruence.
        * rewrite Hs. done.
        * intros H1. congruence.
        * intros H1. congruence.
        * intros [Hb|?]; [|done]. auto.
      + simpl. apply Good_finish. eapply Good_drop; [exact HG|]. simpl. intros c2 Hc2 Hok. assert (c2 = c) by congruence. subst c2.
        eapply cok_drop; [exact Hok|exact HD|..]; rewrite ?Hs; try done. congruence.
    - simpl. apply Good_finish. apply Good_closing; auto.
      + eapply cluster_low; eauto. apply Hc.
      + intuition congruence. }
  destruct (decide (c_target c = RUNNING)) as [Htr|Htr].
  2:{ exfalso. destruct (ro_tgt _ (k_row _ _ _ _ _ _ Hc)) as [E|E]; unfold c_target in *; tauto. }
  destruct (decide (c_status c = CREATED)) as [Hs|Hs].
  { simpl. eapply (Good_suspend s k (InStartCluster n) c); eauto; [done|]. simpl.
    destruct Hc. constructor; auto.
    - eapply wk_ok_cluster_pc; eauto.
    - congruence.
    - congruence.
    - congruence.
    - congruence.
    - intros [Hb|?]; [|done]. apply Hnb in Hb. done. }
  assert (jlt (c_status c) CLOSING = true) as Hlow by (eapply target_running_low; [apply Hc|done]).
  set (s1 := if decide _ then _ else s).
  assert (Good (Some (n, None)) {[(n, None)]} s1 /\ exists c1, objs s1 !! n = Some c1 /\ c_target c1 = RUNNING /\
     (c_status c1 = RUNNING \/ c_status c1 = SUBMITTED)) as (HG1 & c1 & Hn1 & Ht1 & Hs1).
  { unfold s1. destruct (decide _) as [[H1 H2]|_].
    - split; [eapply Good_running; eauto|].
      simpl. rewrite lookup_alter. unfold update_cluster. rewrite Hn. simpl. rewrite lookup_alter, Hn. simpl.
      eexists. split; [done|]. split; [done|]. left. done.
    - split; [done|]. exists c. split; [done|]. split; [done|]. destruct (c_status c); try done; auto. }
  clearbody s1. rewrite Hn1. simpl. apply Good_finish.
  destruct (decide (c_status c1 = RUNNING)) as [Hr|Hr].
  - destruct (Good_proxied cf s0 Hrow0 (Some (n, None)) s1 n c1) as (HG2 & c2 & Hn2 & R2 & W2 & P2); auto.
    eapply Good_scale; eauto; unfold c_status, c_target; rewrite R2; done.
  - eapply Good_drop; [exact HG1|]. simpl. intros c2 Hc2 Hok. assert (c2 = c1) by congruence. subst c2.
    assert (c_status c1 = SUBMITTED) as Hsub by tauto.
    eapply cok_drop; [exact Hok|intros w; apply Dof_one; done|..]; rewrite ?Hsub; try done.
Qed.

(** ** Workers *)
(** One worker changes from [x] to [f x]; its status does not fall below CLOSING or STOPPED. *)
Lemma cok_wup (D D' : item -> Prop) (B B' : pc -> Prop) R n c x f (w := w_name x)
  (c' := cset_workers (map (at_worker w f) (c_workers c)) c) :
  cok cf D B R n c -> x ∈ c_workers c -> w_name (f x) = w_name x -> wevolve x (f x) ->
  (forall y, y.1 = n -> y <> (n, Some w) -> D y -> D' y) ->
  (forall p, (pc_item p).1 = n -> pc_item p <> (n, Some w) -> B p <-> B' p) ->
  (wk_ok cf D B n (c_status c) x -> wk_ok cf D' B' n (c_status c) (f x)) ->
  (w_active (f x) = true -> w_active x = true) ->
  (forall j, j = CLOSING \/ j = STOPPED -> jge (w_status x) j = true -> jge (w_status (f x)) j = true) ->
  (c_status c = CLOSING -> ready_to_close cf c' = true -> D' (n, None) \/ B' (InStopCluster n)) ->
  (c_status c = RUNNING -> c_target c = RUNNING -> (covers x = true -> covers (f x) = true) \/ D' (n, None)) ->
  (clos (f x) -> clos x \/ c_target c <> RUNNING) ->
  cok cf D' B' R n c' /\ evolve c c' /\ names c' = names c.
Proof.
  intros Hc Hx Hfn Hev HD HB Hwk Hact Hlev Hrd Hcov Hcl.
  assert (forall y, y ∈ c_workers c -> w_name y = w -> y = x) as Huniq.
  { intros y Hy E. eapply (nodup_map_inj w_name); eauto. apply Hc. }
  assert (forall y, y ∈ c_workers c -> w_name (at_worker w f y) = w_name y) as Hnm.
  { intros y Hy. unfold at_worker. case_decide as E; [|done]. rewrite (Huniq y Hy E). done. }
  assert (forall y j, y ∈ c_workers c -> jge (w_status y) j = true -> j = CLOSING \/ j = STOPPED ->
            jge (w_status (at_worker w f y)) j = true) as Hup.
  { intros y j Hy Hj Hjj. unfold at_worker. case_decide as E; [|done]. rewrite (Huniq y Hy E) in *. auto. }
  assert ((n, None) <> (n, Some w)) as Hne0 by done.
  split; [|split].
  - destruct Hc. constructor; auto.
    + unfold c'. rewrite (names_map c); [done|]. auto.
    + simpl. apply Forall_forall. intros z (y & -> & Hy)%elem_of_list_fmap.
      rewrite Forall_forall in k_workers. specialize (k_workers y Hy). change (c_status c') with (c_status c).
      unfold at_worker. case_decide as E.
      * rewrite (Huniq y Hy E) in *. auto.
      * destruct k_workers. assert ((n, Some (w_name y)) <> (n, Some w)) as Hne by congruence.
        constructor; auto.
        -- intros H1 H2. destruct (wo_start H1 H2); [left; auto|right; apply HB; auto].
        -- intros H1 H2. destruct (wo_stop H1 H2); [left; auto|right; apply HB; auto].
        -- intros Hb. apply HB in Hb; [|done|done]. destruct (wb_start Hb) as [? [?|?]]; auto.
        -- intros Hb. apply HB in Hb; [|done|done]. auto.
    + simpl. intros z (y & -> & Hy)%elem_of_list_fmap. unfold at_worker. case_decide as E; [|apply k_bulk; done].
      rewrite (Huniq y Hy E) in *. intros Hz. destruct (Hcl Hz) as [H|H]; [|done]. apply (k_bulk x Hx H).
    + intros mx Hmx. specialize (k_cap mx Hmx). unfold active_workers in *. simpl.
      pose proof (filter_map_ge w_active (at_worker w f) (c_workers c)) as Hge.
      feed specialize Hge; [|lia]. intros y Hy. unfold at_worker. case_decide as E; [|done]. rewrite (Huniq y Hy E). auto.
    + intros H1 H2. destruct (o_start H1 H2); [left; apply HD; auto; done|right; apply HB; auto; done].
    + intros H1 H2. destruct (Hcov H1 H2) as [Hco|?]; [|right; auto].
      destruct (o_scale H1 H2) as [H|H]; [left|right; apply HD; auto; done].
      unfold n_covers in *. change (c_row c') with (c_row c). simpl.
      pose proof (filter_map_le covers (at_worker w f) (c_workers c)) as Hle.
      feed specialize Hle; [|lia]. intros y Hy. unfold at_worker. case_decide as E; [|done]. rewrite (Huniq y Hy E). auto.
    + intros Hb. apply HB in Hb; [auto|done|done].
    + intros Hb. apply HB in Hb; [|done|done]. destruct (b_stop Hb) as [H1 H2]. split; [done|].
      unfold ready_to_close in *. change (c_status c') with (c_status c). apply orb_true_iff in H2 as [H2|H2].
      * apply andb_true_iff in H2 as [H2 H3]. apply andb_true_iff in H3 as [H3 H4]. rewrite H2, H3.
        apply orb_true_iff. left. simpl. unfold all_at_least in *. rewrite forallb_forall in *. simpl.
        intros z (y & <- & Hy)%in_map_iff. apply Hup; auto. by apply elem_of_list_In.
      * apply orb_true_iff. right. unfold all_at_least in *. rewrite forallb_forall in *. simpl.
        intros z (y & <- & Hy)%in_map_iff. apply Hup; auto. by apply elem_of_list_In.
  - apply evolve_map. intros y Hy. unfold at_worker. case_decide as E; [|apply wevolve_refl]. rewrite (Huniq y Hy E). done.
  - apply names_map. auto.
Qed.

(** _worker_to_stopped *)
Definition wstop (now : Z) (x : worker) : worker := wset_stop (Some now) (wset_status (w_target x) x).
Lemma wk_wstop (D D' : item -> Prop) (B B' : pc -> Prop) n cs x now :
  is_fin (w_target x) = true -> (forall p, B' p -> pc_item p <> (n, Some (w_name x))) ->
  wk_ok cf D B n cs x -> wk_ok cf D' B' n cs (wstop now x).
Proof.
  intros Hf HB' []. constructor; simpl; auto.
  - intros E2. rewrite E2 in Hf. done.
  - intros [E2|E2]; rewrite E2 in Hf; done.
  - intros E2. rewrite E2 in Hf. done.
  - congruence.
  - intros _ E2. rewrite E2 in Hf. done.
  - intros Hb. apply HB' in Hb. done.
  - intros Hb. apply HB' in Hb. done.
Qed.
Lemma wevolve_wstop now x : is_fin (w_target x) = true -> wevolve x (wstop now x).
Proof.
  intros Hf. constructor; simpl; auto.
  - intros _ E2. rewrite E2 in Hf. done.
  - intros _. destruct (w_target x); done.
Qed.

(** One worker's item ends, or is held at another place. *)
Lemma cok_wone (D D' : item -> Prop) (B B' : pc -> Prop) R n c w : cok cf D B R n c ->
  (forall y, y.1 = n -> y <> (n, Some w) -> D y -> D' y) ->
  (forall p, (pc_item p).1 = n -> pc_item p <> (n, Some w) -> B p <-> B' p) ->
  (forall x, x ∈ c_workers c -> w_name x = w -> wk_ok cf D B n (c_status c) x -> wk_ok cf D' B' n (c_status c) x) ->
  cok cf D' B' R n c.
Proof.
  intros [] HD HB Hw. assert ((n, None) <> (n, Some w)) as Hne0 by done. constructor; auto.
  - apply Forall_forall. intros y Hy. rewrite Forall_forall in k_workers. specialize (k_workers y Hy).
    destruct (decide (w_name y = w)); [auto|]. destruct k_workers.
    assert ((n, Some (w_name y)) <> (n, Some w)) as Hne by congruence. constructor; auto.
    + intros H1 H2. destruct (wo_start H1 H2); [left; auto|right; apply HB; auto].
    + intros H1 H2. destruct (wo_stop H1 H2); [left; auto|right; apply HB; auto].
    + intros Hb. apply HB in Hb; [|done|done]. destruct (wb_start Hb) as [? [?|?]]; auto.
    + intros Hb. apply HB in Hb; [|done|done]. auto.
  - intros H1 H2. destruct (o_start H1 H2); [left; apply HD; auto; done|right; apply HB; auto; done].
  - intros H1 H2. destruct (o_ready H1 H2); [left; apply HD; auto; done|right; apply HB; auto; done].
  - intros H1 H2. destruct (o_scale H1 H2); [left; done|right; apply HD; auto; done].
  - intros Hb. apply HB in Hb; [auto|done|done].
  - intros Hb. apply HB in Hb; [auto|done|done].
Qed.

(** What follows the end of a worker, as a condition on the cluster item. *)
Lemma rest_good cur s n c' x w : objs s !! n = Some c' -> find_worker w (c_workers c') = Some x ->
  Good cur (if ready_to_close cf c' || (bool_decide (c_target c' = RUNNING) && negb (w_close x)) then {[(n, None)]} else ∅) s ->
  Good cur ∅ (worker_stopped_rest cf n w s).
Proof.
  intros Hn Hx HG. unfold worker_stopped_rest, get_worker. rewrite Hn. simpl. rewrite Hx.
  destruct (ready_to_close cf c'); simpl in HG.
  { apply Good_put. rewrite (right_id_L ∅ (∪)). done. }
  destruct (decide _) as [[E1 E2]|E].
  - rewrite E2, bool_decide_true in HG by done. simpl in HG. apply Good_put. rewrite (right_id_L ∅ (∪)). done.
  - case_bool_decide as E1; simpl in HG; [|done]. destruct (w_close x); simpl in HG; [done|]. exfalso. tauto.
Qed.

Lemma find_worker_at w f ws x : NoDup (map w_name ws) -> find_worker w ws = Some x -> (forall y, w_name (f y) = w_name y) ->
  find_worker w (map (at_worker w f) ws) = Some (f x).
Proof.
  intros Hd Hx Hf. destruct (find_worker_split w ws x Hd Hx) as (l1 & l2 & -> & Hn & Hm).
  change (map (at_worker w f) (l1 ++ x :: l2)) with (map_worker w f (l1 ++ x :: l2)). rewrite Hm.
  rewrite map_app in Hd. simpl in Hd. apply NoDup_app in Hd as (_ & Hd & _). clear Hm Hx.
  assert (w_name x ∉ map w_name l1) as Hni. { intros Hi. eapply Hd; [exact Hi|left]. }
  clear Hd. induction l1 as [|y l1 IH]; simpl in *.
  - rewrite bool_decide_true; [done|]. rewrite Hf. done.
  - apply not_elem_of_cons in Hni as [? ?]. rewrite bool_decide_false by congruence. auto.
Qed.

Lemma worker_done_good cur s s1 n c x w now :
  NoDup (names c) -> objs s !! n = Some c -> find_worker w (c_workers c) = Some x ->
  s1 = worker_stopped n w now s ->
  (forall (s2 := s1) (c' := cset_workers (map (at_worker w (wstop now)) (c_workers c)) c) X,
     objs s2 = <[n := c']> (objs s) -> same_rest s s2 ->
     (ready_to_close cf c' = true -> (n, None) ∈ X) -> (c_target c = RUNNING -> w_close x = false -> (n, None) ∈ X) -> Good cur X s2) ->
  Good cur ∅ (worker_stopped_rest cf n w s1).
Proof.
  intros Hd Hn Hx -> HG.
  destruct (update_worker_spec n w (wstop now) s c Hn) as [Ho Hs].
  change (update_worker n w (wstop now) s) with (worker_stopped n w now s) in *.
  set (c' := cset_workers (map (at_worker w (wstop now)) (c_workers c)) c) in *.
  eapply (rest_good cur _ n c' (wstop now x)).
  - rewrite Ho. apply lookup_insert.
  - simpl. apply find_worker_at; auto.
  - apply HG; auto.
    + intros ->. simpl. set_solver.
    + change (c_target c') with (c_target c). intros E1 E2. rewrite bool_decide_true by done.
      change (w_close (wstop now x)) with (w_close x). rewrite E2. rewrite orb_true_r. set_solver.
Qed.

Lemma reconcile_worker_good k n w now s : Good (Some (n, Some w)) {[(n, Some w)]} s ->
  busy s !! k = None -> tasks (q s) !! k = None -> Good None ∅ (reconcile_worker cf k n w now s).1.
Proof.
  intros HG Hk Hq. unfold reconcile_worker.
  assert (forall p, Bof s p -> pc_item p <> (n, Some w)) as Hnb by (intros p; eapply not_busy; apply HG).
  assert (forall y, y.1 = n -> y <> (n, Some w) -> Dof {[(n, Some w)]} s y -> Dof ∅ s y) as HD.
  { intros y _ E. apply Dof_one. done. }
  destruct (get_worker n w s) as [x|] eqn:Hg.
  2:{ simpl. apply Good_finish. eapply Good_drop; [exact HG|]. simpl. intros c Hn Hok.
      eapply cok_wone; [exact Hok|exact HD|done|]. intros y Hy E. exfalso. unfold get_worker in Hg. rewrite Hn in Hg. simpl in Hg.
      destruct (find_worker_in w (c_workers c)) as [z Hz]; [|congruence].
      rewrite <- E. apply (elem_of_list_fmap_1 w_name). done. }
  unfold get_worker in Hg. destruct (objs s !! n) as [c|] eqn:Hn; [|done]. simpl in Hg.
  destruct (find_worker_some _ _ _ Hg) as [Hx Hxn].
  pose proof (g_cok _ _ _ _ (proj1 HG) _ _ Hn) as Hc.
  assert (forall y, y ∈ c_workers c -> w_name y = w -> y = x) as Huniq.
  { intros y Hy E. eapply (nodup_map_inj w_name); eauto; [apply Hc|congruence]. }
  pose proof (k_workers _ _ _ _ _ _ Hc) as Hws. rewrite Forall_forall in Hws. pose proof (Hws x Hx) as Hw. clear Hws.
  assert ((wk_ok cf (Dof {[(n, Some w)]} s) (Bof s) n (c_status c) x -> wk_ok cf (Dof ∅ s) (Bof s) n (c_status c) x) ->
     Good (Some (n, Some w)) ∅ s) as Hdrop.
  { intros Hwx. eapply Good_drop; [exact HG|]. simpl. intros c2 Hn2 Hok. assert (c2 = c) by congruence. subst c2.
    eapply cok_wone; [exact Hok|exact HD|done|]. intros y Hy E. rewrite (Huniq y Hy E). done. }
  assert (forall p, pc_item p = (n, Some w) ->
     (wk_ok cf (Dof {[(n, Some w)]} s) (Bof s) n (c_status c) x -> wk_ok cf (Dof ∅ s) (fun p' => Bof s p' \/ p' = p) n (c_status c) x) ->
     Good None ∅ (suspend k p s)) as Hsusp.
  { intros p Hp Hwx. apply (Good_suspend s k p c); rewrite ?Hp; auto.
    - intros w' [= <-]. rewrite <- Hxn. apply (elem_of_list_fmap_1 w_name). done.
    - simpl. eapply cok_wone; [exact Hc|exact HD| |].
      + intros p' _ Hp'. split; [auto|]. intros [?|E]; [done|]. subst p'. done.
      + intros y Hy E. rewrite (Huniq y Hy E). done. }
  destruct (jge (w_status x) STOPPED) eqn:Hst.
  { simpl. apply Good_finish, Hdrop. intros []. rewrite Hxn in *. constructor; rewrite ?Hxn; auto.
    - intros E. rewrite E in Hst. done.
    - intros E. unfold is_fin in E. congruence.
    - intros E. destruct (w_status x); done.
    - intros Hb. apply Hnb in Hb. done. }
  destruct (decide (w_target x = CLOSING)) as [Ht|Ht].
  { simpl. apply Good_finish.
    set (s1 := if decide (w_status x = CLOSING) then s else update_worker n w (wset_status CLOSING) s).
    set (c' := cset_workers (map (at_worker w (wset_status CLOSING)) (c_workers c)) c).
    assert (objs s1 = <[n := c']> (objs s) /\ same_rest s s1) as [Ho Hs].
    { unfold s1. destruct (decide _) as [E|E]; [|apply update_worker_spec; done].
      split; [|done]. rewrite insert_id; [done|]. rewrite Hn. f_equal. unfold c'. rewrite <- (cset_workers_id c) at 1. f_equal.
      clear -E Huniq. symmetry. rewrite <- (map_id (c_workers c)) at 2. apply map_ext_in. intros y Hy. unfold at_worker. case_decide as E2; [|done].
      rewrite (Huniq y); [|by apply elem_of_list_In|done]. destruct x. simpl in *. subst. done. }
    clearbody s1. assert (is_ready cf n s1 = ready_to_close cf c') as -> by (unfold is_ready; rewrite Ho, lookup_insert; done).
    pose proof (wo_bulk _ _ _ _ _ _ Hw (or_intror Ht)) as Hbk.
    pose proof (k_bulk _ _ _ _ _ _ Hc x Hx (or_intror Ht)) as Htn.
    assert (Good (Some (n, Some w)) (if ready_to_close cf c' then {[(n, None)]} else ∅) s1) as HG1.
    { destruct (cok_wup (Dof {[(n, Some w)]} s) (Dof (if ready_to_close cf c' then {[(n, None)]} else ∅) s) (Bof s) (Bof s) (routes s) n c x (wset_status CLOSING))
        as (Hok & Hev & Hnm); rewrite ?Hxn; auto.
      - constructor; simpl; auto. intros E. unfold is_fin in E. congruence.
      - intros y _ E [?|H]; [left; done|]. apply elem_of_singleton in H. done.
      - intros []. rewrite Hxn in *. constructor; simpl; rewrite ?Hxn; auto; try done.
        + intros _. rewrite Ht. done.
        + intros E. specialize (wo_done E). unfold is_fin in wo_done. congruence.
        + rewrite Ht. done.
        + intros Hb. apply Hnb in Hb. done.
        + intros Hb. apply Hnb in Hb. done.
      - intros j [-> | ->]; [done|]. congruence.
      - intros _ Hr. fold c' in Hr. rewrite Hr. left. right. set_solver.
      - rewrite Hxn in *. fold c' in Hok, Hev, Hnm. eapply (Good_set cf s0 Hrow0 _ {[(n, Some w)]} _ s s1 n c c'); eauto.
        intros y Hy1 ->%elem_of_singleton. done. }
    destruct (ready_to_close cf c'); [|done]. apply Good_put. rewrite (right_id_L ∅ (∪)). done. }
  destruct (decide (w_target x = STOPPED \/ w_target x = FAILED)) as [Htf|Htf].
  { assert (is_fin (w_target x) = true) as Hfin by (destruct Htf as [-> | ->]; done).
    destruct (jlt CREATED (w_status x)) eqn:Hcr.
    - simpl. apply Hsusp; [done|]. intros []. rewrite Hxn in *. constructor; rewrite ?Hxn; auto.
      + intros E. rewrite E in Hcr. done.
      + intros [Hb|?]; [|done]. apply Hnb in Hb. done.
      + intros _. split; [done|]. intros E. rewrite E in Hcr. done.
    - simpl. apply Good_finish. eapply (worker_done_good (Some (n, Some w)) s _ n c x w now); eauto; [apply Hc|].
      intros s2 c' X Ho Hs HX1 HX2.
      destruct (cok_wup (Dof {[(n, Some w)]} s) (Dof X s) (Bof s) (Bof s) (routes s) n c x (wstop now))
        as (Hok & Hev & Hnm); rewrite ?Hxn; auto.
      + apply wevolve_wstop. done.
      + intros y _ E [?|H]; [left; done|]. apply elem_of_singleton in H. done.
      + intros Hwk. eapply wk_wstop; eauto. rewrite Hxn. done.
      + intros j [-> | ->]; simpl; intros _; destruct (w_target x); done.
      + intros _ Hr. left. right. auto.
      + intros _ E. destruct (w_close x) eqn:Hcl; [left|right; right; auto]. unfold covers. simpl. rewrite Hcl. done.
      + intros [E|E]; simpl in E; rewrite E in Hfin; done.
      + rewrite Hxn in *. fold c' in Hok, Hev, Hnm. eapply (Good_set cf s0 Hrow0 _ {[(n, Some w)]} _ s s2 n c c'); eauto.
        intros y Hy1 ->%elem_of_singleton. done. }
  destruct (decide (w_status x = CREATED /\ w_target x = RUNNING)) as [[H1 H2]|Hno].
  - simpl. apply Hsusp; [done|]. intros []. rewrite Hxn in *. constructor; rewrite ?Hxn; auto.
    + rewrite H2. done.
    + intros [Hb|?]; [|done]. apply Hnb in Hb. done.
  - simpl. apply Good_finish, Hdrop. intros []. rewrite Hxn in *. constructor; rewrite ?Hxn; auto.
    + intros E1 E2. exfalso. tauto.
    + intros _ E. destruct (w_target x); try done; exfalso; tauto.
    + intros Hb. apply Hnb in Hb. done.
Qed.

(** ** Backend operations *)
Lemma Good_resume X' s s' k p c c' : let n := (pc_item p).1 in
  Good None ∅ s -> busy s !! k = Some p -> objs s !! n = Some c -> objs s' = <[n := c']> (objs s) ->
  q s' = q s -> busy s' = delete k (busy s) -> (forall k m, m <> n -> routes s' !! (k, m) = routes s !! (k, m)) ->
  uuid s' = uuid s -> names c' = names c -> evolve c c' ->
  cok cf (Dof X' s) (fun p' => Bof s p' /\ p' <> p) (routes s') n c' ->
  Good (Some (pc_item p)) X' s'.
Proof.
  intros n [HI HE] Hk Hn Ho Hq Hb Hr Hu Hnm Hev Hc. split.
  - eapply Inv_resume; eauto. unfold Dof in *. rewrite Hq. done.
  - eapply Evolve_set; eauto.
Qed.
(** While an operation on an item is suspended, no other one is. *)
Lemma busy_unique s k p p' : Inv cf None ∅ s -> busy s !! k = Some p -> Bof s p' -> pc_item p' = pc_item p -> p' = p.
Proof.
  intros HI Hk (k' & Hk') E. assert (k' = k) as -> by (eapply (g_inj _ _ _ _ HI); eauto). congruence.
Qed.

Lemma wk_release_cluster (D D' : item -> Prop) (B : pc -> Prop) n cs ws p : (pc_item p).2 = None ->
  (forall w, D (n, Some w) -> D' (n, Some w)) ->
  Forall (wk_ok cf D B n cs) ws -> Forall (wk_ok cf D' (fun p' => B p' /\ p' <> p) n cs) ws.
Proof.
  intros Hp HD Hw. eapply Forall_impl; [exact Hw|]. intros w []. constructor; auto.
  - intros H1 H2. destruct (wo_start H1 H2); [auto|]. right. split; [done|]. intros <-. done.
  - intros H1 H2. destruct (wo_stop H1 H2); [auto|]. right. split; [done|]. intros <-. done.
  - intros [H1 _]. destruct (wb_start H1) as [? [?|?]]; auto.
  - intros [H1 _]. auto.
Qed.

(** The start of a cluster ends, or fails. *)
Lemma cluster_submitted_good k n s X f : Good None ∅ s -> busy s !! k = Some (InStartCluster n) ->
  (X = ∅ /\ f = rset_status SUBMITTED \/ X = {[(n, None)]} /\ f = fun r => rset_target FAILED (rset_status SUBMITTED r)) ->
  Good (Some (n, None)) X (update_cluster n f (release k s)).
Proof.
  intros HG Hk Hf. destruct (g_pcs _ _ _ _ (proj1 HG) _ _ Hk) as (c & Hn & _). simpl in Hn.
  pose proof (g_cok _ _ _ _ (proj1 HG) _ _ Hn) as Hc.
  assert (objs (release k s) !! n = Some c) as Hn1 by done.
  destruct (update_cluster_spec n f (release k s) c Hn1) as [Ho (Q & B & R & U & _)].
  set (s' := update_cluster n f (release k s)) in *.
  assert (c_status c = CREATED) as Hs by (apply Hc; exists k; done).
  assert (r_status (f (c_row c)) = SUBMITTED) as Hfs by (destruct Hf as [[_ ->]|[_ ->]]; done).
  assert (c_proxied c = false) as Hp.
  { destruct (c_proxied c) eqn:Hp; [|done]. apply (k_proxied _ _ _ _ _ _ Hc) in Hp. rewrite Hs in Hp. done. }
  eapply (Good_resume X s s' k (InStartCluster n) c); simpl; eauto.
  - intros k' m _. rewrite R. done.
  - pose proof (evolve_refl c) as []. destruct Hf as [[_ ->]|[_ ->]]; constructor; auto; unfold c_status, c_target in *; simpl; rewrite ?Hs; simpl; try done; try lia.
    destruct (ro_tgt _ (k_row _ _ _ _ _ _ Hc)) as [->|[->| ->]]; simpl; lia.
  - rewrite R. change (routes (release k s)) with (routes s). destruct Hc.
    set (c' := cset_row (f (c_row c)) c). assert (c_status c' = SUBMITTED) as Hs' by done.
    assert (r_name (f (c_row c)) = r_name (c_row c) /\ r_stop (f (c_row c)) = r_stop (c_row c) /\ r_max (f (c_row c)) = r_max (c_row c) /\
            r_count (f (c_row c)) = r_count (c_row c)) as (F1 & F2 & F3 & F4) by (destruct Hf as [[_ ->]|[_ ->]]; done).
    constructor; rewrite ?Hs'; try done.
    + unfold c_name in *. simpl. congruence.
    + destruct k_row. constructor; simpl; rewrite ?Hfs, ?F2, ?F3, ?F4; try done.
      * destruct Hf as [[_ ->]|[_ ->]]; simpl; auto.
      * unfold c_status in Hs. rewrite ro_stop, Hs. done.
    + simpl. rewrite k_ready, Hs. done.
    + simpl. rewrite k_shut, Hs. done.
    + eapply wk_release_cluster; [done| |].
      2:{ eapply Forall_impl; [exact k_workers|]. intros w. apply wk_ok_status; [rewrite Hs|]; done. }
      intros w. unfold Dof. set_solver.
    + intros w Hw Hcl. pose proof (k_bulk w Hw Hcl) as Hb. destruct Hf as [[_ ->]|[_ ->]]; [exact Hb|done].
    + simpl. rewrite F3. done.
    + simpl. rewrite Hp. done.
    + intros _. rewrite k_sni by (left; congruence). simpl. rewrite Hp. done.
    + intros _. rewrite k_path by (left; congruence). simpl. rewrite Hp. done.
    + intros _ Ht. destruct Hf as [[-> ->]|[-> ->]].
      * apply o_close; [rewrite Hs|]; done.
      * right. set_solver.
    + intros [_ E]. done.
    + intros [Hb _]. destruct (b_stop Hb). congruence.
Qed.

(** The stop of a cluster ends. *)
Lemma cluster_stopped_good k n now s : Good None ∅ s -> busy s !! k = Some (InStopCluster n) ->
  Good (Some (n, None)) ∅ (cluster_stopped n now (remove_routes n (release k s))).
Proof.
  intros HG Hk. destruct (g_pcs _ _ _ _ (proj1 HG) _ _ Hk) as (c & Hn & _). simpl in Hn.
  pose proof (g_cok _ _ _ _ (proj1 HG) _ _ Hn) as Hc.
  set (sr := remove_routes n (release k s)). assert (objs sr !! n = Some c) as Hn1 by done.
  unfold cluster_stopped. rewrite Hn1.
  set (P := fun w => jlt (w_status w) STOPPED).
  set (g := fun w => wset_target STOPPED (wset_status STOPPED w)).
  set (ws := map w_name (List.filter P (c_workers c))).
  destruct (update_workers_spec n ws g sr c Hn1) as [Ho1 Hs1]; [apply filter_nodup, Hc|done|].
  unfold ws in Ho1 at 2. rewrite (at_workers_filter P g c (k_nodup _ _ _ _ _ _ Hc)) in Ho1.
  set (s1 := update_workers n ws g sr) in *.
  set (c1 := cset_workers (map (fun x => if P x then g x else x) (c_workers c)) c) in *.
  destruct (update_cluster_spec n (fun r => rset_stop (Some now) (rset_status (r_target r) r)) s1 c1) as [Ho2 Hs2].
  { rewrite Ho1. apply lookup_insert. }
  set (s2 := update_cluster n _ s1) in *. set (c2 := cset_row _ c1) in *.
  destruct (upd_obj_spec n (fun c => cset_shutdown true (cset_ready true c)) s2 c2) as [Ho3 Hs3].
  { rewrite Ho2. apply lookup_insert. }
  set (s3 := upd_obj n _ s2) in *. set (c3 := cset_shutdown true (cset_ready true c2)) in *.
  rewrite Ho2, Ho1, !insert_insert in Ho3. change (objs sr) with (objs s) in Ho3.
  destruct (same_rest_trans _ _ _ Hs1 (same_rest_trans _ _ _ Hs2 Hs3)) as (Q & B & R & U & _).
  destruct (b_stop _ _ _ _ _ _ Hc) as [Hs Hrd]; [exists k; done|].
  assert (is_fin (r_target (c_row c)) = true) as Hfin.
  { destruct (k_row _ _ _ _ _ _ Hc). unfold c_status in Hs. specialize (ro_closing Hs). destruct ro_tgt as [E|[E|E]]; rewrite E; done. }
  assert (c_status c3 = r_target (c_row c)) as Hs3'. { done. }
  assert (forall x, x ∈ c_workers c -> jge (w_status x) CLOSING = true) as Hlev.
  { intros x Hx. apply elem_of_list_In in Hx. unfold ready_to_close in Hrd. apply orb_true_iff in Hrd as [Hrd|Hrd].
    - apply andb_true_iff in Hrd as [_ Hrd]. apply andb_true_iff in Hrd as [_ Hrd]. unfold all_at_least in Hrd.
      rewrite forallb_forall in Hrd. auto.
    - unfold all_at_least in Hrd. rewrite forallb_forall in Hrd. specialize (Hrd x Hx). destruct (w_status x); done. }
  eapply (Good_resume ∅ s s3 k (InStopCluster n) c c3); cbn [pc_item fst snd]; eauto.
  - intros k' m E. rewrite R. cbn [routes sr remove_routes set_routes]. rewrite !lookup_delete_ne by congruence. done.
  - unfold names. simpl. rewrite map_map. apply map_ext. intros x. simpl. unfold P, g. destruct (jlt (w_status x) STOPPED); done.
  - constructor; try done.
    + rewrite Hs, Hs3'. destruct (r_target (c_row c)); simpl in *; try done; lia.
    + rewrite Hs. done.
    + exists (c_workers c3), []. split; [by rewrite app_nil_r|]. split; [|done]. unfold c3, c2, c1. simpl.
      clear. induction (c_workers c) as [|x l IH]; simpl; constructor; [|done].
      destruct (P x) eqn:HP; [|apply wevolve_refl]. constructor; simpl; auto.
  - rewrite R. destruct Hc.
    constructor; rewrite ?Hs3'; try done.
    + destruct k_row. constructor; simpl; try done.
      * intros E. rewrite E. done.
      * intros E. rewrite E. done.
      * intros E. rewrite E in Hfin. done.
    + simpl. destruct (r_target (c_row c)); done.
    + unfold names in *. simpl. rewrite map_map. erewrite map_ext; [exact k_nodup|]. intros x. simpl. unfold P, g. destruct (jlt (w_status x) STOPPED); done.
    + simpl. apply Forall_forall. intros z (x & -> & Hx)%elem_of_list_fmap.
      rewrite Forall_forall in k_workers. specialize (k_workers x Hx). specialize (Hlev x Hx). fold (P x).
      destruct (P x) eqn:HP; unfold P in HP.
      * destruct k_workers. constructor; simpl; try done.
        -- intros [?|?]; done.
        -- intros _. destruct (bulk cf); done.
        -- intros [Hb _]. destruct (wb_start Hb) as [[E|E] _]; rewrite E in Hlev; done.
      * assert (is_fin (w_status x) = true) as Hfx by (unfold is_fin; destruct (w_status x); done).
        destruct k_workers. specialize (wo_fin Hfx). constructor; try done.
        -- intros _. destruct (w_target x), (bulk cf); done.
        -- intros E. rewrite E in Hfx. done.
        -- congruence.
        -- intros [Hb _]. destruct (wb_start Hb) as [[E|E] _]; rewrite E in Hfx; done.
        -- intros [Hb _]. auto.
    + intros z _ _. change (c_target c3) with (r_target (c_row c)). intros E. rewrite E in Hfin. done.
    + intros mx Hmx. specialize (k_cap mx Hmx). unfold active_workers in *. simpl.
      pose proof (filter_map_ge w_active (fun x => if P x then g x else x) (c_workers c)) as Hge.
      feed specialize Hge; [|lia]. intros x _. destruct (P x); done.
    + intros _. destruct (r_target (c_row c)); done.
    + simpl. rewrite lookup_delete. destruct (c_proxied c), (r_target (c_row c)); done.
    + simpl. rewrite lookup_delete_ne, lookup_delete by done. destruct (c_proxied c), (r_target (c_row c)); done.
    + intros E. rewrite E in Hfin. done.
    + intros E. destruct (r_target (c_row c)); done.
    + intros E. rewrite E in Hfin. done.
    + intros E. rewrite E in Hfin. done.
    + intros E. rewrite E in Hfin. done.
    + intros [Hb _]. exfalso. rewrite b_start in Hs; done.
    + intros [_ E]. done.
Qed.
End steps3.
