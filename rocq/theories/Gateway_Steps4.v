(** Every event except a restart preserves the invariant of the gateway model. *)
From Coq Require Import ZArith Lia.
From stdpp Require Import prelude gmap.
From Verif Require Import Trace WorkQueue_Model WorkQueue_Proofs Router_Model Gateway_Model Gateway_Inv Gateway_Steps Gateway_Steps2 Gateway_Steps3.
Open Scope Z_scope.

Section steps4.
Context (cf : cfg) (s0 : gw).
Hypothesis Hrow0 : forall n c, objs s0 !! n = Some c -> row_ok (c_row c).
Notation Good := (Good cf s0).

Lemma busy_others s k p p' : Inv cf None ∅ s -> busy s !! k = Some p -> pc_item p' <> pc_item p ->
  Bof s p' <-> Bof s p' /\ p' <> p.
Proof. intros HI Hk E. split; [|tauto]. intros Hb. split; [done|]. intros ->. done. Qed.
Lemma busy_rest s k p p' : Inv cf None ∅ s -> busy s !! k = Some p -> Bof s p' /\ p' <> p -> pc_item p' <> pc_item p.
Proof. intros HI Hk [Hb Hne] E. apply Hne. eapply busy_unique; eauto. Qed.

(** A worker operation: the cluster, the worker. *)
Lemma worker_op s k p n w : Good None ∅ s -> busy s !! k = Some p -> pc_item p = (n, Some w) ->
  exists c x, objs s !! n = Some c /\ find_worker w (c_workers c) = Some x /\ x ∈ c_workers c /\ w_name x = w /\
    cok cf (Dof ∅ s) (Bof s) (routes s) n c /\ wk_ok cf (Dof ∅ s) (Bof s) n (c_status c) x.
Proof.
  intros HG Hk Hp. destruct (g_pcs _ _ _ _ (proj1 HG) _ _ Hk) as (c & Hn & Hw). rewrite Hp in *. simpl in *.
  destruct (find_worker_in w (c_workers c)) as [x Hx]; [apply Hw; done|].
  destruct (find_worker_some _ _ _ Hx) as [Hx1 Hx2].
  pose proof (g_cok _ _ _ _ (proj1 HG) _ _ Hn) as Hc.
  exists c, x. repeat (split; [done|]). pose proof (k_workers _ _ _ _ _ _ Hc) as H. rewrite Forall_forall in H. auto.
Qed.

Lemma worker_submitted_good k n w s X f : Good None ∅ s -> busy s !! k = Some (InStartWorker n w) ->
  (X = ∅ /\ f = wset_status SUBMITTED \/ X = {[(n, Some w)]} /\ f = fun x => wset_target FAILED (wset_status SUBMITTED x)) ->
  Good (Some (n, Some w)) X (update_worker n w f (release k s)).
Proof.
  intros HG Hk Hf. destruct (worker_op s k _ n w HG Hk eq_refl) as (c & x & Hn & Hfx & Hx & Hxn & Hc & Hw).
  assert (objs (release k s) !! n = Some c) as Hn1 by done.
  destruct (update_worker_spec n w f (release k s) c Hn1) as [Ho (Q & B & R & U & _)].
  set (s' := update_worker n w f (release k s)) in *.
  assert (Bof s (InStartWorker n w)) as Hb by (exists k; done).
  assert (w_status x = CREATED \/ w_status x = RUNNING) as Hs.
  { apply (wb_start _ _ _ _ _ _ Hw). rewrite Hxn. done. }
  assert (is_fin (w_status x) = false) as Hnf by (destruct Hs as [-> | ->]; done).
  assert (is_fin (c_status c) = false) as Hcs.
  { destruct (is_fin (c_status c)) eqn:E; [|done]. apply (wo_done _ _ _ _ _ _ Hw) in E. congruence. }
  set (c' := cset_workers (map (at_worker w f) (c_workers c)) c) in *.
  destruct (cok_wup cf (Dof ∅ s) (Dof X s) (Bof s) (fun p' => Bof s p' /\ p' <> InStartWorker n w) (routes s) n c x f)
    as (Hok & Hev & Hnm); rewrite ?Hxn; auto.
  - destruct Hf as [[_ ->]|[_ ->]]; simpl; done.
  - destruct Hf as [[_ ->]|[_ ->]]; constructor; simpl; auto; try congruence;
      intros E; destruct Hs as [E2|E2]; rewrite E2 in E; done.
  - intros y _ _ [?|?]; [left; done|]. set_solver.
  - intros p Hp1 Hp2. apply (busy_others s k (InStartWorker n w)); [apply HG|done|done].
  - intros []. rewrite Hxn in *. destruct (wb_start Hb) as [_ Hd].
    assert (forall p', (Bof s p' /\ p' <> InStartWorker n w) -> pc_item p' <> (n, Some w)) as Hrest.
    { intros p' Hp'. apply (busy_rest s k (InStartWorker n w)); [apply HG|done|done]. }
    destruct Hf as [[-> ->]|[-> ->]]; constructor; simpl; rewrite ?Hxn; auto; try done.
    + intros [?|?]; [done|]. apply wo_bulk. auto.
    + intros E. congruence.
    + intros _ E. left. destruct Hd as [E2|]; [rewrite E2 in E; done|done].
    + intros _ E. destruct Hd as [E2|]; [congruence|done].
    + intros E. apply Hrest in E. done.
    + intros E. apply Hrest in E. done.
    + intros [?|?]; done.
    + intros _. destruct (bulk cf); done.
    + intros E. congruence.
    + intros _ _. left. right. set_solver.
    + intros E. apply Hrest in E. done.
  - destruct Hf as [[_ ->]|[_ ->]]; done.
  - intros j [-> | ->]; destruct Hs as [-> | ->]; done.
  - intros Hcl Hr. fold c' in Hr.
    assert (ready_to_close cf c' = ready_to_close cf c) as Heq.
    { unfold c'. apply ready_map. intros y Hy. unfold at_worker. case_decide as E; [|done].
      assert (y = x) as -> by (apply (nodup_map_inj w_name (c_workers c)); [apply Hc|done|done|congruence]).
      unfold same_level. destruct Hf as [[_ ->]|[_ ->]], Hs as [E2|E2]; simpl; rewrite E2; done. }
    rewrite Heq in Hr. destruct (o_ready _ _ _ _ _ _ Hc Hcl Hr) as [[?|?]|?].
    + left. left. done.
    + set_solver.
    + right. done.
  - intros _ _. left. intros _. unfold covers. destruct Hf as [[_ ->]|[_ ->]]; simpl; apply orb_true_r.
  - unfold clos. destruct Hf as [[_ ->]|[_ ->]]; simpl; (intros [?|?]; [done|auto]); done.
  - rewrite Hxn in *. fold c' in Hok, Hev, Hnm.
    eapply (Good_resume cf s0 Hrow0 X s s' k (InStartWorker n w) c c'); cbn [pc_item fst snd]; eauto.
    + intros k' m _. rewrite R. done.
    + rewrite R. exact Hok.
Qed.

Lemma worker_stop_good k n w now s : Good None ∅ s -> busy s !! k = Some (InStopWorker n w) ->
  Good (Some (n, Some w)) ∅ (worker_stopped_rest cf n w (worker_stopped n w now (release k s))).
Proof.
  intros HG Hk. destruct (worker_op s k _ n w HG Hk eq_refl) as (c & x & Hn & Hfx & Hx & Hxn & Hc & Hw).
  assert (Bof s (InStopWorker n w)) as Hb by (exists k; done).
  assert (is_fin (w_target x) = true /\ w_status x <> CREATED) as [Hfin Hncr].
  { apply (wb_stop _ _ _ _ _ _ Hw). rewrite Hxn. done. }
  eapply (worker_done_good cf s0 Hrow0 (Some (n, Some w)) (release k s) _ n c x w now); eauto; [apply Hc|].
  intros s2 c' X Ho (Q & B & R & U & _) HX1 HX2.
  destruct (cok_wup cf (Dof ∅ s) (Dof X s) (Bof s) (fun p' => Bof s p' /\ p' <> InStopWorker n w) (routes s) n c x (wstop now))
    as (Hok & Hev & Hnm); rewrite ?Hxn; auto.
  - apply wevolve_wstop. done.
  - intros y _ _ [?|?]; [left; done|]. set_solver.
  - intros p Hp1 Hp2. apply (busy_others s k (InStopWorker n w)); [apply HG|done|done].
  - apply wk_wstop; [done|]. rewrite Hxn. intros p' Hp'. apply (busy_rest s k (InStopWorker n w)); [apply HG|done|done].
  - intros j [-> | ->]; simpl; intros _; destruct (w_target x); done.
  - intros _ Hr. left. right. auto.
  - intros _ E. destruct (w_close x) eqn:Hcl; [left|right; right; auto]. unfold covers. simpl. rewrite Hcl. done.
  - intros [E|E]; simpl in E; rewrite E in Hfin; done.
  - rewrite Hxn in *. fold c' in Hok, Hev, Hnm.
    eapply (Good_resume cf s0 Hrow0 X s s2 k (InStopWorker n w) c c'); cbn [pc_item fst snd]; eauto.
    + intros k' m _. rewrite R. done.
    + rewrite R. exact Hok.
Qed.

Lemma resume_good k o now s : Good None ∅ s -> Good None ∅ (resume cf k o now s).1.
Proof.
  intros HG. unfold resume. destruct (busy s !! k) as [p|] eqn:Hk; [|done].
  destruct p as [n|n|n w|n w], o as [st| |]; cbn [fst].
  - apply Good_cstate; auto.
  - apply Good_finish. apply cluster_submitted_good; auto.
  - apply Good_finish. apply Good_put. rewrite (right_id_L ∅ (∪)). apply cluster_submitted_good; auto.
  - done.
  - apply Good_finish, cluster_stopped_good; auto.
  - apply Good_finish, cluster_stopped_good; auto.
  - apply Good_wstate; auto.
  - apply Good_finish. apply worker_submitted_good; auto.
  - apply Good_finish. apply Good_put. rewrite (right_id_L ∅ (∪)).
    apply (Good_fails cf s0 Hrow0 _ _ _ _ (fun c => S (c_fails c))). apply worker_submitted_good; auto.
  - done.
  - apply Good_finish, worker_stop_good; auto.
  - apply Good_finish, worker_stop_good; auto.
Qed.

(** ** The queue *)
Lemma reconcile_good k x now s : Good (Some x) {[x]} s -> busy s !! k = None -> tasks (q s) !! k = None ->
  Good None ∅ (reconcile cf k x now s).1.
Proof.
  destruct x as [n [w|]]; intros HG Hk Hq; unfold reconcile; simpl.
  - apply reconcile_worker_good; auto.
  - apply reconcile_cluster_good; auto.
Qed.
Lemma turn_good k now s q' r : Good None ∅ s -> busy s !! k = None -> get_turn k (q s) = (q', r) ->
  Good None ∅ (got cf k now s (as_out k (q', r))).1.
Proof.
  intros HG Hk Ht. destruct r as [[x| | |]|]; simpl;
    try (destruct (get_turn_other _ _ _ _ Ht) as (H1 & H2 & H3 & H4 & H5); [done|];
         apply Good_queue; auto; intros j p Hj Hq; apply H5; [congruence|done]).
  destruct (get_turn_item _ _ _ _ Ht) as (H1 & H2 & H3 & H4 & H5).
  apply reconcile_good.
  - destruct HG as [HI HE]. split; [|exact HE]. eapply Inv_get; eauto.
    intros j p Hj. rewrite H5. destruct (decide (k = j)) as [<-|]; [apply lookup_delete|].
    rewrite lookup_delete_ne by done. eapply (g_tasks _ _ _ _ HI); eauto.
  - done.
  - simpl. rewrite H5. apply lookup_delete.
Qed.
Lemma get_good k now s : Good None ∅ s -> busy s !! k = None ->
  Good None ∅ (got cf k now s (WorkQueue_Model.step (q s) (WorkQueue_Model.EGet k))).1.
Proof.
  intros HG Hk. simpl. destruct (tasks (q s) !! k).
  - simpl. eapply Good_queue; eauto.
  - destruct (get_turn k (q s)) as [q' r] eqn:Ht. apply turn_good; auto.
Qed.
Lemma wake_good k now s : Good None ∅ s ->
  Good None ∅ (got cf k now s (WorkQueue_Model.step (q s) (WorkQueue_Model.EResume k))).1.
Proof.
  intros HG. simpl. destruct (tasks (q s) !! k) as [[]|] eqn:Hk; simpl.
  - eapply Good_queue; eauto.
  - destruct (get_turn k (q s)) as [q' r] eqn:Ht. apply turn_good; auto.
    destruct (busy s !! k) as [p|] eqn:Hb; [|done]. apply (g_tasks _ _ _ _ (proj1 HG)) in Hb. congruence.
  - eapply Good_queue; eauto. intros j p Hj Hq. simpl. apply lookup_delete_None. auto.
  - eapply Good_queue; eauto.
Qed.
Lemma wakeup_all_None (l : list nat) t k : t !! k = None -> wakeup_all_aux l t !! k = None.
Proof.
  revert t. induction l as [|c l IH]; intros t Ht; simpl; [done|].
  destruct (t !! c) as [[]|] eqn:Hc; apply IH; auto. rewrite lookup_insert_ne; [done|]. congruence.
Qed.
Lemma close_queue_good s : Good None ∅ s -> Good None ∅ (close_queue s).
Proof.
  intros HG. unfold close_queue. destruct (down s); [|done]. destruct (forallb _ _); [|done].
  eapply Good_queue; eauto. intros j p Hj Hq. unfold close, wakeup_all. simpl. apply wakeup_all_None. done.
Qed.

(** ** A new cluster *)
Lemma start_cluster_good user info mx now s : Good None ∅ s -> Good None ∅ (start_cluster cf user info mx now s).1.
Proof.
  intros [HI HE]. unfold start_cluster, create_cluster. simpl. apply Good_put. rewrite (right_id_L ∅ (∪)).
  set (n := uuid s). set (c := new_cluster _ _ _). set (s' := set_index _ _ _ _).
  assert (objs s !! n = None) as Hn.
  { destruct (objs s !! n) as [c0|] eqn:E; [|done]. destruct (g_fresh _ _ _ _ HI _ _ E). unfold n in *. lia. }
  assert (objs s' = <[n := c]> (objs s)) as Ho by done.
  assert (forall p, Bof s p -> (pc_item p).1 <> n) as Hb.
  { intros p (k & Hk) E. destruct (g_pcs _ _ _ _ HI _ _ Hk) as (c0 & Hc0 & _). rewrite E in Hc0. congruence. }
  split.
  2:{ intros m d Hm. destruct (HE m d Hm) as (d' & Hd & Hev). exists d'. split; [|done]. rewrite Ho, lookup_insert_ne; [done|]. congruence. }
  destruct HI. constructor; auto.
  - intros k p Hk. destruct (g_pcs _ _ Hk) as (c0 & Hc0 & Hw). exists c0. split; [|done]. rewrite Ho, lookup_insert_ne; [done|]. congruence.
  - intros m d. rewrite Ho. change (uuid s') with (S (uuid s)). destruct (decide (n = m)) as [<-|E].
    + rewrite lookup_insert. intros [= <-]. split; [unfold n; lia|]. intros w Hw. simpl in Hw. by apply elem_of_nil in Hw.
    + rewrite lookup_insert_ne by done. intros Hm. destruct (g_fresh _ _ Hm) as [? Hf]. split; [lia|]. intros w Hw. specialize (Hf w Hw). lia.
  - intros k m a Ha. rewrite Ho. destruct (decide (n = m)) as [<-|E]; [rewrite lookup_insert; eauto|].
    rewrite lookup_insert_ne by done. eapply g_routes. exact Ha.
  - intros m d. rewrite Ho. change (Bof s') with (Bof s). change (routes s') with (routes s).
    assert (forall y, Dof ∅ s y -> Dof {[(n, None)]} s' y) as HD by (intros y [?|?]; [left; done|set_solver]).
    destruct (decide (n = m)) as [<-|E].
    2:{ rewrite lookup_insert_ne by done. intros Hm. eapply cok_mono; [| | |apply g_cok; exact Hm]; auto. }
    rewrite lookup_insert. intros [= <-].
    assert (forall k, routes s !! (k, n) = None) as Hr.
    { intros k. destruct (routes s !! (k, n)) as [a|] eqn:Ea; [|done]. destruct (g_routes _ _ _ Ea). congruence. }
    constructor; try done; simpl.
    + constructor; simpl; try done; auto.
      * split; [intros [? [=]]|done].
      * intros m _. lia.
    + constructor.
    + constructor.
    + intros w Hw. apply elem_of_nil in Hw. done.
    + intros m _. lia.
    + intros _ _. left. right. set_solver.
    + intros H. apply Hb in H. done.
Qed.

(** ** Every event but a restart *)
Lemma forget_objs n s : objs (forget n s) = objs s /\ same_rest s (forget n s).
Proof. unfold forget. destruct (objs s !! n); done. Qed.
Lemma cleanup_expired_objs now s : objs (cleanup_expired cf now s) = objs s /\ same_rest s (cleanup_expired cf now s).
Proof.
  unfold cleanup_expired. set (l := omap _ _). set (s2 := set_db_w _ _).
  assert (forall l s, objs (fold_left (fun s n => forget n s) l s) = objs s /\ same_rest s (fold_left (fun s n => forget n s) l s)) as H.
  { clear. induction l as [|n l IH]; intros s; simpl; [done|]. destruct (forget_objs n s) as [H1 H2].
    destruct (IH (forget n s)) as [H3 H4]. split; [congruence|]. eapply same_rest_trans; eauto. }
  apply (H l s2).
Qed.

Definition is_restart (e : event) : bool := match e with ERestart _ => true | _ => false end.
Lemma step_good e s : is_restart e = false -> Good None ∅ s -> Good None ∅ (step cf s e).1.
Proof.
  intros He HG. destruct e; try discriminate He; cbn [step fst].
  - apply start_cluster_good; auto.
  - apply stop_cluster_good; auto.
  - apply heartbeat_good; auto.
  - destruct (down s); [done|]. apply check_timeouts_good; auto.
  - destruct (down s); [done|]. destruct (chk_c s); [done|]. eapply Good_same; [exact HG|done|done].
  - destruct oks; simpl; [apply check_clusters_end_good; auto|]. eapply Good_same; [exact HG|done|done].
  - destruct (down s); [done|]. destruct (chk_w s); [done|]. eapply Good_same; [exact HG|done|done].
  - destruct oks; simpl; [apply check_workers_end_good; auto|]. eapply Good_same; [exact HG|done|done].
  - destruct (down s); [done|]. simpl. destruct (cleanup_expired_objs now s). eapply Good_same; eauto.
  - case_decide; [|done]. destruct (busy s !! k) eqn:Hb; [done|]. destruct (tasks (q s) !! k) eqn:Ht; [done|].
    apply get_good; done.
  - apply wake_good. done.
  - apply resume_good. done.
  - destruct (down s); [done|]. apply shutdown_good; auto.
  - apply close_queue_good. done.
Qed.
End steps4.

Lemma step_inv cf e s s' o : is_restart e = false -> Inv cf None ∅ s -> step cf s e = (s', o) -> Inv cf None ∅ s' /\ Evolve s s'.
Proof.
  intros He HI Hs. assert (s' = (step cf s e).1) as -> by (rewrite Hs; done).
  apply (step_good cf s); [|done|].
  - intros n c Hn. apply (g_cok _ _ _ _ HI _ _ Hn).
  - split; [done|]. apply Evolve_refl.
Qed.
Lemma Inv_gw_init cf : Inv cf None ∅ (gw_init cf).
Proof.
  constructor; simpl; try done.
  - apply qok_init.
  - intros x. split; [set_solver|]. intros [(k & p & H & _)|?]; done.
Qed.
