(** Liveness of the gateway: in every endless fair run, what was asked for is
    done some day. *)
From Coq Require Import ZArith Lia.
From stdpp Require Import prelude gmap.
From Verif Require Import Trace WorkQueue_Model WorkQueue_Proofs Router_Model Gateway_Model Gateway_Inv
  Gateway_Steps Gateway_Steps2 Gateway_Steps3 Gateway_Steps4 Gateway_Busy Gateway_Acts Gateway_Track Gateway_Hist Gateway_Ops
  Gateway_Proofs Gateway_Spec Gateway_Queue Gateway_Spec3.
Open Scope Z_scope.

Lemma reach_Q cf h s : ids_ok cf h -> reach cf h s -> Q cf (q s).
Proof.
  intros Hi Hr. revert Hi. revert h s Hr. apply (exec_ind_r (step cf) (gw_init cf) (fun h s => ids_ok cf h -> Q cf (q s))).
  - intros _. apply Q_init.
  - intros h s e o s' Hr IH Hs Hi. pose proof (ids_ok_app _ _ _ Hi) as [Hi1 _]. specialize (IH Hi1).
    assert (s' = (step cf s e).1) as -> by (rewrite Hs; done).
    destruct (crash e) eqn:He.
    + destruct e; try done. cbn [step fst]. unfold restart. rewrite qputs_q. apply (Q_puts cf). apply Q_init.
    + eapply Q_case; [exact IH|]. apply step_qcase; [|apply IH|done]. eapply reach_Inv; eauto.
Qed.

(** * What the reconciler that takes an item does *)
Lemma takes_reconcile cf s e x : takes cf s e x -> exists k now q', (step cf s e).1 = (reconcile cf k x now (set_q q' s)).1.
Proof.
  intros (k & now & q' & [(-> & Hk & Hb & Ht & Hs)|(-> & Hs)]); exists k, now, q'; cbn [step].
  - rewrite decide_True by done. rewrite Hb, Ht, Hs. done.
  - rewrite Hs. done.
Qed.
Lemma not_running_fin c : row_ok (c_row c) -> c_target c <> RUNNING -> c_target c = STOPPED \/ c_target c = FAILED.
Proof. intros [[H|H] _ _ _ _ _ _] Ht; unfold c_target in *; [done|auto]. Qed.

Section handle.
Context (cf : cfg) (s : gw) (e : event).
Hypothesis HI : Inv cf None ∅ s.
Let s' := (step cf s e).1.

Lemma handle_close n c : takes cf s e (n, None) -> objs s !! n = Some c -> c_target c <> RUNNING -> jlt (c_status c) CLOSING = true ->
  exists c', objs s' !! n = Some c' /\ c_status c' = CLOSING.
Proof.
  intros Ht Hn Htg Hst. destruct (takes_reconcile _ _ _ _ Ht) as (k & now & q' & E). unfold s'. rewrite E.
  pose proof (g_cok _ _ _ _ HI _ _ Hn) as Hc. pose proof (not_running_fin c (k_row _ _ _ _ _ _ Hc) Htg) as Hf.
  unfold reconcile. cbn [fst snd]. unfold reconcile_cluster. change (objs (set_q q' s)) with (objs s). rewrite Hn.
  destruct (jge (c_status c) STOPPED) eqn:H1; [destruct (c_status c); done|].
  rewrite decide_True by done. destruct (decide (c_status c = CLOSING)) as [H2|H2]; [rewrite H2 in Hst; done|]. cbn [fst].
  unfold finish. cbn [objs set_q].
  destruct (closing_spec cf n c (set_q q' s) Hn (k_nodup _ _ _ _ _ _ Hc)) as (Ho & _).
  rewrite Ho, lookup_insert. eexists. split; [done|]. done.
Qed.
Lemma handle_ready n c : takes cf s e (n, None) -> objs s !! n = Some c -> c_status c = CLOSING -> ready_to_close cf c = true ->
  Bof s' (InStopCluster n).
Proof.
  intros Ht Hn Hst Hr. destruct (takes_reconcile _ _ _ _ Ht) as (k & now & q' & E). unfold s'. rewrite E.
  pose proof (g_cok _ _ _ _ HI _ _ Hn) as Hc.
  pose proof (not_running_fin c (k_row _ _ _ _ _ _ Hc) (ro_closing _ (k_row _ _ _ _ _ _ Hc) Hst)) as Hf.
  unfold reconcile. cbn [fst snd]. unfold reconcile_cluster. change (objs (set_q q' s)) with (objs s). rewrite Hn, Hst, Hr.
  rewrite decide_True by done. cbn. exists k. apply lookup_insert.
Qed.
Lemma handle_start n c : takes cf s e (n, None) -> objs s !! n = Some c -> c_status c = CREATED -> c_target c = RUNNING ->
  Bof s' (InStartCluster n).
Proof.
  intros Ht Hn Hst Htg. destruct (takes_reconcile _ _ _ _ Ht) as (k & now & q' & E). unfold s'. rewrite E.
  unfold reconcile. cbn [fst snd]. unfold reconcile_cluster. change (objs (set_q q' s)) with (objs s). rewrite Hn, Hst, Htg.
  cbn. exists k. apply lookup_insert.
Qed.

(** A worker of a cluster. *)
Definition wat (s : gw) (n w : nat) (x : worker) : Prop := exists c, objs s !! n = Some c /\ x ∈ c_workers c /\ w_name x = w.
Lemma wat_get n w x : wat s n w x -> get_worker n w s = Some x.
Proof.
  intros (c & Hn & Hx & Hw). unfold get_worker. rewrite Hn. simpl.
  destruct (find_worker_in w (c_workers c)) as [y Hy]; [rewrite <- Hw; by apply (elem_of_list_fmap_1 w_name)|].
  rewrite Hy. f_equal. destruct (find_worker_some _ _ _ Hy) as [Hy1 Hy2]. eapply (worker_eq cf s); eauto. congruence.
Qed.
Lemma wat_upd s1 n w x f : objs s1 = objs s -> wat s n w x -> (forall y, w_name (f y) = w_name y) ->
  wat (update_worker n w f s1) n w (f x).
Proof.
  intros Ho (c & Hn & Hx & Hw) Hf. rewrite <- Ho in Hn. eexists. rewrite (upd_worker_in s1 n w f c Hn). split; [done|].
  split; [|by rewrite Hf]. simpl. unfold map_worker. apply elem_of_list_fmap. exists x. rewrite decide_True by done. done.
Qed.
Lemma wat_same s1 s2 n w x : objs s2 = objs s1 -> wat s1 n w x -> wat s2 n w x.
Proof. intros Ho (c & Hn & H). exists c. rewrite Ho. done. Qed.

Lemma handle_wclose n w x : takes cf s e (n, Some w) -> wat s n w x -> jlt (w_status x) CLOSING = true -> w_target x = CLOSING ->
  exists x', wat s' n w x' /\ w_status x' = CLOSING.
Proof.
  intros Ht Hw Hst Htg. destruct (takes_reconcile _ _ _ _ Ht) as (k & now & q' & E). unfold s'. rewrite E.
  unfold reconcile. cbn [fst snd]. unfold reconcile_worker. change (get_worker n w (set_q q' s)) with (get_worker n w s). rewrite (wat_get _ _ _ Hw).
  destruct (jge (w_status x) STOPPED) eqn:H1; [destruct (w_status x); done|]. rewrite decide_True by done.
  destruct (decide (w_status x = CLOSING)) as [H2|H2]; [rewrite H2 in Hst; done|]. cbn [fst]. set (s1 := update_worker _ _ _ _).
  exists (wset_status CLOSING x). split; [|done]. apply (wat_same s1); [destruct (is_ready cf n s1); done|].
  unfold s1. apply (wat_upd (set_q q' s)); done.
Qed.
Lemma rest_objs n w s1 : objs (worker_stopped_rest cf n w s1) = objs s1.
Proof.
  unfold worker_stopped_rest. destruct (objs s1 !! n) as [c|]; [|done]. destruct (get_worker n w s1); [|done].
  destruct (ready_to_close cf c); [done|]. case_decide; done.
Qed.
Lemma handle_wstop n w x : takes cf s e (n, Some w) -> wat s n w x -> is_fin (w_status x) = false -> is_fin (w_target x) = true ->
  Bof s' (InStopWorker n w) \/ exists x', wat s' n w x' /\ is_fin (w_status x') = true.
Proof.
  intros Ht Hw Hst Htg. destruct (takes_reconcile _ _ _ _ Ht) as (k & now & q' & E). unfold s'. rewrite E.
  unfold reconcile. cbn [fst snd]. unfold reconcile_worker. change (get_worker n w (set_q q' s)) with (get_worker n w s). rewrite (wat_get _ _ _ Hw).
  unfold is_fin in Hst. rewrite Hst. assert (w_target x = STOPPED \/ w_target x = FAILED) as Hf by (apply fin_iff; done).
  destruct (decide (w_target x = CLOSING)) as [H2|H2]; [rewrite H2 in Htg; done|]. rewrite decide_True by done.
  destruct (jlt CREATED (w_status x)); cbn [fst].
  - left. exists k. apply lookup_insert.
  - right. eexists. split; [apply (wat_same (worker_stopped n w now (set_q q' s))); [unfold finish; cbn [objs set_q]; apply rest_objs|];
      apply (wat_upd (set_q q' s)); done|]. done.
Qed.
Lemma handle_wstart n w x : takes cf s e (n, Some w) -> wat s n w x -> w_status x = CREATED -> w_target x = RUNNING ->
  Bof s' (InStartWorker n w).
Proof.
  intros Ht Hw Hst Htg. destruct (takes_reconcile _ _ _ _ Ht) as (k & now & q' & E). unfold s'. rewrite E.
  unfold reconcile. cbn [fst snd]. unfold reconcile_worker. change (get_worker n w (set_q q' s)) with (get_worker n w s).
  rewrite (wat_get _ _ _ Hw), Hst, Htg. cbn. exists k. apply lookup_insert.
Qed.

(** * What the end of an operation does *)
Lemma end_op k p o now : e = EBackend k o now -> o = Ends \/ o = Raises -> busy s !! k = Some p ->
  match p with
  | InStartCluster n => exists c', objs s' !! n = Some c' /\ c_status c' = SUBMITTED
  | InStopCluster n => exists c', objs s' !! n = Some c' /\ is_fin (c_status c') = true
  | InStartWorker n w => exists x', wat s' n w x' /\ w_status x' = SUBMITTED
  | InStopWorker n w => exists x', wat s' n w x' /\ is_fin (w_status x') = true
  end.
Proof.
  intros He Ho Hk. destruct (g_pcs _ _ _ _ HI k p Hk) as (c & Hn & Hw).
  assert (Bof s p) as HB by (exists k; done).
  assert (s' = (resume cf k o now s).1) as -> by (unfold s'; rewrite He; done).
  unfold resume. rewrite Hk. destruct p as [n|n|n w|n w]; cbn [pc_item fst snd] in *.
  - destruct Ho as [-> | ->]; cbn [fst].
    + destruct (update_cluster_spec n (rset_status SUBMITTED) (release k s) c Hn) as [Ho _].
      unfold finish. cbn [objs set_q]. rewrite Ho, lookup_insert. eexists. split; [done|]. done.
    + destruct (update_cluster_spec n (fun r => rset_target FAILED (rset_status SUBMITTED r)) (release k s) c Hn) as [Ho _].
      unfold finish, qput. cbn [objs set_q]. rewrite Ho, lookup_insert. eexists. split; [done|]. done.
  - pose proof (g_cok _ _ _ _ HI _ _ Hn) as Hc. destruct (b_stop _ _ _ _ _ _ Hc HB) as [Hst _].
    pose proof (not_running_fin c (k_row _ _ _ _ _ _ Hc) (ro_closing _ (k_row _ _ _ _ _ _ Hc) Hst)) as Hf.
    assert (exists c', objs (cluster_stopped n now (remove_routes n (release k s))) !! n = Some c' /\ is_fin (c_status c') = true) as H.
    { unfold cluster_stopped. change (objs (remove_routes n (release k s))) with (objs s). rewrite Hn.
      set (ws := map w_name _). set (f := fun w : worker => _).
      destruct (update_workers_spec n ws f (remove_routes n (release k s)) c Hn) as [Ho1 _]; [apply filter_nodup, (k_nodup _ _ _ _ _ _ Hc)|done|].
      set (s1 := update_workers n ws f _) in *. set (c1 := cset_workers _ c) in *.
      assert (objs s1 !! n = Some c1) as Hn1 by (rewrite Ho1, lookup_insert; done).
      destruct (update_cluster_spec n (fun r => rset_stop (Some now) (rset_status (r_target r) r)) s1 c1 Hn1) as [Ho2 _].
      set (s2 := update_cluster n _ s1) in *. eexists. cbn [upd_obj objs set_objs]. rewrite Ho2, lookup_alter, lookup_insert. split; [done|].
      change (is_fin (c_target c) = true). destruct Hf as [-> | ->]; done. }
    destruct Ho as [-> | ->]; exact H.
  - assert (exists x, wat s n w x) as [x Hx].
    { specialize (Hw w eq_refl). apply elem_of_list_fmap in Hw as (x & E & Hx). exists x, c. done. }
    destruct Ho as [-> | ->]; cbn [fst].
    + eexists. split; [apply (wat_same (update_worker n w (wset_status SUBMITTED) (release k s))); [done|]; apply (wat_upd (release k s)); [done|exact Hx|done]|done].
    + pose proof (wat_upd (release k s) n w x (fun y => wset_target FAILED (wset_status SUBMITTED y)) eq_refl Hx (fun _ => eq_refl)) as (c2 & Hn2 & Hx2 & Hw2).
      exists (wset_target FAILED (wset_status SUBMITTED x)). split; [|done]. exists (cset_fails (S (c_fails c2)) c2).
      unfold finish, qput, upd_obj. cbn [objs set_q set_objs]. rewrite lookup_alter, Hn2. done.
  - assert (exists x, wat s n w x) as [x Hx].
    { specialize (Hw w eq_refl). apply elem_of_list_fmap in Hw as (x & E & Hx). exists x, c. done. }
    pose proof (g_cok _ _ _ _ HI _ _ Hn) as Hc. pose proof Hx as (c2 & Hn2 & Hx2 & Hw2). assert (c2 = c) as -> by congruence.
    pose proof (proj1 (Forall_forall _ _) (k_workers _ _ _ _ _ _ Hc) x Hx2) as Hok. rewrite <- Hw2 in HB. destruct (wb_stop _ _ _ _ _ _ Hok HB) as [Hf _].
    assert (exists x', wat (finish (n, Some w) (worker_stopped_rest cf n w (worker_stopped n w now (release k s)))) n w x' /\ is_fin (w_status x') = true) as H.
    { eexists. split; [apply (wat_same (worker_stopped n w now (release k s))); [unfold finish; cbn [objs set_q]; apply rest_objs|];
        apply (wat_upd (release k s)); [done|exact Hx|done]|done]. }
    destruct Ho as [-> | ->]; exact H.
Qed.
(** and it frees the reconciler. *)
Lemma end_free k p o now : e = EBackend k o now -> o = Ends \/ o = Raises -> busy s !! k = Some p -> busy s' = delete k (busy s).
Proof.
  intros He Ho Hk. assert (s' = (resume cf k o now s).1) as -> by (unfold s'; rewrite He; done). unfold resume. rewrite Hk.
  destruct Ho as [-> | ->], p as [n|n|n w|n w]; cbn [fst]; rewrite busy_finish; rewrite ?busy_put, ?busy_attr, ?busy_row, ?busy_wk, ?busy_stopped, ?Gateway_Busy.busy_rest; try done.
  all: unfold worker_stopped; rewrite busy_wk; done.
Qed.
End handle.

(** * Runs *)
(** The proofs need less than [endless]: where the run begins only has to look
    like a state the gateway can be in.  Fault_Live uses them for runs in which
    the database failed earlier. *)
Record ongoing (cf : cfg) (run : nat -> gw) (ev : nat -> event) : Prop := {
  on_inv : Inv cf None ∅ (run 0%nat);
  on_queue : Q cf (q (run 0%nat));
  on_timers : timers (q (run 0%nat)) = ∅;
  on_step : forall i, run (S i) = (step cf (run i) (ev i)).1;
  on_life : forall i, crash (ev i) = false;
  on_open : forall i, closed (q (run i)) = false }.
Lemma endless_ongoing cf run ev : endless cf run ev -> ongoing cf run ev.
Proof.
  intros [(h & Hi & Hr) Hs Hl Ho]. constructor; auto; [eapply reach_Inv; eauto|eapply reach_Q; eauto|exact (reach_timers _ _ _ Hr)].
Qed.

Section run.
Context (cf : cfg) (run : nat -> gw) (ev : nat -> event).
Hypothesis HE : ongoing cf run ev.
Hypothesis HF : fair cf run ev.

Lemma run_inv i : Inv cf None ∅ (run i) /\ Q cf (q (run i)).
Proof.
  induction i as [|i [IH1 IH2]].
  - split; [apply (on_inv _ _ _ HE)|apply (on_queue _ _ _ HE)].
  - rewrite (on_step _ _ _ HE). pose proof (on_life _ _ _ HE i) as Hl. split.
    + destruct (step cf (run i) (ev i)) as [s' o] eqn:Hs. eapply step_inv; eauto.
    + eapply Q_case; [exact IH2|]. apply step_qcase; [done|apply IH2|done].
Qed.
Lemma run_evolve i j : (i <= j)%nat -> Evolve (run i) (run j).
Proof.
  intros Hij. induction Hij as [|j Hij IH]; [apply Evolve_refl|].
  destruct (run_inv j) as [HI _]. rewrite (on_step _ _ _ HE). pose proof (on_life _ _ _ HE j) as Hl.
  destruct (step cf (run j) (ev j)) as [s' o] eqn:Hs. destruct (step_inv cf (ev j) (run j) s' o) as [_ H2]; [done|done|exact Hs|].
  intros n c Hn. destruct (IH n c Hn) as (c1 & H1 & E1). destruct (H2 n c1 H1) as (c2 & Hn2 & E2).
  exists c2. split; [done|]. eapply evolve_trans; eauto.
  destruct (run_inv i) as [HIi _]. apply (k_row _ _ _ _ _ _ (g_cok _ _ _ _ HIi _ _ Hn)).
Qed.
Lemma run_ocase i : ocase cf (run i) (ev i) (run (S i)).
Proof.
  destruct (run_inv i) as [HI HQ]. apply Hc; [|apply (on_open _ _ _ HE)]. rewrite (on_step _ _ _ HE).
  apply step_qcase; [done|apply HQ|apply (on_life _ _ _ HE)].
Qed.
Definition takes_at (i : nat) (x : item) : Prop := takes cf (run i) (ev i) x.

(** Either something is taken before [j], or what survives every step holds at [j]. *)
Lemma until (P : nat -> Prop) i j : (forall l, P l -> (exists x, takes_at l x) \/ P (S l)) -> (i <= j)%nat -> P i ->
  (exists l x, (i <= l)%nat /\ takes_at l x /\ P l) \/ P j.
Proof.
  intros HP Hij Hi. induction Hij as [|j Hij IH]; [auto|]. destruct IH as [IH|IH]; [auto|].
  destruct (HP j IH) as [(x & Hx)|H]; [|auto]. left. exists j, x. done.
Qed.

(** The same for an operation of the backend: it stays until it ends. *)
Lemma op_ends i k p : busy (run i) !! k = Some p ->
  exists j o now, (i <= j)%nat /\ busy (run j) !! k = Some p /\ ev j = EBackend k o now /\ (o = Ends \/ o = Raises).
Proof.
  intros Hk. destruct (fa_ends _ _ _ HF i k) as (j & o & now & Hij & He & Ho); [eauto|].
  assert (forall d, (i + d <= j)%nat -> (exists l o now, (i <= l)%nat /\ busy (run l) !! k = Some p /\ ev l = EBackend k o now /\ (o = Ends \/ o = Raises))
    \/ busy (run (i + d)) !! k = Some p) as H.
  { induction d as [|d IH]; intros Hd; [rewrite Nat.add_0_r; auto|]. destruct IH as [IH|IH]; [lia|auto|].
    rewrite Nat.add_succ_r. destruct (busy_step cf (run (i + d)) (ev (i + d)) (run (S (i + d)))) with (k := k) (p := p) as [(o' & now' & E & Ho' & _)|H]; auto.
    - rewrite (on_step _ _ _ HE). destruct (run_inv (i + d)) as [HI HQ]. apply step_qcase; [done|apply HQ|apply (on_life _ _ _ HE)].
    - apply (on_open _ _ _ HE).
    - left. exists (i + d)%nat, o', now'. split; [lia|done]. }
  destruct (H (j - i)%nat) as [?|H']; [lia|done|]. replace (i + (j - i))%nat with j in H' by lia. exists j, o, now. done.
Qed.

Lemma step_case l : qcase cf (run l) (ev l) (run (S l)).
Proof. rewrite (on_step _ _ _ HE). destruct (run_inv l) as [HI HQ]. apply step_qcase; [done|apply HQ|apply (on_life _ _ _ HE)]. Qed.
Lemma open l : closed (q (run l)) = false. Proof. apply (on_open _ _ _ HE). Qed.
Lemma line_keeps l : queue (q (run l)) <> [] -> (exists x, takes_at l x) \/ queue (q (run (S l))) <> [].
Proof.
  intros Hne. destruct (line_step _ _ _ _ (step_case l) (open (S l))) as [(x & _ & _ & _ & Hx & _)|[l' ->]]; [left; exists x; done|].
  right. intros [? _]%app_eq_nil. done.
Qed.

(** As long as something is in line, a reconciler takes an item some day. *)
Lemma woken_takes i k : queue (q (run i)) <> [] -> tasks (q (run i)) !! k = Some Woken -> exists j x, (i <= j)%nat /\ takes_at j x.
Proof.
  intros Hne Hk. destruct (run_inv i) as [_ HQ]. assert (k < parallelism cf)%nat as Hlt by (apply (q_par _ _ HQ); eauto).
  destruct (fa_wake _ _ _ HF i k Hlt) as (j & now & Hij & He).
  destruct (until (fun l => queue (q (run l)) <> [] /\ tasks (q (run l)) !! k = Some Woken) i j) as [(l & x & Hl & Hx & _)|[H1 H2]]; auto.
  - intros l [H1 H2]. destruct (line_keeps l H1) as [?|H3]; [auto|].
    destruct (woken_step _ _ _ _ (step_case l) (open (S l)) k H1 H2) as [?|?]; auto.
  - exists l, x. done.
  - destruct (ask_wake cf (run j) k now (open j) H1 H2) as [x Hx]. exists j, x. split; [done|]. unfold takes_at. rewrite He. done.
Qed.
Lemma free_takes i k : queue (q (run i)) <> [] -> (k < parallelism cf)%nat -> busy (run i) !! k = None -> exists j x, (i <= j)%nat /\ takes_at j x.
Proof.
  intros Hne Hlt Hb. destruct (run_inv i) as [_ HQ]. destruct (tasks (q (run i)) !! k) as [[]|] eqn:Hk.
  - destruct (somebody_woken _ _ _ HQ Hne Hk) as [k' Hk']. eapply woken_takes; eauto.
  - eapply woken_takes; eauto.
  - apply (q_nc _ _ HQ) in Hk. done.
  - destruct (fa_get _ _ _ HF i k Hlt) as (j & now & Hij & He).
    destruct (until (fun l => queue (q (run l)) <> [] /\ tasks (q (run l)) !! k = None /\ busy (run l) !! k = None) i j) as [(l & x & Hl & Hx & _)|(H1 & H2 & H3)]; auto.
    + intros l (H1 & H2 & H3). destruct (line_keeps l H1) as [?|H4]; [auto|].
      destruct (none_step _ _ _ _ (step_case l) (open (S l)) k H1 H2) as [?|?]; auto.
      destruct (free_step _ _ _ _ (step_case l) (open (S l)) k H3) as [?|?]; auto.
    + exists l, x. done.
    + destruct (ask_get cf (run j) k now (open j) H1 Hlt H3 H2) as [x Hx]. exists j, x. split; [done|]. unfold takes_at. rewrite He. done.
Qed.
Lemma op_end i k p : busy (run i) !! k = Some p ->
  exists j o now, (i <= j)%nat /\ busy (run j) !! k = Some p /\ ev j = EBackend k o now /\ (o = Ends \/ o = Raises) /\
  busy (run (S j)) = delete k (busy (run j)).
Proof.
  intros Hk. destruct (op_ends i k p Hk) as (j & o & now & Hij & Hbj & He & Ho). exists j, o, now. do 4 (split; [done|]).
  rewrite (on_step _ _ _ HE). eapply end_free; eauto.
Qed.
Lemma line_takes i : queue (q (run i)) <> [] -> exists j x, (i <= j)%nat /\ takes_at j x.
Proof.
  intros Hne. pose proof (fa_some _ _ _ HF) as Hp. destruct (busy (run i) !! 0%nat) as [p|] eqn:Hb; [|eapply free_takes; eauto].
  destruct (op_end i 0%nat p Hb) as (j & o & now & Hij & Hbj & He & Ho & Hd).
  destruct (until (fun l => queue (q (run l)) <> []) i (S j)) as [(l & x & Hl & Hx & _)|H1]; auto.
  - intros l H. apply line_keeps. done.
  - exists l, x. done.
  - destruct (free_takes (S j) 0%nat H1 Hp) as (l & x & Hl & Hx); [rewrite Hd; apply lookup_delete|]. exists l, x. split; [lia|done].
Qed.

(** The place in line: whoever is in line is taken. *)
Lemma line_taken l1 : forall i x l2, queue (q (run i)) = l1 ++ x :: l2 -> exists j, (i <= j)%nat /\ takes_at j x.
Proof.
  induction l1 as [|y l1 IH]; intros i x l2 Hq.
  - destruct (line_takes i) as (j & z & Hij & Hz); [rewrite Hq; done|].
    assert (forall d, (i + d <= j)%nat -> (exists l, (i <= l)%nat /\ takes_at l x) \/ exists l', queue (q (run (i + d))) = x :: l') as H.
    { induction d as [|d IHd]; intros Hd; [rewrite Nat.add_0_r, Hq; right; eexists; done|]. destruct IHd as [?|[l' Hl']]; [lia|auto|].
      rewrite Nat.add_succ_r. destruct (line_step _ _ _ _ (step_case (i + d)) (open _)) as [(z' & ? & ? & Hz1 & Hz2 & _)|[l'' Hl'']].
      - left. exists (i + d)%nat. split; [lia|]. assert (z' = x) as -> by congruence. done.
      - right. rewrite Hl'', Hl'. eexists. simpl. done. }
    destruct (H (j - i)%nat) as [?|[l' Hl']]; [lia|done|]. replace (i + (j - i))%nat with j in Hl' by lia.
    destruct (takes_head _ _ _ _ Hz) as [l'' Hl'']. exists j. split; [done|]. assert (z = x) as -> by congruence. done.
  - destruct (line_takes i) as (j & z & Hij & Hz); [rewrite Hq; done|].
    assert (forall d, (i + d <= j)%nat -> (exists l l2, (i <= l)%nat /\ queue (q (run l)) = l1 ++ x :: l2) \/ exists l', queue (q (run (i + d))) = y :: l1 ++ x :: l') as H.
    { induction d as [|d IHd]; intros Hd; [rewrite Nat.add_0_r, Hq; right; eexists; done|]. destruct IHd as [?|[l' Hl']]; [lia|auto|].
      rewrite Nat.add_succ_r. destruct (line_step _ _ _ _ (step_case (i + d)) (open _)) as [(z' & l3 & l4 & Hz1 & Hz2 & Hz3)|[l'' Hl'']].
      - left. exists (S (i + d)), (l' ++ l4). split; [lia|]. rewrite Hl' in Hz1. injection Hz1 as <- <-. rewrite Hz3, <- app_assoc. done.
      - right. rewrite Hl'', Hl'. exists (l' ++ l''). simpl. rewrite <- app_assoc. done. }
    destruct (H (j - i)%nat) as [(l & l3 & Hl & E)|[l' Hl']]; [lia| |].
    + destruct (IH l x l3 E) as (j' & Hj' & Ht). exists j'. split; [lia|done].
    + replace (i + (j - i))%nat with j in Hl' by lia. destruct (takes_line _ _ _ _ Hz) as (l3 & l4 & Hz1 & Hz2).
      rewrite <- (on_step _ _ _ HE) in Hz2. rewrite Hl' in Hz1. injection Hz1 as <- <-.
      destruct (IH (S j) x (l' ++ l4)) as (j' & Hj' & Ht); [rewrite Hz2, <- app_assoc; done|]. exists j'. split; [lia|done].
Qed.
Lemma dirty_until x i j : (i <= j)%nat -> x ∈ dirty (q (run i)) -> (exists l, (i <= l)%nat /\ takes_at l x) \/ x ∈ dirty (q (run j)).
Proof.
  intros Hij Hx. induction Hij as [|j Hij IH]; [auto|]. destruct IH as [IH|IH]; [auto|].
  destruct (dirty_step _ _ _ _ (step_case j) (open _) x IH) as [H|H]; [|auto]. left. exists j. done.
Qed.
Lemma line_or_held i x : x ∈ dirty (q (run i)) -> x ∉ processing (q (run i)) -> exists j, (i <= j)%nat /\ takes_at j x.
Proof.
  intros Hx Hp. destruct (run_inv i) as [HI _]. assert (x ∈ queue (q (run i))) as Hq by (apply (qo_line _ (g_q _ _ _ _ HI)); done).
  apply elem_of_list_split in Hq as (l1 & l2 & Hq). eapply line_taken; eauto.
Qed.
(** Whatever has to be looked at is looked at. *)
Lemma dirty_taken i x : x ∈ dirty (q (run i)) -> exists j, (i <= j)%nat /\ takes_at j x.
Proof.
  intros Hx. destruct (decide (x ∈ processing (q (run i)))) as [Hp|Hp]; [|eapply line_or_held; eauto].
  destruct (run_inv i) as [HI _]. apply (g_proc _ _ _ _ HI) in Hp as [(k & p & Hk & Hpx)|?]; [|done].
  destruct (op_end i k p Hk) as (j & o & now & Hij & Hbj & He & Ho & Hd).
  destruct (dirty_until x i (S j)) as [?|H]; [lia|done|done|].
  destruct (line_or_held (S j) x H) as (l & Hl & Ht); [|exists l; split; [lia|done]].
  destruct (run_inv (S j)) as [HI' _]. intros [(k' & p' & Hk' & Hpx')|?]%(g_proc _ _ _ _ HI'); [|done].
  rewrite Hd in Hk'. apply lookup_delete_Some in Hk' as [Hne Hk']. destruct (run_inv j) as [HIj _].
  apply Hne. apply (g_inj _ _ _ _ HIj _ _ _ _ Hbj Hk'). congruence.
Qed.

(** * Clusters and workers in a run *)
Lemma cluster_later i j n c : (i <= j)%nat -> objs (run i) !! n = Some c -> exists c', objs (run j) !! n = Some c' /\ evolve c c'.
Proof. intros Hij Hn. apply (run_evolve i j Hij n c Hn). Qed.
Lemma worker_later i j n w x : (i <= j)%nat -> wat (run i) n w x -> exists x', wat (run j) n w x' /\ wevolve x x'.
Proof.
  intros Hij (c & Hn & Hx & Hw). destruct (cluster_later i j n c Hij Hn) as (c' & Hn' & E).
  destruct (e_workers _ _ E) as (ws1 & ws2 & Hws & HF2 & _). destruct (Forall2_in_l _ _ _ _ HF2 Hx) as (y & Hy & Hev).
  exists y. split; [|done]. exists c'. split; [done|]. split; [rewrite Hws; apply elem_of_app; auto|]. rewrite (we_name _ _ Hev). done.
Qed.
Lemma run_cok i n c : objs (run i) !! n = Some c -> cok cf (Dof ∅ (run i)) (Bof (run i)) (routes (run i)) n c.
Proof. apply (g_cok _ _ _ _ (proj1 (run_inv i))). Qed.
Lemma run_wk i n w x : wat (run i) n w x -> exists c, objs (run i) !! n = Some c /\ x ∈ c_workers c /\ w_name x = w /\
  wk_ok cf (Dof ∅ (run i)) (Bof (run i)) n (c_status c) x.
Proof.
  intros (c & Hn & Hx & Hw). exists c. do 3 (split; [done|]).
  apply (proj1 (Forall_forall _ _) (k_workers _ _ _ _ _ _ (run_cok i n c Hn)) x Hx).
Qed.
Lemma run_timers i : timers (q (run i)) = ∅.
Proof.
  induction i as [|i IH]; [apply (on_timers _ _ _ HE)|].
  rewrite (on_step _ _ _ HE), step_timers; [done|]. apply (on_life _ _ _ HE).
Qed.
Lemma Dof_dirty i x : Dof ∅ (run i) x -> x ∈ dirty (q (run i)).
Proof. intros [?|?]%(Dof_put _ _ _ (run_timers i)); [done|set_solver]. Qed.

(** An operation under way ends, with its effect. *)
Lemma op_done i p : Bof (run i) p -> exists j, (i <= j)%nat /\
  match p with
  | InStartCluster n => exists c', objs (run j) !! n = Some c' /\ c_status c' = SUBMITTED
  | InStopCluster n => exists c', objs (run j) !! n = Some c' /\ is_fin (c_status c') = true
  | InStartWorker n w => exists x', wat (run j) n w x' /\ w_status x' = SUBMITTED
  | InStopWorker n w => exists x', wat (run j) n w x' /\ is_fin (w_status x') = true
  end.
Proof.
  intros [k Hk]. destruct (op_end i k p Hk) as (j & o & now & Hij & Hbj & He & Ho & _). exists (S j). split; [lia|].
  rewrite (on_step _ _ _ HE). apply (end_op cf (run j) (ev j) (proj1 (run_inv j)) k p o now He Ho Hbj).
Qed.

(** A worker whose target is to be finished is finished some day. *)
Lemma worker_ends i n w x : wat (run i) n w x -> is_fin (w_target x) = true ->
  exists j x', (i <= j)%nat /\ wat (run j) n w x' /\ is_fin (w_status x') = true.
Proof.
  intros Hx Htg. destruct (is_fin (w_status x)) eqn:Hst; [exists i, x; done|].
  assert (forall i', (i <= i')%nat -> Bof (run i') (InStopWorker n w) -> exists j x', (i <= j)%nat /\ wat (run j) n w x' /\ is_fin (w_status x') = true) as Hop.
  { intros i' Hi' HB. destruct (op_done i' _ HB) as (j & Hj & x' & Hx' & Hf). exists j, x'. split; [lia|done]. }
  destruct (run_wk i n w x Hx) as (c & Hn & Hin & Hw & Hok). destruct (wo_stop _ _ _ _ _ _ Hok Hst Htg) as [HD|HB]; rewrite Hw in *; [|eauto].
  destruct (dirty_taken i _ (Dof_dirty _ _ HD)) as (j & Hij & Ht). destruct (worker_later i j n w x Hij Hx) as (y & Hy & Hev).
  destruct (is_fin (w_status y)) eqn:Hsy; [exists j, y; done|].
  destruct (handle_wstop cf (run j) (ev j) (proj1 (run_inv j)) n w y Ht Hy Hsy (we_target2 _ _ Hev Htg)) as [HB|(x' & Hx' & Hf)];
    rewrite <- (on_step _ _ _ HE) in *.
  - apply (Hop (S j)); [lia|done].
  - exists (S j), x'. split; [lia|done].
Qed.
Lemma worker_closes i n w x : wat (run i) n w x -> jge (w_target x) CLOSING = true ->
  exists j x', (i <= j)%nat /\ wat (run j) n w x' /\ jge (w_status x') CLOSING = true.
Proof.
  assert (forall j, is_fin j = true -> jge j CLOSING = true) as Hfc by (intros []; done).
  intros Hx Htg. destruct (is_fin (w_target x)) eqn:Hft.
  { destruct (worker_ends i n w x Hx Hft) as (j & x' & Hj & Hx' & Hf). exists j, x'. auto. }
  assert (w_target x = CLOSING) as Hcl by (destruct (w_target x); done).
  destruct (jlt (w_status x) CLOSING) eqn:Hst; [|exists i, x; unfold jge; rewrite Hst; done].
  destruct (run_wk i n w x Hx) as (c & Hn & Hin & Hw & Hok). pose proof (wo_close _ _ _ _ _ _ Hok Hst Hcl) as HD. rewrite Hw in HD.
  destruct (dirty_taken i _ (Dof_dirty _ _ HD)) as (j & Hij & Ht). destruct (worker_later i j n w x Hij Hx) as (y & Hy & Hev).
  destruct (jlt (w_status y) CLOSING) eqn:Hsy; [|exists j, y; unfold jge; rewrite Hsy; done].
  destruct (is_fin (w_target y)) eqn:Hfy.
  { destruct (worker_ends j n w y Hy Hfy) as (l & x' & Hl & Hx' & Hf). exists l, x'. split; [lia|auto]. }
  assert (w_target y = CLOSING) as Hcy.
  { pose proof (we_target _ _ Hev) as H. rewrite Hcl in H. feed specialize H; [simpl; lia|]. destruct (w_target y); simpl in *; try done; lia. }
  destruct (handle_wclose cf (run j) (ev j) (proj1 (run_inv j)) n w y Ht Hy Hsy Hcy) as (x' & Hx' & Hf).
  exists (S j), x'. rewrite (on_step _ _ _ HE). rewrite Hf. split; [lia|done].
Qed.

(** The level a worker must reach before its cluster can be stopped. *)
Definition level : job := if bulk cf then CLOSING else STOPPED.
Definition settled (i n w : nat) : Prop := exists x, wat (run i) n w x /\ jge (w_status x) level = true.
Lemma settled_later i j n w : (i <= j)%nat -> settled i n w -> settled j n w.
Proof.
  intros Hij (x & Hx & Hl). destruct (worker_later i j n w x Hij Hx) as (y & Hy & Hev). exists y. split; [done|].
  unfold level in *. destruct (bulk cf); [apply (we_closing _ _ Hev Hl)|apply (we_fin _ _ Hev Hl)].
Qed.
Lemma worker_settles i n c x : objs (run i) !! n = Some c -> jge (c_status c) CLOSING = true -> x ∈ c_workers c ->
  exists j, (i <= j)%nat /\ settled j n (w_name x).
Proof.
  intros Hn Hst Hx. assert (wat (run i) n (w_name x) x) as Hw by (exists c; done).
  destruct (run_wk i n _ x Hw) as (c' & Hn' & _ & _ & Hok). assert (c' = c) as -> by congruence.
  pose proof (wo_closing _ _ _ _ _ _ Hok Hst) as H. unfold settled, level. destruct (bulk cf).
  - destruct (worker_closes i n _ x Hw H) as (j & x' & Hj & Hx' & Hl). exists j. split; [done|]. exists x'. done.
  - destruct (worker_ends i n _ x Hw H) as (j & x' & Hj & Hx' & Hl). exists j. split; [done|]. exists x'. done.
Qed.
Lemma all_settle i n c ws : objs (run i) !! n = Some c -> jge (c_status c) CLOSING = true -> (forall x, x ∈ ws -> x ∈ c_workers c) ->
  exists j, (i <= j)%nat /\ Forall (fun x => settled j n (w_name x)) ws.
Proof.
  intros Hn Hst. induction ws as [|x ws IH]; intros Hws; [exists i; done|].
  destruct IH as (j & Hj & Hs); [intros y Hy; apply Hws; right; done|].
  destruct (worker_settles i n c x Hn Hst) as (j' & Hj' & Hs'); [apply Hws; left|].
  exists (max j j'). split; [lia|]. constructor.
  - eapply settled_later; [|exact Hs']. lia.
  - eapply Forall_impl; [exact Hs|]. intros y Hy. cbn beta in *. eapply settled_later; [|exact Hy]. lia.
Qed.

(** * A cluster that was told to end *)
Lemma starts_closing i n c : objs (run i) !! n = Some c -> c_target c <> RUNNING ->
  exists j c', (i <= j)%nat /\ objs (run j) !! n = Some c' /\ jge (c_status c') CLOSING = true.
Proof.
  intros Hn Htg. destruct (jlt (c_status c) CLOSING) eqn:Hst; [|exists i, c; unfold jge; rewrite Hst; done].
  pose proof (o_close _ _ _ _ _ _ (run_cok i n c Hn) Hst Htg) as HD.
  destruct (dirty_taken i _ (Dof_dirty _ _ HD)) as (j & Hij & Ht). destruct (cluster_later i j n c Hij Hn) as (d & Hd & Hev).
  destruct (jlt (c_status d) CLOSING) eqn:Hsd; [|exists j, d; unfold jge; rewrite Hsd; done].
  destruct (handle_close cf (run j) (ev j) (proj1 (run_inv j)) n d Ht Hd) as (c' & Hc' & Hf); [|done|].
  { pose proof (e_target _ _ Hev). destruct (not_running_fin c (k_row _ _ _ _ _ _ (run_cok i n c Hn)) Htg) as [E|E]; rewrite E in *;
      intros E2; rewrite E2 in *; simpl in *; lia. }
  exists (S j), c'. rewrite (on_step _ _ _ HE), Hf. split; [lia|done].
Qed.
Lemma gets_ready i n c : objs (run i) !! n = Some c -> c_status c = CLOSING ->
  exists j c', (i <= j)%nat /\ objs (run j) !! n = Some c' /\ jge (c_status c') CLOSING = true /\ (c_status c' = CLOSING -> ready_to_close cf c' = true).
Proof.
  intros Hn Hst. destruct (all_settle i n c (c_workers c) Hn) as (j & Hij & Hs); [rewrite Hst; done|done|].
  destruct (cluster_later i j n c Hij Hn) as (d & Hd & Hev). exists j, d. split; [done|]. split; [done|].
  assert (jge (c_status d) CLOSING = true) as Hge.
  { pose proof (e_status _ _ Hev) as H. rewrite Hst in H. destruct (c_status d); simpl in *; try done; lia. }
  split; [done|]. intros Hcd. destruct (e_workers _ _ Hev) as (ws1 & ws2 & Hws & HF2 & Hnil).
  rewrite Hnil, app_nil_r in Hws by (apply (ro_closing _ (k_row _ _ _ _ _ _ (run_cok i n c Hn)) Hst)). subst ws1.
  assert (forall y, y ∈ c_workers d -> jge (w_status y) level = true) as Hall.
  { intros y Hy. destruct (Forall2_in_l _ _ _ y (proj2 (Forall2_flip _ _ _) HF2) Hy) as (x & Hx & Hxy).
    destruct (proj1 (Forall_forall _ _) Hs x Hx) as (z & (d' & Hd' & Hz & Hzn) & Hl). assert (d' = d) as -> by congruence.
    assert (z = y) as ->; [|done]. eapply (worker_eq cf (run j)); [apply (run_inv j)|exact Hd|done|done|].
    pose proof (we_name _ _ Hxy). congruence. }
  unfold ready_to_close. apply orb_true_iff. unfold level in Hall. destruct (bulk cf) eqn:Hb.
  - left. rewrite Hcd. simpl. apply forallb_forall. intros y Hy. apply Hall, elem_of_list_In. done.
  - right. apply forallb_forall. intros y Hy. apply Hall, elem_of_list_In. done.
Qed.
Lemma ready_ends i n c : objs (run i) !! n = Some c -> c_status c = CLOSING -> ready_to_close cf c = true ->
  exists j c', (i <= j)%nat /\ objs (run j) !! n = Some c' /\ is_fin (c_status c') = true.
Proof.
  intros Hn Hst Hr.
  assert (forall i', (i <= i')%nat -> Bof (run i') (InStopCluster n) -> exists j c', (i <= j)%nat /\ objs (run j) !! n = Some c' /\ is_fin (c_status c') = true) as Hop.
  { intros i' Hi' HB. destruct (op_done i' _ HB) as (j & Hj & c' & Hc' & Hf). exists j, c'. split; [lia|done]. }
  destruct (o_ready _ _ _ _ _ _ (run_cok i n c Hn) Hst Hr) as [HD|HB]; [|eauto].
  destruct (dirty_taken i _ (Dof_dirty _ _ HD)) as (j & Hij & Ht). destruct (cluster_later i j n c Hij Hn) as (d & Hd & Hev).
  destruct (is_fin (c_status d)) eqn:Hfd; [exists j, d; done|].
  assert (c_status d = CLOSING) as Hcd.
  { pose proof (e_status _ _ Hev) as H. rewrite Hst in H. destruct (c_status d); simpl in *; try done; lia. }
  destruct (decide (ready_to_close cf d = true)) as [Hrd|Hrd].
  - pose proof (handle_ready cf (run j) (ev j) (proj1 (run_inv j)) n d Ht Hd Hcd Hrd) as HB. rewrite <- (on_step _ _ _ HE) in HB.
    apply (Hop (S j)); [lia|done].
  - exfalso. apply Hrd. destruct (e_workers _ _ Hev) as (ws1 & ws2 & Hws & HF2 & Hnil).
    rewrite Hnil, app_nil_r in Hws by (apply (ro_closing _ (k_row _ _ _ _ _ _ (run_cok i n c Hn)) Hst)). subst ws1.
    unfold ready_to_close in *. rewrite Hcd. rewrite Hst in Hr. simpl in *. clear -Hr HF2. apply orb_true_iff in Hr as [Hr|Hr]; apply orb_true_iff.
    + left. apply andb_true_iff in Hr as [-> Hr]. simpl. unfold all_at_least in *. rewrite forallb_forall in *. intros y Hy%elem_of_list_In.
      destruct (Forall2_in_l _ _ _ y (proj2 (Forall2_flip _ _ _) HF2) Hy) as (x & Hx & Hxy). apply (we_closing _ _ Hxy), Hr, elem_of_list_In, Hx.
    + right. unfold all_at_least in *. rewrite forallb_forall in *. intros y Hy%elem_of_list_In.
      destruct (Forall2_in_l _ _ _ y (proj2 (Forall2_flip _ _ _) HF2) Hy) as (x & Hx & Hxy). apply (we_fin _ _ Hxy), Hr, elem_of_list_In, Hx.
Qed.
Lemma cluster_ends i n c : objs (run i) !! n = Some c -> c_target c <> RUNNING ->
  exists j c', (i <= j)%nat /\ objs (run j) !! n = Some c' /\ is_fin (c_status c') = true.
Proof.
  intros Hn Htg. destruct (starts_closing i n c Hn Htg) as (j & d & Hij & Hd & Hst).
  destruct (is_fin (c_status d)) eqn:Hfd; [exists j, d; done|].
  assert (c_status d = CLOSING) as Hcd by (destruct (c_status d); done).
  destruct (gets_ready j n d Hd Hcd) as (l & c1 & Hjl & Hc1 & Hs1 & Hr).
  destruct (is_fin (c_status c1)) eqn:Hf1; [exists l, c1; split; [lia|done]|].
  assert (c_status c1 = CLOSING) as Hcc by (destruct (c_status c1); done).
  destruct (ready_ends l n c1 Hc1 Hcc (Hr Hcc)) as (m & c2 & Hm & Hc2 & Hf2). exists m, c2. split; [lia|done].
Qed.

(** A finished cluster stays as it is: its workers are finished, and it has no route. *)
Lemma ended_later i j n c : (i <= j)%nat -> objs (run i) !! n = Some c -> is_fin (c_status c) = true ->
  exists c', objs (run j) !! n = Some c' /\ c_status c' = c_status c /\ (forall x, x ∈ c_workers c' -> is_fin (w_status x) = true) /\
  routes (run j) !! (RSNI, n) = None /\ routes (run j) !! (RPATH, n) = None.
Proof.
  intros Hij Hn Hf. destruct (cluster_later i j n c Hij Hn) as (d & Hd & Hev). destruct (e_fin _ _ Hev Hf) as [Hs _].
  exists d. split; [done|]. split; [done|]. pose proof (run_cok j n d Hd) as Hok. rewrite <- Hs in Hf. split; [|split].
  - intros x Hx. apply (wo_done _ _ _ _ _ _ (proj1 (Forall_forall _ _) (k_workers _ _ _ _ _ _ Hok) x Hx) Hf).
  - rewrite (k_sni _ _ _ _ _ _ Hok) by (left; intros E; rewrite E in Hf; done). destruct (c_status d); try done; rewrite andb_false_r; done.
  - rewrite (k_path _ _ _ _ _ _ Hok) by (left; intros E; rewrite E in Hf; done). destruct (c_status d); try done; rewrite andb_false_r; done.
Qed.

(** * A cluster or worker that was asked for *)
Lemma cluster_starts i n c : objs (run i) !! n = Some c -> exists j c', (i <= j)%nat /\ objs (run j) !! n = Some c' /\ c_status c' <> CREATED.
Proof.
  intros Hn. destruct (decide (c_target c = RUNNING)) as [Htg|Htg].
  2:{ destruct (starts_closing i n c Hn Htg) as (j & c' & Hj & Hc' & Hs). exists j, c'. do 2 (split; [done|]). intros E. rewrite E in Hs. done. }
  destruct (decide (c_status c = CREATED)) as [Hst|Hst]; [|exists i, c; done].
  assert (forall i', (i <= i')%nat -> Bof (run i') (InStartCluster n) -> exists j c', (i <= j)%nat /\ objs (run j) !! n = Some c' /\ c_status c' <> CREATED) as Hop.
  { intros i' Hi' HB. destruct (op_done i' _ HB) as (j & Hj & c' & Hc' & Hf). exists j, c'. rewrite Hf. split; [lia|done]. }
  destruct (o_start _ _ _ _ _ _ (run_cok i n c Hn) Hst Htg) as [HD|HB]; [|eauto].
  destruct (dirty_taken i _ (Dof_dirty _ _ HD)) as (j & Hij & Ht). destruct (cluster_later i j n c Hij Hn) as (d & Hd & Hev).
  destruct (decide (c_status d = CREATED)) as [Hsd|Hsd]; [|exists j, d; done].
  destruct (decide (c_target d = RUNNING)) as [Htd|Htd].
  - pose proof (handle_start cf (run j) (ev j) n d Ht Hd Hsd Htd) as HB. rewrite <- (on_step _ _ _ HE) in HB. apply (Hop (S j)); [lia|done].
  - destruct (starts_closing j n d Hd Htd) as (l & c' & Hl & Hc' & Hs). exists l, c'. split; [lia|]. split; [done|]. intros E. rewrite E in Hs. done.
Qed.
Lemma worker_starts i n w x : wat (run i) n w x -> exists j x', (i <= j)%nat /\ wat (run j) n w x' /\ w_status x' <> CREATED.
Proof.
  assert (forall i x, wat (run i) n w x -> w_target x <> RUNNING -> exists j x', (i <= j)%nat /\ wat (run j) n w x' /\ w_status x' <> CREATED) as Hne.
  { clear i x. intros i x Hx Htg. destruct (run_wk i n w x Hx) as (c & Hn & Hin & Hw & Hok).
    destruct (worker_closes i n w x Hx) as (j & x' & Hj & Hx' & Hs).
    { destruct (wo_tgt _ _ _ _ _ _ Hok). destruct (w_target x); done. }
    exists j, x'. do 2 (split; [done|]). intros E. rewrite E in Hs. done. }
  intros Hx. destruct (decide (w_target x = RUNNING)) as [Htg|Htg]; [|eauto].
  destruct (decide (w_status x = CREATED)) as [Hst|Hst]; [|exists i, x; done].
  assert (forall i', (i <= i')%nat -> Bof (run i') (InStartWorker n w) -> exists j x', (i <= j)%nat /\ wat (run j) n w x' /\ w_status x' <> CREATED) as Hop.
  { intros i' Hi' HB. destruct (op_done i' _ HB) as (j & Hj & x' & Hx' & Hf). exists j, x'. rewrite Hf. split; [lia|done]. }
  destruct (run_wk i n w x Hx) as (c & Hn & Hin & Hw & Hok).
  destruct (wo_start _ _ _ _ _ _ Hok Hst Htg) as [HD|HB]; rewrite Hw in *; [|eauto].
  destruct (dirty_taken i _ (Dof_dirty _ _ HD)) as (j & Hij & Ht). destruct (worker_later i j n w x Hij Hx) as (y & Hy & Hev).
  destruct (decide (w_status y = CREATED)) as [Hsy|Hsy]; [|exists j, y; done].
  destruct (decide (w_target y = RUNNING)) as [Hty|Hty].
  - pose proof (handle_wstart cf (run j) (ev j) (proj1 (run_inv j)) n w y Ht Hy Hsy Hty) as HB. rewrite <- (on_step _ _ _ HE) in HB. apply (Hop (S j)); [lia|done].
  - destruct (Hne j y Hy Hty) as (l & x' & Hl & H). exists l, x'. split; [lia|done].
Qed.
End run.
