(** Fault_Model with no failing call is Gateway_Model. *)
From Coq Require Import ZArith.
From stdpp Require Import prelude gmap.
From Verif Require Import Trace Router_Model WorkQueue_Model Gateway_Model Gateway_Spec Gateway_Sync Gateway_Proofs Fault_Model Fault_Spec Fault_Chain Fault_Hist Fault_Proofs.
Open Scope Z_scope.

(** [a] ends, with no failing call, with [f]. *)
Definition does (a : act) (f : gw -> gw) : Prop := forall s, a s [] = (f s, [], true).
Lemma does_call f : does (call f) f. Proof. done. Qed.
Lemma does_pure f : does (pure f) f. Proof. done. Qed.
Lemma does_ok : does ok (fun s => s). Proof. done. Qed.
Lemma does_seq a b f g : does a f -> does b g -> does (a ;> b) (fun s => g (f s)).
Proof. intros Ha Hb s. unfold seq. rewrite Ha. apply Hb. Qed.
Lemma does_for {A} (xs : list A) f : (xs = [] -> forall s, f s = s) -> does (call_for xs f) f.
Proof. intros H s. destruct xs; [|done]. simpl. unfold ok, pure. by rewrite H. Qed.

Lemma does_heartbeat n m c z s :
  heartbeat_acts n m c z s [] =
  (let count := match r_max (c_row c) with
               | Some mx => if mx <? m_count m then mx else m_count m
               | None => m_count m end in
  let n_pending := (length (z_created z) + length (z_submitted z))%nat in
  let n_active := size (list_to_set (m_active m) : gset nat) in
  let n_to_stop := Z.of_nat n_active + Z.of_nat n_pending - count in
  let targets := z_targets z ++
      (if 0 <? n_to_stop
       then map (fun w => (w, STOPPED)) (take (Z.to_nat n_to_stop) (z_created z ++ z_submitted z))
       else []) in
  let running := decide (c_status c = RUNNING) in
  let changed := negb (count =? r_count (c_row c)) in
  let f := fun r : crow =>
      let r1 := if running then r else rset_addresses (m_api m) (m_sched m) (m_dash m) r in
      if changed then rset_count count r1 else r1 in
  let s2 := if negb (bool_decide (c_status c = RUNNING)) || changed then qput (n, None) (update_cluster n f s) else s in
  let s3 := qputs (map (fun t : nat * job => (n, Some t.1)) targets) (set_targets n targets s2) in
  let s4 := match z_running z with [] => s3 | ws => update_workers n ws (wset_status RUNNING) (upd_obj n (cset_fails 0%nat) s3) end in
  update_workers n (z_close z) (wset_close true) s4, [], true).
Proof.
  unfold heartbeat_acts. cbv zeta. unfold seq at 1.
  destruct (negb _ || negb _).
  all: unfold seq; cbn [call pure ok].
  all: rewrite (does_for _ (set_targets n _)) by (intros -> ?; done).
  all: destruct (z_running z); cbn [ok pure call]; rewrite (does_for (z_close z)) by (intros -> ?; done); done.
Qed.

Lemma does_fail_clusters ns : does (ffail_clusters ns) (fail_clusters ns).
Proof. unfold ffail_clusters. intros s. rewrite (does_seq _ _ (update_clusters ns (rset_target FAILED)) (qputs (map (fun n => (n, None)) ns))); [done| |done]. apply does_for. intros -> ?. done. Qed.
Lemma does_fail_workers ws : does (ffail_workers ws) (fail_workers ws).
Proof.
  unfold ffail_workers. intros s. rewrite (does_seq _ _ (fun s => fold_left (fun s p => update_worker p.1 p.2 (wset_target FAILED) s) ws s) (qputs (map (fun p : nat * nat => (p.1, Some p.2)) ws))); [done| |done].
  apply does_for. intros -> ?. done.
Qed.
Lemma does_create cf k n now : does (fcreate_workers cf k n now) (create_workers cf k n now).
Proof.
  induction k as [|k IH]; intros s; [done|]. cbn [fcreate_workers create_workers]. unfold seq. cbn [call pure].
  rewrite IH. destruct (create_worker cf n now s) as [w s1] eqn:E. cbn [snd]. replace (uuid s) with w; [done|]. unfold create_worker in E. by inversion E.
Qed.
Lemma does_scale cf n now : does (fcheck_scale cf n now) (check_scale cf n now).
Proof. intros s. unfold fcheck_scale, check_scale. destruct (objs s !! n); [|done]. destruct (decide _); [done|]. apply does_create. Qed.
Lemma does_stopped n now : does (fcluster_stopped n now) (cluster_stopped n now).
Proof.
  intros s. unfold fcluster_stopped, cluster_stopped. destruct (objs s !! n); [|done]. cbv zeta. unfold seq.
  rewrite does_for by (intros -> ?; done). done.
Qed.
Lemma does_closing cf n c : does (fcluster_to_closing cf n c) (cluster_to_closing cf n c).
Proof.
  intros s. unfold fcluster_to_closing, cluster_to_closing. cbv zeta. unfold seq. rewrite does_for by (intros -> ?; done). done.
Qed.

Lemma freconcile_nofault cf k x now lt s : freconcile cf k x now lt [] s = plain (reconcile cf k x now s).
Proof.
  destruct x as [n [w|]]; unfold freconcile, reconcile; cbn [fst snd].
  - unfold freconcile_worker, reconcile_worker. destruct (get_worker n w s) as [wk|]; [|done].
    destruct (jge _ _); [done|]. destruct (decide _).
    { unfold seq. destruct (decide (w_status wk = CLOSING)); cbn [ok pure call]; cbn [settle plain fst snd map]; done. }
    destruct (decide _); [destruct (jlt _ _); done|]. destruct (decide _); done.
  - unfold freconcile_cluster, reconcile_cluster. destruct (objs s !! n) as [c|]; [|done].
    destruct (jge _ _); [done|]. destruct (decide _).
    { destruct (decide _); [|rewrite does_closing; done]. destruct (ready_to_close _ _); [|done]. destruct (jlt _ _); [done|]. rewrite does_stopped. done. }
    destruct (decide (c_target c = RUNNING)); [|done]. destruct (decide (c_status c = CREATED)); [done|]. unfold frunning.
    set (s1 := if decide (c_status c = SUBMITTED /\ _) then _ else s). unfold seq at 1.
    assert ((if decide (c_status c = SUBMITTED /\ r_sched (c_row c) <> []) then call (update_cluster n (rset_status RUNNING)) ;> pure (upd_obj n (cset_ready true)) else ok) s [] = (s1, [], true)) as ->.
    { unfold s1. destruct (decide _); done. }
    destruct (objs s1 !! n) as [c1|]; [|done]. destruct (decide (c_status c1 = RUNNING)); [|done]. unfold seq. cbn [pure]. rewrite does_scale. done.
Qed.
Lemma fresume_nofault cf k o now lt s : fresume cf k o now lt [] s = plain (resume cf k o now s).
Proof.
  unfold fresume, resume. destruct (busy s !! k) as [[n|n|n w|n w]|]; [..|done]; destruct o; try done; cbv zeta; rewrite does_stopped; done.
Qed.
Theorem no_fault cf fc fw s e lt : Sync fc fw s -> fstep cf s (FE e lt []) = plain (step cf s e).
Proof.
  intros Hy. destruct e as [u i mx now|n f|n m now|now| |[oks|]| |[oks|]|now|k now|k now|k o now|now| |]; cbn [fstep step]; try done.
  - unfold fstop_cluster, stop_cluster. destruct (lookup_cluster n s); [|done]. destruct (jge _ _); done.
  - unfold fheartbeat, heartbeat. destruct (lookup_cluster n s); [|done]. destruct (jlt _ _); [done|]. cbv zeta. destruct (classify _ _); [|done].
    rewrite does_heartbeat. done.
  - destruct (down s); [done|]. unfold fcheck_timeouts, check_timeouts. destruct (find_late _ _ _) as [[cs ws]|]; [|done].
    unfold seq. rewrite does_fail_clusters, does_fail_workers. done.
  - unfold fcheck_clusters_end, check_clusters_end. destruct (chk_c s); [|done]. rewrite does_fail_clusters. done.
  - unfold fcheck_workers_end, check_workers_end. destruct (chk_w s); [|done]. cbv zeta. unfold seq. rewrite does_for by (intros -> ?; done). done.
  - destruct (down s); [done|]. rewrite (fcleanup_eq _ _ _ _ _ _ Hy). done.
  - destruct (decide _); [|done]. destruct (busy s !! k), (tasks (q s) !! k); try done. unfold fgot, got. destruct (WorkQueue_Model.step _ _) as [q' [[? []]|]]; try done. apply freconcile_nofault.
  - unfold fgot, got. destruct (WorkQueue_Model.step _ _) as [q' [[? []]|]]; try done. apply freconcile_nofault.
  - apply fresume_nofault.
  - destruct (down s); [done|]. unfold fshutdown, shutdown. destruct (stop_on_shutdown cf); [|done]. rewrite does_fail_clusters. done.
Qed.

(** Every history of Gateway_Model is one of Fault_Model. *)
Definition lift_event (e : event) : fevent := FE e 0 [].
Definition lift_history (h : list (event * list obs)) : history := map (fun p => (lift_event p.1, map FObs p.2)) h.
Theorem lift_reach cf h s : fresh_ids cf -> reach cf h s -> freach cf (lift_history h) s /\ only kept (lift_history h).
Proof.
  intros Hid Hr. revert h s Hr. apply exec_ind_r.
  - split; [constructor|]. intros ? ? ? Hin. inversion Hin.
  - intros h s e o s' Hr [IH Hk] Hs.
    assert (only kept (lift_history (h ++ [(e, o)]))) as Hk2.
    { intros fe o' f Hin Hf. unfold lift_history in Hin. apply elem_of_list_fmap in Hin as ([e1 o1] & Ep & _). inversion Ep; subst. inversion Hf. }
    split; [|done]. destruct (kept_sync cf _ _ Hid Hk IH) as (fc & fw & _ & Hy & _).
    unfold lift_history. rewrite map_app. apply exec_app. exists s. split; [exact IH|].
    pose proof (no_fault cf fc fw s e 0 Hy) as E. rewrite Hs in E. cbn [map]. econstructor; [exact E|constructor].
Qed.
