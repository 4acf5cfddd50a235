(** Which backend operations an event begins and ends, and what it outputs. *)
From Coq Require Import ZArith Lia.
From stdpp Require Import prelude gmap.
From Verif Require Import Trace WorkQueue_Model WorkQueue_Proofs Router_Model Gateway_Model Gateway_Inv
  Gateway_Steps Gateway_Steps2 Gateway_Steps3 Gateway_Steps4.
Open Scope Z_scope.

(** * [busy] is only changed by [suspend] and [release] *)
Lemma busy_puts xs s : busy (qputs xs s) = busy s. Proof. apply qputs_objs. Qed.
Lemma busy_row n f s : busy (update_cluster n f s) = busy s.
Proof. unfold update_cluster. destruct (objs s !! n); done. Qed.
Lemma busy_wk n w f s : busy (update_worker n w f s) = busy s.
Proof. unfold update_worker. destruct (get_worker n w s); done. Qed.
Lemma busy_attr n g s : busy (upd_obj n g s) = busy s. Proof. done. Qed.
Lemma busy_put x s : busy (qput x s) = busy s. Proof. done. Qed.
Lemma busy_finish x s : busy (finish x s) = busy s. Proof. done. Qed.
Lemma busy_fold {A} (f : gw -> A -> gw) l s : (forall s a, busy (f s a) = busy s) -> busy (fold_left f l s) = busy s.
Proof. intros Hf. revert s. induction l as [|a l IH]; intros s; simpl; [done|]. rewrite IH, Hf. done. Qed.
Lemma busy_rows ns f s : busy (update_clusters ns f s) = busy s.
Proof. apply busy_fold. intros. apply busy_row. Qed.
Lemma busy_wks n ws f s : busy (update_workers n ws f s) = busy s.
Proof. apply busy_fold. intros. apply busy_wk. Qed.
Lemma busy_targets n ts s : busy (set_targets n ts s) = busy s.
Proof. apply busy_fold. intros. apply busy_wk. Qed.
Lemma busy_fail_clusters ns s : busy (fail_clusters ns s) = busy s.
Proof. unfold fail_clusters. rewrite busy_puts, busy_rows. done. Qed.
Lemma busy_fail_workers ws s : busy (fail_workers ws s) = busy s.
Proof. unfold fail_workers. rewrite busy_puts. apply busy_fold. intros. apply busy_wk. Qed.
Lemma busy_create_worker cf n now s : busy (create_worker cf n now s).2 = busy s.
Proof. done. Qed.
Lemma busy_create_workers cf k n now s : busy (create_workers cf k n now s) = busy s.
Proof.
  revert s. induction k as [|k IH]; intros s; [done|]. cbn [create_workers].
  destruct (create_worker cf n now s) as [w s1] eqn:E. rewrite IH, busy_put. change s1 with (w, s1).2. rewrite <- E. apply busy_create_worker.
Qed.
Lemma busy_scale cf n now s : busy (check_scale cf n now s) = busy s.
Proof. unfold check_scale. destruct (objs s !! n); [|done]. case_decide; [rewrite busy_put, busy_row; done|apply busy_create_workers]. Qed.
Lemma busy_proxied n s : busy (check_proxied n s) = busy s.
Proof. unfold check_proxied. destruct (objs s !! n); [|done]. destruct (c_proxied c); done. Qed.
Lemma busy_closing cf n c s : busy (cluster_to_closing cf n c s) = busy s.
Proof.
  unfold cluster_to_closing. rewrite busy_attr. destruct (map w_name _); [rewrite busy_put|]; rewrite busy_row, busy_puts, busy_wks; done.
Qed.
Lemma busy_stopped n now s : busy (cluster_stopped n now s) = busy s.
Proof. unfold cluster_stopped. destruct (objs s !! n); [|done]. rewrite busy_attr, busy_row, busy_wks. done. Qed.
Lemma busy_rest cf n w s : busy (worker_stopped_rest cf n w s) = busy s.
Proof.
  unfold worker_stopped_rest. destruct (objs s !! n) as [c|]; [|done]. destruct (get_worker n w s); [|done].
  destruct (ready_to_close cf c); [done|]. case_decide; done.
Qed.
Lemma busy_cleanup cf now s : busy (cleanup_expired cf now s) = busy s.
Proof. unfold cleanup_expired. rewrite busy_fold; [done|]. intros s1 n. unfold forget. destruct (objs s1 !! n); done. Qed.
Lemma busy_heartbeat n m now s : busy (heartbeat n m now s).1 = busy s /\ ((heartbeat n m now s).2 = [] \/ (heartbeat n m now s).2 = [OAssertion]).
Proof.
  unfold heartbeat. destruct (lookup_cluster n s) as [c|]; [|auto]. destruct (jlt _ _); [auto|].
  destruct (classify _ _) as [z|]; [|auto]. cbn [fst snd]. split; [|auto]. rewrite busy_wks.
  match goal with |- context [z_targets z ++ ?l] => set (extra := l) end.
  match goal with |- context [set_targets n (z_targets z ++ extra) ?x] => set (s2 := x) end.
  assert (busy s2 = busy s) as H2. { unfold s2. destruct (_ || _); [rewrite busy_put, busy_row|]; done. }
  destruct (z_running z); [|rewrite busy_wks, busy_attr]; rewrite busy_puts, busy_targets; done.
Qed.

(** * Begin and end *)
Definition begins cf (s : gw) (p : pc) (o : obs) : Prop :=
  match p with
  | InStartCluster n => o = OStartC n /\ exists c, objs s !! n = Some c /\ c_status c = CREATED /\ c_target c = RUNNING
  | InStopCluster n => exists c, objs s !! n = Some c /\ o = OStopC n (r_state (c_row c)) /\ c_status c = CLOSING /\ ready_to_close cf c = true
  | InStartWorker n w => o = OStartW n w /\
      exists c x, objs s !! n = Some c /\ x ∈ c_workers c /\ w_name x = w /\ w_status x = CREATED /\ w_target x = RUNNING
  | InStopWorker n w =>
      exists c x, objs s !! n = Some c /\ x ∈ c_workers c /\ w_name x = w /\ o = OStopW n w (w_state x) /\
                  w_status x <> CREATED /\ is_fin (w_status x) = false /\ is_fin (w_target x) = true
  end.
Inductive bcase cf (s s' : gw) (e : event) (os : list obs) : Prop :=
| bc_quiet : busy s' = busy s -> (os = [] \/ os = [OAssertion] \/ os = [OTypeError]) -> (forall k st now, e <> EBackend k (Yields st) now) ->
    bcase cf s s' e os
| bc_create user info mx now : e = EStart user info mx now -> busy s' = busy s -> os = [OCreated (uuid s)] -> bcase cf s s' e os
| bc_idle k st now : e = EBackend k (Yields st) now -> s' = s -> os = [] ->
    (forall n, busy s !! k <> Some (InStartCluster n)) -> (forall n w, busy s !! k <> Some (InStartWorker n w)) -> bcase cf s s' e os
| bc_cstate k n st now : e = EBackend k (Yields st) now -> busy s !! k = Some (InStartCluster n) ->
    s' = update_cluster n (rset_state st) s -> os = [OStateC n st] -> bcase cf s s' e os
| bc_wstate k n w st now : e = EBackend k (Yields st) now -> busy s !! k = Some (InStartWorker n w) ->
    s' = update_worker n w (wset_state st) s -> os = [OStateW n w st] -> bcase cf s s' e os
| bc_begin k p o : (exists now, e = EGet k now \/ e = EWake k now) -> busy s !! k = None -> busy s' = <[k := p]> (busy s) -> objs s' = objs s ->
    uuid s' = uuid s -> os = [o] ->
    begins cf s p o -> (forall p', Bof s p' -> pc_item p' <> pc_item p) -> bcase cf s s' e os
| bc_end k p o now : e = EBackend k o now -> (o = Ends \/ o = Raises) -> busy s !! k = Some p -> busy s' = delete k (busy s) -> os = [] ->
    bcase cf s s' e os.

Section busy.
Context (cf : cfg) (s : gw).
Hypothesis HI : Inv cf None ∅ s.

Lemma bcase_got_other e r : (forall x c, r.2 <> Some (Returned c (Item x))) -> (forall k st now, e <> EBackend k (Yields st) now) ->
  bcase cf s (got cf 0 0 s r).1 e (got cf 0 0 s r).2.
Proof.
  intros H He. destruct r as [q' [o|]]; simpl; [|apply bc_quiet; auto]. destruct o; try (apply bc_quiet; auto; fail).
  destruct r as [x| | |]; try (apply bc_quiet; auto; fail). exfalso. eapply H. done.
Qed.
Lemma reconcile_bcase e k x now q' : (exists now, e = EGet k now \/ e = EWake k now) -> busy s !! k = None ->
  (forall p', Bof s p' -> pc_item p' <> x) ->
  bcase cf s (reconcile cf k x now (set_q q' s)).1 e (reconcile cf k x now (set_q q' s)).2.
Proof.
  intros He Hk Hfree.
  assert (forall j st t, e <> EBackend j (Yields st) t) as Hne by (destruct He as (t & [-> | ->]); done).
  assert (forall s', busy s' = busy s -> bcase cf s s' e []) as Hq by (intros; apply bc_quiet; auto).
  destruct x as [n [w|]]; unfold reconcile; simpl.
  - unfold reconcile_worker, get_worker. change (objs (set_q q' s)) with (objs s).
    destruct (objs s !! n) as [c|] eqn:Hn; simpl; [|apply Hq; done].
    destruct (find_worker w (c_workers c)) as [x|] eqn:Hx; [|apply Hq; done]. destruct (find_worker_some _ _ _ Hx) as [Hx1 Hx2].
    destruct (jge (w_status x) STOPPED) eqn:Hf; [apply Hq; done|].
    case_decide.
    { cbn [fst snd]. apply Hq. rewrite busy_finish. destruct (decide (w_status x = CLOSING)).
      - destruct (is_ready _ _ _); done.
      - destruct (is_ready _ _ _); rewrite ?busy_put, busy_wk; done. }
    case_decide as Ht.
    { destruct (jlt CREATED (w_status x)) eqn:Hcr.
      - eapply (bc_begin cf s _ e _ k (InStopWorker n w)); eauto. simpl. exists c, x. repeat (split; [done|]).
        split; [intros E; rewrite E in Hcr; done|]. split; [done|]. destruct Ht as [-> | ->]; done.
      - cbn [fst snd]. apply Hq. rewrite busy_finish, busy_rest. unfold worker_stopped. rewrite busy_wk. done. }
    case_decide as Hst; [|apply Hq; done]. destruct Hst as [Hst1 Hst2].
    eapply (bc_begin cf s _ e _ k (InStartWorker n w)); eauto; simpl. split; [done|]. exists c, x. done.
  - unfold reconcile_cluster. change (objs (set_q q' s)) with (objs s). destruct (objs s !! n) as [c|] eqn:Hn; [|apply Hq; done].
    destruct (jge (c_status c) STOPPED) eqn:Hf; [apply Hq; done|].
    case_decide as Ht.
    { case_decide as Hcl; [|cbn [fst snd]; apply Hq; rewrite busy_finish, busy_closing; done].
      destruct (ready_to_close cf c) eqn:Hr; [|apply Hq; done]. rewrite Hcl. simpl.
      eapply (bc_begin cf s _ e _ k (InStopCluster n)); eauto; simpl. exists c. done. }
    case_decide as Ht2; [|apply Hq; done]. case_decide as Hst.
    { eapply (bc_begin cf s _ e _ k (InStartCluster n)); eauto; simpl. split; [done|]. exists c. done. }
    cbn [fst snd]. apply Hq. rewrite busy_finish. set (s1 := if decide _ then _ else _).
    assert (busy s1 = busy s) as H1. { unfold s1. destruct (decide _); [rewrite busy_attr, busy_row|]; done. }
    destruct (objs s1 !! n); [|done]. case_decide; [|done]. rewrite busy_scale, busy_proxied. done.
Qed.
Lemma turn_bcase e k now q' r : (exists now, e = EGet k now \/ e = EWake k now) -> busy s !! k = None -> get_turn k (q s) = (q', r) ->
  bcase cf s (got cf k now s (as_out k (q', r))).1 e (got cf k now s (as_out k (q', r))).2.
Proof.
  intros He Hk Ht.
  assert (forall j st t, e <> EBackend j (Yields st) t) as Hne by (destruct He as (t & [-> | ->]); done).
  destruct r as [[x| | |]|]; simpl; try (apply bc_quiet; auto; fail).
  apply reconcile_bcase; auto. intros p (j & Hj) E. destruct (get_turn_item _ _ _ _ Ht) as ((l & Hl & _) & _).
  assert (x ∈ queue (q s)) as Hin by (rewrite Hl; left). apply (qo_line _ (g_q _ _ _ _ HI)) in Hin as [_ Hin]. apply Hin.
  apply (g_proc _ _ _ _ HI). left. eauto.
Qed.
Lemma step_bcase e s' os : is_restart e = false -> step cf s e = (s', os) -> bcase cf s s' e os.
Proof.
  intros He Hs. assert (s' = (step cf s e).1) as -> by (rewrite Hs; done). assert (os = (step cf s e).2) as -> by (rewrite Hs; done). clear Hs.
  assert (forall s', busy s' = busy s -> (forall j st t, e <> EBackend j (Yields st) t) -> bcase cf s s' e []) as Hq by (intros; apply bc_quiet; auto).
  destruct e as [user info mx now|n failed|n m now|now| |oks| |oks|now|k now|k now|k o now|now| |];
    try discriminate He; cbn [step].
  - unfold start_cluster, create_cluster. cbn [fst snd]. eapply bc_create; eauto; done.
  - apply Hq; [|done]. simpl. unfold stop_cluster. destruct (lookup_cluster n s); [|done]. destruct (jge _ _); [|done]. rewrite busy_put, busy_row; done.
  - destruct (busy_heartbeat n m now s) as [H1 H2]. apply bc_quiet; [done| |done]. tauto.
  - destruct (down s); [apply Hq; done|]. unfold check_timeouts. destruct (find_late _ _ _) as [[cs ws]|]; [|apply bc_quiet; auto; done].
    apply Hq; [|done]. cbn [fst]. rewrite busy_fail_workers, busy_fail_clusters. done.
  - destruct (down s); [apply Hq; done|]. destruct (chk_c s); apply Hq; done.
  - destruct oks; [|apply Hq; done]. apply Hq; [|done]. simpl. unfold check_clusters_end. destruct (chk_c s); [|done]. rewrite busy_fail_clusters. done.
  - destruct (down s); [apply Hq; done|]. destruct (chk_w s); apply Hq; done.
  - destruct oks; [|apply Hq; done]. apply Hq; [|done]. simpl. unfold check_workers_end. destruct (chk_w s); [|done].
    rewrite busy_fold by done. rewrite busy_fold; [done|]. intros. apply busy_wk.
  - destruct (down s); apply Hq; try done. apply busy_cleanup.
  - case_decide; [|apply Hq; done]. destruct (busy s !! k) eqn:Hk; [apply Hq; done|]. destruct (tasks (q s) !! k) eqn:Ht; [apply Hq; done|].
    cbn [WorkQueue_Model.step]. rewrite Ht. destruct (get_turn k (q s)) as [q' r] eqn:Hg. apply turn_bcase; eauto.
  - cbn [WorkQueue_Model.step]. destruct (tasks (q s) !! k) as [[]|] eqn:Hk; simpl; try (apply Hq; done).
    destruct (get_turn k (q s)) as [q' r] eqn:Hg. apply turn_bcase; eauto.
    destruct (busy s !! k) as [p|] eqn:Hb; [|done]. apply (g_tasks _ _ _ _ HI) in Hb. congruence.
  - unfold resume. destruct (busy s !! k) as [p|] eqn:Hk.
    2:{ destruct o as [st| |].
        - eapply bc_idle; eauto; intros; rewrite Hk; done.
        - apply Hq; done.
        - apply Hq; done. }
    destruct p as [n|n|n w|n w], o as [st| |]; cbn [fst snd].
    + eapply bc_cstate; eauto.
    + eapply bc_end; eauto; []. rewrite busy_finish, busy_row. done.
    + eapply bc_end; eauto; []. rewrite busy_finish, busy_put, busy_row. done.
    + eapply bc_idle; eauto; intros; rewrite Hk; done.
    + eapply bc_end; eauto; []. rewrite busy_finish, busy_stopped. done.
    + eapply bc_end; eauto; []. rewrite busy_finish, busy_stopped. done.
    + eapply bc_wstate; eauto.
    + eapply bc_end; eauto; []. rewrite busy_finish, busy_wk. done.
    + eapply bc_end; eauto; []. rewrite busy_finish, busy_put, busy_attr, busy_wk. done.
    + eapply bc_idle; eauto; intros; rewrite Hk; done.
    + eapply bc_end; eauto; []. rewrite busy_finish, busy_rest. unfold worker_stopped. rewrite busy_wk. done.
    + eapply bc_end; eauto; []. rewrite busy_finish, busy_rest. unfold worker_stopped. rewrite busy_wk. done.
  - destruct (down s); apply Hq; try done. simpl. unfold shutdown. destruct (stop_on_shutdown cf); simpl; [rewrite busy_fail_clusters|]; done.
  - apply Hq; [|done]. simpl. unfold close_queue. destruct (down s); [|done]. destruct (forallb _ _); done.
Qed.
End busy.
