(** What an event of the gateway does to the addresses of the clusters, to the
    marks "added to the proxies" and to the routes. *)
From Coq Require Import ZArith Lia.
From stdpp Require Import prelude gmap.
From Verif Require Import Trace WorkQueue_Model WorkQueue_Proofs Router_Model Gateway_Model Gateway_Spec Gateway_Inv
  Gateway_Steps Gateway_Steps2 Gateway_Steps3 Gateway_Steps4 Gateway_Sync Gateway_Restart.
Open Scope Z_scope.

Definition adr (c : cluster) : bytes * bytes * bytes := (r_api (c_row c), r_sched (c_row c), r_dash (c_row c)).
Definition fc (c : cluster) : bytes * bytes * bytes * bool := (adr c, c_proxied c).
Definition face (s : gw) : gmap nat (bytes * bytes * bytes * bool) := fc <$> objs s.
Definition view (s : gw) := (face s, routes s).

Lemma face_lookup s n : face s !! n = fc <$> objs s !! n.
Proof. apply lookup_fmap. Qed.
Lemma view_attr n g s : (forall c, fc (g c) = fc c) -> view (upd_obj n g s) = view s.
Proof.
  intros Hg. unfold view. f_equal. apply map_eq. intros m. rewrite !face_lookup. unfold upd_obj. cbn [objs set_objs].
  destruct (decide (m = n)) as [->|Hm]; [rewrite lookup_alter|by rewrite lookup_alter_ne]. destruct (objs s !! n); simpl; [by rewrite Hg|done].
Qed.
Lemma view_row n f s : (forall r, r_api (f r) = r_api r /\ r_sched (f r) = r_sched r /\ r_dash (f r) = r_dash r) ->
  view (update_cluster n f s) = view s.
Proof.
  intros Hf. unfold update_cluster. destruct (objs s !! n); [|done].
  change (view (upd_obj n (fun c => cset_row (f (c_row c)) c) s) = view s). apply view_attr. intros c0. unfold fc, adr. simpl.
  destruct (Hf (c_row c0)) as (-> & -> & ->). done.
Qed.
Lemma view_wk n w f s : view (update_worker n w f s) = view s.
Proof.
  unfold update_worker. destruct (get_worker n w s); [|done].
  change (view (upd_obj n (fun c => cset_workers (map_worker w f (c_workers c)) c) s) = view s). by apply view_attr.
Qed.
Lemma view_put x s : view (qput x s) = view s. Proof. done. Qed.
Lemma view_fold {A} (f : gw -> A -> gw) l s : (forall s a, view (f s a) = view s) -> view (fold_left f l s) = view s.
Proof. intros Hf. revert s. induction l as [|a l IH]; intros s; simpl; [done|]. rewrite IH, Hf. done. Qed.
Lemma view_puts xs s : view (qputs xs s) = view s. Proof. apply view_fold. done. Qed.
Lemma view_finish x s : view (finish x s) = view s. Proof. done. Qed.
Lemma view_rows ns f s : (forall r, r_api (f r) = r_api r /\ r_sched (f r) = r_sched r /\ r_dash (f r) = r_dash r) ->
  view (update_clusters ns f s) = view s.
Proof. intros Hf. apply view_fold. intros. by apply view_row. Qed.
Lemma view_wks n ws f s : view (update_workers n ws f s) = view s.
Proof. apply view_fold. intros. apply view_wk. Qed.
Lemma view_targets n ts s : view (set_targets n ts s) = view s.
Proof. apply view_fold. intros. apply view_wk. Qed.
Lemma view_fail_clusters ns s : view (fail_clusters ns s) = view s.
Proof. unfold fail_clusters. rewrite view_puts, view_rows; done. Qed.
Lemma view_fail_workers ws s : view (fail_workers ws s) = view s.
Proof. unfold fail_workers. rewrite view_puts. apply view_fold. intros. apply view_wk. Qed.
Lemma view_create_worker cf n now s : view (create_worker cf n now s).2 = view s.
Proof. unfold create_worker. cbn [snd]. rewrite view_attr; done. Qed.
Lemma view_create_workers cf k n now s : view (create_workers cf k n now s) = view s.
Proof.
  revert s. induction k as [|k IH]; intros s; [done|]. cbn [create_workers].
  destruct (create_worker cf n now s) as [w s1] eqn:E. rewrite IH, view_put. change s1 with (w, s1).2. rewrite <- E. apply view_create_worker.
Qed.
Lemma view_scale cf n now s : view (check_scale cf n now s) = view s.
Proof. unfold check_scale. destruct (objs s !! n); [|done]. case_decide; [rewrite view_put, view_row; done|apply view_create_workers]. Qed.
Lemma view_closing cf n c s : view (cluster_to_closing cf n c s) = view s.
Proof.
  unfold cluster_to_closing. rewrite view_attr by done. destruct (map w_name _); [rewrite view_put|]; rewrite view_row, view_puts, view_wks; done.
Qed.
Lemma view_stopped n now s : view (cluster_stopped n now s) = view s.
Proof. unfold cluster_stopped. destruct (objs s !! n); [|done]. rewrite view_attr by done. rewrite view_row by done. apply view_wks. Qed.
Lemma view_rest cf n w s : view (worker_stopped_rest cf n w s) = view s.
Proof.
  unfold worker_stopped_rest. destruct (objs s !! n) as [c|]; [|done]. destruct (get_worker n w s); [|done].
  destruct (ready_to_close cf c); [done|]. case_decide; done.
Qed.
Lemma view_cleanup cf now s : view (cleanup_expired cf now s) = view s.
Proof. unfold cleanup_expired. rewrite view_fold; [done|]. intros s1 n. unfold forget. destruct (objs s1 !! n); done. Qed.

Definition with_routes (n : nat) (sched dash : bytes) (R : gmap (rkind * nat) bytes) : gmap (rkind * nat) bytes :=
  <[(RSNI, n) := sched]> (match dash with [] => R | d => <[(RPATH, n) := d]> R end).
Inductive vcase (s s' : gw) (e : event) : Prop :=
| v_same : view s' = view s -> vcase s s' e
| v_new user info mx now : e = EStart user info mx now -> face s' = <[uuid s := ([], [], [], false)]> (face s) -> routes s' = routes s -> vcase s s' e
| v_hb n m now c : e = EHeartbeat n m now -> objs s !! n = Some c -> c_status c <> RUNNING -> jlt RUNNING (c_target c) = false ->
    face s' = <[n := (m_api m, m_sched m, m_dash m, c_proxied c)]> (face s) -> routes s' = routes s -> vcase s s' e
| v_add n c : (exists k now, e = EGet k now \/ e = EWake k now) -> objs s !! n = Some c -> c_proxied c = false ->
    face s' = <[n := (adr c, true)]> (face s) -> routes s' = with_routes n (r_sched (c_row c)) (r_dash (c_row c)) (routes s) -> vcase s s' e
| v_remove k o now n : e = EBackend k o now -> (o = Ends \/ o = Raises) -> busy s !! k = Some (InStopCluster n) ->
    face s' = face s -> routes s' = delete (RSNI, n) (delete (RPATH, n) (routes s)) -> vcase s s' e.

Lemma view_heartbeat n m now s : vcase s (heartbeat n m now s).1 (EHeartbeat n m now).
Proof.
  unfold heartbeat. destruct (lookup_cluster n s) as [c|] eqn:El; [|by apply v_same].
  assert (Hc : objs s !! n = Some c) by (unfold lookup_cluster in El; case_decide; done).
  destruct (jlt RUNNING (c_target c)) eqn:Et; [by apply v_same|].
  destruct (classify _ _) as [z|]; [|apply v_same; cbn [fst]; by apply view_attr]. cbn [fst].
  match goal with |- context [z_targets z ++ ?l] => set (extra := l) end.
  match goal with |- context [set_targets n (z_targets z ++ extra) ?x] => set (s2 := x) end.
  match goal with |- vcase s ?x _ => assert (E : view x = view s2) end.
  { rewrite view_wks. destruct (z_running z); [|rewrite view_wks, view_attr by done]; rewrite view_puts, view_targets; done. }
  destruct (decide (c_status c = RUNNING)) as [Er|Er].
  - apply v_same. rewrite E. unfold s2. rewrite bool_decide_eq_true_2 by done. simpl.
    match goal with |- context [if ?b then qput _ _ else _] => destruct b end.
    + rewrite view_put, view_row; [by apply view_attr|]. intros r. try (match goal with |- context [if ?b then _ else _] => destruct b end); done.
    + by apply view_attr.
  - assert (E2 : view s2 = (<[n := (m_api m, m_sched m, m_dash m, c_proxied c)]> (face s), routes s)).
    { unfold s2. rewrite bool_decide_eq_false_2 by done. simpl. rewrite view_put.
      set (cnt := match r_max (c_row c) with Some _ => _ | None => _ end). clear E s2 extra.
      unfold update_cluster. unfold upd_obj at 1. cbn [objs set_objs]. rewrite lookup_alter, Hc. cbn [fmap option_fmap option_map].
      unfold view. f_equal. apply map_eq. intros i. rewrite face_lookup. unfold upd_obj. cbn [objs set_objs set_db_c].
      destruct (decide (i = n)) as [->|Hi].
      - rewrite !lookup_alter, lookup_insert, Hc. simpl. unfold fc, adr. cbn [c_row cset_row cset_hb c_proxied].
        destruct (negb _); done.
      - rewrite !lookup_alter_ne, lookup_insert_ne by done. by rewrite face_lookup. }
    rewrite <- E in E2. unfold view in E2. injection E2 as E3 E4. eapply v_hb; eauto.
Qed.

Lemma view_reconcile cf e k x now s q' : (exists k now, e = EGet k now \/ e = EWake k now) -> vcase s (reconcile cf k x now (set_q q' s)).1 e.
Proof.
  intros He. assert (Hq : forall s', view s' = view s -> vcase s s' e) by (intros; by apply v_same).
  destruct x as [n [w|]]; unfold reconcile; simpl.
  - unfold reconcile_worker, get_worker. change (objs (set_q q' s)) with (objs s).
    destruct (objs s !! n) as [c|] eqn:Hn; simpl; [|by apply Hq].
    destruct (find_worker w (c_workers c)) as [x|] eqn:Hx; [|by apply Hq].
    destruct (jge (w_status x) STOPPED) eqn:Hf; [by apply Hq|].
    case_decide.
    { cbn [fst snd]. apply Hq. rewrite view_finish. destruct (decide (w_status x = CLOSING)).
      - destruct (is_ready _ _ _); done.
      - destruct (is_ready _ _ _); rewrite ?view_put, view_wk; done. }
    case_decide as Ht.
    { destruct (jlt CREATED (w_status x)) eqn:Hcr.
      - by apply Hq.
      - cbn [fst snd]. apply Hq. rewrite view_finish, view_rest. unfold worker_stopped. rewrite view_wk. done. }
    case_decide as Hst; by apply Hq.
  - unfold reconcile_cluster. change (objs (set_q q' s)) with (objs s). destruct (objs s !! n) as [c|] eqn:Hn; [|by apply Hq].
    destruct (jge (c_status c) STOPPED) eqn:Hf; [by apply Hq|].
    case_decide as Ht.
    { case_decide as Hcl; [|cbn [fst snd]; apply Hq; rewrite view_finish, view_closing; done].
      destruct (ready_to_close cf c) eqn:Hr; [|by apply Hq]. rewrite Hcl. simpl. by apply Hq. }
    case_decide as Ht2; [|by apply Hq]. case_decide as Hst; [by apply Hq|].
    cbn [fst snd]. set (s1 := if decide _ then _ else _).
    assert (H1 : view s1 = view s). { unfold s1. destruct (decide _); [rewrite view_attr, view_row by done|]; done. }
    destruct (objs s1 !! n) as [c1|] eqn:Hc1; [|apply Hq; by rewrite view_finish]. case_decide; [|apply Hq; by rewrite view_finish].
    assert (Hf1 : fc c1 = fc c).
    { pose proof (f_equal (fun v => v.1 !! n) H1) as E. cbn [view fst] in E. rewrite !face_lookup, Hc1, Hn in E. simpl in E. congruence. }
    match goal with |- vcase s ?x _ => assert (E : view x = view (check_proxied n s1)) end.
    { rewrite view_finish, view_scale. done. }
    unfold check_proxied in E at 2. rewrite Hc1 in E. injection Hf1 as F1 F2 F3 F4. destruct (c_proxied c1) eqn:Hp.
    + apply Hq. by rewrite E.
    + unfold view in H1, E. injection H1 as H1 H1'. injection E as E E'.
      eapply (v_add s _ e n c); [done|done|congruence| |].
      * etransitivity; [exact E|]. apply map_eq. intros i. rewrite face_lookup. unfold upd_obj. cbn [objs set_objs Gateway_Model.set_routes].
        destruct (decide (i = n)) as [->|Hi].
        -- rewrite lookup_alter, lookup_insert, Hc1. simpl. unfold fc, adr. simpl. congruence.
        -- rewrite lookup_alter_ne, lookup_insert_ne by done. rewrite <- H1, face_lookup. done.
      * etransitivity; [exact E'|]. cbn [routes upd_obj set_objs Gateway_Model.set_routes]. unfold with_routes. rewrite F2, F3, H1'. by destruct (r_dash (c_row c)).
Qed.
Lemma view_got cf e k now s r : (exists k now, e = EGet k now \/ e = EWake k now) -> vcase s (got cf k now s r).1 e.
Proof.
  intros He. destruct r as [q' [o|]]; simpl; [|by apply v_same]. destruct o as [c r].
  destruct r; try by apply v_same. by apply view_reconcile.
Qed.
Lemma step_vcase cf s e : is_restart e = false -> vcase s (step cf s e).1 e.
Proof.
  intros He. assert (Hq : forall s', view s' = view s -> vcase s s' e) by (intros; by apply v_same).
  destruct e as [user info mx now|n failed|n m now|now| |oks| |oks|now|k now|k now|k o now|now| |];
    try discriminate He; cbn [step].
  - unfold start_cluster, create_cluster. cbn [fst snd]. eapply v_new; [done| |done]. unfold face. cbn -[insert]. rewrite fmap_insert. done.
  - apply Hq. simpl. unfold stop_cluster. destruct (lookup_cluster n s); [|done]. destruct (jge _ _); [|done]. rewrite view_put, view_row; done.
  - apply view_heartbeat.
  - destruct (down s); [by apply Hq|]. unfold check_timeouts. destruct (find_late _ _ _) as [[cs ws]|]; [|by apply Hq].
    apply Hq. cbn [fst]. rewrite view_fail_workers, view_fail_clusters. done.
  - destruct (down s); [by apply Hq|]. destruct (chk_c s); by apply Hq.
  - destruct oks; [|by apply Hq]. apply Hq. simpl. unfold check_clusters_end. destruct (chk_c s); [|done]. rewrite view_fail_clusters. done.
  - destruct (down s); [by apply Hq|]. destruct (chk_w s); by apply Hq.
  - destruct oks; [|by apply Hq]. apply Hq. simpl. unfold check_workers_end. destruct (chk_w s); [|done].
    rewrite view_fold. 2:{ intros. rewrite view_put. by apply view_attr. } rewrite view_fold; [done|]. intros. apply view_wk.
  - destruct (down s); apply Hq; try done. apply view_cleanup.
  - case_decide; [|by apply Hq]. destruct (busy s !! k); [by apply Hq|]. destruct (tasks (q s) !! k); [by apply Hq|]. apply view_got. eauto.
  - apply view_got. eauto.
  - unfold resume. destruct (busy s !! k) as [p|] eqn:Hk; [|by apply Hq].
    destruct p as [n|n|n w|n w], o as [st| |]; cbn [fst snd]; try (apply Hq; done).
    + apply Hq. by rewrite view_row.
    + apply Hq. rewrite view_finish, view_row; done.
    + apply Hq. rewrite view_finish, view_put, view_row; done.
    + assert (E : view (finish (n, None) (cluster_stopped n now (remove_routes n (release k s)))) = view (remove_routes n (release k s))).
      { by rewrite view_finish, view_stopped. }
      unfold view in E. injection E as E1 E2. eapply v_remove; eauto.
    + assert (E : view (finish (n, None) (cluster_stopped n now (remove_routes n (release k s)))) = view (remove_routes n (release k s))).
      { by rewrite view_finish, view_stopped. }
      unfold view in E. injection E as E1 E2. eapply v_remove; eauto.
    + apply Hq. by rewrite view_wk.
    + apply Hq. rewrite view_finish, view_wk. done.
    + apply Hq. rewrite view_finish, view_put, view_attr by done. rewrite view_wk. done.
    + apply Hq. rewrite view_finish, view_rest. unfold worker_stopped. rewrite view_wk. done.
    + apply Hq. rewrite view_finish, view_rest. unfold worker_stopped. rewrite view_wk. done.
  - destruct (down s); apply Hq; try done. simpl. unfold shutdown. destruct (stop_on_shutdown cf); simpl; [|done].
    match goal with |- view (set_down _ (fail_clusters ?l ?t)) = _ => change (view (fail_clusters l t) = view s); by rewrite view_fail_clusters end.
  - apply Hq. simpl. unfold close_queue. destruct (down s); [|done]. destruct (forallb _ _); done.
Qed.
