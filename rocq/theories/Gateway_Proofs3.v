(** The gateway properties, continued: the count of failed worker starts. *)
From Coq Require Import ZArith Lia.
From stdpp Require Import prelude gmap.
From Verif Require Import Trace WorkQueue_Model WorkQueue_Proofs Router_Model Gateway_Model Gateway_Spec Gateway_Inv
  Gateway_Steps Gateway_Steps2 Gateway_Steps3 Gateway_Steps4 Gateway_Sync Gateway_Restart Gateway_Acts Gateway_Track Gateway_Busy
  Gateway_Hist Gateway_Ops Gateway_Proofs Gateway_Proofs2.
Open Scope Z_scope.

(** A part of one cluster object that most updates leave alone. *)
Section part.
Context {A : Type} (π : cluster -> A) (n : nat).
Hypothesis Hπ : forall c c', c_fails c = c_fails c' -> c_target c = c_target c' -> π c = π c'.
Notation part s := (π <$> objs s !! n).

Lemma pt_obj m g s : (forall c, m = n -> objs s !! n = Some c -> π (g c) = π c) -> part (upd_obj m g s) = part s.
Proof.
  intros Hg. simpl. destruct (decide (m = n)) as [->|Hne]; [|rewrite lookup_alter_ne by done; done].
  rewrite lookup_alter. destruct (objs s !! n) eqn:E; [|done]. simpl. rewrite Hg by done. done.
Qed.
Lemma pt_attr m g s : (forall c, c_fails (g c) = c_fails c) -> (forall c, c_target (g c) = c_target c) -> part (upd_obj m g s) = part s.
Proof. intros H1 H2. apply pt_obj. auto. Qed.
Lemma pt_row m f s : (forall c, m = n -> objs s !! n = Some c -> π (cset_row (f (c_row c)) c) = π c) -> part (update_cluster m f s) = part s.
Proof.
  intros Hg. unfold update_cluster. destruct (objs s !! m) eqn:E; [|done]. change (part (upd_obj m (fun c0 => cset_row (f (c_row c0)) c0) s) = part s).
  apply pt_obj. done.
Qed.
Lemma pt_row' m f s : (forall r, r_target (f r) = r_target r) -> part (update_cluster m f s) = part s.
Proof. intros Hf. apply pt_row. intros c _ _. apply Hπ; [done|]. apply Hf. Qed.
Lemma pt_wk m w f s : part (update_worker m w f s) = part s.
Proof.
  unfold update_worker. destruct (get_worker m w s); [|done].
  match goal with |- π <$> objs (set_db_w _ (upd_obj m ?g s)) !! n = _ => change (part (upd_obj m g s) = part s) end.
  apply pt_obj. intros. apply Hπ; done.
Qed.
Lemma pt_wks m ws f s : part (update_workers m ws f s) = part s.
Proof. unfold update_workers. revert s. induction ws as [|w ws IH]; intros s; simpl; [done|]. rewrite IH. apply pt_wk. Qed.
Lemma pt_fold_wk (ws : list (nat * nat)) s : part (fold_left (fun s p => update_worker p.1 p.2 (wset_target FAILED) s) ws s) = part s.
Proof. revert s. induction ws as [|w ws IH]; intros s; simpl; [done|]. rewrite IH. apply pt_wk. Qed.
Lemma pt_puts xs s : part (qputs xs s) = part s. Proof. rewrite puts_objs. done. Qed.
Lemma pt_create_workers cf k m now s : part (create_workers cf k m now s) = part s.
Proof.
  revert s. induction k as [|k IH]; intros s; [done|]. cbn [create_workers]. destruct (create_worker cf m now s) as [w s1] eqn:E.
  rewrite IH. unfold create_worker in E. injection E as _ <-.
  match goal with |- π <$> objs (qput _ (upd_obj m ?g ?s2)) !! n = _ => change (part (upd_obj m g s2) = part s) end.
  rewrite pt_obj; [done|]. intros. apply Hπ; done.
Qed.
Lemma pt_proxied m s : part (check_proxied m s) = part s.
Proof. unfold check_proxied. destruct (objs s !! m); [|done]. destruct (c_proxied c); [done|]. rewrite pt_attr; done. Qed.
Lemma pt_closing cf m c s : part (cluster_to_closing cf m c s) = part s.
Proof.
  unfold cluster_to_closing. rewrite pt_attr by done. destruct (map w_name _) as [|w ws].
  - simpl. apply pt_row'. done.
  - rewrite pt_row' by done. rewrite pt_puts, pt_wks. done.
Qed.
Lemma pt_stopped m now s : part (cluster_stopped m now s) = part s.
Proof. unfold cluster_stopped. destruct (objs s !! m); [|done]. rewrite pt_attr, pt_row', pt_wks; done. Qed.
Lemma pt_rest cf m w s : part (worker_stopped_rest cf m w s) = part s.
Proof. unfold worker_stopped_rest. destruct (objs s !! m); [|done]. destruct (get_worker _ _ _); [|done]. destruct (ready_to_close _ _); [done|]. case_decide; done. Qed.
Lemma pt_finish x s : part (finish x s) = part s. Proof. done. Qed.
Lemma pt_purge cf now s : part (cleanup_expired cf now s) = part s.
Proof.
  unfold cleanup_expired. match goal with |- context [fold_left _ ?l ?s1] => assert (objs s1 = objs s) as E by done; revert E; generalize s1, l end.
  intros s1 l E. assert (objs (fold_left (fun s n => forget n s) l s1) = objs s1) as ->; [|rewrite E; done].
  clear E. revert s1. induction l as [|a l IH]; intros s1; simpl; [done|]. rewrite IH. unfold forget. destruct (objs s1 !! a); done.
Qed.
Lemma pt_worker cf k m w now s : part (reconcile_worker cf k m w now s).1 = part s.
Proof.
  unfold reconcile_worker. destruct (get_worker m w s); [|done]. destruct (jge _ _); [done|]. case_decide.
  - cbn [fst]. rewrite pt_finish. destruct (is_ready _ _ _); [change (part (if decide (w_status w0 = CLOSING) then s else update_worker m w (wset_status CLOSING) s) = part s)|];
      case_decide; try done; apply pt_wk.
  - case_decide.
    + destruct (jlt _ _); [done|]. cbn [fst]. rewrite pt_finish, pt_rest. apply pt_wk.
    + case_decide; done.
Qed.
End part.

(** * C31 *)
Lemma fails_ok c c' : c_fails c = c_fails c' -> c_target c = c_target c' -> c_fails c = c_fails c'. Proof. auto. Qed.
Definition ft (c : cluster) : nat * job := (c_fails c, c_target c).
Lemma ft_ok c c' : c_fails c = c_fails c' -> c_target c = c_target c' -> ft c = ft c'. Proof. unfold ft. congruence. Qed.
Notation fc s n := (c_fails <$> objs s !! n).
Lemma fc_row n m f s : fc (update_cluster m f s) n = fc s n. Proof. apply (pt_row c_fails). done. Qed.
Lemma fc_fail_clusters n ns s : fc (fail_clusters ns s) n = fc s n.
Proof. unfold fail_clusters. rewrite pt_puts. unfold update_clusters. revert s. induction ns as [|m ns IH]; intros s; simpl; [done|]. rewrite IH. apply fc_row. Qed.
Lemma fc_scale cf n m now s : fc (check_scale cf m now s) n = fc s n.
Proof. unfold check_scale. destruct (objs s !! m); [|done]. case_decide; [apply fc_row|]. apply (pt_create_workers c_fails); auto. Qed.
Lemma fc_cluster cf n k m now s : fc (reconcile_cluster cf k m now s).1 n = fc s n.
Proof.
  unfold reconcile_cluster. destruct (objs s !! m) as [c|] eqn:Hc; [|done]. destruct (jge _ _); [done|]. case_decide.
  - case_decide.
    + destruct (ready_to_close _ _); [|done]. destruct (jlt _ _); [done|]. cbn [fst]. rewrite pt_finish. apply (pt_stopped c_fails). auto.
    + cbn [fst]. rewrite pt_finish. apply (pt_closing c_fails). auto.
  - case_decide; [|done]. case_decide; [done|]. cbn [fst]. rewrite pt_finish. set (s1 := if decide _ then _ else s).
    assert (fc s1 n = fc s n) as E. { unfold s1. destruct (decide _); [|done]. rewrite (pt_attr c_fails); [|auto|done|done]. apply fc_row. }
    destruct (objs s1 !! m); [|done]. case_decide; [|done]. rewrite fc_scale, (pt_proxied c_fails); auto.
Qed.
Lemma fc_got cf n k now s r : fc (got cf k now s r).1 n = fc s n.
Proof.
  unfold got. destruct r as [q' [[j [x| | |]]|]]; try done. unfold reconcile. destruct (x.2); [rewrite (pt_worker c_fails)|rewrite fc_cluster]; auto.
Qed.
Lemma fc_wk n m w f s : fc (update_worker m w f s) n = fc s n. Proof. apply (pt_wk c_fails). auto. Qed.
Lemma fc_bump n m s : fc (upd_obj m (fun c => cset_fails (S (c_fails c)) c) s) n = (fun k => (k + (if decide (m = n) then 1 else 0))%nat) <$> fc s n.
Proof.
  simpl. case_decide as D.
  - subst. rewrite lookup_alter. destruct (objs s !! n); simpl; [f_equal; lia|done].
  - rewrite lookup_alter_ne by done. destruct (objs s !! n); simpl; [f_equal; lia|done].
Qed.
Lemma fc_bumps n (bad : list (nat * nat)) s :
  fc (fold_left (fun s (p : nat * nat) => qput (p.1, Some p.2) (upd_obj p.1 (fun c => cset_fails (S (c_fails c)) c) s)) bad s) n =
  (fun k => (k + length (List.filter (fun p : nat * nat => bool_decide (p.1 = n)) bad))%nat) <$> fc s n.
Proof.
  revert s. induction bad as [|p bad IH]; intros s; cbn [fold_left List.filter].
  - destruct (objs s !! n); simpl; [f_equal; lia|done].
  - rewrite IH. change (objs (qput ?x ?s)) with (objs s). rewrite fc_bump. destruct (fc s n); simpl; [|done]. f_equal.
    destruct (decide (p.1 = n)); [rewrite bool_decide_true by done|rewrite bool_decide_false by done]; simpl; lia.
Qed.
Lemma failed_of_count n (ws : list (nat * nat)) (oks : list bool) :
  length (List.filter (fun p : nat * nat => bool_decide (p.1 = n)) (failed_of ws oks)) =
  length (List.filter (fun p : nat * nat * bool => bool_decide (p.1.1 = n /\ p.2 = false)) (combine ws oks)).
Proof.
  unfold failed_of. revert oks. induction ws as [|w ws IH]; intros [|b oks]; simpl; try done. specialize (IH oks).
  destruct b; simpl; [rewrite bool_decide_false by (by intros [_ ?]); done|].
  destruct (decide (w.1 = n)); [rewrite !bool_decide_true by done|rewrite !bool_decide_false by tauto]; simpl; congruence.
Qed.
Lemma classify_run_iff m ws z : classify m ws = Some z ->
  (z_running z = [] <-> ~ exists x, x ∈ ws /\ starting x = true /\ (w_name x ∈ m_active m \/ w_name x ∈ m_closing m)).
Proof.
  revert z. induction ws as [|y ws IH]; intros z; simpl.
  - intros [= <-]. simpl. split; [|done]. intros _ (x & Hx & _). inversion Hx.
  - destruct (classify m ws) as [[cr su ta ru cl]|]; [|done]. simpl. specialize (IH _ eq_refl). simpl in IH. intros Hz.
    assert (forall l : list nat, (l = [] <-> ru = []) -> ~ (starting y = true /\ (w_name y ∈ m_active m \/ w_name y ∈ m_closing m)) ->
       (l = [] <-> ~ exists x, x ∈ y :: ws /\ starting x = true /\ (w_name x ∈ m_active m \/ w_name x ∈ m_closing m))) as Hno.
    { intros l Hl Hy. rewrite Hl, IH. split; intros Hn (x & Hx & Hr); apply Hn; [apply elem_of_cons in Hx as [->|Hx]; [done|eauto]|exists x; split; [by right|done]]. }
    assert (forall (a : nat) (l : list nat), starting y = true /\ (w_name y ∈ m_active m \/ w_name y ∈ m_closing m) ->
       (a :: l = [] <-> ~ exists x, x ∈ y :: ws /\ starting x = true /\ (w_name x ∈ m_active m \/ w_name x ∈ m_closing m))) as Hyes.
    { intros a l Hy. split; [done|]. intros Hn. exfalso. apply Hn. exists y. split; [by left|done]. }
    assert (starting y = jlt (w_status y) RUNNING) as Est by (unfold starting; destruct (w_status y); done).
    destruct (jge (w_status y) STOPPED) eqn:Hf.
    { injection Hz as <-. apply Hno; [done|]. rewrite Est. destruct (w_status y); done || (intros [? _]; done). }
    destruct (decide (w_name y ∈ m_closing m)).
    { injection Hz as <-. simpl. destruct (jlt (w_status y) RUNNING) eqn:E; [apply Hyes; auto|apply Hno; [done|]]. rewrite Est. intros [? _]; done. }
    destruct (decide (w_name y ∈ m_active m)).
    { injection Hz as <-. simpl. destruct (jlt (w_status y) RUNNING) eqn:E; [apply Hyes; auto|apply Hno; [done|]]. rewrite Est. intros [? _]; done. }
    assert (~ (starting y = true /\ (w_name y ∈ m_active m \/ w_name y ∈ m_closing m))) as Hy by tauto.
    destruct (decide (w_name y ∈ m_closed m)); [|destruct (decide (w_status y = SUBMITTED)); [|destruct (decide (w_status y = CREATED))]];
      try discriminate Hz; injection Hz as <-; simpl; apply Hno; done.
Qed.
Lemma fc_targets n m ts s : fc (set_targets m ts s) n = fc s n.
Proof. unfold set_targets. revert s. induction ts as [|t ts IH]; intros s; simpl; [done|]. rewrite IH. apply fc_wk. Qed.
Lemma fc_wks n m ws f s : fc (update_workers m ws f s) n = fc s n. Proof. apply (pt_wks c_fails). auto. Qed.
Lemma hb_other n m msg now s : m <> n -> fc (heartbeat m msg now s).1 n = fc s n.
Proof.
  intros Hne. unfold heartbeat. destruct (lookup_cluster m s) as [c|]; [|done]. destruct (jlt _ _); [done|].
  assert (fc (upd_obj m (cset_hb (Some now)) s) n = fc s n) as E1 by (apply (pt_attr c_fails); auto).
  destruct (classify _ _) as [z|]; [|done]. cbn [fst]. rewrite fc_wks.
  match goal with |- context [set_targets m ?ts ?x] => set (s2 := x); set (ta := ts) end.
  assert (fc s2 n = fc s n) as E2. { unfold s2. destruct (_ || _); [|done]. change (objs (qput ?x ?y)) with (objs y). rewrite fc_row. done. }
  set (s3 := qputs _ (set_targets m ta s2)).
  assert (fc s3 n = fc s n) as E3 by (unfold s3; rewrite pt_puts, fc_targets; done).
  destruct (z_running z) as [|w ws]; [done|]. rewrite fc_wks, (pt_obj c_fails); [done|]. done.
Qed.
Lemma fail_count cf h s e s' o n c c' : ids_ok cf h -> reach cf h s -> crash e = false -> step cf s e = (s', o) ->
  objs s !! n = Some c -> objs s' !! n = Some c' ->
  (connects s e n -> OAssertion ∉ o -> c_fails c' = 0%nat) /\
  (~ connects s e n -> c_fails c' = (c_fails c + start_failures s e n)%nat).
Proof.
  intros Hid Hr Hcr Hs Hc Hc'.
  assert (fc s n = Some (c_fails c)) as F by (rewrite Hc; done). assert (fc s' n = Some (c_fails c')) as F' by (rewrite Hc'; done).
  assert ((exists m t, e = EHeartbeat n m t) \/ (~ connects s e n /\ fc s' n = Some (c_fails c + start_failures s e n)%nat)) as [(m & t & ->)|[H1 H2]].
  3:{ split; [intros X; exfalso; exact (H1 X)|]. intros _. rewrite F' in H2. injection H2 as ->. done. }
  { clear F' Hc'. assert (s' = (step cf s e).1) as -> by (rewrite Hs; done). clear Hs.
    assert (forall k, Some (k + 0)%nat = Some k) as P0 by (intros; f_equal; lia).
    destruct e; try done; try (right; split; [by intros (? & ? & ? & ? & ? & _)|]); cbn [step start_failures]; rewrite ?P0, <- ?F.
    - unfold start_cluster, create_cluster. cbn -[alloc_c]. rewrite lookup_insert_ne; [done|]. intros E. pose proof (proj1 (g_fresh _ _ _ _ (reach_Inv cf h s Hid Hr) _ _ Hc)). lia.
    - unfold stop_cluster. destruct (lookup_cluster n0 s); [|done]. destruct (jge _ _); [apply fc_row|done].
    - destruct (decide (n0 = n)) as [->|Hne]; [left; eauto|]. right. split; [intros (? & ? & ? & ? & [= -> -> ->] & _); done|].
      apply hb_other. done.
    - destruct (down s); [done|]. unfold check_timeouts. destruct (find_late _ _ _) as [[cs ws]|]; [|done]. cbn [fst].
      unfold fail_workers. rewrite pt_puts, (pt_fold_wk c_fails) by auto. apply fc_fail_clusters.
    - destruct (down s); [done|]. destruct (chk_c s); done.
    - destruct oks; [|done]. cbn [fst]. unfold check_clusters_end. destruct (chk_c s); [|done]. rewrite fc_fail_clusters. done.
    - destruct (down s); [done|]. destruct (chk_w s); done.
    - destruct oks as [oks|]; [|rewrite P0, <- F; done]. cbn [fst]. unfold check_workers_end. destruct (chk_w s) as [ws|]; [|rewrite P0, <- F; done].
      rewrite fc_bumps, (pt_fold_wk c_fails) by auto. change (objs (set_chk_w None s)) with (objs s). rewrite F. cbn [fmap option_fmap option_map]. rewrite failed_of_count. done.
    - destruct (down s); [done|]. cbn [fst]. rewrite pt_purge. done.
    - case_decide; [|done]. destruct (busy s !! k); [done|]. destruct (tasks (q s) !! k); [done|]. apply fc_got.
    - apply fc_got.
    - unfold resume. destruct (busy s !! k) as [p|] eqn:Hb; [|destruct o0; rewrite P0, <- F; done].
      destruct p, o0; cbn [fst]; rewrite ?P0, <- ?F; rewrite ?pt_finish; change (objs (qput ?x ?y)) with (objs y); rewrite ?fc_row, ?fc_wk; try done.
      + rewrite (pt_stopped c_fails) by auto. done.
      + rewrite (pt_stopped c_fails) by auto. done.
      + rewrite fc_bump, fc_wk. change (objs (release k s)) with (objs s). rewrite F. done.
      + rewrite (pt_rest c_fails) by auto. unfold worker_stopped. rewrite fc_wk. done.
      + rewrite (pt_rest c_fails) by auto. unfold worker_stopped. rewrite fc_wk. done.
    - destruct (down s); [done|]. cbn [fst]. unfold shutdown. destruct (stop_on_shutdown cf); [|done]. cbn [fst]. change (objs (set_down ?x ?y)) with (objs y). rewrite fc_fail_clusters. done.
    - unfold close_queue. destruct (down s); [|done]. destruct (forallb _ _); done. }
  simpl in Hs. change (start_failures s (EHeartbeat n m t) n) with 0%nat. rewrite Nat.add_0_r. destruct (lookup_cluster n s) as [d|] eqn:Hl.
  2:{ unfold heartbeat in Hs. rewrite Hl in Hs. injection Hs as <- <-. split; [|congruence].
      intros (? & ? & d & ? & _ & H & _). congruence. }
  pose proof (lookup_obj _ _ _ Hl) as [Hd _]. assert (d = c) as -> by congruence.
  destruct (jlt RUNNING (c_target c)) eqn:Ht.
  { unfold heartbeat in Hs. rewrite Hl, Ht in Hs. injection Hs as <- <-. split; [|congruence].
    intros (? & ? & d & ? & _ & H & E & _). assert (d = c) as -> by congruence. rewrite E in Ht. done. }
  assert (c_target c = RUNNING) as Etg by (destruct (reach_tgt _ _ _ _ _ Hid Hr Hc) as [?|[E|E]]; [done|rewrite E in Ht; done..]).
  assert (connects s (EHeartbeat n m t) n <-> exists x, x ∈ c_workers c /\ starting x = true /\ (w_name x ∈ m_active m \/ w_name x ∈ m_closing m)) as Hcon.
  { split.
    - intros (m' & t' & d & x & [= <- <-] & H & _ & Hx). assert (d = c) as -> by congruence. eauto.
    - intros (x & Hx). exists m, t, c, x. done. }
  rewrite Hcon. destruct (classify m (c_workers c)) as [z|] eqn:Hz.
  2:{ unfold heartbeat in Hs. rewrite Hl, Ht, Hz in Hs. injection Hs as <- <-. split; [intros _ H; exfalso; apply H; by left|].
      intros _. simpl in Hc'. rewrite lookup_alter, Hc in Hc'. injection Hc' as <-. done. }
  destruct (heartbeat_effect n m t s s' o c Hl Ht Hs) as (z' & c'' & Hz' & Ho & Hc'' & _ & _ & _ & _ & Ef & _).
  { unfold heartbeat in Hs. rewrite Hl, Ht, Hz in Hs. destruct (z_running z); injection Hs as _ <-; intros H; inversion H. }
  assert (c'' = c') as -> by congruence. assert (z' = z) as -> by congruence. pose proof (classify_run_iff _ _ _ Hz) as Hiff.
  destruct (z_running z) as [|w ws].
  - split; [|done]. intros H. exfalso. by apply (proj1 Hiff).
  - split; [done|]. intros H. apply Hiff in H. done.
Qed.
Notation ftp s n := (ft <$> objs s !! n).
Lemma scale_target cf m now s n : ftp (check_scale cf m now s) n =
  (fun p : nat * job => if decide (m = n /\ fail_limit cf <= p.1)%nat then (p.1, FAILED) else p) <$> ftp s n.
Proof.
  unfold check_scale. destruct (objs s !! m) as [c|] eqn:Hm.
  - case_decide as D.
    + change (objs (qput ?x ?y)) with (objs y). destruct (decide (m = n)) as [->|Hne].
      * rewrite (row_upd s n _ c Hm), lookup_insert, Hm. simpl. unfold ft at 2. simpl. rewrite decide_True by done. done.
      * rewrite (pt_row ft) by done. destruct (objs s !! n); simpl; [|done]. rewrite decide_False by (by intros [? _]). done.
    + rewrite (pt_create_workers ft) by apply ft_ok. destruct (decide (m = n)) as [->|Hne].
      * rewrite Hm. simpl. rewrite decide_False by (by intros [_ ?]). done.
      * destruct (objs s !! n); simpl; [|done]. rewrite decide_False by (by intros [? _]). done.
  - destruct (objs s !! n) eqn:Hn; simpl; [|done]. rewrite decide_False; [done|]. intros [-> _]. congruence.
Qed.
Lemma cluster_target cf k m now s n c : objs s !! n = Some c -> exists c', objs (reconcile_cluster cf k m now s).1 !! n = Some c' /\
  (c_target c' = c_target c \/ m = n /\ c_target c' = FAILED /\ (fail_limit cf <= c_fails c)%nat).
Proof.
  intros Hc. assert (forall s', ftp s' n = ftp s n -> exists c', objs s' !! n = Some c' /\
     (c_target c' = c_target c \/ m = n /\ c_target c' = FAILED /\ (fail_limit cf <= c_fails c)%nat)) as Hsame.
  { intros s' E. rewrite Hc in E. destruct (objs s' !! n) as [c'|]; [|done]. injection E as E1 E2. eauto. }
  unfold reconcile_cluster. destruct (objs s !! m) as [d|] eqn:Hm; [|apply Hsame; done]. destruct (jge _ _); [apply Hsame; done|]. case_decide.
  - case_decide.
    + destruct (ready_to_close _ _); [|apply Hsame; done]. destruct (jlt _ _); [apply Hsame; done|]. cbn [fst]. apply Hsame. rewrite pt_finish. apply (pt_stopped ft), ft_ok.
    + cbn [fst]. apply Hsame. rewrite pt_finish. apply (pt_closing ft), ft_ok.
  - case_decide; [|apply Hsame; done]. case_decide; [apply Hsame; done|]. cbn [fst]. set (s1 := if decide _ then _ else s).
    assert (ftp s1 n = ftp s n) as E. { unfold s1. destruct (decide _); [|done]. rewrite (pt_attr ft); [|apply ft_ok|done|done]. apply (pt_row' ft); [apply ft_ok|done]. }
    destruct (objs s1 !! m); [|apply Hsame; done]. case_decide; [|apply Hsame; done].
    assert (ftp (check_proxied m s1) n = ftp s n) as E2 by (rewrite (pt_proxied ft); [done|apply ft_ok]).
    pose proof (scale_target cf m now (check_proxied m s1) n) as E3. rewrite E2, Hc in E3. cbn [fmap option_fmap option_map] in E3.
    change (objs (finish ?x ?y)) with (objs y). destruct (objs (check_scale _ _ _ _) !! n) as [c'|]; [|done]. exists c'. split; [done|].
    injection E3 as E3. change (ft c).1 with (c_fails c) in E3. case_decide as D; [right|left].
    + injection E3 as _ E3. destruct D. done.
    + injection E3 as _ E3. done.
Qed.
Lemma limit_reached cf h s e s' o n c : ids_ok cf h -> reach cf h s -> takes cf s e (n, None) -> step cf s e = (s', o) ->
  lookup_cluster n s = Some c -> c_status c = RUNNING -> c_target c = RUNNING ->
  exists c', objs s' !! n = Some c' /\ c_target c' = if decide (fail_limit cf <= c_fails c)%nat then FAILED else RUNNING.
Proof.
  intros Hid Hr Ht Hs [Hc _]%lookup_obj Hst Htg.
  assert (exists k now q', s' = (reconcile_cluster cf k n now (set_q q' s)).1) as (k & now & q' & ->).
  { destruct Ht as (k & now & q' & [(-> & Hk & Hb & Hq & Hw)|(-> & Hw)]); exists k, now, q'; cbn [step] in Hs.
    - rewrite decide_True, Hb, Hq, Hw in Hs by done. cbn in Hs. rewrite Hs. done.
    - rewrite Hw in Hs. cbn in Hs. rewrite Hs. done. }
  clear Hs. unfold reconcile_cluster. change (objs (set_q q' s)) with (objs s). rewrite Hc.
  destruct (jge (c_status c) STOPPED) eqn:E; [rewrite Hst in E; done|]. rewrite decide_False by (rewrite Htg; by intros [?|?]).
  rewrite decide_True by done. rewrite decide_False by (rewrite Hst; done). rewrite decide_False by (rewrite Hst; by intros [? _]).
  cbn [fst]. change (objs (set_q q' s)) with (objs s). rewrite Hc. rewrite decide_True by done.
  pose proof (scale_target cf n now (check_proxied n (set_q q' s)) n) as E3.
  rewrite (pt_proxied ft) in E3 by apply ft_ok. change (objs (set_q q' s)) with (objs s) in E3. rewrite Hc in E3. cbn [fmap option_fmap option_map] in E3.
  change (objs (finish ?x ?y)) with (objs y). destruct (objs (check_scale _ _ _ _) !! n) as [c'|]; [|done]. exists c'. split; [done|].
  injection E3 as E3. change (ft c).1 with (c_fails c) in E3. destruct (decide (fail_limit cf <= c_fails c)%nat) as [D|D].
  - rewrite decide_True in E3 by done. injection E3 as _ E3. done.
  - rewrite decide_False in E3 by (by intros [_ ?]). injection E3 as _ E3. congruence.
Qed.
Lemma limit_only cf h s e s' o n c c' : ids_ok cf h -> reach cf h s -> own_work e = true -> step cf s e = (s', o) ->
  objs s !! n = Some c -> objs s' !! n = Some c' -> c_target c' <> c_target c ->
  c_target c' = FAILED /\ ((takes cf s e (n, None) /\ (fail_limit cf <= c_fails c)%nat) \/ exists k now, e = EBackend k Raises now /\ busy s !! k = Some (InStartCluster n)).
Proof.
  intros Hid Hr Ho Hs Hc Hc' Hne.
  assert (c_target <$> objs s' !! n = c_target <$> objs s !! n -> False) as Hdiff. { rewrite Hc, Hc'. intros [= E]. done. }
  assert (forall c c', c_fails c = c_fails c' -> c_target c = c_target c' -> c_target c = c_target c') as tok by auto.
  assert (forall k now r, s' = (got cf k now s r).1 -> (forall q' x, r = (q', Some (Returned k (Item x))) -> takes cf s e x) -> (forall q' j x, r = (q', Some (Returned j x)) -> j = k) ->
     c_target c' = FAILED /\ (takes cf s e (n, None) /\ (fail_limit cf <= c_fails c)%nat)) as Hgot.
  { intros k now r -> Htk Hj. unfold got in *. destruct r as [q' [[j [x| | |]]|]]; try (exfalso; apply Hdiff; done).
    rewrite (Hj _ _ _ eq_refl) in *. specialize (Htk _ _ eq_refl).
    unfold reconcile in *. destruct x as [m [w|]]; cbn [fst snd] in *.
    - exfalso. apply Hdiff. rewrite (pt_worker c_target) by apply tok. done.
    - destruct (cluster_target cf k m now (set_q q' s) n c Hc) as (d & Hd & [E|(-> & E1 & E2)]); [congruence|]. assert (d = c') as -> by congruence. done. }
  destruct e; try done; cbn [step] in Hs.
  - case_decide as Hk; [|exfalso; apply Hdiff; injection Hs as <- <-; done].
    destruct (busy s !! k) eqn:Hb; [exfalso; apply Hdiff; injection Hs as <- <-; done|].
    destruct (tasks (q s) !! k) eqn:Hq; [exfalso; apply Hdiff; injection Hs as <- <-; done|].
    destruct (Hgot k now (WorkQueue_Model.step (q s) (WorkQueue_Model.EGet k))) as [H1 H2]; [rewrite Hs; done| | |auto].
    + intros q' x E. exists k, now, q'. auto 6.
    + intros q' j x. simpl. rewrite Hq. unfold as_out. destruct (get_turn _ _) as [? [?|]]; intros [=]; done.
  - destruct (Hgot k now (WorkQueue_Model.step (q s) (WorkQueue_Model.EResume k))) as [H1 H2]; [rewrite Hs; done| | |auto].
    + intros q' x E. exists k, now, q'. auto 6.
    + intros q' j x. simpl. unfold as_out. destruct (tasks (q s) !! k) as [[]|]; try done; [|by intros [=]]. destruct (get_turn _ _) as [? [?|]]; intros [=]; done.
  - unfold resume in Hs. destruct (busy s !! k) as [p|] eqn:Hb; [|exfalso; apply Hdiff; injection Hs as <- <-; done].
    destruct p, o0; injection Hs as <- <-;
      try (exfalso; apply Hdiff; rewrite ?pt_finish; rewrite ?(pt_row' c_target), ?(pt_wk c_target), ?(pt_stopped c_target), ?(pt_rest c_target) by (apply tok || done); done).
    + destruct (decide (n0 = n)) as [->|Hn].
      * change (objs (update_cluster n (fun r => rset_target FAILED (rset_status SUBMITTED r)) (release k s)) !! n = Some c') in Hc'. rewrite (row_upd (release k s) n _ c Hc), lookup_insert in Hc'. injection Hc' as <-. split; [done|]. right. eauto.
      * exfalso. apply Hdiff. change (objs (finish ?x ?y)) with (objs y). change (objs (qput ?x ?y)) with (objs y). etransitivity; [apply (pt_row c_target); done|done].
    + exfalso. apply Hdiff. change (objs (finish ?x ?y)) with (objs y). change (objs (qput ?x ?y)) with (objs y). rewrite (pt_obj c_target); [|done]. etransitivity; [apply (pt_wk c_target), tok|done].
    + exfalso. apply Hdiff. rewrite pt_finish, (pt_rest c_target) by apply tok. etransitivity; [apply (pt_wk c_target), tok|done].
    + exfalso. apply Hdiff. rewrite pt_finish, (pt_rest c_target) by apply tok. etransitivity; [apply (pt_wk c_target), tok|done].
Qed.

(** * C22: not too many, over a history *)
Lemma oth_wk n m w f s : m <> n -> objs (update_worker m w f s) !! n = objs s !! n.
Proof. intros Hne. unfold update_worker. destruct (get_worker m w s); [|done]. simpl. apply lookup_alter_ne. done. Qed.
Lemma oth_wks n m ws f s : m <> n -> objs (update_workers m ws f s) !! n = objs s !! n.
Proof. intros Hne. unfold update_workers. revert s. induction ws as [|w ws IH]; intros s; simpl; [done|]. rewrite IH. by apply oth_wk. Qed.
Lemma oth_targets n m ts s : m <> n -> objs (set_targets m ts s) !! n = objs s !! n.
Proof. intros Hne. unfold set_targets. revert s. induction ts as [|t ts IH]; intros s; simpl; [done|]. rewrite IH. by apply oth_wk. Qed.
Lemma oth_row n m f s : m <> n -> objs (update_cluster m f s) !! n = objs s !! n.
Proof. intros Hne. unfold update_cluster. destruct (objs s !! m); [|done]. simpl. apply lookup_alter_ne. done. Qed.
Lemma hb_elsewhere n m msg now s : m <> n -> objs (heartbeat m msg now s).1 !! n = objs s !! n.
Proof.
  intros Hne. unfold heartbeat. destruct (lookup_cluster m s) as [c|]; [|done]. destruct (jlt _ _); [done|].
  assert (objs (upd_obj m (cset_hb (Some now)) s) !! n = objs s !! n) as E1 by (simpl; by apply lookup_alter_ne).
  destruct (classify _ _) as [z|]; [|done]. cbn [fst]. rewrite oth_wks by done.
  match goal with |- context [set_targets m ?ts ?x] => set (s2 := x); set (ta := ts) end.
  assert (objs s2 !! n = objs s !! n) as E2. { unfold s2. destruct (_ || _); [|done]. change (objs (qput ?x ?y)) with (objs y). rewrite oth_row by done. done. }
  set (s3 := qputs _ (set_targets m ta s2)).
  assert (objs s3 !! n = objs s !! n) as E3 by (unfold s3; rewrite puts_objs, oth_targets by done; done).
  destruct (z_running z) as [|w ws]; [done|]. rewrite oth_wks by done. simpl. rewrite lookup_alter_ne by done. done.
Qed.
Definition n_wanted (c : cluster) : Z := Z.of_nat (length (List.filter wanted (c_workers c))).
Lemma filter_split {A} (p r : A -> bool) (l : list A) :
  (length (List.filter p l) <= length (List.filter (fun x => p x && r x) l) + length (List.filter (fun x => negb (r x)) l))%nat.
Proof. induction l as [|x l IH]; simpl; [done|]. destruct (p x), (r x); simpl; lia. Qed.
Lemma heartbeat_wanted cf h s n m now s' o c c' : ids_ok cf h -> reach cf h s -> lookup_cluster n s = Some c -> c_target c = RUNNING ->
  step cf s (EHeartbeat n m now) = (s', o) -> OAssertion ∉ o -> objs s' !! n = Some c' ->
  n_wanted c' <= Z.max (r_count (c_row c')) (Z.of_nat (size (list_to_set (m_active m) : gset nat))) + Z.of_nat (size (list_to_set (m_closing m) : gset nat)).
Proof.
  intros Hid Hr Hl Ht Hs Ho Hc'. destruct (heartbeat_bound cf h s n m now s' o c c' Hid Hr Hl Ht Hs Ho Hc') as [_ Hb].
  unfold n_wanted. pose proof (filter_split wanted (unreported m) (c_workers c')) as Hsp.
  assert (length (List.filter (fun x => negb (unreported m x)) (c_workers c')) <= size (list_to_set (m_active m) : gset nat) + size (list_to_set (m_closing m) : gset nat))%nat as Hle.
  { assert (NoDup (names c')) as N'.
    { assert (reach cf (h ++ [(EHeartbeat n m now, o)]) s') as Hr' by (apply exec_app; exists s; split; [done|]; econstructor; [exact Hs|constructor]).
      assert (ids_ok cf (h ++ [(EHeartbeat n m now, o)])) as Hid'.
      { destruct Hid as [?|Hol]; [by left|right]. intros a b [Hab|[[= -> ->]|Hab]%elem_of_cons]%elem_of_app; [eauto|done|inversion Hab]. }
      exact (k_nodup _ _ _ _ _ _ (reach_cok _ _ _ _ _ Hid' Hr' Hc')). }
    etrans; [|apply Nat.add_le_mono; reflexivity]. rewrite <- (map_length w_name).
    set (L := map w_name _).
    assert (NoDup L) as NL.
    { unfold L. unfold names in N'. revert N'. generalize (c_workers c'). intros l. induction l as [|y l IH]; simpl; intros HN; [constructor|].
      apply NoDup_cons in HN as [Hn HN]. destruct (negb _); [|auto]. simpl. constructor; [|auto].
      intros (y' & E & Hy')%elem_of_list_fmap. apply Hn. rewrite E. apply elem_of_list_fmap. exists y'. split; [done|].
      apply elem_of_list_In, filter_In in Hy' as [Hy' _]. apply elem_of_list_In. done. }
    rewrite <- (size_list_to_set (C := gset nat) L) by done.
    assert ((list_to_set L : gset nat) ⊆ list_to_set (m_active m) ∪ list_to_set (m_closing m)) as Hsub.
    { intros w. rewrite elem_of_list_to_set, elem_of_union, !elem_of_list_to_set. unfold L. intros (x & -> & Hx)%elem_of_list_fmap.
      apply elem_of_list_In, filter_In in Hx as [_ Hx]. apply negb_true_iff, bool_decide_eq_false in Hx.
      destruct (decide (w_name x ∈ m_active m)); [auto|]. destruct (decide (w_name x ∈ m_closing m)); [auto|]. tauto. }
    apply subseteq_size in Hsub. etrans; [exact Hsub|]. rewrite size_union_alt. apply Nat.add_le_mono_l, subseteq_size. intros w [? _]%elem_of_difference. done. }
  lia.
Qed.
Lemma wanted_bound cf h1 s1 n m now s1' o h2 s2 c1 c2 : ids_ok cf (h1 ++ (EHeartbeat n m now, o) :: h2) -> reach cf h1 s1 ->
  lookup_cluster n s1 = Some c1 -> c_target c1 = RUNNING -> step cf s1 (EHeartbeat n m now) = (s1', o) -> OAssertion ∉ o ->
  leads cf s1' h2 s2 -> no_heartbeat n h2 -> objs s2 !! n = Some c2 ->
  r_count (c_row c2) = (match r_max (c_row c1) with Some mx => Z.min mx (m_count m) | None => m_count m end) /\
  n_wanted c2 <= Z.max (r_count (c_row c2)) (Z.of_nat (size (list_to_set (m_active m) : gset nat))) + Z.of_nat (size (list_to_set (m_closing m) : gset nat)).
Proof.
  intros Hid Hr Hl Ht Hs Ho. revert s2 c2 Hid. induction h2 as [|[e oo] h2 IH] using rev_ind; intros s' c' Hid Hx Hno Hc'.
  - inversion Hx; subst. pose proof (proj1 (ids_ok_app _ _ _ Hid)) as Hid1.
    pose proof (heartbeat_wanted cf h1 s1 n m now s' o c1 c' Hid1 Hr Hl Ht Hs Ho Hc').
    pose proof (heartbeat_bound cf h1 s1 n m now s' o c1 c' Hid1 Hr Hl Ht Hs Ho Hc') as [E _]. done.
  - rewrite app_comm_cons, app_assoc in Hid. apply exec_snoc_inv in Hx as (s & Hx & Hs2). pose proof (proj1 (ids_ok_app _ _ _ Hid)) as Hid1.
    assert (no_heartbeat n h2) as Hno2 by (intros m' t' o' Hin; apply (Hno m' t' o'), elem_of_app; auto).
    assert (reach cf (h1 ++ (EHeartbeat n m now, o) :: h2) s) as Hrs.
    { apply exec_app. exists s1. split; [exact Hr|]. econstructor; [exact Hs|exact Hx]. }
    pose proof (proj1 (ids_ok_app _ _ _ Hid1)) as Hid0.
    assert (exists c, objs s !! n = Some c) as (c & Hc).
    { pose proof (reach_GInv _ _ _ Hid0 Hr) as HG. pose proof (lookup_obj _ _ _ Hl) as [H1 _].
      destruct (g_fresh _ _ _ _ (proj1 HG) _ _ H1) as [Hn _].
      pose proof (reach_GInv _ _ _ Hid1 Hrs) as HG2. pose proof (proj2 (ids_ok_app _ _ _ Hid)) as Hide.
      assert (leads cf s1 ((EHeartbeat n m now, o) :: h2) s) as HX by (econstructor; [exact Hs|exact Hx]).
      pose proof (proj2 (ids_ok_app _ _ _ Hid1)) as Hid3.
      destruct (leads_Later cf s1 _ s Hid3 HG HX) as [Hu _].
      assert (leads cf s [(e, oo)] s') as HY by (econstructor; [exact Hs2|constructor]).
      destruct (leads_Later cf s _ s' Hide HG2 HY) as [_ HL]. destruct (HL n c') as (d & Hd & _); [lia|done|eauto]. }
    destruct (IH s c Hid1 Hx Hno2 Hc) as [E1 E2].
    destruct (is_hb e) eqn:He.
    + destruct e; try done. destruct (decide (n0 = n)) as [->|Hne].
      * exfalso. eapply Hno, elem_of_app. right. by left.
      * simpl in Hs2. pose proof (hb_elsewhere n n0 m0 now0 s Hne) as E. rewrite Hs2 in E. simpl in E. rewrite Hc, Hc' in E. injection E as ->. done.
    + destruct (scale_bound cf _ s e s' oo n c c' Hid Hrs He Hs2 Hc Hc') as [F1 F2]. rewrite F1. split; [done|]. unfold n_wanted in *. lia.
Qed.

(** * Concrete runs *)
Lemma ex_run cf evs (P : list (event * list obs) -> gw -> Prop) :
  (let '(s, h) := run (step cf) (gw_init cf) evs in P h s) -> exists h s, reach cf h s /\ map fst h = evs /\ P h s.
Proof.
  destruct (run (step cf) (gw_init cf) evs) as [s h] eqn:E. intros HP. exists h, s. pose proof (run_exec _ _ _ _ _ E) as Hx. split; [exact Hx|]. split; [|done].
  clear HP Hx. revert E. generalize (gw_init cf). revert s h. induction evs as [|e evs IH]; intros s h s0 E; simpl in E; [by injection E as <- <-|].
  destruct (step cf s0 e) as [s1 o]. destruct (run (step cf) s1 evs) as [s2 h2] eqn:E2. injection E as <- <-. simpl. f_equal. eapply IH; eauto.
Qed.
Lemma ex_life evs (h : list (event * list obs)) : map fst h = evs -> forallb (fun e => negb (crash e)) evs = true -> one_life h.
Proof.
  intros <- Hb e o Hin. rewrite forallb_forall in Hb. apply negb_true_iff, Hb. apply elem_of_list_In, elem_of_list_fmap. exists (e, o). done.
Qed.
(** A run in two parts. *)
Lemma ex_run2 cf evs1 evs2 (P : list (event * list obs) -> gw -> list (event * list obs) -> gw -> Prop) :
  (let '(s1, h1) := run (step cf) (gw_init cf) evs1 in let '(s2, h2) := run (step cf) s1 evs2 in P h1 s1 h2 s2) ->
  exists h1 s1 h2 s2, reach cf h1 s1 /\ leads cf s1 h2 s2 /\ P h1 s1 h2 s2.
Proof.
  destruct (run (step cf) (gw_init cf) evs1) as [s1 h1] eqn:E1. destruct (run (step cf) s1 evs2) as [s2 h2] eqn:E2. intros HP. exists h1, s1, h2, s2.
  split; [exact (run_exec _ _ _ _ _ E1)|]. split; [exact (run_exec _ _ _ _ _ E2)|]. done.
Qed.
(** A computed state is idle. *)
Ltac ex_idle := split; [reflexivity|apply gmap_eq, pmap.Pmap_eq; reflexivity].
Lemma ex_remembers (h : list (event * list obs)) n m :
  forallb (fun e => match e with EHeartbeat n' m0 _ => negb (Nat.eqb n' n) ||
    forallb (fun w => bool_decide (w ∈ m_active m ++ m_closing m ++ m_closed m)) (m_active m0 ++ m_closing m0) | _ => true end) (map fst h) = true ->
  remembers h n m.
Proof.
  intros Hb m0 now o w Hin Hw. rewrite forallb_forall in Hb. specialize (Hb (EHeartbeat n m0 now)). cbn beta iota in Hb. rewrite Nat.eqb_refl in Hb. simpl in Hb.
  rewrite forallb_forall in Hb. rewrite <- !elem_of_app. apply (bool_decide_eq_true (w ∈ m_active m ++ m_closing m ++ m_closed m)), Hb.
  - apply elem_of_list_In, elem_of_list_fmap. exists (EHeartbeat n m0 now, o). done.
  - apply elem_of_list_In, elem_of_app. done.
Qed.
