(** More liveness: a cluster whose scheduler is up runs, with its routes and
    enough workers; the wait of a shutdown comes to an end. *)
From Coq Require Import ZArith Lia Arith.Cantor.
From stdpp Require Import prelude gmap.
From Verif Require Import Trace WorkQueue_Model WorkQueue_Proofs Router_Model Gateway_Model Gateway_Inv
  Gateway_Steps Gateway_Steps2 Gateway_Steps3 Gateway_Steps4 Gateway_Busy Gateway_Acts Gateway_Track Gateway_Hist Gateway_Ops
  Gateway_Proofs Gateway_Proofs2 Gateway_Spec Gateway_Queue Gateway_Spec3 Gateway_Live.
Open Scope Z_scope.
Coercion endless_ongoing : endless >-> ongoing.

(** * What every function keeps: addresses do not get empty, and [down] *)
Definition addr (c : cluster) : bool := negb (bool_decide (r_sched (c_row c) = [])).
Section keep.
Context (N : nat -> Prop).
Record keep (s s' : gw) : Prop := {
  kp_down : down s' = down s;
  kp_addr : forall n c, N n -> objs s !! n = Some c -> addr c = true -> exists c', objs s' !! n = Some c' /\ addr c' = true }.
Lemma keep_refl s : keep s s. Proof. split; [done|]. eauto. Qed.
Lemma keep_same s s' : objs s' = objs s -> down s' = down s -> keep s s'. Proof. intros H1 H2. split; [done|]. rewrite H1. eauto. Qed.
Lemma keep_trans s1 s2 s3 : keep s1 s2 -> keep s2 s3 -> keep s1 s3.
Proof.
  intros [H1 H2] [H3 H4]. split; [congruence|]. intros n c HN Hn Ha. destruct (H2 n c HN Hn Ha) as (c' & Hc' & Ha'). eauto.
Qed.
Lemma keep_attr n g s : (N n -> forall c, addr c = true -> addr (g c) = true) -> keep s (upd_obj n g s).
Proof.
  intros Hg. split; [done|]. intros m c HN Hm Ha. simpl. destruct (decide (n = m)) as [->|Hne].
  - rewrite lookup_alter, Hm. simpl. eauto.
  - rewrite lookup_alter_ne by done. eauto.
Qed.
Lemma keep_row n f s : (N n -> forall r, r_sched r <> [] -> r_sched (f r) <> []) -> keep s (update_cluster n f s).
Proof.
  intros Hf. unfold update_cluster. destruct (objs s !! n) as [c|] eqn:Hn; [|apply keep_refl].
  eapply keep_trans; [apply (keep_attr n (fun c => cset_row (f (c_row c)) c))|apply keep_same; done].
  intros HN d. unfold addr. simpl. intros H%negb_true_iff%bool_decide_eq_false. apply negb_true_iff, bool_decide_eq_false. auto.
Qed.
Lemma keep_wk n w f s : keep s (update_worker n w f s).
Proof.
  unfold update_worker. destruct (get_worker n w s); [|apply keep_refl].
  eapply keep_trans; [apply (keep_attr n (fun c => cset_workers (map_worker w f (c_workers c)) c)); done|apply keep_same; done].
Qed.
Lemma keep_put x s : keep s (qput x s). Proof. apply keep_same; done. Qed.
Lemma keep_fold {A} (f : gw -> A -> gw) l s : (forall s a, keep s (f s a)) -> keep s (fold_left f l s).
Proof. intros Hf. revert s. induction l as [|a l IH]; intros s; simpl; [apply keep_refl|]. eapply keep_trans; [apply Hf|apply IH]. Qed.
Lemma keep_puts xs s : keep s (qputs xs s).
Proof. apply keep_fold. intros. apply keep_put. Qed.
Lemma keep_finish x s s1 : keep s s1 -> keep s (finish x s1).
Proof. intros H. eapply keep_trans; [exact H|apply keep_same; done]. Qed.
Lemma keep_rows ns f s : (forall r, r_sched r <> [] -> r_sched (f r) <> []) -> keep s (update_clusters ns f s).
Proof. intros Hf. apply keep_fold. intros. by apply keep_row. Qed.
Lemma keep_wks n ws f s : keep s (update_workers n ws f s). Proof. apply keep_fold. intros. apply keep_wk. Qed.
Lemma keep_targets n ts s : keep s (set_targets n ts s). Proof. apply keep_fold. intros. apply keep_wk. Qed.
Lemma keep_fail_clusters ns s : keep s (fail_clusters ns s).
Proof. unfold fail_clusters. eapply keep_trans; [|apply keep_puts]. apply keep_rows. done. Qed.
Lemma keep_fail_workers ws s : keep s (fail_workers ws s).
Proof. unfold fail_workers. eapply keep_trans; [|apply keep_puts]. apply keep_fold. intros. apply keep_wk. Qed.
Lemma keep_create_workers cf k n now s : keep s (create_workers cf k n now s).
Proof.
  revert s. induction k as [|k IH]; intros s; [apply keep_refl|]. cbn [create_workers].
  destruct (create_worker cf n now s) as [w s1] eqn:E. eapply keep_trans; [|apply IH]. eapply keep_trans; [|apply keep_put].
  unfold create_worker in E. injection E as _ <-. eapply keep_trans; [|apply keep_attr; done]. apply keep_same; done.
Qed.
Lemma keep_scale cf n now s : keep s (check_scale cf n now s).
Proof.
  unfold check_scale. destruct (objs s !! n); [|apply keep_refl]. case_decide; [|apply keep_create_workers].
  eapply keep_trans; [|apply keep_put]. apply keep_row. done.
Qed.
Lemma keep_proxied n s : keep s (check_proxied n s).
Proof.
  unfold check_proxied. destruct (objs s !! n); [|apply keep_refl]. destruct (c_proxied c); [apply keep_refl|].
  eapply keep_trans; [|apply keep_attr; done]. apply keep_same; done.
Qed.
Lemma keep_closing cf n c s : keep s (cluster_to_closing cf n c s).
Proof.
  unfold cluster_to_closing. eapply keep_trans; [|apply keep_attr; done].
  destruct (map w_name _); [eapply keep_trans; [|apply keep_put]|]; (eapply keep_trans; [|apply keep_row; done]);
    (eapply keep_trans; [|apply keep_puts]); apply keep_wks.
Qed.
Lemma keep_stopped n now s : keep s (cluster_stopped n now s).
Proof.
  unfold cluster_stopped. destruct (objs s !! n); [|apply keep_refl]. eapply keep_trans; [|apply keep_attr; done].
  eapply keep_trans; [|apply keep_row; done]. apply keep_wks.
Qed.
Lemma keep_rest cf n w s : keep s (worker_stopped_rest cf n w s).
Proof.
  unfold worker_stopped_rest. destruct (objs s !! n) as [c|]; [|apply keep_refl]. destruct (get_worker n w s); [|apply keep_refl].
  destruct (ready_to_close cf c); [apply keep_put|]. case_decide; [apply keep_put|apply keep_refl].
Qed.
Lemma keep_cleanup cf now s : keep s (cleanup_expired cf now s).
Proof.
  unfold cleanup_expired. eapply keep_trans; [|apply keep_fold; intros s1 n; unfold forget; destruct (objs s1 !! n); [apply keep_same; done|apply keep_refl]].
  apply keep_same; done.
Qed.
Lemma keep_heartbeat n m now s : (N n -> m_sched m <> []) -> keep s (heartbeat n m now s).1.
Proof.
  intros Hm. unfold heartbeat. destruct (lookup_cluster n s) as [c|]; [|apply keep_refl]. destruct (jlt _ _); [apply keep_refl|].
  set (s1 := upd_obj n (cset_hb (Some now)) s). assert (keep s s1) as H1 by (apply keep_attr; done).
  destruct (classify _ _) as [z|]; [|exact H1]. cbn [fst]. eapply keep_trans; [|apply keep_wks].
  match goal with |- context [z_targets z ++ ?l] => set (extra := l) end.
  match goal with |- context [set_targets n (z_targets z ++ extra) ?x] => set (s2 := x) end.
  assert (keep s s2) as H2.
  { unfold s2. destruct (_ || _); [|done]. eapply keep_trans; [exact H1|]. eapply keep_trans; [|apply keep_put]. apply keep_row.
    intros HN r Hr. specialize (Hm HN). destruct (decide _), (negb _); done. }
  assert (keep s (qputs (map (fun t : nat * job => (n, Some t.1)) (z_targets z ++ extra)) (set_targets n (z_targets z ++ extra) s2))) as H3.
  { eapply keep_trans; [exact H2|]. eapply keep_trans; [apply keep_targets|apply keep_puts]. }
  destruct (z_running z); [exact H3|]. eapply keep_trans; [exact H3|]. eapply keep_trans; [|apply keep_wks]. apply keep_attr. done.
Qed.
Lemma down_heartbeat n m now s : down (heartbeat n m now s).1 = down s.
Proof.
  unfold heartbeat. destruct (lookup_cluster n s) as [c|]; [|done]. destruct (jlt _ _); [done|].
  destruct (classify _ _) as [z|]; [|done]. cbn [fst]. rewrite (kp_down _ _ (keep_wks _ _ _ _)).
  match goal with |- context [z_targets z ++ ?l] => set (extra := l) end.
  match goal with |- context [set_targets n (z_targets z ++ extra) ?x] => set (s2 := x) end.
  assert (down s2 = down s) as H2. { unfold s2. destruct (_ || _); [|done]. simpl. unfold update_cluster. destruct (objs _ !! n); done. }
  destruct (z_running z); [|rewrite (kp_down _ _ (keep_wks _ _ _ _)); change (down (upd_obj ?a ?b ?x)) with (down x)];
    rewrite (kp_down _ _ (keep_puts _ _)), (kp_down _ _ (keep_targets _ _ _)); exact H2.
Qed.
Lemma keep_reconcile cf k x now s : keep s (reconcile cf k x now s).1.
Proof.
  destruct x as [n [w|]]; unfold reconcile; cbn [fst snd].
  - unfold reconcile_worker. destruct (get_worker n w s) as [wk|]; [|apply keep_finish, keep_refl].
    destruct (jge _ _); [apply keep_finish, keep_refl|]. case_decide.
    { cbn [fst]. set (s1 := if decide _ then _ else _). assert (keep s s1) as H1 by (unfold s1; case_decide; [apply keep_refl|apply keep_wk]).
      apply keep_finish. destruct (is_ready cf n s1); [|done]. eapply keep_trans; [exact H1|apply keep_put]. }
    case_decide.
    { destruct (jlt _ _); cbn [fst]; [apply keep_same; done|]. apply keep_finish. eapply keep_trans; [|apply keep_rest]. apply keep_wk. }
    case_decide; cbn [fst]; [apply keep_same; done|apply keep_finish, keep_refl].
  - unfold reconcile_cluster. destruct (objs s !! n) as [c|]; [|apply keep_finish, keep_refl].
    destruct (jge _ _); [apply keep_finish, keep_refl|]. case_decide.
    { case_decide; cbn [fst].
      - destruct (ready_to_close cf c); [|apply keep_finish, keep_refl]. destruct (jlt _ _); cbn [fst]; [apply keep_same; done|].
        apply keep_finish, keep_stopped.
      - apply keep_finish, keep_closing. }
    case_decide; [|apply keep_finish, keep_refl]. case_decide; cbn [fst]; [apply keep_same; done|].
    set (s1 := if decide _ then _ else _).
    assert (keep s s1) as H1'. { unfold s1. case_decide; [|apply keep_refl]. eapply keep_trans; [|apply keep_attr; done]. apply keep_row. done. }
    apply keep_finish. destruct (objs s1 !! n); [|done]. case_decide; [|done].
    eapply keep_trans; [exact H1'|]. eapply keep_trans; [apply keep_proxied|apply keep_scale].
Qed.
Lemma keep_got cf k now s r : keep s (got cf k now s r).1.
Proof.
  unfold got. destruct r as [q' [[j [x| | |]]|]]; try (apply keep_same; done).
  eapply keep_trans; [|apply keep_reconcile]. apply keep_same; done.
Qed.
Lemma keep_resume cf k o now s : keep s (resume cf k o now s).1.
Proof.
  unfold resume. destruct (busy s !! k) as [p|]; [|apply keep_refl].
  assert (keep s (release k s)) as Hr by (apply keep_same; done).
  destruct p as [n|n|n w|n w], o as [st| |]; cbn [fst]; try apply keep_refl; try apply keep_finish.
  - apply keep_row. done.
  - eapply keep_trans; [exact Hr|]. apply keep_row. done.
  - eapply keep_trans; [exact Hr|]. eapply keep_trans; [|apply keep_put]. apply keep_row. done.
  - eapply keep_trans; [|apply keep_stopped]. apply keep_same; done.
  - eapply keep_trans; [|apply keep_stopped]. apply keep_same; done.
  - apply keep_wk.
  - eapply keep_trans; [exact Hr|]. apply keep_wk.
  - eapply keep_trans; [exact Hr|]. eapply keep_trans; [|apply keep_put]. eapply keep_trans; [|apply keep_attr; done]. apply keep_wk.
  - eapply keep_trans; [exact Hr|]. eapply keep_trans; [|apply keep_rest]. apply keep_wk.
  - eapply keep_trans; [exact Hr|]. eapply keep_trans; [|apply keep_rest]. apply keep_wk.
Qed.

(** An event that is no heartbeat, no shutdown and no restart. *)
Lemma keep_step cf s e : Inv cf None ∅ s -> crash e = false -> e <> EShutdown -> (forall n m now, e <> EHeartbeat n m now) -> keep s (step cf s e).1.
Proof.
  intros HI He Hsd Hhb.
  destruct e as [user info mx now|n failed|n m now|now| |oks| |oks|now|k now|k now|k o now|now| |];
    try discriminate He; try done; cbn [step fst] in *.
  - unfold start_cluster, create_cluster. cbn [fst snd]. split; [done|]. intros n c _ Hn Ha. cbn -[alloc_c].
    assert (n <> uuid s). { pose proof (proj1 (g_fresh _ _ _ _ HI _ _ Hn)). lia. }
    rewrite lookup_insert_ne by done. eauto.
  - unfold stop_cluster. destruct (lookup_cluster n s); [|apply keep_refl]. destruct (jge _ _); [|apply keep_refl].
    eapply keep_trans; [|apply keep_put]. apply keep_row. done.
  - exfalso. eapply Hhb. done.
  - destruct (down s); [apply keep_refl|]. unfold check_timeouts. destruct (find_late _ _ _) as [[cs ws]|]; [|apply keep_refl]. cbn [fst].
    eapply keep_trans; [apply keep_fail_clusters|apply keep_fail_workers].
  - destruct (down s); [apply keep_refl|]. destruct (chk_c s); [apply keep_refl|apply keep_same; done].
  - destruct oks; [|apply keep_same; done]. cbn [fst]. unfold check_clusters_end. destruct (chk_c s); [|apply keep_refl].
    eapply keep_trans; [|apply keep_fail_clusters]. apply keep_same; done.
  - destruct (down s); [apply keep_refl|]. destruct (chk_w s); [apply keep_refl|apply keep_same; done].
  - destruct oks; [|apply keep_same; done]. cbn [fst]. unfold check_workers_end. destruct (chk_w s); [|apply keep_refl].
    eapply keep_trans; [|apply keep_fold; intros s1 a; eapply keep_trans; [|apply keep_put]; apply keep_attr; done].
    eapply keep_trans; [|apply keep_fold; intros; apply keep_wk]. apply keep_same; done.
  - destruct (down s); [apply keep_refl|]. apply keep_cleanup.
  - case_decide; [|apply keep_refl]. destruct (busy s !! k); [apply keep_refl|]. destruct (tasks (q s) !! k); [apply keep_refl|]. apply keep_got.
  - apply keep_got.
  - apply keep_resume.
  - unfold close_queue. destruct (down s); [|apply keep_refl]. destruct (forallb _ _); [apply keep_same; done|apply keep_refl].
Qed.
Lemma keep_shutdown cf s : (forall n c, N n -> objs s !! n = Some c -> addr c = true -> exists c', objs (shutdown cf s) !! n = Some c' /\ addr c' = true).
Proof.
  intros n c HN Hn Ha. unfold shutdown. destruct (stop_on_shutdown cf); [|eauto]. cbn [objs set_down].
  destruct (kp_addr _ _ (keep_fail_clusters (map c_name (active_clusters (set_chk_w None (set_chk_c None s)))) (set_chk_w None (set_chk_c None s))) n c HN Hn Ha) as (c' & Hc' & Ha').
  eauto.
Qed.

End keep.
Arguments kp_down {_ _ _} _.
Arguments kp_addr {_ _ _} _.

(** * What a reconciler does for a cluster whose scheduler is up *)
Lemma created_workers cf k n now s c : objs s !! n = Some c ->
  exists c', objs (create_workers cf k n now s) !! n = Some c' /\ c_row c' = c_row c /\ c_proxied c' = c_proxied c /\
             length (active_workers c') = (k + length (active_workers c))%nat.
Proof.
  revert s c. induction k as [|k IH]; intros s c Hn; cbn [create_workers]; [exists c; done|].
  destruct (create_worker cf n now s) as [w s1] eqn:E. unfold create_worker in E. injection E as _ <-.
  match goal with |- context [create_workers cf k n now (qput ?y (upd_obj n ?g ?s2))] => set (s3 := qput y (upd_obj n g s2)); set (c1 := g c) end.
  destruct (IH s3 c1) as (c' & Hc' & H1 & H2 & H3).
  { unfold s3. cbn [objs qput set_q upd_obj set_objs]. rewrite lookup_alter. simpl. rewrite Hn. done. }
  exists c'. split; [done|]. split; [done|]. split; [done|]. rewrite H3. unfold active_workers. simpl. rewrite List.filter_app, app_length. simpl. lia.
Qed.
(** [served]: running, with its routes, and enough workers. *)
Definition served (c : cluster) : Prop := c_status c = RUNNING /\ c_proxied c = true /\ r_count (c_row c) <= Z.of_nat (n_covers c).

Lemma handle_run cf s e n c : Inv cf None ∅ s -> crash e = false -> takes cf s e (n, None) -> objs s !! n = Some c -> c_target c = RUNNING ->
  c_status c = RUNNING \/ c_status c = SUBMITTED /\ addr c = true ->
  exists c', objs (step cf s e).1 !! n = Some c' /\ (c_target c' <> RUNNING \/ served c').
Proof.
  intros HI Hcr Ht Hn Htg Hst. destruct (step cf s e) as [s' o] eqn:Hs. destruct (step_inv cf e s s' o Hcr HI Hs) as [HI' _].
  assert (s' = (step cf s e).1) as Hs' by (rewrite Hs; done). cbn [fst].
  destruct (takes_reconcile _ _ _ _ Ht) as (k & now & q' & E). rewrite E in Hs'. clear Hs E.
  unfold reconcile in Hs'. cbn [fst snd] in Hs'. unfold reconcile_cluster in Hs'. change (objs (set_q q' s)) with (objs s) in Hs'. rewrite Hn in Hs'.
  destruct (jge (c_status c) STOPPED) eqn:H1; [destruct Hst as [E|[E _]]; rewrite E in H1; done|].
  rewrite Htg in Hs'. rewrite decide_False in Hs' by (by intros [?|?]). rewrite decide_True in Hs' by done.
  destruct (decide (c_status c = CREATED)) as [H2|H2]; [destruct Hst as [E|[E _]]; congruence|]. cbn [fst] in Hs'.
  set (s1 := if decide _ then _ else _) in Hs'.
  assert (exists c1, objs s1 !! n = Some c1 /\ c_status c1 = RUNNING /\ c_target c1 = RUNNING) as (c1 & Hn1 & Hst1 & Htg1).
  { unfold s1. destruct Hst as [E|[E Ha]].
    - rewrite decide_False by (intros [? _]; congruence). exists c. done.
    - rewrite decide_True. 2:{ split; [done|]. unfold addr in Ha. apply negb_true_iff, bool_decide_eq_false in Ha. done. }
      destruct (update_cluster_spec n (rset_status RUNNING) (set_q q' s) c Hn) as [Ho _].
      cbn [objs upd_obj set_objs]. rewrite lookup_alter, Ho, lookup_insert. eexists. split; [done|]. done. }
  clearbody s1. rewrite Hn1 in Hs'. rewrite decide_True in Hs' by done.
  set (s2 := check_proxied n s1) in Hs'.
  assert (exists c2, objs s2 !! n = Some c2 /\ c_status c2 = RUNNING /\ c_target c2 = RUNNING /\ c_proxied c2 = true) as (c2 & Hn2 & Hst2 & Htg2 & Hp2).
  { unfold s2, check_proxied. rewrite Hn1. destruct (c_proxied c1) eqn:Hp; [exists c1; done|].
    eexists. cbn [objs upd_obj set_objs]. rewrite lookup_alter. cbn [objs set_routes]. rewrite Hn1. split; [done|]. done. }
  clearbody s2. subst s'. unfold finish. unfold check_scale in *. rewrite Hn2 in *. case_decide.
  - cbn [objs qput set_q]. destruct (update_cluster_spec n (rset_target FAILED) s2 c2 Hn2) as [Ho _]. rewrite Ho, lookup_insert.
    eexists. split; [done|]. left. done.
  - set (kk := Z.to_nat _) in *. destruct (created_workers cf kk n now s2 c2 Hn2) as (c' & Hc' & Hr' & Hp' & Hl').
    exists c'. split; [exact Hc'|]. right. split; [unfold c_status; rewrite Hr'; done|]. split; [congruence|].
    assert (objs (finish (n, None) (create_workers cf kk n now s2)) !! n = Some c') as Hc'' by exact Hc'.
    pose proof (active_covers _ _ _ _ _ _ (k_workers _ _ _ _ _ _ (g_cok _ _ _ _ HI' _ _ Hc''))) as Hle.
    unfold n_covers. unfold active_workers in *. rewrite Hr'. unfold kk in Hl'. lia.
Qed.

Section run.
Context (cf : cfg) (run : nat -> gw) (ev : nat -> event).
Hypothesis HE : ongoing cf run ev.
Hypothesis HF : fair cf run ev.

(** A running cluster is served, unless it is told to end. *)
Lemma running_served i n c : objs (run i) !! n = Some c -> c_status c = RUNNING ->
  exists j c', (i <= j)%nat /\ objs (run j) !! n = Some c' /\ (c_target c' <> RUNNING \/ served c').
Proof.
  intros Hn Hst. destruct (decide (c_target c = RUNNING)) as [Htg|Htg]; [|exists i, c; auto].
  pose proof (run_cok cf run ev HE i n c Hn) as Hok.
  assert (served c \/ (n, None) ∈ dirty (q (run i))) as [H|HD]; [|exists i, c; auto|].
  { destruct (c_proxied c) eqn:Hp; [|right; apply (Dof_dirty cf run ev HE HF), (o_proxy _ _ _ _ _ _ Hok Hst Htg Hp)].
    destruct (o_scale _ _ _ _ _ _ Hok Hst Htg) as [H|H]; [left; done|right; apply (Dof_dirty cf run ev HE HF), H]. }
  destruct (dirty_taken cf run ev HE HF i _ HD) as (j & Hij & Ht). destruct (cluster_later cf run ev HE i j n c Hij Hn) as (d & Hd & Hev).
  destruct (decide (c_target d = RUNNING)) as [Htd|Htd]; [|exists j, d; auto].
  assert (c_status d = RUNNING) as Hsd.
  { pose proof (e_status _ _ Hev) as H. rewrite Hst in H. pose proof (k_row _ _ _ _ _ _ (run_cok cf run ev HE j n d Hd)) as Hro.
    unfold c_status, c_target in *. destruct (r_status (c_row d)) eqn:E; simpl in H; try lia; try done; exfalso.
    - apply (ro_closing _ Hro E). done.
    - apply (ro_stopped _ Hro E). done.
    - pose proof (ro_failed _ Hro E). congruence. }
  destruct (handle_run cf (run j) (ev j) n d) as (c' & Hc' & H); auto; [apply (run_inv cf run ev HE j)|apply (on_life _ _ _ HE)|].
  exists (S j), c'. rewrite (on_step _ _ _ HE). split; [lia|]. done.
Qed.

(** The scheduler of a submitted cluster reports: the cluster runs some day,
    unless it is told to end. *)
Lemma run_addr i j n c : (i <= j)%nat -> (forall l m now, ev l = EHeartbeat n m now -> m_sched m <> []) ->
  objs (run i) !! n = Some c -> addr c = true -> exists c', objs (run j) !! n = Some c' /\ addr c' = true.
Proof.
  intros Hij Hhb Hn Ha. induction Hij as [|j Hij IH]; [eauto|]. destruct IH as (d & Hd & Hda). rewrite (on_step _ _ _ HE).
  destruct (run_inv cf run ev HE j) as [HI _].
  destruct (ev j) as [ | |n' m now| | | | | | | | | | | |] eqn:He;
    try (refine (kp_addr (N := fun l => l = n) _ n d eq_refl Hd Hda); apply keep_step; [exact HI|reflexivity|discriminate|discriminate]).
  - cbn [step]. refine (kp_addr (keep_heartbeat (fun l => l = n) n' m now (run j) _) n d eq_refl Hd Hda). intros ->. eauto.
  - pose proof (on_life _ _ _ HE j) as H. rewrite He in H. done.
  - cbn [step]. destruct (down (run j)); [eauto|]. apply (keep_shutdown (fun l => l = n) cf _ n d eq_refl Hd Hda).
Qed.
Lemma reports_runs i n c m now : ev i = EHeartbeat n m now -> (forall l m now, ev l = EHeartbeat n m now -> m_sched m <> []) ->
  lookup_cluster n (run i) = Some c -> c_status c = SUBMITTED -> OAssertion ∉ (step cf (run i) (ev i)).2 ->
  exists j c', (i <= j)%nat /\ objs (run j) !! n = Some c' /\ (c_target c' <> RUNNING \/ served c').
Proof.
  intros He Hhb Hl Hst Hass. pose proof (lookup_obj _ _ _ Hl) as [Hn _].
  destruct (decide (c_target c = RUNNING)) as [Htg|Htg]; [|exists i, c; auto].
  assert (exists d, objs (run (S i)) !! n = Some d /\ addr d = true /\ (n, None) ∈ dirty (q (run (S i)))) as (d & Hd & Ha & HD).
  { rewrite (on_step _ _ _ HE). rewrite He in *. cbn [step] in *. unfold heartbeat in *. rewrite Hl, Htg in *. change (jlt RUNNING RUNNING) with false in *. cbv iota in *.
    destruct (classify m (c_workers c)) as [z|]; [|exfalso; apply Hass; left]. cbn [fst].
    match goal with |- context [z_targets z ++ ?l] => set (extra := l) end.
    match goal with |- context [set_targets n (z_targets z ++ extra) ?x] => set (s2 := x) end.
    assert (exists c2, objs s2 !! n = Some c2 /\ addr c2 = true) as (c2 & Hc2 & Ha2).
    { unfold s2. rewrite Hst. cbn [bool_decide negb orb]. rewrite bool_decide_false by done. cbn [negb orb].
      set (f := fun r : crow => _). set (s1 := upd_obj n _ _). assert (objs s1 !! n = Some (cset_hb (Some now) c)) as H1 by (unfold s1; simpl; rewrite lookup_alter, Hn; done).
      destruct (update_cluster_spec n f s1 _ H1) as [Ho _]. cbn [objs qput set_q]. rewrite Ho, lookup_insert. eexists. split; [done|].
      unfold addr, f. simpl. apply negb_true_iff, bool_decide_eq_false. specialize (Hhb i m now He). match goal with |- context [if negb ?b then _ else _] => destruct b end; exact Hhb. }
    assert ((n, None) ∈ dirty (q s2)) as HD2.
    { unfold s2. rewrite Hst. rewrite bool_decide_false by done. cbn [negb orb q qput set_q].
      match goal with |- _ ∈ dirty (put ?x ?a) => destruct (put_core x a) as (_ & _ & -> & _) end. set_solver. }
    clearbody s2.
    assert (forall s3, keep (fun _ => True) s2 s3 -> qg s2 s3 -> exists d, objs s3 !! n = Some d /\ addr d = true /\ (n, None) ∈ dirty (q s3)) as Hfin.
    { intros s3 Hk [xs Hq]. destruct (kp_addr Hk n c2 I Hc2 Ha2) as (d & Hd & Hda). exists d. rewrite Hq. split; [done|]. split; [done|]. by apply puts_dirty. }
    destruct (z_running z) as [|w ws]; apply Hfin.
    - eapply keep_trans; [|apply keep_wks]. eapply keep_trans; [apply keep_targets|apply keep_puts].
    - eapply qg_trans; [|apply qg_wks]. eapply qg_trans; [apply qg_targets|apply qg_puts].
    - eapply keep_trans; [|apply keep_wks]. eapply keep_trans; [|apply keep_wks]. eapply keep_trans; [|apply keep_attr; done].
      eapply keep_trans; [apply keep_targets|apply keep_puts].
    - eapply qg_trans; [|apply qg_wks]. eapply qg_trans; [|apply qg_wks]. eapply qg_trans; [|apply qg_attr].
      eapply qg_trans; [apply qg_targets|apply qg_puts]. }
  destruct (dirty_taken cf run ev HE HF (S i) _ HD) as (j & Hij & Ht).
  destruct (run_addr (S i) j n d Hij Hhb Hd Ha) as (d' & Hd' & Ha').
  destruct (decide (c_target d' = RUNNING)) as [Htd|Htd]; [|exists j, d'; split; [lia|auto]].
  assert (c_status d' = RUNNING \/ c_status d' = SUBMITTED /\ addr d' = true) as Hs'.
  { destruct (cluster_later cf run ev HE i j n c ltac:(lia) Hn) as (d2 & Hd2 & Hev). assert (d2 = d') as -> by congruence.
    pose proof (e_status _ _ Hev) as H. rewrite Hst in H. pose proof (k_row _ _ _ _ _ _ (run_cok cf run ev HE j n d' Hd')) as Hro.
    unfold c_status, c_target in *. destruct (r_status (c_row d')) eqn:E; simpl in H; try lia; auto; exfalso.
    - apply (ro_closing _ Hro E). done.
    - apply (ro_stopped _ Hro E). done.
    - pose proof (ro_failed _ Hro E). congruence. }
  destruct (handle_run cf (run j) (ev j) n d') as (c' & Hc' & H); auto; [apply (run_inv cf run ev HE j)|apply (on_life _ _ _ HE)|].
  exists (S j), c'. rewrite (on_step _ _ _ HE). split; [lia|]. done.
Qed.

(** * Shutdown *)
Lemma run_down i j ns : (i <= j)%nat -> down (run i) = Some ns -> down (run j) = Some ns.
Proof.
  intros Hij Hd. induction Hij as [|j Hij IH]; [done|]. rewrite (on_step _ _ _ HE). destruct (run_inv cf run ev HE j) as [HI _].
  destruct (ev j) as [ | |n' m now| | | | | | | | | | | |] eqn:He;
    try (rewrite <- IH; apply (kp_down (N := fun _ => False)), keep_step; [exact HI|reflexivity|discriminate|discriminate]).
  - cbn [step]. rewrite (down_heartbeat (fun _ => False) n' m now (run j)). done.
  - pose proof (on_life _ _ _ HE j) as H. rewrite He in H. done.
  - cbn [step]. rewrite IH. done.
Qed.
End run.

(** The clusters a shutdown waits for are told to end. *)
Definition doomed (s : gw) : Prop := forall ns n, down s = Some ns -> n ∈ ns -> exists c, objs s !! n = Some c /\ c_target c <> RUNNING.
Lemma doomed_evolve s s' : (forall n c, objs s !! n = Some c -> row_ok (c_row c)) -> down s' = down s -> Evolve s s' -> doomed s -> doomed s'.
Proof.
  intros Hro Hd HEv H ns n Hns Hn. rewrite Hd in Hns. destruct (H ns n Hns Hn) as (c & Hc & Ht). destruct (HEv n c Hc) as (c' & Hc' & E).
  exists c'. split; [done|]. pose proof (e_target _ _ E). destruct (not_running_fin c (Hro n c Hc) Ht) as [E1|E1]; rewrite E1 in *;
    intros E2; rewrite E2 in *; simpl in *; lia.
Qed.
Lemma doomed_shutdown cf s : Inv cf None ∅ s -> doomed (shutdown cf s).
Proof.
  intros HI ns n. unfold shutdown. destruct (stop_on_shutdown cf); cbn [down set_down objs]; intros [= <-] Hn; [|inversion Hn].
  set (s0 := set_chk_w None (set_chk_c None s)) in *. set (act := map c_name (active_clusters s0)) in *. set (s1 := fail_clusters act s0) in *.
  apply elem_of_list_fmap in Hn as (c & -> & Hc). apply elem_of_list_In, filter_In in Hc as [Hc _]. apply elem_of_list_In in Hc.
  unfold all_clusters in Hc. apply elem_of_list_omap in Hc as (m & Hm & Hc).
  destruct (objs s0 !! m) as [c0|] eqn:Hc0.
  - pose proof (g_cok _ _ _ _ HI m c0 Hc0) as Hok.
    destruct (fail_clusters_in act s0 m c0 Hc0) as [E Eb]. change (objs (fail_clusters act s0)) with (objs s1) in E.
    assert (c = if decide (m ∈ act) then cset_row (rset_target FAILED (c_row c0)) c0 else c0) as Hcc by congruence.
    assert (c_name c = m) as Hnm. { rewrite Hcc. destruct (decide _); [exact (k_name _ _ _ _ _ _ Hok)|exact (k_name _ _ _ _ _ _ Hok)]. }
    rewrite Hnm. exists c. split; [exact Hc|]. rewrite Hcc. destruct (decide (m ∈ act)) as [Ha|Ha]; [done|]. intros Ht. apply Ha.
    unfold act. rewrite <- (k_name _ _ _ _ _ _ Hok). apply (elem_of_list_fmap_1 c_name). unfold active_clusters.
    apply elem_of_list_In, filter_In. split; [|unfold c_active; rewrite Ht; done]. apply elem_of_list_In. unfold all_clusters. apply elem_of_list_omap.
    exists m. split; [|done]. unfold s1 in Hm. rewrite Eb in Hm. done.
  - exfalso. assert (objs s1 !! m = None) as Hno; [|congruence]. unfold s1, fail_clusters. rewrite puts_objs. unfold update_clusters.
    revert Hc0. clear. generalize act, s0. clear. intros l s0 Hc0. revert s0 Hc0. induction l as [|a l IH]; intros s0 Hc0; simpl; [done|]. apply IH.
    unfold update_cluster. destruct (objs s0 !! a) as [d|] eqn:Hd; [|done].
    assert (a <> m) by congruence. cbn. rewrite lookup_alter_ne; done.
Qed.
Lemma step_doomed cf s e : Inv cf None ∅ s -> crash e = false -> doomed s -> doomed (step cf s e).1.
Proof.
  intros HI Hcr Hd. assert (forall n c, objs s !! n = Some c -> row_ok (c_row c)) as Hro by (intros n c Hn; apply (k_row _ _ _ _ _ _ (g_cok _ _ _ _ HI n c Hn))).
  assert (Evolve s (step cf s e).1) as HEv. { destruct (step cf s e) as [s' o] eqn:Hs. apply (step_inv cf e s s' o Hcr HI Hs). }
  assert (down (step cf s e).1 = down s \/ e = EShutdown) as [E|E].
  { destruct e as [ | |n' m now| | | | | | | | | | | |] eqn:He; try discriminate Hcr; auto; left;
      try (apply (kp_down (N := fun _ => False)), keep_step; [exact HI|reflexivity|discriminate|discriminate]).
    apply (down_heartbeat (fun _ => False) n' m now s). }
  - eapply doomed_evolve; eauto.
  - subst e. cbn [step fst] in *. destruct (down s); [done|]. cbn [fst]. apply doomed_shutdown. done.
Qed.
Lemma reach_doomed cf h s : ids_ok cf h -> reach cf h s -> doomed s.
Proof.
  intros Hi Hr. revert Hi. revert h s Hr. apply (exec_ind_r (step cf) (gw_init cf) (fun h s => ids_ok cf h -> doomed s)).
  - intros _ ns n. done.
  - intros h s e o s' Hr IH Hs Hi. pose proof (ids_ok_app _ _ _ Hi) as [Hi1 _]. specialize (IH Hi1).
    assert (s' = (step cf s e).1) as -> by (rewrite Hs; done). destruct (crash e) eqn:He.
    + destruct e; try done. cbn [step fst]. unfold restart. intros ns n. rewrite (kp_down (keep_puts (fun _ => False) _ _)). done.
    + apply step_doomed; auto. eapply reach_Inv; eauto.
Qed.

Section shut.
Context (cf : cfg) (run : nat -> gw) (ev : nat -> event).
Hypothesis HE : endless cf run ev.
Hypothesis HF : fair cf run ev.
Lemma run_doomed i : doomed (run i).
Proof.
  induction i as [|i IH].
  - destruct (en_from _ _ _ HE) as (h & Hi & Hr). eapply reach_doomed; eauto.
  - rewrite (en_step _ _ _ HE). apply step_doomed; [apply (run_inv cf run ev HE i)|apply (en_life _ _ _ HE)|done].
Qed.
Lemma all_end i (ns : list nat) : (forall n, n ∈ ns -> exists c, objs (run i) !! n = Some c /\ c_target c <> RUNNING) ->
  exists j, (i <= j)%nat /\ forall l, (j <= l)%nat -> forall n, n ∈ ns -> exists c, objs (run l) !! n = Some c /\ is_fin (c_status c) = true.
Proof.
  induction ns as [|n ns IH]; intros H; [exists i; split; [done|]; intros l _ n Hn; inversion Hn|].
  destruct IH as (j & Hij & Hj); [intros m Hm; apply H; right; done|].
  destruct (H n) as (c & Hc & Ht); [left|]. destruct (cluster_ends cf run ev HE HF i n c Hc Ht) as (j' & c' & Hj' & Hc' & Hf).
  exists (max j j'). split; [lia|]. intros l Hl m [->|Hm]%elem_of_cons; [|apply Hj; [lia|done]].
  destruct (ended_later cf run ev HE j' l n c') as (d & Hd & Hs & _); [lia|done|done|]. exists d. rewrite Hs. done.
Qed.
(** The wait of a shutdown is over some day, for good. *)
Lemma wait_over i ns : down (run i) = Some ns -> exists j, (i <= j)%nat /\ forall l, (j <= l)%nat -> down (run l) = Some ns /\ ~ waits (run l) /\
  closed (q (step cf (run l) EClose).1) = true.
Proof.
  intros Hd. destruct (all_end i ns) as (j & Hij & Hj); [intros n Hn; apply (run_doomed i ns n Hd Hn)|].
  exists j. split; [done|]. intros l Hl. assert (down (run l) = Some ns) as Hdl by (apply (run_down cf run ev HE i l); [lia|done]). split; [done|].
  split.
  - intros (ns' & n & c & H1 & H2 & H3 & H4). assert (ns' = ns) as -> by congruence. destruct (Hj l Hl n H2) as (d & H5 & H6).
    assert (d = c) as -> by congruence. apply H4, fin_iff, H6.
  - cbn [step fst]. unfold close_queue. rewrite Hdl. rewrite (proj2 (forallb_forall _ ns)); [done|].
    intros n Hn%elem_of_list_In. destruct (Hj l Hl n Hn) as (d & H5 & H6). rewrite H5.
    rewrite (k_shut _ _ _ _ _ _ (run_cok cf run ev HE l n d H5)). done.
Qed.
End shut.

(** * In the vocabulary of the specification *)
Section spec.
Context (cf : cfg) (run : nat -> gw) (ev : nat -> event).
Hypothesis HE : ongoing cf run ev.
Hypothesis HF : fair cf run ev.
Lemma told_ends i n : to_end (run i) n -> exists j, (i <= j)%nat /\ forall l, (j <= l)%nat -> ended (run l) n.
Proof.
  intros (c & Hn & Ht). destruct (cluster_ends cf run ev HE HF i n c Hn Ht) as (j & c' & Hij & Hc' & Hf). exists j. split; [done|].
  intros l Hl. destruct (ended_later cf run ev HE j l n c' Hl Hc' Hf) as (d & Hd & Hs & Hw & Hr). exists d. split; [done|].
  split; [rewrite Hs; by apply fin_iff|]. split; [|done]. intros x Hx. apply fin_iff. auto.
Qed.
Lemma stop_told s n f c : lookup_cluster n s = Some c -> Inv cf None ∅ s -> to_end (step cf s (EStop n f)).1 n.
Proof.
  intros Hl HI. pose proof (lookup_obj _ _ _ Hl) as [Hn _]. cbn [step fst]. unfold stop_cluster. rewrite Hl.
  pose proof (k_row _ _ _ _ _ _ (g_cok _ _ _ _ HI n c Hn)) as [Htg _ _ _ _ _ _].
  destruct (jge RUNNING (c_target c)) eqn:E.
  - destruct (update_cluster_spec n (rset_target (if f then FAILED else STOPPED)) s c Hn) as [Ho _].
    eexists. cbn [objs qput set_q]. rewrite Ho, lookup_insert. split; [done|]. destruct f; done.
  - exists c. split; [done|]. intros E2. rewrite E2 in E. done.
Qed.
Lemma stop_ends i n f c : ev i = EStop n f -> lookup_cluster n (run i) = Some c -> exists j, (i <= j)%nat /\ forall l, (j <= l)%nat -> ended (run l) n.
Proof.
  intros He Hl. destruct (told_ends (S i) n) as (j & Hj & H); [|exists j; split; [lia|done]].
  rewrite (on_step _ _ _ HE), He. eapply stop_told; [exact Hl|]. apply (run_inv cf run ev HE i).
Qed.
Lemma worker_told i n w x : has_worker (run i) n w x -> finished (w_target x) ->
  exists j, (i <= j)%nat /\ forall l, (j <= l)%nat -> exists y, has_worker (run l) n w y /\ finished (w_status y).
Proof.
  intros Hx Hf. destruct (worker_ends cf run ev HE HF i n w x Hx (proj1 (fin_iff _) Hf)) as (j & x' & Hij & Hx' & Hf').
  exists j. split; [done|]. intros l Hl. destruct (worker_later cf run ev HE j l n w x' Hl Hx') as (y & Hy & Hev).
  exists y. split; [exact Hy|]. apply fin_iff, (we_fin _ _ Hev Hf').
Qed.
Lemma created_starts i n c : objs (run i) !! n = Some c ->
  exists j, (i <= j)%nat /\ forall l, (j <= l)%nat -> exists d, objs (run l) !! n = Some d /\ c_status d <> CREATED.
Proof.
  intros Hn. destruct (cluster_starts cf run ev HE HF i n c Hn) as (j & c' & Hij & Hc' & Hs). exists j. split; [done|].
  intros l Hl. destruct (cluster_later cf run ev HE j l n c' Hl Hc') as (d & Hd & Hev). exists d. split; [done|].
  pose proof (e_status _ _ Hev) as H. intros E. rewrite E in H. destruct (c_status c'); simpl in H; try done; lia.
Qed.
Lemma created_wstarts i n w x : has_worker (run i) n w x ->
  exists j, (i <= j)%nat /\ forall l, (j <= l)%nat -> exists y, has_worker (run l) n w y /\ w_status y <> CREATED.
Proof.
  intros Hx. destruct (worker_starts cf run ev HE HF i n w x Hx) as (j & x' & Hij & Hx' & Hs). exists j. split; [done|].
  intros l Hl. destruct (worker_later cf run ev HE j l n w x' Hl Hx') as (y & Hy & Hev). exists y. split; [exact Hy|]. apply (we_created _ _ Hev Hs).
Qed.
Lemma served_up i n c : objs (run i) !! n = Some c -> c_target c = RUNNING -> served c -> up (run i) n.
Proof.
  intros Hn Ht (Hs & Hp & Hc). pose proof (run_cok cf run ev HE i n c Hn) as Hok. exists c. split; [done|]. split; [done|].
  split; [apply (ro_sched _ (k_row _ _ _ _ _ _ Hok) Hs)|]. split; [rewrite (k_sni _ _ _ _ _ _ Hok), Hp, Hs by (left; congruence); done|]. split.
  - intros Hd. rewrite (k_path _ _ _ _ _ _ Hok), Hp, Hs by (left; congruence). cbn [andb live_route]. unfold live_route. simpl. destruct (r_dash (c_row c)); done.
  - unfold n_covers in Hc. rewrite (filter_ext counted covers); [done|]. intros x. unfold counted, covers. destruct (w_status x); done.
Qed.
Lemma to_end_later i j n : (i <= j)%nat -> to_end (run i) n -> to_end (run j) n.
Proof.
  intros Hij (c & Hn & Ht). destruct (cluster_later cf run ev HE i j n c Hij Hn) as (d & Hd & Hev). exists d. split; [done|].
  pose proof (e_target _ _ Hev). destruct (not_running_fin c (k_row _ _ _ _ _ _ (run_cok cf run ev HE i n c Hn)) Ht) as [E1|E1]; rewrite E1 in *;
    intros E2; rewrite E2 in *; simpl in *; lia.
Qed.
Lemma up_or_end i j n c : (i <= j)%nat -> objs (run j) !! n = Some c -> c_target c <> RUNNING \/ served c ->
  exists j, (i <= j)%nat /\ (up (run j) n \/ to_end (run j) n).
Proof.
  intros Hij Hn H. exists j. split; [done|]. destruct (decide (c_target c = RUNNING)) as [E|E]; [|right; exists c; done].
  left. eapply served_up; [exact Hn|done|]. destruct H; done.
Qed.
Lemma running_up i n c : objs (run i) !! n = Some c -> c_status c = RUNNING -> exists j, (i <= j)%nat /\ (up (run j) n \/ to_end (run j) n).
Proof.
  intros Hn Hs. destruct (running_served cf run ev HE HF i n c Hn Hs) as (j & c' & Hij & Hc' & H). eapply up_or_end; eauto.
Qed.
Lemma reports_up i n c m now : ev i = EHeartbeat n m now -> (forall l m now, ev l = EHeartbeat n m now -> m_sched m <> []) ->
  lookup_cluster n (run i) = Some c -> c_status c = SUBMITTED -> OAssertion ∉ (step cf (run i) (ev i)).2 ->
  exists j, (i <= j)%nat /\ (up (run j) n \/ to_end (run j) n).
Proof.
  intros He Hhb Hl Hs Ha. destruct (reports_runs cf run ev HE HF i n c m now He Hhb Hl Hs Ha) as (j & c' & Hij & Hc' & H). eapply up_or_end; eauto.
Qed.
End spec.

(** * Such runs exist *)
(** First [pre], then turns and ends for everybody, again and again. *)
Definition turns (i : nat) : event :=
  let '(k, b) := Cantor.of_nat i in
  match (b mod 3)%nat with O => EGet k 0 | 1%nat => EWake k 0 | _ => EBackend k Ends 0 end.
Definition evs_of (pre : list event) (i : nat) : event := match pre !! i with Some e => e | None => turns i end.
Fixpoint run_of (cf : cfg) (s : gw) (ev : nat -> event) (i : nat) : gw :=
  match i with O => s | S i => (step cf (run_of cf s ev i) (ev i)).1 end.
Lemma turns_again i k r (pre : list event) : (r < 3)%nat -> exists j b, (i <= j)%nat /\ pre !! j = None /\ Cantor.of_nat j = (k, b) /\ (b mod 3 = r)%nat.
Proof.
  intros Hr. set (b := (3 * (i + length pre) + r)%nat). exists (Cantor.to_nat (k, b)), b. pose proof (Cantor.to_nat_non_decreasing k b) as H.
  split; [lia|]. split; [apply lookup_ge_None; lia|]. split; [apply Cantor.cancel_of_to|].
  unfold b. rewrite Nat.add_comm, Nat.mul_comm, Nat.mod_add by lia. apply Nat.mod_small. lia.
Qed.
Lemma runs_exist cf h s pre : ids_ok cf h -> reach cf h s -> closed (q s) = false -> (0 < parallelism cf)%nat ->
  Forall (fun e => crash e = false /\ e <> EClose) pre ->
  endless cf (run_of cf s (evs_of pre)) (evs_of pre) /\ fair cf (run_of cf s (evs_of pre)) (evs_of pre).
Proof.
  intros Hi Hr Ho Hp Hpre.
  assert (forall i, crash (evs_of pre i) = false /\ evs_of pre i <> EClose) as Hev.
  { intros i. unfold evs_of. destruct (pre !! i) as [e|] eqn:E; [apply (proj1 (Forall_forall _ _) Hpre e), (elem_of_list_lookup_2 _ _ _ E)|].
    unfold turns. destruct (Cantor.of_nat i) as [k b]. destruct (b mod 3)%nat as [|[|]]; done. }
  assert (forall i, Inv cf None ∅ (run_of cf s (evs_of pre) i) /\ Q cf (q (run_of cf s (evs_of pre) i)) /\ closed (q (run_of cf s (evs_of pre) i)) = false) as Hinv.
  { induction i as [|i (H1 & H2 & H3)]; [split; [eapply reach_Inv; eauto|split; [eapply reach_Q; eauto|done]]|]. cbn [run_of].
    set (t := run_of cf s (evs_of pre) i) in *. destruct (Hev i) as [Hc Hne].
    pose proof (step_qcase cf t H1 (q_nc _ _ H2) (evs_of pre i) Hc) as Hq. split; [|split].
    - destruct (step cf t (evs_of pre i)) as [s' o] eqn:Hs. apply (step_inv cf _ t s' o Hc H1 Hs).
    - eapply Q_case; eauto.
    - clear -Hq H3 Hne. clearbody t.
      assert (forall xs a, closed (puts xs a : wq item) = closed a) as Hps.
      { unfold puts. induction xs as [|x xs IH]; intros a; simpl; [done|]. rewrite IH. apply put_closed. }
      assert (forall (x : item) a, closed (task_done x (reset_backoff x a)) = closed a) as Hdn by (intros x a; unfold task_done; case_decide; [rewrite closed_wakeup|]; done).
      destruct Hq as [Hb [xs Hxs]|k Ha Hq' Hb Hg|k Ha Hb Hg Hcl|He Hb Hq'|k x q' p Ha Hk Ht Hg Hpx Hq' Hb|k x q' xs Ha Hk Ht Hg Hq' Hb|k p o now xs He Hoo Hk Hq' Hb].
      + rewrite Hxs, Hps. done.
      + apply get_turn_const in Hg as [-> _]. done.
      + congruence.
      + done.
      + rewrite Hq'. apply get_turn_const in Hg as [-> _]. done.
      + rewrite Hq', Hdn, Hps. apply get_turn_const in Hg as [-> _]. done.
      + rewrite Hq', Hdn, Hps. done. }
  split.
  - constructor; [exists h; done|done|intros i; apply Hev|intros i; apply Hinv].
  - constructor; [done|..].
    + intros i k _. destruct (turns_again i k 0 pre) as (j & b & Hij & Hn & Hb & Hm); [lia|]. exists j, 0. split; [done|].
      unfold evs_of, turns. rewrite Hn, Hb, Hm. done.
    + intros i k _. destruct (turns_again i k 1 pre) as (j & b & Hij & Hn & Hb & Hm); [lia|]. exists j, 0. split; [done|].
      unfold evs_of, turns. rewrite Hn, Hb, Hm. done.
    + intros i k _. destruct (turns_again i k 2 pre) as (j & b & Hij & Hn & Hb & Hm); [lia|]. exists j, Ends, 0. split; [done|]. split; [|auto].
      unfold evs_of, turns. rewrite Hn, Hb, Hm. done.
Qed.
