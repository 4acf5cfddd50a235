(** Whatever calls fail, the gateway does with its work queue what the queue's
    methods do: a property that every method keeps holds in every reachable state. *)
From Coq Require Import ZArith.
From stdpp Require Import prelude gmap.
From Verif Require Import Trace Router_Model WorkQueue_Model WorkQueue_Proofs Gateway_Model Gateway_Spec Fault_Model Fault_Spec Fault_Proofs.
Open Scope Z_scope.

(** What the gateway with [par] reconcilers does with its queue; [cl]: it may close it. *)
Definition used (par : nat) (cl : bool) (e : WorkQueue_Model.event item) : Prop :=
  match e with
  | WorkQueue_Model.EGet k => (k < par)%nat
  | WorkQueue_Model.EClose => cl = true
  | EPutAfter _ _ _ | ECancel _ => False
  | _ => True
  end.
Definition closes (fe : fevent) : bool := match fe with FE EClose _ _ => true | _ => false end.

Section queue.
Context (I : wq item -> Prop) (par : nat) (cl : bool) (I_step : forall qq e, used par cl e -> I qq -> I (WorkQueue_Model.step qq e).1).

Definition J (s : gw) : Prop := I (q s).
Definition same (f : gw -> gw) : Prop := forall s, J s -> J (f s).
Definition same_act (a : act) : Prop := forall s fs, J s -> J (a s fs).1.1.
Lemma same_fold {A} (f : A -> gw -> gw) (xs : list A) : (forall x, same (f x)) -> same (fold_left (fun s x => f x s) xs).
Proof. intros H. induction xs as [|x xs IH]; intros s Hs; [exact Hs|]. cbn [fold_left]. apply IH, H, Hs. Qed.
Lemma j_comp f g : same f -> same g -> same (fun s => f (g s)). Proof. intros Hf Hg s Hs. apply Hf, Hg, Hs. Qed.
Lemma j_qput x : same (qput x). Proof. intros s. apply (I_step (q s) (EPut x) Logic.I). Qed.
Lemma j_qputs xs : same (qputs xs). Proof. unfold qputs. apply (same_fold (fun x s => qput x s)). apply j_qput. Qed.
Lemma j_cluster n f : same (update_cluster n f). Proof. intros s. unfold update_cluster. destruct (objs s !! n); exact (fun H => H). Qed.
Lemma j_worker n w f : same (update_worker n w f).
Proof. intros s. unfold update_worker. destruct (get_worker n w s); [|exact (fun H => H)]. destruct (objs s !! n); exact (fun H => H). Qed.
Lemma j_clusters ns f : same (update_clusters ns f). Proof. apply (same_fold (fun n s => update_cluster n f s)). intros n. apply j_cluster. Qed.
Lemma j_workers n ws f : same (update_workers n ws f). Proof. apply (same_fold (fun w s => update_worker n w f s)). intros w. apply j_worker. Qed.
Lemma j_targets n ts : same (set_targets n ts). Proof. apply (same_fold (fun t s => update_worker n t.1 (wset_target t.2) s)). intros t. apply j_worker. Qed.
Lemma j_obj n f : same (upd_obj n f). Proof. exact (fun s H => H). Qed.
Lemma j_forget n : same (forget n). Proof. intros s. unfold forget. destruct (objs s !! n); exact (fun H => H). Qed.
Lemma j_pops ids s : J s -> J (pop_ids ids s).1.
Proof. revert s. induction ids as [|i ids IH]; intros s Hs; [exact Hs|]. cbn [pop_ids]. destruct (by_id s !! i); [|exact Hs]. apply IH, j_forget, Hs. Qed.
Lemma j_proxied n : same (check_proxied n).
Proof. intros s. unfold check_proxied. destruct (objs s !! n); [|exact (fun H => H)]. destruct (c_proxied _); exact (fun H => H). Qed.

Lemma sa_call f : same f -> same_act (call f).
Proof. intros H s [|[] fs] Hs; cbn [call fst]; first [exact Hs | exact (H s Hs)]. Qed.
Lemma sa_pure f : same f -> same_act (pure f). Proof. intros H s fs. apply H. Qed.
Lemma sa_ok : same_act ok. Proof. exact (fun s fs H => H). Qed.
Lemma sa_for {A} (xs : list A) f : same f -> same_act (call_for xs f).
Proof. destruct xs; [intros _; apply sa_ok|apply sa_call]. Qed.
Lemma sa_seq a b : same_act a -> same_act b -> same_act (a ;> b).
Proof. intros Ha Hb s fs Hs. unfold seq. specialize (Ha s fs Hs). destruct (a s fs) as [[s1 fs1] []]; cbn [fst] in *; [|exact Ha]. apply Hb, Ha. Qed.
Lemma sa_orelse a b : same_act a -> same_act b -> same_act (orelse a b).
Proof. intros Ha Hb s fs Hs. unfold orelse. specialize (Ha s fs Hs). destruct (a s fs) as [[s1 fs1] []]; cbn [fst] in *; [exact Ha|]. apply Hb, Ha. Qed.
Lemma j_answer a s fs : same_act a -> J s -> J (answer (a s fs)).1.
Proof. intros H Hs. specialize (H s fs Hs). unfold answer. destruct (a s fs) as [[s1 fs1] []]; exact H. Qed.
Lemma j_logged a s fs : same_act a -> J s -> J (logged (a s fs)).1.
Proof. intros H Hs. specialize (H s fs Hs). unfold logged. destruct (a s fs) as [[s1 fs1] []]; exact H. Qed.
Lemma j_finish x : same (finish x).
Proof. intros s Hs. exact (I_step _ (ETaskDone x) Logic.I (I_step _ (EResetBackoff x) Logic.I Hs)). Qed.
Lemma j_settle lt x a s fs : same_act a -> J s -> J (settle lt x (a s fs)).1.
Proof.
  intros H Hs. specialize (H s fs Hs). unfold settle. destruct (a s fs) as [[s1 fs1] []]; cbn [fst] in *; [apply j_finish, H|].
  exact (I_step _ (ETaskDone x) Logic.I (I_step _ (EPutBackoff lt x) Logic.I H)).
Qed.

Ltac sa := repeat first [apply sa_ok | apply sa_seq | apply sa_orelse | apply sa_for | apply sa_call | apply sa_pure | apply j_cluster | apply j_clusters | apply j_worker
  | apply j_workers | apply j_targets | apply j_obj | apply j_qput | apply j_qputs | apply j_proxied].
Lemma sa_heartbeat n m c z : same_act (heartbeat_acts n m c z).
Proof. unfold heartbeat_acts. cbv zeta. destruct (negb _ || negb _), (z_running z); sa. Qed.
Lemma sa_create cf k n now : same_act (fcreate_workers cf k n now).
Proof. induction k as [|k IH]; [apply sa_ok|]. cbn [fcreate_workers]. apply sa_seq; [|exact IH]. intros s fs. apply sa_seq; sa. exact (fun s1 H => H). Qed.
Lemma sa_scale cf n now : same_act (fcheck_scale cf n now).
Proof. intros s fs. unfold fcheck_scale. destruct (objs s !! n); [|exact (fun H => H)]. destruct (decide _); [|apply sa_create]. apply sa_seq; sa. Qed.
Lemma sa_stopped n now : same_act (fcluster_stopped n now).
Proof. intros s fs. unfold fcluster_stopped. destruct (objs s !! n); [|exact (fun H => H)]. cbv zeta. apply sa_seq; sa. Qed.
Lemma sa_closing cf n c : same_act (fcluster_to_closing cf n c).
Proof. unfold fcluster_to_closing. cbv zeta. sa. apply (j_comp (upd_obj n (cset_ready true))); [apply j_obj|]. destruct (map _ _); [apply j_qput|exact (fun s H => H)]. Qed.
Lemma sa_running cf n now c : same_act (frunning cf n now c).
Proof.
  unfold frunning. apply sa_seq; [destruct (decide _); sa|]. intros s fs. destruct (objs s !! n) as [c1|]; [|exact (fun H => H)]. destruct (decide _); [|exact (fun H => H)].
  apply sa_seq; [sa|apply sa_scale].
Qed.
Lemma sa_fail_clusters ns : same_act (ffail_clusters ns). Proof. unfold ffail_clusters. sa. Qed.
Lemma sa_fail_workers ws : same_act (ffail_workers ws).
Proof. unfold ffail_workers. sa. apply (same_fold (fun p s => update_worker p.1 p.2 (wset_target FAILED) s)). intros p. apply j_worker. Qed.
Lemma j_rest cf n w : same (worker_stopped_rest cf n w).
Proof.
  intros s. unfold worker_stopped_rest. destruct (objs s !! n), (get_worker n w s); try exact (fun H => H).
  destruct (ready_to_close _ _); [apply j_qput|]. destruct (decide _); [apply j_qput|exact (fun H => H)].
Qed.
Lemma sa_wstopped cf n w now : same_act (call (worker_stopped n w now) ;> pure (worker_stopped_rest cf n w)).
Proof. apply sa_seq; [apply sa_call, j_worker|apply sa_pure, j_rest]. Qed.

Lemma j_reconcile cf k x now lt fs s : J s -> J (freconcile cf k x now lt fs s).1.
Proof.
  intros Hs. unfold freconcile. destruct x as [n [w|]]; cbn [fst snd].
  - unfold freconcile_worker. destruct (get_worker n w s) as [wk|]; [|apply j_finish, Hs]. destruct (jge _ _); [apply j_finish, Hs|].
    destruct (decide _). { apply j_settle; [|exact Hs]. apply sa_seq; [destruct (decide _); sa|apply sa_pure]. intros s1. destruct (is_ready _ _ _); [apply j_qput|exact (fun H => H)]. }
    destruct (decide _); [destruct (jlt _ _); [exact Hs|apply j_settle; [apply sa_wstopped|exact Hs]]|]. destruct (decide _); [exact Hs|apply j_finish, Hs].
  - unfold freconcile_cluster. destruct (objs s !! n) as [c|]; [|apply j_finish, Hs]. destruct (jge _ _); [apply j_finish, Hs|]. destruct (decide _).
    { destruct (decide _); [|apply j_settle; [apply sa_closing|exact Hs]]. destruct (ready_to_close _ _); [|apply j_finish, Hs]. destruct (jlt _ _); [exact Hs|]. apply j_settle; [apply sa_stopped|exact Hs]. }
    destruct (decide _); [|apply j_finish, Hs]. destruct (decide _); [exact Hs|]. apply j_settle; [apply sa_running|exact Hs].
Qed.
Lemma sa_cfailed n : same_act (cluster_failed n). Proof. unfold cluster_failed. sa. Qed.
Lemma sa_wfailed n w : same_act (worker_failed n w). Proof. unfold worker_failed. sa. Qed.
Lemma j_resume cf k o now lt fs s : J s -> J (fresume cf k o now lt fs s).1.
Proof.
  intros Hs. assert (J (release k s)) as Hs0 by exact Hs. assert (forall n, J (remove_routes n (release k s))) as Hr0 by (intros n; exact Hs).
  unfold fresume. destruct (busy s !! k) as [[n|n|n w|n w]|]; [..|exact Hs]; destruct o as [st| |]; cbv zeta.
  - pose proof (sa_call _ (j_cluster n (rset_state st)) s fs Hs) as H. destruct (call _ s fs) as [[s1 fs1] []]; cbn [fst snd] in *; [exact H|]. apply j_settle; [apply sa_cfailed|exact H].
  - apply j_settle; [|exact Hs0]. apply sa_orelse; [sa|apply sa_cfailed].
  - apply j_settle; [|exact Hs0]. apply sa_cfailed.
  - exact Hs.
  - apply j_settle; [|apply Hr0]. apply sa_stopped.
  - apply j_settle; [|apply Hr0]. apply sa_stopped.
  - pose proof (sa_call _ (j_worker n w (wset_state st)) s fs Hs) as H. destruct (call _ s fs) as [[s1 fs1] []]; cbn [fst snd] in *; [exact H|]. apply j_settle; [apply sa_wfailed|exact H].
  - apply j_settle; [|exact Hs0]. apply sa_orelse; [sa|apply sa_wfailed].
  - apply j_settle; [|exact Hs0]. apply sa_wfailed.
  - exact Hs.
  - apply (j_settle lt (n, Some w) _ (release k s)); [|exact Hs0]. apply sa_wstopped.
  - apply (j_settle lt (n, Some w) _ (release k s)); [|exact Hs0]. apply sa_wstopped.
Qed.
Lemma j_got cf k now lt fs s e : used par cl e -> J s -> J (fgot cf k now lt fs s (WorkQueue_Model.step (q s) e)).1.
Proof.
  intros Hu Hs. pose proof (I_step (q s) e Hu Hs) as H. unfold fgot. destruct (WorkQueue_Model.step (q s) e) as [q' [[? []]|]]; try exact H.
  apply j_reconcile. exact H.
Qed.
Lemma j_fstep cf s fe : parallelism cf = par -> (closes fe = true -> cl = true) -> I (init (q_base cf) (q_max cf)) -> J s -> J (fstep cf s fe).1.
Proof.
  intros Hp Hcl Hi Hs. destruct fe as [e lt fs|lt x]; [|exact (I_step (q s) (ETimer lt x) Logic.I Hs)].
  destruct e as [u i mx now|n f|n m now|now| |[oks|]| |[oks|]|now|k now|k now|k o now|now| |]; cbn [fstep].
  - unfold fstart_cluster. pose proof (sa_call (fun s => (create_cluster cf u i mx now s).2) (fun _ H => H) s fs Hs) as H.
    destruct (call _ s fs) as [[s1 fs1] []]; cbn [fst] in *; [apply j_qput|]; exact H.
  - unfold fstop_cluster. destruct (lookup_cluster n s); [|exact Hs]. destruct (jge _ _); [|exact Hs]. apply j_answer; [sa|exact Hs].
  - unfold fheartbeat. destruct (lookup_cluster n s); [|exact Hs]. destruct (jlt _ _); [exact Hs|]. cbv zeta. destruct (classify _ _); [|exact Hs]. apply j_answer; [apply sa_heartbeat|exact Hs].
  - destruct (down s); [exact Hs|]. unfold fcheck_timeouts. destruct (find_late _ _ _) as [[cs ws]|]; [|exact Hs]. apply j_logged; [|exact Hs]. apply sa_seq; [apply sa_fail_clusters|apply sa_fail_workers].
  - unfold plain, step. destruct (down s), (chk_c s); exact Hs.
  - unfold fcheck_clusters_end. destruct (chk_c s); [|exact Hs]. apply j_logged; [apply sa_fail_clusters|exact Hs].
  - exact Hs.
  - unfold plain, step. destruct (down s), (chk_w s); exact Hs.
  - unfold fcheck_workers_end. destruct (chk_w s) as [ws|]; [|exact Hs]. cbv zeta. apply j_logged; [|exact Hs]. sa.
    + apply (same_fold (fun p s => update_worker p.1 p.2 (wset_target FAILED) s)). intros p. apply j_worker.
    + apply (same_fold (fun (p : nat * nat) s => qput (p.1, Some p.2) (upd_obj p.1 (fun c => cset_fails (S (c_fails c)) c) s))). intros p s2 H. apply j_qput. exact H.
  - exact Hs.
  - destruct (down s); [exact Hs|]. unfold fcleanup. cbv zeta.
    match goal with |- context [pop_ids ?i ?z] => pose proof (j_pops i z Hs) as H; destruct (pop_ids i z) as [s3 []] end; cbn [fst] in H.
    + destruct fs as [|[] ?]; cbn [call logged fst]; first [exact H|exact Hs].
    + destruct fs as [|[] ?]; first [exact H|exact Hs].
  - destruct (decide (k < parallelism cf)%nat) as [Hk|Hk]; [|exact Hs]. destruct (busy s !! k), (tasks (q s) !! k); try exact Hs. apply j_got; [|exact Hs]. cbn [used]. rewrite <- Hp. exact Hk.
  - apply j_got; [exact Logic.I|exact Hs].
  - apply j_resume, Hs.
  - apply j_qputs. exact Hi.
  - destruct (down s); [exact Hs|]. unfold fshutdown. destruct (stop_on_shutdown cf); [|exact Hs]. cbv zeta.
    match goal with |- context [ffail_clusters ?i ?z fs] => pose proof (sa_fail_clusters i z fs Hs) as H; destruct (ffail_clusters i z fs) as [[s1 fs1] []] end; exact H.
  - unfold plain, step. cbn [fst]. unfold close_queue. destruct (down s); [|exact Hs]. destruct (forallb _ _); [|exact Hs]. exact (I_step _ WorkQueue_Model.EClose (Hcl eq_refl) Hs).
Qed.
Lemma queue_reach_par cf h s : parallelism cf = par -> cl = true -> I (init (q_base cf) (q_max cf)) -> freach cf h s -> I (q s).
Proof.
  intros Hp Hcl Hi. revert h s. apply (exec_ind_r (fstep cf) (gw_init cf) (fun _ s => I (q s))); [exact Hi|]. intros h s fe o s' _ IH Hs.
  pose proof (j_fstep cf s fe Hp (fun _ => Hcl) Hi IH) as H. rewrite Hs in H. exact H.
Qed.
End queue.
Theorem queue_used (I : wq item -> Prop) cf h s : (forall qq e, used (parallelism cf) true e -> I qq -> I (WorkQueue_Model.step qq e).1) ->
  I (init (q_base cf) (q_max cf)) -> freach cf h s -> I (q s).
Proof. intros H. apply (queue_reach_par I _ true H cf h s eq_refl eq_refl). Qed.
Theorem queue_reach (I : wq item -> Prop) (I_step : forall qq e, I qq -> I (WorkQueue_Model.step qq e).1) cf h s : I (init (q_base cf) (q_max cf)) -> freach cf h s -> I (q s).
Proof. apply queue_used. intros qq e _. apply I_step. Qed.

Theorem stays_open cf s fe : closes fe = false -> closed (q s) = false -> closed (q (fstep cf s fe).1) = false.
Proof.
  intros Hc. apply (j_fstep (fun qq => closed qq = false) (parallelism cf) false); [|done|congruence|done].
  intros qq e Hu H.
  assert (forall c, closed (get_turn c qq).1 = false) as Hg.
  { intros c. destruct (get_turn c qq) as [s' r] eqn:E. cbn [fst]. rewrite (proj1 (get_turn_const c qq s' r E)). exact H. }
  destruct e as [y|now y dl|now y|y|now y|c|c|c|y|]; cbn [WorkQueue_Model.step fst used] in *; try done.
  - rewrite put_closed. exact H.
  - unfold put_backoff, backoff. rewrite (proj2 (proj2 (proj2 (put_after_const _ _ _ _)))). exact H.
  - destruct (timers qq !! y) as [w|]; [destruct (w <=? now)|]; [|exact H..]. cbn [fst]. unfold put_delayed. rewrite put_closed. exact H.
  - destruct (tasks qq !! c); [exact H|]. specialize (Hg c). destruct (get_turn c qq) as [s1 []]; exact Hg.
  - specialize (Hg c). destruct (tasks qq !! c) as [[]|]; try exact H. destruct (get_turn c qq) as [s1 []]; exact Hg.
  - unfold task_done. case_decide; [rewrite closed_wakeup|]; exact H.
Qed.

(** The longest delay is the configured one. *)
Lemma wq_max (s : wq item) e : max_delay (WorkQueue_Model.step s e).1 = max_delay s.
Proof.
  assert (forall c, max_delay (get_turn c s).1 = max_delay s) as Hg.
  { intros c. destruct (get_turn c s) as [s' r] eqn:E. apply (get_turn_const c s s' r E). }
  destruct e as [y|now y dl|now y|y|now y|c|c|c|y|]; cbn [WorkQueue_Model.step fst].
  - apply put_max.
  - apply put_after_const.
  - unfold put_backoff, backoff. rewrite (proj1 (proj2 (put_after_const _ _ _ _))). done.
  - done.
  - destruct (timers s !! y) as [w|]; [destruct (w <=? now)|]; [|done..]. cbn [fst]. unfold put_delayed. rewrite put_max. done.
  - destruct (tasks s !! c); [done|]. specialize (Hg c). destruct (get_turn c s) as [s1 []]; done.
  - specialize (Hg c). destruct (tasks s !! c) as [[]|]; try done. destruct (get_turn c s) as [s1 []]; done.
  - destruct (tasks s !! c); done.
  - apply task_done_fields.
  - done.
Qed.
Lemma max_delay_is cf h s : freach cf h s -> max_delay (q s) = q_max cf.
Proof. apply (queue_reach (fun qq => max_delay qq = q_max cf)); [|done]. intros qq e H. rewrite wq_max. exact H. Qed.
Theorem fretried_in cf h s e lt fs s' o x : freach cf h s -> fstep cf s (FE e lt fs) = (s', o) -> FRetry x ∈ o ->
  x ∈ dirty (q s') \/ exists t, timers (q s') !! x = Some t /\ t <= lt + q_max cf.
Proof.
  intros Hr Hs Hin. pose proof (fretried cf s e lt fs s' o x Hs Hin) as H. unfold due in H.
  assert (freach cf (h ++ [(FE e lt fs, o)]) s') as Hr'. { apply exec_app. exists s. split; [exact Hr|]. econstructor; [exact Hs|constructor]. }
  rewrite (max_delay_is cf _ _ Hr') in H. exact H.
Qed.

(** What is to be done is in line or being worked on. *)
Definition taken (qq : wq item) : Prop := forall x, x ∈ dirty qq -> x ∈ queue qq \/ x ∈ processing qq.
Lemma taken_same q1 q2 : dirty q2 = dirty q1 -> queue q2 = queue q1 -> processing q2 = processing q1 -> taken q1 -> taken q2.
Proof. unfold taken. intros -> -> -> H. exact H. Qed.
Lemma taken_put x qq : taken qq -> taken (put x qq).
Proof.
  intros H. unfold put. apply (taken_same (put_ x qq)); [apply wakeup_next_fields..|]. unfold put_. case_decide as Hd; [exact H|]. cbv zeta. case_decide as Hp.
  - intros y Hy. cbn in *. apply elem_of_union in Hy as [Hy%elem_of_singleton|Hy]; [|exact (H y Hy)]. subst y. right. exact Hp.
  - intros y Hy. cbn in *. apply elem_of_union in Hy as [Hy%elem_of_singleton|Hy]; [subst y; left; apply elem_of_app; right; by left|].
    destruct (H y Hy); [left; apply elem_of_app; by left|by right].
Qed.
Lemma taken_step qq e : taken qq -> taken (WorkQueue_Model.step qq e).1.
Proof.
  intros H.
  assert (forall now x d q0, taken q0 -> taken (put_after now x d q0)) as Ha.
  { intros now x d q0 H0. unfold put_after. destruct (timers q0 !! x) as [w|]; [destruct (_ <? w)|]; cbv zeta; try destruct (0 <? d); try apply taken_put; exact H0. }
  assert (forall c, taken (get_turn c qq).1) as Hg.
  { intros c. unfold get_turn, get_. destruct (queue qq) as [|x l] eqn:El; destruct (closed qq); cbn; try exact H.
    all: intros y Hy; cbn in *; apply elem_of_difference in Hy as [Hy Hn]; destruct (H y Hy) as [Hl|Hp]; [rewrite El in Hl; apply elem_of_cons in Hl as [->|Hl]; [set_solver|by left]|right; set_solver]. }
  destruct e as [y|now y dl|now y|y|now y|c|c|c|y|]; cbn [WorkQueue_Model.step fst].
  - apply taken_put, H.
  - apply Ha, H.
  - unfold put_backoff, backoff. apply Ha. exact H.
  - exact H.
  - destruct (timers qq !! y) as [w|]; [destruct (w <=? now)|]; [|exact H..]. cbn [fst]. unfold put_delayed. apply taken_put. exact H.
  - destruct (tasks qq !! c); [exact H|]. specialize (Hg c). destruct (get_turn c qq) as [s1 []]; exact Hg.
  - specialize (Hg c). destruct (tasks qq !! c) as [[]|]; try exact H. destruct (get_turn c qq) as [s1 []]; exact Hg.
  - destruct (tasks qq !! c); exact H.
  - unfold task_done. cbv zeta. case_decide as Hd.
    + eapply taken_same; [apply wakeup_next_fields..|]. intros z Hz. cbn in *. destruct (decide (z = y)) as [->|Hne]; [left; apply elem_of_app; right; by left|].
      destruct (H z Hz); [left; apply elem_of_app; by left|right; set_solver].
    + intros z Hz. cbn in *. destruct (H z Hz); [by left|]. right. apply elem_of_difference. split; [done|]. set_solver.
  - exact H.
Qed.
Theorem ftimer_in cf h s x t lt : freach cf h s -> timers (q s) !! x = Some t -> t <= lt ->
  let s' := (fstep cf s (FTimer lt x)).1 in x ∈ queue (q s') \/ x ∈ processing (q s').
Proof.
  intros Hr Ht Hle. cbv zeta. pose proof (queue_reach taken taken_step cf h s) as H.
  assert (taken (q s)) as H0. { apply H; [|exact Hr]. intros y Hy. apply not_elem_of_empty in Hy. destruct Hy. }
  apply (taken_step (q s) (ETimer lt x) H0). unfold WorkQueue_Model.step. rewrite Ht. apply Z.leb_le in Hle. rewrite Hle. cbn [fst]. unfold put_delayed.
  rewrite (proj1 (proj2 (proj2 (put_core x _)))). set_solver.
Qed.
