(** What each event of the gateway does to its work queue and to the
    reconcilers: the facts the liveness proofs are built on. *)
From Coq Require Import ZArith Lia.
From stdpp Require Import prelude gmap.
From Verif Require Import Trace WorkQueue_Model WorkQueue_Proofs Router_Model Gateway_Model Gateway_Inv
  Gateway_Steps Gateway_Steps2 Gateway_Steps3 Gateway_Steps4 Gateway_Busy Gateway_Spec.
Open Scope Z_scope.

Definition puts (xs : list item) (a : wq item) : wq item := fold_left (fun a x => put x a) xs a.
Definition qg (s s' : gw) : Prop := exists xs, q s' = puts xs (q s).

Lemma qg_same s s' : q s' = q s -> qg s s'. Proof. intros H. exists []. done. Qed.
Lemma qg_trans a b c : qg a b -> qg b c -> qg a c.
Proof. intros [xs Hx] [ys Hy]. exists (xs ++ ys). rewrite Hy, Hx. unfold puts. rewrite fold_left_app. done. Qed.
Lemma qg_put x s : qg s (qput x s). Proof. exists [x]. done. Qed.
Lemma qg_puts xs s : qg s (qputs xs s).
Proof. revert s. induction xs as [|x xs IH]; intros s; [by apply qg_same|]. eapply qg_trans; [apply qg_put|]. apply IH. Qed.
Lemma qg_row n f s : qg s (update_cluster n f s).
Proof. apply qg_same. unfold update_cluster. destruct (objs s !! n); done. Qed.
Lemma qg_wk n w f s : qg s (update_worker n w f s).
Proof. apply qg_same. unfold update_worker. destruct (get_worker n w s); done. Qed.
Lemma qg_attr n g s : qg s (upd_obj n g s). Proof. by apply qg_same. Qed.
Lemma qg_fold {A} (f : gw -> A -> gw) l s : (forall s a, qg s (f s a)) -> qg s (fold_left f l s).
Proof. intros Hf. revert s. induction l as [|a l IH]; intros s; simpl; [by apply qg_same|]. eapply qg_trans; eauto. Qed.
Lemma qg_rows ns f s : qg s (update_clusters ns f s).
Proof. apply qg_fold. intros. apply qg_row. Qed.
Lemma qg_wks n ws f s : qg s (update_workers n ws f s).
Proof. apply qg_fold. intros. apply qg_wk. Qed.
Lemma qg_targets n ts s : qg s (set_targets n ts s).
Proof. apply qg_fold. intros. apply qg_wk. Qed.
Lemma qg_fail_clusters ns s : qg s (fail_clusters ns s).
Proof. unfold fail_clusters. eapply qg_trans; [apply qg_rows|apply qg_puts]. Qed.
Lemma qg_fail_workers ws s : qg s (fail_workers ws s).
Proof. unfold fail_workers. eapply qg_trans; [|apply qg_puts]. apply qg_fold. intros. apply qg_wk. Qed.
Lemma qg_create_workers cf k n now s : qg s (create_workers cf k n now s).
Proof.
  revert s. induction k as [|k IH]; intros s; [by apply qg_same|]. cbn [create_workers].
  destruct (create_worker cf n now s) as [w s1] eqn:E. eapply qg_trans; [|apply IH]. eapply qg_trans; [|apply qg_put].
  apply qg_same. unfold create_worker in E. injection E as <- <-. done.
Qed.
Lemma qg_scale cf n now s : qg s (check_scale cf n now s).
Proof.
  unfold check_scale. destruct (objs s !! n); [|by apply qg_same].
  case_decide; [|apply qg_create_workers]. eapply qg_trans; [apply qg_row|apply qg_put].
Qed.
Lemma qg_proxied n s : qg s (check_proxied n s).
Proof. apply qg_same. unfold check_proxied. destruct (objs s !! n); [|done]. destruct (c_proxied c); done. Qed.
Lemma qg_closing cf n c s : qg s (cluster_to_closing cf n c s).
Proof.
  unfold cluster_to_closing. set (ws := map w_name _). set (t := if bulk cf then CLOSING else STOPPED).
  set (s1 := qputs _ _). assert (qg s s1) as H1 by (eapply qg_trans; [apply qg_wks|apply qg_puts]).
  set (s2 := update_cluster n _ s1). assert (qg s s2) as H2 by (eapply qg_trans; [exact H1|apply qg_row]).
  clearbody s2 s1. destruct ws.
  - eapply qg_trans; [exact H2|]. eapply qg_trans; [apply qg_put|apply qg_attr].
  - eapply qg_trans; [exact H2|apply qg_attr].
Qed.
Lemma qg_stopped n now s : qg s (cluster_stopped n now s).
Proof.
  unfold cluster_stopped. destruct (objs s !! n); [|by apply qg_same].
  eapply qg_trans; [apply qg_wks|]. eapply qg_trans; [apply qg_row|apply qg_attr].
Qed.
Lemma qg_rest cf n w s : qg s (worker_stopped_rest cf n w s).
Proof.
  unfold worker_stopped_rest. destruct (objs s !! n) as [c|]; [|by apply qg_same]. destruct (get_worker n w s); [|by apply qg_same].
  destruct (ready_to_close cf c); [apply qg_put|]. case_decide; [apply qg_put|by apply qg_same].
Qed.
Lemma qg_heartbeat n m now s : qg s (heartbeat n m now s).1.
Proof.
  unfold heartbeat. destruct (lookup_cluster n s) as [c|]; [|by apply qg_same]. destruct (jlt _ _); [by apply qg_same|].
  destruct (classify _ _) as [z|]; [|by apply qg_same]. cbn [fst].
  match goal with |- context [z_targets z ++ ?l] => set (extra := l) end.
  match goal with |- context [set_targets n (z_targets z ++ extra) ?x] => set (s2 := x) end.
  assert (qg s s2) as H2.
  { unfold s2. destruct (_ || _); [|apply qg_attr]. eapply qg_trans; [apply qg_attr|]. eapply qg_trans; [apply qg_row|apply qg_put]. }
  eapply qg_trans; [|apply qg_wks].
  assert (qg s (qputs (map (fun t : nat * job => (n, Some t.1)) (z_targets z ++ extra)) (set_targets n (z_targets z ++ extra) s2))) as H3.
  { eapply qg_trans; [exact H2|]. eapply qg_trans; [apply qg_targets|apply qg_puts]. }
  destruct (z_running z); [done|]. eapply qg_trans; [exact H3|]. eapply qg_trans; [apply qg_attr|apply qg_wks].
Qed.

(** * The cases *)
Definition asks (cf : cfg) (s : gw) (e : event) (k : nat) : Prop :=
  (exists now, e = EGet k now /\ (k < parallelism cf)%nat /\ tasks (q s) !! k = None) \/
  (exists now, e = EWake k now /\ tasks (q s) !! k = Some Woken).
Inductive qcase (cf : cfg) (s : gw) (e : event) (s' : gw) : Prop :=
| qc_grow : busy s' = busy s -> qg s s' -> qcase cf s e s'
| qc_wait k : asks cf s e k -> queue (q s) = [] -> busy s' = busy s -> get_turn k (q s) = (q s', None) -> qcase cf s e s'
| qc_refused k : asks cf s e k -> busy s' = busy s -> get_turn k (q s) = (q s', Some ClosedError) -> closed (q s) = true -> qcase cf s e s'
| qc_close : e = EClose -> busy s' = busy s -> q s' = close (q s) -> qcase cf s e s'
| qc_begin k x q' p : asks cf s e k -> busy s !! k = None -> takes cf s e x -> get_turn k (q s) = (q', Some (Item x)) ->
    pc_item p = x -> q s' = q' -> busy s' = <[k := p]> (busy s) -> qcase cf s e s'
| qc_handle k x q' xs : asks cf s e k -> busy s !! k = None -> takes cf s e x -> get_turn k (q s) = (q', Some (Item x)) ->
    q s' = task_done x (reset_backoff x (puts xs q')) -> busy s' = busy s -> qcase cf s e s'
| qc_end k p o now xs : e = EBackend k o now -> o = Ends \/ o = Raises -> busy s !! k = Some p ->
    q s' = task_done (pc_item p) (reset_backoff (pc_item p) (puts xs (q s))) -> busy s' = delete k (busy s) -> qcase cf s e s'.

Section cases.
Context (cf : cfg) (s : gw).
Hypothesis HI : Inv cf None ∅ s.
Hypothesis Hnc : forall k, tasks (q s) !! k <> Some Cancelling.

Lemma qg_ex (x : item) s1 s2 : qg s1 s2 -> exists xs, q (finish x s2) = task_done x (reset_backoff x (puts xs (q s1))).
Proof. intros [xs Hx]. exists xs. unfold finish. simpl. rewrite Hx. done. Qed.

Lemma reconcile_ind (P : gw -> Prop) k x now q' :
  (forall s2, busy s2 = busy s -> qg (set_q q' s) s2 -> P (finish x s2)) ->
  (forall p, pc_item p = x -> P (suspend k p (set_q q' s))) -> P (reconcile cf k x now (set_q q' s)).1.
Proof.
  intros Hfin Hsusp.
  assert (qg (set_q q' s) (set_q q' s)) as Hr by (by apply qg_same).
  destruct x as [n [w|]]; unfold reconcile; cbn [fst snd].
  - unfold reconcile_worker. destruct (get_worker n w (set_q q' s)) as [wk|]; [|apply Hfin; done].
    destruct (jge _ _); [apply Hfin; done|]. case_decide.
    { cbn [fst]. set (s1 := if decide _ then _ else _).
      assert (busy s1 = busy s /\ qg (set_q q' s) s1) as [H1 H2].
      { unfold s1. case_decide; [done|]. split; [rewrite busy_wk; done|apply qg_wk]. }
      destruct (is_ready cf n s1); apply Hfin; try done. eapply qg_trans; [exact H2|apply qg_put]. }
    case_decide.
    { destruct (jlt _ _); cbn [fst]; [apply Hsusp; done|]. apply Hfin.
      - rewrite busy_rest. unfold worker_stopped. rewrite busy_wk. done.
      - eapply qg_trans; [|apply qg_rest]. apply qg_wk. }
    case_decide; cbn [fst]; [apply Hsusp; done|apply Hfin; done].
  - unfold reconcile_cluster. change (objs (set_q q' s)) with (objs s). destruct (objs s !! n) as [c|]; [|apply Hfin; done].
    destruct (jge _ _); [apply Hfin; done|]. case_decide.
    { case_decide; cbn [fst].
      - destruct (ready_to_close cf c); [|apply Hfin; done]. destruct (jlt _ _); cbn [fst]; [apply Hsusp; done|].
        apply Hfin; [rewrite busy_stopped; done|apply qg_stopped].
      - apply Hfin; [rewrite busy_closing; done|apply qg_closing]. }
    case_decide; [|apply Hfin; done]. case_decide; cbn [fst]; [apply Hsusp; done|].
    set (s1 := if decide _ then _ else _).
    assert (busy s1 = busy s /\ qg (set_q q' s) s1) as [H1' H2'].
    { unfold s1. case_decide; [|done]. split; [rewrite busy_attr, busy_row; done|]. eapply qg_trans; [apply qg_row|apply qg_attr]. }
    destruct (objs s1 !! n); [|apply Hfin; done]. case_decide; [|apply Hfin; done]. apply Hfin.
    + rewrite busy_scale, busy_proxied. done.
    + eapply qg_trans; [exact H2'|]. eapply qg_trans; [apply qg_proxied|apply qg_scale].
Qed.
Lemma reconcile_qcase e k x now q' : asks cf s e k -> busy s !! k = None -> takes cf s e x -> get_turn k (q s) = (q', Some (Item x)) ->
  qcase cf s e (reconcile cf k x now (set_q q' s)).1.
Proof.
  intros Ha Hk Ht Hg. apply reconcile_ind.
  - intros s2 Hb Hq. destruct (qg_ex x _ _ Hq) as [xs Hx]. eapply (qc_handle cf s e _ k x q' xs); eauto.
  - intros p Hp. eapply (qc_begin cf s e _ k x q' p); eauto.
Qed.

Lemma turn_qcase e k now : asks cf s e k -> busy s !! k = None ->
  (forall q' x, get_turn k (q s) = (q', Some (Item x)) -> takes cf s e x) ->
  qcase cf s e (got cf k now s (as_out k (get_turn k (q s)))).1.
Proof.
  intros Ha Hk Ht. destruct (get_turn k (q s)) as [q' r] eqn:Hg.
  destruct (get_turn_cases _ _ _ _ Hg) as [(x & l & H)|[H|H]].
  - destruct H as (Hq & _ & _ & _ & _ & _ & _ & _ & ->). cbn [as_out got]. eapply reconcile_qcase; eauto.
  - destruct H as (_ & _ & _ & -> & H). cbn [as_out got fst]. eapply qc_refused; eauto.
  - destruct H as (_ & Hq & _ & _ & _ & ->). cbn [as_out got fst]. eapply qc_wait; eauto.
Qed.

Lemma step_qcase e : crash e = false -> qcase cf s e (step cf s e).1.
Proof.
  intros He.
  assert (forall s', busy s' = busy s -> qg s s' -> qcase cf s e s') as Hq by (intros; by apply qc_grow).
  assert (qg s s) as Hr by (by apply qg_same).
  destruct e as [user info mx now|n failed|n m now|now| |oks| |oks|now|k now|k now|k o now|now| |];
    try discriminate He; cbn [step fst] in *.
  - unfold start_cluster, create_cluster. cbn [fst snd]. apply Hq; [done|]. exists [(uuid s, None)]. done.
  - unfold stop_cluster. destruct (lookup_cluster n s); [|apply Hq; done]. destruct (jge _ _); [|apply Hq; done].
    apply Hq; [rewrite busy_put, busy_row; done|]. eapply qg_trans; [apply qg_row|apply qg_put].
  - apply Hq; [apply busy_heartbeat|apply qg_heartbeat].
  - destruct (down s); [apply Hq; done|]. unfold check_timeouts. destruct (find_late _ _ _) as [[cs ws]|]; [|apply Hq; done].
    cbn [fst]. apply Hq; [rewrite busy_fail_workers, busy_fail_clusters; done|].
    eapply qg_trans; [apply qg_fail_clusters|apply qg_fail_workers].
  - destruct (down s); [apply Hq; done|]. destruct (chk_c s); apply Hq; done.
  - destruct oks; cbn [fst]; [|apply Hq; done]. unfold check_clusters_end. destruct (chk_c s); [|apply Hq; done].
    apply Hq; [rewrite busy_fail_clusters; done|]. eapply qg_trans; [|apply qg_fail_clusters]. by apply qg_same.
  - destruct (down s); [apply Hq; done|]. destruct (chk_w s); apply Hq; done.
  - destruct oks; cbn [fst]; [|apply Hq; done]. unfold check_workers_end. destruct (chk_w s); [|apply Hq; done].
    apply Hq. { rewrite busy_fold by done. rewrite busy_fold; [done|]. intros. apply busy_wk. }
    eapply qg_trans; [|apply qg_fold].
    + eapply qg_trans; [|apply qg_fold; intros; apply qg_wk]. by apply qg_same.
    + intros s1 a. eapply qg_trans; [apply qg_attr|apply qg_put].
  - destruct (down s); [apply Hq; done|]. cbn [fst]. apply Hq; [apply busy_cleanup|].
    apply qg_same. apply cleanup_expired_objs.
  - case_decide as Hlt; [|apply Hq; done]. destruct (busy s !! k) eqn:Hk; [apply Hq; done|].
    destruct (tasks (q s) !! k) eqn:Ht; [apply Hq; done|]. cbn [WorkQueue_Model.step]. rewrite Ht.
    apply turn_qcase; [left; eauto|done|]. intros q' x Hg. exists k, now, q'. left.
    do 4 (split; [done|]). cbn [WorkQueue_Model.step]. rewrite Ht, Hg. done.
  - cbn [WorkQueue_Model.step]. destruct (tasks (q s) !! k) as [[]|] eqn:Hk.
    1,4: apply Hq; done.
    + apply turn_qcase; [right; eauto| |].
      * destruct (busy s !! k) as [p|] eqn:Hb; [|done]. apply (g_tasks _ _ _ _ HI) in Hb. congruence.
      * intros q' x Hg. exists k, now, q'. right. split; [done|]. cbn [WorkQueue_Model.step]. rewrite Hk, Hg. done.
    + apply Hnc in Hk. done.
  - unfold resume. destruct (busy s !! k) as [p|] eqn:Hk; [|apply Hq; done].
    assert (forall s2, o = Ends \/ o = Raises -> busy s2 = delete k (busy s) -> qg s s2 -> qcase cf s (EBackend k o now) (finish (pc_item p) s2)) as Hend.
    { intros s2 Ho Hb Hg. destruct (qg_ex (pc_item p) _ _ Hg) as [xs Hx]. eapply qc_end; eauto. }
    assert (qg s (release k s)) as Hrel by (by apply qg_same).
    destruct p as [n|n|n w|n w], o as [st| |]; cbn [fst snd pc_item] in *; try (apply Hq; [done|by apply qg_same]).
    + apply Hq; [apply busy_row|apply qg_row].
    + apply Hend; [auto|rewrite busy_row; done|]. eapply qg_trans; [exact Hrel|apply qg_row].
    + apply Hend; [auto|rewrite busy_put, busy_row; done|]. eapply qg_trans; [exact Hrel|]. eapply qg_trans; [apply qg_row|apply qg_put].
    + apply Hend; [auto|rewrite busy_stopped; done|]. eapply qg_trans; [|apply qg_stopped]. by apply qg_same.
    + apply Hend; [auto|rewrite busy_stopped; done|]. eapply qg_trans; [|apply qg_stopped]. by apply qg_same.
    + apply Hq; [apply busy_wk|apply qg_wk].
    + apply Hend; [auto|rewrite busy_wk; done|]. eapply qg_trans; [exact Hrel|apply qg_wk].
    + apply Hend; [auto|rewrite busy_put, busy_attr, busy_wk; done|]. eapply qg_trans; [exact Hrel|]. eapply qg_trans; [apply qg_wk|].
      eapply qg_trans; [apply qg_attr|apply qg_put].
    + apply Hend; [auto|rewrite busy_rest; unfold worker_stopped; rewrite busy_wk; done|].
      eapply qg_trans; [exact Hrel|]. eapply qg_trans; [|apply qg_rest]. apply qg_wk.
    + apply Hend; [auto|rewrite busy_rest; unfold worker_stopped; rewrite busy_wk; done|].
      eapply qg_trans; [exact Hrel|]. eapply qg_trans; [|apply qg_rest]. apply qg_wk.
  - destruct (down s); [apply Hq; done|]. cbn [fst]. unfold shutdown. destruct (stop_on_shutdown cf); apply Hq; try done.
    + simpl. rewrite busy_fail_clusters. done.
    + eapply qg_trans; [|apply qg_same; done]. eapply qg_trans; [|apply qg_fail_clusters]. by apply qg_same.
  - unfold close_queue. destruct (down s); [|apply Hq; done]. destruct (forallb _ _); [|apply Hq; done]. apply qc_close; done.
Qed.
End cases.

(** * No delayed puts *)
Lemma qg_timers s s' : qg s s' -> timers (q s') = timers (q s).
Proof.
  intros [xs ->]. unfold puts. generalize (q s) as a. induction xs as [|x xs IH]; intros a; simpl; [done|].
  rewrite IH. destruct (put_core x a) as (_ & -> & _). done.
Qed.
Lemma finish_timers x s : timers (q (finish x s)) = timers (q s).
Proof. unfold finish. simpl. destruct (done_core x (q s)) as (_ & _ & -> & _). done. Qed.
Lemma got_timers cf k now s : timers (q (got cf k now s (as_out k (get_turn k (q s)))).1) = timers (q s).
Proof.
  destruct (get_turn k (q s)) as [q' r] eqn:Hg. assert ((exists x, r = Some (Item x)) \/ ~ exists x, r = Some (Item x)) as [[x ->]|Hr].
  { destruct r as [[x| | |]|]; [left; eauto|right; intros [? [=]]..]. }
  - destruct (get_turn_item _ _ _ _ Hg) as (_ & _ & _ & Ht & _). cbn [as_out got].
    apply (reconcile_ind cf s (fun s1 => timers (q s1) = timers (q s)) k x now q').
    + intros s2 _ Hq. rewrite finish_timers, (qg_timers _ _ Hq). done.
    + intros p _. done.
  - destruct (get_turn_other _ _ _ _ Hg) as (_ & _ & _ & Ht & _); [intros x ->; apply Hr; eauto|].
    destruct r as [[]|]; cbn [as_out got fst]; try done. exfalso. apply Hr. eauto.
Qed.
Lemma step_timers cf e s : crash e = false -> timers (q (step cf s e).1) = timers (q s).
Proof.
  intros He.
  destruct e as [user info mx now|n failed|n m now|now| |oks| |oks|now|k now|k now|k o now|now| |];
    try discriminate He; cbn [step fst] in *.
  - unfold start_cluster, create_cluster. cbn [fst snd]. rewrite (qg_timers _ _ (qg_put _ _)). done.
  - unfold stop_cluster. destruct (lookup_cluster n s); [|done]. destruct (jge _ _); [|done].
    rewrite (qg_timers _ _ (qg_put _ _)), (qg_timers _ _ (qg_row _ _ _)). done.
  - apply qg_timers, qg_heartbeat.
  - destruct (down s); [done|]. unfold check_timeouts. destruct (find_late _ _ _) as [[cs ws]|]; [|done].
    cbn [fst]. rewrite (qg_timers _ _ (qg_fail_workers _ _)). apply qg_timers, qg_fail_clusters.
  - destruct (down s); [done|]. destruct (chk_c s); done.
  - destruct oks; cbn [fst]; [|done]. unfold check_clusters_end. destruct (chk_c s); [|done].
    rewrite (qg_timers _ _ (qg_fail_clusters _ _)). done.
  - destruct (down s); [done|]. destruct (chk_w s); done.
  - destruct oks; cbn [fst]; [|done]. unfold check_workers_end. destruct (chk_w s) as [ws|]; [|done].
    change (timers (q s)) with (timers (q (set_chk_w None s))). apply qg_timers. eapply qg_trans; [|apply qg_fold].
    + apply qg_fold; intros; apply qg_wk.
    + intros s1 a. eapply qg_trans; [apply qg_attr|apply qg_put].
  - destruct (down s); [done|]. cbn [fst]. f_equal. apply cleanup_expired_objs.
  - case_decide as Hlt; [|done]. destruct (busy s !! k) eqn:Hk; [done|].
    destruct (tasks (q s) !! k) eqn:Ht; [done|]. cbn [WorkQueue_Model.step]. rewrite Ht. apply got_timers.
  - cbn [WorkQueue_Model.step]. destruct (tasks (q s) !! k) as [[]|] eqn:Hk; try done. apply got_timers.
  - unfold resume. destruct (busy s !! k) as [p|] eqn:Hk; [|done].
    destruct p as [n|n|n w|n w], o as [st| |]; cbn [fst snd pc_item] in *; rewrite ?finish_timers; try done.
    + apply qg_timers, qg_row.
    + rewrite (qg_timers _ _ (qg_row _ _ _)). done.
    + rewrite (qg_timers _ _ (qg_put _ _)), (qg_timers _ _ (qg_row _ _ _)). done.
    + rewrite (qg_timers _ _ (qg_stopped _ _ _)). done.
    + rewrite (qg_timers _ _ (qg_stopped _ _ _)). done.
    + apply qg_timers, qg_wk.
    + rewrite (qg_timers _ _ (qg_wk _ _ _ _)). done.
    + rewrite (qg_timers _ _ (qg_put _ _)). rewrite (qg_timers _ _ (qg_attr _ _ _)), (qg_timers _ _ (qg_wk _ _ _ _)). done.
    + rewrite (qg_timers _ _ (qg_rest _ _ _ _)). unfold worker_stopped. rewrite (qg_timers _ _ (qg_wk _ _ _ _)). done.
    + rewrite (qg_timers _ _ (qg_rest _ _ _ _)). unfold worker_stopped. rewrite (qg_timers _ _ (qg_wk _ _ _ _)). done.
  - destruct (down s); [done|]. cbn [fst]. unfold shutdown. destruct (stop_on_shutdown cf); [|done].
    simpl. rewrite (qg_timers _ _ (qg_fail_clusters _ _)). done.
  - unfold close_queue. destruct (down s); [|done]. destruct (forallb _ _); done.
Qed.
Lemma leads_timers cf s h s' : leads cf s h s' -> timers (q s) = ∅ -> timers (q s') = ∅.
Proof.
  intros Hl. induction Hl as [|s e o s1 h s' Hs Hl IH]; [done|]. intros Ht. apply IH.
  assert (s1 = (step cf s e).1) as -> by (rewrite Hs; done). destruct (crash e) eqn:He; [|by rewrite step_timers].
  destruct e; try done. cbn [step fst]. unfold restart. erewrite qg_timers; [|apply qg_puts]. done.
Qed.
Lemma reach_timers cf h s : reach cf h s -> timers (q s) = ∅.
Proof. intros Hr. eapply leads_timers; [exact Hr|done]. Qed.
Lemma Dof_put X s x : timers (q s) = ∅ -> Dof X s x -> x ∈ dirty (q s) \/ x ∈ X.
Proof. intros Ht [[?|[t H]]|?]; auto. rewrite Ht, lookup_empty in H. done. Qed.

(** * What survives puts and the end of an item *)
Lemma aux_woken (w : list nat) t k : t !! k = Some Woken -> (wakeup_next_aux w t).2 !! k = Some Woken.
Proof.
  revert t. induction w as [|c w IH]; intros t Hk; simpl; [done|].
  destruct (t !! c) as [[]|] eqn:Hc; auto. simpl. rewrite lookup_insert_ne; [done|]. congruence.
Qed.
Lemma aux_dom (w : list nat) t k st : (wakeup_next_aux w t).2 !! k = Some st -> is_Some (t !! k) /\ (st = Cancelling -> t !! k = Some Cancelling).
Proof.
  revert t. induction w as [|c w IH]; intros t; simpl; [intros Hk; split; [eauto|congruence]|].
  destruct (t !! c) as [[]|] eqn:Hc; auto. simpl. destruct (decide (c = k)) as [<-|E].
  - rewrite lookup_insert. intros [= <-]. split; [eauto|done].
  - rewrite lookup_insert_ne by done. intros Hk. split; [eauto|congruence].
Qed.
Lemma wake_tasks (a : wq item) : tasks (wakeup_next a) = (wakeup_next_aux (waiting a) (tasks a)).2.
Proof. unfold wakeup_next. destruct (wakeup_next_aux _ _); done. Qed.
Lemma put_tasks_eq (x : item) a : tasks (put x a) = (wakeup_next_aux (waiting a) (tasks a)).2.
Proof. unfold put. rewrite wake_tasks. destruct (put__tasks x a) as (-> & -> & _). done. Qed.

(** The parts of the queue that matter here. *)
Record Q (cf : cfg) (a : wq item) : Prop := {
  q_W : W a;
  q_par : forall k, is_Some (tasks a !! k) -> (k < parallelism cf)%nat;
  q_nc : forall k, tasks a !! k <> Some Cancelling }.

Lemma Q_init cf b m : Q cf (init b m).
Proof. constructor; [apply W_init| |]; intros k; simpl; rewrite lookup_empty; [intros [? ?]|]; done. Qed.
Lemma Q_put cf x a : Q cf a -> Q cf (put x a).
Proof.
  intros []. constructor; [by apply W_put| |]; intros k; rewrite put_tasks_eq.
  - intros [st Hk]. apply aux_dom in Hk as [Hk _]. auto.
  - intros Hk. apply aux_dom in Hk as [_ Hk]. eapply q_nc0. auto.
Qed.
Lemma Q_puts cf xs a : Q cf a -> Q cf (puts xs a).
Proof. unfold puts. revert a. induction xs as [|x xs IH]; intros a Ha; simpl; [done|]. apply IH, Q_put. done. Qed.
Lemma W_done (x : item) (a : wq item) : W a -> W (task_done x (reset_backoff x a)).
Proof.
  intros [H1 H2 H3]. unfold task_done. case_decide; [|constructor; done]. apply W_wakeup; simpl; auto.
  intros Hb. rewrite app_length. specialize (H2 Hb). simpl. lia.
Qed.
Lemma Q_done cf x a : Q cf a -> Q cf (task_done x (reset_backoff x a)).
Proof.
  intros []. constructor; [by apply W_done| |]; unfold task_done; intros k; case_decide; rewrite ?wake_tasks; simpl; auto.
  - intros [st Hk]. apply aux_dom in Hk as [Hk _]. auto.
  - intros Hk. apply aux_dom in Hk as [_ Hk]. eapply q_nc0. auto.
Qed.
Lemma Q_turn cf k a a' r : Q cf a -> (k < parallelism cf)%nat -> get_turn k a = (a', r) ->
  tasks a !! k = None \/ tasks a !! k = Some Woken -> Q cf a'.
Proof.
  intros [] Hk Hg Ht. constructor; [eapply W_get_turn; eauto| |].
  - intros j Hj. destruct (get_turn_cases _ _ _ _ Hg) as [(x & l & _ & _ & _ & _ & _ & _ & _ & Ha & _)|[(_ & Ha & _)|(_ & _ & _ & Ha & _)]]; rewrite Ha in Hj.
    + destruct (decide (k = j)) as [<-|]; [done|]. rewrite lookup_delete_ne in Hj; auto.
    + destruct (decide (k = j)) as [<-|]; [done|]. rewrite lookup_delete_ne in Hj; auto.
    + destruct (decide (k = j)) as [<-|]; [done|]. rewrite lookup_insert_ne in Hj; auto.
  - intros j. destruct (get_turn_cases _ _ _ _ Hg) as [(x & l & _ & _ & _ & _ & _ & _ & _ & Ha & _)|[(_ & Ha & _)|(_ & _ & _ & Ha & _)]]; rewrite Ha.
    + destruct (decide (k = j)) as [<-|]; [rewrite lookup_delete; done|]. rewrite lookup_delete_ne; auto.
    + destruct (decide (k = j)) as [<-|]; [rewrite lookup_delete; done|]. rewrite lookup_delete_ne; auto.
    + destruct (decide (k = j)) as [<-|]; [rewrite lookup_insert; done|]. rewrite lookup_insert_ne; auto.
Qed.
Lemma asks_ok cf s e k : Q cf (q s) -> asks cf s e k -> (k < parallelism cf)%nat /\ (tasks (q s) !! k = None \/ tasks (q s) !! k = Some Woken).
Proof.
  intros HQ [(now & _ & Hk & Ht)|(now & _ & Ht)]; [auto|]. split; [|auto]. apply (q_par _ _ HQ). eauto.
Qed.
Lemma wakeup_all_dom (l : list nat) t k st : wakeup_all_aux l t !! k = Some st -> is_Some (t !! k) /\ (st = Cancelling -> t !! k = Some Cancelling).
Proof.
  revert t. induction l as [|c l IH]; intros t; simpl; [intros Hk; split; [eauto|congruence]|].
  destruct (t !! c) as [[]|] eqn:Hc; auto. intros Hk. apply IH in Hk as [Hk1 Hk2].
  destruct (decide (c = k)) as [<-|E].
  - split; [eauto|]. intros H. apply Hk2 in H. rewrite lookup_insert in H. done.
  - rewrite lookup_insert_ne in Hk1, Hk2 by done. auto.
Qed.
Lemma Q_close cf a : Q cf a -> Q cf (close a).
Proof.
  intros []. constructor.
  - eapply (W_step a WorkQueue_Model.EClose); [done|reflexivity|done].
  - intros k [st Hk]. unfold close, wakeup_all in Hk. simpl in Hk. apply wakeup_all_dom in Hk as [Hk _]. auto.
  - intros k Hk. unfold close, wakeup_all in Hk. simpl in Hk. apply wakeup_all_dom in Hk as [_ Hk]. eapply q_nc0. auto.
Qed.

Lemma Q_case cf s e s' : Q cf (q s) -> qcase cf s e s' -> Q cf (q s').
Proof.
  intros HQ [Hb [xs Hx]|k Ha Hq Hb Hg|k Ha Hb Hg Hcl|_ Hb Hq|k x q' p Ha Hk Ht Hg Hp Hq Hb|k x q' xs Ha Hk Ht Hg Hq Hb|k p o now xs He Ho Hk Hq Hb].
  - rewrite Hx. by apply Q_puts.
  - destruct (asks_ok _ _ _ _ HQ Ha). eapply Q_turn; eauto.
  - destruct (asks_ok _ _ _ _ HQ Ha). eapply Q_turn; eauto.
  - rewrite Hq. by apply Q_close.
  - destruct (asks_ok _ _ _ _ HQ Ha). rewrite Hq. eapply Q_turn; eauto.
  - destruct (asks_ok _ _ _ _ HQ Ha). rewrite Hq. apply Q_done, Q_puts. eapply Q_turn; eauto.
  - rewrite Hq. apply Q_done, Q_puts. done.
Qed.

(** * Steps *)
Lemma puts_queue (xs : list item) (a : wq item) : exists l, queue (puts xs a) = queue a ++ l.
Proof.
  unfold puts. revert a. induction xs as [|x xs IH]; intros a; simpl; [exists []; by rewrite app_nil_r|].
  destruct (IH (put x a)) as [l Hl]. rewrite Hl. destruct (put_core x a) as (_ & _ & _ & ->).
  repeat case_decide; eauto. exists ([x] ++ l). rewrite app_assoc. done.
Qed.
Lemma done_queue (x : item) (a : wq item) : exists l, queue (task_done x (reset_backoff x a)) = queue a ++ l.
Proof. destruct (done_core x a) as (_ & _ & _ & ->). case_decide; [eauto|]. exists []. by rewrite app_nil_r. Qed.
Lemma puts_dirty (xs : list item) (a : wq item) x : x ∈ dirty a -> x ∈ dirty (puts xs a).
Proof.
  unfold puts. revert a. induction xs as [|y xs IH]; intros a Ha; simpl; [done|]. apply IH.
  destruct (put_core y a) as (_ & _ & -> & _). set_solver.
Qed.
Lemma done_dirty (x y : item) (a : wq item) : y ∈ dirty a -> y ∈ dirty (task_done x (reset_backoff x a)).
Proof. destruct (done_core x a) as (-> & _). done. Qed.
Lemma puts_woken (xs : list item) (a : wq item) k : tasks a !! k = Some Woken -> tasks (puts xs a) !! k = Some Woken.
Proof.
  unfold puts. revert a. induction xs as [|x xs IH]; intros a Ha; simpl; [done|]. apply IH. rewrite put_tasks_eq. by apply aux_woken.
Qed.
Lemma done_woken (x : item) (a : wq item) k : tasks a !! k = Some Woken -> tasks (task_done x (reset_backoff x a)) !! k = Some Woken.
Proof. intros Hk. unfold task_done. case_decide; [|done]. rewrite wake_tasks. by apply aux_woken. Qed.
Lemma puts_none (xs : list item) (a : wq item) k : tasks a !! k = None -> tasks (puts xs a) !! k = None.
Proof. unfold puts. revert a. induction xs as [|x xs IH]; intros a Ha; simpl; [done|]. apply IH. by apply put_tasks_None. Qed.

Section facts.
Context (cf : cfg) (s : gw) (e : event) (s' : gw).
Hypothesis Hc0 : qcase cf s e s'.
Hypothesis Hopen : closed (q s') = false.
Inductive ocase : Prop :=
| oc_grow : busy s' = busy s -> qg s s' -> ocase
| oc_wait k : asks cf s e k -> queue (q s) = [] -> busy s' = busy s -> get_turn k (q s) = (q s', None) -> ocase
| oc_begin k x q' p : asks cf s e k -> busy s !! k = None -> takes cf s e x -> get_turn k (q s) = (q', Some (Item x)) ->
    pc_item p = x -> q s' = q' -> busy s' = <[k := p]> (busy s) -> ocase
| oc_handle k x q' xs : asks cf s e k -> busy s !! k = None -> takes cf s e x -> get_turn k (q s) = (q', Some (Item x)) ->
    q s' = task_done x (reset_backoff x (puts xs q')) -> busy s' = busy s -> ocase
| oc_end k p o now xs : e = EBackend k o now -> o = Ends \/ o = Raises -> busy s !! k = Some p ->
    q s' = task_done (pc_item p) (reset_backoff (pc_item p) (puts xs (q s))) -> busy s' = delete k (busy s) -> ocase.
Lemma Hc : ocase.
Proof.
  destruct Hc0; [eapply oc_grow|eapply oc_wait| | |eapply oc_begin|eapply oc_handle|eapply oc_end]; eauto.
  - destruct (get_turn_const _ _ _ _ H1) as [E _]. congruence.
  - rewrite H1 in Hopen. done.
Qed.
Definition taking : Prop := exists x, takes cf s e x.

(** The line only loses its head, to the reconciler that takes it. *)
Lemma line_step : (exists x l l', queue (q s) = x :: l /\ takes cf s e x /\ queue (q s') = l ++ l') \/ exists l', queue (q s') = queue (q s) ++ l'.
Proof.
  destruct Hc as [Hb [xs Hx]|k Ha Hq Hb Hg|k x q' p Ha Hk Ht Hg Hp Hq Hb|k x q' xs Ha Hk Ht Hg Hq Hb|k p o now xs He Ho Hk Hq Hb].
  - right. rewrite Hx. apply puts_queue.
  - right. destruct (get_turn_other _ _ _ _ Hg) as (E & _); [done|]. rewrite E. exists []. by rewrite app_nil_r.
  - left. destruct (get_turn_item _ _ _ _ Hg) as ((l & H1 & H2) & _). exists x, l, []. rewrite Hq, app_nil_r. done.
  - left. destruct (get_turn_item _ _ _ _ Hg) as ((l & H1 & H2) & _).
    destruct (done_queue x (puts xs q')) as [l1 E1]. destruct (puts_queue xs q') as [l2 E2].
    exists x, l, (l2 ++ l1). split; [done|]. split; [done|]. rewrite Hq, E1, E2, H2, app_assoc. done.
  - right. rewrite Hq. destruct (done_queue (pc_item p) (puts xs (q s))) as [l1 ->]. destruct (puts_queue xs (q s)) as [l2 ->].
    exists (l2 ++ l1). rewrite app_assoc. done.
Qed.
Lemma takes_head x : takes cf s e x -> exists l, queue (q s) = x :: l.
Proof.
  assert (forall k q', as_out k (get_turn k (q s)) = (q', Some (Returned k (Item x))) -> exists l, queue (q s) = x :: l) as H.
  { intros k q'. destruct (get_turn k (q s)) as [q1 [r|]] eqn:Hg; cbn [as_out]; intros [= <- ->].
    destruct (get_turn_item _ _ _ _ Hg) as ((l & H1 & _) & _). eauto. }
  intros (k & now & q' & [(_ & _ & _ & Ht & Hs)|(_ & Hs)]); cbn [WorkQueue_Model.step] in Hs.
  - rewrite Ht in Hs. eauto.
  - destruct (tasks (q s) !! k) as [[]|]; try done. eauto.
Qed.
Lemma dirty_step x : x ∈ dirty (q s) -> takes cf s e x \/ x ∈ dirty (q s').
Proof.
  intros Hx. destruct Hc as [Hb [xs Hxs]|k Ha Hq Hb Hg|k y q' p Ha Hk Ht Hg Hp Hq Hb|k y q' xs Ha Hk Ht Hg Hq Hb|k p o now xs He Ho Hk Hq Hb].
  - right. rewrite Hxs. by apply puts_dirty.
  - right. destruct (get_turn_other _ _ _ _ Hg) as (_ & _ & E & _); [done|]. rewrite E. done.
  - destruct (decide (x = y)) as [->|E]; [auto|]. right. destruct (get_turn_item _ _ _ _ Hg) as (_ & _ & Hd & _). rewrite Hq, Hd. set_solver.
  - destruct (decide (x = y)) as [->|E]; [auto|]. right. destruct (get_turn_item _ _ _ _ Hg) as (_ & _ & Hd & _).
    rewrite Hq. apply done_dirty, puts_dirty. rewrite Hd. set_solver.
  - right. rewrite Hq. apply done_dirty, puts_dirty. done.
Qed.
Lemma busy_step k p : busy s !! k = Some p ->
  (exists o now, e = EBackend k o now /\ (o = Ends \/ o = Raises) /\ busy s' !! k = None) \/ busy s' !! k = Some p.
Proof.
  intros Hp. destruct Hc as [Hb [xs Hxs]|j Ha Hq Hb Hg|j y q' p' Ha Hk Ht Hg Hp' Hq Hb|j y q' xs Ha Hk Ht Hg Hq Hb|j p' o now xs He Ho Hk Hq Hb];
    rewrite Hb; auto.
  - right. rewrite lookup_insert_ne; [done|]. congruence.
  - destruct (decide (j = k)) as [->|E]; [left; exists o, now; rewrite lookup_delete; done|]. right. rewrite lookup_delete_ne; done.
Qed.
Lemma free_step k : busy s !! k = None -> taking \/ busy s' !! k = None.
Proof.
  intros Hp. destruct Hc as [Hb [xs Hxs]|j Ha Hq Hb Hg|j y q' p' Ha Hk Ht Hg Hp' Hq Hb|j y q' xs Ha Hk Ht Hg Hq Hb|j p' o now xs He Ho Hk Hq Hb];
    rewrite Hb; auto.
  - left. eexists. eauto.
  - right. rewrite lookup_delete_None. auto.
Qed.
Lemma none_step k : queue (q s) <> [] -> tasks (q s) !! k = None -> taking \/ tasks (q s') !! k = None.
Proof.
  intros Hne Hp. destruct Hc as [Hb [xs Hxs]|j Ha Hq Hb Hg|j y q' p' Ha Hk Ht Hg Hp' Hq Hb|j y q' xs Ha Hk Ht Hg Hq Hb|j p' o now xs He Ho Hk Hq Hb].
  - right. rewrite Hxs. by apply puts_none.
  - done.
  - left. eexists. eauto.
  - left. eexists. eauto.
  - right. rewrite Hq. apply done_tasks_None, puts_none. done.
Qed.
Lemma woken_step k : queue (q s) <> [] -> tasks (q s) !! k = Some Woken -> taking \/ tasks (q s') !! k = Some Woken.
Proof.
  intros Hne Hp. destruct Hc as [Hb [xs Hxs]|j Ha Hq Hb Hg|j y q' p' Ha Hk Ht Hg Hp' Hq Hb|j y q' xs Ha Hk Ht Hg Hq Hb|j p' o now xs He Ho Hk Hq Hb].
  - right. rewrite Hxs. by apply puts_woken.
  - done.
  - left. eexists. eauto.
  - left. eexists. eauto.
  - right. rewrite Hq. apply done_woken, puts_woken. done.
Qed.
End facts.

(** In an open queue with something in line, whoever asks is served. *)
Lemma ask_get cf s k now : closed (q s) = false -> queue (q s) <> [] -> (k < parallelism cf)%nat -> busy s !! k = None ->
  tasks (q s) !! k = None -> taking cf s (EGet k now).
Proof.
  intros Ho Hne Hk Hb Ht. destruct (queue (q s)) as [|x l] eqn:Hl; [done|]. exists x, k, now.
  eexists. left. do 4 (split; [done|]). cbn [WorkQueue_Model.step]. rewrite Ht. unfold get_turn, get_. rewrite Hl, Ho. done.
Qed.
Lemma ask_wake cf s k now : closed (q s) = false -> queue (q s) <> [] -> tasks (q s) !! k = Some Woken -> taking cf s (EWake k now).
Proof.
  intros Ho Hne Ht. destruct (queue (q s)) as [|x l] eqn:Hl; [done|]. exists x, k, now.
  eexists. right. split; [done|]. cbn [WorkQueue_Model.step]. rewrite Ht. unfold get_turn, get_. rewrite Hl, Ho. done.
Qed.
(** Somebody is woken when something is in line and somebody sleeps. *)
Lemma somebody_woken (cf : cfg) (a : wq item) k : Q cf a -> queue a <> [] -> tasks a !! k = Some Blocked -> exists j, tasks a !! j = Some Woken.
Proof.
  intros HQ Hne Hk. apply nwoken_pos. pose proof (w_len _ (q_W _ _ HQ)) as H. destruct (queue a); [done|].
  feed specialize H; [exists k; done|]. simpl in H. lia.
Qed.

(** Whoever takes an item takes it out of the line. *)
Lemma takes_line cf s e x : takes cf s e x -> exists l l', queue (q s) = x :: l /\ queue (q (step cf s e).1) = l ++ l'.
Proof.
  assert (forall k now q1 r, as_out k (get_turn k (q s)) = (q1, r) -> r = Some (Returned k (Item x)) ->
    exists l l', queue (q s) = x :: l /\ queue (q (reconcile cf k x now (set_q q1 s)).1) = l ++ l') as H.
  { intros k now q1 r. destruct (get_turn k (q s)) as [q2 [r'|]] eqn:Hg; cbn [as_out]; intros [= <- <-] [= ->].
    destruct (get_turn_item _ _ _ _ Hg) as ((l & H1 & H2) & _).
    apply reconcile_ind.
    - intros s2 _ Hq. destruct (qg_ex x _ _ Hq) as [xs Hx]. rewrite Hx. cbn [q set_q].
      destruct (done_queue x (puts xs q2)) as [l1 E1]. destruct (puts_queue xs q2) as [l2 E2].
      exists l, (l2 ++ l1). split; [done|]. rewrite E1, E2, H2, app_assoc. done.
    - intros p _. exists l, []. rewrite app_nil_r. done. }
  intros (k & now & q' & [(-> & Hk & Hb & Ht & Hs)|(-> & Hs)]); cbn [step].
  - rewrite decide_True by done. rewrite Hb, Ht, Hs. cbn [got]. cbn [WorkQueue_Model.step] in Hs. rewrite Ht in Hs. eapply H; eauto.
  - rewrite Hs. cbn [got]. cbn [WorkQueue_Model.step] in Hs. destruct (tasks (q s) !! k) as [[]|]; try done. eapply H; eauto.
Qed.
