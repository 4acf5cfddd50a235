(** When database calls fail: a predicate on states that is kept by every
    elementary change is kept by every event but a restart and the purge. *)
From Coq Require Import ZArith Lia.
From stdpp Require Import prelude gmap.
From Verif Require Import Trace WorkQueue_Model WorkQueue_Proofs Router_Model Gateway_Model Gateway_Spec Gateway_Inv Gateway_Steps Gateway_Steps2
  Gateway_Steps3 Gateway_Steps4 Gateway_Sync Fault_Model Fault_Ok Fault_Steps.
Open Scope Z_scope.

Section closed.
(** [junk]: transactions may be rolled back.  [rel k]: reconciler [k] may end its operation. *)
Context (cf : cfg) (s0 : gw) (junk : bool) (rel : nat -> Prop) (T : gw -> Prop).
Record closed_under : Prop := {
  c_rowk : forall n f s, frow f -> (forall r, is_fin (r_status (f r)) = true -> is_fin (r_status r) = true \/ stopping_c s0 n) ->
           T s -> T (update_cluster n f s);
  c_wk : forall n w f s, fwk f -> T s -> T (update_worker n w f s);
  c_attr : forall n g s, fattr g -> T s -> T (upd_obj n g s);
  c_new : forall user info mx now s, T s -> T (create_cluster cf user info mx now s).2;
  c_neww : forall n now s, (junk = false -> n ∈ by_name s0) -> T s -> T (create_worker cf n now s).2;
  c_q : forall v s, T s -> T (set_q v s);
  c_routes : forall v s, T s -> T (set_routes v s);
  c_chkc : forall v s, T s -> T (set_chk_c v s);
  c_chkw : forall v s, T s -> T (set_chk_w v s);
  c_down : forall v s, T s -> T (set_down v s);
  c_release : forall k s, rel k -> T s -> T (release k s);
  c_db : forall dc dw s, junk = true -> T s -> T (set_db_w dw (set_db_c dc s)) }.
Context (HT : closed_under).

Definition nrb (fs : list fault) : Prop := junk = true \/ RolledBack ∉ fs.
Definition all (r : res) : Prop := nrb r.1.2 /\ T r.1.1.
Lemma nrb_tail f fs : nrb (f :: fs) -> nrb fs.
Proof. intros [H|H]; [by left|right]. intros Hin. apply H. by right. Qed.
Lemma all_call f s fs : nrb fs -> T s -> T (f s) -> all (call f s fs).
Proof.
  intros Hf Hs Hfs. destruct fs as [|[] fs]; simpl; (split; [eauto using nrb_tail|]); try done.
  destruct Hf as [Hj|Hj]; [|exfalso; apply Hj; by left]. apply (c_db HT); done.
Qed.
Lemma all_call_for {A} (xs : list A) f s fs : nrb fs -> T s -> T (f s) -> all (call_for xs f s fs).
Proof. intros. destruct xs; [split; done|]. apply all_call; done. Qed.
Lemma all_pure f s fs : nrb fs -> T (f s) -> all (pure f s fs).
Proof. done. Qed.
Lemma all_ok s fs : nrb fs -> T s -> all (ok s fs).
Proof. done. Qed.
Lemma all_seq a b s fs : all (a s fs) -> (forall s1 fs1, nrb fs1 -> T s1 -> all (b s1 fs1)) -> all ((a ;> b) s fs).
Proof.
  intros Ha Hb. unfold seq. destruct (a s fs) as [[s1 fs1] []] eqn:E1; destruct Ha as [H1 H2]; simpl in *; [apply Hb; done|]. split; done.
Qed.
Lemma all_orelse a b s fs : all (a s fs) -> (forall s1 fs1, nrb fs1 -> T s1 -> all (b s1 fs1)) -> all (orelse a b s fs).
Proof.
  intros Ha Hb. unfold orelse. destruct (a s fs) as [[s1 fs1] []] eqn:E1; destruct Ha as [H1 H2]; simpl in *; [split; done|]. apply Hb; done.
Qed.
Lemma T_finish x s : T s -> T (finish x s). Proof. apply (c_q HT). Qed.
Lemma T_put x s : T s -> T (qput x s). Proof. apply (c_q HT). Qed.
Lemma T_puts xs s : T s -> T (qputs xs s).
Proof. revert s. induction xs as [|x xs IH]; intros s Hs; simpl; [done|]. apply IH, T_put, Hs. Qed.
Lemma all_settle lt x r : all r -> T (settle lt x r).1.
Proof. destruct r as [[s1 fs1] []]; intros [_ H]; simpl; apply (c_q HT); done. Qed.
Lemma all_logged r : all r -> T (logged r).1.
Proof. destruct r as [[s1 fs1] []]; intros [_ H]; done. Qed.
Lemma all_answer r : all r -> T (answer r).1.
Proof. destruct r as [[s1 fs1] []]; intros [_ H]; done. Qed.
Definition calm (f : crow -> crow) : Prop := frow f /\ forall r, is_fin (r_status (f r)) = true -> is_fin (r_status r) = true.
Lemma T_row n f s : calm f -> T s -> T (update_cluster n f s).
Proof. intros [H1 H2]. apply (c_rowk HT); [done|]. auto. Qed.
Lemma T_rows ns f s : calm f -> T s -> T (update_clusters ns f s).
Proof. intros Hf. revert s. unfold update_clusters. induction ns as [|w ws IH]; intros s Hs; simpl; [done|]. apply IH, T_row; done. Qed.
Lemma T_wks n ws f s : fwk f -> T s -> T (update_workers n ws f s).
Proof. intros Hf. revert s. unfold update_workers. induction ws as [|w ws IH]; intros s Hs; simpl; [done|]. apply IH, (c_wk HT); done. Qed.
Lemma T_targets n ts s : T s -> T (set_targets n ts s).
Proof. revert s. unfold set_targets. induction ts as [|t ts IH]; intros s Hs; simpl; [done|]. apply IH, (c_wk HT); done. Qed.
Lemma T_fold_wk (ws : list (nat * nat)) f s : fwk f -> T s -> T (fold_left (fun s p => update_worker p.1 p.2 f s) ws s).
Proof. intros Hf. revert s. induction ws as [|w ws IH]; intros s Hs; simpl; [done|]. apply IH, (c_wk HT); done. Qed.
Lemma T_fold_fails (ws : list (nat * nat)) s : T s ->
  T (fold_left (fun s (p : nat * nat) => qput (p.1, Some p.2) (upd_obj p.1 (fun c => cset_fails (S (c_fails c)) c) s)) ws s).
Proof. revert s. induction ws as [|w ws IH]; intros s Hs; simpl; [done|]. apply IH, T_put, (c_attr HT); done. Qed.
Lemma T_proxied n s : T s -> T (check_proxied n s).
Proof. intros Hs. unfold check_proxied. destruct (objs s !! n); [|done]. destruct (c_proxied c); [done|]. apply (c_attr HT); [done|]. apply (c_routes HT). done. Qed.
Lemma T_rest n w s : T s -> T (worker_stopped_rest cf n w s).
Proof. intros Hs. destruct (rest_if cf n w s) as ([] & ->); [apply T_put|]; done. Qed.
Lemma T_remove n s : T s -> T (remove_routes n s).
Proof. intros Hs. unfold remove_routes. apply (c_routes HT). done. Qed.
Lemma calm_status j : is_fin j = false -> calm (rset_status j).
Proof. intros Hj. split; [done|]. intros r. simpl. rewrite Hj. done. Qed.
Lemma calm_target j : calm (rset_target j). Proof. split; done. Qed.
Lemma calm_state j : calm (rset_state j). Proof. split; done. Qed.
Lemma calm_failed : calm (fun r => rset_target FAILED (rset_status SUBMITTED r)).
Proof. split; [done|]. intros r H. done. Qed.

Lemma T_start user info mx now fs s : nrb fs -> T s -> T (fstart_cluster cf user info mx now fs s).1.
Proof.
  intros Hf Hs. unfold fstart_cluster. pose proof (all_call (fun s => (create_cluster cf user info mx now s).2) s fs Hf Hs) as [_ H]; [apply (c_new HT); done|].
  destruct (call _ s fs) as [[s1 fs1] []]; simpl in *; [apply T_put|]; done.
Qed.
Lemma T_stop n b fs s : nrb fs -> T s -> T (fstop_cluster n b fs s).1.
Proof.
  intros Hf Hs. unfold fstop_cluster. destruct (lookup_cluster n s); [|done]. destruct (jge _ _); [|done]. apply all_answer, all_seq.
  - apply all_call; [done|done|]. apply T_row; [apply calm_target|done].
  - intros. apply all_pure; [done|]. apply T_put. done.
Qed.
Lemma T_heartbeat n m now fs s : nrb fs -> T s -> T (fheartbeat n m now fs s).1.
Proof.
  intros Hf Hs. unfold fheartbeat. destruct (lookup_cluster n s) as [c|]; [|done]. destruct (jlt _ _); [done|].
  assert (T (upd_obj n (cset_hb (Some now)) s)) as H1 by (apply (c_attr HT); done).
  destruct (classify _ _) as [z|]; [|done]. apply all_answer. unfold heartbeat_acts. repeat apply all_seq.
  - destruct (_ || _); [|apply all_ok; done]. apply all_seq; [apply all_call; [done|done|]|].
    + apply T_row; [|done]. split; intros r; destruct (decide (c_status c = RUNNING)), (negb _); done.
    + intros. apply all_pure; [done|]. apply T_put. done.
  - intros s1 fs1 Hf1 Hs1. apply all_seq; [apply all_call_for; [done|done|apply T_targets; done]|]. intros s2 fs2 Hf2 Hs2.
    apply all_seq; [apply all_pure; [done|apply T_puts; done]|]. intros s3 fs3 Hf3 Hs3. apply all_seq.
    + destruct (z_running z); [apply all_ok; done|]. apply all_seq; [apply all_pure; [done|apply (c_attr HT); done]|].
      intros. apply all_call; [done|done|]. apply T_wks; done.
    + intros. apply all_call_for; [done|done|]. apply T_wks; done.
Qed.
Lemma T_fail_clusters ns s fs : nrb fs -> T s -> all (ffail_clusters ns s fs).
Proof.
  intros Hf Hs. apply all_seq; [apply all_call_for; [done|done|apply T_rows; [apply calm_target|done]]|]. intros. apply all_pure; [done|]. apply T_puts; done.
Qed.
Lemma T_fail_workers ws s fs : nrb fs -> T s -> all (ffail_workers ws s fs).
Proof.
  intros Hf Hs. apply all_seq; [apply all_call_for; [done|done|apply T_fold_wk; done]|]. intros. apply all_pure; [done|]. apply T_puts; done.
Qed.
Lemma T_check_timeouts now fs s : nrb fs -> T s -> T (fcheck_timeouts cf now fs s).1.
Proof.
  intros Hf Hs. unfold fcheck_timeouts. destruct (find_late _ _ _) as [[cs ws]|]; [|done]. apply all_logged, all_seq; [apply T_fail_clusters; done|].
  intros. apply T_fail_workers; done.
Qed.
Lemma T_check_clusters oks fs s : nrb fs -> T s -> T (fcheck_clusters_end oks fs s).1.
Proof. intros Hf Hs. unfold fcheck_clusters_end. destruct (chk_c s); [|done]. apply all_logged, T_fail_clusters; [done|]. apply (c_chkc HT). done. Qed.
Lemma T_check_workers oks fs s : nrb fs -> T s -> T (fcheck_workers_end oks fs s).1.
Proof.
  intros Hf Hs. unfold fcheck_workers_end. destruct (chk_w s); [|done]. pose proof (c_chkw HT None s Hs) as Hs1.
  apply all_logged, all_seq; [apply all_call_for; [done|done|apply T_fold_wk; done]|]. intros. apply all_pure; [done|]. apply T_fold_fails. done.
Qed.
Lemma T_shutdown fs s : nrb fs -> T s -> T (fshutdown cf fs s).1.
Proof.
  intros Hf Hs. unfold fshutdown. set (s1 := set_chk_w None (set_chk_c None s)).
  assert (T s1) as H1 by (apply (c_chkw HT), (c_chkc HT); done). destruct (stop_on_shutdown cf); [|apply (c_down HT); done].
  pose proof (T_fail_clusters (map c_name (active_clusters s1)) s1 fs Hf H1) as [_ H].
  destruct (ffail_clusters _ s1 fs) as [[s2 fs2] []]; simpl in *; apply (c_down HT); done.
Qed.
Lemma T_closing n c fs s : nrb fs -> T s -> all (fcluster_to_closing cf n c s fs).
Proof.
  intros Hf Hs. unfold fcluster_to_closing. set (ws := map w_name _). set (tg := if bulk cf then _ else _).
  apply all_seq; [apply all_call_for; [done|done|apply T_wks; done]|]. intros s1 fs1 Hf1 Hs1.
  apply all_seq; [apply all_pure; [done|apply T_puts; done]|]. intros s2 fs2 Hf2 Hs2.
  apply all_seq; [apply all_call; [done|done|apply T_row; [apply calm_status; done|done]]|]. intros s3 fs3 Hf3 Hs3.
  apply all_pure; [done|]. apply (c_attr HT); [done|]. destruct ws; [apply T_put|]; done.
Qed.
Lemma T_stopped n now fs s : stopping_c s0 n -> nrb fs -> T s -> all (fcluster_stopped n now s fs).
Proof.
  intros Hst Hf Hs. unfold fcluster_stopped. destruct (objs s !! n) as [c|]; [|apply all_ok; done].
  apply all_seq; [apply all_call_for; [done|done|apply T_wks; done]|]. intros s1 fs1 Hf1 Hs1.
  apply all_seq; [apply all_call; [done|done|apply (c_rowk HT); auto; done]|]. intros. apply all_pure; [done|]. apply (c_attr HT); done.
Qed.
Lemma T_create_workers k n now fs s : (junk = false -> n ∈ by_name s0) -> nrb fs -> T s -> all (fcreate_workers cf k n now s fs).
Proof.
  intros Hn. revert fs s. induction k as [|k IH]; intros fs s Hf Hs; [apply all_ok; done|]. cbn [fcreate_workers]. apply all_seq; [|auto].
  apply (all_seq (call (fun s => (create_worker cf n now s).2))); [apply all_call; [done|done|apply (c_neww HT); done]|].
  intros. apply all_pure; [done|]. apply T_put. done.
Qed.
Lemma T_scale n now fs s : (junk = false -> n ∈ by_name s0) -> nrb fs -> T s -> all (fcheck_scale cf n now s fs).
Proof.
  intros Hn Hf Hs. unfold fcheck_scale. destruct (objs s !! n); [|apply all_ok; done]. case_decide; [|apply T_create_workers; done].
  apply all_seq; [apply all_call; [done|done|apply T_row; [apply calm_target|done]]|]. intros. apply all_pure; [done|]. apply T_put; done.
Qed.
Lemma T_running n now c fs s : (junk = false -> n ∈ by_name s0) -> nrb fs -> T s -> all (frunning cf n now c s fs).
Proof.
  intros Hn Hf Hs. unfold frunning. apply all_seq.
  - case_decide; [|apply all_ok; done]. apply all_seq; [apply all_call; [done|done|apply T_row; [apply calm_status; done|done]]|].
    intros. apply all_pure; [done|]. apply (c_attr HT); done.
  - intros s1 fs1 Hf1 Hs1. destruct (objs s1 !! n) as [c1|]; [|apply all_ok; done]. case_decide; [|apply all_ok; done].
    apply (all_seq (pure (check_proxied n))); [apply all_pure; [done|apply T_proxied; done]|]. intros. apply T_scale; done.
Qed.
Lemma T_worker_stopped n w now fs s : nrb fs -> T s -> all ((call (worker_stopped n w now) ;> pure (worker_stopped_rest cf n w)) s fs).
Proof.
  intros Hf Hs. apply all_seq; [apply all_call; [done|done|unfold worker_stopped; apply (c_wk HT); done]|]. intros. apply all_pure; [done|]. apply T_rest; done.
Qed.
Lemma T_cluster_failed n fs s : nrb fs -> T s -> all (cluster_failed n s fs).
Proof.
  intros Hf Hs. apply all_seq; [apply all_call; [done|done|apply T_row; [apply calm_failed|done]]|]. intros. apply all_pure; [done|]. apply T_put; done.
Qed.
Lemma T_worker_failed n w fs s : nrb fs -> T s -> all (worker_failed n w s fs).
Proof.
  intros Hf Hs. apply all_seq; [apply all_call; [done|done|apply (c_wk HT); done]|]. intros. apply all_pure; [done|]. apply T_put, (c_attr HT); done.
Qed.

(** ** Reconcilers *)
(** What an operation that is begun is called with. *)
Definition begun (s : gw) (p : pc) (ob : obs) : Prop :=
  match p with
  | InStartCluster n => ob = OStartC n /\ exists c, objs s !! n = Some c /\ c_status c = CREATED /\ c_target c = RUNNING
  | InStopCluster n => exists c, objs s !! n = Some c /\ c_status c = CLOSING /\ ob = OStopC n (r_state (c_row c))
  | InStartWorker n w => ob = OStartW n w /\ exists x, get_worker n w s = Some x /\ w_status x = CREATED /\ w_target x = RUNNING
  | InStopWorker n w => exists x, get_worker n w s = Some x /\ ob = OStopW n w (w_state x)
  end.
Definition turn (k : nat) (x : item) (s : gw) (r : gw * list fobs) : Prop :=
  (T r.1 /\ (r.2 = [] \/ r.2 = [FRetry x])) \/
  exists p ob, r = (suspend k p s, [FObs ob]) /\ pc_item p = x /\ begun s p ob.
Lemma turn_settle k lt x s r : all r -> turn k x s (settle lt x r).
Proof. intros H. left. split; [apply all_settle; done|]. destruct r as [[s1 fs1] []]; simpl; auto. Qed.
Lemma turn_finish k x s : T s -> turn k x s (finish x s, []).
Proof. intros H. left. split; [apply T_finish; done|]. auto. Qed.
Lemma turn_cluster k n now lt fs s : (forall c, junk = false -> objs s !! n = Some c -> is_fin (c_status c) = false -> n ∈ by_name s0) -> nrb fs -> T s ->
  turn k (n, None) s (freconcile_cluster cf k n now lt fs s).
Proof.
  intros Ho Hf Hs. unfold freconcile_cluster. destruct (objs s !! n) as [c|] eqn:Hn; [|apply turn_finish; done].
  destruct (jge (c_status c) STOPPED) eqn:Hfin; [apply turn_finish; done|].
  assert (junk = false -> n ∈ by_name s0) as Hin by (intros; eapply Ho; eauto).
  case_decide.
  - case_decide as Hcl; [|apply turn_settle, T_closing; done]. destruct (ready_to_close cf c); [|apply turn_finish; done].
    rewrite Hcl. cbn. right. exists (InStopCluster n), (OStopC n (r_state (c_row c))). split; [done|]. split; [done|]. exists c. done.
  - case_decide; [|apply turn_finish; done]. case_decide; [|apply turn_settle, T_running; done].
    right. exists (InStartCluster n), (OStartC n). split; [done|]. split; [done|]. split; [done|]. exists c. done.
Qed.
Lemma turn_worker k n w now lt fs s : nrb fs -> T s -> turn k (n, Some w) s (freconcile_worker cf k n w now lt fs s).
Proof.
  intros Hf Hs. unfold freconcile_worker. destruct (get_worker n w s) as [x|] eqn:Hx; [|apply turn_finish; done].
  destruct (jge (w_status x) STOPPED); [apply turn_finish; done|]. case_decide.
  - apply turn_settle, all_seq.
    + case_decide; [apply all_ok; done|]. apply all_call; [done|done|apply (c_wk HT); done].
    + intros s1 fs1 Hf1 Hs1. apply all_pure; [done|]. destruct (is_ready cf n s1); [apply T_put|]; done.
  - case_decide.
    + destruct (jlt _ _); [|apply turn_settle, T_worker_stopped; done].
      right. exists (InStopWorker n w), (OStopW n w (w_state x)). split; [done|]. split; [done|]. exists x. done.
    + case_decide as Hc; [|apply turn_finish; done].
      right. exists (InStartWorker n w), (OStartW n w). split; [done|]. split; [done|]. split; [done|]. exists x. tauto.
Qed.
Lemma T_resume k o now lt fs s : rel k -> (forall n, busy s !! k = Some (InStopCluster n) -> stopping_c s0 n) -> nrb fs -> T s ->
  T (fresume cf k o now lt fs s).1.
Proof.
  intros Hk Hst Hf Hs. unfold fresume. destruct (busy s !! k) as [p|] eqn:Hb; [|done].
  assert (T (release k s)) as Hr by (apply (c_release HT); done).
  assert (forall n, Some p = Some (InStopCluster n) -> all (fcluster_stopped n now (remove_routes n (release k s)) fs)) as HS.
  { intros n Hn. apply T_stopped; [apply Hst; exact Hn|exact Hf|apply T_remove; exact Hr]. }
  destruct p as [n|n|n w|n w]; destruct o; cbv beta iota.
  - pose proof (all_call (update_cluster n (rset_state st)) s fs Hf Hs) as [H1 H2]; [apply T_row; [apply calm_state|exact Hs]|].
    destruct (call _ s fs) as [[s1 fs1] []]; cbn [fst snd] in *; [exact H2|]. apply all_settle, T_cluster_failed; [exact H1|]. apply (c_release HT); assumption.
  - apply all_settle, all_orelse; [apply all_call; [exact Hf|exact Hr|apply T_row; [apply calm_status; reflexivity|exact Hr]]|]. intros. apply T_cluster_failed; assumption.
  - apply all_settle, T_cluster_failed; assumption.
  - exact Hs.
  - apply all_settle, HS. reflexivity.
  - apply all_settle, HS. reflexivity.
  - pose proof (all_call (update_worker n w (wset_state st)) s fs Hf Hs) as [H1 H2]; [apply (c_wk HT); [split; reflexivity|exact Hs]|].
    destruct (call _ s fs) as [[s1 fs1] []]; cbn [fst snd] in *; [exact H2|]. apply all_settle, T_worker_failed; [exact H1|]. apply (c_release HT); assumption.
  - apply all_settle, all_orelse; [apply all_call; [exact Hf|exact Hr|apply (c_wk HT); [split; reflexivity|exact Hr]]|]. intros. apply T_worker_failed; assumption.
  - apply all_settle, T_worker_failed; assumption.
  - exact Hs.
  - apply all_settle, T_worker_stopped; assumption.
  - apply all_settle, T_worker_stopped; assumption.
Qed.
End closed.
