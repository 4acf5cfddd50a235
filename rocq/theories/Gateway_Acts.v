(** Every event but a restart is a sequence of elementary changes, each with the
    reason for which it may happen in the state the event starts from. *)
From Coq Require Import ZArith Lia.
From stdpp Require Import prelude gmap.
From Verif Require Import Trace WorkQueue_Model WorkQueue_Proofs Router_Model Gateway_Model Gateway_Inv
  Gateway_Steps Gateway_Steps2 Gateway_Steps3 Gateway_Steps4 Gateway_Sync Gateway_Restart.
Open Scope Z_scope.

Section acts.
Context (cf : cfg) (s0 : gw).
Hypothesis HI : Inv cf None ∅ s0.

Definition clive (n : nat) : Prop := exists c, objs s0 !! n = Some c /\ is_fin (c_status c) = false.
Definition wlive (n w : nat) : Prop :=
  exists c x, objs s0 !! n = Some c /\ x ∈ c_workers c /\ w_name x = w /\ is_fin (w_status x) = false.
Definition wcreated (n w : nat) : Prop :=
  exists c x, objs s0 !! n = Some c /\ x ∈ c_workers c /\ w_name x = w /\ w_status x = CREATED.

Definition fhb (g : cluster -> cluster) : Prop := forall c, c_hb (g c) = c_hb c \/ is_Some (c_hb (g c)).
Definition fsched (n : nat) (f : crow -> crow) (s : gw) : Prop :=
  (forall r, r_sched (f r) = r_sched r) \/ exists c, objs s !! n = Some c /\ is_Some (c_hb c).
Definition is_hb (e : event) : bool := match e with EHeartbeat _ _ _ => true | _ => false end.
(** The event is a heartbeat of cluster [n] that lists worker [w] as running. *)
Definition reports (e : event) (n w : nat) : Prop :=
  exists m now, e = EHeartbeat n m now /\ (w ∈ m_active m \/ w ∈ m_closing m).
(** The event ends worker [w]: its stop operation is over, or a reconciler takes it. *)
Definition wends (e : event) (n w : nat) : Prop :=
  (exists k o now, e = EBackend k o now /\ busy s0 !! k = Some (InStopWorker n w) /\ forall st, o <> Yields st) \/
  (exists k now q', (e = EGet k now \/ e = EWake k now) /\ get_turn k (q s0) = (q', Some (Item (n, Some w)))).
(** How many workers cluster [c] may still get. *)
Definition room (c d : cluster) : Prop :=
  Z.of_nat (length (c_workers d)) < Z.of_nat (length (c_workers c)) + (r_count (c_row c) - Z.of_nat (length (active_workers c))).
Inductive act (e : event) (s : gw) : gw -> Prop :=
| a_same s' : same_data s s' -> act e s s'
| a_attr n g : fattr g -> fhb g -> act e s (upd_obj n g s)
| a_ctarget n : act e s (update_cluster n (rset_target FAILED) s)
| a_live n f : clive n -> frow f -> fsched n f s ->
    (forall r, r_state (f r) = r_state r /\ r_stop (f r) = r_stop r /\ (r_status (f r) = r_status r \/ is_fin (r_status (f r)) = false)) ->
    (is_hb e = true \/ forall r, r_count (f r) = r_count r) ->
    act e s (update_cluster n f s)
| a_cstate n k st now : e = EBackend k (Yields st) now -> busy s0 !! k = Some (InStartCluster n) ->
    act e s (update_cluster n (rset_state st) s)
| a_cstop n now : Bof s0 (InStopCluster n) ->
    act e s (update_cluster n (fun r => rset_stop (Some now) (rset_status (r_target r) r)) s)
| a_wtarget n w : act e s (update_worker n w (wset_target FAILED) s)
| a_wlive n w f : wlive n w -> fwk f ->
    (forall x, w_state (f x) = w_state x /\ w_stop (f x) = w_stop x /\ (w_status (f x) = w_status x \/ is_fin (w_status (f x)) = false)) ->
    (forall x, w_status (f x) = RUNNING -> w_status x = RUNNING \/ reports e n w) ->
    act e s (update_worker n w f s)
| a_wstate n w k st now : e = EBackend k (Yields st) now -> busy s0 !! k = Some (InStartWorker n w) ->
    act e s (update_worker n w (wset_state st) s)
| a_wstop n w now : (forall c x, objs s !! n = Some c -> x ∈ c_workers c -> w_name x = w -> is_fin (w_target x) = true) ->
    Bof s0 (InStopWorker n w) \/ (wcreated n w /\ ~ Bof s0 (InStartWorker n w)) -> wends e n w ->
    act e s (worker_stopped n w now s)
| a_wall n w : Bof s0 (InStopCluster n) -> wlive n w ->
    act e s (update_worker n w (fun x => wset_target STOPPED (wset_status STOPPED x)) s)
| a_new user info mx now : act e s (create_cluster cf user info mx now s).2
| a_neww n now c d : is_hb e = false -> objs s0 !! n = Some c -> is_fin (c_status c) = false -> objs s !! n = Some d -> room c d -> act e s (create_worker cf n now s).2
| a_purge now : act e s (cleanup_expired cf now s).

Section one.
Context (e : event).
Notation R := (rtc (act e) s0).
Lemma A_step s s' : act e s s' -> R s -> R s'.
Proof. intros H Hs. eapply rtc_r; eauto. Qed.
Lemma A_same s s' : same_data s s' -> R s -> R s'.
Proof. intros H. apply A_step. by apply a_same. Qed.
Lemma A_attr n g s : fattr g -> fhb g -> R s -> R (upd_obj n g s).
Proof. intros H H'. apply A_step. by apply a_attr. Qed.
Lemma A_ctarget n s : R s -> R (update_cluster n (rset_target FAILED) s).
Proof. apply A_step. apply a_ctarget. Qed.
Lemma A_wtarget n w s : R s -> R (update_worker n w (wset_target FAILED) s).
Proof. apply A_step. apply a_wtarget. Qed.
Lemma A_live n f s : clive n -> frow f -> fsched n f s ->
    (forall r, r_state (f r) = r_state r /\ r_stop (f r) = r_stop r /\ (r_status (f r) = r_status r \/ is_fin (r_status (f r)) = false)) ->
    (is_hb e = true \/ forall r, r_count (f r) = r_count r) ->
    R s -> R (update_cluster n f s).
Proof. intros. eapply A_step; [|done]. by apply a_live. Qed.
Lemma A_wlive n w f s : wlive n w -> fwk f ->
    (forall x, w_state (f x) = w_state x /\ w_stop (f x) = w_stop x /\ (w_status (f x) = w_status x \/ is_fin (w_status (f x)) = false)) ->
    (forall x, w_status (f x) = RUNNING -> w_status x = RUNNING \/ reports e n w) ->
    R s -> R (update_worker n w f s).
Proof. intros. eapply A_step; [|done]. by apply a_wlive. Qed.
Lemma A_wlives n (ws : list nat) f s : (forall w, w ∈ ws -> wlive n w) -> fwk f ->
    (forall x, w_state (f x) = w_state x /\ w_stop (f x) = w_stop x /\ (w_status (f x) = w_status x \/ is_fin (w_status (f x)) = false)) ->
    (forall x w, w ∈ ws -> w_status (f x) = RUNNING -> w_status x = RUNNING \/ reports e n w) ->
    R s -> R (update_workers n ws f s).
Proof.
  intros Hw Hf1 Hf2 Hr. unfold update_workers. revert s. induction ws as [|w ws IH]; intros s Hs; simpl; [done|]. apply IH.
  - intros; apply Hw. by right.
  - intros; apply Hr; [by right|done].
  - apply A_wlive; auto; [apply Hw; by left|]. intros x. apply Hr. by left.
Qed.
Lemma A_put x s : R s -> R (qput x s). Proof. apply A_same. done. Qed.
Lemma A_puts xs s : R s -> R (qputs xs s). Proof. apply A_same, same_data_puts. Qed.
Lemma A_finish x s : R s -> R (finish x s). Proof. apply A_same. done. Qed.
Lemma A_suspend k p s : R s -> R (suspend k p s). Proof. apply A_same. done. Qed.
Lemma A_release k s : R s -> R (release k s). Proof. apply A_same. done. Qed.
Lemma A_setq v s : R s -> R (set_q v s). Proof. apply A_same. done. Qed.
Lemma A_routes v s : R s -> R (set_routes v s). Proof. apply A_same. done. Qed.
Lemma A_chk_c v s : R s -> R (set_chk_c v s). Proof. apply A_same. done. Qed.
Lemma A_chk_w v s : R s -> R (set_chk_w v s). Proof. apply A_same. done. Qed.
Lemma A_down v s : R s -> R (set_down v s). Proof. apply A_same. done. Qed.
Lemma A_fail_clusters ns s : R s -> R (fail_clusters ns s).
Proof.
  intros Hs. unfold fail_clusters. apply A_puts. unfold update_clusters. revert s Hs.
  induction ns as [|n ns IH]; intros s Hs; simpl; [done|]. apply IH, A_ctarget, Hs.
Qed.
Lemma A_fold_wk (ws : list (nat * nat)) s : R s -> R (fold_left (fun s p => update_worker p.1 p.2 (wset_target FAILED) s) ws s).
Proof. revert s. induction ws as [|w ws IH]; intros s Hs; simpl; [done|]. apply IH, A_wtarget; done. Qed.
Lemma A_fold_fails (ws : list (nat * nat)) s : R s ->
  R (fold_left (fun s (p : nat * nat) => qput (p.1, Some p.2) (upd_obj p.1 (fun c => cset_fails (S (c_fails c)) c) s)) ws s).
Proof. revert s. induction ws as [|w ws IH]; intros s Hs; simpl; [done|]. apply IH, A_put, A_attr; [done|by left|done]. Qed.
Lemma A_create_workers k n now s c d : is_hb e = false -> objs s0 !! n = Some c -> is_fin (c_status c) = false -> objs s !! n = Some d ->
  Z.of_nat (length (c_workers d)) + Z.of_nat k <= Z.of_nat (length (c_workers c)) + (r_count (c_row c) - Z.of_nat (length (active_workers c))) ->
  R s -> R (create_workers cf k n now s).
Proof.
  intros He Hc Hf. revert s d. induction k as [|k IH]; intros s d Hd Hl Hs; [done|]. cbn [create_workers].
  destruct (create_worker cf n now s) as [w s1] eqn:E.
  assert (exists d', objs s1 !! n = Some d' /\ length (c_workers d') = S (length (c_workers d))) as (d' & Hd' & El).
  { unfold create_worker in E. injection E as _ <-. simpl. rewrite lookup_alter, Hd. simpl. eexists. split; [done|]. simpl.
    rewrite app_length. simpl. lia. }
  apply (IH _ d'); [done|lia|].
  apply A_put. eapply A_step; [|exact Hs]. replace s1 with (create_worker cf n now s).2 by (rewrite E; done).
  eapply a_neww; eauto. unfold room. lia.
Qed.
Lemma A_scale n now s c d : is_hb e = false -> objs s0 !! n = Some c -> is_fin (c_status c) = false -> objs s !! n = Some d ->
  c_workers d = c_workers c -> r_count (c_row d) = r_count (c_row c) -> R s -> R (check_scale cf n now s).
Proof.
  intros He Hc Hf Hd Hw Hr Hs. unfold check_scale. rewrite Hd. case_decide; [apply A_put, A_ctarget; done|].
  assert (active_workers d = active_workers c) as Ha by (unfold active_workers; rewrite Hw; done).
  rewrite Ha. set (k := Z.to_nat _).
  destruct (decide (k = 0%nat)) as [E|E]; [rewrite E; done|].
  apply (A_create_workers k n now s c d); auto. rewrite Hw. unfold k in *. rewrite Hr in *. lia.
Qed.
Lemma row_upd s1 m f c1 : objs s1 !! m = Some c1 -> objs (update_cluster m f s1) = <[m := cset_row (f (c_row c1)) c1]> (objs s1).
Proof. intros H. apply (update_cluster_spec m f s1 c1 H). Qed.
Lemma A_proxied n s : R s -> R (check_proxied n s).
Proof. intros Hs. unfold check_proxied. destruct (objs s !! n); [|done]. destruct (c_proxied c); [done|]. apply A_attr; [done|by left|]. apply A_routes. done. Qed.
Lemma A_stopped n now s c : objs s !! n = Some c -> objs s0 !! n = Some c -> Bof s0 (InStopCluster n) -> R s -> R (cluster_stopped n now s).
Proof.
  intros Hn Hn0 Hb Hs. unfold cluster_stopped. rewrite Hn. apply A_attr; [done|by left|]. eapply A_step; [by apply a_cstop|].
  assert (forall w, w ∈ map w_name (List.filter (fun w => jlt (w_status w) STOPPED) (c_workers c)) -> wlive n w) as Hw.
  { intros w (x & -> & Hx)%elem_of_list_fmap. apply elem_of_list_In, filter_In in Hx as [Hx1 Hx2]. exists c, x. split; [done|].
    split; [by apply elem_of_list_In|]. split; [done|]. unfold is_fin, jge. rewrite Hx2. done. }
  revert s Hn Hs Hw. generalize (map w_name (List.filter (fun w => jlt (w_status w) STOPPED) (c_workers c))) as ws. unfold update_workers.
  intros ws s _. revert s. induction ws as [|w ws IH]; intros s Hs Hw; simpl; [done|]. apply IH; [|intros; apply Hw; by right].
  eapply A_step; [|exact Hs]. apply a_wall; [done|]. apply Hw. by left.
Qed.
Lemma A_closing n c s : objs s0 !! n = Some c -> is_fin (c_status c) = false -> R s -> R (cluster_to_closing cf n c s).
Proof.
  intros Hn Hf Hs. unfold cluster_to_closing. apply A_attr; [done|by left|]. set (t := if bulk cf then CLOSING else STOPPED).
  assert (clive n) as Hcl by (exists c; done).
  assert (forall w, w ∈ map w_name (List.filter (fun w => jlt (w_target w) t) (c_workers c)) -> wlive n w) as Hw.
  { intros w (x & -> & Hx)%elem_of_list_fmap. apply elem_of_list_In, filter_In in Hx as [Hx1 Hx2]. exists c, x. split; [done|].
    apply elem_of_list_In in Hx1. split; [done|]. split; [done|].
    destruct (is_fin (w_status x)) eqn:E; [|done]. pose proof (k_workers _ _ _ _ _ _ (g_cok _ _ _ _ HI _ _ Hn)) as Hall.
    rewrite Forall_forall in Hall. apply (wo_fin _ _ _ _ _ _ (Hall x Hx1)) in E.
    unfold t in Hx2. destruct (bulk cf), (w_target x); done. }
  assert (forall (ws : list nat), (forall w, w ∈ ws -> wlive n w) ->
     R (update_cluster n (rset_status CLOSING) (qputs (map (fun w => (n, Some w)) ws) (update_workers n ws (wset_target t) s)))) as H.
  { intros ws Hws. apply A_live; [done|done|by left| |by right|].
    - intros r. split; [done|]. split; [done|]. right. done.
    - apply A_puts, A_wlives; auto. done. }
  specialize (H _ Hw). destruct (map w_name _) as [|w ws]; [apply A_put|]; apply H; done.
Qed.

(** Names in the lists of a heartbeat belong to workers that are not finished. *)
Lemma classify_live m ws z : classify m ws = Some z ->
  forall w, w ∈ z_created z ++ z_submitted z ++ map fst (z_targets z) ++ z_running z ++ z_close z ->
  exists x, x ∈ ws /\ w_name x = w /\ is_fin (w_status x) = false.
Proof.
  revert z. induction ws as [|y ws IH]; intros z; simpl.
  - intros [= <-]. simpl. intros w Hw. inversion Hw.
  - destruct (classify m ws) as [[cr su ta ru cl]|]; [|done]. simpl. specialize (IH _ eq_refl). simpl in IH.
    destruct (jge (w_status y) STOPPED) eqn:Hf.
    { intros [= <-] w Hw. simpl in Hw. destruct (IH w Hw) as (x & ? & ?). exists x. split; [by right|done]. }
    intros Hz w Hw.
    assert (w = w_name y \/ w ∈ cr ++ su ++ map fst ta ++ ru ++ cl) as [->|H].
    { destruct (decide (w = w_name y)); [auto|right].
      destruct (decide (w_name y ∈ m_closing m)); [|destruct (decide (w_name y ∈ m_active m)); [|destruct (decide (w_name y ∈ m_closed m));
        [|destruct (decide (w_status y = SUBMITTED)); [|destruct (decide (w_status y = CREATED))]]]]; try destruct (jlt (w_status y) RUNNING);
        try discriminate Hz; injection Hz as <-; cbn [z_created z_submitted z_targets z_running z_close map fst] in Hw;
        repeat (rewrite ?elem_of_app, ?elem_of_cons in Hw); repeat rewrite elem_of_app; tauto. }
    + exists y. split; [left|]. done.
    + destruct (IH w H) as (x & ? & ?). exists x. split; [by right|done].
Qed.
(** The workers a heartbeat finds running are listed in it. *)
Lemma classify_running m ws z : classify m ws = Some z -> forall w, w ∈ z_running z -> w ∈ m_active m \/ w ∈ m_closing m.
Proof.
  revert z. induction ws as [|y ws IH]; intros z; simpl.
  - intros [= <-] w Hw. inversion Hw.
  - destruct (classify m ws) as [[cr su ta ru cl]|]; [|done]. simpl. specialize (IH _ eq_refl). simpl in IH.
    intros Hz w. destruct (jge (w_status y) STOPPED); [injection Hz as <-; apply IH|].
    destruct (decide (w_name y ∈ m_closing m)); [|destruct (decide (w_name y ∈ m_active m)); [|destruct (decide (w_name y ∈ m_closed m));
      [|destruct (decide (w_status y = SUBMITTED)); [|destruct (decide (w_status y = CREATED))]]]]; try discriminate Hz; injection Hz as <-; simpl; auto.
    + destruct (jlt _ _); [|auto]. intros [->|?]%elem_of_cons; auto.
    + destruct (jlt _ _); [|auto]. intros [->|?]%elem_of_cons; auto.
Qed.
Lemma A_heartbeat n m now : e = EHeartbeat n m now -> R (heartbeat n m now s0).1.
Proof.
  intros He. assert (R s0) as Hs by apply rtc_refl.
  unfold heartbeat, lookup_cluster. destruct (decide (n ∈ by_name s0)); [|done].
  destruct (objs s0 !! n) as [c|] eqn:Hn; [|done]. destruct (jlt RUNNING (c_target c)) eqn:Ht; [done|].
  destruct (classify _ _) as [z|] eqn:Hz; [|apply A_attr; [done|intros ?; right; simpl; eauto|done]]. cbn [fst].
  assert (clive n) as Hcl.
  { exists c. split; [done|]. pose proof (k_row _ _ _ _ _ _ (g_cok _ _ _ _ HI _ _ Hn)) as [].
    unfold c_status, c_target in *. destruct (r_status (c_row c)); try done; exfalso.
    - specialize (ro_stopped eq_refl). destruct (r_target (c_row c)); try done; destruct ro_tgt as [?|[?|?]]; done.
    - specialize (ro_failed eq_refl). rewrite ro_failed in Ht. done. }
  assert (forall w, w ∈ z_created z ++ z_submitted z ++ map fst (z_targets z) ++ z_running z ++ z_close z -> wlive n w) as Hl.
  { intros w Hw. destruct (classify_live _ _ _ Hz w Hw) as (x & H1 & H2 & H3). exists c, x. done. }
  match goal with |- context [z_targets z ++ ?l] => set (extra := l) end.
  match goal with |- context [set_targets n (z_targets z ++ extra) ?x] => set (s2 := x) end.
  assert (R (upd_obj n (cset_hb (Some now)) s0)) as H1 by (apply A_attr; [done|intros ?; right; simpl; eauto|done]).
  assert (R s2) as H2.
  { unfold s2. destruct (_ || _); [|done]. apply A_put, A_live; [done|..|left; rewrite He; done|done].
    - intros r. destruct (decide (c_status c = RUNNING)), (negb _); done.
    - right. exists (cset_hb (Some now) c). split; [|simpl; eauto]. simpl. rewrite lookup_alter, Hn. done.
    - intros r. destruct (decide (c_status c = RUNNING)), (negb _); simpl; auto. }
  assert (forall w, w ∈ map fst (z_targets z ++ extra) -> wlive n w) as Hts.
  { intros w. rewrite map_app, elem_of_app. intros [Hw|Hw].
    - apply Hl. rewrite !elem_of_app. auto.
    - unfold extra in Hw. destruct (_ <? _); [|inversion Hw]. rewrite map_map in Hw. simpl in Hw. rewrite map_id in Hw.
      eapply elem_of_submseteq in Hw; [|apply sublist_submseteq, sublist_take]. apply elem_of_app in Hw. apply Hl. rewrite !elem_of_app. tauto. }
  assert (forall ts s, (forall w, w ∈ map fst ts -> wlive n w) -> R s -> R (set_targets n ts s)) as Htargets.
  { clear -HI. unfold set_targets. induction ts as [|t ts IH]; intros s Hw Hs; simpl; [done|]. apply IH.
    - intros. apply Hw. by right.
    - apply A_wlive; [apply Hw; by left|done| | |done]; auto. }
  assert (R (qputs (map (fun t : nat * job => (n, Some t.1)) (z_targets z ++ extra)) (set_targets n (z_targets z ++ extra) s2))) as H3.
  { apply A_puts, Htargets; done. }
  apply A_wlives; [intros w Hw; apply Hl; rewrite !elem_of_app; tauto|done|auto|auto|].
  assert (forall w, w ∈ z_running z -> wlive n w) as Hr. { intros w Hw; apply Hl; rewrite !elem_of_app; tauto. }
  pose proof (classify_running _ _ _ Hz) as Hru.
  destruct (z_running z) as [|w ws]; [done|]. apply A_wlives; [done|done| | |apply A_attr; [done|by left|done]]; [intros x; auto|].
  intros x v Hv _. right. exists m, now. auto.
Qed.
Lemma A_reconcile_cluster k n now s : is_hb e = false -> objs s = objs s0 -> R s -> R (reconcile_cluster cf k n now s).1.
Proof.
  intros He Ho Hs. unfold reconcile_cluster. destruct (objs s !! n) as [c|] eqn:Hn; [|apply A_finish; done].
  destruct (jge (c_status c) STOPPED) eqn:Hf; [apply A_finish; done|].
  assert (objs s0 !! n = Some c) as Hn0 by (rewrite <- Ho; done).
  assert (clive n) as Hcl by (exists c; done).
  case_decide.
  - case_decide as Hcs; [|apply A_finish, A_closing; done]. destruct (ready_to_close cf c); [|apply A_finish; done].
    rewrite Hcs. apply A_suspend; done.
  - case_decide; [|apply A_finish; done]. case_decide; [apply A_suspend; done|]. cbn [fst].
    set (s1 := if decide _ then _ else s).
    assert (R s1) as Hr1.
    { unfold s1. destruct (decide _); [|done]. apply A_attr; [done|by left|]; apply A_live; [done|done|by left| |by right|done]. intros r; auto. }
    assert (exists c1, objs s1 !! n = Some c1 /\ c_workers c1 = c_workers c /\ r_count (c_row c1) = r_count (c_row c)) as (c1 & Hc1 & Hw1 & Hr2).
    { unfold s1. destruct (decide _); [|eauto]. simpl. rewrite lookup_alter, (row_upd s n _ c Hn), lookup_insert. simpl. eauto. }
    apply A_finish. rewrite Hc1. case_decide; [|done].
    assert (exists d, objs (check_proxied n s1) !! n = Some d /\ c_workers d = c_workers c /\ r_count (c_row d) = r_count (c_row c)) as (d & Hd & Hwd & Hrd).
    { unfold check_proxied. rewrite Hc1. destruct (c_proxied c1); [eauto|]. simpl. rewrite lookup_alter, Hc1. simpl. eauto. }
    apply (A_scale n now _ c d); auto. apply A_proxied; done.
Qed.
Lemma A_rest n w s : R s -> R (worker_stopped_rest cf n w s).
Proof.
  intros Hs. unfold worker_stopped_rest. destruct (objs s !! n) as [c|]; [|done]. destruct (get_worker n w s); [|done].
  destruct (ready_to_close cf c); [apply A_put; done|]. case_decide; [apply A_put|]; done.
Qed.
Lemma A_reconcile_worker k n w now s : objs s = objs s0 -> ~ Bof s0 (InStartWorker n w) -> wends e n w -> R s -> R (reconcile_worker cf k n w now s).1.
Proof.
  intros Ho Hb He Hs. unfold reconcile_worker. destruct (get_worker n w s) as [x|] eqn:Hx; [|apply A_finish; done].
  unfold get_worker in Hx. rewrite Ho in Hx. destruct (objs s0 !! n) as [c|] eqn:Hn; [|done]. simpl in Hx.
  destruct (find_worker_some _ _ _ Hx) as [Hx1 Hx2].
  destruct (jge (w_status x) STOPPED) eqn:Hf; [apply A_finish; done|].
  assert (wlive n w) as Hl by (exists c, x; done).
  case_decide.
  - cbn [fst]. apply A_finish. set (s1 := if decide _ then s else _).
    assert (R s1) by (unfold s1; destruct (decide _); [done|apply A_wlive; auto; done]).
    destruct (is_ready cf n s1); [apply A_put|]; done.
  - case_decide.
    + destruct (jlt CREATED (w_status x)) eqn:Hcr; [apply A_suspend; done|]. apply A_finish, A_rest. eapply A_step; [|exact Hs].
      apply a_wstop; [| |exact He].
      { intros c1 x1 Hc1 Hx1' E. rewrite Ho, Hn in Hc1. injection Hc1 as <-. assert (x1 = x) as ->.
        { apply (nodup_map_inj w_name (c_workers c)); auto; [|congruence]. apply (k_nodup _ _ _ _ _ _ (g_cok _ _ _ _ HI _ _ Hn)). }
        destruct (w_target x); try done; intuition congruence. }
      right. split; [|done]. exists c, x. repeat (split; [done|]). destruct (w_status x); done.
    + case_decide; [apply A_suspend|apply A_finish]; done.
Qed.
Lemma turn_item_free k q' x : get_turn k (q s0) = (q', Some (Item x)) -> forall p, Bof s0 p -> pc_item p <> x.
Proof.
  intros Ht p (j & Hj) E. destruct (get_turn_item _ _ _ _ Ht) as ((l & Hl & _) & _).
  assert (x ∈ queue (q s0)) as Hin by (rewrite Hl; left). apply (qo_line _ (g_q _ _ _ _ HI)) in Hin as [_ Hin]. apply Hin.
  apply (g_proc _ _ _ _ HI). left. eauto.
Qed.
Lemma A_turn k now q' r : is_hb e = false -> e = EGet k now \/ e = EWake k now -> get_turn k (q s0) = (q', r) -> R (got cf k now s0 (as_out k (q', r))).1.
Proof.
  intros He Hev Ht. assert (R (set_q q' s0)) as Hs by (apply A_setq, rtc_refl). destruct r as [[x| | |]|]; simpl; try done.
  unfold reconcile. destruct x as [n [w|]]; simpl.
  - apply A_reconcile_worker; [done| |right; eauto|done]. intros Hb. eapply turn_item_free in Ht; [|exact Hb]. done.
  - apply A_reconcile_cluster; done.
Qed.
Lemma A_resume k o now : e = EBackend k o now -> R (resume cf k o now s0).1.
Proof.
  intros He. assert (R s0) as Hs by apply rtc_refl. unfold resume. destruct (busy s0 !! k) as [p|] eqn:Hk; [|done].
  assert (Bof s0 p) as Hb by (exists k; done).
  assert (R (release k s0)) as Hr by (apply A_release; done).
  assert (forall n, p = InStartCluster n -> clive n) as Hsc.
  { intros n ->. destruct (g_pcs _ _ _ _ HI _ _ Hk) as (c & Hc & _). exists c. split; [done|].
    rewrite (b_start _ _ _ _ _ _ (g_cok _ _ _ _ HI _ _ Hc) Hb). done. }
  assert (forall n w, p = InStartWorker n w -> wlive n w) as Hsw.
  { intros n w ->. destruct (g_pcs _ _ _ _ HI _ _ Hk) as (c & Hc & Hw). simpl in *. specialize (Hw w eq_refl).
    apply elem_of_list_fmap in Hw as (x & -> & Hx). exists c, x. repeat (split; [done|]).
    pose proof (k_workers _ _ _ _ _ _ (g_cok _ _ _ _ HI _ _ Hc)) as Hall. rewrite Forall_forall in Hall.
    destruct (wb_start _ _ _ _ _ _ (Hall x Hx) Hb) as [[-> | ->] _]; done. }
  assert (forall n w c x, p = InStopWorker n w -> objs s0 !! n = Some c -> x ∈ c_workers c -> w_name x = w -> is_fin (w_target x) = true) as Hst.
  { intros n w c x -> Hc Hx E. pose proof (k_workers _ _ _ _ _ _ (g_cok _ _ _ _ HI _ _ Hc)) as Hall. rewrite Forall_forall in Hall.
    rewrite <- E in Hb. apply (wb_stop _ _ _ _ _ _ (Hall x Hx) Hb). }
  destruct p as [n|n|n w|n w], o as [st| |]; cbn [fst]; try done.
  - eapply A_step; [|exact Hs]. eapply a_cstate; eauto.
  - apply A_finish, A_live; [auto|done|by left| |by right|done]. intros r; auto.
  - apply A_finish, A_put, A_live; [auto|done|by left| |by right|done]. intros r; auto.
  - destruct (g_pcs _ _ _ _ HI _ _ Hk) as (c & Hc & _). apply A_finish. eapply A_stopped; eauto. apply A_routes. done.
  - destruct (g_pcs _ _ _ _ HI _ _ Hk) as (c & Hc & _). apply A_finish. eapply A_stopped; eauto. apply A_routes. done.
  - eapply A_step; [|exact Hs]. eapply a_wstate; eauto.
  - apply A_finish, A_wlive; [auto|done| |done|done]. intros r; auto.
  - apply A_finish, A_put, A_attr; [done|by left|]. apply A_wlive; [auto|done| |done|done]. intros r; auto.
  - apply A_finish, A_rest. eapply A_step; [apply a_wstop; [|by left|left; exists k; eauto]|done]. eauto.
  - apply A_finish, A_rest. eapply A_step; [apply a_wstop; [|by left|left; exists k; eauto]|done]. eauto.
Qed.
End one.
Lemma A_all e : is_restart e = false -> rtc (act e) s0 (step cf s0 e).1.
Proof.
  intros He. assert (rtc (act e) s0 s0) as Hs by apply rtc_refl.
  destruct e as [user info mx now|n failed|n m now|now| |oks| |oks|now|k now|k now|k o now|now| |];
    try discriminate He; cbn [step fst].
  - unfold start_cluster. destruct (create_cluster cf user info mx now s0) as [n s1] eqn:E. cbn [fst]. apply A_put. eapply A_step; [|exact Hs].
    replace s1 with (create_cluster cf user info mx now s0).2 by (rewrite E; done). apply a_new.
  - unfold stop_cluster, lookup_cluster. destruct (decide (n ∈ by_name s0)); [|done]. destruct (objs s0 !! n) as [c|] eqn:Hn; [|done].
    destruct (jge RUNNING (c_target c)) eqn:Ht; [|done]. apply A_put, A_live; [|done|by left| |by right|done].
    + exists c. split; [done|]. pose proof (k_row _ _ _ _ _ _ (g_cok _ _ _ _ HI _ _ Hn)) as [].
      unfold c_status, c_target in *. destruct (r_status (c_row c)); try done; exfalso.
      * specialize (ro_stopped eq_refl). destruct (r_target (c_row c)); try done; destruct ro_tgt as [?|[?|?]]; done.
      * specialize (ro_failed eq_refl). rewrite ro_failed in Ht. done.
    + intros r. auto.
  - apply A_heartbeat. done.
  - destruct (down s0); [done|]. unfold check_timeouts. destruct (find_late _ _ _) as [[cs ws]|]; [|done].
    cbn [fst]. unfold fail_workers. apply A_puts, A_fold_wk, A_fail_clusters; done.
  - destruct (down s0); [done|]. destruct (chk_c s0); [done|]. apply A_chk_c; done.
  - destruct oks; [|apply A_chk_c; done]. cbn [fst]. unfold check_clusters_end. destruct (chk_c s0); [|done].
    apply A_fail_clusters, A_chk_c. done.
  - destruct (down s0); [done|]. destruct (chk_w s0); [done|]. apply A_chk_w; done.
  - destruct oks; [|apply A_chk_w; done]. cbn [fst]. unfold check_workers_end. destruct (chk_w s0); [|done].
    apply A_fold_fails, A_fold_wk. apply A_chk_w. done.
  - destruct (down s0); [done|]. eapply A_step; [|exact Hs]. apply a_purge.
  - case_decide; [|done]. destruct (busy s0 !! k); [done|]. destruct (tasks (q s0) !! k) eqn:Ht; [done|].
    cbn [WorkQueue_Model.step]. rewrite Ht. destruct (get_turn k (q s0)) as [q' r] eqn:Hg. apply A_turn; auto.
  - cbn [WorkQueue_Model.step]. destruct (tasks (q s0) !! k) as [[]|]; simpl; try (apply A_setq; done).
    destruct (get_turn k (q s0)) as [q' r] eqn:Hg. apply A_turn; auto.
  - apply A_resume. done.
  - destruct (down s0); [done|]. unfold shutdown. destruct (stop_on_shutdown cf); [|apply A_down, A_chk_w, A_chk_c; done].
    apply A_down, A_fail_clusters, A_chk_w, A_chk_c; done.
  - unfold close_queue. destruct (down s0); [|done]. destruct (forallb _ _); [apply A_setq|]; done.
Qed.
End acts.
