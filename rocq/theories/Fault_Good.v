(** When database calls fail: the invariant in the states in between, where a
    function of db_base.py can stop. *)
From Coq Require Import ZArith Lia.
From stdpp Require Import prelude gmap.
From Verif Require Import Trace WorkQueue_Model WorkQueue_Proofs Router_Model Gateway_Model Gateway_Inv Gateway_Steps Gateway_Steps2
  Gateway_Steps3 Gateway_Steps4 Fault_Model Fault_Ok.
Open Scope Z_scope.

Section good.
Context (cf : cfg) (s0 : gw).
Hypothesis Hrow0 : forall n c, objs s0 !! n = Some c -> row_ok (c_row c).
Notation Good := (Gateway_Steps.Good cf s0).

(** Before a put. *)
Lemma Good_unput cur X x s : Good cur X (qput x s) -> qok (q s) -> (forall k p, busy s !! k = Some p -> tasks (q s) !! k = None) ->
  Good cur ({[x]} ∪ X) s.
Proof.
  intros [HI HE] Hq Ht. split; [|exact HE]. destruct (put_core x (q s)) as (Hp & Htm & Hd & _).
  destruct HI. simpl in *. constructor; auto.
  - intros y. rewrite <- Hp. apply g_proc.
  - intros n c Hn. eapply cok_mono; [| | |apply g_cok; exact Hn]; auto.
    intros y _. unfold Dof, pend. simpl. rewrite Hd, Htm, !elem_of_union. tauto.
Qed.
Lemma Good_unput_if cur (b : bool) x s : Good cur ∅ (if b then qput x s else s) -> qok (q s) -> (forall k p, busy s !! k = Some p -> tasks (q s) !! k = None) ->
  Good cur {[x]} s.
Proof.
  intros HG Hq Ht. destruct b; [|eapply Good_more; [|exact HG]; set_solver].
  replace {[x]} with ({[x]} ∪ ∅ : gset item) by set_solver. apply Good_unput; done.
Qed.
Lemma create_cluster_good user info mx now s : Good None ∅ s -> Good None {[(uuid s, None)]} (create_cluster cf user info mx now s).2.
Proof.
  intros HG. pose proof (start_cluster_good cf s0 Hrow0 user info mx now s HG) as H. unfold start_cluster in H.
  destruct (create_cluster cf user info mx now s) as [n s1] eqn:E. unfold create_cluster in E. injection E as <- <-. simpl in *.
  replace {[(uuid s, None)]} with ({[(uuid s, None)]} ∪ ∅ : gset item) by set_solver. apply Good_unput; [exact H|apply HG|].
  intros k p Hk. eapply (g_tasks _ _ _ _ (proj1 HG)); exact Hk.
Qed.

(** An operation is given up: its item is to be reconciled again. *)
Lemma release_good k p s : Good None ∅ s -> busy s !! k = Some p -> Good (Some (pc_item p)) {[pc_item p]} (release k s).
Proof.
  intros HG Hk. destruct (g_pcs _ _ _ _ (proj1 HG) _ _ Hk) as (c & Hn & _).
  pose proof (g_cok _ _ _ _ (proj1 HG) _ _ Hn) as Hc.
  assert (forall p', Bof s p' -> Dof {[pc_item p]} s (pc_item p') \/ (Bof s p' /\ p' <> p)) as HB.
  { intros p' Hp'. destruct (decide (p' = p)) as [->|]; [left; right; set_solver|auto]. }
  assert (forall y, Dof ∅ s y -> Dof {[pc_item p]} s y) as HD by (intros y [?|?]; [left; done|set_solver]).
  eapply (Good_resume cf s0 Hrow0 {[pc_item p]} s (release k s) k p c c); auto.
  - rewrite insert_id; done.
  - apply evolve_refl.
  - change (routes (release k s)) with (routes s). destruct Hc. constructor; auto.
    + eapply Forall_impl; [exact k_workers|]. intros w []. constructor; auto.
      * intros H1 H2. destruct (wo_start H1 H2) as [H|H]; [auto|]. apply (HB (InStartWorker _ (w_name w))). exact H.
      * intros H1 H2. destruct (wo_stop H1 H2) as [H|H]; [auto|]. apply (HB (InStopWorker _ (w_name w))). exact H.
      * intros [H1 _]. destruct (wb_start H1) as [? [?|?]]; auto.
      * intros [H1 _]. auto.
    + intros H1 H2. destruct (o_start H1 H2) as [H|H]; [auto|]. apply (HB (InStartCluster _)). exact H.
    + intros H1 H2. destruct (o_ready H1 H2) as [H|H]; [auto|]. apply (HB (InStopCluster _)). exact H.
    + intros H1 H2. destruct (o_scale H1 H2); auto.
    + intros [H1 _]. auto.
    + intros [H1 _]. auto.
Qed.
Lemma remove_routes_good cur X n c s : Good cur X s -> objs s !! n = Some c -> c_status c = CLOSING -> Good cur X (remove_routes n s).
Proof.
  intros [HI HE] Hn Hs. split; [|exact HE]. destruct HI. constructor; auto.
  - intros k m a H. unfold remove_routes in H. simpl in H.
    apply lookup_delete_Some in H as [_ H]. apply lookup_delete_Some in H as [_ H]. eauto.
  - intros m d Hd. change (objs (remove_routes n s)) with (objs s) in Hd. specialize (g_cok m d Hd).
    destruct (decide (m = n)) as [->|Hne].
    + assert (d = c) as -> by congruence. destruct g_cok. constructor; auto.
      * simpl. rewrite lookup_delete. intros [H|[? H]]; [congruence|discriminate].
      * simpl. rewrite lookup_delete_ne by done. rewrite lookup_delete. intros [H|[? H]]; [congruence|discriminate].
    + eapply cok_mono; [| | |exact g_cok]; auto. intros k. simpl. rewrite !lookup_delete_ne by congruence. done.
Qed.

(** _cluster_to_stopped: the workers are marked as stopped, the cluster not yet. *)
Lemma ready_levels c : ready_to_close cf c = true -> forall x, x ∈ c_workers c -> jge (w_status x) CLOSING = true.
Proof.
  intros Hrd x Hx. apply elem_of_list_In in Hx. unfold ready_to_close in Hrd. apply orb_true_iff in Hrd as [Hrd|Hrd].
  - apply andb_true_iff in Hrd as [_ Hrd]. apply andb_true_iff in Hrd as [_ Hrd]. unfold all_at_least in Hrd.
    rewrite forallb_forall in Hrd. auto.
  - unfold all_at_least in Hrd. rewrite forallb_forall in Hrd. specialize (Hrd x Hx). destruct (w_status x); done.
Qed.
Lemma workers_stopped_good cur X n c s : Good cur X s -> objs s !! n = Some c -> c_status c = CLOSING -> ready_to_close cf c = true ->
  (n, None) ∈ X ->
  let ws := map w_name (List.filter (fun w => jlt (w_status w) STOPPED) (c_workers c)) in
  Good cur X (update_workers n ws (fun w => wset_target STOPPED (wset_status STOPPED w)) s).
Proof.
  intros HG Hn Hs Hrd HX ws. pose proof (g_cok _ _ _ _ (proj1 HG) _ _ Hn) as Hc.
  set (P := fun w => jlt (w_status w) STOPPED) in *. set (g := fun w => wset_target STOPPED (wset_status STOPPED w)).
  destruct (update_workers_spec n ws g s c Hn) as [Ho Hr]; [apply filter_nodup, Hc|done|].
  unfold ws in Ho at 2. rewrite (at_workers_filter P g c (k_nodup _ _ _ _ _ _ Hc)) in Ho.
  pose proof (ready_levels c Hrd) as Hlev.
  eapply (Good_workers cf s0 Hrow0 cur X X s _ n c (fun x => if P x then g x else x)); eauto.
  - intros x Hx. destruct (P x) eqn:HP; [|apply wevolve_refl]. constructor; simpl; auto.
  - intros Hck. apply (cok_workers cf (Dof X s)); auto.
    + intros x Hx. specialize (Hlev x Hx). destruct (P x) eqn:HP; [|auto]. split; [done|]. split; [|done].
      intros []. constructor; simpl; try done.
      * intros [?|?]; done.
      * intros _. destruct (bulk cf); done.
      * intros Hb. destruct (wb_start Hb) as [[E|E] _]; rewrite E in Hlev; done.
    + intros _ _. left. right. done.
    + intros E. congruence.
    + intros _. unfold ready_to_close. apply orb_true_iff. right. unfold all_at_least. apply forallb_forall.
      intros y Hy. simpl in Hy. apply in_map_iff in Hy as (x & <- & _). destruct (P x) eqn:HP; [done|].
      unfold P in HP. unfold jge. rewrite HP. done.
    + intros x Hx. destruct (P x); [intros [E|E]; done|auto].
Qed.
(** _cluster_to_closing: the workers have their new target, the cluster is not yet closing. *)
Lemma workers_closing_good cur X n c s : Good cur X s -> objs s !! n = Some c -> jlt (c_status c) CLOSING = true -> c_target c <> RUNNING ->
  let t := if bulk cf then CLOSING else STOPPED in
  let ws := map w_name (List.filter (fun w => jlt (w_target w) t) (c_workers c)) in
  (n, None) ∈ X ->
  Good cur (list_to_set (map (fun w => (n, Some w)) ws) ∪ X) (update_workers n ws (wset_target t) s).
Proof.
  intros HG Hn Hs Ht t ws HX. pose proof (g_cok _ _ _ _ (proj1 HG) _ _ Hn) as Hc.
  set (P := fun w => jlt (w_target w) t) in *.
  destruct (update_workers_spec n ws (wset_target t) s c Hn) as [Ho Hr]; [apply filter_nodup, Hc|done|].
  unfold ws in Ho at 2. rewrite (at_workers_filter P (wset_target t) c (k_nodup _ _ _ _ _ _ Hc)) in Ho.
  set (X' := list_to_set (map (fun w => (n, Some w)) ws) ∪ X).
  assert (forall y, Dof X s y -> Dof X' s y) as HD by (intros y [?|?]; [left; done|right; set_solver]).
  eapply (Good_workers cf s0 Hrow0 cur X X' s _ n c (fun x => if P x then wset_target t x else x)); eauto.
  - intros x _ Hx. set_solver.
  - intros x Hx. destruct (P x) eqn:HP; [|apply wevolve_refl]. unfold P in HP. constructor; simpl; auto.
    + intros _. unfold t. destruct (bulk cf); simpl; lia.
    + unfold t in *. destruct (bulk cf); [|done]. destruct (w_target x); done.
  - intros Hck. apply (cok_workers cf (Dof X s)); auto.
    + intros x Hx. destruct (P x) eqn:HP.
      2:{ split; [done|]. split; [|done]. intros Hw. eapply wk_ok_mono; [| |exact Hw]; auto. }
      split; [done|]. assert (Dof X' s (n, Some (w_name x))) as Hd.
      { right. apply elem_of_union. left. apply elem_of_list_to_set. apply (elem_of_list_fmap_1 (fun w => (n, Some w))). unfold ws.
        apply (elem_of_list_fmap_1 w_name). apply elem_of_list_In, filter_In. split; [by apply elem_of_list_In|done]. }
      unfold P in HP. split.
      * intros Hw. pose proof (closing_worker cf (Dof X s) (Dof X' s) (Bof s) n (c_status c) x Hs Hw) as H. fold t in H. rewrite HP in H.
        feed specialize H; [intros; apply HD; done|auto|]. destruct H. constructor; auto.
        all: intros E; destruct (c_status c); done.
      * intros _. unfold w_active. unfold t in HP. destruct (w_target x), (bulk cf); done.
    + intros _ _. left. right. set_solver.
    + intros _ E. done.
    + intros Hb. destruct (b_stop _ _ _ _ _ _ Hc Hb) as [E _]. rewrite E in Hs. done.
Qed.
(** A cluster / a worker that was submitted is marked as failed. *)
Lemma submitted_failed_good cur X n s : (forall c, objs s !! n = Some c -> c_status c = SUBMITTED) -> Good cur X s ->
  Good cur ({[(n, None)]} ∪ X) (update_cluster n (fun r => rset_target FAILED (rset_status SUBMITTED r)) s).
Proof.
  intros Hs HG. pose proof (Good_ctarget cf s0 Hrow0 cur X s n FAILED (fun _ _ => or_introl eq_refl) HG) as H.
  destruct (objs s !! n) as [c|] eqn:Hn.
  - specialize (Hs c eq_refl). destruct (update_cluster_spec n (rset_target FAILED) s c Hn) as [O1 (A1 & A2 & A3 & A4 & A5)].
    destruct (update_cluster_spec n (fun r => rset_target FAILED (rset_status SUBMITTED r)) s c Hn) as [O2 (B1 & B2 & B3 & B4 & B5)].
    eapply Good_same; [exact H| |].
    + rewrite O1, O2. f_equal. f_equal. unfold c_status in Hs. destruct (c_row c). simpl in *. subst. done.
    + repeat split; congruence.
  - rewrite update_cluster_None in * by done. done.
Qed.
Lemma wsubmitted_failed_good cur X n w s : (forall c x, objs s !! n = Some c -> x ∈ c_workers c -> w_name x = w -> w_status x = SUBMITTED) -> Good cur X s ->
  Good cur ({[(n, Some w)]} ∪ X) (update_worker n w (fun x => wset_target FAILED (wset_status SUBMITTED x)) s).
Proof.
  intros Hs HG. pose proof (Good_wtarget cf s0 Hrow0 cur X s n w FAILED eq_refl HG) as H.
  destruct (objs s !! n) as [c|] eqn:Hn.
  - specialize (Hs c). destruct (update_worker_spec n w (wset_target FAILED) s c Hn) as [O1 (A1 & A2 & A3 & A4 & A5)].
    destruct (update_worker_spec n w (fun x => wset_target FAILED (wset_status SUBMITTED x)) s c Hn) as [O2 (B1 & B2 & B3 & B4 & B5)].
    eapply Good_same; [exact H| |].
    + rewrite O1, O2. f_equal. f_equal. apply map_ext_in. intros x Hx. unfold at_worker. case_decide as E; [|done].
      specialize (Hs x eq_refl (proj2 (elem_of_list_In _ _) Hx) E). destruct x. simpl in *. subst. done.
    + repeat split; congruence.
  - rewrite update_worker_None in * by done. done.
Qed.
End good.
