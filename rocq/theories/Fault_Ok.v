(** When database calls fail: the invariant, and how it is carried over one
    database call.  [strict]: only failures that change nothing ([Before]) happen;
    then the invariant of Gateway_Inv is kept as it is.  Otherwise it holds of a
    state that differs in the delayed items and in the two event flags. *)
From Coq Require Import ZArith Lia.
From stdpp Require Import prelude gmap.
From Verif Require Import Trace WorkQueue_Model WorkQueue_Proofs Router_Model Gateway_Model Gateway_Inv Gateway_Steps Gateway_Steps2
  Gateway_Steps3 Gateway_Steps4 Fault_Model.
Open Scope Z_scope.

(** * Up to delayed items and flags *)
Definition norm (c : cluster) : cluster := cset_ready false (cset_shutdown false c).
Definition N (s : gw) : gw := set_q (set_timers ∅ (q s)) (set_objs (norm <$> objs s) s).
Definition resp (f : gw -> gw) : Prop := forall s s1, N s = N s1 -> N (f s) = N (f s1).

Lemma N_inv s s1 : N s = N s1 ->
  norm <$> objs s = norm <$> objs s1 /\ set_timers ∅ (q s) = set_timers ∅ (q s1) /\ set_q (init 0 0) (set_objs ∅ s) = set_q (init 0 0) (set_objs ∅ s1).
Proof.
  intros H. split; [exact (f_equal objs H)|]. split; [exact (f_equal q H)|].
  exact (f_equal (fun s => set_q (init 0 0) (set_objs ∅ s)) H).
Qed.
Lemma N_intro s s1 :
  norm <$> objs s = norm <$> objs s1 -> set_timers ∅ (q s) = set_timers ∅ (q s1) -> set_q (init 0 0) (set_objs ∅ s) = set_q (init 0 0) (set_objs ∅ s1) ->
  N s = N s1.
Proof.
  intros H1 H2 H3. unfold N. rewrite H1, H2. clear H1 H2. destruct s, s1. unfold set_q, set_objs in *. simpl in *.
  injection H3. clear H3. intros. subst. reflexivity.
Qed.
Lemma N_obj s s1 n c : N s = N s1 -> objs s !! n = Some c -> exists c1, objs s1 !! n = Some c1 /\ norm c1 = norm c.
Proof.
  intros (H & _ & _)%N_inv Hc. apply (f_equal (fun m => m !! n)) in H. rewrite !lookup_fmap, Hc in H. simpl in H.
  destruct (objs s1 !! n) as [c1|]; simpl in H; [|done]. exists c1. split; [done|]. congruence.
Qed.
Lemma N_none s s1 n : N s = N s1 -> objs s !! n = None -> objs s1 !! n = None.
Proof.
  intros H Hc. destruct (objs s1 !! n) as [c|] eqn:E; [|done]. symmetry in H. destruct (N_obj _ _ _ _ H E) as (d & Hd & _). congruence.
Qed.
Lemma norm_inv c d : norm c = norm d -> c_id c = c_id d /\ c_row c = c_row d /\ c_hb c = c_hb d /\ c_fails c = c_fails d /\
  c_proxied c = c_proxied d /\ c_workers c = c_workers d.
Proof. destruct c, d. unfold norm, cset_ready, cset_shutdown. simpl. intros [= ]. subst. auto 10. Qed.
Lemma norm_intro c d : c_id c = c_id d -> c_row c = c_row d -> c_hb c = c_hb d -> c_fails c = c_fails d ->
  c_proxied c = c_proxied d -> c_workers c = c_workers d -> norm c = norm d.
Proof. destruct c, d. unfold norm, cset_ready, cset_shutdown. simpl. intros. subst. done. Qed.
Lemma N_rest s s1 : N s = N s1 -> by_name s = by_name s1 /\ by_id s = by_id s1 /\ by_user s = by_user s1 /\ db_c s = db_c s1 /\
  db_w s = db_w s1 /\ uuid s = uuid s1 /\ n_cins s = n_cins s1 /\ n_wins s = n_wins s1 /\ busy s = busy s1 /\ chk_c s = chk_c s1 /\
  chk_w s = chk_w s1 /\ routes s = routes s1 /\ down s = down s1.
Proof. intros (_ & _ & H)%N_inv. destruct s, s1. unfold set_q, set_objs in H. simpl in *. injection H. intros. subst. auto 20. Qed.
Lemma N_q s s1 : N s = N s1 -> queue (q s) = queue (q s1) /\ processing (q s) = processing (q s1) /\ dirty (q s) = dirty (q s1) /\
  tasks (q s) = tasks (q s1).
Proof. intros (_ & H & _)%N_inv. destruct (q s), (q s1). unfold set_timers in H. simpl in *. injection H. intros. subst. auto 20. Qed.

Lemma resp_id : resp (fun s => s). Proof. intros s s1 H. exact H. Qed.
Lemma resp_comp f g : resp f -> resp g -> resp (fun s => f (g s)).
Proof. intros Hf Hg s s1 H. apply Hf, Hg, H. Qed.
Definition gnorm (g : cluster -> cluster) : Prop := forall c d, norm c = norm d -> norm (g c) = norm (g d).
Lemma norm_alter (m m1 : gmap nat cluster) g n : gnorm g -> norm <$> m = norm <$> m1 -> norm <$> alter g n m = norm <$> alter g n m1.
Proof.
  intros Hg H. apply map_eq. intros i. apply (f_equal (fun m => m !! i)) in H. rewrite !lookup_fmap in *.
  destruct (decide (n = i)) as [<-|]; [|rewrite !lookup_alter_ne by done; done].
  rewrite !lookup_alter. destruct (m !! n), (m1 !! n); simpl in *; try done. f_equal. apply Hg. congruence.
Qed.
Lemma resp_upd_obj n g : gnorm g -> resp (upd_obj n g).
Proof. intros Hg s s1 H. apply N_inv in H as (H1 & H2 & H3). apply N_intro; [|done|done]. apply norm_alter; done. Qed.
Lemma gnorm_row f : gnorm (fun c => cset_row (f (c_row c)) c).
Proof. intros c d (H1 & H2 & H3 & H4 & H5 & H6)%norm_inv. apply norm_intro; simpl; congruence. Qed.
Lemma gnorm_workers f : gnorm (fun c => cset_workers (f (c_workers c)) c).
Proof. intros c d (H1 & H2 & H3 & H4 & H5 & H6)%norm_inv. apply norm_intro; simpl; congruence. Qed.
Lemma gnorm_hb v : gnorm (cset_hb v).
Proof. intros c d (H1 & H2 & H3 & H4 & H5 & H6)%norm_inv. apply norm_intro; simpl; congruence. Qed.
Lemma gnorm_fails v : gnorm (cset_fails v).
Proof. intros c d (H1 & H2 & H3 & H4 & H5 & H6)%norm_inv. apply norm_intro; simpl; congruence. Qed.
Lemma gnorm_fails1 : gnorm (fun c => cset_fails (S (c_fails c)) c).
Proof. intros c d (H1 & H2 & H3 & H4 & H5 & H6)%norm_inv. apply norm_intro; simpl; congruence. Qed.
Lemma gnorm_proxied v : gnorm (cset_proxied v).
Proof. intros c d (H1 & H2 & H3 & H4 & H5 & H6)%norm_inv. apply norm_intro; simpl; congruence. Qed.
Lemma gnorm_ready v : gnorm (cset_ready v).
Proof. intros c d (H1 & H2 & H3 & H4 & H5 & H6)%norm_inv. apply norm_intro; simpl; congruence. Qed.
Lemma gnorm_shutdown v : gnorm (cset_shutdown v).
Proof. intros c d (H1 & H2 & H3 & H4 & H5 & H6)%norm_inv. apply norm_intro; simpl; congruence. Qed.
Lemma gnorm_flags : gnorm (fun c => cset_shutdown true (cset_ready true c)).
Proof. intros c d H. apply gnorm_shutdown, gnorm_ready, H. Qed.
Lemma resp_set_db_c v : resp (set_db_c v).
Proof. intros s s1 H. apply N_inv in H as (H1 & H2 & H3). apply N_intro; [done|done|].
  apply (f_equal (set_db_c v)) in H3. exact H3. Qed.
Lemma resp_set_db_w v : resp (set_db_w v).
Proof. intros s s1 H. apply N_inv in H as (H1 & H2 & H3). apply N_intro; [done|done|].
  apply (f_equal (set_db_w v)) in H3. exact H3. Qed.
Lemma resp_set_busy v : resp (set_busy v).
Proof. intros s s1 H. apply N_inv in H as (H1 & H2 & H3). apply N_intro; [done|done|].
  apply (f_equal (set_busy v)) in H3. exact H3. Qed.
Lemma resp_set_routes v : resp (set_routes v).
Proof. intros s s1 H. apply N_inv in H as (H1 & H2 & H3). apply N_intro; [done|done|].
  apply (f_equal (set_routes v)) in H3. exact H3. Qed.
Lemma resp_set_chk_c v : resp (set_chk_c v).
Proof. intros s s1 H. apply N_inv in H as (H1 & H2 & H3). apply N_intro; [done|done|].
  apply (f_equal (set_chk_c v)) in H3. exact H3. Qed.
Lemma resp_set_chk_w v : resp (set_chk_w v).
Proof. intros s s1 H. apply N_inv in H as (H1 & H2 & H3). apply N_intro; [done|done|].
  apply (f_equal (set_chk_w v)) in H3. exact H3. Qed.
Lemma resp_set_down v : resp (set_down v).
Proof. intros s s1 H. apply N_inv in H as (H1 & H2 & H3). apply N_intro; [done|done|].
  apply (f_equal (set_down v)) in H3. exact H3. Qed.
Lemma resp_set_counters a b c : resp (set_counters a b c).
Proof. intros s s1 H. apply N_inv in H as (H1 & H2 & H3). apply N_intro; [done|done|].
  apply (f_equal (set_counters a b c)) in H3. exact H3. Qed.
Lemma resp_set_index a b c : resp (set_index a b c).
Proof. intros s s1 H. apply N_inv in H as (H1 & H2 & H3). apply N_intro; [done|done|].
  apply (f_equal (set_index a b c)) in H3. exact H3. Qed.
Lemma N_set_q v v1 s s1 : set_timers ∅ v = set_timers ∅ v1 -> N s = N s1 -> N (set_q v s) = N (set_q v1 s1).
Proof. intros Hv H. apply N_inv in H as (H1 & H2 & H3). apply N_intro; [done|done|]. apply (f_equal (set_q (init 0 0))) in H3. exact H3. Qed.
Lemma N_set_objs m m1 s s1 : norm <$> m = norm <$> m1 -> N s = N s1 -> N (set_objs m s) = N (set_objs m1 s1).
Proof. intros Hv H. apply N_inv in H as (H1 & H2 & H3). apply N_intro; [done|done|]. apply (f_equal (set_objs ∅)) in H3. exact H3. Qed.
Lemma resp_update_cluster n f : resp (update_cluster n f).
Proof.
  intros s s1 H. unfold update_cluster. destruct (objs s !! n) as [c|] eqn:Hc.
  - destruct (N_obj _ _ _ _ H Hc) as (c1 & Hc1 & E). rewrite Hc1. apply norm_inv in E as (-> & _).
    replace (db_c s1) with (db_c s) by (symmetry; apply N_rest in H as (_ & _ & _ & E & _); done).
    apply resp_set_db_c, resp_upd_obj; [apply gnorm_row|done].
  - rewrite (N_none _ _ _ H Hc). done.
Qed.
Lemma resp_update_worker n w f : resp (update_worker n w f).
Proof.
  intros s s1 H. unfold update_worker, get_worker. destruct (objs s !! n) as [c|] eqn:Hc; simpl.
  - destruct (N_obj _ _ _ _ H Hc) as (c1 & Hc1 & E). rewrite Hc1. simpl. apply norm_inv in E as (_ & _ & _ & _ & _ & ->).
    destruct (find_worker w (c_workers c)) as [x|]; [|done].
    replace (db_w s1) with (db_w s) by (symmetry; apply N_rest in H as (_ & _ & _ & _ & E & _); done).
    apply resp_set_db_w, resp_upd_obj; [apply gnorm_workers|done].
  - rewrite (N_none _ _ _ H Hc). done.
Qed.
Lemma resp_fold {A} (f : A -> gw -> gw) (l : list A) : (forall a, resp (f a)) -> resp (fun s => fold_left (fun s a => f a s) l s).
Proof. intros Hf. induction l as [|a l IH]; intros s s1 H; simpl; [done|]. apply IH, Hf, H. Qed.
Lemma resp_update_clusters ns f : resp (update_clusters ns f).
Proof. apply (resp_fold (fun n s => update_cluster n f s)). intros; apply resp_update_cluster. Qed.
Lemma resp_update_workers n ws f : resp (update_workers n ws f).
Proof. apply (resp_fold (fun w s => update_worker n w f s)). intros; apply resp_update_worker. Qed.
Lemma resp_set_targets n ts : resp (set_targets n ts).
Proof. apply (resp_fold (fun (t : nat * job) s => update_worker n t.1 (wset_target t.2) s)). intros; apply resp_update_worker. Qed.
Lemma resp_fail_w (ws : list (nat * nat)) : resp (fun s => fold_left (fun s p => update_worker p.1 p.2 (wset_target FAILED) s) ws s).
Proof. apply (resp_fold (fun (p : nat * nat) s => update_worker p.1 p.2 (wset_target FAILED) s)). intros; apply resp_update_worker. Qed.
Lemma timers_put (x : item) (qq : wq item) t : put x (set_timers t qq) = set_timers t (put x qq).
Proof.
  unfold put. replace (put_ x (set_timers t qq)) with (set_timers t (put_ x qq)) by (unfold put_; simpl; repeat (case_decide; try done)).
  unfold wakeup_next. simpl. destruct (wakeup_next_aux _ _). done.
Qed.
Lemma set_timers_put (x : item) (qq q1 : wq item) : set_timers ∅ qq = set_timers ∅ q1 -> set_timers ∅ (put x qq) = set_timers ∅ (put x q1).
Proof. intros H. rewrite <- !timers_put, H. done. Qed.
Lemma resp_qput x : resp (qput x).
Proof. intros s s1 H. unfold qput. apply N_set_q; [|done]. apply set_timers_put. apply N_inv in H as (_ & H & _). done. Qed.
Lemma resp_qputs xs : resp (qputs xs).
Proof. apply (resp_fold qput). intros; apply resp_qput. Qed.
Lemma timers_done (x : item) (qq : wq item) t : task_done x (set_timers t qq) = set_timers t (task_done x qq).
Proof. unfold task_done. simpl. case_decide; [|done]. unfold wakeup_next. simpl. destruct (wakeup_next_aux _ _). done. Qed.
Lemma resp_finish x : resp (finish x).
Proof.
  intros s s1 H. unfold finish. apply N_set_q; [|done]. apply N_inv in H as (_ & H & _).
  rewrite <- !timers_done. f_equal. apply (f_equal (reset_backoff x)) in H. exact H.
Qed.
Lemma resp_release k : resp (release k).
Proof. intros s s1 H. unfold release. pose proof (N_rest _ _ H) as (_ & _ & _ & _ & _ & _ & _ & _ & -> & _). apply resp_set_busy. done. Qed.
Lemma resp_suspend k p : resp (suspend k p).
Proof. intros s s1 H. unfold suspend. pose proof (N_rest _ _ H) as (_ & _ & _ & _ & _ & _ & _ & _ & -> & _). apply resp_set_busy. done. Qed.
Lemma resp_remove_routes n : resp (remove_routes n).
Proof. intros s s1 H. unfold remove_routes. pose proof (N_rest _ _ H) as (_ & _ & _ & _ & _ & _ & _ & _ & _ & _ & _ & -> & _). apply resp_set_routes. done. Qed.
Lemma resp_check_proxied n : resp (check_proxied n).
Proof.
  intros s s1 H. unfold check_proxied. destruct (objs s !! n) as [c|] eqn:Hc.
  - destruct (N_obj _ _ _ _ H Hc) as (c1 & Hc1 & E). rewrite Hc1. apply norm_inv in E as (_ & -> & _ & _ & -> & _). destruct (c_proxied c); [done|].
    pose proof (N_rest _ _ H) as (_ & _ & _ & _ & _ & _ & _ & _ & _ & _ & _ & -> & _).
    apply resp_upd_obj; [apply gnorm_proxied|]. apply resp_set_routes. done.
  - rewrite (N_none _ _ _ H Hc). done.
Qed.
Lemma resp_create_worker cf n now : resp (fun s => (create_worker cf n now s).2).
Proof.
  intros s s1 H. unfold create_worker. cbn [snd]. pose proof (N_rest _ _ H) as (_ & _ & _ & _ & E1 & E2 & E3 & E4 & _).
  rewrite E1, E2, E3, E4.
  assert ((match objs s !! n with Some c => c_id c | None => 0%nat end) = match objs s1 !! n with Some c => c_id c | None => 0%nat end) as ->.
  { destruct (objs s !! n) as [c|] eqn:Hc.
    - destruct (N_obj _ _ _ _ H Hc) as (c1 & Hc1 & E). rewrite Hc1. apply norm_inv in E as (-> & _). done.
    - rewrite (N_none _ _ _ H Hc). done. }
  apply resp_upd_obj; [apply (gnorm_workers (fun l => l ++ [_]))|]. cbn [db_w set_counters]. rewrite E1.
  apply resp_set_db_w, resp_set_counters. done.
Qed.
Lemma resp_create_cluster cf user info mx now : resp (fun s => (create_cluster cf user info mx now s).2).
Proof.
  intros s s1 H. unfold create_cluster. cbn [snd]. pose proof (N_rest _ _ H) as (B1 & B2 & B3 & B4 & E1 & E2 & E3 & E4 & _).
  simpl. rewrite B1, B2, B3, B4, E2, E3, E4. apply resp_set_index.
  apply N_set_objs; [|apply resp_set_db_c, resp_set_counters; done].
  rewrite !fmap_insert. f_equal. apply N_inv in H as [H _]. done.
Qed.

(** * The invariant *)
Section ok.
Context (cf : cfg) (strict : bool) (s0 : gw).
Hypothesis Hrow0 : forall n c, objs s0 !! n = Some c -> row_ok (c_row c).
Notation Good := (Gateway_Steps.Good cf s0).

Definition Ok (cur : option item) (X : gset item) (s : gw) : Prop :=
  if strict then Good cur X s else exists s1, N s1 = N s /\ Good cur ∅ s1.

(** Items that are to be put, as delayed items. *)
Lemma absorb cur X s : Good cur X s -> exists s1, N s1 = N s /\ Good cur ∅ s1.
Proof.
  intros [HI HE]. set (t := timers (q s) ∪ gset_to_gmap 0 X).
  exists (set_q (set_timers t (q s)) s). split; [apply N_set_q; done|]. split; [|exact HE].
  destruct HI. constructor; simpl; auto.
  - destruct g_q. constructor; auto.
  - intros n c Hn. eapply cok_mono; [| | |apply g_cok; exact Hn]; auto.
    intros x _ [[H|H]|H]; [left; left; exact H| |]; left; right; simpl; unfold t.
    + destruct H as [v Hv]. exists v. apply lookup_union_Some_l. exact Hv.
    + apply lookup_union_is_Some. right. exists 0. apply lookup_gset_to_gmap_Some. auto.
Qed.
Lemma Ok_of cur X s : Good cur X s -> Ok cur X s.
Proof. unfold Ok. destruct strict; [done|]. apply absorb. Qed.
Lemma Ok_more cur X X' s : X ⊆ X' -> Ok cur X s -> Ok cur X' s.
Proof. intros HX. unfold Ok. destruct strict; [|done]. apply Good_more; done. Qed.
Lemma Ok_lift f cur X cur' X' s : resp f ->
  (forall s1, N s1 = N s -> Good cur X s1 -> Good cur' X' (f s1)) -> Ok cur X s -> Ok cur' X' (f s).
Proof.
  intros Hr Hf. unfold Ok. destruct strict; [apply Hf; done|]. intros (s1 & HN & HG).
  destruct (absorb cur' X' (f s1)) as (s2 & HN2 & HG2).
  - apply Hf; [done|]. eapply Good_more; [|exact HG]. set_solver.
  - exists s2. split; [|done]. rewrite HN2. apply Hr. done.
Qed.
(** A state with the same objects, queue, operations and routes. *)
Lemma Ok_same cur X s s' : Ok cur X s -> objs s' = objs s -> same_rest s s' -> Ok cur X s'.
Proof.
  intros HO Ho Hs. unfold Ok in *. destruct strict; [eapply Good_same; eauto|].
  destruct HO as (s1 & HN & HG). destruct Hs as (Q & B & R & U & Dn).
  exists (set_q (q s1) (set_objs (objs s1) s')). split.
  - destruct (N_inv _ _ HN) as (E1 & E2 & E3). apply N_intro; simpl; [by rewrite Ho|by rewrite Q|done].
  - eapply Good_same; [exact HG|done|]. destruct (N_rest _ _ HN) as (E1 & E2 & E3 & E4 & E5 & E6 & E7 & E8 & E9 & E10 & E11 & E12 & E13).
    repeat split; simpl; congruence.
Qed.
(** With lost requests allowed, only the objects matter up to flags. *)
Lemma Ok_loose cur X X' s s' : strict = false -> Ok cur X s -> N s' = N s -> Ok cur X' s'.
Proof. intros Hst. unfold Ok. rewrite Hst. intros (s1 & HN & HG) E. exists s1. split; [congruence|done]. Qed.

(** * Faults *)
Definition fok (fs : list fault) : Prop := strict = true -> Forall (fun f => f = Fault_Model.Good \/ f = Before) fs.
Lemma call_inv f s fs s' fs' b : call f s fs = (s', fs', b) -> fok fs ->
  fok fs' /\ ((b = true /\ s' = f s) \/ (b = false /\ s' = s) \/ (b = false /\ strict = false /\ exists dc dw, s' = set_db_w dw (set_db_c dc (f s)))).
Proof.
  intros H Hf. destruct fs as [|[] fs]; simpl in H; injection H as <- <- <-.
  - split; [done|]. auto.
  - split; [intros Hs; specialize (Hf Hs); inversion Hf; done|]. auto.
  - split; [intros Hs; specialize (Hf Hs); inversion Hf; done|]. auto.
  - assert (strict = false) by (destruct strict eqn:Est; [specialize (Hf Est); inversion Hf; subst; intuition discriminate|done]).
    split; [congruence|]. right. right. split; [done|]. split; [done|]. eauto.
  - assert (strict = false) by (destruct strict eqn:Est; [specialize (Hf Est); inversion Hf; subst; intuition discriminate|done]).
    split; [congruence|]. right. right. split; [done|]. split; [done|]. exists (db_c (f s)), (db_w (f s)). destruct (f s); done.
Qed.
Lemma seq_inv a b s fs r : seq a b s fs = r -> (exists s1 fs1, a s fs = (s1, fs1, true) /\ b s1 fs1 = r) \/ (r.2 = false /\ a s fs = r).
Proof. unfold seq. destruct (a s fs) as [[s1 fs1] []]; intros <-; eauto. Qed.
(** The rule for a call: it works, or it fails and leaves the invariant. *)
Lemma Ok_call f cur X X' s fs s' fs' b : call f s fs = (s', fs', b) -> fok fs -> resp f ->
  (forall s1, N s1 = N s -> Good cur X s1 -> Good cur X' (f s1)) -> Ok cur X s ->
  fok fs' /\ if b then s' = f s /\ Ok cur X' s' else Ok cur X s'.
Proof.
  intros H Hf Hr HG HO. destruct (call_inv _ _ _ _ _ _ H Hf) as (Hf' & [(-> & ->)|[(-> & ->)|(-> & Hs & dc & dw & ->)]]); (split; [done|]).
  - split; [done|]. eapply Ok_lift; eauto.
  - done.
  - apply (Ok_same cur X (f s)); [|done|done]. apply (Ok_loose cur X' X (f s)); [done| |done]. eapply Ok_lift; eauto.
Qed.
Lemma Ok_call_for {A} (xs : list A) f cur X X' s fs s' fs' b : call_for xs f s fs = (s', fs', b) -> fok fs -> resp f ->
  (xs = [] -> N (f s) = N s /\ X ⊆ X') ->
  (forall s1, N s1 = N s -> Good cur X s1 -> Good cur X' (f s1)) -> Ok cur X s ->
  fok fs' /\ if b then (s' = f s \/ xs = [] /\ s' = s) /\ Ok cur X' s' else Ok cur X s'.
Proof.
  intros H Hf Hr Hn HG HO. destruct xs as [|x xs]; cbn [call_for] in H.
  - unfold ok, pure in H. injection H as <- <- <-. split; [done|]. split; [auto|]. eapply Ok_more; [apply Hn; done|done].
  - destruct (Ok_call f cur X X' s fs s' fs' b H Hf Hr HG HO) as [H1 H2]. split; [done|]. destruct b; [|done]. destruct H2. auto.
Qed.

(** * The queue *)
Lemma Ok_put cur X x s : Ok cur ({[x]} ∪ X) s -> Ok cur X (qput x s).
Proof. apply Ok_lift; [apply resp_qput|]. intros. apply Good_put; done. Qed.
Lemma Ok_puts cur X xs s : Ok cur (list_to_set xs ∪ X) s -> Ok cur X (qputs xs s).
Proof. apply Ok_lift; [apply resp_qputs|]. intros. apply Good_puts; done. Qed.
Lemma Ok_finish x s : Ok (Some x) ∅ s -> Ok None ∅ (finish x s).
Proof. apply Ok_lift; [apply resp_finish|]. intros. apply Good_finish; done. Qed.

Lemma put_after_core (lt : Z) (x : item) (d : Z) (qq : wq item) :
  pend (put_after lt x d qq) x /\ (forall y, pend qq y -> pend (put_after lt x d qq) y) /\
  processing (put_after lt x d qq) = processing qq /\
  (qok qq -> qok (put_after lt x d qq)) /\ (forall k, tasks qq !! k = None -> tasks (put_after lt x d qq) !! k = None).
Proof.
  assert (let go := if 0 <? d then set_timers (<[x := lt + d]> (timers qq)) qq else put x (set_timers (delete x (timers qq)) qq) in
          pend go x /\ (forall y, pend qq y -> pend go y) /\ processing go = processing qq /\
          (qok qq -> qok go) /\ (forall k, tasks qq !! k = None -> tasks go !! k = None)) as Hgo.
  { cbv zeta. destruct (0 <? d).
    - split; [right; simpl; rewrite lookup_insert; eauto|]. split.
      + intros y [H|H]; [left; done|]. right. simpl. destruct (decide (x = y)) as [<-|]; [rewrite lookup_insert; eauto|rewrite lookup_insert_ne; done].
      + split; [done|]. split; [|done]. intros []. constructor; auto.
    - set (q1 := set_timers (delete x (timers qq)) qq). destruct (put_core x q1) as (Hp & Ht & Hd & Hq).
      split; [left; rewrite Hd; set_solver|]. split.
      + intros y [H|H]; [left; rewrite Hd; apply elem_of_union; right; exact H|]. destruct (decide (x = y)) as [<-|Hne].
        * left. rewrite Hd. set_solver.
        * right. rewrite Ht. unfold q1. simpl. rewrite lookup_delete_ne; done.
      + split; [rewrite Hp; done|]. split; [|intros k Hk; apply put_tasks_None; done].
        intros Hqk. apply qok_put. destruct Hqk. constructor; auto. }
  unfold put_after. destruct (timers qq !! x) as [w|] eqn:Hx; [|exact Hgo]. destruct (lt + d <? w); [exact Hgo|].
  split; [right; rewrite Hx; eauto|]. auto.
Qed.
Lemma backoff_core (lt : Z) (x : item) (qq : wq item) :
  pend (put_backoff lt x qq) x /\ (forall y, pend qq y -> pend (put_backoff lt x qq) y) /\
  processing (put_backoff lt x qq) = processing qq /\
  (qok qq -> qok (put_backoff lt x qq)) /\ (forall k, tasks qq !! k = None -> tasks (put_backoff lt x qq) !! k = None).
Proof.
  unfold put_backoff, backoff.
  match goal with |- context [put_after lt x ?d ?q1] => destruct (put_after_core lt x d q1) as (H1 & H2 & H3 & H4 & H5) end.
  split; [done|]. split; [intros y Hy; apply H2; exact Hy|]. split; [rewrite H3; done|]. split; [intros []; apply H4; constructor; auto|done].
Qed.
Lemma task_done_core (x : item) (qq : wq item) : dirty (task_done x qq) = dirty qq /\
  processing (task_done x qq) = processing qq ∖ {[x]} /\ timers (task_done x qq) = timers qq /\
  queue (task_done x qq) = (if decide (x ∈ dirty qq) then queue qq ++ [x] else queue qq).
Proof.
  unfold task_done. simpl. case_decide; [|done].
  rewrite dirty_wakeup, processing_wakeup, timers_wakeup, queue_wakeup. done.
Qed.
Lemma qok_task_done (x : item) (qq : wq item) : qok qq -> x ∈ processing qq -> qok (task_done x qq).
Proof.
  intros Hq Hp. destruct (qok_done x qq Hq Hp) as [H1 H2].
  destruct (done_core x qq) as (A1 & A2 & A3 & A4), (task_done_core x qq) as (B1 & B2 & B3 & B4).
  rewrite A4, <- B4 in *. rewrite A1, <- B1 in *. rewrite A2, <- B2 in *. constructor; done.
Qed.
Lemma task_done_tasks (x : item) (qq : wq item) k : tasks qq !! k = None -> tasks (task_done x qq) !! k = None.
Proof. intros Hk. unfold task_done. case_decide; [|done]. apply wakeup_tasks_None. done. Qed.
Lemma Good_leave x X q' s : Good (Some x) X s -> qok q' -> processing q' = processing (q s) ∖ {[x]} ->
  (forall k, tasks (q s) !! k = None -> tasks q' !! k = None) -> (forall y, pend (q s) y \/ y ∈ X -> pend q' y) ->
  Good None ∅ (set_q q' s).
Proof.
  intros [HI HE] Hq Hp Ht Hd. split; [|exact HE]. destruct HI. constructor; simpl; auto.
  - intros y. rewrite Hp, elem_of_difference, g_proc, not_elem_of_singleton. split.
    + intros [[H|H] Hne]; [auto|]. congruence.
    + intros [(k & p & Hk & Hp')|[=]]. split; [eauto|]. intros ->. apply (g_cur _ _ Hk). congruence.
  - intros k p Hk. apply Ht. eauto.
  - intros n c Hn. eapply cok_mono; [| | |apply g_cok; exact Hn]; auto.
    intros y _ H. left. apply Hd. exact H.
Qed.
Lemma Ok_backoff x lt s : Ok (Some x) {[x]} s -> Ok None ∅ (set_q (task_done x (put_backoff lt x (q s))) s).
Proof.
  destruct (backoff_core lt x (q s)) as (B1 & B2 & B3 & B4 & B5), (task_done_core x (put_backoff lt x (q s))) as (D1 & D2 & D3 & D4).
  unfold Ok. destruct strict.
  - intros HG. pose proof (proj1 HG) as HI. apply (Good_leave x {[x]}); auto.
    + apply qok_task_done; [apply B4, HI|]. rewrite B3. apply (g_proc _ _ _ _ HI). auto.
    + rewrite D2, B3. done.
    + intros k Hk. apply task_done_tasks, B5. done.
    + intros y [H|H]; unfold pend; rewrite D1, D3; [apply B2; exact H|]. apply elem_of_singleton in H as ->. exact B1.
  - intros (s1 & HN & HG). pose proof (proj1 HG) as HI. destruct (N_q _ _ HN) as (Q1 & Q2 & Q3 & Q4).
    set (q' := task_done x (put_backoff lt x (q s))) in *.
    assert (qok (q s)) as Hqs by (destruct (g_q _ _ _ _ HI); constructor; rewrite <- Q1, <- ?Q2, <- ?Q3; done).
    assert (x ∈ processing (q s)) as Hps by (rewrite <- Q2; apply (g_proc _ _ _ _ HI); auto).
    assert (qok q') as Hq'.
    { apply qok_task_done; [auto|]. rewrite B3. done. }
    set (t := timers q' ∪ timers (q s1)).
    exists (set_q (set_timers t q') s1). split; [apply N_set_q; done|].
    apply (Good_leave x ∅); auto.
    + destruct Hq'. constructor; auto.
    + simpl. rewrite D2, B3, Q2. done.
    + simpl. rewrite Q4. intros k Hk. apply task_done_tasks, B5. done.
    + intros y [[H|H]|H]; [| |set_solver].
      * rewrite Q3 in H. destruct (B2 y (or_introl H)) as [H'|H']; [left; simpl; rewrite D1; exact H'|].
        right. simpl. unfold t. rewrite D3. apply lookup_union_is_Some. left. exact H'.
      * right. simpl. unfold t. apply lookup_union_is_Some. auto.
Qed.
Lemma Ok_queue cur X s q' : Ok cur X s ->
  queue q' = queue (q s) -> processing q' = processing (q s) -> dirty q' = dirty (q s) -> timers q' = timers (q s) ->
  (forall j p, busy s !! j = Some p -> tasks (q s) !! j = None -> tasks q' !! j = None) -> Ok cur X (set_q q' s).
Proof.
  intros HO H1 H2 H3 H4 H5. unfold Ok in *. destruct strict; [eapply Good_queue; eauto|].
  destruct HO as (s1 & HN & HG). destruct (N_q _ _ HN) as (Q1 & Q2 & Q3 & Q4).
  pose proof (N_rest _ _ HN) as (_ & _ & _ & _ & _ & _ & _ & _ & Hb & _).
  exists (set_q (set_timers (timers (q s1)) q') s1). split; [apply N_set_q; done|].
  eapply Good_queue; [exact HG|..]; simpl; try congruence. intros j p Hj Hk. rewrite Hb in Hj. rewrite Q4 in Hk. exact (H5 j p Hj Hk).
Qed.
Lemma Good_enter (k : nat) q' x s : Good None ∅ s -> busy s !! k = None -> get_turn k (q s) = (q', Some (Item x)) ->
  Good (Some x) {[x]} (set_q q' s).
Proof.
  intros [HI HE] Hk Ht. destruct (get_turn_item _ _ _ _ Ht) as (H1 & H2 & H3 & H4 & H5). split; [|exact HE]. eapply Inv_get; eauto.
  intros j p Hj. rewrite H5. destruct (decide (k = j)) as [<-|]; [apply lookup_delete|].
  rewrite lookup_delete_ne by done. eapply (g_tasks _ _ _ _ HI); eauto.
Qed.
Lemma get_turn_timers (k : nat) (qq q' : wq item) r t : get_turn k qq = (q', r) -> get_turn k (set_timers t qq) = (set_timers t q', r).
Proof.
  unfold get_turn, get_. simpl. destruct (queue qq); simpl.
  - destruct (closed qq); intros [= <- <-]; done.
  - destruct (closed qq); intros [= <- <-]; done.
Qed.
Lemma Ok_enter (k : nat) q' x s : Ok None ∅ s -> busy s !! k = None -> get_turn k (q s) = (q', Some (Item x)) ->
  Ok (Some x) {[x]} (set_q q' s).
Proof.
  intros HO Hk Ht. unfold Ok in *. destruct strict; [eapply Good_enter; eauto|].
  destruct HO as (s1 & HN & HG). pose proof (N_inv _ _ HN) as (_ & E & _).
  pose proof (N_rest _ _ HN) as (_ & _ & _ & _ & _ & _ & _ & _ & Hb & _).
  assert (q s1 = set_timers (timers (q s1)) (q s)) as E1.
  { apply (f_equal (set_timers (timers (q s1)))) in E. simpl in E. etransitivity; [|exact E]. destruct (q s1); done. }
  pose proof (get_turn_timers _ _ _ _ (timers (q s1)) Ht) as Ht1. rewrite <- E1 in Ht1.
  destruct (absorb (Some x) {[x]} (set_q (set_timers (timers (q s1)) q') s1)) as (s2 & HN2 & HG2).
  - eapply Good_enter; [exact HG| |exact Ht1]. congruence.
  - exists s2. split; [|done]. rewrite HN2. apply N_set_q; done.
Qed.
Lemma Ok_timer lt x s : Ok None ∅ s -> Ok None ∅ (set_q (WorkQueue_Model.step (q s) (ETimer lt x)).1 s).
Proof.
  intros HO. simpl. destruct (timers (q s) !! x) as [w|] eqn:Hx.
  2:{ simpl. eapply Ok_same; [exact HO|done|done]. }
  destruct (w <=? lt); [|simpl; eapply Ok_same; [exact HO|done|done]].
  cbn [fst]. unfold put_delayed. set (q1 := set_timers (delete x (timers (q s))) (q s)).
  change (set_q (put x q1) s) with (qput x (set_q q1 s)).
  apply Ok_put. rewrite (right_id_L ∅ (∪)). unfold Ok in *. destruct strict.
  - destruct HO as [HI HE]. split; [|exact HE]. destruct HI. constructor; simpl; auto.
    + destruct g_q. constructor; auto.
    + intros n c Hn. eapply cok_mono; [| | |apply g_cok; exact Hn]; auto.
      intros y _ [[H|H]|H]; [left; left; exact H| |set_solver]. destruct (decide (x = y)) as [<-|]; [right; set_solver|].
      left. right. simpl. rewrite lookup_delete_ne; done.
  - destruct HO as (s1 & HN & HG). exists s1. split; [|done]. rewrite HN. unfold N, q1. destruct s. done.
Qed.
End ok.
