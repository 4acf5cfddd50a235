(** Lemmas for the gateway properties C76-C79. *)
From Coq Require Import ZArith Lia.
From stdpp Require Import prelude gmap.
From Verif Require Import Trace WorkQueue_Model WorkQueue_Proofs Router_Model Gateway_Model Gateway_Spec Gateway_Spec2 Gateway_Inv
  Gateway_Steps Gateway_Steps2 Gateway_Steps3 Gateway_Steps4 Gateway_Sync Gateway_Restart Gateway_Acts Gateway_Track Gateway_Busy
  Gateway_Hist Gateway_Ops Gateway_Proofs Gateway_Proofs2 Gateway_Proofs3.
Open Scope Z_scope.

(** * C77: the effect of a heartbeat on each worker *)
Lemma fold_pointwise {B} (f : B -> worker -> worker) (nm : B -> nat) (bs : list B) (l : list worker) :
  fold_left (fun l b => map_worker (nm b) (f b) l) bs l =
  map (fun x => fold_left (fun y b => if decide (w_name y = nm b) then f b y else y) bs x) l.
Proof.
  revert l. induction bs as [|b bs IH]; intros l; simpl; [symmetry; apply map_id|]. rewrite IH. unfold map_worker. rewrite map_map.
  apply map_ext. intros x. done.
Qed.
Lemma fold_idem (g : worker -> worker) (bs : list nat) x : (forall y, w_name (g y) = w_name y) -> (forall y, g (g y) = g y) ->
  fold_left (fun y b => if decide (w_name y = b) then g y else y) bs x = if decide (w_name x ∈ bs) then g x else x.
Proof.
  intros Hn Hi. revert x. induction bs as [|b bs IH]; intros x; cbn [fold_left].
  - rewrite decide_False; [done|]. intros H. inversion H.
  - rewrite IH. destruct (decide (w_name x = b)) as [E|Hne].
    + rewrite Hn, Hi. rewrite (decide_True (P := w_name x ∈ b :: bs)) by (rewrite E; by left). case_decide; done.
    + destruct (decide (w_name x ∈ bs)); [rewrite decide_True by (by right)|rewrite decide_False by (rewrite elem_of_cons; tauto)]; done.
Qed.
Lemma fold_target (ts : list (nat * job)) x : exists t,
  fold_left (fun y (b : nat * job) => if decide (w_name y = b.1) then wset_target b.2 y else y) ts x = wset_target t x /\
  ((w_name x ∉ map fst ts /\ t = w_target x) \/ (w_name x, t) ∈ ts).
Proof.
  revert x. induction ts as [|[w t] ts IH]; intros x; simpl.
  - exists (w_target x). split; [by destruct x|]. left. split; [intros H; inversion H|done].
  - case_decide as D.
    + destruct (IH (wset_target t x)) as (t' & E & H). exists t'. rewrite E. split; [done|]. simpl in H, D. subst w.
      destruct H as [[_ ->]|H]; right; [by left|by right].
    + destruct (IH x) as (t' & E & H). exists t'. split; [done|]. simpl in D. destruct H as [[H ->]|H]; [left|right; by right].
      split; [|done]. rewrite elem_of_cons. tauto.
Qed.
Lemma classify_exact m ws z : classify m ws = Some z ->
  (forall w, w ∈ z_close z <-> exists x, x ∈ ws /\ w_name x = w /\ is_fin (w_status x) = false /\ mentioned m w = MClosing) /\
  (forall w, w ∈ z_running z <-> exists x, x ∈ ws /\ w_name x = w /\ starting x = true /\ (mentioned m w = MClosing \/ mentioned m w = MActive)) /\
  (forall w t, (w, t) ∈ z_targets z <-> exists x, x ∈ ws /\ w_name x = w /\ is_fin (w_status x) = false /\ mentioned m w = MClosed /\
     t = if w_close x then STOPPED else FAILED) /\
  (forall w, w ∈ z_created z ++ z_submitted z -> exists x, x ∈ ws /\ w_name x = w /\ is_fin (w_status x) = false /\ mentioned m w = MNothing /\ starting x = true).
Proof.
  revert z. induction ws as [|y ws IH]; intros z Hz; simpl in Hz.
  - injection Hz as <-. simpl. assert (forall (A : Type) (a : A), a ∈ [] -> False) as Hnil by (intros A a H; inversion H).
    split; [|split; [|split]]; intros w; [| |intros t|intros H; exfalso; by apply Hnil in H];
      (split; [intros H|intros (x & H & _)]; exfalso; by apply Hnil in H).
  - destruct (classify m ws) as [[cr su ta ru cl]|]; [|done]. simpl in Hz. destruct (IH _ eq_refl) as (I1 & I2 & I3 & I4). clear IH. simpl in *.
    assert (forall (P : worker -> Prop), (exists x, x ∈ y :: ws /\ P x) <-> P y \/ exists x, x ∈ ws /\ P x) as Hcons.
    { intros P. setoid_rewrite elem_of_cons. split; [intros (x & [->|?] & ?); eauto|intros [?|(x & ? & ?)]; eauto]. }
    assert (jge (w_status y) STOPPED = is_fin (w_status y)) as Ef by done. rewrite Ef in Hz.
    assert (jlt (w_status y) RUNNING = starting y) as Est.
    { unfold starting. destruct (w_status y); vm_compute; done. }
    rewrite Est in Hz.
    assert (is_fin (w_status y) = true -> starting y = false) as Hfs.
    { unfold starting. destruct (w_status y); vm_compute; done. }
    destruct (is_fin (w_status y)) eqn:Ey.
    { injection Hz as <-. simpl. specialize (Hfs eq_refl). setoid_rewrite Hcons. split; [|split; [|split]].
      - intros w. rewrite I1. split; [auto|]. intros [(_ & ? & _)|?]; [congruence|done].
      - intros w. rewrite I2. split; [auto|]. intros [(_ & ? & _)|?]; [congruence|done].
      - intros w t. rewrite I3. split; [auto|]. intros [(_ & ? & _)|?]; [congruence|done].
      - intros w Hw. right. auto. }
    assert (mentioned m (w_name y) = MClosing \/ mentioned m (w_name y) <> MClosing) as _ by (destruct (mentioned m (w_name y)); auto).
    unfold mentioned in *.
    destruct (decide (w_name y ∈ m_closing m)) as [D1|D1]; [|destruct (decide (w_name y ∈ m_active m)) as [D2|D2];
      [|destruct (decide (w_name y ∈ m_closed m)) as [D3|D3];
        [|destruct (decide (w_status y = SUBMITTED)) as [D4|D4]; [|destruct (decide (w_status y = CREATED)) as [D5|D5]; [|done]]]]];
      injection Hz as <-; cbn [z_close z_running z_targets z_created z_submitted]; setoid_rewrite Hcons.
    + split; [|split; [|split]].
      * intros w. rewrite elem_of_cons, I1. split; [intros [->|?]; [left|by right]|intros [(-> & _)|?]; auto].
        rewrite decide_True by done. done.
      * intros w. destruct (starting y) eqn:Es.
        -- rewrite elem_of_cons, I2. split; [intros [->|?]; [left|by right]|intros [(-> & _)|?]; auto]. rewrite decide_True by done. auto.
        -- rewrite I2. split; [auto|]. intros [(_ & ? & _)|?]; [congruence|done].
      * intros w t. rewrite I3. split; [auto|]. intros [(<- & _ & H & _)|?]; [|done]. rewrite decide_True in H by done. done.
      * intros w Hw. right. auto.
    + split; [|split; [|split]].
      * intros w. rewrite I1. split; [auto|]. intros [(<- & _ & H)|?]; [|done]. rewrite decide_False, decide_True in H by done. done.
      * intros w. destruct (starting y) eqn:Es.
        -- rewrite elem_of_cons, I2. split; [intros [->|?]; [left|by right]|intros [(-> & _)|?]; auto]. rewrite decide_False, decide_True by done. auto.
        -- rewrite I2. split; [auto|]. intros [(_ & ? & _)|?]; [congruence|done].
      * intros w t. rewrite I3. split; [auto|]. intros [(<- & _ & H & _)|?]; [|done]. rewrite decide_False, decide_True in H by done. done.
      * intros w Hw. right. auto.
    + split; [|split; [|split]].
      * intros w. rewrite I1. split; [auto|]. intros [(<- & _ & H)|?]; [|done]. rewrite !decide_False, decide_True in H by done. done.
      * intros w. rewrite I2. split; [auto|]. intros [(<- & _ & H)|?]; [|done]. rewrite !decide_False, decide_True in H by done. by destruct H.
      * intros w t. rewrite elem_of_cons, I3. split.
        -- intros [[= -> ->]|?]; [left|by right]. rewrite !decide_False, decide_True by done. done.
        -- intros [(<- & _ & _ & ->)|?]; [by left|by right].
      * intros w Hw. right. auto.
    + split; [|split; [|split]].
      * intros w. rewrite I1. split; [auto|]. intros [(<- & _ & H)|?]; [|done]. rewrite !decide_False in H by done. done.
      * intros w. rewrite I2. split; [auto|]. intros [(<- & _ & H)|?]; [|done]. rewrite !decide_False in H by done. by destruct H.
      * intros w t. rewrite I3. split; [auto|]. intros [(<- & _ & H & _)|?]; [|done]. rewrite !decide_False in H by done. done.
      * intros w. rewrite elem_of_app, elem_of_cons. intros [Hw|[->|Hw]]; [right; apply I4, elem_of_app; auto|left|right; apply I4, elem_of_app; auto].
        rewrite !decide_False by done. unfold starting. rewrite bool_decide_true by auto. done.
    + split; [|split; [|split]].
      * intros w. rewrite I1. split; [auto|]. intros [(<- & _ & H)|?]; [|done]. rewrite !decide_False in H by done. done.
      * intros w. rewrite I2. split; [auto|]. intros [(<- & _ & H)|?]; [|done]. rewrite !decide_False in H by done. by destruct H.
      * intros w t. rewrite I3. split; [auto|]. intros [(<- & _ & H & _)|?]; [|done]. rewrite !decide_False in H by done. done.
      * intros w. rewrite elem_of_app, elem_of_cons. intros [[->|Hw]|Hw]; [left|right; apply I4, elem_of_app; auto..].
        rewrite !decide_False by done. unfold starting. rewrite bool_decide_true by auto. done.
Qed.
Lemma heartbeat_told cf h s n m now s' o c : ids_ok cf h -> reach cf h s -> lookup_cluster n s = Some c -> c_target c = RUNNING ->
  step cf s (EHeartbeat n m now) = (s', o) -> OAssertion ∉ o ->
  exists c', objs s' !! n = Some c' /\ Forall2 (told m) (c_workers c) (c_workers c').
Proof.
  intros Hid Hr Hl Ht Hs Ho. simpl in Hs. assert (jlt RUNNING (c_target c) = false) as Ht' by (rewrite Ht; done).
  destruct (heartbeat_effect n m now s s' o c Hl Ht' Hs Ho) as (z & c' & Hz & _ & Hc' & _ & _ & _ & _ & _ & _ & Ew).
  exists c'. split; [done|]. apply lookup_obj in Hl as [Hc _]. pose proof (reach_Inv cf h s Hid Hr) as HI.
  assert (forall x y, x ∈ c_workers c -> y ∈ c_workers c -> w_name x = w_name y -> x = y) as Hu.
  { intros x y Hx Hy E. eapply worker_eq; eauto. }
  rewrite Ew. rewrite (fold_pointwise (fun _ => wset_close true) (fun w => w)), (fold_pointwise (fun _ => wset_status RUNNING) (fun w => w)),
    (fold_pointwise (fun t : nat * job => wset_target t.2) fst), !map_map. clear Ew Hc'.
  destruct (classify_exact _ _ _ Hz) as (I1 & I2 & I3 & I4).
  assert (forall x, x ∈ c_workers c -> told m x ((fun x => fold_left (fun y b => if decide (w_name y = b) then wset_close true y else y) (z_close z)
     (fold_left (fun y b => if decide (w_name y = b) then wset_status RUNNING y else y) (z_running z)
       (fold_left (fun y (b : nat * job) => if decide (w_name y = b.1) then wset_target b.2 y else y) (hb_targets c m z) x))) x)) as HT.
  2:{ revert HT. generalize (c_workers c). intros l HT. induction l as [|x l IH]; simpl; constructor; [apply HT; by left|apply IH; intros; apply HT; by right]. }
  intros x Hx. cbv beta. destruct (fold_target (hb_targets c m z) x) as (t & Et & Hcase). rewrite Et.
  rewrite (fold_idem (wset_status RUNNING)) by done. rewrite (fold_idem (wset_close true)) by done.
  change (w_name (wset_target t x)) with (w_name x).
  assert (w_name (if decide (w_name x ∈ z_running z) then wset_status RUNNING (wset_target t x) else wset_target t x) = w_name x) as -> by (case_decide; done).
  assert (forall w, (w_name x, w) ∈ hb_targets c m z -> is_fin (w_status x) = false /\
     ((mentioned m (w_name x) = MClosed /\ w = if w_close x then STOPPED else FAILED) \/ (mentioned m (w_name x) = MNothing /\ w = STOPPED /\ starting x = true))) as Htg.
  { intros w [H|H]%elem_of_app.
    - apply I3 in H as (y & Hy & E & Hf & Hm & ->). rewrite (Hu y x Hy Hx E) in *. auto.
    - destruct (0 <? _); [|inversion H]. apply elem_of_list_fmap in H as (w' & [= <- ->] & Hw).
      assert (w_name x ∈ z_created z ++ z_submitted z) as Hw' by (rewrite <- (take_drop (Z.to_nat (Z.of_nat (size (list_to_set (m_active m) : gset nat)) + Z.of_nat (length (z_created z) + length (z_submitted z)) - hb_count c m)) (z_created z ++ z_submitted z)); apply elem_of_app; left; exact Hw).
      apply I4 in Hw' as (y & Hy & E & Hf & Hm & Hst). rewrite (Hu y x Hy Hx E) in *. auto. }
  assert (w_name x ∈ z_running z <-> starting x = true /\ (mentioned m (w_name x) = MClosing \/ mentioned m (w_name x) = MActive)) as Hrun.
  { rewrite I2. split; [intros (y & Hy & E & H); rewrite (Hu y x Hy Hx E) in *; done|]. intros H. exists x. done. }
  assert (w_name x ∈ z_close z <-> is_fin (w_status x) = false /\ mentioned m (w_name x) = MClosing) as Hclo.
  { rewrite I1. split; [intros (y & Hy & E & H); rewrite (Hu y x Hy Hx E) in *; done|]. intros H. exists x. done. }
  assert (forall A (b : bool) (u v : A), (if b then u else v) = u \/ (if b then u else v) = v) as _ by (intros ? []; auto).
  unfold told. split; [repeat case_decide; done|]. split; [repeat case_decide; done|]. split; [repeat case_decide; done|]. split; [repeat case_decide; done|]. split; [repeat case_decide; done|].
  split.
  - intros Hf%fin_iff. rewrite (decide_False (P := w_name x ∈ z_close z)) by (intros [? _]%Hclo; congruence). rewrite decide_False.
    + destruct Hcase as [[_ ->]|H]; [by destruct x|]. apply Htg in H as [? _]. congruence.
    + intros [Hst _]%Hrun. unfold starting in Hst. apply bool_decide_eq_true in Hst as [E|E]; rewrite E in Hf; done.
  - intros Hnf. assert (is_fin (w_status x) = false) as Hf by (destruct (is_fin (w_status x)) eqn:E; [exfalso; apply Hnf, fin_iff; done|done]).
    destruct (mentioned m (w_name x)) eqn:Em.
    + rewrite (decide_True (P := w_name x ∈ z_close z)) by (apply Hclo; auto).
      assert (t = w_target x) as -> by (destruct Hcase as [[_ ?]|H]; [done|]; apply Htg in H as [_ [[? _]|[? _]]]; congruence).
      destruct (starting x); [rewrite decide_True by (apply Hrun; auto)|rewrite decide_False by (intros [? _]%Hrun; congruence)]; done.
    + rewrite (decide_False (P := w_name x ∈ z_close z)) by (intros [_ ?]%Hclo; congruence).
      assert (t = w_target x) as -> by (destruct Hcase as [[_ ?]|H]; [done|]; apply Htg in H as [_ [[? _]|[? _]]]; congruence).
      destruct (starting x); [rewrite decide_True by (apply Hrun; auto)|rewrite decide_False by (intros [? _]%Hrun; congruence)]; done.
    + rewrite (decide_False (P := w_name x ∈ z_close z)) by (intros [_ ?]%Hclo; congruence).
      rewrite (decide_False (P := w_name x ∈ z_running z)) by (intros [_ [?|?]]%Hrun; congruence). split; [done|]. split; [|done]. simpl.
      destruct Hcase as [[H _]|H].
      * exfalso. apply H. unfold hb_targets. rewrite map_app. apply elem_of_app. left. apply elem_of_list_fmap. eexists (_, _). split; [done|]. apply I3. exists x. eauto.
      * apply Htg in H as [_ [[_ ->]|[? _]]]; [done|congruence].
    + rewrite (decide_False (P := w_name x ∈ z_close z)) by (intros [_ ?]%Hclo; congruence).
      rewrite (decide_False (P := w_name x ∈ z_running z)) by (intros [_ [?|?]]%Hrun; congruence). split; [done|]. split; [done|]. simpl.
      destruct Hcase as [[_ ->]|H]; [by left|]. apply Htg in H as [_ [[? _]|(_ & -> & ?)]]; [congruence|by right].
Qed.

(** * C76 *)
Lemma status_meaning cf h s n c p : ids_ok cf h -> reach cf h s -> lookup_cluster n s = Some c -> reported n s p ->
  match p with
  | PPENDING => c_target c = RUNNING /\ c_ready c = false /\ no_route s n /\ r_stop (c_row c) = None
  | PRUNNING => c_target c = RUNNING /\ c_ready c = true /\ r_sched (c_row c) <> [] /\ r_stop (c_row c) = None
  | PSTOPPING => (exists j, told_to_end c j) /\ r_stop (c_row c) = None
  | PSTOPPED => told_to_end c STOPPED /\ is_Some (r_stop (c_row c)) /\ no_route s n /\ c_shutdown c = true /\
      stop_called_c n (seen h) /\ forall x, x ∈ c_workers c -> finished (w_status x)
  | PFAILED => told_to_end c FAILED /\ is_Some (r_stop (c_row c)) /\ no_route s n /\ c_shutdown c = true /\
      stop_called_c n (seen h) /\ forall x, x ∈ c_workers c -> finished (w_status x)
  end.
Proof.
  intros Hid Hr Hl Hp. unfold reported, get_cluster in Hp. rewrite Hl in Hp. simpl in Hp. injection Hp as Hp.
  apply lookup_obj in Hl as [Hc _]. pose proof (reach_cok _ _ _ _ _ Hid Hr Hc) as [].
  destruct k_row as []. rewrite Forall_forall in k_workers.
  assert (is_fin (c_status c) = false -> r_stop (c_row c) = None) as Hns.
  { intros E. destruct (r_stop (c_row c)); [|done]. assert (is_fin (r_status (c_row c)) = true) as E' by (apply ro_stop; eauto). unfold c_status in E. congruence. }
  assert (forall j, c_target c = j -> finished j -> is_fin (c_status c) = true ->
     told_to_end c j /\ is_Some (r_stop (c_row c)) /\ no_route s n /\ c_shutdown c = true /\ stop_called_c n (seen h) /\ forall x, x ∈ c_workers c -> finished (w_status x)) as Hend.
  { intros j Hj Hf Hs. split; [done|]. split; [apply ro_stop; done|]. split.
    - split; [rewrite k_sni|rewrite k_path]; try (left; intros E; rewrite E in Hs; done); destruct (c_status c); try done; by rewrite andb_false_r.
    - split; [rewrite k_shut; done|]. split; [eapply cluster_stop_called; eauto; apply fin_iff; done|].
      intros x Hx. apply fin_iff, (wo_done _ _ _ _ _ _ (k_workers x Hx) Hs). }
  assert (forall j, c_target c = j -> finished j -> is_fin (c_status c) = false -> (exists j, told_to_end c j) /\ r_stop (c_row c) = None) as Hstop.
  { intros j Hj Hf Hs. split; [exists j; done|]. auto. }
  unfold model_status in Hp. unfold finished in *.
  assert (forall a b, c_status c = a -> c_target c = b -> model_status c = status_map a b) as Hms by (intros a b <- <-; done).
  assert (c_status c = CREATED \/ c_status c = SUBMITTED -> c_ready c = false /\ no_route s n /\ r_stop (c_row c) = None) as Hpend.
  { intros Hs. assert (jge (c_status c) RUNNING = false) as E by (destruct Hs as [->| ->]; done). split; [rewrite k_ready; done|]. split.
    - assert (c_proxied c = false) as Ep by (destruct (c_proxied c); [specialize (k_proxied eq_refl); congruence|done]).
      split; [rewrite k_sni|rewrite k_path]; try (left; destruct Hs; congruence); rewrite Ep; done.
    - apply Hns. destruct Hs as [->| ->]; done. }
  destruct (c_status c) eqn:Es, (c_target c) eqn:Et; simpl in Hp; try discriminate Hp; injection Hp as <-;
    try (split; [done|]; apply Hpend; auto; fail);
    try (eapply Hstop; eauto; fail);
    try (apply Hend; auto; fail).
  - destruct ro_tgt as [E|[E|E]]; unfold c_target in Et; congruence.
  - destruct ro_tgt as [E|[E|E]]; unfold c_target in Et; congruence.
  - split; [done|]. split; [rewrite k_ready; done|]. split; [apply ro_sched; done|]. apply Hns. done.
  - destruct ro_tgt as [E|[E|E]]; unfold c_target in Et; congruence.
Qed.

(** * C79 *)
Lemma find_late_in cf now cs ns ws n : find_late cf now cs = Some (ns, ws) -> Forall (fun c => c_target c = RUNNING) cs -> n ∈ ns ->
  exists c, c ∈ cs /\ c_name c = n /\ late_cluster cf now c.
Proof.
  revert ns ws. induction cs as [|c cs IH]; intros ns ws; cbn [find_late].
  - intros [= <- <-] _ H. inversion H.
  - intros H HF Hn. apply Forall_cons in HF as [Ht HF].
    match type of H with (?p ≫= _) = _ => destruct p as [[a b]|] eqn:Ep; [|done] end. cbn [mbind option_bind] in H.
    destruct (find_late cf now cs) as [[ns' ws']|]; [|done]. simpl in H. injection H as <- <-. apply elem_of_app in Hn as [Hn|Hn].
    + exists c. split; [by left|]. destruct (c_status c) eqn:Es; try (injection Ep as <- <-; by inversion Hn).
      * destruct (r_start (c_row c) <? now - cstart_timeout cf) eqn:El; injection Ep as <- <-; [|inversion Hn].
        apply elem_of_list_singleton in Hn as ->. split; [done|]. split; [done|]. left. apply Z.ltb_lt in El. split; [done|lia].
      * destruct (c_hb c) as [t|] eqn:Eh; [|done]. simpl in Ep. destruct (t <? now - hb_timeout cf) eqn:El; injection Ep as <- <-; [|inversion Hn].
        apply elem_of_list_singleton in Hn as ->. split; [done|]. split; [done|]. right. apply Z.ltb_lt in El. split; [done|]. exists t. split; [done|lia].
    + destruct (IH _ _ eq_refl HF Hn) as (d & Hd & ?). exists d. split; [by right|done].
Qed.
Lemma active_in cf h s c : ids_ok cf h -> reach cf h s -> c ∈ active_clusters s ->
  objs s !! c_name c = Some c /\ c_target c = RUNNING.
Proof.
  intros Hid Hr Hc. unfold active_clusters, all_clusters in Hc. apply elem_of_list_In, filter_In in Hc as [Hc Ha]. apply elem_of_list_In, elem_of_list_omap in Hc as (n & _ & Hc).
  assert (c_name c = n) as -> by apply (reach_cok _ _ _ _ _ Hid Hr Hc). split; [done|].
  destruct (reach_tgt _ _ _ _ _ Hid Hr Hc) as [?|[E|E]]; [done|unfold c_active in Ha; rewrite E in Ha; done..].
Qed.
Lemma failed_of_in {A} (xs : list A) oks x : x ∈ failed_of xs oks -> exists i, xs !! i = Some x /\ oks !! i = Some false.
Proof.
  unfold failed_of. revert oks. induction xs as [|y xs IH]; intros [|b oks]; simpl; try (intros H; by inversion H).
  destruct b; simpl.
  - intros H%IH. destruct H as (i & ? & ?). exists (S i). done.
  - intros [->|H]%elem_of_cons; [exists 0%nat; done|]. apply IH in H as (i & ? & ?). exists (S i). done.
Qed.
Lemma fail_clusters_target ns s n c : objs s !! n = Some c -> exists c', objs (fail_clusters ns s) !! n = Some c' /\
  ((n ∈ ns /\ c_target c' = FAILED) \/ (n ∉ ns /\ c' = c)).
Proof.
  intros Hc. destruct (fail_clusters_in ns s n c Hc) as [E _]. destruct (decide (n ∈ ns)) as [D|D]; eexists; (split; [exact E|]); auto.
Qed.
Lemma ended_cause cf h s e s' o n c c' : ids_ok cf (h ++ [(e, o)]) -> reach cf h s -> step cf s e = (s', o) ->
  objs s !! n = Some c -> objs s' !! n = Some c' -> c_target c = RUNNING -> c_target c' <> RUNNING -> end_cause cf s e n c (c_target c').
Proof.
  intros Hid' Hr Hs Hc Hc' Ht Hne. pose proof (ids_ok_app _ _ _ Hid') as [Hid Hid2].
  assert (c_target c' <> c_target c) as Hne' by congruence.
  assert (c_target <$> objs s' !! n = c_target <$> objs s !! n -> False) as Hdiff. { rewrite Hc, Hc'. intros [= E]. done. }
  assert (forall c c', c_fails c = c_fails c' -> c_target c = c_target c' -> c_target c = c_target c') as tok by auto.
  assert (forall ns s0, objs s0 = objs s -> objs s' !! n = objs (fail_clusters ns s0) !! n -> n ∈ ns /\ c_target c' = FAILED) as Hfail.
  { intros ns s0 E0 E. destruct (fail_clusters_target ns s0 n c) as (d & Hd & [[H1 H2]|[H1 H2]]); [rewrite E0; done| |].
    - assert (d = c') as -> by congruence. done.
    - exfalso. subst d. congruence. }
  destruct (own_work e) eqn:Ew.
  { destruct (limit_only cf h s e s' o n c c' Hid Hr Ew Hs Hc Hc' Hne') as [E [[H1 H2]|(k & now & He & Hb)]]; rewrite E.
    - by apply cause_limit.
    - by eapply cause_start. }
  destruct e; try discriminate Ew; cbn [step] in Hs.
  - exfalso. apply Hdiff. unfold start_cluster, create_cluster in Hs. injection Hs as <- <-. cbn -[alloc_c]. rewrite lookup_insert_ne; [done|].
    intros E. pose proof (proj1 (g_fresh _ _ _ _ (reach_Inv cf h s Hid Hr) _ _ Hc)). lia.
  - injection Hs as <- <-. unfold stop_cluster in Hc'. destruct (lookup_cluster n0 s) as [d|] eqn:Hl; [|congruence].
    destruct (jge _ _); [|congruence]. change (objs (qput ?x ?y)) with (objs y) in Hc'. apply lookup_obj in Hl as [Hl _]. rewrite (row_upd s n0 _ d Hl) in Hc'.
    apply lookup_insert_Some in Hc' as [[-> <-]|[_ H]]; [|congruence]. change (end_cause cf s (EStop n failed) n c (if failed then FAILED else STOPPED)). by apply cause_asked.
  - exfalso. assert (s' = (heartbeat n0 m now s).1) as E by (rewrite Hs; done). destruct (decide (n0 = n)) as [->|Hn].
    + unfold heartbeat in Hs. destruct (lookup_cluster n s) as [d|] eqn:Hl; [|injection Hs as <- <-; congruence]. destruct (jlt RUNNING (c_target d)) eqn:Hj; [injection Hs as <- <-; congruence|].
      destruct (classify m (c_workers d)) as [z|] eqn:Hz.
      2:{ injection Hs as <- <-. simpl in Hc'. rewrite lookup_alter, Hc in Hc'. injection Hc' as <-. done. }
      assert (step cf s (EHeartbeat n m now) = (s', o)) as Hs'. { cbn [step]. unfold heartbeat. rewrite Hl, Hj, Hz. exact Hs. }
      assert (d = c) as -> by (apply lookup_obj in Hl as [? _]; congruence).
      destruct (heartbeat_effect n m now s s' o c Hl Hj Hs') as (z' & c2 & _ & _ & H2 & _ & E2 & _).
      { destruct (z_running z); injection Hs as _ <-; intros H; inversion H. }
      congruence.
    + subst s'. rewrite hb_elsewhere in Hc' by done. congruence.
  - destruct (down s); [injection Hs as <- <-; congruence|]. unfold check_timeouts in Hs.
    destruct (find_late cf now (active_clusters s)) as [[ns ws]|] eqn:Hfl; [|injection Hs as <- <-; congruence]. injection Hs as <- <-.
    assert (Forall (fun c => c_target c = RUNNING) (active_clusters s)) as HF.
    { apply Forall_forall. intros d Hd. apply (active_in cf h s d Hid Hr Hd). }
    assert (n ∈ ns /\ c_target c' = FAILED) as [Hn ->].
    { assert (c_target <$> objs (fail_workers ws (fail_clusters ns s)) !! n = c_target <$> objs (fail_clusters ns s) !! n) as E.
      { unfold fail_workers. rewrite pt_puts, (pt_fold_wk c_target) by auto. done. }
      destruct (fail_clusters_target ns s n c Hc) as (d & Hd & Hor). rewrite Hd, Hc' in E. injection E as E. rewrite E in *.
      destruct Hor as [[? ?]|[_ ->]]; [done|congruence]. }
    destruct (find_late_in cf now _ ns ws n Hfl HF Hn) as (d & Hd & E & HL). destruct (active_in _ _ _ _ Hid Hr Hd) as [Hd' _].
    assert (d = c) as -> by congruence. by eapply cause_late.
  - exfalso. apply Hdiff. destruct (down s); [injection Hs as <- <-; done|]. destruct (chk_c s); injection Hs as <- <-; done.
  - destruct oks as [oks|]; [|injection Hs as <- <-; simpl in Hc'; congruence]. injection Hs as <- <-. unfold check_clusters_end in *. destruct (chk_c s) as [ns|] eqn:Ek; [|congruence].
    destruct (Hfail (failed_of ns oks) (set_chk_c None s)) as [Hn ->]; [done|done|]. apply failed_of_in in Hn as (i & H1 & H2). by eapply cause_gone.
  - exfalso. apply Hdiff. destruct (down s); [injection Hs as <- <-; done|]. destruct (chk_w s); injection Hs as <- <-; done.
  - exfalso. apply Hdiff. destruct oks as [oks|]; injection Hs as <- <-; [|done]. unfold check_workers_end. destruct (chk_w s) as [ws|]; [|done].
    assert (forall (bad : list (nat * nat)) s, c_target <$> objs (fold_left (fun s (p : nat * nat) => qput (p.1, Some p.2) (upd_obj p.1 (fun c => cset_fails (S (c_fails c)) c) s)) bad s) !! n = c_target <$> objs s !! n) as Hb.
    { clear. induction bad as [|p bad IH]; intros s; [done|]. cbn [fold_left]. rewrite IH. change (objs (qput ?x ?s)) with (objs s). apply (pt_obj c_target). done. }
    rewrite Hb, (pt_fold_wk c_target) by auto. done.
  - exfalso. apply Hdiff. destruct (down s); injection Hs as <- <-; [done|]. apply (pt_purge c_target).
  - exfalso. apply Hdiff. injection Hs as <- <-. assert (fresh_ids cf) as (fc & fw & Hf) by (eapply ids_ok_crash; [exact Hid2|by left|done]).
    destruct (proj2 (reach_GInv _ _ _ Hid Hr) fc fw Hf) as [Hy _]. pose proof (restart_objs cf fc fw now s n Hy) as H. rewrite Hc' in H. destruct H as (d & _ & Hd & []).
    assert (d = c) as -> by congruence. rewrite Hc', Hc. unfold c_target. simpl. congruence.
  - destruct (down s); [injection Hs as <- <-; congruence|]. injection Hs as <- <-. unfold shutdown in *. destruct (stop_on_shutdown cf) eqn:Eo; [|simpl in Hc'; congruence].
    set (s0 := set_chk_w None (set_chk_c None s)) in *. change (objs (set_down ?x ?y)) with (objs y) in *.
    destruct (Hfail (map c_name (active_clusters s0)) s0) as [Hn ->]; [done|done|]. by apply cause_shutdown.
  - exfalso. apply Hdiff. injection Hs as <- <-. unfold close_queue. destruct (down s); [|done]. destruct (forallb _ _); done.
Qed.
Lemma no_new cf s e n : crash e = false -> (forall u i m t, e <> EStart u i m t) -> objs s !! n = None -> objs (step cf s e).1 !! n = None.
Proof.
  intros Hcr Hns F. apply (fmap_None c_fails). apply (fmap_None c_fails) in F.
  destruct e; try done; cbn [step]; try rewrite <- F.
  - by edestruct Hns.
  - unfold stop_cluster. destruct (lookup_cluster n0 s); [|done]. destruct (jge _ _); [apply fc_row|done].
  - destruct (decide (n0 = n)) as [->|Hne]; [|rewrite hb_elsewhere by done; done]. unfold heartbeat.
    destruct (lookup_cluster n s) as [d|] eqn:Hl; [|done]. apply lookup_obj in Hl as [Hl _]. rewrite Hl in F. done.
  - destruct (down s); [done|]. unfold check_timeouts. destruct (find_late _ _ _) as [[cs ws]|]; [|done]. cbn [fst].
    unfold fail_workers. rewrite pt_puts, (pt_fold_wk c_fails) by auto. apply fc_fail_clusters.
  - destruct (down s); [done|]. destruct (chk_c s); done.
  - destruct oks; [|done]. cbn [fst]. unfold check_clusters_end. destruct (chk_c s); [|done]. rewrite fc_fail_clusters. done.
  - destruct (down s); [done|]. destruct (chk_w s); done.
  - destruct oks as [oks|]; [|done]. cbn [fst]. unfold check_workers_end. destruct (chk_w s) as [ws|]; [|done].
    rewrite fc_bumps, (pt_fold_wk c_fails) by auto. change (objs (set_chk_w None s)) with (objs s). rewrite F. done.
  - destruct (down s); [done|]. cbn [fst]. rewrite pt_purge. done.
  - case_decide; [|done]. destruct (busy s !! k); [done|]. destruct (tasks (q s) !! k); [done|]. apply fc_got.
  - apply fc_got.
  - unfold resume. destruct (busy s !! k) as [p|] eqn:Hb; [|done].
    destruct p, o; cbn [fst]; rewrite ?pt_finish; change (objs (qput ?x ?y)) with (objs y); rewrite ?fc_row, ?fc_wk; try done.
    + rewrite (pt_stopped c_fails) by auto. done.
    + rewrite (pt_stopped c_fails) by auto. done.
    + rewrite fc_bump, fc_wk. change (objs (release k s)) with (objs s). rewrite F. done.
    + rewrite (pt_rest c_fails) by auto. unfold worker_stopped. rewrite fc_wk. done.
    + rewrite (pt_rest c_fails) by auto. unfold worker_stopped. rewrite fc_wk. done.
  - destruct (down s); [done|]. cbn [fst]. unfold shutdown. destruct (stop_on_shutdown cf); [|done]. cbn [fst]. change (objs (set_down ?x ?y)) with (objs y). rewrite fc_fail_clusters. done.
  - unfold close_queue. destruct (down s); [|done]. destruct (forallb _ _); done.
Qed.
Lemma new_target cf h s e s' o n c' : ids_ok cf (h ++ [(e, o)]) -> reach cf h s -> step cf s e = (s', o) ->
  objs s !! n = None -> objs s' !! n = Some c' -> c_target c' = RUNNING.
Proof.
  intros Hid' Hr Hs Hc Hc'. pose proof (ids_ok_app _ _ _ Hid') as [Hid Hid2]. destruct (crash e) eqn:Ec.
  - destruct e; try discriminate Ec. simpl in Hs. injection Hs as <- <-. assert (fresh_ids cf) as (fc & fw & Hf) by (eapply ids_ok_crash; [exact Hid2|by left|done]).
    destruct (proj2 (reach_GInv _ _ _ Hid Hr) fc fw Hf) as [Hy _]. pose proof (restart_objs cf fc fw now s n Hy) as H. rewrite Hc' in H. destruct H as (d & _ & Hd & _). congruence.
  - assert ((exists u i m t, e = EStart u i m t) \/ forall u i m t, e <> EStart u i m t) as [(u & i & m & t & ->)|D] by (destruct e; eauto 6).
    + cbn [step] in Hs. unfold start_cluster, create_cluster in Hs. injection Hs as <- <-. cbn -[alloc_c] in Hc'.
      apply lookup_insert_Some in Hc' as [[_ <-]|[_ ?]]; [done|congruence].
    + pose proof (no_new cf s e n Ec D Hc) as H. rewrite Hs in H. simpl in H. congruence.
Qed.
Lemma always_cause cf h s n c : ids_ok cf h -> reach cf h s -> objs s !! n = Some c -> c_target c <> RUNNING ->
  exists h1 e o h2 s1 c1 j, h = h1 ++ (e, o) :: h2 /\ reach cf h1 s1 /\ objs s1 !! n = Some c1 /\ c_target c1 = RUNNING /\ end_cause cf s1 e n c1 j.
Proof.
  intros Hid Hr. revert Hid n c. unfold reach in Hr. revert h s Hr.
  apply (exec_ind_r (step cf) (gw_init cf) (fun h s => ids_ok cf h -> forall n c, objs s !! n = Some c -> c_target c <> RUNNING ->
    exists h1 e o h2 s1 c1 j, h = h1 ++ (e, o) :: h2 /\ reach cf h1 s1 /\ objs s1 !! n = Some c1 /\ c_target c1 = RUNNING /\ end_cause cf s1 e n c1 j)).
  - intros _ n c. simpl. rewrite lookup_empty. done.
  - intros h s e o s' Hx IH Hs Hid n c' Hc' Ht. pose proof (ids_ok_app _ _ _ Hid) as [Hid1 _].
    destruct (objs s !! n) as [c|] eqn:Hc.
    + assert (c_target c = RUNNING \/ c_target c <> RUNNING) as [E|E] by (destruct (c_target c); auto).
      * exists h, e, o, [], s, c, (c_target c'). split; [done|]. repeat (split; [done|]). by eapply ended_cause.
      * destruct (IH Hid1 n c Hc E) as (h1 & e1 & o1 & h2 & s1 & c1 & j & -> & ?). exists h1, e1, o1, (h2 ++ [(e, o)]), s1, c1, j. split; [by rewrite <- app_assoc|done].
    + exfalso. apply Ht. by eapply new_target.
Qed.

(** * C80: causes of the end of a worker *)
Section bad.
Context (n w : nat).
Definition bad (s : gw) : Prop := exists c x, objs s !! n = Some c /\ x ∈ c_workers c /\ w_name x = w /\ w_target x <> RUNNING.
Lemma bad_same s s' : objs s' = objs s -> bad s' -> bad s. Proof. unfold bad. intros ->. done. Qed.
Lemma bad_obj m g s : (forall c, c_workers (g c) = c_workers c) -> bad (upd_obj m g s) -> bad s.
Proof.
  intros Hg (c & x & Hc & Hx & H). simpl in Hc. destruct (decide (m = n)) as [->|Hne].
  - rewrite lookup_alter in Hc. apply fmap_Some in Hc as (d & Hd & ->). rewrite Hg in Hx. exists d, x. done.
  - rewrite lookup_alter_ne in Hc by done. exists c, x. done.
Qed.
Lemma bad_row m f s : bad (update_cluster m f s) -> bad s.
Proof. unfold update_cluster. destruct (objs s !! m); [|done]. intros H. eapply (bad_obj m _ s); [|eapply bad_same; [|exact H]; done]. done. Qed.
Lemma bad_rows ms f s : bad (update_clusters ms f s) -> bad s.
Proof. unfold update_clusters. revert s. induction ms as [|m ms IH]; intros s; [done|]. intros H%IH. by eapply bad_row. Qed.
Lemma bad_wk m v f s : (forall x, w_name (f x) = w_name x) -> bad (update_worker m v f s) -> bad s \/ (m = n /\ v = w /\ is_Some (get_worker n w s)).
Proof.
  intros Hn (c & x & Hc & Hx & E & Ht). unfold update_worker in Hc. destruct (get_worker m v s) eqn:Hg; [|left; exists c, x; done].
  simpl in Hc. destruct (decide (m = n)) as [->|Hne].
  - rewrite lookup_alter in Hc. apply fmap_Some in Hc as (d & Hd & ->). simpl in Hx. unfold map_worker in Hx. apply elem_of_list_fmap in Hx as (y & -> & Hy).
    case_decide as D; [|left; exists d, y; done]. rewrite Hn in E. right. split; [done|]. split; [congruence|]. subst. rewrite Hg. eauto.
  - rewrite lookup_alter_ne in Hc by done. left. exists c, x. done.
Qed.
Lemma bad_wk_keep m v f s : (forall x, w_name (f x) = w_name x) -> (forall x, w_target (f x) = w_target x) -> bad (update_worker m v f s) -> bad s.
Proof.
  intros Hn Htg (c & x & Hc & Hx & E & Ht). unfold update_worker in Hc. destruct (get_worker m v s) eqn:Hg; [|exists c, x; done].
  simpl in Hc. destruct (decide (m = n)) as [->|Hne].
  - rewrite lookup_alter in Hc. apply fmap_Some in Hc as (d & Hd & ->). simpl in Hx. unfold map_worker in Hx. apply elem_of_list_fmap in Hx as (y & -> & Hy).
    case_decide as D; [|exists d, y; done]. rewrite Hn in E. rewrite Htg in Ht. exists d, y. done.
  - rewrite lookup_alter_ne in Hc by done. exists c, x. done.
Qed.
Lemma bad_wks m vs f s : (forall x, w_name (f x) = w_name x) -> bad (update_workers m vs f s) -> bad s \/ (m = n /\ w ∈ vs).
Proof.
  intros Hn. unfold update_workers. revert s. induction vs as [|v vs IH]; intros s; cbn [fold_left]; [auto|].
  intros [H|[-> H]]%IH; [|right; split; [done|by right]]. apply bad_wk in H as [H|(-> & -> & _)]; [auto| |done]. right. split; [done|by left].
Qed.
Lemma bad_fold (vs : list (nat * nat)) s : bad (fold_left (fun s p => update_worker p.1 p.2 (wset_target FAILED) s) vs s) -> bad s \/ (n, w) ∈ vs.
Proof.
  revert s. induction vs as [|[m v] vs IH]; intros s; cbn [fold_left]; [auto|].
  intros [H|H]%IH; [|right; by right]. apply bad_wk in H as [H|(E1 & E2 & _)]; [auto| |done]. cbn in E1, E2. subst. right. by left.
Qed.
Lemma bad_puts xs s : bad (qputs xs s) -> bad s. Proof. apply bad_same, puts_objs. Qed.
Lemma bad_create cf k m now s : bad (create_workers cf k m now s) -> bad s.
Proof.
  revert s. induction k as [|k IH]; intros s; [done|]. cbn [create_workers]. destruct (create_worker cf m now s) as [v s1] eqn:E. intros H%IH.
  unfold create_worker in E. injection E as _ <-. destruct H as (c & x & Hc & Hx & E & Ht). simpl in Hc. destruct (decide (m = n)) as [->|Hne].
  - rewrite lookup_alter in Hc. apply fmap_Some in Hc as (d & Hd & ->). simpl in Hx. apply elem_of_app in Hx as [Hx|Hx]; [exists d, x; done|].
    apply elem_of_list_singleton in Hx as ->. done.
  - rewrite lookup_alter_ne in Hc by done. exists c, x. done.
Qed.
Lemma bad_proxied m s : bad (check_proxied m s) -> bad s.
Proof. unfold check_proxied. destruct (objs s !! m); [|done]. destruct (c_proxied c); [done|]. intros H. apply bad_obj in H; [|done]. eapply bad_same; [|exact H]. done. Qed.
Lemma bad_scale cf m now s : bad (check_scale cf m now s) -> bad s.
Proof. unfold check_scale. destruct (objs s !! m); [|done]. case_decide; [intros B; eapply bad_row, bad_same; [|exact B]; done|apply bad_create]. Qed.
Lemma bad_stopped m now s : bad (cluster_stopped m now s) -> bad s \/ m = n.
Proof.
  unfold cluster_stopped. destruct (objs s !! m); [|auto]. intros H. apply bad_obj in H; [|done]. apply bad_row in H. apply bad_wks in H as [?|[? _]]; auto.
Qed.
Lemma bad_closing cf m c s : bad (cluster_to_closing cf m c s) -> bad s \/ m = n.
Proof.
  unfold cluster_to_closing. intros H. apply bad_obj in H; [|done].
  match type of H with bad (match ?l with [] => qput _ ?s2 | _ => _ end) => assert (bad s2) as H'; [destruct l; [eapply bad_same; [|exact H]; done|exact H]|] end.
  apply bad_row, bad_puts, bad_wks in H' as [?|[? _]]; auto.
Qed.
Lemma bad_rest cf m v s : bad (worker_stopped_rest cf m v s) -> bad s.
Proof.
  unfold worker_stopped_rest. destruct (objs s !! m); [|done]. destruct (get_worker _ _ _); [|done]. destruct (ready_to_close _ _); [apply bad_same; done|].
  case_decide; [apply bad_same; done|done].
Qed.
Lemma bad_purge cf now s : bad (cleanup_expired cf now s) -> bad s.
Proof.
  apply bad_same. unfold cleanup_expired. match goal with |- context [fold_left _ ?l ?s1] => assert (objs s1 = objs s) as E by done; revert E; generalize s1, l end.
  intros s1 l E. rewrite <- E. clear E. revert s1. induction l as [|a l IH]; intros s1; simpl; [done|]. rewrite IH. unfold forget. destruct (objs s1 !! a); done.
Qed.
Lemma bad_worker cf k m v now s : bad (reconcile_worker cf k m v now s).1 -> bad s.
Proof.
  unfold reconcile_worker. destruct (get_worker m v s); [|apply bad_same; done]. destruct (jge _ _); [apply bad_same; done|]. case_decide.
  - cbn [fst]. intros B. set (s1 := if decide (w_status w0 = CLOSING) then s else update_worker m v (wset_status CLOSING) s) in *.
    assert (bad s1) as H1 by (destruct (is_ready _ _ _); eapply bad_same; try exact B; done). unfold s1 in H1. destruct (decide (w_status w0 = CLOSING)); [done|]. by apply bad_wk_keep in H1.
  - case_decide.
    + destruct (jlt _ _); [apply bad_same; done|]. cbn [fst]. intros B. assert (bad (worker_stopped m v now s)) as H1 by (eapply bad_rest, bad_same; [|exact B]; done).
      unfold worker_stopped in H1. by apply bad_wk_keep in H1.
    + case_decide; apply bad_same; done.
Qed.
Lemma bad_cluster cf k m now s : bad (reconcile_cluster cf k m now s).1 -> bad s \/ (m = n /\ exists c, objs s !! n = Some c /\ finished (c_target c)).
Proof.
  unfold reconcile_cluster. destruct (objs s !! m) as [d|] eqn:Hm; [|intros B; left; eapply bad_same; [|exact B]; done].
  destruct (jge _ _); [intros B; left; eapply bad_same; [|exact B]; done|]. case_decide as D.
  - intros B. assert (bad s \/ m = n) as [?|E]; [|auto|right; split; [done|]; subst m; eauto].
    case_decide.
    + destruct (ready_to_close _ _); [|left; eapply bad_same; [|exact B]; done]. destruct (jlt _ _); [left; eapply bad_same; [|exact B]; done|].
      eapply bad_stopped, bad_same; [|exact B]; done.
    + eapply bad_closing, bad_same; [|exact B]; done.
  - intros B. left. case_decide; [|eapply bad_same; [|exact B]; done]. case_decide; [eapply bad_same; [|exact B]; done|]. cbn [fst] in B. revert B. set (s1 := if decide _ then _ else s). intros B.
    assert (bad s1) as H1.
    { change (objs (finish ?x ?y)) with (objs y) in B. destruct (objs s1 !! m); [|eapply bad_same; [|exact B]; done].
      case_decide; [|eapply bad_same; [|exact B]; done]. eapply bad_proxied, bad_scale, bad_same; [|exact B]; done. }
    unfold s1 in H1. case_decide; [|done]. apply bad_obj in H1; [|done]. by apply bad_row in H1.
Qed.
End bad.
Lemma find_late_in_w cf now cs ns ws n w : find_late cf now cs = Some (ns, ws) -> Forall (fun c => c_target c = RUNNING) cs -> (n, w) ∈ ws ->
  exists c x, c ∈ cs /\ c_name c = n /\ x ∈ c_workers c /\ w_name x = w /\ late_worker cf now c x.
Proof.
  revert ns ws. induction cs as [|c cs IH]; intros ns ws; cbn [find_late].
  - intros [= <- <-] _ H. inversion H.
  - intros H HF Hn. apply Forall_cons in HF as [Ht HF].
    match type of H with (?p ≫= _) = _ => destruct p as [[a b]|] eqn:Ep; [|done] end. cbn [mbind option_bind] in H.
    destruct (find_late cf now cs) as [[ns' ws']|]; [|done]. simpl in H. injection H as <- <-. apply elem_of_app in Hn as [Hn|Hn].
    + exists c. destruct (c_status c) eqn:Es; try (injection Ep as <- <-; by inversion Hn).
      * destruct (r_start (c_row c) <? now - cstart_timeout cf) eqn:El; injection Ep as <- <-; inversion Hn.
      * destruct (c_hb c) as [t|] eqn:Eh; [|done]. simpl in Ep. destruct (t <? now - hb_timeout cf) eqn:El; injection Ep as <- <-; [inversion Hn|]. apply Z.ltb_ge in El.
        unfold late_workers in Hn. apply elem_of_list_fmap in Hn as (x & [= -> ->] & Hx). apply elem_of_list_In, filter_In in Hx as [Hx Hb]. apply elem_of_list_In in Hx.
        apply andb_true_iff in Hb as [Hb H3]. apply andb_true_iff in Hb as [H1 H2]. apply bool_decide_eq_true in H1, H2. apply Z.ltb_lt in H3.
        exists x. split; [by left|]. split; [done|]. split; [done|]. split; [done|]. split; [done|]. split; [done|]. split; [|split; [done|split; [done|lia]]].
        intros (_ & [[? _]|(_ & t' & Ht' & Hlt)]); [congruence|]. rewrite Eh in Ht'. injection Ht' as <-. lia.
    + destruct (IH _ _ eq_refl HF Hn) as (d & x & Hd & ?). exists d, x. split; [by right|done].
Qed.
Lemma worker_ended_cause cf h s e s' o n c c' x x' : ids_ok cf (h ++ [(e, o)]) -> reach cf h s -> step cf s e = (s', o) ->
  objs s !! n = Some c -> x ∈ c_workers c -> w_target x = RUNNING ->
  objs s' !! n = Some c' -> x' ∈ c_workers c' -> w_name x' = w_name x -> w_target x' <> RUNNING -> worker_cause cf s e n c x.
Proof.
  intros Hid' Hr Hs Hc Hx Ht Hc' Hx' En Hne. pose proof (ids_ok_app _ _ _ Hid') as [Hid Hid2]. pose proof (reach_Inv cf h s Hid Hr) as HI.
  assert (bad n (w_name x) s') as Hbad by (exists c', x'; done).
  assert (bad n (w_name x) s -> False) as Hgood.
  { intros (d & y & Hd & Hy & E & Hty). assert (d = c) as -> by congruence. apply Hty. rewrite (worker_eq cf s n c y x); done. }
  assert (B : forall s1, objs s' = objs s1 -> bad n (w_name x) s1) by (intros s1 E; eapply bad_same; [|exact Hbad]; done).
  assert (c_status c = CLOSING -> False) as Hncl.
  { intros E. pose proof (reach_cok _ _ _ _ _ Hid Hr Hc) as []. rewrite Forall_forall in k_workers.
    pose proof (wo_closing _ _ _ _ _ _ (k_workers x Hx)) as H. rewrite E, Ht in H. specialize (H eq_refl). destruct (bulk cf); done. }
  assert (forall k now r, s' = (got cf k now s r).1 -> (forall q' x, r = (q', Some (Returned k (Item x))) -> takes cf s e x) -> (forall q' j x, r = (q', Some (Returned j x)) -> j = k) ->
     worker_cause cf s e n c x) as Hgot.
  { intros k now r E Htk Hj. rewrite E in Hbad. unfold got in *. destruct r as [q' [[j [y| | |]]|]]; try (exfalso; apply Hgood; eapply bad_same; [|exact Hbad]; done).
    rewrite (Hj _ _ _ eq_refl) in *. specialize (Htk _ _ eq_refl).
    unfold reconcile in *. destruct y as [m [v|]]; cbn [fst snd] in *.
    - apply bad_worker in Hbad. exfalso. apply Hgood. eapply bad_same; [|exact Hbad]; done.
    - apply bad_cluster in Hbad as [Hbad|(-> & d & Hd & Hf)]; [exfalso; apply Hgood; eapply bad_same; [|exact Hbad]; done|].
      simpl in Hd. assert (d = c) as -> by congruence. by apply wc_cluster. }
  destruct e; cbn [step] in Hs.
  - exfalso. unfold start_cluster, create_cluster in Hs. injection Hs as <- <-. apply Hgood. destruct Hbad as (d & y & Hd & Hy & Hz). cbn -[alloc_c] in Hd.
    apply lookup_insert_Some in Hd as [[_ <-]|[_ Hd]]; [inversion Hy|]. exists d, y. done.
  - exfalso. injection Hs as <- <-. apply Hgood. unfold stop_cluster in Hbad. destruct (lookup_cluster n0 s); [|done]. destruct (jge _ _); [|done].
    eapply bad_row, bad_same; [|exact Hbad]; done.
  - destruct (decide (n0 = n)) as [->|Hn].
    2:{ exfalso. assert (s' = (heartbeat n0 m now s).1) as E by (rewrite Hs; done). subst s'. rewrite hb_elsewhere in Hc' by done. apply Hgood. exists c, x'. split; [done|]. assert (c' = c) as <- by congruence. done. }
    destruct (lookup_cluster n s) as [d|] eqn:Hl.
    2:{ exfalso. unfold heartbeat in Hs. rewrite Hl in Hs. injection Hs as <- <-. auto. }
    assert (d = c) as -> by (apply lookup_obj in Hl as [? _]; congruence).
    destruct (jlt RUNNING (c_target c)) eqn:Hj; [exfalso; unfold heartbeat in Hs; rewrite Hl, Hj in Hs; injection Hs as <- <-; auto|].
    destruct (classify m (c_workers c)) as [z|] eqn:Hz.
    2:{ exfalso. unfold heartbeat in Hs. rewrite Hl, Hj, Hz in Hs. injection Hs as <- <-. apply Hgood. eapply bad_obj; [|exact Hbad]. done. }
    assert (c_target c = RUNNING) as Etg by (destruct (reach_tgt _ _ _ _ _ Hid Hr Hc) as [?|[E|E]]; [done|rewrite E in Hj; done..]).
    destruct (heartbeat_told cf h s n m now s' o c Hid Hr Hl Etg Hs) as (c2 & Hc2 & HF).
    { unfold heartbeat in Hs. rewrite Hl, Hj, Hz in Hs. destruct (z_running z); injection Hs as _ <-; intros H; inversion H. }
    assert (c2 = c') as -> by congruence. apply Forall2_in_r with (y := x') in HF as (y & Hy & HT); [|done].
    assert (y = x) as -> by (eapply worker_eq; eauto; destruct HT as [<- _]; done).
    destruct HT as (_ & _ & _ & _ & _ & _ & HT).
    assert (~ finished (w_status x)) as Hnf.
    { intros Hf. pose proof (reach_cok _ _ _ _ _ Hid Hr Hc) as []. rewrite Forall_forall in k_workers. apply fin_iff in Hf.
      pose proof (wo_fin _ _ _ _ _ _ (k_workers x Hx) Hf) as H. rewrite Ht in H. done. }
    specialize (HT Hnf). destruct (mentioned m (w_name x)) eqn:Em.
    + destruct HT as (_ & E & _). congruence.
    + destruct HT as (_ & E & _). congruence.
    + by eapply wc_closed.
    + destruct HT as (_ & _ & [E|[Hst _]]); [congruence|]. by eapply wc_surplus.
  - destruct (down s); [injection Hs as <- <-; exfalso; auto|]. unfold check_timeouts in Hs.
    destruct (find_late cf now (active_clusters s)) as [[ns ws]|] eqn:Hfl; [|injection Hs as <- <-; exfalso; auto]. injection Hs as <- <-.
    assert (Forall (fun c => c_target c = RUNNING) (active_clusters s)) as HF.
    { apply Forall_forall. intros d Hd. apply (active_in cf h s d Hid Hr Hd). }
    unfold fail_workers in Hbad. apply bad_puts, bad_fold in Hbad as [Hbad|Hin].
    { exfalso. apply Hgood. unfold fail_clusters in Hbad. apply bad_puts, bad_rows in Hbad. done. }
    destruct (find_late_in_w cf now _ ns ws n (w_name x) Hfl HF Hin) as (d & y & Hd & E & Hy & Ey & HL). destruct (active_in _ _ _ _ Hid Hr Hd) as [Hd' _].
    assert (d = c) as -> by congruence. rewrite (worker_eq cf s n c y x HI Hc Hy Hx Ey) in HL. by eapply wc_late.
  - exfalso. apply Hgood. destruct (down s); [injection Hs as <- <-; done|]. destruct (chk_c s); injection Hs as <- <-; eapply bad_same; try exact Hbad; done.
  - exfalso. apply Hgood. destruct oks as [oks|]; [|injection Hs as <- <-; eapply bad_same; try exact Hbad; done]. injection Hs as <- <-. unfold check_clusters_end in *. destruct (chk_c s) as [ns|] eqn:Ek; [|done].
    unfold fail_clusters in Hbad. apply bad_puts, bad_rows in Hbad. eapply bad_same; try exact Hbad; done.
  - exfalso. apply Hgood. destruct (down s); [injection Hs as <- <-; done|]. destruct (chk_w s); injection Hs as <- <-; eapply bad_same; try exact Hbad; done.
  - destruct oks as [oks|]; injection Hs as <- <-; [|exfalso; apply Hgood; eapply bad_same; try exact Hbad; done]. unfold check_workers_end in Hbad. destruct (chk_w s) as [ws|] eqn:Ek; [|exfalso; auto].
    assert (forall (l : list (nat * nat)) s, bad n (w_name x) (fold_left (fun s (p : nat * nat) => qput (p.1, Some p.2) (upd_obj p.1 (fun c => cset_fails (S (c_fails c)) c) s)) l s) -> bad n (w_name x) s) as Hb.
    { clear. induction l as [|p l IH]; intros s; [done|]. cbn [fold_left]. intros H%IH. eapply (bad_obj _ _ p.1 _ s); [|eapply bad_same; [|exact H]; done]. done. }
    apply Hb, bad_fold in Hbad as [Hbad|Hin]; [exfalso; apply Hgood; eapply bad_same; try exact Hbad; done|].
    apply failed_of_in in Hin as (i & H1 & H2). by eapply wc_gone.
  - exfalso. apply Hgood. destruct (down s); injection Hs as <- <-; [done|]. by apply bad_purge in Hbad.
  - case_decide as Hk; [|exfalso; injection Hs as <- <-; auto].
    destruct (busy s !! k) eqn:Hb; [exfalso; injection Hs as <- <-; auto|].
    destruct (tasks (q s) !! k) eqn:Hq; [exfalso; injection Hs as <- <-; auto|].
    apply (Hgot k now (WorkQueue_Model.step (q s) (WorkQueue_Model.EGet k))); [rewrite Hs; done| |].
    + intros q' y E. exists k, now, q'. auto 6.
    + intros q' j y. simpl. rewrite Hq. unfold as_out. destruct (get_turn _ _) as [? [?|]]; intros [=]; done.
  - apply (Hgot k now (WorkQueue_Model.step (q s) (WorkQueue_Model.EResume k))); [rewrite Hs; done| |].
    + intros q' y E. exists k, now, q'. auto 6.
    + intros q' j y. simpl. unfold as_out. destruct (tasks (q s) !! k) as [[]|]; try done; [|by intros [=]]. destruct (get_turn _ _) as [? [?|]]; intros [=]; done.
  - unfold resume in Hs. destruct (busy s !! k) as [p|] eqn:Hb; [|exfalso; injection Hs as <- <-; auto].
    assert (forall m s0, objs s0 = objs s -> bad n (w_name x) (cluster_stopped m now s0) -> busy s !! k = Some (InStopCluster m) -> False) as Hst.
    { intros m s0 E0 [H| ->]%bad_stopped Hk; [apply Hgood; eapply bad_same; try exact H; done|].
      apply Hncl. pose proof (reach_cok _ _ _ _ _ Hid Hr Hc) as []. apply b_stop. exists k. done. }
    destruct p, o0; injection Hs as <- <-;
      try (exfalso; apply Hgood; eapply bad_same; [|exact Hbad]; done);
      try (exfalso; apply Hgood; eapply bad_row, bad_same; [|exact Hbad]; done).
    + exfalso. apply Hgood, (bad_same _ _ s (release k s)), (bad_row _ _ n0 (rset_status SUBMITTED)); [done|]. eapply bad_same; [|exact Hbad]; done.
    + exfalso. apply Hgood, (bad_same _ _ s (release k s)), (bad_row _ _ n0 (fun r => rset_target FAILED (rset_status SUBMITTED r))); [done|]. eapply bad_same; [|exact Hbad]; done.
    + exfalso. apply (Hst n0 (remove_routes n0 (release k s)) eq_refl); [eapply bad_same; [|exact Hbad]; done|done].
    + exfalso. apply (Hst n0 (remove_routes n0 (release k s)) eq_refl); [eapply bad_same; [|exact Hbad]; done|done].
    + exfalso. apply Hgood. by apply bad_wk_keep in Hbad.
    + exfalso. apply Hgood, (bad_same _ _ s (release k s)), (bad_wk_keep _ _ n0 w (wset_status SUBMITTED)); [done..|]. eapply bad_same; [|exact Hbad]; done.
    + assert (bad n (w_name x) (update_worker n0 w (fun x => wset_target FAILED (wset_status SUBMITTED x)) (release k s))) as H1.
      { eapply bad_obj; [|eapply bad_same; [|exact Hbad]; done]. done. }
      apply bad_wk in H1 as [H1|(-> & -> & _)]; [exfalso; apply Hgood; eapply bad_same; [|exact H1]; done| |done]. by eapply wc_start.
    + exfalso. apply Hgood. assert (bad n (w_name x) (worker_stopped n0 w now (release k s))) as H1 by (eapply bad_rest, bad_same; [|exact Hbad]; done).
      unfold worker_stopped in H1. apply bad_wk_keep in H1; [|done..]. eapply bad_same; [|exact H1]; done.
    + exfalso. apply Hgood. assert (bad n (w_name x) (worker_stopped n0 w now (release k s))) as H1 by (eapply bad_rest, bad_same; [|exact Hbad]; done).
      unfold worker_stopped in H1. apply bad_wk_keep in H1; [|done..]. eapply bad_same; [|exact H1]; done.
  - exfalso. injection Hs as <- <-. assert (fresh_ids cf) as (fc & fw & Hf) by (eapply ids_ok_crash; [exact Hid2|by left|done]).
    destruct (proj2 (reach_GInv _ _ _ Hid Hr) fc fw Hf) as [Hy _]. pose proof (restart_objs cf fc fw now s n Hy) as H. rewrite Hc' in H. destruct H as (d & _ & Hd & []).
    apply Hgood. exists d, x'. split; [done|]. rewrite <- rl_workers. done.
  - exfalso. apply Hgood. destruct (down s); [injection Hs as <- <-; done|]. injection Hs as <- <-. unfold shutdown in *. destruct (stop_on_shutdown cf) eqn:Eo; [|eapply bad_same; [|exact Hbad]; done].
    set (s0 := set_chk_w None (set_chk_c None s)) in *. assert (bad n (w_name x) (fail_clusters (map c_name (active_clusters s0)) s0)) as H1 by (eapply bad_same; [|exact Hbad]; done).
    unfold fail_clusters in H1. apply bad_puts, bad_rows in H1. eapply bad_same; [|exact H1]; done.
  - exfalso. apply Hgood. injection Hs as <- <-. unfold close_queue in Hbad. destruct (down s); [|done]. destruct (forallb _ _); [eapply bad_same; [|exact Hbad]; done|done].
Qed.
(** Of a worker that has connected, only its scheduler and the end of the cluster
    can make the gateway give up. *)
Lemma connected_kept cf s e n c x : worker_cause cf s e n c x -> w_status x = RUNNING ->
  (exists m now, e = EHeartbeat n m now /\ mentioned m (w_name x) = MClosed) \/
  (exists oks ws i, e = ECheckWorkersEnd (Some oks) /\ chk_w s = Some ws /\ ws !! i = Some (n, w_name x) /\ oks !! i = Some false) \/
  (exists k now, e = EBackend k Raises now /\ busy s !! k = Some (InStartWorker n (w_name x))) \/
  (takes cf s e (n, None) /\ finished (c_target c)).
Proof.
  intros [] E; eauto 12.
  - unfold starting in *. apply bool_decide_eq_true in H1 as [?|?]; congruence.
  - destruct H0 as (_ & _ & _ & ? & _). congruence.
Qed.

(** * C78 *)
Lemma select_in sts cs r : select_clusters sts cs = Some r -> forall c, c ∈ r <-> c ∈ cs /\
  match sts with None => c_active c = true | Some l => exists p, model_status c = Some p /\ p ∈ l end.
Proof.
  revert r. induction cs as [|c cs IH]; intros r; cbn [select_clusters].
  - intros [= <-] c. split; [intros H; inversion H|]. intros [H _]. inversion H.
  - intros H. match type of H with (?k ≫= _) = _ => destruct k as [keep|] eqn:Ek; [|done] end. cbn [mbind option_bind] in H.
    destruct (select_clusters sts cs) as [rest|]; [|done]. simpl in H. injection H as <-. specialize (IH _ eq_refl).
    assert (keep = true <-> match sts with None => c_active c = true | Some l => exists p, model_status c = Some p /\ p ∈ l end) as Hk.
    { destruct sts as [l|]; [|injection Ek as ->; done]. destruct (model_status c) as [p|]; [|done]. simpl in Ek. injection Ek as <-.
      rewrite bool_decide_eq_true. split; [eauto|]. intros (p' & [= <-] & ?). done. }
    intros d. destruct keep.
    + rewrite !elem_of_cons, IH. split; [intros [->|[? ?]]; [split; [by left|by apply Hk]|auto]|intros [[->|?] ?]; auto].
    + rewrite elem_of_cons, IH. split; [intros [? ?]; auto|]. intros [[->|?] Hx]; [|auto]. apply Hk in Hx. done.
Qed.
Lemma select_sub sts cs r : select_clusters sts cs = Some r -> sublist r cs.
Proof.
  revert r. induction cs as [|c cs IH]; intros r; cbn [select_clusters]; [intros [= <-]; constructor|].
  intros H. match type of H with (?k ≫= _) = _ => destruct k as [keep|] eqn:Ek; [|done] end. cbn [mbind option_bind] in H.
  destruct (select_clusters sts cs) as [rest|]; [|done]. simpl in H. injection H as <-. specialize (IH _ eq_refl). destruct keep; by constructor.
Qed.
Lemma agree_reach cf h s : fresh_ids cf -> reach cf h s -> indexes_agree s.
Proof. intros (fc & fw & Hf) Hr. assert (ids_ok cf h) as Hid by (left; exists fc, fw; done). destruct (proj2 (reach_GInv _ _ _ Hid Hr) fc fw Hf) as [Hy _]. by eapply sync_agree. Qed.
Lemma list_exact cf h s user sts l : fresh_ids cf -> reach cf h s -> list_clusters user sts s = Some l ->
  NoDup (map fst l) /\
  forall n p, (n, p) ∈ l <-> reported n s p /\ exists c, lookup_cluster n s = Some c /\
    (forall u, user = Some u -> r_user (c_row c) = u) /\
    match sts with None => ~ finished (c_target c) | Some ps => p ∈ ps end.
Proof.
  intros Hf Hr Hl. pose proof (agree_reach _ _ _ Hf Hr) as HA. pose proof (or_introl Hf : ids_ok cf h) as Hid.
  unfold list_clusters in Hl. destruct (select_clusters sts (user_clusters user s)) as [cs|] eqn:Hsel; [|done]. simpl in Hl.
  assert (forall n, objs s !! n = None \/ exists c, objs s !! n = Some c /\ c_name c = n) as Hnm.
  { intros n. destruct (objs s !! n) as [c|] eqn:E; [right|auto]. exists c. split; [done|]. apply (reach_cok _ _ _ _ _ Hid Hr E). }
  assert (forall l0 : list nat, NoDup l0 -> NoDup (map c_name (omap (fun n => objs s !! n) l0))) as Hnd.
  { intros l0. induction l0 as [|n l0 IH]; intros Hn; simpl; [constructor|]. apply NoDup_cons in Hn as [Hn1 Hn2].
    destruct (objs s !! n) as [c|] eqn:E; [|auto]. simpl. constructor; [|auto]. destruct (Hnm n) as [?|(c0 & E0 & En)]; [congruence|]. assert (c0 = c) as -> by congruence.
    rewrite En. intros (d & Ed & Hd)%elem_of_list_fmap. apply elem_of_list_omap in Hd as (m & Hm & Ho).
    destruct (Hnm m) as [?|(d0 & E1 & Em)]; [congruence|]. assert (d0 = d) as -> by congruence. congruence. }
  assert (forall c, c ∈ user_clusters user s <-> exists n, lookup_cluster n s = Some c /\ forall u, user = Some u -> r_user (c_row c) = u) as Huc.
  { intros c. unfold user_clusters, all_clusters. destruct user as [u|]; rewrite elem_of_list_omap.
    - split.
      + intros (n & Hn & Ho). apply (ia_user _ HA) in Hn as (d & Hd & Hu). exists n. assert (d = c) as -> by (apply lookup_obj in Hd as [? _]; congruence).
        split; [done|]. intros ? [= <-]. done.
      + intros (n & Hn & Hu). exists n. split; [apply (ia_user _ HA); exists c; split; [done|by apply Hu]|]. apply lookup_obj in Hn as [? _]. done.
    - split.
      + intros (n & Hn & Ho). exists n. unfold lookup_cluster. rewrite decide_True by done. done.
      + intros (n & [Ho Hn]%lookup_obj & _). exists n. done. }
  assert (NoDup (map c_name (user_clusters user s))) as Hnu.
  { unfold user_clusters, all_clusters. destruct user as [u|]; apply Hnd; [|apply (ia_nodup _ HA)].
    destruct (by_user s !! u) as [lu|] eqn:E; [|constructor]. apply (ia_lists _ HA) in E as [? _]. done. }
  pose proof (select_in _ _ _ Hsel) as Hin. pose proof (select_sub _ _ _ Hsel) as Hsub.
  assert (forall n c, lookup_cluster n s = Some c -> c_name c = n) as Hname.
  { intros n c [Hc _]%lookup_obj. apply (reach_cok _ _ _ _ _ Hid Hr Hc). }
  apply mapM_Some in Hl. split.
  - assert (map fst l = map c_name cs) as ->.
    { clear -Hl. induction Hl as [|c y cs l H _ IH]; [done|]. simpl. destruct (model_status c); [|done]. simpl in H. injection H as <-. simpl. by rewrite IH. }
    revert Hnu. clear -Hsub. induction Hsub as [|c l k Hs IH|c l k Hs IH]; simpl; intros [Hc Hk]%NoDup_cons || intros Hk; [constructor| |auto].
    constructor; [|auto]. intros (d & E & Hd)%elem_of_list_fmap. apply Hc, elem_of_list_fmap. exists d. split; [done|].
    apply (elem_of_submseteq l k d Hd). by apply sublist_submseteq.
  - intros n p. split.
    + intros Hnp. destruct (Forall2_in_r _ _ _ _ Hl Hnp) as (c & Hc & E). destruct (model_status c) as [p'|] eqn:Em; [|done]. simpl in E. injection E as <- <-.
      apply Hin in Hc as [Hc Hs]. apply Huc in Hc as (n & Hc & Hu). rewrite (Hname _ _ Hc). split; [unfold reported, get_cluster; rewrite Hc; simpl; by rewrite Em|].
      exists c. split; [done|]. split; [done|]. destruct sts as [ps|].
      * destruct Hs as (p0 & E & ?). congruence.
      * intros Hfin%fin_iff. unfold c_active in Hs. unfold is_fin, jge in Hfin. rewrite Hs in Hfin. done.
    + intros (Hrep & c & Hc & Hu & Hs). unfold reported, get_cluster in Hrep. rewrite Hc in Hrep. simpl in Hrep. injection Hrep as Hrep.
      assert (c ∈ cs) as Hcs.
      { apply Hin. split; [apply Huc; eauto|]. destruct sts as [ps|]; [eauto|]. unfold c_active. destruct (jlt (c_target c) STOPPED) eqn:E; [done|]. exfalso. apply Hs, fin_iff. unfold is_fin, jge. rewrite E. done. }
      destruct (Forall2_in_l _ _ _ _ Hl Hcs) as (y & Hy & E). rewrite Hrep in E. simpl in E. injection E as <-. rewrite (Hname _ _ Hc) in Hy. done.
Qed.
