(** The gateway properties, continued: heartbeats, timeouts, failure counts. *)
From Coq Require Import ZArith Lia.
From stdpp Require Import prelude gmap.
From Verif Require Import Trace WorkQueue_Model WorkQueue_Proofs Router_Model Gateway_Model Gateway_Spec Gateway_Inv
  Gateway_Steps Gateway_Steps2 Gateway_Steps3 Gateway_Steps4 Gateway_Sync Gateway_Restart Gateway_Acts Gateway_Track Gateway_Busy
  Gateway_Hist Gateway_Ops Gateway_Proofs.
Open Scope Z_scope.

(** * C32 *)
Lemma classify_none m ws : classify m ws = None -> exists w, w ∈ ws /\ is_fin (w_status w) = false /\
  w_name w ∉ m_closing m /\ w_name w ∉ m_active m /\ w_name w ∉ m_closed m /\ w_status w <> SUBMITTED /\ w_status w <> CREATED.
Proof.
  induction ws as [|w ws IH]; [done|]. simpl. destruct (classify m ws) as [[cr su ta ru cl]|] eqn:E; simpl.
  - unfold is_fin. destruct (jge (w_status w) STOPPED) eqn:Hf; [done|]. repeat (case_decide; [done|]). intros _. exists w.
    split; [by left|]. done.
  - intros _. destruct (IH eq_refl) as (x & Hx & H). exists x. split; [by right|done].
Qed.
Lemma heartbeat_accepted cf h s n m now : ids_ok cf h -> reach cf h s -> remembers h n m -> OAssertion ∉ (step cf s (EHeartbeat n m now)).2.
Proof.
  intros Hid Hr Hm. simpl. unfold heartbeat. destruct (lookup_cluster n s) as [c|] eqn:Hc; [|simpl; intros H; inversion H].
  apply lookup_obj in Hc as [Hc _]. destruct (jlt RUNNING (c_target c)) eqn:Ht; [simpl; intros H; inversion H|].
  destruct (classify m (c_workers c)) as [z|] eqn:Hz; [destruct (r_max (c_row c)); simpl; intros H; inversion H|]. exfalso.
  apply classify_none in Hz as (x & Hx & Hf & N1 & N2 & N3 & N4 & N5).
  pose proof (reach_cok _ _ _ _ _ Hid Hr Hc) as []. rewrite Forall_forall in k_workers. pose proof (k_workers x Hx) as HW.
  destruct (reach_tgt _ _ _ _ _ Hid Hr Hc) as [Etg|[E|E]]; [|rewrite E in Ht; done..].
  assert (jge (c_status c) CLOSING = false) as Hst.
  { destruct k_row. unfold c_status, c_target in *. destruct (r_status (c_row c)) eqn:E; try done; exfalso; [by apply ro_closing|by apply ro_stopped|].
    rewrite (ro_failed eq_refl) in Etg. done. }
  assert (w_status x = RUNNING) as Hrun.
  { destruct (w_status x) eqn:E; try done. exfalso. apply (k_bulk x Hx (or_introl E)). done. }
  destruct (h_run _ _ _ (reach_ops _ _ _ Hid Hr) n c x Hc Hx Hrun) as (m0 & t & o & Hin & Hrep).
  destruct (Hm m0 t o (w_name x) Hin Hrep) as [?|[?|?]]; done.
Qed.

(** * Effect of the bulk updates on one cluster *)
Lemma puts_objs xs s : objs (qputs xs s) = objs s. Proof. apply qputs_objs. Qed.
Lemma wks_in n ws f s c : objs s !! n = Some c ->
  objs (update_workers n ws f s) !! n = Some (cset_workers (fold_left (fun l w => map_worker w f l) ws (c_workers c)) c).
Proof.
  unfold update_workers. revert s c. induction ws as [|w ws IH]; intros s c Hc; simpl; [rewrite Hc; by destruct c|].
  erewrite IH; [|by apply upd_worker_in]. done.
Qed.
Lemma targets_in n ts s c : objs s !! n = Some c ->
  objs (set_targets n ts s) !! n = Some (cset_workers (fold_left (fun l (t : nat * job) => map_worker t.1 (wset_target t.2) l) ts (c_workers c)) c).
Proof.
  unfold set_targets. revert s c. induction ts as [|w ws IH]; intros s c Hc; simpl; [rewrite Hc; by destruct c|].
  erewrite IH; [|by apply upd_worker_in]. done.
Qed.
Lemma fold_map_in {B} (f : B -> worker -> worker) (nm : B -> nat) (bs : list B) (l : list worker) x' :
  x' ∈ fold_left (fun l b => map_worker (nm b) (f b) l) bs l -> (forall b x, w_name (f b x) = w_name x) ->
  exists x, x ∈ l /\ w_name x' = w_name x /\
    forall P : worker -> Prop, P x -> (forall b y, b ∈ bs -> nm b = w_name x -> P y -> P (f b y)) -> P x'.
Proof.
  intros Hin Hn. revert l Hin. induction bs as [|b bs IH]; intros l Hin; simpl in Hin.
  - exists x'. split; [done|]. split; [done|]. auto.
  - apply IH in Hin as (y & Hy & E & HP). unfold map_worker in Hy. apply elem_of_list_fmap in Hy as (x & -> & Hx). exists x. split; [done|].
    case_decide as D.
    + rewrite Hn in *. split; [done|]. intros P HPx Hf. apply HP; [apply Hf; [by left|done|done]|]. intros b' z Hb' E'. apply Hf; [by right|done].
    + split; [done|]. intros P HPx Hf. apply HP; [done|]. intros b' z Hb' E'. apply Hf; [by right|done].
Qed.
Lemma targets_fin (ts : list (nat * job)) (l : list worker) x' : Forall (fun t => is_fin t.2 = true) ts ->
  x' ∈ fold_left (fun l (t : nat * job) => map_worker t.1 (wset_target t.2) l) ts l -> w_name x' ∈ map fst ts -> is_fin (w_target x') = true.
Proof.
  intros Hts. revert l. induction ts as [|t ts IH] using rev_ind; intros l Hin Hn; [inversion Hn|].
  apply Forall_app in Hts as [Hts Ht]. apply Forall_cons in Ht as [Ht _]. rewrite fold_left_app in Hin. simpl in Hin.
  unfold map_worker in Hin. apply elem_of_list_fmap in Hin as (y & -> & Hy). case_decide as D; [done|].
  rewrite map_app, elem_of_app in Hn. cbn [map] in Hn. rewrite elem_of_list_singleton in Hn. destruct Hn as [Hn|Hn]; [eauto|done].
Qed.

(** The effect of an accepted heartbeat. *)
Definition hb_count (c : cluster) (m : hbmsg) : Z :=
  match r_max (c_row c) with Some mx => if mx <? m_count m then mx else m_count m | None => m_count m end.
Definition hb_targets (c : cluster) (m : hbmsg) (z : sorted) : list (nat * job) :=
  let n_to_stop := Z.of_nat (size (list_to_set (m_active m) : gset nat)) + Z.of_nat (length (z_created z) + length (z_submitted z)) - hb_count c m in
  z_targets z ++ (if 0 <? n_to_stop then map (fun w => (w, STOPPED)) (take (Z.to_nat n_to_stop) (z_created z ++ z_submitted z)) else []).
Lemma heartbeat_effect n m now s s' o c : lookup_cluster n s = Some c -> jlt RUNNING (c_target c) = false -> heartbeat n m now s = (s', o) -> OAssertion ∉ o ->
  exists z c', classify m (c_workers c) = Some z /\ o = [] /\ objs s' !! n = Some c' /\
    r_count (c_row c') = hb_count c m /\ c_target c' = c_target c /\ c_status c' = c_status c /\ r_max (c_row c') = r_max (c_row c) /\
    c_fails c' = (match z_running z with [] => c_fails c | _ => 0%nat end) /\ c_hb c' = Some now /\
    c_workers c' = fold_left (fun l w => map_worker w (wset_close true) l) (z_close z)
                     (fold_left (fun l w => map_worker w (wset_status RUNNING) l) (z_running z)
                        (fold_left (fun l (t : nat * job) => map_worker t.1 (wset_target t.2) l) (hb_targets c m z) (c_workers c))).
Proof.
  intros Hl Ht Hs Ho. unfold heartbeat in Hs. rewrite Hl, Ht in Hs. apply lookup_obj in Hl as [Hc _].
  fold (hb_count c m) in Hs. destruct (classify m (c_workers c)) as [z|]; [|injection Hs as <- <-; exfalso; apply Ho; by left].
  exists z.
  change (z_targets z ++ _) with (hb_targets c m z) in Hs.
  set (s1 := upd_obj n (cset_hb (Some now)) s) in *.
  assert (objs s1 !! n = Some (cset_hb (Some now) c)) as H1 by (unfold s1; simpl; rewrite lookup_alter, Hc; done).
  match type of Hs with context [set_targets n _ ?x] => set (s2 := x) in Hs end.
  assert (exists c2, objs s2 !! n = Some c2 /\ r_count (c_row c2) = hb_count c m /\ c_target c2 = c_target c /\ c_status c2 = c_status c /\
            r_max (c_row c2) = r_max (c_row c) /\ c_fails c2 = c_fails c /\ c_hb c2 = Some now /\ c_workers c2 = c_workers c) as (c2 & H2 & E1 & E2 & E3 & E4 & E5 & E6 & E7).
  { unfold s2. destruct (negb (bool_decide (c_status c = RUNNING)) || negb (hb_count c m =? r_count (c_row c))) eqn:Eb.
    - eexists. split; [unfold qput; simpl; rewrite (row_upd s1 n _ _ H1), lookup_insert; done|].
      destruct (decide (c_status c = RUNNING)), (hb_count c m =? r_count (c_row c)) eqn:Ec; simpl; try (apply Z.eqb_eq in Ec; rewrite <- Ec); done.
    - apply orb_false_iff in Eb as [_ Eb]. apply negb_false_iff, Z.eqb_eq in Eb. exists (cset_hb (Some now) c). split; [done|]. simpl. rewrite Eb. done. }
  set (s3 := qputs _ (set_targets n (hb_targets c m z) s2)) in *.
  assert (objs s3 !! n = Some (cset_workers (fold_left (fun l (t : nat * job) => map_worker t.1 (wset_target t.2) l) (hb_targets c m z) (c_workers c)) c2)) as H3.
  { unfold s3. rewrite puts_objs. erewrite targets_in by exact H2. rewrite E7. done. }
  assert (exists c4 s4, s' = update_workers n (z_close z) (wset_close true) s4 /\ objs s4 !! n = Some c4 /\
           c_row c4 = c_row c2 /\ c_fails c4 = (match z_running z with [] => c_fails c | _ => 0%nat end) /\ c_hb c4 = Some now /\
           c_workers c4 = fold_left (fun l w => map_worker w (wset_status RUNNING) l) (z_running z)
                        (fold_left (fun l (t : nat * job) => map_worker t.1 (wset_target t.2) l) (hb_targets c m z) (c_workers c))) as (c4 & s4 & -> & H4 & F1 & F2 & F3 & F4).
  { destruct (z_running z) as [|w ws].
    - injection Hs as <- <-. eexists _, s3. split; [done|]. split; [exact H3|]. done.
    - injection Hs as <- <-. eexists _, _. split; [done|]. split.
      + apply wks_in, upd_worker_in. simpl. rewrite lookup_alter, H3. done.
      + done. }
  eexists. split; [done|]. split; [by destruct (z_running z); injection Hs|]. split; [apply wks_in; exact H4|]. unfold c_target, c_status in *. simpl. rewrite F1, F2, F3, F4. done.
Qed.

(** * C22: not too many *)
Lemma classify_kept m ws z : classify m ws = Some z -> forall x, x ∈ ws -> is_fin (w_status x) = false ->
  w_name x ∉ m_active m -> w_name x ∉ m_closing m ->
  w_name x ∈ map fst (z_targets z) \/ w_name x ∈ z_created z ++ z_submitted z.
Proof.
  revert z. induction ws as [|w ws IH]; intros z Hz x Hx Hf Na Nc; [inversion Hx|]. simpl in Hz.
  destruct (classify m ws) as [[cr su ta ru cl]|] eqn:E; [|done]. simpl in Hz.
  assert (x ∈ ws -> w_name x ∈ map fst ta \/ w_name x ∈ cr ++ su) as Hold by (intros H; apply (IH _ eq_refl x H Hf Na Nc)).
  assert (x = w \/ x ∈ ws) as Hcase by (apply elem_of_cons; done). clear Hx.
  unfold is_fin in Hf. destruct (jge (w_status w) STOPPED) eqn:Hw.
  { injection Hz as <-. simpl. destruct Hcase as [->|?]; [congruence|auto]. }
  case_decide; [injection Hz as <-; simpl; destruct Hcase as [->|?]; [done|auto]|].
  case_decide; [injection Hz as <-; simpl; destruct Hcase as [->|?]; [done|auto]|].
  case_decide; [injection Hz as <-; simpl; destruct Hcase as [->|?]; [left; by left|destruct (Hold H2); [left; by right|auto]]|].
  case_decide; [injection Hz as <-; simpl; destruct Hcase as [->|?]; [right; apply elem_of_app; right; by left|]|].
  { destruct (Hold H3) as [?|Hin]; [auto|]. right. apply elem_of_app in Hin as [?|?]; apply elem_of_app; [auto|right; by right]. }
  case_decide; [|done]. injection Hz as <-. simpl. destruct Hcase as [->|?]; [right; by left|]. destruct (Hold H4); [auto|right; by right].
Qed.
Lemma classify_targets_fin m ws z : classify m ws = Some z -> Forall (fun t : nat * job => is_fin t.2 = true) (z_targets z).
Proof.
  revert z. induction ws as [|w ws IH]; intros z Hz; simpl in Hz; [injection Hz as <-; constructor|].
  destruct (classify m ws) as [[cr su ta ru cl]|]; [|done]. simpl in Hz. specialize (IH _ eq_refl). simpl in IH.
  repeat match type of Hz with context [if ?b then _ else _] => destruct b end; try done; injection Hz as <-; simpl; try done; constructor; done.
Qed.
Lemma heartbeat_bound cf h s n m now s' o c c' : ids_ok cf h -> reach cf h s -> lookup_cluster n s = Some c -> c_target c = RUNNING ->
  step cf s (EHeartbeat n m now) = (s', o) -> OAssertion ∉ o -> objs s' !! n = Some c' ->
  r_count (c_row c') = (match r_max (c_row c) with Some mx => Z.min mx (m_count m) | None => m_count m end) /\
  Z.of_nat (length (List.filter (fun x => wanted x && unreported m x) (c_workers c'))) <=
    Z.max 0 (r_count (c_row c') - Z.of_nat (size (list_to_set (m_active m) : gset nat))).
Proof.
  intros Hid Hr Hl Ht Hs Ho Hc'. pose proof Hs as Hs0. simpl in Hs.
  destruct (heartbeat_effect n m now s s' o c Hl) as (z & d & Hz & _ & Hd & E1 & _ & _ & _ & _ & _ & Ew); [rewrite Ht; done|done|done|].
  assert (d = c') as -> by congruence. clear Hd. rewrite E1. split.
  { unfold hb_count. destruct (r_max (c_row c)) as [mx|]; [|done]. destruct (mx <? m_count m) eqn:El; [apply Z.ltb_lt in El|apply Z.ltb_ge in El]; lia. }
  assert (ids_ok cf (h ++ [(EHeartbeat n m now, o)])) as Hid'.
  { destruct Hid as [?|Hol]; [by left|]. right. intros e' o' [H|H]%elem_of_app; [eauto|]. apply elem_of_list_singleton in H as [= -> ->]. done. }
  assert (reach cf (h ++ [(EHeartbeat n m now, o)]) s') as Hr' by (apply (leads_snoc cf _ _ s); [exact Hr|exact Hs0]).
  assert (NoDup (names c')) as N' by apply (reach_cok _ _ _ _ _ Hid' Hr' Hc').
  pose proof (lookup_obj _ _ _ Hl) as [Hc _]. pose proof (reach_cok _ _ _ _ _ Hid Hr Hc) as HK. pose proof (k_workers _ _ _ _ _ _ HK) as HW.
  rewrite Forall_forall in HW.
  set (stop := Z.of_nat (size (list_to_set (m_active m) : gset nat)) + Z.of_nat (length (z_created z) + length (z_submitted z)) - hb_count c m).
  set (pend := z_created z ++ z_submitted z).
  assert (Forall (fun t : nat * job => is_fin t.2 = true) (hb_targets c m z)) as HF.
  { unfold hb_targets. apply Forall_app. split; [eapply classify_targets_fin; eauto|]. fold stop. destruct (0 <? stop); [|constructor].
    apply Forall_forall. intros t (w & -> & _)%elem_of_list_fmap. done. }
  assert (forall x', x' ∈ List.filter (fun x => wanted x && unreported m x) (c_workers c') -> w_name x' ∈ drop (Z.to_nat stop) pend) as Hsub.
  { intros x' Hx'. apply elem_of_list_In, filter_In in Hx' as [Hx' Hb]. apply elem_of_list_In in Hx'. apply andb_true_iff in Hb as [Hwant Hun].
    apply bool_decide_eq_true in Hwant, Hun. destruct Hun as [Na Nc]. rewrite Ew in Hx'.
    apply (fold_map_in (fun _ : nat => wset_close true) (fun w => w)) in Hx' as (x3 & Hx3 & En3 & P3); [|done].
    apply (fold_map_in (fun _ : nat => wset_status RUNNING) (fun w => w)) in Hx3 as (x2 & Hx2 & En2 & P2); [|done].
    assert (w_target x3 = w_target x2) as T2 by (apply (P2 (fun y => w_target y = w_target x2)); auto).
    assert (w_target x' = w_target x3) as T3 by (apply (P3 (fun y => w_target y = w_target x3)); auto).
    assert (w_name x2 ∉ map fst (hb_targets c m z)) as Nt.
    { intros H. eapply targets_fin in H; [|done|done]. apply Hwant. rewrite T3, T2. apply fin_iff. done. }
    apply (fold_map_in (fun t : nat * job => wset_target t.2) fst) in Hx2 as (x1 & Hx1 & En1 & P1); [|done].
    assert (x2 = x1) as ->.
    { apply (P1 (fun y => y = x1)); [done|]. intros t y Hin E _. exfalso. apply Nt. rewrite En1, <- E. apply elem_of_list_fmap. eauto. }
    assert (is_fin (w_status x1) = false) as Hf.
    { destruct (is_fin (w_status x1)) eqn:E; [|done]. exfalso. apply Hwant. rewrite T3, T2. apply fin_iff, (wo_fin _ _ _ _ _ _ (HW x1 Hx1) E). }
    assert (w_name x' = w_name x1) as En by congruence. rewrite En in *.
    destruct (classify_kept _ _ _ Hz x1 Hx1 Hf Na Nc) as [H|H].
    - exfalso. apply Nt. unfold hb_targets. rewrite map_app. apply elem_of_app. auto.
    - fold pend in H. rewrite <- (take_drop (Z.to_nat stop) pend) in H. apply elem_of_app in H as [H|H]; [|done]. exfalso. apply Nt.
      unfold hb_targets. fold stop. fold pend. rewrite map_app. apply elem_of_app. right. destruct (0 <? stop) eqn:El.
      + rewrite map_map. apply elem_of_list_fmap. exists (w_name x1). done.
      + apply Z.ltb_ge in El. rewrite (Z2Nat.nonpos stop) in H by lia. inversion H. }
  assert (length (List.filter (fun x => wanted x && unreported m x) (c_workers c')) <= length (drop (Z.to_nat stop) pend))%nat as Hle.
  { rewrite <- (map_length w_name). apply submseteq_length, NoDup_submseteq.
    - unfold names in N'. revert N'. generalize (c_workers c'). intros l. induction l as [|y l IH]; simpl; intros HN; [constructor|].
      apply NoDup_cons in HN as [Hn HN]. destruct (_ && _); [|auto]. simpl. constructor; [|auto].
      intros (y' & E & Hy')%elem_of_list_fmap. apply Hn. rewrite E. apply elem_of_list_fmap. exists y'. split; [done|].
      apply elem_of_list_In, filter_In in Hy' as [Hy' _]. apply elem_of_list_In. done.
    - intros w (x' & -> & Hx')%elem_of_list_fmap. auto. }
  assert (length pend = length (z_created z) + length (z_submitted z))%nat as Hlp by (unfold pend; rewrite app_length; done).
  rewrite drop_length in Hle. lia.
Qed.
Lemma scale_bound cf h s e s' o n c c' : ids_ok cf (h ++ [(e, o)]) -> reach cf h s -> is_hb e = false -> step cf s e = (s', o) ->
  objs s !! n = Some c -> objs s' !! n = Some c' ->
  r_count (c_row c') = r_count (c_row c) /\
  Z.of_nat (length (List.filter wanted (c_workers c'))) <= Z.max (Z.of_nat (length (List.filter wanted (c_workers c)))) (r_count (c_row c)).
Proof.
  intros Hid Hr Hh Hs Hc Hc'. rewrite !filter_wanted. pose proof (ids_ok_app _ _ _ Hid) as [Hid1 Hid2].
  pose proof (reach_GInv _ _ _ Hid1 Hr) as HG. destruct (crash e) eqn:Ec.
  - destruct e; try discriminate Ec. simpl in Hs. injection Hs as <- <-.
    assert (fresh_ids cf) as (fc & fw & Hf) by (eapply ids_ok_crash; [exact Hid2|by left|done]).
    destruct (proj2 HG fc fw Hf) as [Hy _]. pose proof (restart_objs cf fc fw now s n Hy) as H. rewrite Hc' in H. destruct H as (d & _ & Hd & []).
    assert (d = c) as -> by congruence. rewrite rl_row. split; [done|].
    assert (length (List.filter w_active (c_workers c')) = length (List.filter w_active (c_workers c))) as ->; [|lia].
    apply Permutation_length. clear -rl_workers. induction rl_workers; simpl; auto.
    + destruct (w_active x); auto.
    + destruct (w_active x), (w_active y); auto. constructor.
    + etrans; eauto.
  - pose proof (step_tracked cf s e (proj1 HG) Ec) as HT. rewrite Hs in HT. simpl in HT. destruct (t_old _ _ _ HT n c c' Hc Hc') as [[] _].
    destruct p_count as [?|E]; [congruence|]. split; [done|].
    destruct (step_inv cf e s s' o Ec (proj1 HG) Hs) as [_ HE]. destruct (HE n c Hc) as (d & Hd & Hev). assert (d = c') as -> by congruence.
    destruct (e_workers _ _ Hev) as (ws1 & ws2 & Ew & HF & _). rewrite Ew, List.filter_app, app_length.
    assert (length (List.filter w_active ws1) <= length (List.filter w_active (c_workers c)))%nat as H1.
    { clear -HF. induction HF as [|x y l k Hxy HF IH]; simpl; [lia|]. pose proof (we_target2 _ _ Hxy) as H.
      assert (w_active y = true -> w_active x = true) as H'.
      { unfold w_active. unfold is_fin, jge in H. destruct (jlt (w_target x) STOPPED); [done|]. simpl in H. specialize (H eq_refl). by destruct (jlt (w_target y) STOPPED). }
      destruct (w_active y); [rewrite H' by done; simpl; lia|]. destruct (w_active x); simpl; lia. }
    pose proof (Forall2_length _ _ _ HF) as HL. rewrite Ew, app_length in p_len. unfold active_workers in p_len.
    assert (length (List.filter w_active ws2) <= length ws2)%nat as H2.
    { clear. induction ws2 as [|x l IH]; simpl; [lia|]. destruct (w_active x); simpl; lia. }
    destruct p_len as [Hp|[_ Hp]]; lia.
Qed.

(** * C30 *)
Lemma fail_clusters_in ns s n c : objs s !! n = Some c ->
  objs (fail_clusters ns s) !! n = Some (if decide (n ∈ ns) then cset_row (rset_target FAILED (c_row c)) c else c) /\ by_name (fail_clusters ns s) = by_name s.
Proof.
  intros Hc. unfold fail_clusters. rewrite puts_objs.
  destruct (same_data_puts (map (fun n => (n, None)) ns) (update_clusters ns (rset_target FAILED) s)) as (_ & -> & _).
  unfold update_clusters.
  assert (forall d, (d = c \/ d = cset_row (rset_target FAILED (c_row c)) c) -> forall s1, objs s1 !! n = Some d ->
    objs (fold_left (fun s n => update_cluster n (rset_target FAILED) s) ns s1) !! n = Some (if decide (n ∈ ns) then cset_row (rset_target FAILED (c_row c)) c else d) /\
    by_name (fold_left (fun s n => update_cluster n (rset_target FAILED) s) ns s1) = by_name s1) as H; [|apply H; auto].
  clear Hc. induction ns as [|a ns IH]; intros d Hd s1 H1; cbn [fold_left].
  - rewrite decide_False by (intros H; inversion H). done.
  - assert (by_name (update_cluster a (rset_target FAILED) s1) = by_name s1) as Eb by (unfold update_cluster; destruct (objs s1 !! a); done).
    destruct (decide (a = n)) as [->|Hne].
    + destruct (IH (cset_row (rset_target FAILED (c_row c)) c)) with (s1 := update_cluster n (rset_target FAILED) s1) as [E1 E2]; [auto| |].
      * rewrite (row_upd s1 n _ d H1), lookup_insert. destruct Hd as [->| ->]; done.
      * rewrite E1, E2, Eb. split; [|done]. rewrite (decide_True (P := n ∈ n :: ns)) by (by left). by case_decide.
    + destruct (IH d Hd (update_cluster a (rset_target FAILED) s1)) as [E1 E2].
      * unfold update_cluster. destruct (objs s1 !! a) eqn:Ea; [|done]. simpl. rewrite lookup_alter_ne by done. done.
      * rewrite E1, E2, Eb. split; [|done]. destruct (decide (n ∈ ns)) as [Hi|Hi].
        -- rewrite decide_True by (by right). done.
        -- rewrite decide_False; [done|]. intros [?|?]%elem_of_cons; done.
Qed.
Lemma fail_wk_in ws s n c : objs s !! n = Some c ->
  objs (fold_left (fun s p => update_worker p.1 p.2 (wset_target FAILED) s) ws s) !! n =
    Some (cset_workers (map (fun x => if decide ((n, w_name x) ∈ ws) then wset_target FAILED x else x) (c_workers c)) c) /\
  by_name (fold_left (fun s p => update_worker p.1 p.2 (wset_target FAILED) s) ws s) = by_name s.
Proof.
  revert s c. induction ws as [|[a b] ws IH]; intros s c Hc; cbn [fold_left fst snd].
  - rewrite Hc. split; [|done]. destruct c as [? ? ? ? ? ? ? l]. unfold cset_workers. cbn. do 2 f_equal.
    rewrite <- (map_id l) at 1. apply map_ext. intros x. rewrite decide_False; [done|]. intros H; inversion H.
  - assert (by_name (update_worker a b (wset_target FAILED) s) = by_name s) as Eb by (unfold update_worker; destruct (get_worker a b s); done).
    destruct (decide (a = n)) as [->|Hne].
    + destruct (IH _ _ (upd_worker_in s n b (wset_target FAILED) c Hc)) as [E1 E2]. rewrite E1, E2, Eb. split; [|done]. unfold map_worker. cbn [c_workers cset_workers]. rewrite map_map.
      unfold cset_workers. cbn [c_id c_row c_hb c_fails c_proxied c_ready c_shutdown c_workers]. do 2 f_equal. apply map_ext. intros x. destruct (decide (w_name x = b)) as [->|Hb]; simpl.
      * rewrite (decide_True (P := (n, b) ∈ (n, b) :: ws)) by (by left). case_decide; done.
      * destruct (decide ((n, w_name x) ∈ ws)) as [Hi|Hi]; [rewrite decide_True by (by right); done|].
        rewrite decide_False; [done|]. intros [[= ?]|?]%elem_of_cons; done.
    + destruct (IH (update_worker a b (wset_target FAILED) s) c) as [E1 E2].
      * unfold update_worker. destruct (get_worker a b s); [|done]. simpl. rewrite lookup_alter_ne by done. done.
      * rewrite E1, E2, Eb. split; [|done]. do 2 f_equal. apply map_ext. intros x.
        destruct (decide ((n, w_name x) ∈ ws)) as [Hi|Hi]; [rewrite decide_True by (by right); done|].
        rewrite decide_False; [done|]. intros [[= ? ?]|?]%elem_of_cons; done.
Qed.
Lemma find_late_spec cf now (cs : list cluster) : (forall c, c ∈ cs -> c_target c = RUNNING) -> (forall c, c ∈ cs -> c_status c = RUNNING -> is_Some (c_hb c)) ->
  exists ns ws, find_late cf now cs = Some (ns, ws) /\
   (forall n, n ∈ ns <-> exists c, c ∈ cs /\ c_name c = n /\ late_cluster cf now c) /\
   (forall n w, (n, w) ∈ ws <-> exists c x, c ∈ cs /\ c_name c = n /\ x ∈ c_workers c /\ w_name x = w /\ late_worker cf now c x).
Proof.
  intros Ht Hh. induction cs as [|c cs IH]; simpl.
  - exists [], []. split; [done|]. split.
    + intros n. split; [intros H; inversion H|intros (c & H & _); inversion H].
    + intros n w. split; [intros H; inversion H|intros (c & x & H & _); inversion H].
  - destruct IH as (ns & ws & -> & I1 & I2); [intros; apply Ht; by right|intros; apply Hh; [by right|done]|].
    specialize (Ht c ltac:(by left)). specialize (Hh c ltac:(by left)).
    assert (forall a b,
       (forall n, n ∈ a <-> n = c_name c /\ late_cluster cf now c) ->
       (forall n w, (n, w) ∈ b <-> n = c_name c /\ exists x, x ∈ c_workers c /\ w_name x = w /\ late_worker cf now c x) ->
       exists ns' ws', Some (a ++ ns, b ++ ws) = Some (ns', ws') /\
        (forall n, n ∈ ns' <-> exists d, d ∈ c :: cs /\ c_name d = n /\ late_cluster cf now d) /\
        (forall n w, (n, w) ∈ ws' <-> exists d x, d ∈ c :: cs /\ c_name d = n /\ x ∈ c_workers d /\ w_name x = w /\ late_worker cf now d x)) as Hgen.
    { intros a b Ha Hb. exists (a ++ ns), (b ++ ws). split; [done|]. split.
      - intros n. rewrite elem_of_app, Ha, I1. split.
        + intros [[-> ?]|(d & ? & ? & ?)]; [exists c; split; [by left|done]|exists d; split; [by right|done]].
        + intros (d & [->|?]%elem_of_cons & ? & ?); [auto|right; eauto].
      - intros n w. rewrite elem_of_app, Hb, I2. split.
        + intros [[-> (x & ? & ? & ?)]|(d & x & ? & ?)]; [exists c, x; split; [by left|done]|exists d, x; split; [by right|done]].
        + intros (d & x & [->|?]%elem_of_cons & ? & ? & ? & ?); [left; split; [done|eauto]|right; exists d, x; done]. }
    assert (forall l, (forall x, x ∈ l <-> False) -> l = @nil nat) as _ by (intros [|y l] H; [done|exfalso; eapply H; by left]).
    assert (forall n, n ∈ @nil nat <-> False) as N1 by (intros n; split; [intros H; inversion H|done]).
    assert (forall n : nat * nat, n ∈ @nil (nat * nat) <-> False) as N2 by (intros n; split; [intros H; inversion H|done]).
    destruct (c_status c) eqn:Es; simpl.
    + apply (Hgen [] []).
      * intros n. rewrite N1. split; [done|]. intros [_ (_ & [[? _]|[? _]])]; congruence.
      * intros n w. rewrite N2. split; [done|]. intros (_ & x & _ & _ & (_ & ? & _)). congruence.
    + destruct (r_start (c_row c) <? now - cstart_timeout cf) eqn:El; [apply Z.ltb_lt in El|apply Z.ltb_ge in El].
      * apply (Hgen [c_name c] []).
        -- intros n. rewrite elem_of_list_singleton. split; [|tauto]. intros ->. split; [done|]. split; [done|]. left. split; [done|lia].
        -- intros n w. rewrite N2. split; [done|]. intros (_ & x & _ & _ & (_ & ? & _)). congruence.
      * apply (Hgen [] []).
        -- intros n. rewrite N1. split; [done|]. intros [_ (_ & [[_ ?]|[? _]])]; [lia|congruence].
        -- intros n w. rewrite N2. split; [done|]. intros (_ & x & _ & _ & (_ & ? & _)). congruence.
    + destruct (Hh eq_refl) as [t Hhb]. rewrite Hhb. simpl.
      destruct (t <? now - hb_timeout cf) eqn:El; [apply Z.ltb_lt in El|apply Z.ltb_ge in El].
      * assert (late_cluster cf now c) as HL by (split; [done|]; right; split; [done|]; exists t; split; [done|lia]).
        apply (Hgen [c_name c] []).
        -- intros n. rewrite elem_of_list_singleton. split; [|tauto]. intros ->. done.
        -- intros n w. rewrite N2. split; [done|]. intros (_ & x & _ & _ & (_ & _ & ? & _)). done.
      * assert (~ late_cluster cf now c) as HL.
        { intros (_ & [[? _]|(_ & t' & Ht' & Hlt)]); [congruence|]. rewrite Hhb in Ht'. injection Ht' as <-. lia. }
        apply (Hgen [] (late_workers cf now c)).
        -- intros n. rewrite N1. split; [done|]. intros [_ ?]. done.
        -- intros n w. unfold late_workers. rewrite elem_of_list_fmap. split.
           ++ intros (x & [= -> ->] & Hx). split; [done|]. apply elem_of_list_In, filter_In in Hx as [Hx Hb]. apply elem_of_list_In in Hx.
              apply andb_true_iff in Hb as [Hb H3]. apply andb_true_iff in Hb as [H1 H2]. apply bool_decide_eq_true in H1, H2. apply Z.ltb_lt in H3.
              exists x. repeat (split; [done|]). lia.
           ++ intros (-> & x & Hx & <- & (_ & _ & _ & H1 & H2 & H3)). exists x. split; [done|]. apply elem_of_list_In, filter_In. split; [apply elem_of_list_In; done|].
              rewrite !bool_decide_true by done. apply Z.ltb_lt. lia.
    + apply (Hgen [] []).
      * intros n. rewrite N1. split; [done|]. intros [_ (_ & [[? _]|[? _]])]; congruence.
      * intros n w. rewrite N2. split; [done|]. intros (_ & x & _ & _ & (_ & ? & _)). congruence.
    + apply (Hgen [] []).
      * intros n. rewrite N1. split; [done|]. intros [_ (_ & [[? _]|[? _]])]; congruence.
      * intros n w. rewrite N2. split; [done|]. intros (_ & x & _ & _ & (_ & ? & _)). congruence.
    + apply (Hgen [] []).
      * intros n. rewrite N1. split; [done|]. intros [_ (_ & [[? _]|[? _]])]; congruence.
      * intros n w. rewrite N2. split; [done|]. intros (_ & x & _ & _ & (_ & ? & _)). congruence.
Qed.
Lemma timeouts_exact cf h s now s' o : ids_ok cf h -> reach cf h s -> down s = None ->
  (forall n c, lookup_cluster n s = Some c -> c_status c = RUNNING -> c_target c = RUNNING -> is_Some (c_hb c)) ->
  step cf s (ECheckTimeouts now) = (s', o) ->
  o = [] /\ forall n c, lookup_cluster n s = Some c -> exists c', lookup_cluster n s' = Some c' /\
    (late_cluster cf now c -> c_target c' = FAILED) /\ (~ late_cluster cf now c -> c_row c' = c_row c) /\
    Forall2 (fun x x' => (late_worker cf now c x -> x' = wset_target FAILED x) /\ (~ late_worker cf now c x -> x' = x)) (c_workers c) (c_workers c').
Proof.
  intros Hid Hr Hd Hhb Hs. simpl in Hs. rewrite Hd in Hs. unfold check_timeouts in Hs.
  assert (forall c, c ∈ active_clusters s <-> exists n, lookup_cluster n s = Some c /\ c_target c = RUNNING) as Hact.
  { intros c. unfold active_clusters. rewrite elem_of_list_In, filter_In, <- elem_of_list_In. unfold all_clusters. rewrite elem_of_list_omap. split.
    - intros ((n & Hn & Hc) & Ha). exists n. unfold lookup_cluster. rewrite decide_True by done. split; [done|].
      destruct (reach_tgt _ _ _ _ _ Hid Hr Hc) as [?|Hf]; [done|]. unfold c_active in Ha. destruct Hf as [E|E]; rewrite E in Ha; done.
    - intros (n & [Hc Hn]%lookup_obj & Ht). split; [eauto|]. unfold c_active. rewrite Ht. done. }
  destruct (find_late_spec cf now (active_clusters s)) as (ns & ws & Hfl & I1 & I2).
  { intros c (n & _ & ?)%Hact. done. }
  { intros c (n & Hc & Ht)%Hact Es. eauto. }
  rewrite Hfl in Hs. injection Hs as <- <-. split; [done|]. intros n c Hl. pose proof (lookup_obj _ _ _ Hl) as [Hc Hn].
  assert (c_name c = n) as En by apply (reach_cok _ _ _ _ _ Hid Hr Hc).
  assert (forall d, d ∈ active_clusters s -> c_name d = n -> d = c) as Huniq.
  { intros d (k & [Hk _]%lookup_obj & _)%Hact E. assert (c_name d = k) as E' by apply (reach_cok _ _ _ _ _ Hid Hr Hk). congruence. }
  destruct (fail_clusters_in ns s n c Hc) as [F1 F2]. set (c1 := if decide (n ∈ ns) then _ else c) in *.
  destruct (fail_wk_in ws (fail_clusters ns s) n c1 F1) as [G1 G2].
  assert (c_workers c1 = c_workers c) as Ew by (unfold c1; case_decide; done).
  eexists. split.
  { unfold lookup_cluster, fail_workers. rewrite puts_objs.
    destruct (same_data_puts (map (fun p : nat * nat => (p.1, Some p.2)) ws) (fold_left (fun s p => update_worker p.1 p.2 (wset_target FAILED) s) ws (fail_clusters ns s))) as (_ & -> & _).
    rewrite G2, F2, decide_True by done. exact G1. }
  split; [|split].
  - intros HL. unfold c_target. simpl. unfold c1. rewrite decide_True; [done|]. apply I1. exists c. split; [|done]. apply Hact. exists n. split; [done|apply HL].
  - intros HL. simpl. unfold c1. rewrite decide_False; [done|]. intros (d & Hd' & E & HL')%I1. rewrite (Huniq d Hd' E) in HL'. done.
  - simpl. rewrite Ew. assert (forall l, (forall x, x ∈ l -> x ∈ c_workers c) -> Forall2 (fun x x' => (late_worker cf now c x -> x' = wset_target FAILED x) /\ (~ late_worker cf now c x -> x' = x)) l
      (map (fun x => if decide ((n, w_name x) ∈ ws) then wset_target FAILED x else x) l)) as H; [|by apply H].
    induction l as [|x l IH]; intros Hsub; simpl; constructor; [|apply IH; intros; apply Hsub; by right].
    split.
    + intros HL. rewrite decide_True; [done|]. apply I2. exists c, x. split; [apply Hact; exists n; split; [done|apply HL]|]. split; [done|]. split; [apply Hsub; by left|]. done.
    + intros HL. rewrite decide_False; [done|]. intros (d & y & Hd' & E & Hy & Ey & HL')%I2. apply HL. rewrite (Huniq d Hd' E) in *.
      rewrite <- (worker_eq cf s n c y x); [done|eapply reach_Inv; eauto|done|done|apply Hsub; by left|done].
Qed.
Lemma heard_one_life cf h s n c : one_life h -> reach cf h s -> objs s !! n = Some c -> c_status c = RUNNING -> is_Some (c_hb c).
Proof.
  intros Hol Hr Hc Hs. assert (r_sched (c_row c) = [] \/ is_Some (c_hb c)) as [E|?]; [|exfalso|done].
  2:{ pose proof (k_row _ _ _ _ _ _ (reach_cok cf h s n c (or_intror Hol) Hr Hc)) as []. by apply ro_sched. }
  clear Hs. revert Hol n c Hc. unfold reach in Hr. revert h s Hr.
  apply (exec_ind_r (step cf) (gw_init cf) (fun h s => one_life h -> forall n c, objs s !! n = Some c -> r_sched (c_row c) = [] \/ is_Some (c_hb c))).
  - intros _ n c. simpl. rewrite lookup_empty. done.
  - intros h s e o s' Hx IH Hs Hol n c' Hc'. assert (one_life h) as Hol1 by (intros a b Hab; eapply Hol; apply elem_of_app; eauto).
    assert (crash e = false) as Ec by (eapply Hol; apply elem_of_app; right; by left).
    pose proof (step_tracked cf s e (reach_Inv cf h s (or_intror Hol1) Hx) Ec) as HT. rewrite Hs in HT. simpl in HT. destruct HT as [_ T2 T3].
    destruct (objs s !! n) as [c|] eqn:Hc.
    + destruct (T2 n c c' Hc Hc') as [HP _]. destruct (p_hb _ _ _ _ _ HP) as [[E1 E2]|?]; [|auto]. rewrite E1, E2. eauto.
    + destruct (T3 n c' Hc Hc') as (_ & _ & _ & H & _). done.
Qed.
