From Coq Require Import ZArith Lia.
From stdpp Require Import prelude gmap.
From Verif Require Import Trace WorkQueue_Model Router_Model Gateway_Model Gateway_Spec Gateway_Hist Gateway_Proofs Gateway_Proofs2
  Gateway_Spec2 Gateway_Status Report_Model Report_Spec Report_Proofs Fleet_Gw Fleet_Model Fleet_Spec.
Open Scope Z_scope.

(** ** Parts *)
Lemma gw_app h1 h2 : gw_part (h1 ++ h2) = gw_part h1 ++ gw_part h2. Proof. apply omap_app. Qed.
Lemma sch_app n h1 h2 : sch_part n (h1 ++ h2) = sch_part n h1 ++ sch_part n h2. Proof. apply omap_app. Qed.
Lemma sch_set n x s n' : sch (set_sch n x s) n' = if decide (n' = n) then x else sch s n'.
Proof. unfold sch, set_sch. cbn [f_sch]. case_decide; [subst; rewrite lookup_insert; done|rewrite lookup_insert_ne; done]. Qed.

Section fleet.
Context (fc : fcfg).
(** One step, seen from the gateway and from one scheduler. *)
Inductive seen_as (s : fleet) (ev : fevent) (s' : fleet) (o : fobs) (n : nat) : Prop :=
| sa_quiet : (forall e o', o = FO_Gw e o' -> Gateway_Model.step (fc_gw fc) (f_gw s) e = (f_gw s', o') /\ (forall m now, e <> EHeartbeat n m now)) ->
    ((forall e o', o <> FO_Gw e o') -> f_gw s' = f_gw s) -> sch s' n = sch s n -> sch_part n [(FLose 0 0, o)] = [] -> seen_as s ev s' o n
| sa_lose i : o = FO_None -> f_gw s' = f_gw s -> sch s' n = Sched (s_rep (sch s n)) (s_sent (sch s n)) (delete i (s_wire (sch s n))) (s_ack (sch s n)) -> seen_as s ev s' o n
| sa_own e o' : o = FO_Sch n e o' -> f_gw s' = f_gw s -> Report_Model.step (s_rep (sch s n)) e = (s_rep (sch s' n), o') ->
    (forall m, o' <> OMsg m) -> s_sent (sch s' n) = s_sent (sch s n) -> s_wire (sch s' n) = s_wire (sch s n) -> s_ack (sch s' n) = s_ack (sch s n) ->
    (forall a p, e = EAdded a p -> (Pos.to_nat p < uuid (f_gw s))%nat) -> (e = EAnswer true -> s_ack (sch s n) = Some true) -> seen_as s ev s' o n
| sa_beat choice r m : (n < uuid (f_gw s))%nat -> o = FO_Sch n (EBeat choice) (OMsg m) -> f_gw s' = f_gw s -> Report_Model.step (s_rep (sch s n)) (EBeat choice) = (r, OMsg m) ->
    sch s' n = Sched r (S (s_sent (sch s n))) (s_wire (sch s n) ++ [(S (s_sent (sch s n)), hb_of fc n (count (s_rep (sch s n))) m)]) None -> seen_as s ev s' o n
| sa_arrive i k m now go : ev = FArrive n i now -> o = FO_Gw (EHeartbeat n m now) go -> s_wire (sch s n) !! i = Some (k, m) ->
    Gateway_Model.step (fc_gw fc) (f_gw s) (EHeartbeat n m now) = (f_gw s', go) ->
    sch s' n = Sched (s_rep (sch s n)) (s_sent (sch s n)) (delete i (s_wire (sch s n))) (if decide (k = s_sent (sch s n)) then Some (accepted go) else s_ack (sch s n)) ->
    seen_as s ev s' o n.
Lemma sees s e s' o n : fstep fc s e = (s', o) -> seen_as s e s' o n.
Proof.
  destruct e as [e|n0 e|n0 ch|n0 i now|n0 i|n0 ok]; cbn [fstep]; intros Hs.
  - destruct (own_event e) eqn:Ho; [|injection Hs as <- <-; apply sa_quiet; try done].
    destruct (Gateway_Model.step (fc_gw fc) (f_gw s) e) as [g go] eqn:Eg. injection Hs as <- <-. apply sa_quiet; try done.
    + intros e' o' [= <- <-]. split; [done|]. intros m now ->. done.
    + intros H. exfalso. by eapply H.
  - destruct (sched_event s e) eqn:He; [|injection Hs as <- <-; apply sa_quiet; try done].
    destruct (Report_Model.step (s_rep (sch s n0)) e) as [r ro] eqn:Er. injection Hs as <- <-. destruct (decide (n0 = n)) as [->|Hn].
    + eapply (sa_own _ _ _ _ _ e ro); try done; try (rewrite sch_set, decide_True by done; done).
      * intros m ->. apply message in Er as (ch & -> & _). done.
      * intros a p ->. cbn [sched_event] in He. by apply bool_decide_eq_true in He.
      * intros ->. done.
    + apply sa_quiet; try done; [rewrite sch_set, decide_False by done; done|]. unfold sch_part. simpl. rewrite decide_False; done.
  - case_decide as Hlt; [|injection Hs as <- <-; apply sa_quiet; try done].
    destruct (Report_Model.step (s_rep (sch s n0)) (EBeat ch)) as [r ro] eqn:Er. destruct (decide (n0 = n)) as [->|Hn].
    + destruct ro as [| |m| |]; injection Hs as <- <-.
      3:{ eapply sa_beat; try done. rewrite sch_set, decide_True by done. done. }
      all: eapply (sa_own _ _ _ _ _ (EBeat ch)); try done; rewrite sch_set, decide_True by done; done.
    + assert (sch s' n = sch s n /\ f_gw s' = f_gw s /\ o = FO_Sch n0 (EBeat ch) ro) as (H1 & H2 & ->).
      { destruct ro; injection Hs as <- <-; rewrite sch_set, decide_False by done; done. }
      apply sa_quiet; try done. unfold sch_part. simpl. rewrite decide_False; done.
  - destruct (s_wire (sch s n0) !! i) as [[k m]|] eqn:Ei; [|injection Hs as <- <-; apply sa_quiet; try done].
    destruct (Gateway_Model.step (fc_gw fc) (f_gw s) (EHeartbeat n0 m now)) as [g go] eqn:Eg. injection Hs as <- <-. destruct (decide (n0 = n)) as [->|Hn].
    + eapply sa_arrive; try done. rewrite sch_set, decide_True by done. done.
    + apply sa_quiet; try done.
      * intros e' o' [= <- <-]. split; [done|]. intros m' now' [= <- _ _]. done.
      * intros H. exfalso. by eapply H.
      * rewrite sch_set, decide_False by done. done.
  - injection Hs as <- <-. destruct (decide (n0 = n)) as [->|Hn].
    + eapply (sa_lose _ _ _ _ _ i); try done. rewrite sch_set, decide_True by done. done.
    + apply sa_quiet; try done. rewrite sch_set, decide_False by done. done.
  - case_decide as Hd; [|injection Hs as <- <-; apply sa_quiet; try done].
    destruct (Report_Model.step (s_rep (sch s n0)) (EAnswer ok)) as [r ro] eqn:Er. injection Hs as <- <-. destruct (decide (n0 = n)) as [->|Hn].
    + eapply (sa_own _ _ _ _ _ (EAnswer ok) ro); try done; try (rewrite sch_set, decide_True by done; done).
      * intros m ->. apply message in Er as (ch & ? & _). done.
      * intros [= ->]. auto.
    + apply sa_quiet; try done; [rewrite sch_set, decide_False by done; done|]. unfold sch_part. simpl. rewrite decide_False; done.
Qed.
Lemma gw_does s e s' ge go : fstep fc s e = (s', FO_Gw ge go) -> Gateway_Model.step (fc_gw fc) (f_gw s) ge = (f_gw s', go).
Proof.
  intros Hs. destruct (sees s e s' _ 0%nat Hs) as [H1 _ _ _|? [=]|? ? [=]|? ? ? _ [=]|i k m now go' _ [= -> ->] _ H _]; [by apply (H1 ge go)|done].
Qed.
Lemma gw_same s e s' o : fstep fc s e = (s', o) -> (forall ge go, o <> FO_Gw ge go) -> f_gw s' = f_gw s.
Proof.
  intros Hs Hne. destruct (sees s e s' _ 0%nat Hs) as [_ H _ _|? _ H|? ? _ H|? ? ? _ _ H|i k m now go' _ H]; try done; [by apply H|]. exfalso. by eapply Hne.
Qed.
Lemma sch_part_one n e e' o : sch_part n [(e, o)] = sch_part n [(e', o)]. Proof. done. Qed.

(** The parts are histories of the gateway and of the scheduler. *)
Lemma parts h s : freach fc h s -> reach (fc_gw fc) (gw_part h) (f_gw s) /\ forall n, exec Report_Model.step (Report_Model.init true) (sch_part n h) (s_rep (sch s n)).
Proof.
  revert h s. apply (exec_ind_r (fstep fc) (finit fc) (fun h s => reach (fc_gw fc) (gw_part h) (f_gw s) /\
    forall n, exec Report_Model.step (Report_Model.init true) (sch_part n h) (s_rep (sch s n)))).
  - split; [apply exec_nil|]. intros n. unfold sch. cbn. rewrite lookup_empty. apply exec_nil.
  - intros h s e o s' _ [IH1 IH2] Hs. split.
    + rewrite gw_app. unfold gw_part at 2. cbn [omap list_omap snd].
      destruct o as [|ge go|n ge go]; [rewrite app_nil_r, (gw_same _ _ _ _ Hs) by done; done| |rewrite app_nil_r, (gw_same _ _ _ _ Hs) by done; done].
      apply exec_app. exists (f_gw s). split; [done|]. econstructor; [by eapply gw_does|constructor].
    + intros n. rewrite sch_app. destruct (sees s e s' o n Hs) as [_ _ H1 H2|i -> _ H|re ro -> _ H _ _ _ _ _ _|ch r m _ -> _ H1 H2|i k m now go _ -> _ _ H].
      * rewrite (sch_part_one n e (FLose 0 0)), H2, app_nil_r, H1. done.
      * unfold sch_part at 2. cbn [omap list_omap snd]. rewrite app_nil_r, H. cbn [s_rep]. apply IH2.
      * unfold sch_part at 2. cbn [omap list_omap snd]. rewrite decide_True by done. apply exec_app. eexists. split; [apply IH2|]. econstructor; [exact H|constructor].
      * unfold sch_part at 2. cbn [omap list_omap snd]. rewrite decide_True by done. apply exec_app. eexists. split; [apply IH2|]. rewrite H2. econstructor; [exact H1|constructor].
      * unfold sch_part at 2. cbn [omap list_omap snd]. rewrite app_nil_r, H. cbn [s_rep]. apply IH2.
Qed.
Lemma fids_app h1 h2 : fids_ok fc (h1 ++ h2) -> fids_ok fc h1 /\ ids_ok (fc_gw fc) (gw_part h2).
Proof. unfold fids_ok. rewrite gw_app. apply ids_ok_app. Qed.

(** ** What messages tell *)
Definition known (m : hbmsg) (w : nat) : Prop := w ∈ Gateway_Model.m_active m \/ w ∈ Gateway_Model.m_closing m \/ w ∈ Gateway_Model.m_closed m.
Lemma in_nats (l : list positive) w : w ∈ map Pos.to_nat l <-> exists p, Pos.to_nat p = w /\ p ∈ l.
Proof. rewrite elem_of_list_fmap. split; intros (p & H1 & H2); exists p; done. Qed.
Lemma hb_known hr r e r' cnt n m w : exec Report_Model.step (Report_Model.init true) hr r -> Report_Model.step r e = (r', OMsg m) ->
  known (hb_of fc n cnt m) w <-> exists p, Pos.to_nat p = w /\ ever hr p.
Proof.
  intros Hx Hs. unfold known, hb_of. cbn [Gateway_Model.m_active Gateway_Model.m_closing Gateway_Model.m_closed].
  rewrite !in_nats. setoid_rewrite elem_of_elements. pose proof (inv_all true hr r Hx) as HI. split.
  - intros [(p & <- & H)|[(p & <- & H)|(p & <- & H)]]; exists p; (split; [done|]).
    + apply (i_ever _ _ HI), (active_closing true hr r e r' m p Hx Hs). auto.
    + apply (i_ever _ _ HI), (active_closing true hr r e r' m p Hx Hs). auto.
    + apply (closed_iff true hr r e r' m p Hx Hs) in H. tauto.
  - intros (p & <- & H). destruct (complete true hr r e r' m p Hx Hs H) as [?|[?|?]]; eauto 6.
Qed.
Definition handled (h : fhistory) (n : nat) (m : hbmsg) : Prop := exists now o, (EHeartbeat n m now, o) ∈ gw_part h.
Record Ord (n : nat) (h : fhistory) (s : fleet) : Prop := {
  o_ever : forall m w, handled h n m \/ (exists k, (k, m) ∈ s_wire (sch s n)) -> known m w -> exists p, Pos.to_nat p = w /\ ever (sch_part n h) p;
  o_before : forall m0 k m w, handled h n m0 -> (k, m) ∈ s_wire (sch s n) -> known m0 w -> known m w;
  o_sorted : forall i j k m k' m' w, s_wire (sch s n) !! i = Some (k, m) -> s_wire (sch s n) !! j = Some (k', m') -> (i < j)%nat -> known m w -> known m' w }.
Lemma ever_app h1 h2 p : ever h1 p -> ever (h1 ++ h2) p.
Proof. intros (a & b & H). exists a, b. apply elem_of_app. auto. Qed.
Lemma handled_app h e o n m : handled (h ++ [(e, o)]) n m <-> handled h n m \/ exists now go, o = FO_Gw (EHeartbeat n m now) go.
Proof.
  unfold handled. rewrite gw_app. unfold gw_part at 2. cbn [omap list_omap snd]. setoid_rewrite elem_of_app. split.
  - intros (now & go & [H|H]); [eauto|]. right. destruct o as [|ge go'|]; [by apply elem_of_nil in H| |by apply elem_of_nil in H].
    apply elem_of_list_singleton in H as [= <- <-]. eauto.
  - intros [(now & go & H)|(now & go & ->)]; [eauto|]. exists now, go. right. by left.
Qed.
Lemma lookup_del {A} (l : list A) i j x : delete i l !! j = Some x -> exists j', l !! j' = Some x /\ j' <> i /\ (j <= j')%nat /\ (j' <= S j)%nat /\ ((i <= j)%nat -> j' = S j) /\ ((j < i)%nat -> j' = j).
Proof.
  intros H. destruct (decide (j < i)%nat) as [Hl|Hl].
  - rewrite lookup_delete_lt in H by done. exists j. repeat split; try done; lia.
  - rewrite lookup_delete_ge in H by lia. exists (S j). repeat split; try done; lia.
Qed.
Lemma in_del {A} (l : list A) i x : x ∈ delete i l -> x ∈ l.
Proof. intros H. apply elem_of_list_lookup in H as (j & (j' & H & _)%lookup_del). by apply elem_of_list_lookup_2 in H. Qed.
Lemma in_order_app n h1 h2 : in_order n (h1 ++ h2) -> in_order n h1.
Proof. intros H i now o Hin. apply (H i now o), elem_of_app. auto. Qed.

Lemma ord_del n h s e s' o i : Ord n h s -> (forall m, handled (h ++ [(e, o)]) n m -> handled h n m \/ (i = 0%nat /\ exists k, s_wire (sch s n) !! 0%nat = Some (k, m))) ->
  s_wire (sch s' n) = delete i (s_wire (sch s n)) -> Ord n (h ++ [(e, o)]) s'.
Proof.
  intros [H1 H2 H3] Hh Hw. constructor; rewrite ?Hw.
  - intros m w Hm Hk. rewrite sch_app. cut (exists p, Pos.to_nat p = w /\ ever (sch_part n h) p). { intros (p & ? & ?). exists p. split; [done|]. by apply ever_app. }
    apply (H1 m); [|done]. destruct Hm as [Hm|(k & Hm)]; [|right; exists k; by eapply in_del]. destruct (Hh m Hm) as [?|(_ & k & E)]; [auto|].
    right. exists k. by eapply elem_of_list_lookup_2.
  - intros m0 k m w Hm0 Hm Hk. destruct (Hh m0 Hm0) as [Hm0'|(-> & k0 & E0)]; [eapply H2; eauto using in_del|].
    apply elem_of_list_lookup in Hm as (j & (j' & Ej & Hne & _)%lookup_del). eapply (H3 0%nat j'); eauto. lia.
  - intros a b k m k' m' w Ea Eb Hlt Hk. apply lookup_del in Ea as (a' & Ea & _ & A1 & A2 & A3 & A4). apply lookup_del in Eb as (b' & Eb & _ & B1 & B2 & B3 & B4).
    eapply (H3 a' b'); eauto. destruct (decide (i <= a)%nat); [rewrite A3 by lia; rewrite B3 by lia; lia|]. rewrite A4 by lia. lia.
Qed.
Lemma ord_all n h s : freach fc h s -> in_order n h -> Ord n h s.
Proof.
  revert h s. apply (exec_ind_r (fstep fc) (finit fc) (fun h s => in_order n h -> Ord n h s)).
  - intros _. constructor; unfold handled; cbn.
    + intros m w [(now & o & H)|(k & H)]; [by apply elem_of_nil in H|]. unfold sch in H. cbn in H. rewrite lookup_empty in H. by apply elem_of_nil in H.
    + intros m0 k m w (now & o & H). by apply elem_of_nil in H.
    + intros i j k m k' m' w H. unfold sch in H. cbn in H. rewrite lookup_empty in H. done.
  - intros h s e o s' Hx IH Hs Ho. specialize (IH (in_order_app _ _ _ Ho)). destruct (parts h s Hx) as [_ HR]. specialize (HR n).
    assert (forall m, (forall m now go, o <> FO_Gw (EHeartbeat n m now) go) -> handled (h ++ [(e, o)]) n m -> handled h n m) as Hq.
    { intros m Hne [?|(now & go & ->)]%handled_app; [done|]. exfalso. by eapply Hne. }
    assert (forall A (l : list A), delete (length l) l = l) as Hdel.
    { intros A l. induction l as [|x l IHl]; [done|]. simpl. f_equal. exact IHl. }
    destruct (sees s e s' o n Hs) as [Q1 Q2 Q3 Q4|i -> _ H|re ro -> _ H _ _ Hw _ _ _|ch r m _ -> _ H1 H2|i k m now go He -> Hi _ H].
    + eapply (ord_del n h s e s' o (length (s_wire (sch s n)))); [done| |rewrite Q3, Hdel; done]. intros m Hm. left. apply Hq; [|done].
      intros m' now go ->. destruct (Q1 _ _ eq_refl) as [_ HH]. by eapply HH.
    + eapply (ord_del n h s e s' _ i); [done| |rewrite H; done]. intros m Hm. left. by apply Hq.
    + eapply (ord_del n h s e s' _ (length (s_wire (sch s n)))); [done| |rewrite Hw, Hdel; done]. intros m Hm. left. by apply Hq.
    + pose proof (fun w => hb_known (sch_part n h) (s_rep (sch s n)) (EBeat ch) r (count (s_rep (sch s n))) n m w HR H1) as HK. destruct IH as [I1 I2 I3].
      constructor; rewrite ?H2; cbn [s_wire].
      * intros m' w Hm' Hk. rewrite sch_app. cut (exists p, Pos.to_nat p = w /\ ever (sch_part n h) p). { intros (p & ? & ?). exists p. split; [done|]. by apply ever_app. }
        destruct Hm' as [Hm'|(k & Hm')]; [apply (I1 m'); [left; by apply Hq|done]|].
        apply elem_of_app in Hm' as [?|Hm']; [apply (I1 m'); eauto|]. apply elem_of_list_singleton in Hm' as [= -> ->]. by apply HK.
      * intros m0 k m' w Hm0 Hm' Hk. apply Hq in Hm0; [|done]. apply elem_of_app in Hm' as [?|Hm']; [by eapply I2|].
        apply elem_of_list_singleton in Hm' as [= -> ->]. apply HK. by apply (I1 m0); [left|].
      * intros i j k m1 k' m2 w Ei Ej Hlt Hk. apply lookup_app_Some in Ej as [Ej|[Hj Ej]].
        -- rewrite lookup_app_l in Ei by (apply lookup_lt_Some in Ej; lia). by eapply (I3 i j).
        -- assert (j = length (s_wire (sch s n)))%nat as -> by (apply list_lookup_singleton_Some in Ej as [? _]; lia).
           rewrite Nat.sub_diag in Ej. injection Ej as <- <-. apply HK. apply (I1 m1); [|done]. right. exists k.
           rewrite lookup_app_l in Ei by done. by eapply elem_of_list_lookup_2.
    + assert (i = 0%nat) as -> by (subst e; apply (Ho i now (FO_Gw (EHeartbeat n m now) go)), elem_of_app; right; by left).
      eapply (ord_del n h s e s' _ 0%nat); [done| |rewrite H; done]. intros m' [?|(now' & go' & [= <- _ _])]%handled_app; [auto|]. right. split; [done|]. by exists k.
Qed.

(** ** C113 *)
Lemma all_accepted h s n now s' gm go : fids_ok fc h -> freach fc h s -> in_order n h ->
  fstep fc s (FArrive n 0 now) = (s', FO_Gw (EHeartbeat n gm now) go) -> OAssertion ∉ go.
Proof.
  intros Hid Hx Ho Hs. destruct (parts h s Hx) as [HG _]. pose proof (ord_all n h s Hx Ho) as HO.
  cbn [fstep] in Hs. destruct (s_wire (sch s n) !! 0%nat) as [[k m]|] eqn:Ei; [|done].
  destruct (Gateway_Model.step (fc_gw fc) (f_gw s) (EHeartbeat n m now)) as [g go'] eqn:Eg. injection Hs as _ -> ->.
  assert (go = (Gateway_Model.step (fc_gw fc) (f_gw s) (EHeartbeat n gm now)).2) as -> by (rewrite Eg; done).
  apply (heartbeat_accepted _ (gw_part h)); [done|done|]. intros m0 t o w Hin Hw.
  apply (o_before _ _ _ HO m0 k gm w); [by exists t, o|by eapply elem_of_list_lookup_2|]. unfold known. tauto.
Qed.

Lemma reach_same cf h s1 s2 : reach cf h s1 -> reach cf h s2 -> s1 = s2.
Proof. intros H1%exec_run H2%exec_run. congruence. Qed.

(** ** Answers *)
Lemma accepted_iff o : accepted o = true <-> OAssertion ∉ o.
Proof.
  unfold accepted. rewrite forallb_forall. split.
  - intros H Hin. apply elem_of_list_In, H in Hin. done.
  - intros H x Hin. apply elem_of_list_In in Hin. destruct x; try done.
Qed.
Definition answered (n : nat) (h : fhistory) (gm : hbmsg) : Prop := exists h1 now go h2,
  gw_part h = h1 ++ (EHeartbeat n gm now, go) :: h2 /\ OAssertion ∉ go /\ (forall s1, reach (fc_gw fc) h1 s1 -> (n < uuid s1)%nat) /\ (in_order n h -> no_heartbeat n h2).
Record Ack (n : nat) (h : fhistory) (s : fleet) : Prop := {
  a_max : forall k m, (k, m) ∈ s_wire (sch s n) -> (k <= s_sent (sch s n))%nat;
  a_inc : forall i j k m k' m', s_wire (sch s n) !! i = Some (k, m) -> s_wire (sch s n) !! j = Some (k', m') -> (i < j)%nat -> (k < k')%nat;
  a_known : s_wire (sch s n) <> [] -> (n < uuid (f_gw s))%nat;
  a_names : forall p, ever (sch_part n h) p -> (Pos.to_nat p < uuid (f_gw s))%nat;
  a_msg : forall m, unanswered (sch_part n h) m -> (forall p, p ∈ Report_Model.m_closing m -> ever (sch_part n h) p) /\
    exists cnt, (forall ch, last (sch_part n h) = Some (EBeat ch, OMsg m) -> cnt = count (s_rep (sch s n))) /\
    (forall gm, (s_sent (sch s n), gm) ∈ s_wire (sch s n) -> gm = hb_of fc n cnt m) /\
    (s_ack (sch s n) = Some true -> answered n h (hb_of fc n cnt m) /\ (in_order n h -> s_wire (sch s n) = []) /\
       forall p, p ∈ Report_Model.m_closing m -> flagged (f_gw s) n (Pos.to_nat p)) }.

Lemma answered_app n h e o gm : answered n h gm -> (in_order n (h ++ [(e, o)]) -> forall m now go, o <> FO_Gw (EHeartbeat n m now) go) -> answered n (h ++ [(e, o)]) gm.
Proof.
  intros (h1 & now & go & h2 & E & Hg & Hkn & Hno) Hne. exists h1, now, go, (h2 ++ gw_part [(e, o)]). split; [rewrite gw_app, E, <- app_assoc; done|].
  split; [done|]. split; [done|]. intros Ho m t og Hin. apply elem_of_app in Hin as [Hin|Hin]; [by eapply (Hno (in_order_app _ _ _ Ho))|].
  unfold gw_part in Hin. cbn [omap list_omap snd] in Hin. destruct o as [|ge go'|]; [by apply elem_of_nil in Hin| |by apply elem_of_nil in Hin].
  apply elem_of_list_singleton in Hin as [= <- <-]. by eapply (Hne Ho).
Qed.
Lemma gw_keeps h s e s' o : fids_ok fc (h ++ [(e, o)]) -> freach fc h s -> fstep fc s e = (s', o) ->
  (uuid (f_gw s) <= uuid (f_gw s'))%nat /\ forall n w, (w < uuid (f_gw s))%nat -> flagged (f_gw s) n w -> flagged (f_gw s') n w.
Proof.
  intros Hid Hx Hs. destruct (parts h s Hx) as [HG _]. destruct (fids_app _ _ Hid) as [Hid1 Hid2].
  pose proof (reach_GInv _ _ _ Hid1 HG) as HGI. destruct o as [|ge go|n ge go].
  - rewrite (gw_same _ _ _ _ Hs) by done. done.
  - pose proof (gw_does _ _ _ _ _ Hs) as Hg.
    assert (crash ge = true -> fresh_ids (fc_gw fc)) as Hcr by (eapply ids_ok_crash; [exact Hid2|by left]).
    split; [apply (Later_step _ _ _ _ _ Hcr HGI Hg)|]. intros n w Hw. by eapply flagged_step.
  - rewrite (gw_same _ _ _ _ Hs) by done. done.
Qed.
(** Steps that send nothing of [n] and let nothing of [n] arrive. *)
Lemma ack_quiet n h s e s' o : fids_ok fc (h ++ [(e, o)]) -> freach fc h s -> fstep fc s e = (s', o) -> Ack n h s ->
  (forall m now go, o <> FO_Gw (EHeartbeat n m now) go) -> (exists i, s_wire (sch s' n) = delete i (s_wire (sch s n))) ->
  s_sent (sch s' n) = s_sent (sch s n) -> s_ack (sch s' n) = s_ack (sch s n) ->
  (sch_part n [(e, o)] = [] /\ s_rep (sch s' n) = s_rep (sch s n) \/
   exists re ro, sch_part n [(e, o)] = [(re, ro)] /\ (forall m, ro <> OMsg m) /\ forall a p, re = EAdded a p -> (Pos.to_nat p < uuid (f_gw s))%nat) -> Ack n (h ++ [(e, o)]) s'.
Proof.
  intros Hid Hx Hs [A1 A2 A0 A3 A4] Hne (i & Hw) Hsent Hack Hpart. destruct (gw_keeps h s e s' o Hid Hx Hs) as [Hu Hf]. constructor.
  - rewrite Hw, Hsent. intros k m Hin. apply (A1 k m). by eapply in_del.
  - rewrite Hw. intros a b k m k' m' Ea Eb Hlt. apply lookup_del in Ea as (a' & Ea & _ & P1 & P2 & P3 & P4). apply lookup_del in Eb as (b' & Eb & _ & B1 & B2 & B3 & B4).
    eapply (A2 a' b'); eauto. destruct (decide (i <= a)%nat); [rewrite P3 by lia; rewrite B3 by lia; lia|]. rewrite P4 by lia. lia.
  - rewrite Hw. intros H. enough (n < uuid (f_gw s))%nat by lia. apply A0. intros E. rewrite E in H. by destruct i.
  - rewrite sch_app. intros p Hp. destruct Hpart as [[Ep _]|(re & ro & Ep & _ & Hre)].
    + rewrite Ep, app_nil_r in Hp. specialize (A3 p Hp). lia.
    + rewrite Ep in Hp. apply ever_snoc in Hp as [Hp|(a & b & [= -> _])]; [specialize (A3 p Hp); lia|]. specialize (Hre a p eq_refl). lia.
  - rewrite sch_app. intros m Hm.
    assert (unanswered (sch_part n h) m) as Hm0.
    { destruct Hpart as [[Hp _]|(re & ro & Hp & Hro & _)]; rewrite Hp in Hm; [by rewrite app_nil_r in Hm|].
      apply unanswered_snoc in Hm as [->|[? _]]; [by destruct (Hro m)|done]. }
    destruct (A4 m Hm0) as (Hcl & cnt & B1 & B2 & B3). split; [intros p Hp; by apply ever_app, Hcl|]. exists cnt. split; [|split].
    + intros ch Hlast. destruct Hpart as [[Hp Hr]|(re & ro & Hp & Hro & _)]; rewrite Hp in Hlast.
      * rewrite app_nil_r in Hlast. rewrite Hr. by eapply B1.
      * rewrite last_snoc in Hlast. injection Hlast as -> ->. by destruct (Hro m).
    + rewrite Hsent, Hw. intros gm Hin. apply B2. by eapply in_del.
    + rewrite Hack. intros Ha. destruct (B3 Ha) as (C1 & C2 & C3). split; [apply answered_app; auto|]. split.
      * intros Ho. rewrite Hw, C2; [done|]. by eapply in_order_app.
      * intros p Hp. apply Hf; [apply A3, Hcl, Hp|]. by apply C3.
Qed.
Lemma ack_all n h s : freach fc h s -> fids_ok fc h -> Ack n h s.
Proof.
  revert h s. apply (exec_ind_r (fstep fc) (finit fc) (fun h s => fids_ok fc h -> Ack n h s)).
  - intros _. assert (sch (finit fc) n = new_sched) as E by (unfold sch; cbn; rewrite lookup_empty; done). constructor; rewrite ?E; cbn.
    + intros k m H. by apply elem_of_nil in H.
    + done.
    + done.
    + intros p (a & b & H). by apply elem_of_nil in H.
    + intros m (h1 & e & h2 & H & _). by destruct h1.
  - intros h s e o s' Hx IH Hs Hid. destruct (fids_app _ _ Hid) as [Hid1 Hid2]. specialize (IH Hid1). destruct (parts h s Hx) as [HG HR]. specialize (HR n).
    assert (forall A (l : list A), delete (length l) l = l) as Hdel.
    { intros A l. induction l as [|x l IHl]; [done|]. simpl. f_equal. exact IHl. }
    destruct (sees s e s' o n Hs) as [Q1 Q2 Q3 Q4|i -> _ H|re ro -> _ H Hro H2 Hw H3 Hnm _|ch r m Hkn -> Hg H1 H2|i k m now go -> -> Hi Hg H].
    + eapply ack_quiet; eauto; rewrite ?Q3; try done; [|by exists (length (s_wire (sch s n)))|left; rewrite (sch_part_one n e (FLose 0 0)); done].
      intros m now go ->. destruct (Q1 _ _ eq_refl) as [_ HH]. by eapply HH.
    + eapply ack_quiet; eauto; rewrite ?H; try done; [by exists i|by left].
    + eapply ack_quiet; eauto; try done; [exists (length (s_wire (sch s n))); rewrite Hw, Hdel; done|]. right. exists re, ro.
      unfold sch_part. cbn [omap list_omap snd]. rewrite decide_True by done. done.
    + assert (sch_part n [(e, FO_Sch n (EBeat ch) (OMsg m))] = [(EBeat ch, OMsg m)]) as Ep.
      { unfold sch_part. cbn [omap list_omap snd]. rewrite decide_True; done. }
      pose proof (inv_all true _ _ HR) as HI.
      assert (count r = count (s_rep (sch s n))) as Hcount.
      { unfold Report_Model.step in H1. destruct (negb _); [done|]. destruct (hb _); try done. injection H1 as <- _. done. }
      destruct IH as [A1 A2 A0 A3 A4]. constructor; rewrite ?H2, ?Hg, ?sch_app, ?Ep; cbn [s_wire s_sent s_ack s_rep].
      * intros k gm Hin. apply elem_of_app in Hin as [Hin|Hin]; [specialize (A1 _ _ Hin); lia|]. apply elem_of_list_singleton in Hin as [= -> _]. lia.
      * intros i j k m1 k' m2 Ei Ej Hlt. apply lookup_app_Some in Ej as [Ej|[Hj Ej]].
        -- rewrite lookup_app_l in Ei by (apply lookup_lt_Some in Ej; lia). by eapply (A2 i j).
        -- assert (j = length (s_wire (sch s n)))%nat as -> by (apply list_lookup_singleton_Some in Ej as [? _]; lia).
           rewrite Nat.sub_diag in Ej. injection Ej as <- <-. rewrite lookup_app_l in Ei by done. apply elem_of_list_lookup_2, A1 in Ei. lia.
      * done.
      * intros p [Hp|(a & b & E)]%ever_snoc; [auto|done].
      * intros m' [[= <-]|(_ & _ & Hno)]%unanswered_snoc; [|by destruct (Hno m)]. split.
        { intros p Hp. apply ever_app, (i_ever _ _ HI). apply (active_closing true _ _ _ _ _ p HR H1). auto. }
        exists (count (s_rep (sch s n))). split; [by intros ch' _; rewrite Hcount|]. split; [|done].
        intros gm Hin. apply elem_of_app in Hin as [Hin|Hin]; [apply A1 in Hin; lia|]. apply elem_of_list_singleton in Hin as [= ->]. done.
    + destruct (gw_keeps h s _ s' _ Hid Hx Hs) as [Hu Hf].
      assert (sch_part n [(FArrive n i now, FO_Gw (EHeartbeat n m now) go)] = []) as Ep by done. destruct IH as [A1 A2 A0 A3 A4].
      constructor; rewrite ?H, ?sch_app, ?Ep, ?app_nil_r; cbn [s_wire s_sent s_ack s_rep].
      * intros k' m' Hin. apply (A1 k' m'). by eapply in_del.
      * intros a b k1 m1 k2 m2 Ea Eb Hlt. apply lookup_del in Ea as (a' & Ea & _ & P1 & P2 & P3 & P4). apply lookup_del in Eb as (b' & Eb & _ & B1 & B2 & B3 & B4).
        eapply (A2 a' b'); eauto. destruct (decide (i <= a)%nat); [rewrite P3 by lia; rewrite B3 by lia; lia|]. rewrite P4 by lia. lia.
      * intros _. enough (n < uuid (f_gw s))%nat by lia. apply A0. intros E. rewrite E in Hi. done.
      * intros p Hp. specialize (A3 p Hp). lia.
      * intros m' Hm'. destruct (A4 m' Hm') as (Hcl & cnt & B1 & B2 & B3). split; [done|]. exists cnt. split; [done|]. split.
        { intros gm Hin. apply B2. by eapply in_del. }
        case_decide as Hk.
        -- intros [= Ha%accepted_iff]. subst k. assert (m = hb_of fc n cnt m') as -> by (apply B2; by eapply elem_of_list_lookup_2).
           split; [|split].
           ++ exists (gw_part h), now, go, []. split; [rewrite gw_app; done|]. split; [done|].
              split; [intros s1 Hr1; rewrite (reach_same _ _ _ _ Hr1 HG); apply A0; intros E; rewrite E in Hi; done|]. intros _ ? ? ? Hin. by apply elem_of_nil in Hin.
           ++ intros Ho. assert (i = 0%nat) as -> by (apply (Ho i now (FO_Gw (EHeartbeat n (hb_of fc n cnt m') now) go)), elem_of_app; right; by left).
              destruct (s_wire (sch s n)) as [|x [|[k2 m2] l]] eqn:Ew; [done|done|]. exfalso. cbn in Hi. injection Hi as ->.
              pose proof (A2 0%nat 1%nat _ _ k2 m2 eq_refl eq_refl ltac:(lia)) as H5. pose proof (A1 k2 m2 ltac:(right; left)). lia.
           ++ intros p Hp. eapply (flagged_by _ (gw_part h)); [done|done|exact Hg|done|]. cbn. apply in_nats. eauto.
        -- intros Ha. destruct (B3 Ha) as (C1 & C2 & C3). assert (~ in_order n (h ++ [(FArrive n i now, FO_Gw (EHeartbeat n m now) go)])) as Hno.
           { intros Ho. rewrite (C2 (in_order_app _ _ _ Ho)) in Hi. done. }
           split; [apply answered_app; [done|]; intros Ho; by destruct (Hno Ho)|]. split; [intros Ho; by destruct (Hno Ho)|].
           intros p Hp. apply Hf; [apply A3, Hcl, Hp|]. by apply C3.
Qed.

(** ** C115 *)
Lemma retire_known h s n s' l : fids_ok fc h -> freach fc h s -> fstep fc s (FAnswer n true) = (s', FO_Sch n (EAnswer true) (ORetire l)) ->
  forall p, p ∈ l -> (Pos.to_nat p < uuid (f_gw s'))%nat /\ flagged (f_gw s') n (Pos.to_nat p).
Proof.
  intros Hid Hx Hs p Hp. pose proof (ack_all n h s Hx Hid) as [A1 A2 A0 A3 A4]. destruct (parts h s Hx) as [_ HR]. specialize (HR n).
  destruct (sees s _ s' _ n Hs) as [_ _ _ Q|? [=]|re ro [= <- <-] Hg H _ _ _ _ _ Ha|? ? ? _ [=]|]; [|idtac|done].
  { unfold sch_part in Q. cbn [omap list_omap snd] in Q. rewrite decide_True in Q by done. done. }
  rewrite Hg. destruct (proj1 (retire_exact true _ _ _ _ _ l HR H) eq_refl) as (_ & _ & m & Hm & <-).
  destruct (A4 m Hm) as (Hcl & cnt & _ & _ & B3). destruct (B3 (Ha eq_refl)) as (_ & _ & C3). split; [by apply A3, Hcl|]. by apply C3.
Qed.
Lemma flagged_leads h s h2 s2 n w : fids_ok fc (h ++ h2) -> freach fc h s -> fleads fc s h2 s2 -> (w < uuid (f_gw s))%nat -> flagged (f_gw s) n w -> flagged (f_gw s2) n w.
Proof.
  unfold fleads. intros Hid Hx Hl Hw Hf. revert h Hid Hx. induction Hl as [s|s e o s1 h2 s2 Hs Hl IH]; intros h Hid Hx; [done|].
  rewrite cons_middle, app_assoc in Hid. destruct (gw_keeps h s e s1 o (proj1 (fids_app _ _ Hid)) Hx Hs) as [Hu HK].
  apply (IH ltac:(lia) ltac:(auto) (h ++ [(e, o)])); [done|]. apply exec_app. exists s. split; [done|]. econstructor; [exact Hs|constructor].
Qed.
Lemma retired_flagged h1 s1 n s1' l h2 s2 p c x :
  fids_ok fc (h1 ++ (FAnswer n true, FO_Sch n (EAnswer true) (ORetire l)) :: h2) -> freach fc h1 s1 ->
  fstep fc s1 (FAnswer n true) = (s1', FO_Sch n (EAnswer true) (ORetire l)) -> fleads fc s1' h2 s2 -> p ∈ l ->
  lookup_cluster n (f_gw s2) = Some c -> x ∈ c_workers c -> w_name x = Pos.to_nat p ->
  c_target c <> RUNNING \/ finished (w_status x) \/ w_close x = true.
Proof.
  intros Hid Hx Hs Hl Hp. rewrite cons_middle, app_assoc in Hid. destruct (fids_app _ _ Hid) as [Hid1 _]. destruct (fids_app _ _ Hid1) as [Hid0 _].
  destruct (retire_known h1 s1 n s1' l Hid0 Hx Hs p Hp) as [Hu Hf].
  assert (flagged (f_gw s2) n (Pos.to_nat p)) as H; [|apply H].
  eapply (flagged_leads (h1 ++ [(FAnswer n true, FO_Sch n (EAnswer true) (ORetire l))])); eauto.
  apply exec_app. exists s1. split; [done|]. econstructor; [exact Hs|constructor].
Qed.
End fleet.
