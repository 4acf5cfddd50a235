(** Proofs for C107-C109, continued. *)
From Coq Require Import ZArith Lia.
From stdpp Require Import prelude gmap.
From Verif Require Import Trace App_Model App_Spec App_Proofs.

Definition unwanted_queued (s : state) : Prop := forall n c, clusters s !! n = Some c -> is_open c = true -> c_wanted c = false -> n ∈ queued s.
Definition all_unwanted (s : state) : Prop := forall n c, clusters s !! n = Some c -> is_open c = true -> c_wanted c = false.
Definition none_open (s : state) : Prop := forall n c, clusters s !! n = Some c -> is_open c = false.
(** What a step that is not main's does to the clusters. *)
Lemma others_clusters cf s e s' o : (forall ok, e <> EMain ok) -> e <> ESignal -> step cf s e = (s', o) ->
  (unwanted_queued s -> unwanted_queued s') /\ (listening s = false -> (all_unwanted s -> all_unwanted s') /\ (none_open s -> none_open s')).
Proof.
  intros H1 H2 H. destruct e as [ok| |n ok|n|n|n]; [by destruct (H1 ok)|done| | | |]; unfold step in H.
  - destruct (_ && _); [|by injection H as <- _]. destruct (clusters s !! n) as [c|] eqn:Ec; [|by injection H as <- _].
    destruct (turn_clusters _ _ _ _ _ _ _ H Ec) as (T1 & T2 & c' & T3 & T4 & T5 & T6). split; [|intros _; split].
    + intros Hu m d Hd Ho Hw. destruct (decide (m = n)) as [->|Hne]; [rewrite T3 in Hd; injection Hd as <-; auto|]. rewrite T1 in Hd by done. apply T2; eauto.
    + intros Hu m d Hd Ho. destruct (decide (m = n)) as [->|Hne]; [|rewrite T1 in Hd by done; eauto]. rewrite T3 in Hd; injection Hd as <-.
      destruct (is_open c) eqn:Eo; [|rewrite T4 in Ho by done; congruence]. pose proof (T5 (Hu _ _ Ec Eo)). congruence.
    + intros Hu m d Hd. destruct (decide (m = n)) as [->|Hne]; [|rewrite T1 in Hd by done; eauto]. rewrite T3 in Hd; injection Hd as <-. pose proof (Hu _ _ Ec) as Eo. by rewrite T4.
  - destruct (listening s && _ && _ && _) eqn:E; [|by injection H as <- _]. injection H as <- _. split.
    + intros Hu m d. cbn [set_clusters clusters queued]. destruct (decide (m = n)) as [->|Hne]; [rewrite lookup_insert; intros [= <-] _ ?; done|]. rewrite lookup_insert_ne by done. intros Hd Ho Hw. apply elem_of_union_l. by apply (Hu m d).
    + intros Hl. by rewrite Hl in E.
  - destruct (listening s && _) eqn:E; [|by injection H as <- _]. destruct (clusters s !! n) as [c|] eqn:Ec; [destruct (is_open c) eqn:Eo|]; try by injection H as <- _. injection H as <- _. split.
    + intros Hu m d. cbn [set_clusters clusters queued]. destruct (decide (m = n)) as [->|Hne]; [intros _ _ _; set_solver|]. rewrite lookup_insert_ne by done. intros Hd Ho Hw. apply elem_of_union_l. by apply (Hu m d).
    + intros Hl. by rewrite Hl in E.
  - injection H as <- _. done.
Qed.
Lemma qinv_step cf s e s' o : pinv cf s -> qinv cf s -> step cf s e = (s', o) -> qinv cf s'.
Proof.
  intros HI [Q1 Q2] H.
  assert (Hoth : (forall ok, e <> EMain ok) -> e <> ESignal -> qinv cf s').
  { intros H1 H2. destruct (others_clusters _ _ _ _ _ H1 H2 H) as [O1 O2].
    assert (same_main s s') as (E1 & _ & _ & _ & _ & _ & E7 & _ & _ & _ & E11) by (eapply not_main; eauto).
    split; [unfold loaded in *; rewrite E1, E7; intros Hl; exact (O1 (Q1 Hl))|]. rewrite E1, E7. unfold pinv in HI. destruct (at_ s) as [l| |c l|c]; try done. intros Hd Hst. destruct (Q2 Hd Hst) as [Q3 Q4].
    destruct HI as (j & Hj & -> & P1 & _). split; intros Hn; [rewrite kprog_stop in Hn by done|rewrite kprog_wait in Hn by done]; (destruct O2 as [O3 O4]; [apply P1; lia|]); [refine (O3 (Q3 _))|refine (O4 (Q4 _))]; rewrite ?kprog_stop, ?kprog_wait by done; done. }
  destruct e as [ok| |n ok|n|n|n]; try (by apply Hoth).
  - clear Hoth. unfold step in H. unfold pinv in HI. destruct (at_ s) as [[|i l]| |c [|k l]|c] eqn:Ea; try (injection H as <- _; split; [exact Q1|by rewrite Ea]).
    + destruct HI as (k & Hk & El & _ & _ & _ & _ & _ & Hdb & _). unfold loaded in Q1. rewrite Ea, El, setup_loaded in Q1 by done.
      destruct (decide (k = 5)) as [->|Hk5].
      { injection El as -> ->. cbn [exec_instr] in H. injection H as <- _. split; [|done]. intros _ n c Hc Ho _. cbn [set_place set_tasks set_clusters queued clusters] in *. apply open_keys_spec. by exists c. }
      assert (Hcl : clusters s' = clusters s /\ queued s' = queued s).
      { assert (i <> ILoad) as Hi. { intros ->. destruct k as [|[|[|[|[|[|[|[|[|k]]]]]]]]]; try discriminate El; lia. }
        assert (forall s1 b, exec_instr cf i ok s = (s1, b) -> clusters s1 = clusters s /\ queued s1 = queued s) as HE.
        { intros s1 b. destruct i; cbn [exec_instr]; intros E; try done; try (by injection E as <- <-); try (destruct ok; by injection E as <- <-). destruct (ok || _); by injection E as <- <-. }
        destruct (exec_instr cf i ok s) as [s1 []] eqn:Ei; [destruct l|]; injection H as <- _; by apply (HE _ _ eq_refl). }
      destruct Hcl as [Hc Hq]. assert (Hd : loaded s' -> 6 <= k).
      { unfold loaded. destruct (exec_instr cf i ok s) as [s1 b] eqn:Ei.
        assert (db s1 = true -> 4 <= k) as Hd1.
        { destruct (decide (4 <= k)); [done|]. intros Hd1. exfalso. destruct k as [|[|[|[|k]]]]; [injection El as -> ->..|lia]; cbn [exec_instr] in Ei; injection Ei as <- <-; cbn in Hd1; rewrite Hdb in Hd1; done. }
        destruct b.
        - destruct (decide (k = 8)) as [->|Hk8]; [intros; lia|]. assert (l = drop (S k) setup_prog) as -> by (destruct k as [|[|[|[|[|[|[|[|[|k]]]]]]]]]; [injection El as -> ->; done..|lia]).
          destruct (drop (S k) setup_prog) eqn:Edr. { exfalso. destruct k as [|[|[|[|[|[|[|[|[|k]]]]]]]]]; discriminate Edr || lia. }
          injection H as <- _. cbn [set_place at_]. rewrite <- Edr, setup_loaded by lia. lia.
        - injection H as <- _. cbn [set_place at_ db]. intros Hd2. pose proof (Hd1 Hd2). destruct (decide (k = 4)) as [->|]; [|lia]. injection El as -> ->. cbn [exec_instr] in Ei. destruct ok; [done|]. injection Ei as <-. by rewrite Hdb in Hd2. }
      split; [intros Hl; rewrite Hc, Hq; by apply Q1, Hd|]. destruct (exec_instr cf i ok s) as [s1 []]; [destruct l|]; injection H as <- _; cbn [set_place at_]; try done.
      intros _ _. split; intros Hn; exfalso; [apply (kprog_stop 0) in Hn|apply (kprog_wait 0) in Hn]; lia.
    + destruct HI as (j & Hj & El & P1 & _). unfold loaded in Q1. rewrite Ea in Q1. cbn in Q1.
      assert (HE : forall s1 o1 b, exec_kinstr cf k ok s = Some (s1, o1, b) -> db s1 = db s /\ (db s = true -> unwanted_queued s1) /\ (db s = true -> stop_flag cf = true -> (3 <= S j -> all_unwanted s1) /\ (4 <= S j -> none_open s1))).
      { intros s1 o1 b Ek. destruct (decide (j = 2)) as [->|H2].
        { injection El as -> ->. cbn [exec_kinstr] in Ek. injection Ek as <- <- <-. split; [by destruct (db s && _)|]. destruct (db s) eqn:Ed; [|done]. destruct (stop_flag cf); cbn [andb]; [|split; [intros _; exact (Q1 eq_refl)|done]].
          split; [intros _ n d|intros _ _; split; [intros _ n d|lia]]; cbn [set_clusters clusters queued]; rewrite lookup_fmap; destruct (clusters s !! n) as [d0|] eqn:En; cbn; intros E; try discriminate E; injection E as <-; destruct (is_open d0) eqn:Eo; intros Ho.
          - intros _. apply elem_of_union_r, open_keys_spec. by exists d0.
          - congruence.
          - done.
          - congruence. }
        assert (clusters s1 = clusters s /\ queued s1 = queued s /\ db s1 = db s /\ (j = 3 -> db s = true -> stop_flag cf = true -> none_open s)) as (C1 & C2 & C3 & C4).
        { destruct j as [|[|[|[|[|[|[|[|[|j]]]]]]]]]; [injection El as -> ->..|lia]; cbn [exec_kinstr] in Ek; try (injection Ek as <- <- <-; done); try lia.
          - destruct (db s && stop_flag cf && _) eqn:E; [done|]. injection Ek as <- <- <-. repeat (split; [done|]). intros _ Hd Hst. rewrite Hd, Hst in E. cbn [andb] in E. apply negb_false_iff in E. exact (proj1 (all_closed_spec s) E).
          - destruct (_ && _); by injection Ek as <- <- <-.
          - destruct (session s); by injection Ek as <- <- <-. }
        split; [done|]. split; [intros Hd; unfold unwanted_queued; rewrite C1, C2; by apply Q1|]. intros Hd Hst. destruct (Q2 Hd Hst) as [Q3 Q4]. rewrite El, kprog_stop in Q3 by done. rewrite El, kprog_wait in Q4 by done. unfold all_unwanted, none_open. rewrite C1. split; intros Hj'; [apply Q3; lia|]. destruct (decide (j = 3)) as [->|]; [by apply C4|apply Q4; lia]. }
      destruct (exec_kinstr cf k ok s) as [[[s1 o1] b]|] eqn:Ek; [|injection H as <- _; split; [unfold loaded; rewrite Ea; exact Q1|rewrite Ea; exact Q2]].
      destruct (HE _ _ _ eq_refl) as (E1 & E2 & E3).
      destruct b; [destruct l|]; injection H as <- _; (split; [unfold loaded; cbn [set_place at_ db]; rewrite E1; exact E2|]); cbn [set_place at_]; try done. cbn [set_place db]. rewrite E1.
      intros Hd Hst. destruct (E3 Hd Hst) as [E4 E5]. assert (k0 :: l = drop (S j) cleanup_prog) as El' by (destruct j as [|[|[|[|[|[|[|[|[|j]]]]]]]]]; [try discriminate El; injection El; intros; subst; reflexivity..|lia]).
      destruct (decide (j = 8)) as [->|]; [done|]. rewrite El', kprog_stop, kprog_wait by lia. done.
  - clear Hoth. unfold step in H. destruct (suspended cf s) eqn:Es; [|injection H as <- _; by split]. unfold pinv in HI. unfold loaded in Q1. unfold suspended in Es.
    destruct (at_ s) as [l| |c l|c] eqn:Ea.
    + injection H as <- _. destruct HI as (k & Hk & -> & _). rewrite setup_loaded in Q1 by done. assert (6 <= k) as H6. { destruct k as [|[|[|[|[|[|k]]]]]]; try discriminate Es; lia. }
      split; [intros _; exact (Q1 H6)|]. cbn [set_place at_]. intros _ _. split; intros Hn; exfalso; [apply (kprog_stop 0) in Hn|apply (kprog_wait 0) in Hn]; lia.
    + injection H as <- _. split; [intros _; apply Q1; tauto|]. cbn [set_place at_]. intros _ _. split; intros Hn; exfalso; [apply (kprog_stop 0) in Hn|apply (kprog_wait 0) in Hn]; lia.
    + injection H as <- _. split; [exact Q1|done].
    + done.
Qed.
Lemma qinv_life cf cs a h s : life cf cs a h s -> qinv cf s.
Proof.
  revert h s. apply (exec_ind_r (step cf) (init cs a) (fun h s => qinv cf s)); [apply qinv_init|].
  intros h s e o s' Hx IH Hs. eapply qinv_step; [by eapply pinv_life|done|done].
Qed.

(** * The end *)
Lemma exit_code cf cs a h s : life cf cs a h s ->
  match at_ s with
  | Setup _ => OServe ∉ outs h
  | Cleanup c _ | Exited c => (c = 1%Z /\ OServe ∉ outs h /\ happened (EMain false) h) \/ (c = 0%Z /\ happened ESignal h)
  | Serving => True
  end.
Proof.
  revert h s. apply (exec_ind_r (step cf) (init cs a) (fun h s => match at_ s with
  | Setup _ => OServe ∉ outs h
  | Cleanup c _ | Exited c => (c = 1%Z /\ OServe ∉ outs h /\ happened (EMain false) h) \/ (c = 0%Z /\ happened ESignal h)
  | Serving => True
  end)); [apply not_elem_of_nil|].
  intros h s e o s' Hx IH Hs. pose proof (pinv_life _ _ _ _ _ Hx) as HI.
  assert (Hoth : (forall ok, e <> EMain ok) -> e <> ESignal -> at_ s' = at_ s /\ OServe ∉ o).
  { intros H1 H2. split; [by destruct (not_main _ _ _ _ _ Hs H1 H2)|]. destruct e as [ok| |n ok|n|n|n]; [by destruct (H1 ok)|done| | | |]; unfold step in Hs.
    - destruct (_ && _); [|injection Hs as _ <-; apply not_elem_of_nil]. destruct (clusters s !! n) as [c|]; [|injection Hs as _ <-; apply not_elem_of_nil]. intros Hin. pose proof (turn_calls cf n c ok s OServe) as T. rewrite Hs in T. by destruct (T Hin).
    - destruct (_ && _); injection Hs as _ <-; apply not_elem_of_nil.
    - destruct (_ && _); [|injection Hs as _ <-; apply not_elem_of_nil]. destruct (clusters s !! n) as [c|]; [destruct (is_open c)|]; injection Hs as _ <-; apply not_elem_of_nil.
    - injection Hs as _ <-. apply not_elem_of_nil. }
  enough (match at_ s' with
    | Setup _ => OServe ∉ outs h /\ OServe ∉ o
    | Cleanup c _ | Exited c => (c = 1%Z /\ (OServe ∉ outs h /\ OServe ∉ o) /\ (happened (EMain false) h \/ EMain false = e)) \/ (c = 0%Z /\ (happened ESignal h \/ ESignal = e))
    | Serving => True end) as HE
    by (destruct (at_ s'); rewrite ?happened_snoc, ?outs_snoc, ?not_elem_of_app; done).
  assert (Hkeep : at_ s' = at_ s -> OServe ∉ o -> match at_ s' with
    | Setup _ => OServe ∉ outs h /\ OServe ∉ o
    | Cleanup c _ | Exited c => (c = 1%Z /\ (OServe ∉ outs h /\ OServe ∉ o) /\ (happened (EMain false) h \/ EMain false = e)) \/ (c = 0%Z /\ (happened ESignal h \/ ESignal = e))
    | Serving => True end).
  { intros -> Ho. destruct (at_ s); [done|done|tauto|tauto]. }
  destruct e as [ok| |n ok|n|n|n]; try (destruct Hoth as [H1 H2]; [done|done|by apply Hkeep]).
  - clear Hoth. unfold step in Hs. destruct (at_ s) as [[|i l]| |c [|k l]|c] eqn:Ea; try (injection Hs as <- <-; apply Hkeep; [done|apply not_elem_of_nil]).
    + destruct (exec_instr cf i ok s) as [s1 b] eqn:Ei. destruct b; [destruct l|]; injection Hs as <- <-; cbn [set_place at_]; [done|split; [done|apply not_elem_of_nil]|]. left. split; [done|]. split; [split; [done|apply not_elem_of_nil]|]. right.
      assert (ok = false) as ->; [|done]. destruct i, ok; cbn [exec_instr] in Ei; try done; injection Ei; try done.
    + destruct (exec_kinstr cf k ok s) as [[[s1 o1] b]|] eqn:Ek; [|injection Hs as <- <-; apply Hkeep; [done|apply not_elem_of_nil]].
      assert (OServe ∉ o1) as Ho1. { intros Hin. by eapply exec_kinstr_calls in Hin as (_ & _ & ? & _). }
      assert (OServe ∉ o) as Ho. { destruct b; [destruct l|]; injection Hs as _ <-; [|done|]; intros [Hin|Hin]%elem_of_app; try done; repeat (apply elem_of_cons in Hin as [Hin|Hin]; [discriminate Hin|]); by apply elem_of_nil in Hin. }
      destruct b; [destruct l|]; injection Hs as <- Ho'; cbn [set_place at_]; tauto.
  - clear Hoth. unfold step in Hs. destruct (suspended cf s); [|injection Hs as <- <-; apply Hkeep; [done|apply not_elem_of_nil]].
    destruct (at_ s) eqn:Ea; injection Hs as <- <-; cbn [set_place at_]; auto. apply Hkeep; [done|apply not_elem_of_nil].
Qed.
Lemma stopped_released cf cs a h s : life cf cs a h s -> OStopped ∈ outs h ->
  released s /\ (exists c, at_ s = Exited c) /\ (db s = true -> stop_flag cf = true -> none_open s).
Proof.
  assert (Hx0 : forall s e s' o c, step cf s e = (s', o) -> at_ s = Exited c -> (forall n, n ∈ apps s' -> n ∈ apps s) /\ at_ s' = at_ s /\ clusters s' = clusters s /\ OStopped ∉ o /\
     (listening s = false -> same_main s s')).
  { intros s0 e s' o c H Ha. destruct e as [ok| |n ok|n|n|n]; unfold step in H.
    - rewrite Ha in H. injection H as <- <-. repeat (split; [done|]). split; [apply not_elem_of_nil|done].
    - unfold suspended in H. rewrite Ha in H. injection H as <- <-. repeat (split; [done|]). split; [apply not_elem_of_nil|done].
    - unfold suspended in H. rewrite Ha in H. injection H as <- <-. repeat (split; [done|]). split; [apply not_elem_of_nil|done].
    - unfold suspended in H. rewrite Ha, andb_false_r in H. injection H as <- <-. repeat (split; [done|]). split; [apply not_elem_of_nil|done].
    - unfold suspended in H. rewrite Ha, andb_false_r in H. injection H as <- <-. repeat (split; [done|]). split; [apply not_elem_of_nil|done].
    - injection H as <- <-. split; [cbn; set_solver|]. repeat (split; [done|]). split; [apply not_elem_of_nil|done]. }
  revert h s. apply (exec_ind_r (step cf) (init cs a) (fun h s => OStopped ∈ outs h -> released s /\ (exists c, at_ s = Exited c) /\ (db s = true -> stop_flag cf = true -> none_open s))).
  { intros H. by apply elem_of_nil in H. }
  intros h s e o s' Hx IH Hs. rewrite outs_snoc. intros [H|H]%elem_of_app.
  - destruct (IH H) as ((R1 & R2 & R3 & R4 & R5 & R6) & [c Hc] & Hn). destruct (Hx0 _ _ _ _ _ Hs Hc) as (_ & E1 & E2 & _ & E3). destruct (E3 R6) as (_ & F1 & F2 & F3 & F4 & F5 & F6 & F7 & F8 & F9 & F10).
    split; [unfold released; by rewrite F1, F2, F3, F5, F7, F10|]. split; [exists c; congruence|]. unfold none_open. rewrite F6, E2. exact Hn.
  - pose proof (pinv_life _ _ _ _ _ Hx) as HI. pose proof (qinv_life _ _ _ _ _ Hx) as [_ HQ].
    assert (exists ok, e = EMain ok) as [ok ->].
    { destruct e as [ok| |n ok|n|n|n]; [by exists ok| | | | |]; exfalso; unfold step in Hs.
      - destruct (suspended cf s); [|injection Hs as _ <-; by apply elem_of_nil in H]. destruct (at_ s); injection Hs as _ <-; try (by apply elem_of_nil in H). by apply elem_of_list_singleton in H.
      - destruct (_ && _); [|injection Hs as _ <-; by apply elem_of_nil in H]. destruct (clusters s !! n) as [c|]; [|injection Hs as _ <-; by apply elem_of_nil in H]. pose proof (turn_calls cf n c ok s OStopped) as T. rewrite Hs in T. by destruct (T H).
      - destruct (_ && _); injection Hs as _ <-; by apply elem_of_nil in H.
      - destruct (_ && _); [|injection Hs as _ <-; by apply elem_of_nil in H]. destruct (clusters s !! n) as [c|]; [destruct (is_open c)|]; injection Hs as _ <-; by apply elem_of_nil in H.
      - injection Hs as _ <-. by apply elem_of_nil in H. }
    unfold step in Hs. unfold pinv in HI. destruct (at_ s) as [[|i l]| |c [|k l]|c] eqn:Ea; try (injection Hs as _ <-; by apply elem_of_nil in H).
    + destruct (exec_instr cf i ok s) as [s1 []]; [destruct l|]; injection Hs as _ <-; try (by apply elem_of_nil in H). by apply elem_of_list_singleton in H.
    + destruct HI as (j & Hj & El & P1 & P2 & _ & P4 & P5 & P6 & _).
      destruct (exec_kinstr cf k ok s) as [[[s1 o1] b]|] eqn:Ek; [|injection Hs as _ <-; by apply elem_of_nil in H].
      assert (OStopped ∉ o1) as Ho1. { intros Hin. by eapply exec_kinstr_calls in Hin as (_ & ? & _). }
      destruct b; [destruct l|].
      * assert (j = 8) as ->. { destruct j as [|[|[|[|[|[|[|[|[|j]]]]]]]]]; try discriminate El; done || lia. }
        injection El as ->. cbn [exec_kinstr] in Ek. injection Ek as <- <-. injection Hs as <- _.
        split; [|split; [by exists c|]].
        { unfold released. cbn. destruct P1 as [_ P1]; [lia|]. rewrite P1, P2, P4, P5, P6 by lia. done. }
        cbn [set_place set_auth db]. intros Hd Hst. destruct (HQ Hd Hst) as [_ HQ']. refine (HQ' _). intros Hin. by apply elem_of_list_singleton in Hin.
      * by injection Hs as _ <-.
      * injection Hs as _ <-. apply elem_of_app in H as [H|H]; [done|]. by apply elem_of_list_singleton in H.
Qed.
Lemma exec_join {S E O} (st : S -> E -> S * O) s h1 m h2 s' : exec st s h1 m -> exec st m h2 s' -> exec st s (h1 ++ h2) s'.
Proof. intros H1 H2. apply exec_app. by exists m. Qed.
(** All clusters are closed by turns of the reconcilers. *)
Lemma drain cf cs a : forall m h s c l, life cf cs a h s -> at_ s = Cleanup c (KWait :: l) -> db s = true -> stop_flag cf = true -> size (open_keys s) <= m ->
  exists h' s', exec (step cf) s h' s' /\ at_ s' = Cleanup c (KWait :: l) /\ db s' = true /\ all_closed s' = true /\ Forall (fun x => fst x <> ESignal /\ works (fst x)) h'.
Proof.
  induction m as [m IH] using lt_wf_ind. intros h s c l Hx Ha Hd Hst Hm. destruct (all_closed s) eqn:Ec.
  { exists [], s. repeat (split; [done || constructor|]). constructor. }
  assert (exists n d, clusters s !! n = Some d /\ is_open d = true) as (n & d & Hn & Ho).
  { unfold all_closed in Ec. apply bool_decide_eq_false in Ec. destruct (map_choose _ Ec) as (n & d & Hn). apply map_filter_lookup_Some in Hn as [? ?]. by exists n, d. }
  pose proof (pinv_life _ _ _ _ _ Hx) as HI. unfold pinv in HI. rewrite Ha in HI. destruct HI as (j & Hj & El & P1 & P2 & P3 & _).
  assert (j = 3) as ->. { destruct j as [|[|[|[|[|[|[|[|[|j]]]]]]]]]; try discriminate El; done || lia. }
  pose proof (qinv_life _ _ _ _ _ Hx) as [Q1 Q2]. unfold loaded in Q1. rewrite Ha in Q1, Q2. destruct (Q2 Hd Hst) as [Q3 _]. rewrite El in Q3. specialize (Q3 (proj2 (kprog_stop 3 Hj) (le_n 3))).
  assert (Hw : c_wanted d = false) by eauto. assert (Hq : n ∈ queued s) by eauto.
  destruct (step cf s (ETurn n true)) as [s1 o1] eqn:Es.
  assert (Ht : turn cf n d true s = (s1, o1)).
  { rewrite <- Es. unfold step, suspended. rewrite Ha, P3, Hd, bool_decide_eq_true_2 by (done || lia). by rewrite Hn. }
  assert (same_main s s1) as (E1 & _ & _ & _ & _ & _ & E7 & _) by (eapply not_main; eauto).
  destruct (turn_clusters _ _ _ _ _ _ _ Ht Hn) as (T1 & _ & d' & T3 & _ & T5 & _).
  assert (Hlt : size (open_keys s1) < size (open_keys s)).
  { apply subset_size. split.
    - intros m' (d0 & H1 & H2)%open_keys_spec. apply open_keys_spec. destruct (decide (m' = n)) as [->|]; [|rewrite T1 in H1 by done; by exists d0]. rewrite T3 in H1. injection H1 as <-. rewrite T5 in H2 by done. done.
    - intros Hsub. assert (n ∈ open_keys s1) as Hin. { apply Hsub, open_keys_spec. by exists d. } apply open_keys_spec in Hin as (d0 & H1 & H2). rewrite T3 in H1. injection H1 as <-. rewrite T5 in H2 by done. done. }
  destruct (IH (size (open_keys s1)) ltac:(lia) (h ++ [(ETurn n true, o1)]) s1 c l) as (h' & s' & R1 & R2 & R3 & R4 & R5); [|congruence|congruence|done|lia|].
  { eapply exec_join; [done|]. econstructor; [done|constructor]. }
  exists ((ETurn n true, o1) :: h'), s'. split; [by econstructor|]. repeat (split; [done|]). by constructor.
Qed.
Lemma can_end cf cs a : forall l h s c, life cf cs a h s -> at_ s = Cleanup c l ->
  exists h' s', exec (step cf) s h' s' /\ at_ s' = Exited c /\ Forall (fun x => fst x <> ESignal /\ works (fst x)) h'.
Proof.
  induction l as [|k l IH]; intros h s c Hx Ha.
  { pose proof (pinv_life _ _ _ _ _ Hx) as HI. unfold pinv in HI. rewrite Ha in HI. destruct HI as (j & Hj & El & _). exfalso. destruct j as [|[|[|[|[|[|[|[|[|j]]]]]]]]]; try discriminate El; lia. }
  assert (Hgo : forall h s, life cf cs a h s -> at_ s = Cleanup c (k :: l) -> exec_kinstr cf k true s <> None -> exists h' s', exec (step cf) s h' s' /\ at_ s' = Exited c /\ Forall (fun x => fst x <> ESignal /\ works (fst x)) h').
  { clear h s Hx Ha. intros h s Hx Ha Hk. destruct (exec_kinstr cf k true s) as [[[s1 o1] b]|] eqn:Ek; [|done].
    destruct (step cf s (EMain true)) as [s2 o2] eqn:Es. assert (exec (step cf) s [(EMain true, o2)] s2) as H1 by (econstructor; [done|constructor]).
    pose proof Es as Es'. unfold step in Es'. rewrite Ha, Ek in Es'. destruct b; [destruct l as [|k' l']|].
    - injection Es' as <- <-. eexists _, _. split; [exact H1|]. split; [done|]. by repeat constructor.
    - destruct (IH (h ++ [(EMain true, o2)]) s2 c) as (h' & s' & R1 & R2 & R3); [by eapply exec_join|by injection Es' as <- <-|].
      eexists _, s'. split; [by eapply exec_join|]. split; [done|]. apply Forall_app. split; [by repeat constructor|done].
    - injection Es' as <- <-. eexists _, _. split; [exact H1|]. split; [done|]. by repeat constructor. }
  destruct (exec_kinstr cf k true s) eqn:Ek; [apply (Hgo h s); [done|done|congruence]|].
  assert (k = KWait) as ->. { destruct k; cbn [exec_kinstr] in Ek; try done. - by destruct (_ && _). - by destruct (session s). }
  cbn [exec_kinstr] in Ek. destruct (db s) eqn:Ed; [|done]. destruct (stop_flag cf) eqn:Est; [|done].
  destruct (drain cf cs a (size (open_keys s)) h s c l Hx Ha Ed Est (le_n _)) as (h1 & s1 & R1 & R2 & R3 & R4 & R5).
  destruct (Hgo (h ++ h1) s1) as (h2 & s2 & U1 & U2 & U3); [by eapply exec_join|done| |].
  { cbn [exec_kinstr]. rewrite R4. cbn [negb]. by rewrite andb_false_r. }
  eexists (h1 ++ h2), s2. split; [by eapply exec_join|]. split; [done|]. by apply Forall_app.
Qed.

(** * What becomes of clusters *)
Lemma kstop_cluster s n c : clusters s !! n = Some c ->
  ((fun c => if is_open c then Cl (c_st c) false (c_app c) else c) <$> clusters s) !! n = Some (if is_open c then Cl (c_st c) false (c_app c) else c).
Proof. intros H. by rewrite lookup_fmap, H. Qed.
(** A step, seen from one cluster. *)
Lemma one_cluster cf s e s' o n c : step cf s e = (s', o) -> clusters s !! n = Some c ->
  clusters s' !! n = Some c \/
  (e = EStop n /\ clusters s' !! n = Some (Cl (c_st c) false (c_app c)) /\ is_open c = true) \/
  ((exists ok, e = EMain ok) /\ (exists code l, at_ s = Cleanup code (KStop :: l)) /\ stop_flag cf = true /\ is_open c = true /\ clusters s' !! n = Some (Cl (c_st c) false (c_app c))) \/
  (exists ok, e = ETurn n ok /\ db s = true /\ o = [OStart n (ready s)] /\ c_st c = Created /\ c_wanted c = true /\ exists c', clusters s' !! n = Some c' /\ is_open c' = true) \/
  (exists ok, e = ETurn n ok /\ db s = true /\ o = [OStop n (ready s)] /\ c_wanted c = false /\ is_open c = true /\ clusters s' !! n = Some (Cl Closed false (c_app c))).
Proof.
  intros H Hc. destruct e as [ok| |m ok|m|m|m]; unfold step in H.
  - destruct (at_ s) as [[|i l]| |code [|k l]|code] eqn:Ea; try (injection H as <- _; by left).
    + left. assert (HE : forall s1 b, exec_instr cf i ok s = (s1, b) -> clusters s1 = clusters s).
      { intros s1 b. destruct i; cbn [exec_instr]; intros E; try (by injection E as <- <-); try (destruct ok; by injection E as <- <-). destruct (ok || _); by injection E as <- <-. }
      destruct (exec_instr cf i ok s) as [s1 []]; [destruct l|]; injection H as <- _; cbn [set_place clusters]; by rewrite (HE _ _ eq_refl).
    + destruct (exec_kinstr cf k ok s) as [[[s1 o1] b]|] eqn:Ek; [|injection H as <- _; by left].
      assert (HE : clusters s1 !! n = Some c \/ (k = KStop /\ stop_flag cf = true /\ is_open c = true /\ clusters s1 !! n = Some (Cl (c_st c) false (c_app c)))).
      { destruct k; cbn [exec_kinstr] in Ek; try (injection Ek as <- <- <-; by left).
        - injection Ek as <- <- <-. destruct (db s); [|by left]. destruct (stop_flag cf); [|by left]. cbn [andb set_clusters clusters]. rewrite (kstop_cluster _ _ _ Hc). destruct (is_open c) eqn:Eo; [right|left]; done.
        - destruct (_ && _); [done|]. injection Ek as <- <- <-. by left.
        - destruct (_ && _); injection Ek as <- <- <-; by left.
        - destruct (session s); injection Ek as <- <- <-; by left. }
      assert (clusters s' = clusters s1) as -> by (destruct b; [destruct l|]; by injection H as <- _).
      destruct HE as [HE|(-> & H1 & H2 & H3)]; [by left|]. right. right. left. split; [by exists ok|]. split; [by exists code, l|]. done.
  - left. destruct (suspended cf s); [|by injection H as <- _]. destruct (at_ s); by injection H as <- _.
  - destruct (suspended cf s && reconcilers s && db s && bool_decide (m ∈ queued s)) eqn:E; [|injection H as <- _; by left]. apply andb_prop in E as [E _]. apply andb_prop in E as [_ Ed]. destruct (clusters s !! m) as [d|] eqn:Em; [|injection H as <- _; by left].
    destruct (decide (n = m)) as [->|Hne].
    + rewrite Hc in Em. injection Em as ->. unfold turn in H. destruct d as [[] [] ap]; cbn [c_st c_wanted c_app negb] in *.
      * destruct (ok && _); injection H as <- <-; right; right; right; left; exists ok; (repeat (split; [done|])); eexists; (split; [cbn; by rewrite lookup_insert|done]).
      * injection H as <- <-. right. right. right. right. exists ok. (repeat (split; [done|])). cbn. by rewrite lookup_insert.
      * injection H as <- <-. by left.
      * injection H as <- <-. right. right. right. right. exists ok. (repeat (split; [done|])). cbn. by rewrite lookup_insert.
      * injection H as <- <-. by left.
      * injection H as <- <-. by left.
    + left. destruct (turn_clusters _ _ _ _ _ _ _ H Em) as (T1 & _). by rewrite T1.
  - left. destruct (listening s && bool_decide (clusters s !! m = None) && _ && _) eqn:E; [|by injection H as <- _]. injection H as <- _. apply andb_prop in E as [E _]. apply andb_prop in E as [E _]. apply andb_prop in E as [_ E]. apply bool_decide_eq_true in E.
    cbn. rewrite lookup_insert_ne by congruence. done.
  - destruct (_ && _); [|injection H as <- _; by left]. destruct (clusters s !! m) as [d|] eqn:Em; [|injection H as <- _; by left]. destruct (is_open d) eqn:Eo; [|injection H as <- _; by left]. injection H as <- _.
    destruct (decide (n = m)) as [->|Hne]; [|left; cbn; by rewrite lookup_insert_ne]. rewrite Hc in Em. injection Em as ->. right. left. split; [done|]. cbn. by rewrite lookup_insert.
  - injection H as <- _. by left.
Qed.
(** What a step does to one application. *)
Lemma one_app cf s e s' o n : step cf s e = (s', o) -> n ∈ apps s -> e <> EDie n -> (forall r, OStop n r ∉ o) -> n ∈ apps s'.
Proof.
  intros H Hn He Ho. destruct e as [ok| |m ok|m|m|m]; unfold step in H.
  - destruct (at_ s) as [[|i l]| |code [|k l]|code] eqn:Ea; try (injection H as <- _; done).
    + assert (HE : forall s1 b, exec_instr cf i ok s = (s1, b) -> apps s1 = apps s).
      { intros s1 b. destruct i; cbn [exec_instr]; intros E; try (by injection E as <- <-); try (destruct ok; by injection E as <- <-). destruct (ok || _); by injection E as <- <-. }
      destruct (exec_instr cf i ok s) as [s1 []]; [destruct l|]; injection H as <- _; cbn [set_place apps]; by rewrite (HE _ _ eq_refl).
    + destruct (exec_kinstr cf k ok s) as [[[s1 o1] b]|] eqn:Ek; [|injection H as <- _; done].
      assert (HE : apps s1 = apps s).
      { destruct k; cbn [exec_kinstr] in Ek; try (injection Ek as <- <- <-; done).
        - injection Ek as <- <- <-. by destruct (_ && _).
        - destruct (_ && _); [done|]. by injection Ek as <- <- <-.
        - destruct (_ && _); by injection Ek as <- <- <-.
        - destruct (session s); by injection Ek as <- <- <-. }
      destruct b; [destruct l|]; injection H as <- _; cbn [set_place apps]; by rewrite HE.
  - destruct (suspended cf s); [|by injection H as <- _]. destruct (at_ s); by injection H as <- _.
  - destruct (_ && _); [|by injection H as <- _]. destruct (clusters s !! m) as [d|] eqn:Em; [|by injection H as <- _].
    unfold turn in H. destruct d as [[] [] ap]; cbn [c_st c_wanted c_app negb] in *; try (destruct (ok && _)); injection H as <- <-; cbn [set_clusters apps]; try done; try set_solver.
    all: try (destruct ap; cbn [andb]; try done); destruct (decide (n = m)) as [->|Hne]; try set_solver; exfalso; apply (Ho (ready s)); left.
  - destruct (_ && _); by injection H as <- _.
  - destruct (_ && _); [|by injection H as <- _]. destruct (clusters s !! m) as [d|]; [|by injection H as <- _]. destruct (is_open d); by injection H as <- _.
  - injection H as <- _. cbn. assert (n <> m) by congruence. set_solver.
Qed.
Lemma wanted_cause cf cs a h s n st ap : life cf cs a h s -> cs !! n = Some (Cl st true ap) -> st <> Closed ->
  exists c, clusters s !! n = Some c /\
  (c = Cl st true ap \/ happened (EStop n) h \/ (exists r, OStart n r ∈ outs h) \/ (stop_flag cf = true /\ (happened ESignal h \/ happened (EMain false) h))).
Proof.
  intros Hx Hc Hst. revert h s Hx. apply (exec_ind_r (step cf) (init cs a) (fun h s => exists c, clusters s !! n = Some c /\
  (c = Cl st true ap \/ happened (EStop n) h \/ (exists r, OStart n r ∈ outs h) \/ (stop_flag cf = true /\ (happened ESignal h \/ happened (EMain false) h))))).
  { exists (Cl st true ap). auto. }
  intros h s e o s' Hx (c & H1 & H2) Hs. setoid_rewrite happened_snoc. setoid_rewrite outs_snoc. setoid_rewrite elem_of_app.
  assert (Hmono : happened (EStop n) h \/ (exists r, OStart n r ∈ outs h) \/ (stop_flag cf = true /\ (happened ESignal h \/ happened (EMain false) h)) ->
    (happened (EStop n) h \/ EStop n = e) \/ (exists r, OStart n r ∈ outs h \/ OStart n r ∈ o) \/ stop_flag cf = true /\ ((happened ESignal h \/ ESignal = e) \/ happened (EMain false) h \/ EMain false = e)).
  { intros [?|[[r ?]|[? ?]]]; [auto| |tauto]. right. left. exists r. auto. }
  pose proof (one_cluster _ _ _ _ _ _ _ Hs H1) as [E|[(-> & E & _)|[([ok ->] & (code & l & Ea) & Hf & _ & E)|[(ok & -> & _ & -> & E1 & E2 & c' & E & _)|(ok & -> & _ & -> & E1 & E2 & E)]]]].
  - exists c. split; [done|]. destruct H2 as [H2|H2]; [by left|right; auto].
  - eexists. split; [done|]. auto.
  - eexists. split; [done|]. right. pose proof (exit_code _ _ _ _ _ Hx) as HX. rewrite Ea in HX. right. right. split; [done|]. destruct HX as [(_ & _ & ?)|(_ & ?)]; auto.
  - exists c'. split; [done|]. right. right. left. exists (ready s). right. left.
  - eexists. split; [done|]. destruct H2 as [->|H2]; [done|]. right. auto.
Qed.
Lemma running_kept cf cs a h s n : life cf cs a h s -> runs n cs a -> ~ happened (EStop n) h -> (stop_flag cf = false \/ (~ happened ESignal h /\ ~ happened (EMain false) h)) ->
  clusters s !! n = Some (Cl Submitted true true) /\ (forall r, OStop n r ∉ outs h /\ OStart n r ∉ outs h) /\ (~ happened (EDie n) h -> n ∈ apps s).
Proof.
  intros Hx [Hc Ha]. revert h s Hx. apply (exec_ind_r (step cf) (init cs a) (fun h s => ~ happened (EStop n) h -> (stop_flag cf = false \/ (~ happened ESignal h /\ ~ happened (EMain false) h)) ->
  clusters s !! n = Some (Cl Submitted true true) /\ (forall r, OStop n r ∉ outs h /\ OStart n r ∉ outs h) /\ (~ happened (EDie n) h -> n ∈ apps s))).
  { intros _ _. split; [done|]. split; [intros r; split; apply not_elem_of_nil|done]. }
  intros h s e o s' Hx IH Hs. rewrite !happened_snoc. intros Hn Hf. destruct IH as (I1 & I2 & I3); [tauto|tauto|].
  assert (Hc' : clusters s' !! n = Some (Cl Submitted true true)).
  { pose proof (one_cluster _ _ _ _ _ _ _ Hs I1) as [E|[(-> & E & _)|[([ok ->] & (code & l & Ea) & Hf' & _ & E)|[(ok & -> & _ & -> & E1 & E2 & c' & E & _)|(ok & -> & _ & -> & E1 & E2 & E)]]]]; [done|tauto| |done|done].
    exfalso. pose proof (exit_code _ _ _ _ _ Hx) as HX. rewrite Ea in HX. destruct Hf as [Hf|[Hf1 Hf2]]; [congruence|]. tauto. }
  assert (Ho : forall r, OStop n r ∉ o /\ OStart n r ∉ o).
  { assert (forall x, is_call x -> x ∈ o -> (forall r, x <> OStop n r /\ x <> OStart n r)) as HC.
    { intros x Hx1 Hx2 r. destruct (call_when _ _ _ _ _ _ Hs Hx2 Hx1) as (_ & _ & _ & m & ok & c & -> & Hm & _ & Ht & Hor).
      destruct (decide (m = n)) as [->|Hne]; [|destruct Hor as [-> | ->]; split; congruence]. rewrite I1 in Hm. injection Hm as <-. unfold turn in Ht. cbn in Ht. injection Ht as _ ->. by apply elem_of_nil in Hx2. }
    intros r. split; intros Hin; eapply HC in Hin as [? ?]; done. }
  split; [done|]. split; [intros r; rewrite outs_snoc, !not_elem_of_app; specialize (I2 r); specialize (Ho r); tauto|].
  intros Hd. eapply one_app; [done|apply I3; tauto| |intros r; apply Ho]. intros ->. tauto.
Qed.
Lemma before_db cf cs a h s : life cf cs a h s -> db s = false -> clusters s = cs /\ Forall (fun x => ~ is_call x) (outs h).
Proof.
  revert h s. apply (exec_ind_r (step cf) (init cs a) (fun h s => db s = false -> clusters s = cs /\ Forall (fun x => ~ is_call x) (outs h))); [split; [done|constructor]|].
  intros h s e o s' Hx IH Hs Hd. pose proof (pinv_life _ _ _ _ _ Hx) as HI.
  assert (Hl : listening s = true -> suspended cf s = true -> db s = true).
  { unfold pinv in HI. unfold suspended. destruct (at_ s) as [l| |c l|c] eqn:Ea; [|tauto| |done].
    - destruct HI as (k & Hk & _ & _ & _ & _ & _ & _ & _ & _ & _ & _ & HI). congruence.
    - destruct HI as (j & _ & _ & _ & _ & _ & _ & _ & _ & Hi & _ & Hi2). auto. }
  assert (Hd0 : db s = false /\ clusters s' = clusters s).
  { destruct e as [ok| |m ok|m|m|m]; unfold step in Hs.
    - destruct (at_ s) as [[|i l]| |code [|k l]|code] eqn:Ea; try (injection Hs as <- _; done).
      + assert (HE : forall s1 b, exec_instr cf i ok s = (s1, b) -> (db s1 = false -> db s = false) /\ clusters s1 = clusters s).
        { intros s1 b. destruct i; cbn [exec_instr]; intros E; try (by injection E as <- <-); try (destruct ok; by injection E as <- <-). destruct (ok || _); by injection E as <- <-. }
        destruct (exec_instr cf i ok s) as [s1 []]; [destruct l|]; injection Hs as <- _; cbn [set_place db clusters] in *; destruct (HE _ _ eq_refl) as [? ?]; auto.
      + destruct (exec_kinstr cf k ok s) as [[[s1 o1] b]|] eqn:Ek; [|injection Hs as <- _; done].
        assert (HE : db s1 = db s /\ (db s = false -> clusters s1 = clusters s)).
        { destruct k; cbn [exec_kinstr] in Ek; try (injection Ek as <- <- <-; done).
          - injection Ek as <- <- <-. destruct (db s) eqn:Ed; [|done]. cbn. destruct (stop_flag cf); done.
          - destruct (_ && _); [done|]. by injection Ek as <- <- <-.
          - destruct (_ && _); by injection Ek as <- <- <-.
          - destruct (session s); by injection Ek as <- <- <-. }
        destruct HE as [HE1 HE2]. destruct b; [destruct l|]; injection Hs as <- _; cbn [set_place db clusters] in *; rewrite HE1 in Hd; auto.
    - destruct (suspended cf s); [|by injection Hs as <- _]. destruct (at_ s); by injection Hs as <- _.
    - destruct (db s) eqn:Ed.
      + exfalso. assert (same_main s s') as (_ & _ & _ & _ & _ & _ & E & _). { eapply (not_main cf s (ETurn m ok)); [|done|done]. unfold step. rewrite Ed. exact Hs. } congruence.
      + rewrite andb_false_r in Hs. by injection Hs as <- _.
    - destruct (listening s) eqn:El; [|by injection Hs as <- _]. destruct (suspended cf s) eqn:Eu; [|rewrite andb_false_r in Hs; by injection Hs as <- _]. exfalso. destruct (_ && _); injection Hs as <- _; cbn in Hd; rewrite Hl in Hd; done.
    - destruct (listening s) eqn:El; [|by injection Hs as <- _]. destruct (suspended cf s) eqn:Eu; [|by injection Hs as <- _]. exfalso. assert (db s' = db s) as E; [|rewrite Hl in E; congruence]. cbn [andb] in Hs. destruct (clusters s !! m) as [d|]; [destruct (is_open d)|]; by injection Hs as <- _.
    - by injection Hs as <- _. }
  destruct Hd0 as [Hd0 Hcl]. destruct (IH Hd0) as [IH1 IH2]. split; [congruence|]. rewrite outs_snoc. apply Forall_app. split; [done|]. apply Forall_forall. intros x Hx1 Hx2. destruct (call_when _ _ _ _ _ _ Hs Hx1 Hx2) as (_ & _ & ? & _). congruence.
Qed.
Lemma closed_stays cf h : forall s s' n c, exec (step cf) s h s' -> clusters s !! n = Some c -> is_open c = false -> n ∈ apps s -> ~ happened (EDie n) h -> clusters s' !! n = Some c /\ n ∈ apps s'.
Proof.
  induction h as [|[e o] h IH]; intros s s' n c Hx Hc Ho Ha Hd; inversion Hx as [|? ? ? s1 ? ? Hs Hr]; subst; [done|].
  assert (~ happened (EDie n) h) by (intros Hh; apply Hd; right; exact Hh).
  assert (e <> EDie n) as He. { intros ->. apply Hd. left. }
  assert (clusters s1 !! n = Some c) as Hc1.
  { pose proof (one_cluster _ _ _ _ _ _ _ Hs Hc) as [E|[(-> & E & ?)|[([ok ->] & (code & l & Ea) & Hf' & ? & E)|[(ok & -> & _ & -> & E1 & E2 & c' & E & _)|(ok & -> & _ & -> & E1 & E2 & E)]]]]; [done|congruence|congruence| |congruence]. unfold is_open in Ho. by rewrite E1 in Ho. }
  eapply IH; [done|done|done| |done]. eapply one_app; [done|done|done|].
  intros r Hin. destruct (call_when _ _ _ _ _ _ Hs Hin I) as (_ & _ & _ & m & ok & d & -> & Hm & _ & Ht & Hor).
  assert (m = n) as -> by (destruct Hor; congruence). rewrite Hc in Hm. injection Hm as <-. unfold turn in Ht. unfold is_open in Ho. destruct (c_st c); [done|done|]. injection Ht as _ ->. by apply elem_of_nil in Hin.
Qed.
