(** Proofs for C56. *)
From Coq Require Import ZArith Lia.
From stdpp Require Import gmap.
From Verif Require Import Trace Report_Model Report_Spec.

Lemma names_in s n : n ∈ names s <-> here s n.
Proof.
  unfold names, here. rewrite elem_of_list_to_set, elem_of_list_fmap. split.
  - intros ([a n2] & -> & H). apply elem_of_map_to_list in H. eauto.
  - intros (a & H). exists (a, n). split; [done|]. by apply elem_of_map_to_list.
Qed.
Record Inv (h : history) (s : state) : Prop := {
  i_once : forall a b n, workers s !! a = Some n -> workers s !! b = Some n -> a = b;
  i_active : forall n, n ∈ active s <-> here s n;
  i_closed : forall n, n ∈ closed s <-> ever h n /\ ~ here s n;
  i_ever : forall n, here s n -> ever h n }.
Lemma ever_snoc h e o n : ever (h ++ [(e, o)]) n <-> ever h n \/ exists a b, (e, o) = (EAdded a n, ODid b).
Proof. unfold ever. setoid_rewrite elem_of_app. setoid_rewrite elem_of_list_singleton. split; [intros (a & b & [?|?]); eauto 6|intros [(a & b & ?)|(a & b & ->)]; eauto]. Qed.
Lemma inv_frame h s e s' o : Inv h s -> workers s' = workers s -> active s' = active s -> closed s' = closed s -> (forall a n b, (e, o) <> (EAdded a n, ODid b)) -> Inv (h ++ [(e, o)]) s'.
Proof.
  intros [H1 H2 H3 H4] E1 E2 E3 Hne. assert (Hh : forall n, here s' n <-> here s n) by (intros n; unfold here; by rewrite E1).
  assert (He : forall n, ever (h ++ [(e, o)]) n <-> ever h n) by (intros n; rewrite ever_snoc; split; [intros [?|(a & b & E)]; [done|by apply Hne in E]|by left]).
  constructor.
  - rewrite E1. done.
  - intros n. by rewrite E2, Hh.
  - intros n. by rewrite E3, Hh, He.
  - intros n. rewrite Hh, He. apply H4.
Qed.
Lemma inv_all lv h s : exec step (init lv) h s -> Inv h s.
Proof.
  revert h s. apply (exec_ind_r step (init lv) Inv).
  - constructor; unfold here, ever; cbn; try done.
    + intros n. split; [set_solver|]. intros (a & E). by rewrite lookup_empty in E.
    + intros n. split; [set_solver|]. intros ((a & b & E) & _). by apply elem_of_nil in E.
    + intros n (a & E). by rewrite lookup_empty in E.
  - intros h s e o s' _ HI Hs. unfold step in Hs. destruct (possible s e) eqn:Ep; cbn [negb] in Hs; [|injection Hs as <- <-; by apply (inv_frame h s)].
    destruct e as [a n|a|c|ch|ok|ok].
    + cbn in Ep. apply bool_decide_eq_true in Ep as [Ea En]. rewrite names_in in En. injection Hs as <- <-. destruct HI as [H1 H2 H3 H4].
      assert (Hh : forall m, here (State (live s) (count s) (<[a:=n]> (workers s)) ({[n]} ∪ active s) (closing s ∖ {[n]}) (closed s ∖ {[n]}) (hb s)) m <-> m = n \/ here s m).
      { intros m. unfold here. cbn. split.
        - intros (b & E). destruct (decide (b = a)) as [->|Hne]; [rewrite lookup_insert in E; injection E as ->; by left|]. rewrite lookup_insert_ne in E by done. eauto.
        - intros [->|(b & E)]; [exists a; by rewrite lookup_insert|]. exists b. rewrite lookup_insert_ne; [done|]. intros <-. congruence. }
      assert (He : forall b0 m, ever (h ++ [(EAdded a n, ODid b0)]) m <-> m = n \/ ever h m).
      { intros b0 m. rewrite ever_snoc. split; [intros [?|(b & b1 & [= <- <- <-])]; auto|intros [->|?]; eauto]. }
      constructor.
      * cbn. intros x y m. destruct (decide (x = a)) as [->|Hx], (decide (y = a)) as [->|Hy]; rewrite ?lookup_insert, ?lookup_insert_ne by done; try done.
        -- intros [= <-] E. exfalso. apply En. by exists y.
        -- intros E [= <-]. exfalso. apply En. by exists x.
        -- apply H1.
      * intros m. rewrite Hh. cbn. rewrite elem_of_union, elem_of_singleton, H2. done.
      * intros m. rewrite Hh, He. cbn. rewrite elem_of_difference, elem_of_singleton, H3. tauto.
      * intros m. rewrite Hh, He. intros [?|?]; auto.
    + destruct (workers s !! a) as [n|] eqn:Ea; [|injection Hs as <- <-; by apply (inv_frame h s)]. injection Hs as <- <-. destruct HI as [H1 H2 H3 H4].
      assert (Hh : forall m, here (State (live s) (count s) (delete a (workers s)) (active s ∖ {[n]}) (closing s ∖ {[n]}) ({[n]} ∪ closed s) (hb s)) m <-> m <> n /\ here s m).
      { intros m. unfold here. cbn. split.
        - intros (b & E). apply lookup_delete_Some in E as [Hne E]. split; [|eauto]. intros ->. apply Hne. by eapply H1.
        - intros (Hne & b & E). exists b. rewrite lookup_delete_ne; [done|]. intros <-. congruence. }
      assert (He : forall o m, ever (h ++ [(ERemoved a, o)]) m <-> ever h m).
      { intros o m. rewrite ever_snoc. split; [intros [?|(b & b1 & ?)]; done|by left]. }
      assert (Hn : ever h n) by (apply H4; by exists a).
      constructor.
      * cbn. intros x y m Ex Ey. apply lookup_delete_Some in Ex as [_ Ex], Ey as [_ Ey]. by eapply H1.
      * intros m. rewrite Hh. cbn. rewrite elem_of_difference, elem_of_singleton, H2. tauto.
      * intros m. rewrite Hh, He. cbn. rewrite elem_of_union, elem_of_singleton, H3. destruct (decide (m = n)) as [->|Hne]; tauto.
      * intros m. rewrite Hh, He. intros [_ ?]; auto.
    + injection Hs as <- <-; by apply (inv_frame h s).
    + destruct (hb s); injection Hs as <- <-; by apply (inv_frame h s).
    + destruct (hb s) as [|[|x c]|]; [injection Hs as <- <-; by apply (inv_frame h s)|destruct ok; injection Hs as <- <-; by apply (inv_frame h s)..|injection Hs as <- <-; by apply (inv_frame h s)].
    + destruct (hb s); try destruct ok; injection Hs as <- <-; by apply (inv_frame h s).
Qed.
Lemma message s e s' m : step s e = (s', OMsg m) -> exists choice, e = EBeat choice /\
  m_active m = active s ∖ list_to_set (m_closing m) /\ m_closed m = closed s /\ (forall n, n ∈ m_closing m -> here s n) /\ (m_closing m <> [] -> (count s < Z.of_nat (size (active s)))%Z /\ m_closing m = choice).
Proof.
  unfold step. destruct (possible s e) eqn:Ep; [cbn [negb]|done]. destruct e as [a n|a|c|ch|ok|ok]; intros Hs.
  - done.
  - by destruct (workers s !! a).
  - done.
  - destruct (hb s); try done. injection Hs as <- <-. exists ch. cbn [m_active m_closing m_closed]. split; [done|]. split; [done|]. split; [done|]. cbn in Ep. apply bool_decide_eq_true in Ep.
    destruct (Z.ltb_spec (count s) (Z.of_nat (size (active s)))).
    + split; [|auto]. intros n Hn. apply names_in, Ep. by apply elem_of_list_to_set.
    + split; [|done]. intros n Hn. by apply elem_of_nil in Hn.
  - destruct (hb s) as [|[|x c]|]; [done| | |done]; by destruct ok.
  - destruct (hb s); try done. by destruct ok.
Qed.
Lemma active_closing lv h s e s' m n : exec step (init lv) h s -> step s e = (s', OMsg m) -> n ∈ m_active m \/ n ∈ m_closing m <-> here s n.
Proof.
  intros Hx Hs. destruct (inv_all lv h s Hx) as [H1 H2 H3 H4]. destruct (message _ _ _ _ Hs) as (ch & -> & Ea & Ec & Hc & _).
  rewrite Ea, elem_of_difference, elem_of_list_to_set, H2. split; [intros [[? _]|?]; auto|]. intros Hh. destruct (decide (n ∈ m_closing m)); auto.
Qed.
Lemma closed_iff lv h s e s' m n : exec step (init lv) h s -> step s e = (s', OMsg m) -> n ∈ m_closed m <-> ever h n /\ ~ here s n.
Proof. intros Hx Hs. destruct (inv_all lv h s Hx) as [H1 H2 H3 H4]. destruct (message _ _ _ _ Hs) as (ch & -> & Ea & Ec & Hc & _). by rewrite Ec. Qed.
Lemma disjoint3 lv h s e s' m n : exec step (init lv) h s -> step s e = (s', OMsg m) ->
  ~ (n ∈ m_active m /\ n ∈ m_closing m) /\ ~ (n ∈ m_active m /\ n ∈ m_closed m) /\ ~ (n ∈ m_closing m /\ n ∈ m_closed m).
Proof.
  intros Hx Hs. pose proof (active_closing lv h s e s' m n Hx Hs) as H1. pose proof (closed_iff lv h s e s' m n Hx Hs) as H2. split_and!; try tauto.
  destruct (message _ _ _ _ Hs) as (ch & -> & Ea & _). rewrite Ea, elem_of_difference, elem_of_list_to_set. tauto.
Qed.
Lemma complete lv h s e s' m n : exec step (init lv) h s -> step s e = (s', OMsg m) -> ever h n -> n ∈ m_active m \/ n ∈ m_closing m \/ n ∈ m_closed m.
Proof.
  intros Hx Hs He. destruct (inv_all lv h s Hx) as [_ HA _ _]. pose proof (active_closing lv h s e s' m n Hx Hs) as H1. pose proof (closed_iff lv h s e s' m n Hx Hs) as H2.
  destruct (decide (n ∈ active s)) as [Hn|Hn]; rewrite HA in Hn; tauto.
Qed.
Lemma excess lv h s ch s' m : exec step (init lv) h s -> step s (EBeat ch) = (s', OMsg m) -> m_closing m <> [] -> exists l : list name, NoDup l /\ (forall n, n ∈ l <-> here s n) /\ (count s < Z.of_nat (length l))%Z.
Proof.
  intros Hx Hs Hne. destruct (inv_all lv h s Hx) as [_ HA _ _]. destruct (message _ _ _ _ Hs) as (ch2 & [= <-] & _ & _ & _ & Hc). destruct (Hc Hne) as [Hlt _].
  exists (elements (active s)). split_and!; [apply NoDup_elements| |done]. intros n. by rewrite elem_of_elements, HA.
Qed.

(** * Retirement *)
Lemma split_snoc {A} (h : list A) x h1 y h2 : h ++ [x] = h1 ++ y :: h2 -> (h2 = [] /\ h1 = h /\ y = x) \/ exists h3, h2 = h3 ++ [x] /\ h = h1 ++ y :: h3.
Proof.
  intros E. destruct h2 as [|z h2 _] using rev_ind.
  - apply app_inj_tail in E as [-> ->]. by left.
  - right. exists h2. rewrite app_comm_cons, app_assoc in E. apply app_inj_tail in E as [-> ->]. done.
Qed.
Lemma expected_snoc h e o n : expected (h ++ [(e, o)]) n <->
  (exists l, o = ORetire l /\ n ∈ l) \/ (expected h n /\ (forall a b, (e, o) <> (EAdded a n, ODid b)) /\ forall l, o = OFailed l -> n ∉ l).
Proof.
  split.
  - intros (h1 & e1 & l & h2 & E & Hn & H1 & H2). apply split_snoc in E as [(-> & -> & E)|(h3 & -> & ->)].
    + injection E as <- <-. left. eauto.
    + right. split; [exists h1, e1, l, h3; split; [done|]; split; [done|]; split|split].
      * intros a b H. apply (H1 a b), elem_of_app. by left.
      * intros e' l' H. apply (H2 e' l'), elem_of_app. by left.
      * intros a b E. apply (H1 a b), elem_of_app. right. rewrite E. by left.
      * intros l' ->. apply (H2 e l'), elem_of_app. right. by left.
  - intros [(l & -> & Hn)|((h1 & e1 & l & h2 & -> & Hn & H1 & H2) & H3 & H4)].
    + exists h, e, l, []. split; [done|]. split; [done|]. split; intros ? ? H; by apply elem_of_nil in H.
    + exists h1, e1, l, (h2 ++ [(e, o)]). split; [by rewrite <- app_assoc|]. split; [done|]. split.
      * intros a b [H|H]%elem_of_app; [by apply H1 in H|]. apply elem_of_list_singleton in H. by apply (H3 a b).
      * intros e' l' [H|H]%elem_of_app; [by eapply H2|]. apply elem_of_list_singleton in H. injection H as <- <-. by apply H4.
Qed.
Lemma unanswered_snoc h e o m : unanswered (h ++ [(e, o)]) m <-> o = OMsg m \/ (unanswered h m /\ (forall ok, e <> EAnswer ok) /\ forall m', o <> OMsg m').
Proof.
  split.
  - intros (h1 & e1 & h2 & E & H). apply split_snoc in E as [(-> & -> & E)|(h3 & -> & ->)].
    + injection E as <- <-. by left.
    + right. split; [|apply (H e o), elem_of_app; right; by left]. exists h1, e1, h3. split; [done|]. intros e' o' Hin. apply H, elem_of_app. by left.
  - intros [->|((h1 & e1 & h2 & -> & H) & H2)].
    + exists h, e, []. split; [done|]. intros ? ? Hin. by apply elem_of_nil in Hin.
    + exists h1, e1, (h2 ++ [(e, o)]). split; [by rewrite <- app_assoc|]. intros e' o' [Hin|Hin]%elem_of_app; [by apply H|].
      apply elem_of_list_singleton in Hin. injection Hin as <- <-. done.
Qed.
Record Inv2 (h : history) (s : state) : Prop := {
  j_send : match hb s with HSending c => (exists m, unanswered h m) /\ forall m, unanswered h m -> m_closing m = c | _ => forall m, ~ unanswered h m end;
  j_expected : forall n, here s n -> n ∈ closing s <-> expected h n }.
Lemma inv2_quiet h s e o s' : Inv2 h s -> hb s' = hb s -> closing s' = closing s -> workers s' = workers s -> (forall ok, e <> EAnswer ok) -> o = ONone -> Inv2 (h ++ [(e, o)]) s'.
Proof.
  intros [H1 H2] E1 E2 E3 He ->. constructor.
  - rewrite E1. assert (forall m, unanswered (h ++ [(e, ONone)]) m <-> unanswered h m) as Hu.
    { intros m. rewrite unanswered_snoc. split; [intros [?|[? _]]; done|]. intros ?. right. done. }
    destruct (hb s); [intros m; rewrite Hu; apply H1| |intros m; rewrite Hu; apply H1]. setoid_rewrite Hu. done.
  - intros n Hn. rewrite E2, expected_snoc, H2 by (unfold here in *; by rewrite <- E3). split; [intros ?; by right|]. intros [(l & ? & _)|[? _]]; done.
Qed.
Lemma here_same s s' n : workers s' = workers s -> here s' n -> here s n. Proof. unfold here. by intros ->. Qed.
Lemma inv2_all lv h s : exec step (init lv) h s -> Inv2 h s.
Proof.
  intros Hx. cut (Inv h s /\ Inv2 h s); [tauto|]. revert h s Hx. apply (exec_ind_r step (init lv) (fun h s => Inv h s /\ Inv2 h s)).
  - split; [apply (inv_all lv), exec_nil|]. constructor.
    + cbn. intros m (h1 & e & h2 & E & _). by destruct h1.
    + intros n (a & E). cbn in E. by rewrite lookup_empty in E.
  - intros h s e o s' Hx [HI HJ] Hs. split; [apply (inv_all lv), (exec_app step); exists s; split; [done|]; econstructor; [exact Hs|constructor]|].
    unfold step in Hs. destruct (possible s e) eqn:Ep; cbn [negb] in Hs.
    2:{ injection Hs as <- <-. destruct e as [a n|a|c|ch|ok|ok]; try discriminate Ep; by eapply (inv2_quiet h s). }
    destruct e as [a n|a|c|ch|ok|ok].
    + cbn in Ep. apply bool_decide_eq_true in Ep as [Ea En]. rewrite names_in in En. injection Hs as <- <-. destruct HJ as [H1 H2].
      set (b := Z.ltb _ _).
      constructor; cbn [hb closing].
      * assert (forall m, unanswered (h ++ [(EAdded a n, ODid b)]) m <-> unanswered h m) as Hu.
        { intros m. rewrite unanswered_snoc. split; [intros [?|[? _]]; done|]. intros ?. right. done. }
        destruct (hb s); [intros m; rewrite Hu; apply H1| |intros m; rewrite Hu; apply H1]. setoid_rewrite Hu. done.
      * intros m (a' & Em). cbn in Em. rewrite expected_snoc, elem_of_difference, elem_of_singleton. destruct (decide (m = n)) as [->|Hne].
        -- split; [tauto|]. intros [(l & ? & _)|(_ & H & _)]; [done|]. by destruct (H a b).
        -- assert (here s m) as Hm. { exists a'. destruct (decide (a' = a)) as [->|]; [rewrite lookup_insert in Em; congruence|by rewrite lookup_insert_ne in Em]. }
           rewrite (H2 m Hm). split.
           ++ intros [? _]. right. split; [done|]. split; [|done]. intros a2 b2 [= -> ->]. done.
           ++ intros [(l & ? & _)|[? _]]; [done|]. split; done.
    + destruct (workers s !! a) as [n|] eqn:Ea; [|injection Hs as <- <-; by eapply (inv2_quiet h s)]. injection Hs as <- <-. destruct HJ as [H1 H2].
      set (b := if decide _ then _ else _).
      constructor; cbn [hb closing].
      * assert (forall m, unanswered (h ++ [(ERemoved a, ODid b)]) m <-> unanswered h m) as Hu.
        { intros m. rewrite unanswered_snoc. split; [intros [?|[? _]]; done|]. intros ?. right. done. }
        destruct (hb s); [intros m; rewrite Hu; apply H1| |intros m; rewrite Hu; apply H1]. setoid_rewrite Hu. done.
      * intros m (a' & Em). cbn in Em. apply lookup_delete_Some in Em as [Hne Em]. assert (m <> n) as Hmn by (intros ->; apply Hne; by eapply (i_once _ _ HI)).
        rewrite expected_snoc, elem_of_difference, elem_of_singleton, (H2 m) by (by exists a'). split.
        -- intros [? _]. right. done.
        -- intros [(l & ? & _)|[? _]]; [done|]. split; done.
    + injection Hs as <- <-. by eapply (inv2_quiet h s).
    + destruct (hb s) eqn:Eh; [|injection Hs as <- <-; by eapply (inv2_quiet h s)..]. injection Hs as <- <-. destruct HJ as [H1 H2]. rewrite Eh in H1.
      set (c := if Z.ltb _ _ then _ else _). constructor; cbn [hb closing].
      * split; [eexists; apply unanswered_snoc; by left|]. intros m [E|[H _]]%unanswered_snoc; [injection E as <-; done|]. by destruct (H1 m).
      * intros n Hn. rewrite expected_snoc, (H2 n) by (eapply here_same; [|exact Hn]; done). split; [intros ?; by right|]. intros [(l & ? & _)|[? _]]; done.
    + assert (forall ok o m, (forall m', o <> OMsg m') -> ~ unanswered (h ++ [(EAnswer ok, o)]) m) as Hno.
      { intros ok' o' m Hm [E|(_ & H & _)]%unanswered_snoc; [by apply (Hm m)|]. by destruct (H ok'). }
      destruct (hb s) as [|c|c] eqn:Eh.
      * injection Hs as <- <-. destruct HJ as [H1 H2]. constructor; [rewrite Eh; intros m; by apply Hno|]. intros n Hn. rewrite expected_snoc, (H2 n Hn). split; [intros ?; by right|]. intros [(l & ? & _)|[? _]]; done.
      * assert (forall s1 o1, hb s1 = HIdle -> closing s1 = closing s -> workers s1 = workers s -> o1 = ONone -> Inv2 (h ++ [(EAnswer ok, o1)]) s1) as Hidle.
        { intros s1 o1 E1 E2 E3 ->. destruct HJ as [H1 H2]. constructor; [rewrite E1; intros m; by apply Hno|].
          intros n Hn. rewrite E2, expected_snoc, (H2 n) by (eapply here_same; [|exact Hn]; done). split; [intros ?; by right|]. intros [(l & ? & _)|[? _]]; done. }
        destruct ok; [|injection Hs as <- <-; by apply Hidle]. destruct c as [|x c]; [injection Hs as <- <-; by apply Hidle|]. injection Hs as <- <-. destruct HJ as [H1 H2].
        constructor; cbn [hb closing]; [intros m; by apply Hno|].
        intros n Hn. change ({[x]} ∪ list_to_set c) with (list_to_set (x :: c) : gset name). rewrite expected_snoc, elem_of_union, elem_of_list_to_set, (H2 n) by (eapply here_same; [|exact Hn]; done). split.
        -- intros [?|?]; [by right|left]. eauto.
        -- intros [(l & [= <-] & ?)|[? _]]; auto.
      * injection Hs as <- <-. destruct HJ as [H1 H2]. constructor; [rewrite Eh; intros m; by apply Hno|]. intros n Hn. rewrite expected_snoc, (H2 n Hn). split; [intros ?; by right|]. intros [(l & ? & _)|[? _]]; done.
    + destruct (hb s) as [|c|c] eqn:Eh; [injection Hs as <- <-; by eapply (inv2_quiet h s)..|].
      assert (forall o m, (forall m', o <> OMsg m') -> ~ unanswered (h ++ [(ERetired ok, o)]) m) as Hno.
      { intros o' m Hm [E|(H & _)]%unanswered_snoc; [by apply (Hm m)|]. pose proof (j_send _ _ HJ) as H1. rewrite Eh in H1. by apply (H1 m). }
      destruct HJ as [H1 H2]. destruct ok; injection Hs as <- <-; constructor; cbn [hb closing]; try (intros m; by apply Hno).
      * intros n Hn. rewrite expected_snoc, (H2 n) by (eapply here_same; [|exact Hn]; done). split; [intros ?; by right|]. intros [(l & ? & _)|[? _]]; done.
      * intros n Hn. rewrite expected_snoc, elem_of_difference, elem_of_list_to_set, (H2 n) by (eapply here_same; [|exact Hn]; done). split.
        -- intros [? ?]. right. split; [done|]. split; [done|]. intros l [= <-]. done.
        -- intros [(l & ? & _)|(? & _ & H)]; [done|]. split; [done|]. by apply H.
Qed.
Lemma retire_exact lv h s e s' o l : exec step (init lv) h s -> step s e = (s', o) ->
  o = ORetire l <-> e = EAnswer true /\ l <> [] /\ exists m, unanswered h m /\ m_closing m = l.
Proof.
  intros Hx Hs. pose proof (j_send _ _ (inv2_all lv h s Hx)) as HJ. unfold step in Hs. destruct (possible s e) eqn:Ep; cbn [negb] in Hs.
  2:{ injection Hs as <- <-. split; [done|]. intros (-> & _). done. }
  destruct e as [a n|a|c|ch|ok|ok].
  - injection Hs as <- <-. split; [done|]. by intros (? & _).
  - destruct (workers s !! a); injection Hs as <- <-; (split; [done|]); by intros (? & _).
  - injection Hs as <- <-. split; [done|]. by intros (? & _).
  - destruct (hb s); injection Hs as <- <-; (split; [done|]); by intros (? & _).
  - destruct (hb s) as [|c|c].
    + injection Hs as <- <-. split; [done|]. intros (_ & _ & m & Hm & _). by destruct (HJ m).
    + destruct HJ as [[m Hm] HJ]. destruct ok; [|injection Hs as <- <-; split; [done|]; by intros (? & _)]. destruct c as [|x c]; injection Hs as <- <-.
      * split; [done|]. intros (_ & Hne & m' & Hm' & E). by rewrite (HJ m' Hm') in E.
      * split; [intros [= <-]; split; [done|]; split; [done|]; exists m; auto|]. intros (_ & _ & m' & Hm' & <-). by rewrite (HJ m' Hm').
    + injection Hs as <- <-. split; [done|]. intros (_ & _ & m & Hm & _). by destruct (HJ m).
  - destruct (hb s); try destruct ok; injection Hs as <- <-; (split; [done|]); by intros (? & _).
Qed.
Lemma live_const lv h s : exec step (init lv) h s -> live s = lv.
Proof.
  revert h s. apply (exec_ind_r step (init lv) (fun h s => live s = lv)); [done|]. intros h s e o s' _ IH Hs. unfold step in Hs.
  destruct (possible s e); cbn [negb] in Hs; [|by injection Hs as <- <-].
  destruct e as [a n|a|c|ch|ok|ok]; [by injection Hs as <- <-|destruct (workers s !! a); by injection Hs as <- <-|by injection Hs as <- <-|destruct (hb s); by injection Hs as <- <-| |].
  - destruct (hb s) as [|[|x c]|]; try destruct ok; by injection Hs as <- <-.
  - destruct (hb s); try destruct ok; by injection Hs as <- <-.
Qed.
Lemma removed_soon lv h s a n s' b : exec step (init lv) h s -> step s (ERemoved a) = (s', ODid b) -> workers s !! a = Some n ->
  b = true <-> lv = true /\ ~ expected h n.
Proof.
  intros Hx Hs Ha. assert (here s n) as Hn by (by exists a). rewrite <- (j_expected _ _ (inv2_all lv h s Hx) n Hn), <- (live_const lv h s Hx).
  unfold step in Hs. destruct (possible s (ERemoved a)); cbn [negb] in Hs; [|done]. rewrite Ha in Hs. injection Hs as _ <-. case_decide; [|tauto]. split; [done|]. tauto.
Qed.
Lemma added_soon lv h s a n s' b : exec step (init lv) h s -> step s (EAdded a n) = (s', ODid b) ->
  exists l : list name, NoDup l /\ (forall m, m ∈ l <-> here s' m) /\ (b = true <-> (count s < Z.of_nat (length l))%Z).
Proof.
  intros Hx Hs. assert (exec step (init lv) (h ++ [(EAdded a n, ODid b)]) s') as Hx' by (apply exec_app; exists s; split; [done|]; econstructor; [exact Hs|constructor]).
  destruct (inv_all lv _ _ Hx') as [_ HA _ _]. exists (elements (active s')). split_and!; [apply NoDup_elements|intros m; by rewrite elem_of_elements, HA|].
  unfold step in Hs. destruct (possible s (EAdded a n)); cbn [negb] in Hs; [|done]. injection Hs as <- <-. cbn [active]. rewrite Z.ltb_lt. done.
Qed.
