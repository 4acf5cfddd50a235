(** Proofs for C145. *)
From Coq Require Import ZArith Lia.
From stdpp Require Import gmap list.
From Verif Require Import Trace Watch_Model Watch_Spec.
Open Scope Z_scope.

Global Instance output_eq : EqDecision output.
Proof. solve_decision. Defined.
Lemma seen_app h e o x : seen (h ++ [(e, o)]) x <-> seen h x \/ x ∈ o.
Proof. unfold seen. rewrite fmap_app, concat_app, elem_of_app. cbn. by rewrite app_nil_r. Qed.
Lemma done_app h e o x : done (h ++ [(e, o)]) x <-> done h x \/ x = e.
Proof. unfold done. rewrite fmap_app, elem_of_app. cbn. by rewrite elem_of_list_singleton. Qed.
Lemma seen_cons e o h x : seen ((e, o) :: h) x <-> x ∈ o \/ seen h x.
Proof. unfold seen. cbn. by rewrite elem_of_app. Qed.

Definition looping (q : request) : Prop := where_ q <> Preparing.
Record inv (h : history) (s : state) : Prop := {
  i_queues r : is_Some (queues s !! r) <-> is_Some (requests s !! r);
  i_open r : is_Some (requests s !! r) <-> seen h (Accepted r) /\ ~ seen h (Ended r);
  i_born r : seen h (Accepted r) \/ seen h (Streams r) \/ seen h (Ended r) -> (r < born s)%positive;
  i_group r : r ∈ group s -> exists q, requests s !! r = Some q /\ looping q;
  i_free r q : closed s = false -> requests s !! r = Some q -> cancelled q = false /\ (looping q -> r ∈ group s);
  i_shut r q : closed s = true -> requests s !! r = Some q -> looping q -> cancelled q = true /\ exists g, joining s = Some g /\ r ∈ g;
  i_closed : closed s = true <-> done h Shutdown;
  i_streams r : seen h (Streams r) -> seen h (Ended r) \/ exists q, requests s !! r = Some q /\ looping q;
  i_joined : closed s = true -> joining s = None -> seen h Stopped;
  i_join g r : joining s = Some g -> closed s = true /\ (r ∈ g -> seen h (Streams r));
  i_reg r : seen h (Streams r) -> seen h (Accepted r);
  i_loops r q : requests s !! r = Some q -> looping q -> seen h (Streams r)
}.
Lemma seen_nil x : ~ seen [] x.
Proof. unfold seen. cbn. apply not_elem_of_nil. Qed.
Lemma inv_init : inv [] init.
Proof.
  split; cbn; intros; try discriminate; try (by exfalso; eapply seen_nil).
  - rewrite !lookup_empty. split; intros [? H]; discriminate.
  - rewrite lookup_empty. split; [intros [? H]; discriminate|intros [H _]; by apply seen_nil in H].
  - destruct H as [H|[H|H]]; by apply seen_nil in H.
  - split; [discriminate|intros H; by apply elem_of_nil in H].
Qed.
Lemma inv_finish h s r e : inv h s -> is_Some (requests s !! r) -> e <> Shutdown -> inv (h ++ [(e, (finish r s).2)]) (finish r s).1.
Proof.
  intros I Hr He. pose proof (proj1 (i_open _ _ I r) Hr) as [Ha _]. cbn [finish fst snd].
  assert (forall x, seen (h ++ [(e, [Ended r])]) x <-> seen h x \/ x = Ended r) as Hs by (intros x; rewrite seen_app, elem_of_list_singleton; done).
  split; cbn [queues requests group closed joining born set_queues set_requests set_group].
  - intros x. destruct (decide (x = r)) as [->|Hx]; [rewrite !lookup_delete; split; intros [? H]; discriminate|rewrite !lookup_delete_ne by done; apply I].
  - intros x. rewrite !Hs. destruct (decide (x = r)) as [->|Hx].
    + rewrite lookup_delete. split; [intros [? H]; discriminate|tauto].
    + rewrite lookup_delete_ne by done. rewrite (i_open _ _ I x). split; intros [H1 H2]; (split; [|intros H]).
      * by left.
      * destruct H as [H|H]; [done|congruence].
      * destruct H1 as [H1|H1]; [done|discriminate].
      * apply H2. by left.
  - intros x. rewrite !Hs. intros H. destruct (decide (x = r)) as [->|Hx]; [apply (i_born _ _ I); by left|]. apply (i_born _ _ I). destruct H as [[H|H]|[[H|H]|[H|H]]]; try discriminate; try tauto. congruence.
  - intros x [H1 H2]%elem_of_difference. rewrite elem_of_singleton in H2. rewrite lookup_delete_ne by done. by apply (i_group _ _ I).
  - intros x q Hc Hx. apply lookup_delete_Some in Hx as [Hn Hx]. destruct (i_free _ _ I x q Hc Hx) as [F1 F2]. split; [done|]. intros L. apply elem_of_difference. split; [by apply F2|]. by rewrite elem_of_singleton.
  - intros x q Hc Hx. apply lookup_delete_Some in Hx as [Hn Hx]. by apply (i_shut _ _ I).
  - rewrite done_app. rewrite (i_closed _ _ I). split; [by left|intros [H|H]; [done|congruence]].
  - intros x. rewrite !Hs. intros [H|H]; [|discriminate]. destruct (decide (x = r)) as [->|Hx]; [left; by right|]. rewrite lookup_delete_ne by done. destruct (i_streams _ _ I x H) as [E|E]; [left; by left|by right].
  - intros Hc Hj. apply Hs. left. by apply (i_joined _ _ I).
  - intros g x Hg. destruct (i_join _ _ I g x Hg) as [F1 F2]. split; [done|]. intros H. apply Hs. left. by apply F2.
  - intros x. rewrite !Hs. intros [H|H]; [|discriminate]. left. by apply (i_reg _ _ I).
  - intros x q Hx L. apply lookup_delete_Some in Hx as [Hn Hx]. apply Hs. left. by eapply (i_loops _ _ I).
Qed.
Lemma inv_looped h s s' r q q' e o : inv h s -> requests s !! r = Some q -> closed s = false -> looping q' -> cancelled q' = false ->
  requests s' = <[r := q']> (requests s) -> (forall x, is_Some (queues s' !! x) <-> is_Some (queues s !! x)) -> group s' = {[r]} ∪ group s -> closed s' = false -> joining s' = joining s -> born s' = born s -> e <> Shutdown ->
  (forall x, x ∈ o -> x = Streams r \/ exists b, x = Sends r b) -> (looping q \/ Streams r ∈ o) -> inv (h ++ [(e, o)]) s'.
Proof.
  intros I Hr Hc Hl Hq Er Eq Eg Ec Ej Eb He Ho Hst. pose proof (proj1 (i_open _ _ I r) (mk_is_Some _ _ Hr)) as [Ha Hn].
  assert (forall x, (forall b, x <> Sends r b) -> x <> Streams r -> seen (h ++ [(e, o)]) x <-> seen h x) as Hs.
  { intros x H1 H2. rewrite seen_app. split; [intros [H|H]; [done|]|by left]. destruct (Ho x H) as [->|[b ->]]; [done|by destruct (H1 b)]. }
  assert (forall x, seen (h ++ [(e, o)]) (Streams x) -> seen h (Streams x) \/ x = r) as Ht.
  { intros x. rewrite seen_app. intros [H|H]; [by left|]. destruct (Ho _ H) as [[= ->]|[b Hb]]; [by right|discriminate]. }
  split; rewrite ?Er, ?Eg, ?Ec, ?Ej, ?Eb.
  - intros x. rewrite Eq, (i_queues _ _ I x). destruct (decide (x = r)) as [->|Hx]; [rewrite lookup_insert, Hr; split; eauto|by rewrite lookup_insert_ne].
  - intros x. rewrite !Hs by congruence. rewrite <- (i_open _ _ I x). destruct (decide (x = r)) as [->|Hx]; [rewrite lookup_insert, Hr; split; eauto|by rewrite lookup_insert_ne].
  - intros x. rewrite (Hs (Accepted x)), (Hs (Ended x)) by congruence. intros [H|[H|H]]; try (apply (i_born _ _ I); tauto). apply Ht in H as [H| ->]; apply (i_born _ _ I); tauto.
  - intros x [->%elem_of_singleton|H]%elem_of_union; [exists q'; by rewrite lookup_insert|]. destruct (decide (x = r)) as [->|Hx]; [exists q'; by rewrite lookup_insert|rewrite lookup_insert_ne by done; by apply (i_group _ _ I)].
  - intros x q0 _. destruct (decide (x = r)) as [->|Hx]; [rewrite lookup_insert; intros [= <-]; split; [done|intros _; apply elem_of_union_l; by apply elem_of_singleton]|]. rewrite lookup_insert_ne by done. intros Hx'. destruct (i_free _ _ I x q0 Hc Hx') as [F1 F2]. split; [done|]. intros L. apply elem_of_union_r. by apply F2.
  - discriminate.
  - rewrite done_app. split; [discriminate|]. intros [H|H]; [|congruence]. apply (i_closed _ _ I) in H. congruence.
  - intros x [H| ->]%Ht; [|right; exists q'; by rewrite lookup_insert]. destruct (decide (x = r)) as [->|Hx]; [right; exists q'; by rewrite lookup_insert|]. rewrite lookup_insert_ne by done. rewrite Hs by congruence. by apply (i_streams _ _ I).
  - discriminate.
  - intros g x Hj. destruct (i_join _ _ I g x Hj) as [F _]. congruence.
  - intros x. intros [H| ->]%Ht; rewrite Hs by congruence; [by apply (i_reg _ _ I)|done].
  - intros x q0. rewrite seen_app. destruct (decide (x = r)) as [->|Hx]; [intros _ _; destruct Hst as [L|L]; [left; by eapply (i_loops _ _ I)|by right]|]. rewrite lookup_insert_ne by done. intros H1 H2. left. by eapply (i_loops _ _ I).
Qed.
(** Events that neither request nor group takes part in. *)
Lemma inv_step me h s e s' o : inv h s -> step me s e = (s', o) -> inv (h ++ [(e, o)]) s'.
Proof.
  intros I E. destruct e as [l|r ok| | |]; cbn [step] in E.
  - (* Open *)
    unfold open in E. set (r := born s) in *.
    assert (~ seen h (Accepted r)) as N1 by (intros H; pose proof (i_born _ _ I r (or_introl H)); unfold r in *; lia).
    assert (~ seen h (Ended r)) as N2 by (intros H; pose proof (i_born _ _ I r (or_intror (or_intror H))); unfold r in *; lia).
    assert (requests s !! r = None) as N3 by (destruct (requests s !! r) eqn:H; [|done]; destruct (proj1 (i_open _ _ I r) (mk_is_Some _ _ H)); done).
    destruct (events_after s l) as [es|]; injection E as <- <-.
    + assert (forall x, seen (h ++ [(Open l, [Accepted r])]) x <-> seen h x \/ x = Accepted r) as Hs by (intros x; rewrite seen_app, elem_of_list_singleton; done).
      split; cbn [queues requests group closed joining born set_queues set_requests set_group set_born].
      * intros x. destruct (decide (x = r)) as [->|Hx]; [rewrite !lookup_insert; split; eauto|rewrite !lookup_insert_ne by done; apply I].
      * intros x. rewrite !Hs. destruct (decide (x = r)) as [->|Hx].
        -- rewrite lookup_insert. split; [|eauto]. intros _. split; [by right|intros [H|H]; [done|discriminate]].
        -- rewrite lookup_insert_ne by done. rewrite (i_open _ _ I x). split; intros [H1 H2]; (split; [|intros H]).
           ++ by left.
           ++ destruct H as [H|H]; [done|discriminate].
           ++ destruct H1 as [H1|H1]; [done|congruence].
           ++ apply H2. by left.
      * intros x. rewrite !Hs. intros H. destruct (decide (x = r)) as [->|Hx]; [unfold r; lia|]. assert (x < born s)%positive; [|lia]. apply (i_born _ _ I). destruct H as [[H|H]|[[H|H]|[H|H]]]; try discriminate; try tauto. congruence.
      * intros x H. destruct (i_group _ _ I x H) as (q & Hq & L). exists q. rewrite lookup_insert_ne; [done|]. intros <-. congruence.
      * intros x q Hc. destruct (decide (x = r)) as [->|Hx]; [rewrite lookup_insert; intros [= <-]; split; [done|by intros []]|rewrite lookup_insert_ne by done; by apply (i_free _ _ I)].
      * intros x q Hc. destruct (decide (x = r)) as [->|Hx]; [rewrite lookup_insert; intros [= <-] []; done|rewrite lookup_insert_ne by done; by apply (i_shut _ _ I)].
      * rewrite done_app. rewrite (i_closed _ _ I). split; [by left|intros [H|H]; [done|discriminate]].
      * intros x. rewrite !Hs. intros [H|H]; [|discriminate]. destruct (i_streams _ _ I x H) as [E|(q & E & L)]; [left; by left|right]. exists q. rewrite lookup_insert_ne; [done|]. intros <-. congruence.
      * intros Hc Hj. apply Hs. left. by apply (i_joined _ _ I).
      * intros g x Hg. destruct (i_join _ _ I g x Hg) as [F1 F2]. split; [done|]. intros H. apply Hs. left. by apply F2.
      * intros x. rewrite !Hs. intros [H|H]; [|discriminate]. left. by apply (i_reg _ _ I).
      * intros x q. rewrite Hs. destruct (decide (x = r)) as [->|Hx]; [rewrite lookup_insert; intros [= <-] []; done|]. rewrite lookup_insert_ne by done. intros H1 H2. left. by eapply (i_loops _ _ I).
    + assert (forall x, x <> Gone r -> seen (h ++ [(Open l, [Gone r])]) x <-> seen h x) as Hs by (intros x Hx; rewrite seen_app, elem_of_list_singleton; tauto).
      split; cbn [queues requests group closed joining born set_born]; intros; try rewrite !Hs in * by discriminate; try (by eapply I); try (by eapply (i_reg _ _ I)); try (by eapply (i_loops _ _ I)).
      * assert (r0 < born s)%positive by (by apply (i_born _ _ I)). lia.
      * rewrite done_app. rewrite (i_closed _ _ I). split; [by left|intros [H|H]; [done|discriminate]].
  - (* Turn *)
    unfold turn in E. destruct (requests s !! r) as [q|] eqn:Hr.
    + destruct (negb ok || cancelled q) eqn:Hk.
      { pose proof (inv_finish h s r (Turn r ok) I (mk_is_Some _ _ Hr) ltac:(discriminate)) as F. by rewrite E in F. }
      apply orb_false_iff in Hk as [_ Hk].
      destruct (closed s) eqn:Hc.
      { destruct (where_ q) eqn:Hw.
        - unfold enter in E. rewrite Hc in E. pose proof (inv_finish h s r (Turn r ok) I (mk_is_Some _ _ Hr) ltac:(discriminate)) as F. by rewrite E in F.
        - destruct (i_shut _ _ I r q Hc Hr) as [F _]; [unfold looping; congruence|congruence].
        - destruct (i_shut _ _ I r q Hc Hr) as [F _]; [unfold looping; congruence|congruence]. }
      assert (forall s1 s2 o2, requests s1 = requests s -> queues s1 = queues s -> group s1 = {[r]} ∪ group s -> closed s1 = closed s -> joining s1 = joining s -> born s1 = born s -> loop r s1 = (s2, o2) ->
        exists q', looping q' /\ cancelled q' = false /\ requests s2 = <[r := q']> (requests s) /\ (forall x, is_Some (queues s2 !! x) <-> is_Some (queues s !! x)) /\ group s2 = {[r]} ∪ group s /\ closed s2 = false /\ joining s2 = joining s /\ born s2 = born s /\ forall x, x ∈ o2 -> exists b, x = Sends r b) as HL.
      { intros s1 s2 o2 E1 E2 E3 E4 E5 E6 L. unfold loop in L. rewrite E2 in L.
        destruct (queues s !! r) as [[|b l]|] eqn:Hq; injection L as <- <-; eexists; split_and!; cbn; rewrite ?E1, ?E2; try reflexivity; try done; try congruence; try (intros x Hx; by apply elem_of_nil in Hx).
        - intros x. destruct (decide (x = r)) as [->|Hx]; [rewrite lookup_insert, Hq; split; eauto|by rewrite lookup_insert_ne].
        - intros x Hx. apply elem_of_list_singleton in Hx. eauto. }
      assert (looping q -> group s = {[r]} ∪ group s) as Hg.
      { intros L. pose proof (proj2 (i_free _ _ I r q Hc Hr) L) as G. apply set_eq. intros x. rewrite elem_of_union, elem_of_singleton. split; [by right|intros [->|H]; done]. }
      destruct (where_ q) eqn:Hw.
      * unfold enter in E. rewrite Hc in E. destruct (loop r (set_group _ s)) as [s2 o2] eqn:L. injection E as <- <-. destruct (HL (set_group (fun g => {[r]} ∪ g) s) _ _ eq_refl eq_refl eq_refl eq_refl eq_refl eq_refl L) as (q' & P1 & P2 & P3 & P4 & P5 & P6 & P7 & P8 & P9).
        eapply inv_looped; try done; [intros x [->|Hx]%elem_of_cons; [by left|right; by apply P9]|right; apply elem_of_cons; by left].
      * assert (looping q) as Lq by (unfold looping; congruence). destruct (HL s _ _ eq_refl eq_refl (Hg Lq) eq_refl eq_refl eq_refl E) as (q' & P1 & P2 & P3 & P4 & P5 & P6 & P7 & P8 & P9).
        eapply inv_looped; try done; [intros x Hx; right; by apply P9|by left].
      * assert (looping q) as Lq by (unfold looping; congruence). destruct (HL s _ _ eq_refl eq_refl (Hg Lq) eq_refl eq_refl eq_refl E) as (q' & P1 & P2 & P3 & P4 & P5 & P6 & P7 & P8 & P9).
        eapply inv_looped; try done; [intros x Hx; right; by apply P9|by left].
    + injection E as <- <-. assert (forall x, seen (h ++ [(Turn r ok, [])]) x <-> seen h x) as Hs by (intros x; rewrite seen_app, elem_of_nil; tauto).
      split; intros; rewrite ?Hs in *; try (by eapply I); try (by eapply (i_reg _ _ I)); try (by eapply (i_loops _ _ I)). rewrite done_app, (i_closed _ _ I). split; [by left|intros [H|H]; [done|discriminate]].
  - (* Append *)
    injection E as <- <-. assert (forall x, seen (h ++ [(Append, [])]) x <-> seen h x) as Hs by (intros x; rewrite seen_app, elem_of_nil; tauto).
    split; cbn [append_event queues requests group closed joining born]; intros; rewrite ?Hs in *; try (by eapply I); try (by eapply (i_reg _ _ I)); try (by eapply (i_loops _ _ I)).
    + rewrite lookup_fmap, fmap_is_Some. apply I.
    + rewrite done_app, (i_closed _ _ I). split; [by left|intros [H|H]; [done|discriminate]].
  - (* Shutdown *)
    unfold shutdown in E. destruct (closed s) eqn:Hc; injection E as <- <-.
    + assert (forall x, x <> Raised -> seen (h ++ [(Shutdown, [Raised])]) x <-> seen h x) as Hs by (intros x Hx; rewrite seen_app, elem_of_list_singleton; tauto).
      split; intros; try rewrite !Hs in * by discriminate; try (by eapply I); try (by eapply (i_reg _ _ I)); try (by eapply (i_loops _ _ I)). rewrite done_app. split; [by right|done].
    + assert (forall x, seen (h ++ [(Shutdown, [])]) x <-> seen h x) as Hs by (intros x; rewrite seen_app, elem_of_nil; tauto).
      assert (forall x, mark (group s) (requests s) !! x = (fun q => if bool_decide (x ∈ group s) then {| where_ := where_ q; cancelled := true |} else q) <$> requests s !! x) as Hm.
      { intros x. unfold mark. rewrite map_lookup_imap. by destruct (requests s !! x). }
      split; cbn [set_cancel set_requests queues requests group closed joining born]; intros; rewrite ?Hs in *.
      * rewrite Hm, fmap_is_Some. apply I.
      * rewrite Hm, fmap_is_Some. apply I.
      * by apply (i_born _ _ I).
      * destruct (i_group _ _ I r H) as (q & Hq & L). eexists. rewrite Hm, Hq. cbn. split; [done|]. by rewrite bool_decide_true.
      * discriminate.
      * rewrite Hm in H0. apply fmap_Some in H0 as (q0 & Hq & ->). destruct (i_free _ _ I r q0 Hc Hq) as [F1 F2].
        assert (looping q0) as L by (unfold looping in *; by destruct (bool_decide (r ∈ group s))). apply F2 in L. rewrite bool_decide_true by done. split; [done|eauto].
      * rewrite done_app. split; [by right|done].
      * destruct (i_streams _ _ I r H) as [H'|(q & Hq & L)]; [by left|right]. eexists. rewrite Hm, Hq. split; [done|]. unfold looping in *. by destruct (bool_decide (r ∈ group s)).
      * discriminate.
      * injection H as <-. split; [done|]. intros H. destruct (i_group _ _ I r H) as (q & Hq & L). by eapply (i_loops _ _ I).
      * by apply (i_reg _ _ I).
      * rewrite Hm in H. apply fmap_Some in H as (q0 & Hq & ->). eapply (i_loops _ _ I); [done|]. unfold looping in *. by destruct (bool_decide (r ∈ group s)).
  - (* Join *)
    unfold join in E. destruct (joining s) as [g|] eqn:Hj; [destruct (bool_decide _) eqn:Hb|]; injection E as <- <-.
    + apply bool_decide_eq_true in Hb. destruct (i_join _ _ I g (born s) Hj) as [Hc _].
      assert (forall x, x <> Stopped -> seen (h ++ [(Join, [Stopped])]) x <-> seen h x) as Hs by (intros x Hx; rewrite seen_app, elem_of_list_singleton; tauto).
      split; cbn [set_cancel set_group queues requests group closed joining born]; intros; try rewrite !Hs in * by discriminate; try (by eapply I); try (by eapply (i_reg _ _ I)); try (by eapply (i_loops _ _ I)).
      * congruence.
      * destruct (i_shut _ _ I r q Hc H0 H1) as (F1 & g' & F2 & F3). assert (g' = g) as -> by congruence. pose proof (Hb r F3) as N. cbn in N. congruence.
      * rewrite done_app, (i_closed _ _ I). split; [by left|intros [H|H]; [done|discriminate]].
      * rewrite seen_app. right. by apply elem_of_list_singleton.
    + assert (forall x, seen (h ++ [(Join, [])]) x <-> seen h x) as Hs by (intros x; rewrite seen_app, elem_of_nil; tauto).
      split; intros; rewrite ?Hs in *; try (by eapply I); try (by eapply (i_reg _ _ I)); try (by eapply (i_loops _ _ I)). rewrite done_app, (i_closed _ _ I). split; [by left|intros [H|H]; [done|discriminate]].
    + assert (forall x, seen (h ++ [(Join, [])]) x <-> seen h x) as Hs by (intros x; rewrite seen_app, elem_of_nil; tauto).
      split; intros; rewrite ?Hs in *; try (by eapply I); try (by eapply (i_reg _ _ I)); try (by eapply (i_loops _ _ I)). rewrite done_app, (i_closed _ _ I). split; [by left|intros [H|H]; [done|discriminate]].
Qed.
Lemma happens_inv me h s : happens me h s -> inv h s.
Proof. revert h s. apply exec_ind_r; [apply inv_init|]. intros h s e o s' _ I E. by eapply inv_step. Qed.

(** * After the shutdown has begun *)
Lemma closed_stays me s e s' o : step me s e = (s', o) -> closed s = true -> closed s' = true.
Proof.
  intros E Hc. destruct e as [l|r ok| | |]; cbn [step] in E.
  - unfold open in E. destruct (events_after s l); injection E as <- _; done.
  - unfold turn, enter, loop, finish in E. rewrite Hc in E. destruct (requests s !! r) as [q|]; [|by injection E as <- _]. destruct (negb ok || cancelled q); [by injection E as <- _|].
    destruct (where_ q), (queues s !! r) as [[|]|]; injection E as <- _; done.
  - injection E as <- _. done.
  - unfold shutdown in E. rewrite Hc in E. by injection E as <- _.
  - unfold join in E. destruct (joining s); [destruct (bool_decide _)|]; injection E as <- _; done.
Qed.
Lemma closed_turn me h s r ok s' o : inv h s -> closed s = true -> is_Some (requests s !! r) -> step me s (Turn r ok) = (s', o) -> s' = (finish r s).1 /\ o = [Ended r].
Proof.
  intros I Hc [q Hr] E. cbn [step] in E. unfold turn in E. rewrite Hr in E. destruct (negb ok || cancelled q) eqn:Hk; [by injection E as <- <-|]. apply orb_false_iff in Hk as [_ Hk].
  destruct (where_ q) eqn:Hw; [unfold enter in E; rewrite Hc in E; by injection E as <- <-|..]; destruct (i_shut _ _ I r q Hc Hr) as [F _]; [unfold looping; congruence|congruence| |congruence]; unfold looping; congruence.
Qed.
Lemma closed_quiet me h s e s' o x : inv h s -> closed s = true -> step me s e = (s', o) -> x ∈ o -> match x with Sends _ _ | Streams _ => False | _ => True end.
Proof.
  intros I Hc E Hx. destruct e as [l|r ok| | |].
  - cbn [step] in E. unfold open in E. destruct (events_after s l); injection E as _ <-; apply elem_of_list_singleton in Hx as ->; done.
  - destruct (requests s !! r) as [q|] eqn:Hr; [destruct (closed_turn _ _ _ _ _ _ _ I Hc (mk_is_Some _ _ Hr) E) as [_ ->]; apply elem_of_list_singleton in Hx as ->; done|].
    cbn [step] in E. unfold turn in E. rewrite Hr in E. injection E as _ <-. by apply elem_of_nil in Hx.
  - injection E as _ <-. by apply elem_of_nil in Hx.
  - cbn [step] in E. unfold shutdown in E. rewrite Hc in E. injection E as _ <-. apply elem_of_list_singleton in Hx as ->. done.
  - cbn [step] in E. unfold join in E. destruct (joining s); [destruct (bool_decide _)|]; injection E as _ <-; try (by apply elem_of_nil in Hx). apply elem_of_list_singleton in Hx as ->. done.
Qed.
Lemma exec_more me h s h2 s2 : happens me h s -> exec (step me) s h2 s2 -> happens me (h ++ h2) s2.
Proof. intros H1 H2. apply exec_app. eauto. Qed.
Lemma seen_more h h2 x : seen (h ++ h2) x <-> seen h x \/ seen h2 x.
Proof. unfold seen. by rewrite fmap_app, concat_app, elem_of_app. Qed.
Lemma quiet_after me h s h2 s2 x : happens me h s -> closed s = true -> exec (step me) s h2 s2 -> seen h2 x -> match x with Sends _ _ | Streams _ => False | _ => True end.
Proof.
  intros H Hc X. revert h H Hc. induction X as [s|s e o s1 h2 s2 E X IH]; intros h H Hc Hx; [by apply seen_nil in Hx|]. apply seen_cons in Hx as [Hx|Hx]; [by eapply closed_quiet; [eapply happens_inv| | |]|].
  apply (IH (h ++ [(e, o)])); [|by eapply closed_stays|done]. eapply exec_more; [done|]. econstructor; [done|constructor].
Qed.
(** A request whose turn comes is over. *)
Lemma turn_ends me h s h2 s2 r ok : happens me h s -> closed s = true -> exec (step me) s h2 s2 -> Turn r ok ∈ fst <$> h2 -> is_Some (requests s !! r) -> seen h2 (Ended r).
Proof.
  intros H Hc X. revert h H Hc. induction X as [s|s e o s1 h2 s2 E X IH]; intros h H Hc Ht Hr; [by apply elem_of_nil in Ht|]. cbn in Ht. apply elem_of_cons in Ht as [<-|Ht].
  - destruct (closed_turn _ _ _ _ _ _ _ (happens_inv _ _ _ H) Hc Hr E) as [_ ->]. apply seen_cons. left. by apply elem_of_list_singleton.
  - apply seen_cons. assert (happens me (h ++ [(e, o)]) s1) as H1 by (eapply exec_more; [done|]; econstructor; [done|constructor]).
    destruct (requests s1 !! r) as [q|] eqn:Hr1; [right; apply (IH (h ++ [(e, o)])); [done|by eapply closed_stays|done|by eexists]|].
    left. pose proof (happens_inv _ _ _ H) as I. pose proof (happens_inv _ _ _ H1) as I1. apply (i_open _ _ I) in Hr as [Ha Hn].
    destruct (decide (Ended r ∈ o)) as [D|D]; [done|exfalso]. assert (is_Some (requests s1 !! r)) as [? ?]; [|congruence]. apply (i_open _ _ I1). rewrite !seen_app. split; [by left|]. intros [F|F]; done.
Qed.
