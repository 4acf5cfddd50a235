(** What becomes of the objects of a program. *)
From Coq Require Import Lia.
From stdpp Require Import prelude.
From Verif Require Import Quit_Model.
Local Open Scope nat_scope.

Lemma run_snoc es e : run (es ++ [e]) = step (run es) e.
Proof. unfold run. by rewrite fold_left_app. Qed.
Lemma run_app es es' : run (es ++ es') = fold_left step es' (run es).
Proof. unfold run. by rewrite fold_left_app. Qed.
Lemma in_instances_iff s i : i ∈ instances s <-> exists o, s_objects s !! i = Some o /\ o_held o = true /\ o_health o <> Closed.
Proof.
  unfold instances. rewrite elem_of_list_In, filter_In, <- elem_of_list_In, elem_of_seq. unfold in_instances. split.
  - intros [_ H]. destruct (s_objects s !! i) as [o|]; [|done]. exists o. apply andb_true_iff in H as [H1 H2].
    split; [done|]. split; [done|]. by destruct (o_health o).
  - intros (o & Ho & H1 & H2). rewrite Ho, H1. apply lookup_lt_Some in Ho. split; [lia|]. by destruct (o_health o).
Qed.
Lemma instances_nodup s : NoDup (instances s).
Proof. unfold instances. apply NoDup_ListNoDup, List.NoDup_filter, seq_NoDup. Qed.

(** Closing leaves the other objects alone and only adds asks. *)
Lemma close_other s i sd j : i <> j -> s_objects (close s i sd) !! j = s_objects s !! j.
Proof.
  intros H. unfold close. destruct (s_objects s !! i) as [o|]; [|done]. destruct (o_health o); [done|..].
  all: destruct (o_async o); [cbn; by rewrite list_lookup_insert_ne|]; try done.
  destruct (o_loop o); [|done]. cbn. by rewrite list_lookup_insert_ne.
Qed.
Lemma close_asks s i sd : exists l, s_asks (close s i sd) = s_asks s ++ l.
Proof.
  unfold close. destruct (s_objects s !! i) as [o|]; [|exists []; by rewrite app_nil_r].
  destruct (o_health o); [exists []; by rewrite app_nil_r|..].
  all: destruct (o_async o); [by eexists|]; try (exists []; by rewrite app_nil_r).
  destruct (o_loop o); [by eexists|exists []; by rewrite app_nil_r].
Qed.
Lemma cleanup_asks s order : exists l, s_asks (cleanup s order) = s_asks s ++ l.
Proof.
  revert s. induction order as [|i order IH]; intros s; [exists []; by rewrite app_nil_r|]. cbn [cleanup].
  assert (K : exists l, s_asks (cleanup (close s i None) order) = s_asks s ++ l).
  { destruct (IH (close s i None)) as [l ->]. destruct (close_asks s i None) as [l' ->]. exists (l' ++ l). by rewrite app_assoc. }
  destruct (s_objects s !! i) as [o|]; [|apply IH].
  destruct (o_health o); [exists []; by rewrite app_nil_r|..]; (destruct (o_async o); [apply IH|exact K]).
Qed.
(** The object [o] that is up: closing it asks. *)
Lemma close_up s i o n : s_objects s !! i = Some o -> o_health o = Up -> o_async o = false -> o_soc o = true -> o_loop o = true -> o_name o = Some n ->
  (i, n) ∈ s_asks (close s i None).
Proof.
  intros Ho Hh Ha Hs Hl Hn. unfold close. rewrite Ho, Hh, Ha, Hl. cbn. rewrite Hs, Hn. apply elem_of_app. right. left.
Qed.
Lemma cleanup_up order : forall s i o n, NoDup order -> (forall j x, j ∈ order -> s_objects s !! j = Some x -> o_health x <> Broken) -> i ∈ order ->
  s_objects s !! i = Some o -> o_health o = Up -> o_async o = false -> o_soc o = true -> o_loop o = true -> o_name o = Some n ->
  (i, n) ∈ s_asks (cleanup s order).
Proof.
  induction order as [|j order IH]; intros s i o n Hd Hb Hi Ho Hh Ha Hs Hl Hn; [by apply elem_of_nil in Hi|].
  apply NoDup_cons in Hd as [Hj Hd]. cbn [cleanup]. destruct (decide (i = j)) as [<- |Hne].
  - rewrite Ho, Hh, Ha. destruct (cleanup_asks (close s i None) order) as [l ->].
    apply elem_of_app. left. eapply close_up; eassumption.
  - assert (Hi' : i ∈ order) by (apply elem_of_cons in Hi as [?|?]; done).
    assert (K : (i, n) ∈ s_asks (cleanup (close s j None) order)).
    { apply (IH _ i o n); try done; [|by rewrite close_other]. intros k x Hk Hx.
      rewrite close_other in Hx by (intros ->; done). apply (Hb k x); [by right|done]. }
    assert (K' : (i, n) ∈ s_asks (cleanup s order)).
    { apply (IH _ i o n); try done. intros k x Hk Hx. apply (Hb k x); [by right|done]. }
    destruct (s_objects s !! j) as [x|] eqn:Ex; [|done].
    pose proof (Hb j x ltac:(left) Ex) as Hx. destruct (o_health x); [done|..]; destruct (o_async x); done.
Qed.
(** What is not closed or dropped stays. *)
Lemma step_keeps s e i o : s_objects s !! i = Some o -> (forall sd, e <> Close i sd) -> e <> Drop i -> (forall order, e <> Exit order) ->
  s_objects (step s e) !! i = Some o /\ s_over (step s e) = s_over s.
Proof.
  intros Ho Hc Hd He. unfold step. destruct (s_over s) eqn:Ev; [done|]. destruct e as [a b c r|j sd|j|order].
  - cbn. split; [|done]. by apply lookup_app_l_Some.
  - assert (j <> i) by (intros ->; by apply (Hc sd)). rewrite close_other by done. split; [done|].
    unfold close. destruct (s_objects s !! j) as [x|]; [|done]. destruct (o_health x), (o_async x), (o_loop x); done.
  - assert (j <> i) by (intros ->; done). unfold drop. destruct (s_objects s !! j) as [x|] eqn:Ex; [|done].
    destruct (o_held x); [|done]. cbn. split.
    + rewrite list_lookup_alter_ne by done. destruct (o_health x); [done|..]; (destruct (o_async x); [done|]); by rewrite close_other.
    + assert (E : s_over (close s j None) = false).
      { unfold close. rewrite Ex. destruct (o_health x), (o_async x), (o_loop x); done. }
      destruct (o_health x), (o_async x); done.
  - by destruct (He order).
Qed.
Lemma steps_keep es : forall s i o, s_objects s !! i = Some o ->
  (forall sd, Close i sd ∉ es) -> Drop i ∉ es -> (forall order, Exit order ∉ es) ->
  s_objects (fold_left step es s) !! i = Some o /\ s_over (fold_left step es s) = s_over s.
Proof.
  induction es as [|e es IH]; intros s i o Ho Hc Hd He; [done|]. cbn [fold_left].
  destruct (step_keeps s e i o Ho) as [H1 H2].
  - intros sd ->. apply (Hc sd). left.
  - intros ->. apply Hd. left.
  - intros order ->. apply (He order). left.
  - destruct (IH (step s e) i o H1) as [H3 H4].
    + intros sd H. apply (Hc sd). by right.
    + intros H. apply Hd. by right.
    + intros order H. apply (He order). by right.
    + split; [done|]. by rewrite H4.
Qed.
Lemma over_exit es : s_over (run es) = true -> exists order, Exit order ∈ es.
Proof.
  induction es as [|e es IH] using rev_ind; [done|]. rewrite run_snoc. unfold step.
  destruct (s_over (run es)) eqn:E.
  - intros _. destruct (IH eq_refl) as [order H]. exists order. apply elem_of_app. by left.
  - destruct e as [a b c r|j sd|j|order]; cbn.
    + done.
    + unfold close. destruct (s_objects (run es) !! j) as [x|]; [|congruence]. destruct (o_health x), (o_async x), (o_loop x); cbn; congruence.
    + unfold drop. destruct (s_objects (run es) !! j) as [x|] eqn:Ex; [|congruence]. destruct (o_held x); [|congruence]. cbn.
      assert (K : s_over (close (run es) j None) = false).
      { unfold close. rewrite Ex. destruct (o_health x), (o_async x), (o_loop x); done. }
      destruct (o_health x), (o_async x); congruence.
    + intros _. exists order. apply elem_of_app. right. left.
Qed.
(** Who is asked for, and how often. *)
Definition count (i : nat) (l : list (nat * nat)) : nat := length (List.filter (fun p => p.1 =? i) l).
Arguments count : simpl never.
Lemma count_app i l l' : count i (l ++ l') = count i l + count i l'.
Proof. unfold count. by rewrite List.filter_app, app_length. Qed.
Definition fine (cl : nat -> Prop) (s : state) : Prop :=
  (forall i n, (i, n) ∈ s_asks s -> exists o, s_objects s !! i = Some o /\ o_name o = Some n /\ (o_soc o = true \/ cl i)) /\
  (forall i o, s_objects s !! i = Some o -> o_async o = false -> count i (s_asks s) <= match o_health o with Closed => 1 | _ => 0 end).
Lemma fine_stop cl s i o sd : fine cl s -> s_objects s !! i = Some o -> (o_async o = false -> o_health o <> Closed) -> (sd = Some true -> cl i) -> fine cl (stop_internal s i o sd).
Proof.
  intros [F1 F2] Ho Hh Hc. pose proof (lookup_lt_Some _ _ _ Ho) as Hlt. split.
  - intros j n. cbn. rewrite elem_of_app. intros [H|H].
    + destruct (F1 j n H) as (x & Hx & Hn & Hs). destruct (decide (i = j)) as [<- |Hne].
      * rewrite Ho in Hx. injection Hx as <-. exists (set_health Closed o). rewrite list_lookup_insert by done. done.
      * exists x. by rewrite list_lookup_insert_ne.
    + unfold ask in H. destruct (o_name o) as [m|] eqn:En; [|by apply elem_of_nil in H].
      destruct (default (o_soc o) sd) eqn:Ed; [|by apply elem_of_nil in H]. apply elem_of_list_singleton in H. injection H as -> ->.
      exists (set_health Closed o). rewrite list_lookup_insert by done. split; [done|]. split; [done|]. cbn.
      destruct sd as [b|]; cbn in Ed; subst; auto.
  - intros j x. cbn. rewrite count_app. destruct (decide (i = j)) as [<- |Hne].
    + rewrite list_lookup_insert by done. intros [= <-]. cbn. intros Ha. pose proof (F2 i o Ho Ha) as F.
      assert (count i (ask i (default (o_soc o) sd) (o_name o)) <= 1).
      { unfold ask, count. destruct (o_name o); [|cbn; lia]. destruct (default _ sd); cbn; [|lia]. rewrite Nat.eqb_refl. cbn. lia. }
      destruct (o_health o) eqn:E; [lia|lia|]. by destruct (Hh Ha).
    + rewrite list_lookup_insert_ne by done. intros Hx Ha. pose proof (F2 j x Hx Ha).
      assert (count j (ask i (default (o_soc o) sd) (o_name o)) = 0) as ->; [|lia].
      unfold ask, count. destruct (o_name o); [|done]. destruct (default _ sd); [|done]. cbn.
      by rewrite (proj2 (Nat.eqb_neq i j) Hne).
Qed.
Lemma fine_close cl s i sd : fine cl s -> (sd = Some true -> cl i) -> fine cl (close s i sd).
Proof.
  intros F Hc. unfold close. destruct (s_objects s !! i) as [o|] eqn:Ho; [|done].
  destruct (o_health o) eqn:Eh; [done|..]; destruct (o_async o) eqn:Ea; try done.
  - apply fine_stop; try done. congruence.
  - destruct (o_loop o); [|done]. apply fine_stop; try done. congruence.
  - apply fine_stop; try done. congruence.
Qed.
Lemma fine_cleanup cl order : forall s, fine cl s -> fine cl (cleanup s order).
Proof.
  induction order as [|i order IH]; intros s F; [done|]. cbn [cleanup].
  destruct (s_objects s !! i) as [o|]; [|by apply IH]. destruct (o_health o); [done|..]; apply IH; (destruct (o_async o); [done|]); by apply fine_close.
Qed.
Lemma fine_weaken (cl cl' : nat -> Prop) s : (forall i, cl i -> cl' i) -> fine cl s -> fine cl' s.
Proof. intros H [F1 F2]. split; [|done]. intros i n Hi. destruct (F1 i n Hi) as (o & ? & ? & [?|?]); exists o; auto. Qed.
Lemma fine_asks_bound cl s i n : fine cl s -> (i, n) ∈ s_asks s -> i < length (s_objects s).
Proof. intros [F1 _] H. destruct (F1 i n H) as (o & Ho & _). by apply lookup_lt_Some in Ho. Qed.
Lemma count_zero i l : (forall n, (i, n) ∉ l) -> count i l = 0.
Proof.
  intros H. unfold count. induction l as [|[j m] l IH]; [done|]. cbn. destruct (j =? i) eqn:E.
  - apply Nat.eqb_eq in E as ->. destruct (H m). left.
  - apply IH. intros n Hn. apply (H n). by right.
Qed.
Lemma run_fine es : fine (fun i => Close i (Some true) ∈ es) (run es).
Proof.
  induction es as [|e es IH] using rev_ind.
  - split; [intros i n H; by apply elem_of_nil in H|]. intros i o H. cbn in H. by rewrite lookup_nil in H.
  - apply (fine_weaken _ (fun i => Close i (Some true) ∈ es ++ [e])) in IH; [|intros i H; apply elem_of_app; by left].
    rewrite run_snoc. set (s := run es) in *. unfold step. destruct (s_over s); [done|].
    destruct e as [a b c r|i sd|i|order].
    + assert (Hz : count (length (s_objects s)) (s_asks s) = 0).
      { apply count_zero. intros n H. apply (fine_asks_bound _ _ _ _ IH) in H. lia. }
      destruct IH as [F1 F2]. split; cbn.
      * intros i n. rewrite elem_of_app. intros [H|H].
        -- destruct (F1 i n H) as (o & Ho & ?). exists o. split; [by apply lookup_app_l_Some|done].
        -- destruct r as [|m|m]; try by apply elem_of_nil in H. unfold ask in H. destruct m as [m|]; [|by apply elem_of_nil in H].
           destruct b; [|by apply elem_of_nil in H]. apply elem_of_list_singleton in H. injection H as -> ->.
           exists (made a true c (Fails (Some m))). rewrite lookup_app_r, Nat.sub_diag by done. split; [done|]. split; [done|]. by left.
      * intros i o Hi Ha. rewrite count_app. destruct (decide (i < length (s_objects s))) as [Hlt|Hge].
        -- rewrite lookup_app_l in Hi by done. pose proof (F2 i o Hi Ha).
           assert (count i (match r with Fails n => ask (length (s_objects s)) b n | _ => [] end) = 0) as ->; [|lia].
           apply count_zero. intros n Hn. destruct r as [|m|m]; try by apply elem_of_nil in Hn. unfold ask in Hn.
           destruct m; [|by apply elem_of_nil in Hn]. destruct b; [|by apply elem_of_nil in Hn]. apply elem_of_list_singleton in Hn. injection Hn as -> _. lia.
        -- assert (i = length (s_objects s)) as ->.
           { apply lookup_lt_Some in Hi. rewrite app_length in Hi. cbn in Hi. lia. }
           rewrite lookup_app_r, Nat.sub_diag in Hi by done. injection Hi as <-. rewrite Hz.
           destruct r as [|[m|]|m]; cbn [ask made o_health]; try (unfold count; cbn; lia).
           destruct b; unfold count; cbn; rewrite ?Nat.eqb_refl; cbn; lia.
    + apply fine_close; [done|]. intros ->. apply elem_of_app. right. left.
    + unfold drop. destruct (s_objects s !! i) as [o|] eqn:Ho; [|done]. destruct (o_held o); [|done]. cbn.
      assert (F : fine (fun i0 => Close i0 (Some true) ∈ es ++ [Drop i]) (match o_health o with Broken => s | _ => if o_async o then s else close s i None end)).
      { destruct (o_health o); [done|..]; (destruct (o_async o); [done|]); by apply fine_close. }
      destruct F as [F1 F2]. split; cbn.
      * intros j n H. destruct (F1 j n H) as (x & Hx & Hn & Hs). destruct (decide (i = j)) as [<- |Hne].
        -- exists (set_held false x). rewrite list_lookup_alter, Hx. done.
        -- exists x. by rewrite list_lookup_alter_ne.
      * intros j x. destruct (decide (i = j)) as [<- |Hne].
        -- rewrite list_lookup_alter. intros Hx Ha. apply fmap_Some in Hx as (y & Hy & ->). apply (F2 i y Hy Ha).
        -- rewrite list_lookup_alter_ne by done. apply F2.
    + destruct (fine_cleanup _ order _ IH) as [F1 F2]. by split.
Qed.
