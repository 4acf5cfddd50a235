(** Proofs for C143, part 1: what the expectations of the controller stand for. *)
From Coq Require Import ZArith Lia.
From stdpp Require Import prelude gmap.
From Verif Require Import Trace Kube_Model Kube_Spec Kube_Proofs Kube_Proofs2 Kube_Proofs3 Kube_Proofs4 Kube_Proofs5.
Open Scope Z_scope.

(** The pods that the run going on deletes or will delete. *)
Definition todel (s : state) : list pod := match pc s with Creating _ _ _ _ l | Deleting l _ => l | Idle => [] end.
Definition todo (s : state) : gset pod := list_to_set (todel s).
Definition formed (s : state) : Prop := match pc s with Creating _ b n _ _ => (1 <= n /\ 1 <= b)%nat | Deleting l _ => l <> [] | Idle => True end.
(** The deletions accepted in a step. *)
Definition grants (e : event) (s : state) : gset pod :=
  match e, pc s with EDelete p true, Deleting l _ => if decide (p ∈ l) then {[p]} else ∅ | _, _ => ∅ end.
(** Every creation that is expected is outstanding or a pod that the controller does not
    know yet; every deletion that is expected is that of a pod known to it. *)
Record sums (E : gset pod) (s : state) : Prop := {
  su_creates : creates (inf s) <= Z.of_nat (outstanding s) + Z.of_nat (size (dom (srv s) ∖ all_pods (inf s)));
  su_deletes : deletes (inf s) <= Z.of_nat (size ((E ∪ todo s) ∩ all_pods (inf s)));
  su_formed : formed s;
  su_used : E ∪ todo s ⊆ used s }.
Lemma parts_known i : parted i -> running i ⊆ all_pods i /\ pending i ⊆ all_pods i /\ succeeded i ⊆ all_pods i /\ failed i ⊆ all_pods i.
Proof.
  intros [f [H1 H2]]. repeat split; intros p Hp; apply H2; [pose proof (proj1 (H1 p KRunning) Hp) as E|pose proof (proj1 (H1 p KPending) Hp) as E|pose proof (proj1 (H1 p KSucceeded) Hp) as E|pose proof (proj1 (H1 p KFailed) Hp) as E]; by rewrite E.
Qed.
Lemma parts_apart i p : parted i -> p ∈ pending i -> p ∉ succeeded i ∪ failed i.
Proof.
  intros [f [H1 H2]] Hp [Hs|Hf]%elem_of_union; pose proof (proj1 (H1 p KPending) Hp) as E; [pose proof (proj1 (H1 p KSucceeded) Hs)|pose proof (proj1 (H1 p KFailed) Hf)]; congruence.
Qed.
Lemma size_le (a b : gset pod) : a ⊆ b -> Z.of_nat (size a) <= Z.of_nat (size b).
Proof. intros H. apply Nat2Z.inj_le. by apply subseteq_size. Qed.
Lemma size_cup (a b c : gset pod) : a ⊆ b ∪ c -> Z.of_nat (size a) <= Z.of_nat (size b) + Z.of_nat (size c).
Proof. intros H. pose proof (size_le _ _ H). pose proof (size_union_alt b c) as E. rewrite E in H0. pose proof (size_le (c ∖ b) c ltac:(set_solver)). lia. Qed.

Lemma sums_info E s s' : srv s' = srv s -> used s' = used s -> pc s' = pc s -> all_pods (inf s') = all_pods (inf s) -> creates (inf s') <= creates (inf s) -> deletes (inf s') <= deletes (inf s) -> sums E s -> sums E s'.
Proof.
  intros E1 E2 E3 E4 Hc Hd [S1 S2 S3 S4]. split; unfold outstanding, formed, todo, todel in *; rewrite ?E1, ?E2, ?E3, ?E4 in *; try done; lia.
Qed.
Lemma sums_counts E s s' : srv s' = srv s -> used s' = used s -> pc s' = pc s -> counts (inf s) (inf s') -> sums E s -> sums E s'.
Proof.
  intros E1 E2 E3 [C1 C2] [S1 S2 S3 S4]. split; unfold outstanding, formed, todo, todel in *; rewrite ?E1, ?E2, ?E3 in *; try done.
  - assert (dom (srv s) ∖ all_pods (inf s) ⊆ (dom (srv s) ∖ all_pods (inf s')) ∪ (all_pods (inf s') ∖ all_pods (inf s))) as H.
    { intros p Hp. destruct (decide (p ∈ all_pods (inf s'))); set_solver. }
    apply size_cup in H. lia.
  - match goal with |- _ <= Z.of_nat (size (?X ∩ _)) => assert (X ∩ all_pods (inf s) ⊆ (X ∩ all_pods (inf s')) ∪ (all_pods (inf s) ∖ all_pods (inf s'))) as H by (intros p Hp; destruct (decide (p ∈ all_pods (inf s'))); set_solver) end.
    apply size_cup in H. lia.
Qed.
Lemma relist_frame a b s s' o : relist a b s = (s', o) -> srv s' = srv s /\ used s' = used s /\ pc s' = pc s /\ wq s' = [] /\ counts (inf s) (inf s').
Proof.
  intros Hr. split; [|split; [|split; [|split]]]; [unfold relist in Hr; destruct (foldl _ _ _) as [[c i] o1]; by injection Hr as <- <-..|].
  by eapply (step_counts s (ERelist a b)).
Qed.
Lemma start_sums E s s0 i l b s' o : start_deletes s i l b = (s', o) -> srv s = srv s0 -> used s = used s0 -> creates i <= Z.of_nat (size (dom (srv s0) ∖ all_pods i)) ->
  deletes i <= Z.of_nat (size ((E ∪ list_to_set l) ∩ all_pods i)) -> E ∪ list_to_set l ⊆ used s0 -> sums E s'.
Proof.
  intros Hs E1 E2 Hc Hd Hu. unfold start_deletes in Hs. destruct l as [|p l]; injection Hs as <- <-; split; unfold outstanding, formed, todo, todel; cbn [pc inf srv used]; rewrite ?E1, ?E2; try done; try lia.
Qed.
Lemma sums_answered E s ok s' o rest batch n bad l : pc s = Creating rest batch (S n) bad l -> (1 <= batch)%nat -> answered s ok = (s', o) ->
  creates (inf s) <= Z.of_nat (rest + S n) - (if ok then 1 else 0) + Z.of_nat (size (dom (srv s) ∖ all_pods (inf s))) ->
  deletes (inf s) <= Z.of_nat (size ((E ∪ todo s) ∩ all_pods (inf s))) -> E ∪ todo s ⊆ used s -> sums E s'.
Proof.
  intros Hp Hba Ha Hc Hd Hu. unfold todo, todel in Hd, Hu. rewrite Hp in Hd, Hu. unfold answered in Ha. rewrite Hp in Ha.
  assert (forall i, i = (if ok then inf s else add_creates (inf s) (-1)) -> creates i = creates (inf s) - (if ok then 0 else 1) /\ deletes i = deletes (inf s) /\ all_pods i = all_pods (inf s)) as Hi.
  { intros i ->. destruct ok; cbn; split; try done; lia. }
  destruct (Hi _ eq_refl) as (I1 & I2 & I3). set (i := if ok then inf s else add_creates (inf s) (-1)) in *.
  destruct n as [|n].
  - destruct (bad || negb ok) eqn:Hb.
    + eapply start_sums; [exact Ha|done|done|..]; cbn [add_creates creates deletes all_pods]; rewrite ?I1, ?I2, ?I3; try done. destruct ok; lia.
    + destruct ok; [|by rewrite orb_true_r in Hb]. destruct rest as [|rest].
      * eapply start_sums; [exact Ha|done|done|..]; rewrite ?I1, ?I2, ?I3; try done. lia.
      * injection Ha as <- <-. split; unfold outstanding, formed, todo, todel; cbn [pc inf srv used]; rewrite ?I1, ?I2, ?I3; try done; lia.
  - injection Ha as <- <-. split; unfold outstanding, formed, todo, todel; cbn [pc inf srv used]; rewrite ?I1, ?I2, ?I3; try done; [destruct ok; lia|lia].
Qed.
Lemma nodup_take {A} (l : list A) n : NoDup l -> NoDup (take n l).
Proof. rewrite <- (take_drop n l) at 1. by intros [? _]%NoDup_app. Qed.
Lemma sums_step E s e s' o : ordered s -> synced s -> parted (inf s) -> sums E s -> step s e = (s', o) ->
  (forall p, e = EGone p -> p ∈ dom (srv s) -> p ∈ all_pods (inf s)) -> sums (E ∪ grants e s) s'.
Proof.
  intros Ho Hsy Hpa HS Hs Hk. destruct (parts_known _ Hpa) as (_ & P2 & P3 & P4). pose proof (sy_known _ Hsy) as Hkn. pose proof (or_cached _ Ho) as Hca. destruct e as [p st|p|a b|a b|a b|r x order|cr|p ok]; cbn [step] in Hs.
  all: try (cbn [grants]; rewrite union_empty_r_L).
  - destruct (srv s !! p) as [[st0 d]|] eqn:Hp; [|by injection Hs as <- <-]. destruct (d && alive st); injection Hs as <- <-; [done|]. destruct HS as [S1 S2 S3 S4].
    split; try done. unfold outstanding in *. cbn [inf srv pc]. rewrite dom_insert_L. assert (p ∈ dom (srv s)) by (apply elem_of_dom; eauto). by replace ({[p]} ∪ dom (srv s)) with (dom (srv s)) by set_solver.
  - destruct (srv s !! p) as [[st0 d]|] eqn:Hp; injection Hs as <- <-; [|done]. destruct HS as [S1 S2 S3 S4]. split; try done. unfold outstanding in *. cbn [inf srv pc]. rewrite dom_delete_L.
    assert (p ∈ all_pods (inf s)) by (apply (Hk p eq_refl), elem_of_dom; eauto). by replace (dom (srv s) ∖ {[p]} ∖ all_pods (inf s)) with (dom (srv s) ∖ all_pods (inf s)) by set_solver.
  - pose proof (step_counts s (EDeliver a b) s' o Hs I) as Hc. destruct (wq s); [by injection Hs as <- <-|]. destruct (call _ _ _ _) as [[c i] o1]. injection Hs as <- <-. by eapply sums_counts in HS.
  - destruct (relist_frame _ _ _ _ _ Hs) as (F1 & F2 & F3 & _ & F4). by eapply sums_counts in HS.
  - destruct (relist _ _ _) as [s1 o1] eqn:Hr. injection Hs as <- <-. destruct (relist_frame _ _ _ _ _ Hr) as (F1 & F2 & F3 & _ & C1 & C2). destruct HS as [S1 S2 S3 S4].
    cbn [srv used pc inf creates deletes info0 all_pods] in *. split; unfold outstanding, formed, todo, todel in *; rewrite ?F1, ?F2, ?F3; try done; try lia. cbn [list_to_set]. set_solver.
  - destruct (pc s) eqn:Hp; [|by injection Hs as <- <-..]. destruct (lists _ _) eqn:Hl; [|by injection Hs as <- <-]. unfold reconcile in Hs.
    destruct (negb _); [by injection Hs as <- <-|]. destruct (0 <? _) eqn:Hd.
    + apply Z.ltb_lt in Hd. injection Hs as <- <-. destruct HS as [S1 S2 S3 S4]. split; unfold outstanding, formed, todo, todel in *; rewrite ?Hp in *; cbn [pc inf srv used set_expectations creates deletes all_pods list_to_set] in *; [lia| |lia|].
      * change (length (elements (succeeded (inf s) ∪ failed (inf s)))) with (size (succeeded (inf s) ∪ failed (inf s))). apply size_le. rewrite list_to_set_elements_L. set_solver.
      * rewrite list_to_set_elements_L. set_solver.
    + destruct (py_slice _ _ ++ _) as [|q l] eqn:El; [by injection Hs as <- <-|]. rewrite <- El in Hs. assert (list_to_set (C := gset pod) (py_slice order (r - Z.of_nat (size (running (inf s) ∪ pending (inf s)))) ++ elements (succeeded (inf s) ∪ failed (inf s))) ⊆ all_pods (inf s) /\
        NoDup (py_slice order (r - Z.of_nat (size (running (inf s) ∪ pending (inf s)))) ++ elements (succeeded (inf s) ∪ failed (inf s)))) as [Hin Hnd].
      { unfold lists in Hl. apply andb_true_iff in Hl as [Hnd%bool_decide_eq_true Hset%bool_decide_eq_true].
        assert (forall p, p ∈ py_slice order (r - Z.of_nat (size (running (inf s) ∪ pending (inf s)))) -> p ∈ pending (inf s)) as Hsub.
        { intros p Hi. rewrite <- Hset. apply elem_of_list_to_set. unfold py_slice in Hi. destruct (_ =? _); [by apply elem_of_nil in Hi|]. by eapply elem_of_take in Hi as (? & Hi%elem_of_list_lookup_2 & _). }
        split.
        - rewrite list_to_set_app_L, list_to_set_elements_L. intros p [Hi%elem_of_list_to_set|Hi]%elem_of_union; [by apply P2, Hsub|set_solver].
        - apply NoDup_app. split; [|split; [|apply NoDup_elements]].
          + unfold py_slice. destruct (_ =? _); [constructor|]. by apply nodup_take.
          + intros p Hi. rewrite elem_of_elements. by apply parts_apart, Hsub. }
      destruct HS as [S1 S2 S3 S4]. unfold outstanding, todo, todel in *; rewrite Hp in *; cbn [list_to_set] in *. eapply start_sums.
      { rewrite El in Hs. exact Hs. } { done. } { done. }
      * cbn. lia.
      * cbn [set_expectations deletes all_pods]. rewrite <- El. rewrite <- (size_list_to_set (C := gset pod) _ Hnd). apply size_le. set_solver.
      * rewrite <- El. set_solver.
  - destruct (pc s) as [|rest batch [|n] bad l|] eqn:Hp; try (by injection Hs as <- <-). destruct HS as [S1 S2 S3 S4].
    assert (forall p ok, p ∉ used s -> answered (created s p) ok = (s', o) -> sums E s') as Hcr.
    { intros p ok Hu Ha. unfold outstanding in S1. rewrite Hp in S1. eapply (sums_answered E (created s p)); [exact Hp|unfold formed in S3; rewrite Hp in S3; lia|exact Ha|..].
      - cbn [created inf srv]. rewrite dom_insert_L. assert (p ∉ all_pods (inf s)) by set_solver. assert (p ∉ dom (srv s)) by (pose proof (or_srv _ Ho); set_solver).
        replace (({[p]} ∪ dom (srv s)) ∖ all_pods (inf s)) with ({[p]} ∪ dom (srv s) ∖ all_pods (inf s)) by set_solver. rewrite size_union by set_solver. rewrite size_singleton'. destruct ok; lia.
      - exact S2.
      - cbn [created used]. change (todo (created s p)) with (todo s). set_solver. }
    destruct cr as [p| |p].
    + destruct (decide _); [injection Hs as <- <-; by split|]. by eapply Hcr.
    + eapply sums_answered; [exact Hp|unfold formed in S3; rewrite Hp in S3; lia|exact Hs|unfold outstanding in S1; rewrite Hp in S1; lia|done|done].
    + destruct (decide _); [injection Hs as <- <-; by split|]. by eapply Hcr.
  - unfold answered_delete in Hs. destruct (pc s) as [|? ? ? ? ?|l bad] eqn:Hp; try (injection Hs as <- <-; cbn [grants]; rewrite Hp; destruct ok; by rewrite union_empty_r_L).
    destruct (decide (p ∈ l)) as [Hin|Hin]; [|injection Hs as <- <-; cbn [grants]; rewrite Hp, decide_False by done; destruct ok; by rewrite union_empty_r_L].
    cbn [grants]. rewrite Hp, decide_True by done. set (l' := List.filter (fun q => negb (bool_decide (q = p))) l) in *.
    assert (forall q, q ∈ l' <-> q ∈ l /\ q <> p) as Hl'. { intros q. unfold l'. rewrite elem_of_list_In, filter_In, <- elem_of_list_In. by rewrite negb_true_iff, bool_decide_eq_false. }
    destruct HS as [S1 S2 S3 S4]. unfold outstanding, todo, todel in *. rewrite Hp in *.
    assert (srv s' = srv s /\ used s' = used s /\ inf s' = (if ok then inf s else sub_deletes (inf s)) /\ outstanding s' = 0%nat /\ formed s' /\ todo s' = list_to_set l') as (F1 & F2 & F3 & F4 & F5 & F6).
    { unfold outstanding, formed, todo, todel. destruct l' as [|q l''] eqn:El; injection Hs as <- <-; by repeat split. }
    split; [| |exact F5|].
    + rewrite F1, F3, F4. destruct ok; cbn; lia.
    + rewrite F6, F3. destruct ok.
      * match goal with |- _ <= Z.of_nat (size ?X) => assert ((E ∪ list_to_set l) ∩ all_pods (inf s) ⊆ X) as H end; [|apply size_le in H; lia].
        intros q [[Hq|Hq%elem_of_list_to_set]%elem_of_union Hq']%elem_of_intersection; apply elem_of_intersection; (split; [|done]); [set_solver|]. destruct (decide (q = p)) as [->|]; [set_solver|]. apply elem_of_union. right. apply elem_of_list_to_set. by apply Hl'.
      * cbn [sub_deletes deletes all_pods]. rewrite union_empty_r_L. assert ((E ∪ list_to_set l) ∩ all_pods (inf s) ⊆ ((E ∪ list_to_set l') ∩ all_pods (inf s)) ∪ {[p]}) as H.
        { intros q [[Hq|Hq%elem_of_list_to_set]%elem_of_union Hq']%elem_of_intersection; [set_solver|]. destruct (decide (q = p)) as [->|]; [set_solver|]. apply elem_of_union. left. apply elem_of_intersection. split; [|done]. apply elem_of_union. right. apply elem_of_list_to_set. by apply Hl'. }
        apply size_cup in H. rewrite size_singleton' in H. lia.
    + rewrite F6, F2. intros q Hq. apply S4. apply elem_of_union in Hq as [[Hq|Hq]%elem_of_union|Hq%elem_of_list_to_set]; [set_solver| |].
      * destruct ok; [|set_solver]. apply elem_of_singleton in Hq as ->. apply elem_of_union. right. by apply elem_of_list_to_set.
      * apply elem_of_union. right. apply elem_of_list_to_set. by apply Hl' in Hq as [? _].
Qed.
