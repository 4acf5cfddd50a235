(** Proofs for C51: no deletion is waited for in vain. *)
From Coq Require Import ZArith Lia.
From stdpp Require Import gmap.
From Verif Require Import Trace Kube_Model Kube_Spec Kube_Proofs Kube_Proofs2 Kube_Proofs3 Kube_Proofs4 Kube_Proofs5.
Local Open Scope Z_scope.

(** At most as many deletions are expected as there are known pods with [P]. *)
Definition bounded (P : pod -> Prop) (i : info) : Prop :=
  exists D : gset pod, deletes i <= Z.of_nat (size D) /\ D ⊆ all_pods i /\ forall p, p ∈ D -> P p.
Lemma bounded_weaken (P Q : pod -> Prop) i : (forall p, P p -> Q p) -> bounded P i -> bounded Q i.
Proof. intros H (D & H1 & H2 & H3). exists D. auto. Qed.
Lemma bounded_same P i i' : all_pods i' = all_pods i -> deletes i' = deletes i -> bounded P i -> bounded P i'.
Proof. intros E1 E2 (D & H1 & H2 & H3). exists D. by rewrite E1, E2. Qed.
Lemma bounded_less P i i' q : all_pods i ∖ {[q]} ⊆ all_pods i' -> deletes i' = deletes i - 1 -> bounded P i -> bounded (fun p => P p /\ p <> q) i'.
Proof.
  intros E1 E2 (D & H1 & H2 & H3). exists (D ∖ {[q]}). split; [|split].
  - rewrite E2. assert (size D <= size (D ∖ {[q]}) + 1)%nat; [|lia]. rewrite <- (size_singleton (C := gset pod) q).
    etrans; [|apply Nat.eq_le_incl, (size_union (D ∖ {[q]}) {[q]})]; [|set_solver]. apply subseteq_size. intros p Hp. destruct (decide (p = q)); set_solver.
  - set_solver.
  - intros p [Hp Hn]%elem_of_difference. split; [auto|]. intros ->. by apply Hn, elem_of_singleton.
Qed.
Lemma bounded_call P a b c i o w : bounded P i -> let '(_, i', _) := call a b (c, i, o) w in bounded P i'.
Proof.
  intros H. unfold call. destruct w as [p st|p].
  - unfold on_pod_update. destruct (ignored st); [done|]. destruct (recognise st) as [k|]; [|done].
    pose proof (update_sets i k p) as Hu. destruct (update i k p) as [i1 ch] eqn:E. cbn [fst] in Hu. destruct Hu as (_ & _ & U3 & _).
    destruct H as (D & H1 & H2 & H3). exists D. rewrite U3. split; [|split; [set_solver|done]]. replace (deletes i1) with (deletes i); [done|].
    unfold update in E. injection E as <- _. cbn [deletes]. by destruct (decide (p ∈ all_pods i)).
  - unfold on_pod_delete, worker_deleted. destruct (decide (p ∈ all_pods i)); [|done].
    eapply bounded_weaken; [|eapply (bounded_less P i _ p); [|done|done]]; [by intros q []|done].
Qed.
Lemma bounded_relist P a b s s' o : relist a b s = (s', o) -> bounded P (inf s) -> bounded P (inf s') /\ pc s' = pc s.
Proof.
  intros Hr H. eapply (relist_ind a b (fun t _ => bounded P (inf t) /\ pc t = pc s) s s' o Hr); [done|].
  intros t o1 t' o2 w q [Ht Hp] Hq Hs. cbn [step] in Hs. rewrite Hq in Hs. pose proof (bounded_call P a b (cached t) (inf t) [] w Ht) as Hb.
  destruct (call a b _ w) as [[c i] o3]. injection Hs as <- <-. done.
Qed.
(** What is known of a pod that is expected to go. *)
Definition why (h : history) (s : state) (p : pod) : Prop :=
  match pc s with
  | Creating _ _ _ _ todel => p ∈ todel
  | Deleting todel _ => exists h1 e o ps h2, h = h1 ++ (e, o) :: h2 /\ ODeletes ps ∈ o /\ p ∈ ps /\ answer_to p h2 = (if decide (p ∈ todel) then None else Some true)
  | Idle => deletion_accepted p h
  end.
Lemma answer_snoc p h e o : answer_to p (h ++ [(e, o)]) =
  match answer_to p h with Some b => Some b | None => match e with EDelete q ok => if decide (q = p) then Some ok else None | _ => None end end.
Proof. induction h as [|[e' o'] h IH]; cbn [app answer_to]; [by destruct e|]. destruct e'; try done. by destruct (decide (p0 = p)). Qed.
Lemma why_snoc h s s' e o p : pc s' = pc s -> (forall q ok todel bad, e = EDelete q ok -> pc s = Deleting todel bad -> q ∉ todel) -> why h s p -> why (h ++ [(e, o)]) s' p.
Proof.
  intros E He. unfold why. rewrite E. destruct (pc s) as [| |todel bad] eqn:Hp; [|done|].
  - intros (h1 & e1 & o1 & ps & h2 & -> & H1 & H2 & H3). exists h1, e1, o1, ps, (h2 ++ [(e, o)]). rewrite <- app_assoc. cbn [app]. rewrite answer_snoc, H3. done.
  - intros (h1 & e1 & o1 & ps & h2 & -> & H1 & H2 & H3). exists h1, e1, o1, ps, (h2 ++ [(e, o)]). rewrite <- app_assoc. cbn [app]. rewrite answer_snoc, H3.
    do 3 (split; [done|]). destruct (decide (p ∈ todel)) as [Hin|Hin]; [|done]. destruct e; try done. rewrite decide_False; [done|]. intros ->. by eapply He.
Qed.
Lemma keeps h s s' e o : pc s' = pc s -> all_pods (inf s') = all_pods (inf s) -> deletes (inf s') = deletes (inf s) ->
  (forall q ok todel bad, e = EDelete q ok -> pc s = Deleting todel bad -> q ∉ todel) -> bounded (why h s) (inf s) -> bounded (why (h ++ [(e, o)]) s') (inf s').
Proof. intros E1 E2 E3 He H. eapply bounded_same; [exact E2|exact E3|]. eapply bounded_weaken; [|exact H]. intros p. by apply why_snoc. Qed.
(** The requests go out. *)
Lemma goes_deletes h e s i todel bad s' o : start_deletes s i todel bad = (s', o) -> bounded (fun p => p ∈ todel) i -> bounded (why (h ++ [(e, o)]) s') (inf s').
Proof.
  unfold start_deletes. destruct todel as [|q todel]; intros [= <- <-] H; cbn [inf].
  - eapply bounded_weaken; [|exact H]. by intros p ?%elem_of_nil.
  - eapply bounded_weaken; [|exact H]. intros p Hp. unfold why. cbn [pc]. exists h, e, [ODeletes (q :: todel)], (q :: todel), []. do 3 (split; [done || left|]). cbn [answer_to]. by rewrite decide_True.
Qed.
Lemma bounded_list (l : list pod) (P : pod -> Prop) i : NoDup l -> deletes i <= Z.of_nat (length l) -> (forall p, p ∈ l -> p ∈ all_pods i /\ P p) -> bounded P i.
Proof.
  intros Hn Hd Hl. exists (list_to_set l). rewrite size_list_to_set by done. split; [done|]. split; [intros p Hp%elem_of_list_to_set; by apply Hl|]. intros p Hp%elem_of_list_to_set. by apply Hl.
Qed.
Lemma bounded_answered h e s ok s' o : answered s ok = (s', o) -> (forall q b, e <> EDelete q b) -> bounded (why h s) (inf s) -> bounded (why (h ++ [(e, o)]) s') (inf s').
Proof.
  unfold answered. intros Ha He H. destruct (pc s) as [|rest batch [|n] bad todel|] eqn:Hp.
  1,2,4: injection Ha as <- <-; apply (keeps h s); try done; intros ? ? ? ? E; by apply He in E.
  assert (HB : forall d, bounded (fun p => p ∈ todel) (if ok then add_creates (inf s) d else add_creates (add_creates (inf s) (-1)) d)).
  { intros d. eapply (bounded_same _ (inf s)); [by destruct ok|by destruct ok|]. eapply bounded_weaken; [|exact H]. intros p. unfold why. by rewrite Hp. }
  assert (HC : bounded (fun p => p ∈ todel) (if ok then inf s else add_creates (inf s) (-1))).
  { eapply (bounded_same _ (inf s)); [by destruct ok|by destruct ok|]. eapply bounded_weaken; [|exact H]. intros p. unfold why. by rewrite Hp. }
  destruct n as [|n]; [|by injection Ha as <- <-].
  destruct (bad || negb ok).
  - eapply goes_deletes; [exact Ha|]. specialize (HB (- Z.of_nat rest)). by destruct ok.
  - destruct rest; [by eapply goes_deletes|]. by injection Ha as <- <-.
Qed.
Lemma bounded_step h s e s' o : exec step init h s -> step s e = (s', o) -> bounded (why h s) (inf s) -> bounded (why (h ++ [(e, o)]) s') (inf s').
Proof.
  intros Hx Hs H. pose proof Hs as Hs0. destruct e as [p st|p|a b|a b|a b|r x order|cr|p ok]; cbn [step] in Hs.
  - destruct (srv s !! p) as [[? d]|]; [destruct (d && alive st)|]; injection Hs as <- <-; by apply (keeps h s).
  - destruct (srv s !! p); injection Hs as <- <-; by apply (keeps h s).
  - destruct (wq s) as [|w q]; [injection Hs as <- <-; by apply (keeps h s)|]. pose proof (bounded_call (why h s) a b (cached s) (inf s) [] w H) as Hc.
    destruct (call a b _ w) as [[c i] o1]. injection Hs as <- <-. cbn [inf]. eapply bounded_weaken; [|exact Hc]. intros p. by apply why_snoc.
  - destruct (bounded_relist (why h s) a b s s' o Hs H) as [Hb Hp]. eapply bounded_weaken; [|exact Hb]. intros p. by apply why_snoc.
  - destruct (relist _ _ _) as [s1 o1] eqn:Hr. injection Hs as <- <-. apply (bounded_relist (fun _ => False)) in Hr as [Hb _].
    + eapply bounded_weaken; [|exact Hb]. done.
    + exists ∅. cbn. split; [done|]. split; [done|]. by intros p ?%elem_of_empty.
  - destruct (pc s) eqn:Hp; [|injection Hs as <- <-; by apply (keeps h s)..]. destruct (lists _ _) eqn:Hl; [|injection Hs as <- <-; by apply (keeps h s)].
    pose proof (sets_disjoint _ _ Hx) as [D1 D2]. unfold reconcile in Hs. destruct (negb _); [injection Hs as <- <-; by apply (keeps h s)|].
    destruct (0 <? _).
    + injection Hs as <- <-. cbn [inf]. eapply (bounded_list (elements (succeeded (inf s) ∪ failed (inf s)))); [apply NoDup_elements|done|].
      intros p Hq. split; [|unfold why; by cbn [pc]]. apply elem_of_elements, elem_of_union in Hq as [Hq|Hq]; apply D1; [by exists KSucceeded|by exists KFailed].
    + destruct (_ ++ _) as [|q ps] eqn:El; [injection Hs as <- <-; by apply (keeps h s)|].
      assert (ODeletes (q :: ps) ∈ o) as Ho by (unfold start_deletes in Hs; injection Hs as <- <-; left).
      destruct (scale_down _ _ _ _ _ _ _ Hx Hs0 Hp _ Ho) as (Hn & Hw & _).
      eapply goes_deletes; [exact Hs|]. eapply (bounded_list (q :: ps)); [done|done|]. intros p Hq. split; [|done].
      destruct (Hw p Hq) as [Hq' _]. apply elem_of_union in Hq' as [Hq'|Hq']; [apply elem_of_union in Hq' as [Hq'|Hq']|]; apply D1; [by exists KPending|by exists KSucceeded|by exists KFailed].
  - assert (HA : forall t, inf t = inf s -> pc t = pc s -> forall b, answered t b = (s', o) -> bounded (why (h ++ [(ECreate cr, o)]) s') (inf s')).
    { intros t E1 E2 b Ha. eapply bounded_answered; [exact Ha|done|]. rewrite E1. eapply bounded_weaken; [|exact H]. intros p. unfold why. by rewrite E2. }
    assert (HK : (s', o) = (s, []) -> bounded (why (h ++ [(ECreate cr, o)]) s') (inf s')) by (intros [= -> ->]; by apply (keeps h s)).
    destruct (pc s) as [|rest batch [|n] bad todel|] eqn:Hp; try (by apply HK).
    destruct cr as [q| |q]; [destruct (decide _); [by apply HK|]; eapply (HA (created s q)); done|by eapply (HA s)|destruct (decide _); [by apply HK|]; eapply (HA (created s q)); done].
  - unfold answered_delete in Hs. destruct (pc s) as [| |todel bad] eqn:Hp.
    + injection Hs as <- <-. apply (keeps h s); try done. intros ? ? ? ? _ E. congruence.
    + injection Hs as <- <-. apply (keeps h s); try done. intros ? ? ? ? _ E. congruence.
    + destruct (decide (p ∈ todel)) as [Hin|Hin]; [|injection Hs as <- <-; apply (keeps h s); try done; intros ? ? ? ? [= <- <-] E; rewrite Hp in E; by injection E as <- <-].
      assert (HF : forall q, q ∈ List.filter (fun q => negb (bool_decide (q = p))) todel <-> q ∈ todel /\ q <> p).
      { intros q. rewrite elem_of_list_In, filter_In, <- elem_of_list_In, negb_true_iff, bool_decide_eq_false. done. }
      assert (HB : bounded (fun q => why h s q /\ (q = p -> ok = true)) (if ok then inf s else sub_deletes (inf s))).
      { destruct ok; [eapply bounded_weaken; [|exact H]; auto|]. eapply bounded_weaken; [|eapply (bounded_less _ (inf s) _ p); [|done|exact H]]; [by intros q [? ?]|set_solver]. }
      assert (HW : forall q, why h s q /\ (q = p -> ok = true) -> exists h1 e o1 ps h2, h ++ [(EDelete p ok, o)] = h1 ++ (e, o1) :: h2 /\ ODeletes ps ∈ o1 /\ q ∈ ps /\
        answer_to q h2 = (if decide (q ∈ List.filter (fun q => negb (bool_decide (q = p))) todel) then None else Some true)).
      { intros q [Hwhy Hok]. unfold why in Hwhy. rewrite Hp in Hwhy. destruct Hwhy as (h1 & e1 & o1 & ps & h2 & -> & H1 & H2 & H3). exists h1, e1, o1, ps, (h2 ++ [(EDelete p ok, o)]).
        rewrite <- app_assoc. cbn [app]. do 3 (split; [done|]). rewrite answer_snoc, H3. destruct (decide (p = q)) as [->|Hne].
        - rewrite (decide_True (P := q ∈ todel)) by done. rewrite Hok by done. rewrite decide_False; [done|]. rewrite HF. tauto.
        - destruct (decide (q ∈ todel)) as [Hq|Hq]; [rewrite decide_True; [done|]; rewrite HF; split; [done|congruence]|rewrite decide_False; [done|]; rewrite HF; tauto]. }
      destruct (List.filter _ todel) as [|q0 l] eqn:El; injection Hs as <- <-; cbn [inf].
      * eapply bounded_weaken; [|exact HB]. intros q Hq. destruct (HW q Hq) as (h1 & e1 & o1 & ps & h2 & E & H1 & H2 & H3). unfold why. cbn [pc]. rewrite decide_False in H3 by (by intros ?%elem_of_nil).
        by exists h1, e1, o1, ps, h2.
      * eapply bounded_weaken; [|exact HB]. intros q Hq. unfold why. cbn [pc]. by apply HW.
Qed.
Lemma exec_bounded h s : exec step init h s -> bounded (why h s) (inf s).
Proof.
  intros Hx. eapply (exec_ind_r step init (fun h s => bounded (why h s) (inf s))); [| |exact Hx].
  - exists ∅. cbn. split; [done|]. split; [done|]. by intros p ?%elem_of_empty.
  - intros. by eapply bounded_step.
Qed.
Lemma no_vain_wait h s : exec step init h s -> pc s = Idle ->
  exists D : gset pod, deletes (inf s) <= Z.of_nat (size D) /\ forall p, p ∈ D -> p ∈ all_pods (inf s) /\ deletion_accepted p h.
Proof.
  intros Hx Hp. destruct (exec_bounded h s Hx) as (D & H1 & H2 & H3). exists D. split; [done|]. intros p Hd. split; [by apply H2|]. specialize (H3 p Hd). unfold why in H3. by rewrite Hp in H3.
Qed.
