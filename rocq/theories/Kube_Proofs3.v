(** Proofs for C50, C51 and C67: scaling, continued. *)
From Coq Require Import ZArith Lia.
From stdpp Require Import gmap.
From Verif Require Import Trace Kube_Model Kube_Spec Kube_Proofs Kube_Proofs2.
Local Open Scope Z_scope.

Lemma exec_ends h s : exec step init h s -> ends s.
Proof.
  intros Hx. cut (exec step init h s /\ ends s); [tauto|]. revert h s Hx. apply (exec_ind_r step init (fun h s => exec step init h s /\ ends s)).
  - split; [constructor|]. split; cbn; try set_solver; [intros p [] Hp; set_solver|]. intros q1 ? ? ? E. by destruct q1.
  - intros h s e o s' Hx [_ IH] Hs. split; [apply exec_app; exists s; split; [done|]; econstructor; [exact Hs|constructor]|]. eapply ends_step; [by eapply exec_ordered|done|done].
Qed.
(** The information is a partition of all_pods. *)
Definition parted (i : info) : Prop := exists f, books i f.
Lemma exec_parted h s : exec step init h s -> parted (inf s).
Proof. intros Hx. eexists. by apply exec_books. Qed.
Lemma parted_step s e s' o : parted (inf s) -> step s e = (s', o) -> parted (inf s').
Proof. intros [f Hf] Hs. eexists. by eapply step_books. Qed.

(** * Calm histories *)
Record counted (S : gset pod) (M : Z) (s : state) : Prop := {
  ct_all : all_pods (inf s) ⊆ S;
  ct_used : S ⊆ used s;
  ct_dead : forall p, p ∈ S -> p ∉ all_pods (inf s) -> dead s p;
  ct_creates : creates (inf s) = Z.of_nat (size (used s ∖ S)) + Z.of_nat (outstanding s);
  ct_max : Z.of_nat (size (workers (inf s))) + creates (inf s) <= M }.
Lemma counted_deliver S M s a b s' o : ordered s -> ends s -> parted (inf s) -> counted S M s -> step s (EDeliver a b) = (s', o) -> counted (S ∪ seen_in o) M s'.
Proof.
  intros Ho He [f Hf] [C1 C2 C3 C4 C5] Hs. pose proof Hs as Hs0. cbn [step] in Hs. destruct (wq s) as [|w q] eqn:Hq.
  { injection Hs as <- <-. cbn [seen_in foldr]. rewrite union_empty_r_L. by split. }
  pose proof (call_cached a b (cached s) (inf s) [] w) as Hcc.
  destruct (call a b (cached s, inf s, []) w) as [[c i] o1] eqn:Hc. injection Hs as <- <-. destruct Hcc as [-> (put & ->)]. cbn [app] in *.
  assert (Hdead : forall p, dead s p -> dead (State (srv s) (used s) q (match w with Upd p _ => {[p]} ∪ cached s | Del p => cached s ∖ {[p]} end) i (pc s)) p).
  { intros p Hp. by eapply dead_deliver. }
  destruct w as [p st|p].
  - cbn [call] in Hc. unfold on_pod_update in Hc. cbn [seen_in foldr].
    destruct (recognise st) as [k|] eqn:Hk.
    2:{ assert (i = inf s) as ->. { destruct (ignored st); by injection Hc as <- <-. } rewrite union_empty_r_L. split; cbn [inf used]; auto. }
    destruct (ignored st) eqn:Hi; [by rewrite (ignored_recognise _ Hi) in Hk|].
    pose proof (update_sets (inf s) k p) as Hu. destruct (update (inf s) k p) as [i1 change]. injection Hc as <- _. cbn [fst] in Hu. destruct Hu as (U1 & U2 & U3 & U4).
    rewrite union_empty_r_L.
    assert (Hpu : p ∈ used s) by (apply (or_wq _ Ho (Upd p st)); rewrite Hq; left).
    assert (HW : forall q, q <> p -> q ∈ workers i1 <-> q ∈ workers (inf s)).
    { intros q' Hq'. unfold workers. rewrite !elem_of_union. pose proof (U1 q' Hq' KRunning). pose proof (U1 q' Hq' KPending). cbn in *. tauto. }
    destruct (decide (p ∈ all_pods (inf s))) as [Hp|Hp].
    + assert (S ∪ {[p]} = S) as -> by set_solver. split; cbn [inf used].
      * rewrite U3. set_solver.
      * done.
      * intros q' H1 H2. apply Hdead, C3; [done|]. rewrite U3 in H2. clear -H2. set_solver.
      * rewrite U4. apply C4.
      * rewrite U4. assert (workers i1 ⊆ workers (inf s)) as Hsub; [|apply subseteq_size in Hsub; lia].
        intros q' Hq'. destruct (decide (q' = p)) as [->|Hne]; [|by apply HW].
        assert (k = KRunning \/ k = KPending) as Hk'. { unfold workers in Hq'. apply elem_of_union in Hq' as [H|H]; [left; symmetry; by apply U2|right; symmetry; by apply U2]. }
        assert (alive st = true) by (unfold alive; rewrite Hk; by destruct Hk' as [->| ->]).
        destruct Hf as [F1 F2]. apply F2 in Hp. destruct (f p) as [k0|] eqn:Hfp; [|done]. apply F1 in Hfp.
        assert (Hnot : ~ p ∈ succeeded (inf s) ∪ failed (inf s)). { intros HS. destruct (en_info _ He p HS) as [HA _]. rewrite (HA st) in *; [done|]. rewrite Hq. left. }
        clear -Hfp Hnot. unfold workers. destruct k0; cbn in Hfp; set_solver.
    + assert (HpS : p ∉ S). { intros HS. destruct (C3 p HS Hp) as (_ & _ & _ & HD). apply (HD (Upd p st)); [rewrite Hq; left|done]. }
      split; cbn [inf used].
      * rewrite U3. set_solver.
      * set_solver.
      * intros q' H1 H2. rewrite U3 in H2. apply Hdead, C3; [clear -H1 H2; set_solver|clear -H2; set_solver].
      * rewrite U4. unfold outstanding. cbn [pc]. fold (outstanding s).
        replace (used s ∖ S) with ({[p]} ∪ used s ∖ (S ∪ {[p]})) in C4.
        2:{ apply set_eq. intros q'. destruct (decide (q' = p)) as [->|]; set_solver. }
        rewrite size_union, size_singleton' in C4 by set_solver. lia.
      * rewrite U4. assert (Hsub : workers i1 ⊆ {[p]} ∪ workers (inf s)).
        { intros q' Hq'. destruct (decide (q' = p)) as [->|Hne]; [set_solver|]. apply elem_of_union. right. by apply HW. }
        apply subseteq_size in Hsub. rewrite size_union_alt, size_singleton' in Hsub.
        assert (size (workers (inf s) ∖ {[p]}) <= size (workers (inf s)))%nat by (apply subseteq_size; set_solver). lia.
  - cbn [call] in Hc. unfold on_pod_delete in Hc. injection Hc as <- _. cbn [seen_in foldr]. rewrite union_empty_r_L.
    pose proof (deleted_sets (inf s) p) as (D1 & D2 & D3 & D4).
    pose proof (tells_deliver s a b _ _ p Ho Hs0) as [_ HT]. specialize (HT (ex_intro _ put (elem_of_list_here _ _))).
    split; cbn [inf used].
    + rewrite D3. set_solver.
    + done.
    + intros q' H1 H2. rewrite D3 in H2. destruct (decide (q' = p)) as [->|Hne]; [done|]. apply Hdead, C3; [done|]. set_solver.
    + rewrite D4. apply C4.
    + rewrite D4. assert (workers (worker_deleted (inf s) p) ⊆ workers (inf s)) as Hsub; [|apply subseteq_size in Hsub; lia].
      unfold worker_deleted. destruct (decide _); unfold workers; cbn; set_solver.
Qed.
Lemma dead_requeue s p : dead s p -> dead (requeue s) p.
Proof.
  intros (D1 & D2 & D3 & D4). split; [done|]. split; [done|]. split; [done|]. cbn [requeue wq]. intros w Hw. apply (elem_of_list_fmap_1 pod_of) in Hw.
  change (pod_of w ∈ map pod_of (relist_calls s)) in Hw. rewrite relist_pods, elem_of_app in Hw. intros <-. destruct Hw as [Hw|Hw]; [apply elem_of_elements in Hw; set_solver|].
  apply elem_of_list_fmap in Hw as ([q x] & Eq & Hq). apply elem_of_map_to_list in Hq. apply D2. rewrite Eq. apply elem_of_dom. eauto.
Qed.
Lemma counted_same S M s s' : inf s' = inf s -> used s' = used s -> outstanding s' = outstanding s -> (forall p, dead s p -> dead s' p) -> counted S M s -> counted S M s'.
Proof. intros E1 E2 E3 Hd [C1 C2 C3 C4 C5]. split; rewrite ?E1, ?E2, ?E3; auto. Qed.
Lemma answered_counts s ok rest batch n bad todel s' o : pc s = Creating rest batch (S n) bad todel -> answered s ok = (s', o) ->
  creates (inf s') = creates (inf s) - (if ok then 0 else 1) - (Z.of_nat rest + Z.of_nat n - Z.of_nat (outstanding s')) /\ all_pods (inf s') = all_pods (inf s) /\ workers (inf s') = workers (inf s) /\ (outstanding s' <= rest + n)%nat.
Proof.
  intros Hp Ha. pose proof (answered_keeps _ _ _ _ Ha) as (Ka & Kk & _). pose proof (Kk KRunning) as Kr. pose proof (Kk KPending) as Kp. cbn in Kr, Kp.
  cut (creates (inf s') = creates (inf s) - (if ok then 0 else 1) - (Z.of_nat rest + Z.of_nat n - Z.of_nat (outstanding s')) /\ (outstanding s' <= rest + n)%nat).
  { intros [? ?]. split; [done|]. split; [done|]. split; [|done]. unfold workers. by rewrite Kr, Kp. }
  unfold answered in Ha. rewrite Hp in Ha.
  assert (HS : forall i t b, start_deletes s i t b = (s', o) -> inf s' = i /\ outstanding s' = 0%nat). { intros i t b. unfold start_deletes, outstanding. destruct t; by intros [= <- <-]. }
  destruct n as [|n].
  - destruct (bad || negb ok) eqn:Hb.
    + apply HS in Ha as [-> ->]. destruct ok; cbn; lia.
    + destruct ok; [|by rewrite orb_true_r in Hb]. destruct rest as [|rest].
      * apply HS in Ha as [-> ->]. lia.
      * injection Ha as <- <-. unfold outstanding. cbn [pc inf]. lia.
  - injection Ha as <- <-. unfold outstanding. cbn [pc inf]. destruct ok; cbn; lia.
Qed.
Lemma counted_step S M s e s' o : ordered s -> ends s -> parted (inf s) -> counted S M s -> calm_event e = true ->
  (match e with EReconcile r _ _ => r <= M | _ => True end) -> step s e = (s', o) -> counted (S ∪ seen_in o) M s'.
Proof.
  intros Ho He Hp HC Hcalm HM Hs. assert (HD : forall p, dead s p -> dead s' p) by (intros p Hd; by eapply dead_step).
  destruct e as [p st|p|a b|a b|a b|r x order|r|p ok]; try done.
  - pose proof (step_quiet _ _ _ _ Hs I) as (_ & _ & Hq). rewrite (seen_quiet _ Hq), union_empty_r_L. cbn [step] in Hs.
    eapply counted_same; [..|done|exact HC]; destruct (srv s !! p) as [[? d]|]; try (by injection Hs as <- <-); destruct (d && _); by injection Hs as <- <-.
  - pose proof (step_quiet _ _ _ _ Hs I) as (_ & _ & Hq). rewrite (seen_quiet _ Hq), union_empty_r_L. cbn [step] in Hs.
    eapply counted_same; [..|done|exact HC]; destruct (srv s !! p); by injection Hs as <- <-.
  - by eapply counted_deliver.
  - cbn [step] in Hs. apply (relist_ind a b (fun t o => ordered t /\ ends t /\ parted (inf t) /\ counted (S ∪ seen_in o) M t) s s' o Hs).
    + split; [apply ordered_requeue; apply Ho|]. split; [by apply ends_requeue|]. split; [done|]. cbn [seen_in foldr]. rewrite union_empty_r_L.
      apply (counted_same S M s (requeue s)); [done|done|done|by apply dead_requeue|done].
    + intros t o0 t' o' w q (T1 & T2 & T3 & T4) _ Hst. split; [by eapply ordered_deliver|]. split; [by eapply ends_deliver|]. split; [by eapply parted_step|].
      rewrite seen_app, (assoc_L _). by eapply counted_deliver.
  - pose proof (step_quiet _ _ _ _ Hs I) as (Ka & Kk & Hq). rewrite (seen_quiet _ Hq), union_empty_r_L. pose proof (frames _ _ _ _ Hs I) as (E1 & E2 & E3 & E4).
    pose proof (Kk KRunning) as Kr. pose proof (Kk KPending) as Kp. cbn in Kr, Kp.
    destruct HC as [C1 C2 C3 C4 C5].
    assert (HG : creates (inf s') = Z.of_nat (size (used s ∖ S)) + Z.of_nat (outstanding s') /\ Z.of_nat (size (workers (inf s))) + creates (inf s') <= M).
    { cbn [step] in Hs. destruct (pc s) eqn:Hpc; try (injection Hs as <- <-; done). destruct (lists order _); [|by injection Hs as <- <-].
      unfold reconcile in Hs. destruct x; [done|]. unfold should_trigger in Hs. rewrite orb_false_r in Hs. destruct (fulfilled (inf s)) eqn:Hful; cbn [negb] in Hs; [|by injection Hs as <- <-].
      apply andb_true_iff in Hful as [Hc%Z.leb_le _]. unfold outstanding in C4 at 1. rewrite Hpc in C4.
      fold (workers (inf s)) in Hs. destruct (Z.ltb_spec 0 (r - Z.of_nat (size (workers (inf s))))).
      - injection Hs as <- <-. unfold outstanding. cbn [pc inf set_expectations creates]. lia.
      - destruct (_ ++ _) as [|p0 l]; [injection Hs as <- <-; unfold outstanding; rewrite Hpc; lia|].
        unfold start_deletes in Hs. injection Hs as <- <-. unfold outstanding. cbn [pc inf set_expectations creates]. lia. }
    destruct HG as [G1 G2]. split.
    + by rewrite Ka.
    + by rewrite E2.
    + intros p. rewrite Ka. auto.
    + by rewrite E2.
    + unfold workers in *. by rewrite Kr, Kp.
  - pose proof (step_quiet _ _ _ _ Hs I) as (_ & _ & Hq). rewrite (seen_quiet _ Hq), union_empty_r_L. clear Hq.
    cbn [step] in Hs. destruct (pc s) as [|rest batch [|n] bad todel|] eqn:Hpc; try (by injection Hs as <- <-).
    destruct HC as [C1 C2 C3 C4 C5]. unfold outstanding in C4 at 1. rewrite Hpc in C4. destruct r as [p| |p]; [| |done].
    + destruct (decide (p ∈ used s)) as [|Hpu]; [injection Hs as <- <-; split; auto; unfold outstanding; rewrite Hpc; lia|].
      pose proof (answered_frames _ _ _ _ Hs) as (_ & E2 & _ & _). apply (answered_counts _ _ rest batch n bad todel) in Hs as (A1 & A2 & A3 & A4); [|done].
      cbn [created inf used] in *.
      assert (Hsz : size (used s' ∖ S) = Datatypes.S (size (used s ∖ S))).
      { rewrite E2. replace (({[p]} ∪ used s) ∖ S) with ({[p]} ∪ used s ∖ S) by (apply set_eq; intros q; destruct (decide (q = p)) as [->|]; set_solver).
        rewrite size_union, size_singleton' by set_solver. done. }
      split.
      * by rewrite A2.
      * rewrite E2. set_solver.
      * intros q. rewrite A2. auto.
      * lia.
      * rewrite A3. lia.
    + pose proof (answered_frames _ _ _ _ Hs) as (_ & E2 & _ & _). apply (answered_counts _ _ rest batch n bad todel) in Hs as (A1 & A2 & A3 & A4); [|done].
      split.
      * by rewrite A2.
      * by rewrite E2.
      * intros q. rewrite A2. auto.
      * rewrite E2. lia.
      * rewrite A3. lia.
  - pose proof (step_quiet _ _ _ _ Hs I) as (Ka & Kk & Hq). rewrite (seen_quiet _ Hq), union_empty_r_L. pose proof (frames _ _ _ _ Hs I) as (E1 & E2 & E3 & E4).
    pose proof (Kk KRunning) as Kr. pose proof (Kk KPending) as Kp. cbn in Kr, Kp. cbn [step] in Hs. unfold answered_delete in Hs.
    assert (HG : creates (inf s') = creates (inf s) /\ outstanding s' = outstanding s).
    { unfold outstanding. destruct (pc s) eqn:Hpc; try (injection Hs as <- <-; by rewrite Hpc). destruct (decide _); [|injection Hs as <- <-; by rewrite Hpc].
      destruct (List.filter _ _); injection Hs as <- <-; cbn [inf pc]; split; try done; by destruct ok. }
    destruct HG as [G1 G2]. destruct HC as [C1 C2 C3 C4 C5]. split; rewrite ?Ka, ?E2, ?G1, ?G2; auto. unfold workers in *. by rewrite Kr, Kp.
Qed.
Lemma exec_counted M h s : 0 <= M -> exec step init h s -> calm h -> asks_at_most M h -> counted (seen_in (obs_of h)) M s.
Proof.
  intros HM Hx. cut (exec step init h s /\ (calm h -> asks_at_most M h -> counted (seen_in (obs_of h)) M s)); [tauto|]. revert h s Hx.
  apply (exec_ind_r step init (fun h s => exec step init h s /\ (calm h -> asks_at_most M h -> counted (seen_in (obs_of h)) M s))).
  - split; [constructor|]. intros _ _. split; cbn; try set_solver.
  - intros h s e o s' Hx [_ IH] Hs. split; [apply exec_app; exists s; split; [done|]; econstructor; [exact Hs|constructor]|].
    intros [Hc Hc']%Forall_app [Ha Ha']%Forall_app. rewrite obs_of_snoc, seen_app. rewrite Forall_singleton in Hc', Ha'. cbn [fst] in Hc', Ha'.
    eapply counted_step; [by eapply exec_ordered|by eapply exec_ends|by eapply exec_parted|by apply IH|done|done|done].
Qed.
Lemma expected_exact h s : exec step init h s -> calm h ->
  exists U : gset pod, (forall p, p ∈ U <-> p ∈ used s /\ ~ told (obs_of h) p) /\ creates (inf s) = Z.of_nat (size U) + Z.of_nat (outstanding s).
Proof.
  intros Hx Hc. assert (exists M, 0 <= M /\ asks_at_most M h) as (M & HM & Ha).
  { clear. induction h as [|[e o] h (M & HM & IH)]; [exists 0; split; [done|constructor]|].
    exists (Z.max M (match e with EReconcile r _ _ => r | _ => 0 end)). split; [lia|]. constructor; [destruct e; cbn; lia|].
    eapply Forall_impl; [exact IH|]. intros [[] ?]; cbn; lia. }
  destruct (exec_counted M h s HM Hx Hc Ha) as [C1 C2 C3 C4 C5]. exists (used s ∖ seen_in (obs_of h)). split; [|done].
  intros p. by rewrite elem_of_difference, seen_told.
Qed.
Lemma never_more M h s : 0 <= M -> exec step init h s -> calm h -> asks_at_most M h -> Z.of_nat (size (live s)) <= M.
Proof.
  intros HM Hx Hc Ha. destruct (exec_counted M h s HM Hx Hc Ha) as [C1 C2 C3 C4 C5]. pose proof (exec_ordered _ _ Hx) as Ho. pose proof (exec_ends _ _ Hx) as He.
  pose proof (exec_books _ _ Hx) as [F1 F2].
  assert (Hsub : live s ⊆ workers (inf s) ∪ used s ∖ seen_in (obs_of h)).
  { intros p Hp. unfold live in Hp. apply elem_of_dom in Hp as [[st d] Hl]. apply map_filter_lookup_Some in Hl as [Hl Hd]. cbn in Hd. subst d.
    assert (Hpd : p ∈ dom (srv s)) by (apply elem_of_dom; eauto). assert (Hpu : p ∈ used s) by by apply (or_srv _ Ho).
    destruct (decide (p ∈ seen_in (obs_of h))) as [Hse|]; [|set_solver]. apply elem_of_union. left.
    destruct (decide (p ∈ all_pods (inf s))) as [Hall|Hn]; [|by destruct (C3 p Hse Hn) as (_ & ? & _)].
    apply F2 in Hall. destruct (rep (obs_of h) p) as [k|] eqn:E; [|done]. apply F1 in E.
    assert (Hnot : ~ p ∈ succeeded (inf s) ∪ failed (inf s)). { intros HS. destruct (en_info _ He p HS) as [_ HA]. by specialize (HA _ _ Hl). }
    clear -E Hnot. unfold workers. destruct k; cbn in E; set_solver. }
  apply subseteq_size in Hsub. rewrite size_union_alt in Hsub.
  assert (size ((used s ∖ seen_in (obs_of h)) ∖ workers (inf s)) <= size (used s ∖ seen_in (obs_of h)))%nat by (apply subseteq_size; set_solver). lia.
Qed.
