(** Proofs for C50, C51 and C67: scaling. *)
From Coq Require Import ZArith Lia.
From stdpp Require Import gmap.
From Verif Require Import Trace Kube_Model Kube_Spec Kube_Proofs.
Local Open Scope Z_scope.

Definition seen_in (os : list obs) : gset pod :=
  foldr (fun o acc => match o with OCall (Upd p st) _ => match recognise st with Some _ => {[p]} ∪ acc | None => acc end | _ => acc end) ∅ os.
Lemma seen_told os p : p ∈ seen_in os <-> told os p.
Proof.
  unfold told. induction os as [|o os IH]; cbn [seen_in foldr].
  - split; [set_solver|]. intros (st & put & k & H & _). by apply elem_of_nil in H.
  - assert (HC : (exists q st put k, o = OCall (Upd q st) put /\ recognise st = Some k) \/
      ((match o with OCall (Upd q st) _ => match recognise st with Some _ => {[q]} ∪ seen_in os | None => seen_in os end | _ => seen_in os end) = seen_in os /\ forall q st put k, o = OCall (Upd q st) put -> says st k -> False)).
    { destruct o as [|[q st|q] put| | |]; try (right; split; done). destruct (recognise st) as [k|] eqn:E; [left; eauto 10|].
      right. split; [done|]. intros ? ? ? ? [= <- <- <-] Hk%recognise_says. congruence. }
    destruct HC as [(q & st & put & k & -> & Hk)|[E Hn]].
    + rewrite Hk. fold (seen_in os). rewrite elem_of_union, elem_of_singleton, IH. split.
      * intros [->|(st' & put' & k' & H & Hs)]; [exists st, put, k; split; [left|by apply recognise_says]|exists st', put', k'; split; [by right|done]].
      * intros (st' & put' & k' & [H|H]%elem_of_cons & Hs); [left; by injection H as <- <- <-|right; eauto].
    + fold (seen_in os). rewrite E, IH. split.
      * intros (st' & put' & k' & H & Hs). exists st', put', k'. split; [by right|done].
      * intros (st' & put' & k' & [H|H]%elem_of_cons & Hs); [by destruct (Hn _ _ _ _ (eq_sym H) Hs)|eauto].
Qed.
Lemma seen_app a b : seen_in (a ++ b) = seen_in a ∪ seen_in b.
Proof. apply set_eq. intros p. rewrite elem_of_union, !seen_told. unfold told. setoid_rewrite elem_of_app. naive_solver. Qed.
Lemma seen_quiet os : Forall quiet os -> seen_in os = ∅.
Proof. induction 1 as [|o os Ho _ IH]; [done|]. cbn [seen_in foldr]. fold (seen_in os). rewrite IH. by destruct o as [|[]| | |]. Qed.

(** * Pods that have come to their end *)
Definition over (s : state) (p : pod) : Prop := (forall st, Upd p st ∈ wq s -> alive st = false) /\ (forall st d, srv s !! p = Some (st, d) -> d = true).
Record ends (s : state) : Prop := {
  en_done : forall p st d, srv s !! p = Some (st, d) -> (d = true -> alive st = false) /\ (ended st = true -> d = true);
  en_used : forall p k, p ∈ pods_of (inf s) k -> p ∈ used s;
  en_info : forall p, p ∈ succeeded (inf s) ∪ failed (inf s) -> over s p;
  en_wq : forall q1 p st q2, wq s = q1 ++ Upd p st :: q2 -> ended st = true ->
     (forall st', Upd p st' ∈ q2 -> alive st' = false) /\ (forall st' d, srv s !! p = Some (st', d) -> d = true) }.
Lemma update_sets i k p : let i' := fst (update i k p) in
  (forall q, q <> p -> forall n, q ∈ pods_of i' n <-> q ∈ pods_of i n) /\ (forall n, p ∈ pods_of i' n <-> n = k) /\
  all_pods i' = {[p]} ∪ all_pods i /\ creates i' = (if decide (p ∈ all_pods i) then creates i else creates i - 1).
Proof.
  unfold update. cbn [fst]. destruct (decide (p ∈ all_pods i)) as [Hp|Hp]; cbn [all_pods creates].
  all: split; [intros q Hq n|split; [intros n|split; [set_solver|done]]].
  all: destruct n, k; cbn; set_solver.
Qed.
Lemma deleted_sets i p : let i' := worker_deleted i p in
  (forall q, q <> p -> forall n, q ∈ pods_of i' n <-> q ∈ pods_of i n) /\ (forall n, p ∈ all_pods i -> p ∉ pods_of i' n) /\
  all_pods i' = all_pods i ∖ {[p]} /\ creates i' = creates i.
Proof.
  unfold worker_deleted. destruct (decide (p ∈ all_pods i)) as [Hp|Hp]; cbn [all_pods creates].
  - split; [intros q Hq n; destruct n; cbn; set_solver|]. split; [intros n _; destruct n; cbn; set_solver|]. done.
  - split; [done|]. split; [done|]. split; [set_solver|done].
Qed.
Lemma alive_not_ended st : ended st = true -> alive st = true -> False.
Proof. unfold ended, alive. by destruct (recognise st) as [[]|]. Qed.
Lemma ends_deliver s a b s' o : ordered s -> ends s -> step s (EDeliver a b) = (s', o) -> ends s'.
Proof.
  intros Ho [H1 H0 H2 H3]. cbn [step]. destruct (wq s) as [|w q] eqn:Hq; [intros [= <- <-]; split; unfold over; rewrite ?Hq; eauto|].
  { intros p Hp. specialize (H2 p Hp). unfold over in H2. by rewrite Hq in H2. }
  destruct (call a b (cached s, inf s, []) w) as [[c i] o1] eqn:Hc. intros [= <- <-].
  assert (H2' : forall p, p ∈ succeeded (inf s) ∪ failed (inf s) -> over (State (srv s) (used s) q c i (pc s)) p).
  { intros p Hp. specialize (H2 p Hp) as [H4 H5]. split; [|done]. intros st Hst. apply H4. rewrite Hq. by right. }
  split; cbn [srv used wq inf].
  - done.
  - intros p k Hp. assert (Hw : pod_of w ∈ used s) by (apply (or_wq _ Ho); rewrite Hq; left). destruct w as [p' st|p']; cbn [pod_of] in Hw.
    + cbn [call] in Hc. unfold on_pod_update in Hc. destruct (ignored st); [injection Hc as <- <- <-; eauto|].
      destruct (recognise st) as [k'|] eqn:Hk; [|injection Hc as <- <- <-; eauto]. pose proof (update_sets (inf s) k' p') as Hu.
      destruct (update (inf s) k' p') as [i1 change]. injection Hc as <- <- <-. cbn [fst] in Hu. destruct Hu as (U1 & U2 & _).
      destruct (decide (p = p')) as [->|Hne]; [done|]. apply (H0 p k). by apply U1.
    + cbn [call] in Hc. unfold on_pod_delete in Hc. injection Hc as <- <- <-. destruct (decide (p = p')) as [->|Hne]; [done|]. apply (H0 p k). by apply (deleted_sets (inf s) p').
  - intros p Hp. destruct w as [p' st|p'].
    + cbn [call] in Hc. unfold on_pod_update in Hc. destruct (ignored st); [injection Hc as <- <- <-; auto|].
      destruct (recognise st) as [k|] eqn:Hk; [|injection Hc as <- <- <-; auto]. pose proof (update_sets (inf s) k p') as Hu.
      destruct (update (inf s) k p') as [i1 change]. injection Hc as <- <- <-. cbn [fst] in Hu. destruct Hu as (U1 & U2 & _).
      destruct (decide (p = p')) as [->|Hne].
      * apply elem_of_union in Hp.
        assert (ended st = true). { unfold ended. rewrite Hk. destruct Hp as [Hp|Hp]; [apply (U2 KSucceeded) in Hp|apply (U2 KFailed) in Hp]; by subst k. }
        destruct (H3 [] p' st q eq_refl) as [H4 H5]; [done|]. by split.
      * apply H2'. apply elem_of_union in Hp. apply elem_of_union. destruct Hp as [Hp|Hp]; [left; by apply (U1 p Hne KSucceeded)|right; by apply (U1 p Hne KFailed)].
    + cbn [call] in Hc. unfold on_pod_delete in Hc. injection Hc as <- <- <-. apply H2'. unfold worker_deleted in Hp. destruct (decide _); [|done]. cbn in Hp. set_solver.
  - intros q1 p st q2 E He. apply (H3 (w :: q1) p st q2); [by rewrite E|done].
Qed.
Lemma ends_requeue s : ends s -> ends (requeue s).
Proof.
  intros [H1 H0 H2 H3].
  assert (HU : forall p st, Upd p st ∈ relist_calls s -> exists d, srv s !! p = Some (st, d)).
  { intros p st. unfold relist_calls. rewrite elem_of_app. intros [H|H]; apply elem_of_list_fmap in H as (x & E & Hx); [done|].
    destruct x as [p' [st' d]]. injection E as <- <-. apply elem_of_map_to_list in Hx. eauto. }
  split; cbn [requeue srv used wq inf].
  - done.
  - done.
  - intros p Hp. destruct (H2 p Hp) as [H4 H5]. split; [|done]. cbn [requeue wq]. intros st (d & Hd)%HU. destruct (H1 _ _ _ Hd) as [H6 _]. apply H6. by eapply H5.
  - intros q1 p st q2 E He. assert (exists d, srv s !! p = Some (st, d)) as (d & Hd). { apply HU. rewrite E. apply elem_of_app. right. left. }
    destruct (H1 _ _ _ Hd) as [H4 H5]. split.
    + intros st' Hst'. assert (exists d, srv s !! p = Some (st', d)) as (d' & Hd'). { apply HU. rewrite E. apply elem_of_app. right. by right. }
      rewrite Hd in Hd'. injection Hd' as <- <-. auto.
    + intros st' d' Hd'. rewrite Hd in Hd'. injection Hd' as <- <-. auto.
Qed.
Lemma ends_frame s s' : srv s' = srv s -> wq s' = wq s -> used s' = used s -> (forall k, pods_of (inf s') k = pods_of (inf s) k) -> ends s -> ends s'.
Proof.
  intros E1 E2 E3 E4 [H1 H0 H2 H3]. pose proof (E4 KSucceeded) as E5. pose proof (E4 KFailed) as E6. cbn in E5, E6.
  split; unfold over; rewrite ?E1, ?E2, ?E3, ?E5, ?E6; auto. intros p k. rewrite E4. apply H0.
Qed.
Lemma snoc_inv {A} (q : list A) x q1 y q2 : q ++ [x] = q1 ++ y :: q2 -> (q2 = [] /\ q = q1 /\ x = y) \/ (exists q3, q2 = q3 ++ [x] /\ q = q1 ++ y :: q3).
Proof.
  intros E. destruct q2 as [|z q2 _] using rev_ind.
  - apply app_inj_tail in E as [-> ->]. auto.
  - rewrite app_comm_cons, app_assoc in E. apply app_inj_tail in E as [-> ->]. right. eauto.
Qed.
Lemma ends_step s e s' o : ordered s -> ends s -> step s e = (s', o) -> ends s'.
Proof.
  intros Ho He Hs. destruct e as [p st|p|a b|a b|a b|r x order|r|p ok].
  - cbn [step] in Hs. destruct (srv s !! p) as [[st0 d]|] eqn:E; [|by injection Hs as <- <-]. destruct (d && alive st) eqn:Hd; injection Hs as <- <-; [done|].
    destruct He as [H1 H0 H2 H3].
    assert (HA : d = true -> alive st = false) by (intros ->; by destruct (alive st)).
    split; cbn [srv used wq inf]; [|done| |].
    + intros q st' d'. destruct (decide (p = q)) as [<-|Hne]; [rewrite lookup_insert|rewrite lookup_insert_ne by done; apply H1].
      intros [= <- <-]. split; [|intros ->; apply orb_true_r]. intros [?|Hen]%orb_true_iff; [auto|]. destruct (alive st) eqn:Ea; [|done]. by destruct (alive_not_ended st).
    + intros q Hq. destruct (H2 q Hq) as [H4 H5]. split; cbn [wq srv].
      * intros st' [Hst'|Hst']%elem_of_app; [auto|]. apply elem_of_list_singleton in Hst' as [= <- <-]. apply HA. by eapply H5.
      * intros st' d'. destruct (decide (p = q)) as [<-|Hne]; [rewrite lookup_insert|rewrite lookup_insert_ne by done; apply H5].
        intros [= <- <-]. rewrite (H5 _ _ E). done.
    + intros q1 q st' q2 [(-> & <- & [= <- <-])|(q3 & -> & Eq)]%snoc_inv Hen.
      * split; [intros ? ?%elem_of_nil; done|]. intros st' d'. rewrite lookup_insert. intros [= <- <-]. rewrite Hen. apply orb_true_r.
      * destruct (H3 q1 q st' q3 Eq Hen) as [H4 H5]. split.
        -- intros st'' [Hst'|Hst']%elem_of_app; [auto|]. apply elem_of_list_singleton in Hst' as [= <- <-]. apply HA. by eapply H5.
        -- intros st'' d'. destruct (decide (p = q)) as [<-|Hne]; [rewrite lookup_insert|rewrite lookup_insert_ne by done; apply H5].
           intros [= <- <-]. rewrite (H5 _ _ E). done.
  - cbn [step] in Hs. destruct (srv s !! p) as [y|] eqn:E; [|by injection Hs as <- <-]. injection Hs as <- <-. destruct He as [H1 H0 H2 H3].
    assert (HD : forall q st' d', delete p (srv s) !! q = Some (st', d') -> srv s !! q = Some (st', d')) by (intros q st' d' H; by apply lookup_delete_Some in H as [_ ?]).
    split; cbn [srv used wq inf]; [|done| |].
    + intros q st' d' Hd. apply (H1 q). auto.
    + intros q Hq. destruct (H2 q Hq) as [H4 H5]. split; cbn [wq srv].
      * intros st' [Hst'|Hst']%elem_of_app; [auto|]. by apply elem_of_list_singleton in Hst'.
      * intros st' d' Hd. eapply H5. by apply HD.
    + intros q1 q st' q2 [(-> & <- & E')|(q3 & -> & Eq)]%snoc_inv Hen; [done|]. destruct (H3 q1 q st' q3 Eq Hen) as [H4 H5]. split.
      * intros st'' [Hst'|Hst']%elem_of_app; [auto|]. by apply elem_of_list_singleton in Hst'.
      * intros st'' d' Hd. eapply H5. by apply HD.
  - by eapply ends_deliver.
  - cbn [step] in Hs. apply (relist_ind a b (fun t _ => ordered t /\ ends t) s s' o Hs).
    + split; [apply ordered_requeue; apply Ho|by apply ends_requeue].
    + intros t o0 t' o' w q [? ?] _ Hst. split; [by eapply ordered_deliver|by eapply ends_deliver].
  - cbn [step] in Hs. destruct (relist a b _) as [s1 o1] eqn:Hr. injection Hs as <- <-. apply (relist_ind a b (fun t _ => ordered t /\ ends t) _ s1 o1 Hr).
    + split; [apply ordered_requeue; cbn; [apply Ho|set_solver]|]. apply ends_requeue. destruct He as [H1 H0 H2 H3]. split; cbn [srv used wq inf]; [done| | |].
      * intros q [] Hq; cbn in Hq; set_solver.
      * intros q Hq. cbn in Hq. set_solver.
      * intros q1 ? ? ? E. by destruct q1.
    + intros t o0 t' o' w q [? ?] _ Hst. split; [by eapply ordered_deliver|by eapply ends_deliver].
  - pose proof (frames s (EReconcile r x order) s' o Hs I) as (?&?&?&?). pose proof (step_quiet _ _ _ _ Hs I) as (_ & Ek & _).
    by eapply ends_frame.
  - assert (HC : forall q, q ∉ used s -> ends (created s q)).
    { intros q Hq. destruct He as [H1 H0 H2 H3]. destruct Ho as [O1 O2 O3 _ _ _]. assert (Hn : srv s !! q = None). { apply not_elem_of_dom. set_solver. }
      split; cbn [created srv used wq inf].
      - intros p st d. destruct (decide (q = p)) as [<-|Hne]; [rewrite lookup_insert|rewrite lookup_insert_ne by done; apply H1]. by intros [= <- <-].
      - intros p k Hp. apply H0 in Hp. set_solver.
      - intros p Hp. destruct (H2 p Hp) as [H4 H5]. split; cbn [created wq srv].
        + intros st' [Hst'|Hst']%elem_of_app; [auto|]. by apply elem_of_list_singleton in Hst' as [= -> ->].
        + intros st d. destruct (decide (q = p)) as [<-|Hne]; [|rewrite lookup_insert_ne by done; apply H5].
          exfalso. apply Hq. apply elem_of_union in Hp as [Hp|Hp]; [by apply (H0 q KSucceeded)|by apply (H0 q KFailed)].
      - intros q1 p st' q2 [(-> & <- & [= <- <-])|(q3 & -> & Eq)]%snoc_inv Hen; [done|]. destruct (H3 q1 p st' q3 Eq Hen) as [H4 H5].
        assert (p <> q). { intros ->. apply Hq. apply (O3 (Upd q st')). rewrite Eq. apply elem_of_app. right. left. }
        split.
        + intros st'' [Hst'|Hst']%elem_of_app; [auto|]. by apply elem_of_list_singleton in Hst' as [= -> ->].
        + intros st'' d'. rewrite lookup_insert_ne by done. apply H5. }
    assert (HA : forall t ok, ends t -> answered t ok = (s', o) -> ends s').
    { intros t ok Ht Ha. pose proof (answered_frames _ _ _ _ Ha) as (?&?&?&?). pose proof (answered_keeps _ _ _ _ Ha) as (_ & Ek & _).
      by eapply ends_frame. }
    cbn [step] in Hs. destruct (pc s) as [|rest batch [|n] bad todel|]; try by injection Hs as <- <-. destruct r as [q| |q].
    + destruct (decide _); [by injection Hs as <- <-|]. eapply HA; [|exact Hs]. by apply HC.
    + by eapply HA.
    + destruct (decide _); [by injection Hs as <- <-|]. eapply HA; [|exact Hs]. by apply HC.
  - pose proof (frames s (EDelete p ok) s' o Hs I) as (?&?&?&?). pose proof (step_quiet _ _ _ _ Hs I) as (_ & Ek & _).
    by eapply ends_frame.
Qed.
