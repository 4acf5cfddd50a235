(** Proofs for C52, C68 and C69. *)
From Coq Require Import ZArith Lia.
From stdpp Require Import list.
From Verif Require Import Trace Phase_Model Phase_Spec.
Local Open Scope Z_scope.

(** What a run may record, given the status in its snapshot. *)
Definition exists_after (os : list obs) (r : resource) : Prop := OCreate r Ok ∈ os \/ OCreate r Conflict ∈ os.
Definition extends (st st' : status) : Prop := forall r, records st r -> records st' r.
Definition justified (os : list obs) (st st' : status) : Prop := forall r, records st' r -> records st r \/ exists_after os r.
Lemma justified_refl os st : justified os st st.
Proof. by intros r; left. Qed.
Lemma justified_trans os1 os2 st1 st2 st3 : justified os1 st1 st2 -> justified os2 st2 st3 -> justified (os1 ++ os2) st1 st3.
Proof.
  intros H1 H2 r Hr. unfold exists_after. rewrite !elem_of_app. destruct (H2 r Hr) as [H|[H|H]]; [destruct (H1 r H) as [?|[?|?]]|..]; tauto.
Qed.
Lemma justified_eq os st st' : (forall r, records st' r <-> records st r) -> justified os st st'.
Proof. intros H r Hr. left. by apply H. Qed.

Lemma bind_inv {A B} (x : io A) (f : A -> io B) os b : bind x f = (os, Some b) -> exists os1 a os2, x = (os1, Some a) /\ f a = (os2, Some b) /\ os = os1 ++ os2.
Proof. unfold bind. destruct x as [o1 [a|]]; cbn; [|done]. destruct (f a) as [o2 r] eqn:E. cbn. intros [= <- ->]. eauto 10. Qed.
Lemma ensure_inv w r have put st os st' : ensure w r have put st = (os, Some st') ->
  (have = true /\ st' = st /\ os = []) \/ (have = false /\ st' = put st /\ exists_after os r).
Proof.
  unfold ensure. destruct have; [intros [= <- <-]; by left|]. intros (o1 & [] & o2 & E1 & [= <- <-] & ->)%bind_inv. right. unfold create in E1. rewrite app_nil_r.
  destruct (creating w r) eqn:Ec; injection E1 as <-; try done; split_and!; try done; [left|right]; left.
Qed.
Lemma cleanup_inv w st os u : cleanup w st = (os, Some u) -> True.
Proof. done. Qed.

Ltac rec := intros r; destruct r; cbn; tauto.
(** The outcome of handle_pending. *)
Lemma pending_out w st os st' b : handle_pending w st = (os, Some (st', b)) -> b = false /\ justified os st st' /\ extends st st' /\
  ((phase_ st' = Some (phase_of st) /\ completion st' = completion st) \/
   (phase_ st' = Some Running /\ completion st' = completion st /\ forall r, records st' r) \/
   (phase_ st' = Some Failed /\ completion st' = Some (now w / 1000))).
Proof.
  unfold handle_pending. set (st1 := set_phase st (phase_of st)).
  assert (J1 : justified [] st st1 /\ extends st st1 /\ phase_ st1 = Some (phase_of st) /\ completion st1 = completion st) by (split_and!; try done; [apply justified_eq; rec|intros r; by destruct r]).
  clearbody st1. destruct J1 as (J1 & X1 & P1 & C1).
  intros (o1 & st2 & o2 & E1 & E2 & ->)%bind_inv.
  assert (J2 : justified o1 st st2 /\ extends st st2 /\ phase_ st2 = Some (phase_of st) /\ completion st2 = completion st /\ secret st2 = true).
  { apply ensure_inv in E1 as [(Hb & -> & ->)|(Hb & -> & He)]; [split_and!; done|]. split_and!; try done.
    - intros r Hr. assert (r = Secret \/ records st1 r) as [->|Hr1] by (destruct r; tauto); [by right|]. destruct (J1 _ Hr1) as [?|[?%elem_of_nil|?%elem_of_nil]]; [by left|done|done].
    - intros r Hr. specialize (X1 r Hr). destruct r; try done. }
  clear J1 X1 P1 C1 E1. destruct J2 as (J2 & X2 & P2 & C2 & S2).
  apply bind_inv in E2 as (o3 & [p st3] & o4 & E3 & E4 & ->).
  assert (J3 : justified (o1 ++ o3) st st3 /\ extends st st3 /\ phase_ st3 = Some (phase_of st) /\ completion st3 = completion st /\ secret st3 = true /\ pod_ st3 = true).
  { destruct (pod_ st2) eqn:Ep.
    - injection E3 as <- <- <-. rewrite app_nil_r. done.
    - apply bind_inv in E3 as (o5 & p' & o6 & E5 & [= <- <- <-] & ->). split_and!; try done.
      + eapply justified_trans; [exact J2|]. intros r Hr. destruct r; try (by left). right. unfold create_pod in E5. rewrite app_nil_r.
        destruct (creating w Pod) eqn:Ec; injection E5 as <-; try done; [left|right]; left.
      + intros r Hr. specialize (X2 r Hr). destruct r; try done. }
  clear J2 X2 P2 C2 S2 E3. destruct J3 as (J3 & X3 & P3 & C3 & S3 & D3). set (o13 := o1 ++ o3) in *. rewrite (app_assoc o1 o3 o4). fold o13. clearbody o13. clear o1 o3 st1 st2.
  assert (Hstay : o4 = [] -> st' = st3 -> b = false -> b = false ∧ justified (o13 ++ o4) st st' ∧ extends st st' ∧ (phase_ st' = Some (phase_of st) ∧ completion st' = completion st ∨ phase_ st' = Some Running ∧ completion st' = completion st ∧ (∀ r : resource, records st' r) ∨ phase_ st' = Some Failed ∧ completion st' = Some (now w / 1000))).
  { intros -> -> ->. rewrite app_nil_r. split_and!; try done. left. done. }
  destruct p as [p|]; [|injection E4 as <- <- <-; by apply Hstay]. destruct (container_state p); try (injection E4 as <- <- <-; by apply Hstay).
  - clear Hstay. apply bind_inv in E4 as (o5 & st4 & o6 & E5 & E6 & ->).
    assert (J4 : justified (o13 ++ o5) st st4 /\ extends st st4 /\ phase_ st4 = Some (phase_of st) /\ completion st4 = completion st /\ secret st4 = true /\ pod_ st4 = true /\ service st4 = true).
    { apply ensure_inv in E5 as [(Hb & -> & ->)|(Hb & -> & He)]; [rewrite app_nil_r; split_and!; done|]. split_and!; try done.
      - eapply justified_trans; [exact J3|]. intros r Hr. destruct r; try (by left). by right.
      - intros r Hr. specialize (X3 r Hr). destruct r; try done. }
    clear J3 X3 P3 C3 S3 D3 E5. destruct J4 as (J4 & X4 & P4 & C4 & S4 & D4 & V4).
    assert (Hstay : o6 = [] -> st' = st4 -> b = false -> b = false ∧ justified (o13 ++ o5 ++ o6) st st' ∧ extends st st' ∧ (phase_ st' = Some (phase_of st) ∧ completion st' = completion st ∨ phase_ st' = Some Running ∧ completion st' = completion st ∧ (∀ r : resource, records st' r) ∨ phase_ st' = Some Failed ∧ completion st' = Some (now w / 1000))).
    { intros -> -> ->. rewrite app_nil_r. split_and!; try done. left. done. }
    destruct (endpoints w) as [[]|]; try (injection E6 as <- <- <-; by apply Hstay). clear Hstay.
    apply bind_inv in E6 as (o7 & st5 & o8 & E7 & E8 & ->). apply bind_inv in E8 as (o9 & st6 & o10 & E9 & [= <- <- <-] & ->). rewrite app_nil_r.
    assert (J5 : justified (o13 ++ o5 ++ o7) st st5 /\ extends st st5 /\ completion st5 = completion st /\ secret st5 = true /\ pod_ st5 = true /\ service st5 = true /\ route st5 = true).
    { apply ensure_inv in E7 as [(Hb & -> & ->)|(Hb & -> & He)]; [rewrite app_nil_r; split_and!; done|]. split_and!; try done.
      - rewrite app_assoc. eapply justified_trans; [exact J4|]. intros r Hr. destruct r; try (by left). by right.
      - intros r Hr. specialize (X4 r Hr). destruct r; try done. }
    destruct J5 as (J5 & X5 & C5 & S5 & D5 & V5 & R5).
    assert (J6 : justified (o13 ++ o5 ++ o7 ++ o9) st st6 /\ extends st st6 /\ completion st6 = completion st /\ forall r, records st6 r).
    { apply ensure_inv in E9 as [(Hb & -> & ->)|(Hb & -> & He)]; [rewrite app_nil_r; split_and!; try done; intros r; by destruct r|]. split_and!; try done.
      - rewrite (app_assoc o5 o7 o9), (app_assoc o13 (o5 ++ o7) o9). eapply justified_trans; [exact J5|]. intros r Hr. destruct r; try (by left). by right.
      - intros r Hr. specialize (X5 r Hr). destruct r; try done.
      - intros r; by destruct r. }
    destruct J6 as (J6 & X6 & C6 & R6). split_and!; [done| | |].
    + intros r Hr. apply J6. apply R6.
    + intros r Hr. specialize (R6 r). by destruct r.
    + right. left. split_and!; [done|done|]. intros r. specialize (R6 r). by destruct r.
  - apply bind_inv in E4 as (o5 & u & o6 & E5 & [= <- <- <-] & ->). rewrite app_nil_r. split_and!; [done| | |by right; right].
    + intros r Hr. unfold exists_after. rewrite !elem_of_app. destruct (J3 r) as [?|[?|?]]; [by destruct r|tauto..].
    + intros r Hr. specialize (X3 r Hr). by destruct r.
Qed.
Lemma running_out w st os st' b : handle_running w st = (os, Some (st', b)) -> st' = st \/ (st' = finish w st Failed).
Proof.
  unfold handle_running. destruct (if pod_ st then _ else _); cbn.
  - intros [= <- <- <-]. by left.
  - destruct (scaling w); [|done]. intros [= <- <- <-]. by left.
  - intros (o5 & u & o6 & E5 & [= <- <- <-] & ->)%bind_inv. by right.
  - intros [= <- <- <-]. by left.
Qed.
(** What a run may record, all in all. *)
Lemma cluster_out w o os st' b note : handle_cluster w o = ((os, Some (Some st', b)), note) -> let st := default status0 (stat o) in
  ~ over (phase_of st) /\ justified os st st' /\ note = None /\
  ((active o = false /\ phase_ st' = Some Stopped /\ completion st' = Some (now w / 1000) /\ forall r, records st' r <-> records st r) \/
   (active o = true /\ (st' = st /\ phase_of st = Running \/ st' = finish w st Failed /\ phase_of st = Running \/
     (phase_of st = Pending /\ (phase_ st' = Some Pending /\ completion st' = completion st \/ phase_ st' = Some Running /\ completion st' = completion st /\ (forall r, records st' r) \/
       phase_ st' = Some Failed /\ completion st' = Some (now w / 1000)))))).
Proof.
  unfold handle_cluster. cbn zeta. destruct (phase_of (default status0 (stat o))) eqn:Ep; try (intros [= <-]; done); (intros H; split; [by intros [?|?]|]; destruct (active o) eqn:Ea; cbn [negb] in H).
  - injection H as H <-. apply bind_inv in H as (o1 & [s1 b1] & o2 & E1 & [= <- <- <-] & ->). rewrite app_nil_r. apply pending_out in E1 as (_ & J & _ & HH). rewrite Ep in HH. split_and!; [done|done|]. right. split; [done|]. right. right. split; done.
  - injection H as H <-. apply bind_inv in H as (o1 & [] & o2 & E1 & [= <- <- <-] & ->). split_and!; [apply justified_eq; rec|done|]. left. split_and!; try done; rec.
  - injection H as H <-. apply bind_inv in H as (o1 & [s1 b1] & o2 & E1 & [= <- <- <-] & ->). rewrite app_nil_r. apply running_out in E1 as [->| ->].
    + split_and!; [apply justified_refl|done|]. right. tauto.
    + split_and!; [apply justified_eq; rec|done|]. right. tauto.
  - injection H as H <-. apply bind_inv in H as (o1 & [] & o2 & E1 & [= <- <- <-] & ->). split_and!; [apply justified_eq; rec|done|]. left. split_and!; try done; rec.
Qed.
