(** Proofs for C50 and C51: one run of the reconciliation. *)
From Coq Require Import ZArith Lia.
From stdpp Require Import gmap.
From Verif Require Import Trace Kube_Model Kube_Spec Kube_Proofs Kube_Proofs2 Kube_Proofs3.
Local Open Scope Z_scope.

Definition rest_of (s : state) : nat := match pc s with Creating rest _ _ _ _ => rest | _ => 0 end.
Definition bad_of (s : state) : bool := match pc s with Creating _ _ _ b _ => b | _ => false end.
Definition stopped (s : state) : Prop := match pc s with Creating _ _ _ b _ => b = true | _ => True end.
Lemma requests_app a b : requests (a ++ b) = (requests a + requests b)%nat.
Proof. unfold requests. by rewrite sum_list_with_app. Qed.
Definition calls_only (o : obs) : Prop := match o with OCreate _ | OReturn _ | ODeletes _ => False | _ => True end.
Lemma requests_calls os : Forall calls_only os -> requests os = 0%nat.
Proof. induction 1 as [|o os Ho _ IH]; [done|]. unfold requests in *. cbn. rewrite IH. by destruct o. Qed.
Lemma relist_calls_only a b s s' o : relist a b s = (s', o) -> Forall calls_only o /\ pc s' = pc s.
Proof.
  intros Hr. apply (relist_ind a b (fun t o => Forall calls_only o /\ pc t = pc s) s s' o Hr); [by split; [constructor|]|].
  intros t o0 t' o' w q [H1 H2] Hw. cbn [step]. rewrite Hw. pose proof (call_cached a b (cached t) (inf t) [] w) as Hc.
  destruct (call a b _ w) as [[c i] o1]. intros [= <- <-]. destruct Hc as [_ (put & ->)]. split; [|done]. apply Forall_app. split; [done|]. by repeat constructor.
Qed.
(** What one step does to a run in progress. *)
Definition goes (t t1 : state) (e : event) (o : list obs) : Prop :=
  (pc t1 = Idle /\ requests o = 0%nat /\ (exists b, o = [OReturn b]) /\ (create_error e = false -> bad_of t = false -> rest_of t = 0%nat)) \/
  (pc t1 <> Idle /\ Forall (fun x => ~ exists b, x = OReturn b) o /\ (requests o + rest_of t1 <= rest_of t)%nat /\
   (create_error e = false -> bad_of t = false -> (requests o + rest_of t1)%nat = rest_of t /\ bad_of t1 = false) /\ (stopped t -> requests o = 0%nat /\ stopped t1)).
Lemma goes_same t e o t1 : pc t <> Idle -> pc t1 = pc t -> Forall calls_only o -> goes t t1 e o.
Proof.
  intros Hp E Ho. right. rewrite E. split; [done|]. split.
  { eapply Forall_impl; [exact Ho|]. intros x Hx (b & ->). done. }
  unfold rest_of, bad_of, stopped. rewrite E, (requests_calls _ Ho). repeat split; auto.
Qed.
Lemma goes_deletes t i todel bad t1 e o : pc t <> Idle -> start_deletes t i todel bad = (t1, o) -> (create_error e = false -> bad_of t = false -> rest_of t = 0%nat) -> goes t t1 e o.
Proof.
  intros Hp Hd H0. unfold start_deletes in Hd. destruct todel as [|p l]; injection Hd as <- <-.
  - left. repeat split; eauto.
  - right. split; [done|]. split; [constructor; [by intros (b & ?)|constructor]|]. unfold rest_of, bad_of, stopped, requests in *. cbn [pc sum_list_with]. split; [lia|].
    split; [|done]. intros He Hb. by rewrite (H0 He Hb).
Qed.
Lemma goes_answered t ok t1 o rest batch n bad todel e : pc t = Creating rest batch (S n) bad todel -> (create_error e = negb ok) -> answered t ok = (t1, o) -> goes t t1 e o.
Proof.
  intros Hp He Ha. unfold answered in Ha. rewrite Hp in Ha. destruct n as [|n].
  - destruct (bad || negb ok) eqn:Hb.
    + eapply goes_deletes; [by rewrite Hp|exact Ha|]. unfold bad_of. rewrite Hp, He. intros H1 H2. by rewrite H1, H2 in Hb.
    + apply orb_false_iff in Hb as [-> Hok]. destruct rest as [|rest].
      * eapply goes_deletes; [by rewrite Hp|exact Ha|]. unfold rest_of. by rewrite Hp.
      * injection Ha as <- <-. right. split; [done|]. split; [constructor; [by intros (b & ?)|constructor]|].
        unfold rest_of, bad_of, stopped, requests. rewrite Hp. cbn [pc sum_list_with]. split; [lia|]. split; [|done]. intros _ _. split; [lia|done].
  - injection Ha as <- <-. right. split; [done|]. split; [constructor|]. unfold rest_of, bad_of, stopped, requests. rewrite Hp. cbn [pc sum_list_with]. split; [lia|].
    split; [|intros ->; done]. intros H1 ->. rewrite <- He, H1. done.
Qed.
Lemma step_goes t e t1 o : step t e = (t1, o) -> pc t <> Idle -> restarts e = false -> goes t t1 e o.
Proof.
  intros Hs Hp Hr. destruct e as [p st|p|a b|a b|a b|r x order|r|p ok]; cbn [step] in Hs; try done.
  - destruct (srv t !! p) as [[? d]|]; [destruct (d && _)|]; injection Hs as <- <-; by apply goes_same.
  - destruct (srv t !! p); injection Hs as <- <-; by apply goes_same.
  - destruct (wq t) as [|w q]; [injection Hs as <- <-; by apply goes_same|]. pose proof (call_cached a b (cached t) (inf t) [] w) as Hc.
    destruct (call a b _ w) as [[c i] o1]. injection Hs as <- <-. destruct Hc as [_ (put & ->)]. apply goes_same; [done|done|]. by repeat constructor.
  - apply relist_calls_only in Hs as [? ?]. by apply goes_same.
  - destruct (pc t) eqn:E; [done| |]; injection Hs as <- <-; apply goes_same; rewrite ?E; done.
  - destruct (pc t) as [|rest batch [|n] bad todel|] eqn:E; [done| | |]; try (injection Hs as <- <-; apply goes_same; rewrite ?E; done).
    destruct r as [p| |p].
    + destruct (decide _); [injection Hs as <- <-; apply goes_same; rewrite ?E; done|].
      destruct (goes_answered (created t p) true t1 o rest batch n bad todel (ECreate (Made p)) E eq_refl Hs) as [H|H]; [left|right]; done.
    + by eapply (goes_answered t false).
    + destruct (decide _); [injection Hs as <- <-; apply goes_same; rewrite ?E; done|].
      destruct (goes_answered (created t p) false t1 o rest batch n bad todel (ECreate (Lost p)) E eq_refl Hs) as [H|H]; [left|right]; done.
  - unfold answered_delete in Hs. destruct (pc t) as [| |todel bad] eqn:E; [done| |]; try (injection Hs as <- <-; apply goes_same; rewrite ?E; done).
    destruct (decide _); [|injection Hs as <- <-; apply goes_same; rewrite ?E; done].
    destruct (List.filter _ _) as [|p0 l]; injection Hs as <- <-.
    + left. unfold rest_of. rewrite E. repeat split; eauto.
    + right. split; [done|]. split; [constructor|]. unfold rest_of, bad_of, stopped, requests. rewrite E. cbn [pc sum_list_with]. repeat split; auto.
Qed.
Lemma obs_of_cons e o h : obs_of ((e, o) :: h) = o ++ obs_of h.
Proof. done. Qed.
Lemma one_run_app a b : one_run (a ++ b) -> one_run b.
Proof. intros H o1 x o2 E. apply (H (a ++ o1) x o2). by rewrite E, app_assoc. Qed.
Lemma run_bound t h s : exec step t h s -> pc t <> Idle -> Forall (fun eo => restarts (fst eo) = false) h -> one_run (obs_of h) ->
  (requests (obs_of h) <= rest_of t)%nat /\ (stopped t -> requests (obs_of h) = 0%nat) /\
  (Forall (fun eo => create_error (fst eo) = false) h -> bad_of t = false -> returned (obs_of h) -> requests (obs_of h) = rest_of t).
Proof.
  induction 1 as [t|t e o t1 h s He Hx IH]; intros Hp Hr Ho.
  - split; [unfold obs_of, requests; cbn; lia|]. split; [done|]. intros _ _ (b & Hb). by apply elem_of_nil in Hb.
  - inversion Hr as [|? ? Hr1 Hr2]; subst. rewrite obs_of_cons in *. rewrite requests_app.
    destruct (step_goes t e t1 o He Hp Hr1) as [(E & Q & (b & ->) & H0)|(E & Hn & Q & Q2 & Q3)].
    + assert (obs_of h = []) as ->. { apply (Ho [] b (obs_of h)). done. } rewrite Q. cbn. split; [lia|]. split; [done|].
      intros Hc Hb _. inversion Hc; subst. by rewrite H0.
    + destruct (IH E Hr2 (one_run_app _ _ Ho)) as (I1 & I2 & I3). split; [lia|]. split.
      * intros Hst. destruct (Q3 Hst) as [Q4 Q5]. rewrite Q4, (I2 Q5). done.
      * intros Hc Hb (b & [Hb'|Hb']%elem_of_app); inversion Hc as [|? ? Hc1 Hc2]; subst.
        -- rewrite Forall_forall in Hn. exfalso. apply (Hn _ Hb'). eauto.
        -- destruct (Q2 Hc1 Hb) as [Q4 Q5]. rewrite (I3 Hc2 Q5); [done|]. by exists b.
Qed.
Lemma creates_at_most s0 r x order o h s : exec step s0 ((EReconcile r x order, o) :: h) s -> pc s0 = Idle ->
  Forall (fun eo => restarts (fst eo) = false) h -> one_run (o ++ obs_of h) -> o <> [] ->
  Z.of_nat (requests (o ++ obs_of h)) <= missing r (inf s0) /\
  (should_trigger x (inf s0) = true -> Forall (fun eo => create_error (fst eo) = false) h -> returned (o ++ obs_of h) -> Z.of_nat (requests (o ++ obs_of h)) = missing r (inf s0)).
Proof.
  intros Hx Hp Hr Ho Hne. inversion Hx as [|? ? ? t ? ? Hs Hx']; subst. cbn [step] in Hs. rewrite Hp in Hs. destruct (lists order _); [|by injection Hs as <- <-].
  unfold reconcile in Hs. fold (workers (inf s0)) in Hs. rewrite requests_app. unfold missing.
  destruct (should_trigger x (inf s0)); cbn [negb] in Hs.
  2:{ injection Hs as <- <-. assert (obs_of h = []) as -> by by apply (Ho [] false). unfold requests. cbn. split; [lia|done]. }
  destruct (Z.ltb_spec 0 (r - Z.of_nat (size (workers (inf s0))))) as [Hd|Hd].
  - injection Hs as <- <-. apply one_run_app in Ho. apply run_bound in Hx' as (I1 & I2 & I3); [|done..]. unfold rest_of in *. cbn [pc] in *. unfold requests at 1 3. cbn [sum_list_with].
    split; [lia|]. intros _ Hc (b & [Hb|Hb]%elem_of_app); [by apply elem_of_list_singleton in Hb|]. rewrite I3; [lia|done|done|by exists b].
  - destruct (py_slice order _ ++ _) as [|p0 l] eqn:El.
    + injection Hs as <- <-. assert (obs_of h = []) as -> by by apply (Ho [] false). unfold requests. cbn. split; [lia|]. intros; lia.
    + unfold start_deletes in Hs. injection Hs as <- <-. apply one_run_app in Ho. apply run_bound in Hx' as (I1 & I2 & I3); [|done..]. unfold rest_of in *. cbn [pc] in *.
      unfold requests at 1 3. cbn [sum_list_with]. split; [lia|]. intros; lia.
Qed.
Lemma stops_after_error s e o h s' : exec step s ((e, o) :: h) s' -> (exists rest batch n bad todel, pc s = Creating rest batch (S n) bad todel) ->
  e = ECreate Refused \/ (exists p, e = ECreate (Lost p) /\ p ∉ used s) -> Forall (fun eo => restarts (fst eo) = false) h -> one_run (o ++ obs_of h) ->
  requests (o ++ obs_of h) = 0%nat.
Proof.
  intros Hx (rest & batch & n & bad & todel & Hp) He Hr Ho. inversion Hx as [|? ? ? t ? ? Hs Hx']; subst.
  assert (HA : exists t0, pc t0 = pc s /\ answered t0 false = (t, o)).
  { destruct He as [->|(p & -> & Hn)]; cbn [step] in Hs; rewrite Hp in Hs; [by exists s|]. rewrite decide_False in Hs by done. by exists (created s p). }
  destruct HA as (t0 & Hp0 & Ha). rewrite Hp in Hp0. rewrite requests_app. unfold answered in Ha. rewrite Hp0 in Ha. rewrite orb_true_r in Ha. destruct n as [|n].
  - unfold start_deletes in Ha. destruct todel; injection Ha as <- <-.
    + assert (obs_of h = []) as -> by by apply (Ho [] true). done.
    + apply one_run_app in Ho. apply run_bound in Hx' as (I1 & I2 & I3); [|done..]. rewrite I2; done.
  - injection Ha as <- <-. apply run_bound in Hx' as (I1 & I2 & I3); [|done..]. rewrite I2; done.
Qed.
(** Scaling down. *)
Lemma scale_down h s r x order s' o : exec step init h s -> step s (EReconcile r x order) = (s', o) -> pc s = Idle ->
  forall ps, ODeletes ps ∈ o -> NoDup ps /\ (forall p, p ∈ ps -> p ∈ pending (inf s) ∪ succeeded (inf s) ∪ failed (inf s) /\ p ∉ running (inf s)) /\
    Z.of_nat (size (workers (inf s) ∩ list_to_set ps)) = (if decide (Z.of_nat (size (workers (inf s))) = r) then 0 else Z.max 0 (Z.of_nat (size (pending (inf s))) - (Z.of_nat (size (workers (inf s))) - r))) /\
    r <= Z.of_nat (size (workers (inf s))).
Proof.
  intros Hx Hs Hp ps Hps. cbn [step] in Hs. rewrite Hp in Hs. destruct (lists order (pending (inf s))) eqn:Hl; [|injection Hs as <- <-; by apply elem_of_nil in Hps].
  apply andb_true_iff in Hl as [Hnd%bool_decide_eq_true Hset%bool_decide_eq_true].
  unfold reconcile in Hs. fold (workers (inf s)) in Hs. destruct (negb _); [injection Hs as <- <-; by apply elem_of_list_singleton in Hps|].
  destruct (Z.ltb_spec 0 (r - Z.of_nat (size (workers (inf s))))) as [Hd|Hd]; [injection Hs as <- <-; by apply elem_of_list_singleton in Hps|].
  set (delta := r - Z.of_nat (size (workers (inf s)))) in *. set (st := elements (succeeded (inf s) ∪ failed (inf s))) in *.
  destruct (py_slice order delta ++ st) as [|p0 l] eqn:El; [injection Hs as <- <-; by apply elem_of_list_singleton in Hps|]. rewrite <- El in Hs.
  assert (ps = py_slice order delta ++ st) as ->. { unfold start_deletes in Hs. rewrite El in Hs. injection Hs as <- <-. apply elem_of_list_singleton in Hps as [= ->]. done. }
  clear Hps Hs El l p0. pose proof (sets_disjoint _ _ Hx) as [_ HD].
  assert (Hsl : forall p, p ∈ py_slice order delta -> p ∈ pending (inf s)).
  { intros p Hin. rewrite <- Hset. apply elem_of_list_to_set. unfold py_slice in Hin. destruct (delta =? 0); [by apply elem_of_nil in Hin|]. by eapply elem_of_take in Hin as (i & ? & _); apply elem_of_list_lookup_2 in H. }
  assert (Hst : forall p, p ∈ st -> p ∈ succeeded (inf s) \/ p ∈ failed (inf s)) by (intros p Hin; apply elem_of_elements in Hin; set_solver).
  assert (Hnp : NoDup (py_slice order delta)).
  { unfold py_slice. destruct (delta =? 0); [constructor|]. match goal with |- NoDup (take ?n _) => rewrite <- (take_drop n order) in Hnd end. by apply NoDup_app in Hnd as [? _]. }
  assert (Hexcl : forall p, p ∈ st -> p ∉ pending (inf s) /\ p ∉ running (inf s)).
  { intros p [H|H]%Hst; split; intros H'; [specialize (HD p KSucceeded KPending H H')|specialize (HD p KSucceeded KRunning H H')|specialize (HD p KFailed KPending H H')|specialize (HD p KFailed KRunning H H')]; done. }
  split; [|split; [|split]].
  - apply NoDup_app. split; [done|]. split; [|apply NoDup_elements]. intros p H1%Hsl H2. by destruct (Hexcl p H2).
  - intros p [H|H]%elem_of_app.
    + apply Hsl in H. split; [set_solver|]. intros H'. by specialize (HD p KPending KRunning H H').
    + split; [apply Hst in H; set_solver|]. by apply Hexcl.
  - assert (workers (inf s) ∩ list_to_set (py_slice order delta ++ st) = list_to_set (py_slice order delta)) as ->.
    { apply set_eq. intros p. rewrite elem_of_intersection, !elem_of_list_to_set, elem_of_app. unfold workers. rewrite elem_of_union. split.
      - intros [H1 [H2|H2]]; [done|]. apply Hexcl in H2 as [H3 H4]. tauto.
      - intros H. split; [right; auto|by left]. }
    rewrite size_list_to_set by done. unfold py_slice. assert (Hlen : length order = size (pending (inf s))) by (rewrite <- Hset; by rewrite size_list_to_set).
    destruct (Z.eqb_spec delta 0) as [E|E].
    + rewrite decide_True by lia. done.
    + rewrite decide_False by lia. rewrite take_length, Hlen. lia.
  - lia.
Qed.
