(** Property C153: the YARN backend and its applications.  [m] is app_client_cache_max_size,
    [run m es] the state after any sequence of events. *)
From Coq Require Import ZArith Lia.
From stdpp Require Import prelude.
From Verif Require Import Router_Model ProxyLog_Model ProxyLog_Proofs Util_Model Util_Proofs2 Skein_Model Skein_Proofs.
Local Open Scope nat_scope.

(** Application [i] was submitted for cluster [n]. *)
Definition app_of (s : state) (i n : nat) : Prop := exists a, y_apps s !! i = Some a /\ a_cluster a = n.
(** Its container [k] was made for worker [w], and runs or not. *)
Definition container (s : state) (i k w : nat) (runs : bool) : Prop := exists a, y_apps s !! i = Some a /\ a_containers a !! k = Some (w, runs).
Definition in_state (s : state) (i : nat) (x : app_state) : Prop := exists a, y_apps s !! i = Some a /\ a_state a = x.
(** The gateway has recorded application [i] for cluster [n]. *)
Definition recorded (s : state) (n i : nat) : Prop := exists cred, dget n (y_db s) = Some (cred, Some i).

(** C153. Whatever is done to an application is done to the one of the cluster concerned: a
    container is added to the application of the worker's cluster, killed only as the container
    of the worker that is to be stopped, and only the application of a cluster that is stopped
    is killed; though containers have the same numbers in all applications, and addresses are
    used again... *)
Theorem C153_own : forall m es e f, f ∈ snd (step m (run m es) e) ->
  match f with
  | Submitted _ => exists n cred rec, e = StartCluster n cred rec
  | Added i w => exists n rec, StartWorker n w rec ∈ es /\ app_of (run m es) i n
  | Killed i k => exists n w rec, StopWorker w ∈ es /\ StartWorker n w rec ∈ es /\ app_of (run m es) i n /\ container (run m es) i k w true
  | KilledApp i => exists n, e = StopCluster n true /\ app_of (run m es) i n
  end.
Proof.
  intros m es e f. pose proof (run_inv m es) as I. set (s := run m es) in *.
  destruct e as [n cred rec|i addr|i|n ok|n w rec|w|n|i|]; cbn [step]; try (intros Hf; by apply elem_of_nil in Hf).
  - case_decide; cbn [snd]; [intros Hf; by apply elem_of_nil in Hf|]. intros ->%elem_of_list_singleton. eauto.
  - destruct (y_apps s !! i) as [a|]; [|intros Hf; by apply elem_of_nil in Hf]. destruct (a_state a); try (intros Hf; by apply elem_of_nil in Hf). destruct (in_use _ _); intros Hf; by apply elem_of_nil in Hf.
  - destruct (y_apps s !! i); intros Hf; by apply elem_of_nil in Hf.
  - destruct (dget n (y_db s)) as [[cred [i|]]|] eqn:E; try (intros Hf; by apply elem_of_nil in Hf). destruct ok; cbn [snd]; [|intros Hf; by apply elem_of_nil in Hf]. intros ->%elem_of_list_singleton.
    destruct (i_db _ _ _ I _ _ _ E) as (a & Ha & En & _). exists n. split; [done|]. by exists a.
  - destruct (dget n (y_db s)); [|intros Hf; by apply elem_of_nil in Hf]. destruct (dget w (y_workers s)); [intros Hf; by apply elem_of_nil in Hf|]. destruct (get_client _ _ _). intros Hf; by apply elem_of_nil in Hf.
  - destruct (dget w (y_workers s)) as [[n [c|]]|]; [destruct (get_client _ _ _)|..]; intros Hf; by apply elem_of_nil in Hf.
  - destruct (y_calls s !! i) as [[[x c]|]|] eqn:Ei; try (intros Hf; by apply elem_of_nil in Hf). destruct (i_calls _ _ _ I _ _ _ Ei) as (n & Hg & Hc).
    unfold perform. cbn [y_apps]. destruct (find_app x 0 (y_apps s)) as [[j a]|] eqn:Ef; [|intros Hf; by apply elem_of_nil in Hf]. destruct (found_own _ _ _ _ _ _ _ I Hg Ef) as (-> & Hj & En). destruct c as [w rec|w k].
    + cbn [snd]. intros ->%elem_of_list_singleton. destruct Hc as [o Ho]. destruct (i_workers _ _ _ I _ _ _ Ho) as [[rec' Hr] _]. exists n, rec'. split; [done|]. by exists a.
    + destruct Hc as (Hs & [o Ho] & (a' & b & Ha' & Hk)). rewrite Hj in Ha'. injection Ha' as <-. rewrite Hk. destruct b; cbn [snd]; [|intros Hf; by apply elem_of_nil in Hf]. intros ->%elem_of_list_singleton.
      destruct (i_workers _ _ _ I _ _ _ Ho) as [[rec' Hr] _]. exists n, w, rec'. split_and!; [done|done|by exists a|by exists a].
Qed.

(** ...a worker of a cluster whose application runs is started in it, and stopping the worker
    stops its container... *)
Lemma running_client m es s n i addr : inv m es s -> recorded s n i -> in_state s i (Running addr) ->
  exists x, snd (get_client m n s) = Some x /\ c_app x = i.
Proof.
  intros I [cred Hn] (a & Ha & Es). unfold get_client. pose proof (lru_get_out n (y_clients s)) as Hout. destruct (lru_get n (y_clients s)) as [c out]. cbn [snd] in Hout. subst out. destruct (dget n (y_clients s)) as [x|] eqn:Ec.
  - cbn. exists x. split; [done|]. apply dget_in in Ec. destruct (i_clients _ _ _ I _ _ Ec) as [Hx _]. congruence.
  - cbn [y_db y_addrs y_apps]. rewrite Hn, Ha. destruct a as [nn cr st cs]. cbn in Es. subst st. destruct (dget n (y_addrs s)); eexists; (split; [reflexivity|done]).
Qed.
Lemma reaches m es s n x addr : inv m es s -> good_client s n x -> in_state s (c_app x) (Running addr) -> exists a, y_apps s !! c_app x = Some a /\ find_app x 0 (y_apps s) = Some (c_app x, a).
Proof.
  intros I Hg (a & Ha & Es). exists a. split; [done|]. destruct (find_app_complete x 0 (y_apps s) (c_app x) a Ha) as [[j b] E].
  - destruct Hg as [Hn (a' & Ha' & Hs)]. rewrite Ha in Ha'. injection Ha' as <-. unfold answering. rewrite Es in *. destruct Hs as [[= <-]|]; [|done]. rewrite bool_decide_eq_true_2 by done.
    destruct (i_db _ _ _ I _ _ _ Hn) as (a' & Ha' & _ & Ec). rewrite Ha in Ha'. injection Ha' as <-. by rewrite bool_decide_eq_true_2.
  - destruct (found_own _ _ _ _ _ _ _ I Hg E) as (-> & Hb & _). congruence.
Qed.
Theorem C153_start : forall m es n w i addr, recorded (run m es) n i -> in_state (run m es) i (Running addr) -> (forall n' rec, StartWorker n' w rec ∉ es) ->
  exists j k, let es1 := es ++ [StartWorker n w true] in snd (step m (run m es1) (Perform j)) = [Added i w] /\ container (run m (es1 ++ [Perform j])) i k w true /\
    exists j', let es2 := es1 ++ [Perform j; StopWorker w] in snd (step m (run m es2) (Perform j')) = [Killed i k] /\ container (run m (es2 ++ [Perform j'])) i k w false.
Proof.
  intros m es n w i addr Hrec Hrun Hfresh. pose proof (run_inv m es) as I. set (s := run m es) in *.
  assert (dget w (y_workers s) = None) as Hw. { destruct (dget w (y_workers s)) as [[n' o]|] eqn:E; [|done]. destruct (i_workers _ _ _ I _ _ _ E) as [[rec Hr] _]. by apply Hfresh in Hr. }
  (* the first call *)
  set (s0 := State (y_apps s) (y_db s) (dset w (n, None) (y_workers s)) (y_clients s) (y_addrs s) (y_calls s)).
  assert (run m (es ++ [StartWorker n w true]) = let '(t, x) := get_client m n s0 in match x with Some x => make_call t x (Add w true) | None => t end) as E1.
  { rewrite run_snoc. cbn [step]. destruct Hrec as [cred Hn]. fold s. rewrite Hn, Hw. fold s0. by destruct (get_client m n s0). }
  pose proof (run_inv m (es ++ [StartWorker n w true])) as I1.
  assert (exists x, snd (get_client m n s0) = Some x /\ c_app x = i) as (x & Hx & Hxi).
  { destruct (running_client m es s n i addr I Hrec Hrun) as (x & Hx & Hi). exists x. split; [|done]. rewrite <- Hx. unfold get_client, s0. cbn [y_apps y_db y_workers y_clients y_addrs y_calls]. destruct (lru_get n (y_clients s)) as [? [?|]]; [done|]. cbn.
    destruct (dget n (y_db s)) as [[? [?|]]|]; [|done..]. destruct (dget n (y_addrs s)); [done|]. by destruct (y_apps s !! _) as [[? ? [] ?]|]. }
  pose proof (get_client_same m n s0) as Hs. destruct (get_client m n s0) as [t y]. cbn [snd fst] in *. subst y. destruct Hs as (S1 & S2 & S3 & S4). set (s1 := make_call t x (Add w true)) in *. set (j := length (y_calls t)).
  assert (y_calls s1 !! j = Some (Some (x, Add w true))) as Hj by (by apply list_lookup_middle).
  assert (y_apps s1 = y_apps s) as Ea1 by exact S1.
  rewrite E1 in I1. destruct (i_calls _ _ _ I1 _ _ _ Hj) as (n1 & Hg & o & Ho).
  assert (dget w (y_workers s1) = Some (n, None)) as Hw1 by (cbn [s1 make_call y_workers]; rewrite S3; cbn; by rewrite dget_dset, decide_True). rewrite Hw1 in Ho. injection Ho as <- <-.
  assert (in_state s1 (c_app x) (Running addr)) as Hr1 by (unfold in_state; by rewrite Ea1, Hxi).
  destruct (reaches _ _ _ _ _ _ I1 Hg Hr1) as (a & Ha & Hf). rewrite Hxi in *.
  set (k := length (a_containers a)). exists j, k. cbn zeta. rewrite E1.
  set (a' := App (a_cluster a) (a_cred a) (a_state a) (a_containers a ++ [(w, true)])).
  assert (step m s1 (Perform j) = (State (<[i := a']> (y_apps s1)) (y_db s1) (dset w (n, Some k) (y_workers s1)) (y_clients s1) (y_addrs s1) (<[j := None]> (y_calls s1)), [Added i w])) as Est.
  { cbn [step]. rewrite Hj. unfold perform. cbn [y_apps y_workers]. rewrite Hf, Hw1. reflexivity. }
  set (s2 := State (<[i := a']> (y_apps s1)) _ _ _ _ _) in Est.
  assert (run m ((es ++ [StartWorker n w true]) ++ [Perform j]) = s2) as E2 by (by rewrite run_snoc, E1, Est).
  assert (y_apps s2 !! i = Some a') as Ha2 by (apply list_lookup_insert; by eapply lookup_lt_Some).
  assert (a_containers a' !! k = Some (w, true)) as Hk2 by (by apply list_lookup_middle).
  split; [by rewrite Est|]. split; [rewrite E2; by exists a'|].
  (* the second call *)
  set (es2 := (es ++ [StartWorker n w true]) ++ [Perform j]) in *. pose proof (run_inv m es2) as I2. rewrite E2 in I2.
  assert (dget w (y_workers s2) = Some (n, Some k)) as Hw2 by (cbn [s2 y_workers]; by rewrite dget_dset, decide_True).
  assert (in_state s2 i (Running addr)) as Hr2. { exists a'. split; [done|]. destruct Hr1 as (b & Hb & Eb). rewrite Ha in Hb. by injection Hb as <-. }
  assert (recorded s2 n i) as Hrec2. { destruct Hrec as [cred Hn]. exists cred. cbn [s2 s1 make_call y_db]. by rewrite S2. }
  destruct (running_client m es2 s2 n i addr I2 Hrec2 Hr2) as (x2 & Hx2 & Hi2). pose proof (get_client_same m n s2) as Hs2.
  assert (run m (es2 ++ [StopWorker w]) = let '(t, y) := get_client m n s2 in match y with Some y => make_call t y (Kill w k) | None => t end) as E3.
  { rewrite run_snoc, E2. cbn [step]. rewrite Hw2. by destruct (get_client m n s2). }
  replace ((es ++ [StartWorker n w true]) ++ [Perform j; StopWorker w]) with (es2 ++ [StopWorker w]) by (unfold es2; by rewrite <- !app_assoc).
  pose proof (run_inv m (es2 ++ [StopWorker w])) as I3. rewrite E3 in I3. rewrite E3. destruct (get_client m n s2) as [t2 y]. cbn [snd fst] in *. subst y. destruct Hs2 as (T1 & T2 & T3 & T4).
  set (s3 := make_call t2 x2 (Kill w k)) in *. set (j' := length (y_calls t2)). exists j'.
  assert (y_calls s3 !! j' = Some (Some (x2, Kill w k))) as Hj' by (by apply list_lookup_middle).
  destruct (i_calls _ _ _ I3 _ _ _ Hj') as (n3 & Hg3 & _).
  assert (in_state s3 (c_app x2) (Running addr)) as Hr3. { destruct Hr2 as (b & Hb & Eb). exists b. split; [|done]. cbn [s3 make_call y_apps]. by rewrite T1, Hi2. }
  destruct (reaches _ _ _ _ _ _ I3 Hg3 Hr3) as (b & Hb & Hf3). rewrite Hi2 in *.
  assert (b = a') as -> by (cbn [s3 make_call y_apps] in Hb; rewrite T1, Ha2 in Hb; by injection Hb).
  assert (step m s3 (Perform j') = (State (<[i := App (a_cluster a') (a_cred a') (a_state a') (<[k := (w, false)]> (a_containers a'))]> (y_apps s3)) (y_db s3) (y_workers s3) (y_clients s3) (y_addrs s3) (<[j' := None]> (y_calls s3)), [Killed i k])) as Est3.
  { cbn [step]. rewrite Hj'. unfold perform. cbn [y_apps y_workers]. rewrite Hf3, Hk2. reflexivity. }
  split; [by rewrite Est3|]. rewrite run_snoc, E3, Est3. eexists. cbn [fst y_apps]. split; [apply list_lookup_insert; by eapply lookup_lt_Some|]. cbn [a_containers]. apply list_lookup_insert. by eapply lookup_lt_Some.
Qed.

(** ...a cluster that was stopped has no running application any more and nothing of it is
    remembered, for ever; others are not affected; and there are never more clients in memory
    than configured... *)
Ltac no := match goal with H : _ ∈ _ |- _ => (by apply elem_of_nil in H) || (by apply elem_of_list_singleton in H) end.
Theorem C153_stopped : forall m es es' n i, recorded (run m es) n i ->
  let s := run m (es ++ StopCluster n true :: es') in
  in_state s i Ended /\ n ∉ map fst (y_clients s) /\ n ∉ map fst (y_addrs s) /\ forall e w, Added i w ∉ snd (step m s e).
Proof.
  intros m es es' n i [cred Hn].
  assert (forall s e, dget n (y_db s) = Some (cred, Some i) -> in_state s i Ended -> n ∉ map fst (y_clients s) -> n ∉ map fst (y_addrs s) ->
     n ∉ map fst (y_clients (fst (step m s e))) /\ n ∉ map fst (y_addrs (fst (step m s e)))) as Hstep.
  { intros s e Hd (a & Ha & Es) H1 H2.
    assert (forall n' s0, y_apps s0 = y_apps s -> y_db s0 = y_db s -> y_clients s0 = y_clients s -> y_addrs s0 = y_addrs s ->
       n ∉ map fst (y_clients (fst (get_client m n' s0))) /\ n ∉ map fst (y_addrs (fst (get_client m n' s0)))) as Hget.
    { intros n' s0 A1 A2 A3 A4. unfold get_client. rewrite A3, A2, A1, A4. pose proof (lru_get_in n' (y_clients s)) as Hin. pose proof (lru_get_out n' (y_clients s)) as Hout. destruct (lru_get n' (y_clients s)) as [c out]. cbn [fst snd] in *.
      assert (n ∉ map fst c) as Hc by (intros ([k v] & Ek & Hk)%elem_of_list_fmap; apply H1, elem_of_list_fmap; cbn in Ek; subst k; exists (n, v); auto).
      destruct out as [x|]; [by cbn|]. cbn [y_db y_addrs y_apps y_clients y_workers y_calls]. rewrite ?A1, ?A2.
      destruct (dget n' (y_db s)) as [[cr [b|]]|] eqn:En; [|by cbn..].
      assert (forall x, n' <> n -> n ∉ map fst (fst (lru_put m n' x c))) as Hput.
      { intros x Hne ([k v] & Ek & Hk)%elem_of_list_fmap. cbn in Ek. subst k. apply lru_put_in in Hk as [[= ? ?]|Hk]; [congruence|]. apply Hc, elem_of_list_fmap. by exists (n, v). }
      destruct (dget n' (y_addrs s)) as [addr|] eqn:Ead.
      - cbn. split; [|done]. apply Hput. intros ->. apply H2. apply dget_in in Ead. apply elem_of_list_fmap. by exists (n, addr).
      - destruct (decide (n' = n)) as [->|Hne].
        + rewrite Hd in En. injection En as <- <-. rewrite Ha. destruct a as [? ? st ?]. cbn in Es. subst st. by cbn.
        + destruct (y_apps s !! b) as [[? ? [| addr |] ?]|]; [by cbn| |by cbn..]. cbn. split; [by apply Hput|]. rewrite dset_keys. intros [?|?]; congruence. }
    destruct e as [n' cr rec|i' addr|i'|n' ok|n' w rec|w|n'|i'|]; cbn [step].
    - by case_decide.
    - destruct (y_apps s !! i') as [b|]; [|done]. destruct (a_state b); try done. by destruct (in_use _ _).
    - by destruct (y_apps s !! i').
    - destruct (dget n' (y_db s)) as [[cr [i'|]]|]; [|done..]. destruct ok; [|done]. cbn. unfold lru_discard. split; intros ?%ddel_keys; done.
    - destruct (dget n' (y_db s)); [|done]. destruct (dget w (y_workers s)); [done|]. set (s0 := State _ _ _ _ _ _). pose proof (Hget n' s0 eq_refl eq_refl eq_refl eq_refl) as Hg. destruct (get_client m n' s0) as [t [x|]]; exact Hg.
    - destruct (dget w (y_workers s)) as [[n' [c|]]|]; [|done..]. pose proof (Hget n' s eq_refl eq_refl eq_refl eq_refl) as Hg. destruct (get_client m n' s) as [t [x|]]; exact Hg.
    - by apply Hget.
    - destruct (y_calls s !! i') as [[[x c]|]|]; [|done..]. unfold perform. destruct (find_app _ _ _) as [[j b]|]; [|done]. destruct c as [w rec|w k]; [done|]. by destruct (a_containers b !! k) as [[v [|]]|].
    - cbn. split; intros H; by apply elem_of_nil in H. }
  set (es1 := es ++ [StopCluster n true]). replace (es ++ StopCluster n true :: es') with (es1 ++ es') by (unfold es1; by rewrite <- app_assoc).
  assert (in_state (run m es1) i Ended /\ n ∉ map fst (y_clients (run m es1)) /\ n ∉ map fst (y_addrs (run m es1))) as Hfirst.
  { unfold es1. rewrite run_snoc. cbn [step]. rewrite Hn. destruct (i_db _ _ _ (run_inv m es) _ _ _ Hn) as (a & Ha & _). rewrite Ha. cbn [fst y_apps y_clients y_addrs put_app]. split_and!.
    - exists (set_state Ended a). cbn [put_app y_apps]. split; [|done]. apply list_lookup_insert. by eapply lookup_lt_Some.
    - unfold lru_discard. intros ([k v] & Ek & Hk)%elem_of_list_fmap. apply ddel_in in Hk as [_ Hk]. cbn in *. congruence.
    - intros ([k v] & Ek & Hk)%elem_of_list_fmap. apply ddel_in in Hk as [_ Hk]. cbn in *. congruence. }
  assert (forall es'', dget n (y_db (run m (es1 ++ es''))) = Some (cred, Some i)) as Hdb.
  { intros es''. apply (x_db _ _ (run_ext m es1 es'')). apply (x_db _ _ (run_ext m es [StopCluster n true])). done. }
  assert (forall es'', in_state (run m (es1 ++ es'')) i Ended) as Hend.
  { intros es''. destruct Hfirst as [(a & Ha & Es) _]. destruct (x_apps _ _ (run_ext m es1 es'') _ _ Ha) as (b & Hb & _ & _ & Hl & _). exists b. split; [done|]. unfold later_state in Hl. by rewrite Es in Hl. }
  assert (n ∉ map fst (y_clients (run m (es1 ++ es'))) /\ n ∉ map fst (y_addrs (run m (es1 ++ es')))) as [H1 H2].
  { induction es' as [|e es' IH] using rev_ind; [rewrite app_nil_r; tauto|]. rewrite app_assoc, run_snoc. apply Hstep; [apply Hdb|apply Hend|apply IH|apply IH]. }
  split_and!; [apply Hend|done|done|]. intros e w Hin. pose proof (run_inv m (es1 ++ es')) as I. destruct (Hend es') as (a & Ha & Es).
  clear I Hstep Hfirst H1 H2 Hdb Hend.
  destruct e as [n' cr rec|i' addr|i'|n' ok|n' w' rec|w'|n'|i'|]; cbn [step] in Hin.
  - case_decide; cbn [snd] in Hin; no.
  - destruct (y_apps _ !! i') as [b|]; [|no]. destruct (a_state b); try no. destruct (in_use _ _); no.
  - destruct (y_apps _ !! i'); no.
  - destruct (dget n' _) as [[cr [i'|]]|]; [|no..]. destruct ok; cbn [snd] in Hin; no.
  - destruct (dget n' _); [|no]. destruct (dget w' _); [no|]. destruct (get_client _ _ _); no.
  - destruct (dget w' _) as [[n' [c|]]|]; [|no..]. destruct (get_client _ _ _); no.
  - no.
  - destruct (y_calls _ !! i') as [[[x c]|]|]; [|no..]. unfold perform in Hin. cbn [y_apps] in Hin. destruct (find_app _ _ _) as [[j b]|] eqn:Ef; [|no]. apply find_app_sound in Ef as (j' & -> & Hj & Hans). cbn [plus] in Hin.
    destruct c as [v rec|v k]; cbn [snd] in Hin.
    + apply elem_of_list_singleton in Hin. injection Hin as -> ->. rewrite Ha in Hj. injection Hj as ->. unfold answering in Hans. by rewrite Es in Hans.
    + destruct (a_containers b !! k) as [[? [|]]|]; cbn [snd] in Hin; no.
  - no.
Qed.
Theorem C153_others : forall m es n ok j, ~ recorded (run m es) n j -> y_apps (run m (es ++ [StopCluster n ok])) !! j = y_apps (run m es) !! j.
Proof.
  intros m es n ok j Hj. rewrite run_snoc. cbn [step]. destruct (dget n (y_db (run m es))) as [[cred [i|]]|] eqn:E; [|done..]. destruct ok; [|done]. cbn [fst y_apps].
  destruct (y_apps (run m es) !! i) as [a|]; [|done]. cbn [put_app y_apps]. apply list_lookup_insert_ne. intros ->. apply Hj. by exists cred.
Qed.
Theorem C153_memory : forall m es, length (y_clients (run m es)) <= m.
Proof. intros m es. apply (i_size _ _ _ (run_inv m es)). Qed.

(** ...but an application whose submission took longer than the start timeout is not known to
    the gateway: whatever the gateway does, it is never stopped (stopping the cluster has no
    effect)... *)
Theorem C153_orphan_refuted : exists m es n i addr, in_state (run m es) i (Running addr) /\ app_of (run m es) i n /\
  forall es', AppEnds i ∉ es' -> in_state (run m (es ++ es')) i (Running addr) /\ snd (step m (run m (es ++ es')) (StopCluster n true)) = [].
Proof.
  exists 10, [StartCluster 1 100 false; AppRuns 0 7], 1, 0, 7. split; [eexists; split; reflexivity|]. split; [eexists; split; reflexivity|].
  set (es := [StartCluster 1 100 false; AppRuns 0 7]). intros es' Hno.
  assert (forall es'', dget 1 (y_db (run 10 (es ++ es''))) = Some (100, None)) as Hdb by (intros es''; by apply (x_db _ _ (run_ext 10 es es''))).
  assert (forall es'', exists a, y_apps (run 10 (es ++ es'')) !! 0 = Some a /\ a_cluster a = 1) as Hap.
  { intros es''. destruct (x_apps _ _ (run_ext 10 es es'') 0 (App 1 100 (Running 7) []) eq_refl) as (b & Hb & E & _). exists b. by split. }
  split; [|cbn [step]; by rewrite Hdb].
  induction es' as [|e es' IH] using rev_ind; [rewrite app_nil_r; eexists; split; reflexivity|]. rewrite app_assoc, run_snoc. pose proof (run_inv 10 (es ++ es')) as I. specialize (Hdb es'). destruct (Hap es') as (a & Ha & En).
  destruct IH as (a0 & Ha0 & Es); [set_solver|]. rewrite Ha in Ha0. injection Ha0 as <-. set (s := run 10 (es ++ es')) in *.
  destruct (x_apps _ _ (step_ext 10 s e) _ _ Ha) as (b & Hb & _ & _ & Hl & _). exists b. split; [done|]. rewrite Es in Hl. destruct Hl as [Hl|Hl]; [done|exfalso].
  assert (forall s', y_apps s' = y_apps s -> y_apps s' !! 0 = Some b -> False) as Hsame by (intros s' E' Hb'; rewrite E', Ha in Hb'; injection Hb' as ->; congruence).
  assert (forall i x, y_apps s !! i = Some x -> forall x', a_state x' = a_state x -> <[i := x']> (y_apps s) !! 0 = Some b -> False) as Hput.
  { intros i x Hi x' Ex Hb'. destruct (decide (i = 0)) as [->|Hne]; [|rewrite list_lookup_insert_ne in Hb' by done; congruence]. rewrite list_lookup_insert in Hb' by (by eapply lookup_lt_Some). injection Hb' as <-. rewrite Ha in Hi. injection Hi as <-. congruence. }
  destruct e as [n' cr rec|i' addr|i'|n' ok|n' w rec|w|n'|i'|]; cbn [step] in Hb.
  - case_decide; [by eapply Hsame|]. cbn in Hb. rewrite (lookup_app_l_Some _ _ _ _ Ha) in Hb. injection Hb as <-. congruence.
  - destruct (y_apps s !! i') as [x|] eqn:Ei; [|by eapply Hsame]. destruct (a_state x) eqn:Ex; try by eapply Hsame. destruct (in_use _ _); [by eapply Hsame|]. cbn [fst put_app y_apps] in Hb.
    destruct (decide (i' = 0)) as [->|Hne]; [congruence|]. rewrite list_lookup_insert_ne in Hb by done. congruence.
  - destruct (y_apps s !! i') as [x|] eqn:Ei; [|by eapply Hsame]. cbn [fst put_app y_apps] in Hb. destruct (decide (i' = 0)) as [->|Hne]; [set_solver|]. rewrite list_lookup_insert_ne in Hb by done. congruence.
  - destruct (dget n' (y_db s)) as [[cr [i'|]]|] eqn:Ed; [|by eapply Hsame..]. destruct ok; [|by eapply Hsame]. cbn [fst y_apps] in Hb. destruct (y_apps s !! i') as [x|] eqn:Ei; [|by eapply Hsame]. cbn [put_app y_apps] in Hb.
    destruct (decide (i' = 0)) as [->|Hne]; [|rewrite list_lookup_insert_ne in Hb by done; congruence]. destruct (i_db _ _ _ I _ _ _ Ed) as (y & Hy & Ey & _). rewrite Ha in Hy. injection Hy as <-. rewrite En in Ey. subst n'. congruence.
  - destruct (dget n' (y_db s)); [|by eapply Hsame]. destruct (dget w (y_workers s)); [by eapply Hsame|]. set (s0 := State _ _ _ _ _ _) in Hb. destruct (get_client_same 10 n' s0) as (E' & _). destruct (get_client 10 n' s0) as [t [x|]]; cbn [fst] in *; (eapply Hsame; [|exact Hb]); exact E'.
  - destruct (dget w (y_workers s)) as [[n' [c|]]|]; [|by eapply Hsame..]. destruct (get_client_same 10 n' s) as (E' & _). destruct (get_client 10 n' s) as [t [x|]]; cbn [fst] in *; (eapply Hsame; [|exact Hb]); exact E'.
  - destruct (get_client_same 10 n' s) as (E' & _). eapply Hsame; [exact E'|exact Hb].
  - destruct (y_calls s !! i') as [[[x c]|]|]; [|by eapply Hsame..]. unfold perform in Hb. cbn [y_apps] in Hb. destruct (find_app _ _ _) as [[j y]|] eqn:Ef; [|by eapply Hsame]. apply find_app_sound in Ef as (j' & -> & Hj & _). cbn [plus] in Hb. destruct c as [w rec|w k].
    + cbn [fst put_app y_apps] in Hb. by eapply Hput; [exact Hj| |exact Hb].
    + destruct (a_containers y !! k) as [[v [|]]|]; [|by eapply Hsame..]. cbn [fst put_app y_apps] in Hb. by eapply Hput; [exact Hj| |exact Hb].
  - by eapply Hsame.
Qed.
(** ...and if killing the application fails, the cluster is stopped for the gateway (db_base.py
    1290-1296), and its application still runs and its address stays in memory. *)
Theorem C153_failed_refuted : exists m es n i addr, recorded (run m es) n i /\ StopCluster n false ∈ es /\ in_state (run m es) i (Running addr) /\ n ∈ map fst (y_addrs (run m es)).
Proof.
  exists 10, [StartCluster 1 100 true; AppRuns 0 7; StartWorker 1 5 true; StopCluster 1 false], 1, 0, 7. split_and!; [by exists 100|set_solver|eexists; split; reflexivity|vm_compute; left].
Qed.

(** Two clusters; the first one's application ends and the second gets its address; the worker
    of the first is not started in it. *)
Example C153_example : let es := [StartCluster 1 100 true; AppRuns 0 7; CheckWorkers 1; AppEnds 0; StartCluster 2 200 true; AppRuns 1 7; StartWorker 1 5 true; StartWorker 2 6 true] in
  snd (step 1 (run 1 es) (Perform 0)) = [] /\ snd (step 1 (run 1 es) (Perform 1)) = [Added 1 6] /\ recorded (run 1 es) 2 1 /\ in_state (run 1 es) 1 (Running 7) /\
  map fst (y_clients (run 1 es)) = [2] /\ snd (step 1 (run 1 (es ++ [Perform 1; StopWorker 6])) (Perform 2)) = [Killed 1 0] /\
  y_addrs (run 1 (es ++ [StopCluster 1 true])) = [(2, 7)].
Proof. vm_compute. split_and!; try reflexivity; [by exists 200|by eexists]. Qed.

Print Assumptions C153_own.
Print Assumptions C153_start.
Print Assumptions C153_stopped.
Print Assumptions C153_others.
Print Assumptions C153_memory.
Print Assumptions C153_orphan_refuted.
Print Assumptions C153_failed_refuted.
