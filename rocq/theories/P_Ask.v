(** Properties C116-C118: requests for a size, from the gateway's API (routes.py,
    base.py) to the scheduler (scheduler_preload.py), and what comes of them.
    [kreach kc h s]: the system gets into state [s] through the events [h]; messages to
    schedulers may be delayed and lost, also after the gateway has given up waiting. *)
From Coq Require Import ZArith Lia.
From stdpp Require Import prelude gmap.
From Verif Require Import Trace WorkQueue_Model Router_Model Gateway_Model Gateway_Spec Adapt_Model Adapt_Spec Report_Model Report_Spec
  Fleet_Model Fleet_Spec Ask_Model Ask_Spec Ask_Proofs Ask_Proofs2 P_Gateway P_Fleet.
Open Scope Z_scope.

(** ** Runs for the examples: one cluster (0) with at most two workers. *)
Definition ex_kc : kcfg := KCfg ex_fc 2 2.
Definition taken_b (o : kobs) (r : nat) : bool := match o with KObs [] (KTaken r') => Nat.eqb r r' | _ => false end.
Definition answered_b (s : sys) (n : nat) : bool :=
  forallb (fun c => negb (Nat.eqb (k_cluster c) n) || match k_stage c with Over (Some _) => true | _ => false end) (y_calls s).
Definition nothing_left_b (s : sys) (n : nat) : bool :=
  forallb (fun p => negb (Nat.eqb (p_cluster p) n)) (y_wire s) && match waiting (adapter s n) with [] => true | _ => false end.
Definition no_request_b (n : nat) (evs : list kevent) : bool := forallb (fun e => match e with KAsk n' _ => negb (Nat.eqb n' n) | _ => true end) evs.
Definition returned_b (r : nat) (h : khistory) : bool :=
  existsb (fun eo => match fst eo, o_out (snd eo) with KResult r1 true, KDone r2 true => Nat.eqb r1 r && Nat.eqb r2 r | _, _ => false end) h.
Lemma ex_answered s n : answered_b s n = true -> answered s n.
Proof.
  unfold answered_b. rewrite forallb_forall. intros H r c E En. apply elem_of_list_lookup_2, elem_of_list_In, H in E. rewrite En, Nat.eqb_refl in E. cbn in E.
  destruct (k_stage c) as [| | |[b|]]; try done. eauto.
Qed.
Lemma ex_nothing_left s n : nothing_left_b s n = true -> nothing_left s n.
Proof.
  unfold nothing_left_b. intros [H1 H2]%andb_true_iff. split; [|by destruct (waiting _)]. intros p Hp En. rewrite forallb_forall in H1. apply elem_of_list_In, H1 in Hp. rewrite En, Nat.eqb_refl in Hp. done.
Qed.
Lemma ex_no_request n (h : khistory) : no_request_b n (map fst h) = true -> no_request n h.
Proof.
  unfold no_request_b. rewrite forallb_forall. intros H a o Hin. specialize (H (KAsk n a)). cbn in H. rewrite Nat.eqb_refl in H. discriminate H.
  apply elem_of_list_In, elem_of_list_fmap. by exists (KAsk n a, o).
Qed.
Lemma ex_returned r h : returned_b r h = true -> returned r h.
Proof.
  unfold returned_b. intros ([e o] & Hin & H)%existsb_exists. cbn in H. destruct e as [| | | |r1 [] | | | |]; try done. destruct (o_out o) as [| | |r2 []] eqn:Eo; try done.
  apply andb_true_iff in H as [->%Nat.eqb_eq ->%Nat.eqb_eq]. exists o. split; [by apply elem_of_list_In|done].
Qed.
(** A run, a request, and another run. *)
Lemma kex_run kc evs1 n a r evs2 (P : sys -> sys -> khistory -> sys -> Prop) :
  (let '(s1, h1) := run (kstep kc) (kinit kc) evs1 in
   let '(s2, o) := kstep kc s1 (KAsk n a) in
   let '(s, h2) := run (kstep kc) s2 evs2 in
   (taken_b o r && answered_b s1 n && no_request_b n (map fst h2)) = true /\ P s1 s2 (h1 ++ (KAsk n a, o) :: h2) s /\ returned_b r h2 = true) ->
  exists h1 s1 s2 h2 s, kreach kc h1 s1 /\ answered s1 n /\ taken kc s1 n a r s2 /\ kleads kc s2 h2 s /\ no_request n h2 /\ returned r h2 /\
    P s1 s2 (h1 ++ (KAsk n a, KObs [] (KTaken r)) :: h2) s.
Proof.
  destruct (run (kstep kc) (kinit kc) evs1) as [s1 h1] eqn:E1. destruct (kstep kc s1 (KAsk n a)) as [s2 o] eqn:E2. destruct (run (kstep kc) s2 evs2) as [s h2] eqn:E3.
  intros ([[Ho Ha]%andb_true_iff Hn]%andb_true_iff & HP & Hr). destruct o as [[|] [|r0| |]]; try discriminate Ho. apply Nat.eqb_eq in Ho as <-.
  exists h1, s1, s2, h2, s. split; [exact (run_exec _ _ _ _ _ E1)|]. split; [by apply ex_answered|]. split; [exact E2|]. split; [exact (run_exec _ _ _ _ _ E3)|].
  split; [by apply ex_no_request|]. split; [by apply ex_returned|]. exact HP.
Qed.
(** The cluster is submitted and gets to run. *)
Definition ex_runs : list kevent := (map KFleet (map FGateway ex_submit ++ beat 4 [] ++ map FGateway [EGet 0 5; EBackend 0 Ends 6]))%nat.
(** What is known about the end of a run: size, mode and bounds of cluster 0. *)
Definition outcome (s : sys) : Z * mode * (option Z * option Z) := (size_wanted s 0, ad (adapter s 0), bounds s 0).

(** C116. A request for a size that was answered without an error has been carried out:
    the scheduler works for the size that was asked for (or the cluster's limit), and
    adaptive scaling is off; provided that all earlier requests were answered, that
    nothing of them is left over, and that there was no later one. *)
Theorem C116_scale_partial : forall kc h1 s1 n k r s2 h2 s,
  kreach kc h1 s1 -> answered s1 n -> nothing_left s1 n -> taken kc s1 n (KScale k) r s2 -> kleads kc s2 h2 s -> no_request n h2 -> returned r h2 ->
  exists c, lookup_cluster n (f_gw (y_fleet s1)) = Some c /\ size_wanted s n = at_most_limit c k /\ not_adapting s n.
Proof. exact scale_size. Qed.
Print Assumptions C116_scale_partial.
(** The same for adapt(minimum, maximum): it is on, with these bounds. *)
Theorem C116_adapt_partial : forall kc h1 s1 n mn mx r s2 h2 s,
  kreach kc h1 s1 -> answered s1 n -> nothing_left s1 n -> taken kc s1 n (KAdapt mn mx) r s2 -> kleads kc s2 h2 s -> no_request n h2 -> returned r h2 ->
  exists c, lookup_cluster n (f_gw (y_fleet s1)) = Some c /\ adapting s n /\ bounds s n = with_limit c mn mx.
Proof. exact adapt_bounds. Qed.
Print Assumptions C116_adapt_partial.
(** The same for adapt(active=False): it is off. *)
Theorem C116_off_partial : forall kc h1 s1 n r s2 h2 s,
  kreach kc h1 s1 -> answered s1 n -> nothing_left s1 n -> taken kc s1 n KOff r s2 -> kleads kc s2 h2 s -> no_request n h2 -> returned r h2 ->
  not_adapting s n.
Proof. exact adapt_off. Qed.
Print Assumptions C116_off_partial.
(** Adaptive scaling that was off is asked for: from its first turn on the size is within
    the bounds. *)
Theorem C116_adapt_size_partial : forall kc h1 s1 n mn mx r s2 h2 s3 x sl s4 o h3 s,
  k_window kc <> 0%nat -> kreach kc h1 s1 -> answered s1 n -> nothing_left s1 n -> not_adapting s1 n -> taken kc s1 n (KAdapt mn mx) r s2 ->
  kleads kc s2 h2 s3 -> ad (adapter s3 n) = ASleep -> kstep kc s3 (KTick n (Some x) sl) = (s4, o) -> kleads kc s4 h3 s -> no_request n (h2 ++ h3) ->
  exists c, lookup_cluster n (f_gw (y_fleet s1)) = Some c /\
    let b := with_limit c mn mx in sensible (fst b) (snd b) -> within (fst b) (snd b) (size_wanted s n).
Proof. exact adapt_size. Qed.
Print Assumptions C116_adapt_size_partial.

(** What is left over matters: the answer to the first attempt of scale(2) is not waited
    for, the second attempt is answered; then scale(1) is asked for and answered; then
    the first message gets to the scheduler.  The size is 2. *)
Definition ex_late_1 : list kevent := ex_runs ++ [KAsk 0 (KScale 2); KResult 0 false; KRetry 0; KHandle 1; KResult 0 true].
Definition ex_late_2 : list kevent := [KHandle 1; KResult 1 true; KHandle 0].
Theorem C116_scale_refuted : exists kc h1 s1 n k r s2 h2 s c,
  fids_ok (k_fleet kc) (fleet_part (h1 ++ (KAsk n (KScale k), KObs [] (KTaken r)) :: h2)) /\
  kreach kc h1 s1 /\ answered s1 n /\ taken kc s1 n (KScale k) r s2 /\ kleads kc s2 h2 s /\ no_request n h2 /\ returned r h2 /\
  answered s n /\ lookup_cluster n (f_gw (y_fleet s)) = Some c /\ at_most_limit c k = 1 /\ size_wanted s n = 2.
Proof.
  assert (exists h1 s1 s2 h2 s, kreach ex_kc h1 s1 /\ answered s1 0 /\ taken ex_kc s1 0 (KScale 1) 1 s2 /\ kleads ex_kc s2 h2 s /\ no_request 0 h2 /\ returned 1 h2 /\
    (answered_b s 0, size_wanted s 0, (fun c => at_most_limit c 1) <$> lookup_cluster 0 (f_gw (y_fleet s))) = (true, 2, Some 1)) as (h1 & s1 & s2 & h2 & s & X1 & X2 & X3 & X4 & X5 & X6 & X).
  { apply (kex_run ex_kc ex_late_1 0 (KScale 1) 1 ex_late_2 (fun s1 s2 h s => (answered_b s 0, size_wanted s 0, (fun c => at_most_limit c 1) <$> lookup_cluster 0 (f_gw (y_fleet s))) = (true, 2, Some 1))).
    vm_compute. repeat split. }
  injection X as Y1 Y2 Y3. destruct (lookup_cluster 0 (f_gw (y_fleet s))) as [c|] eqn:E; [|done]. injection Y3 as Y3.
  exists ex_kc, h1, s1, 0%nat, 1, 1%nat, s2, h2, s, c. split; [apply ex_fids|]. do 6 (split; [done|]). split; [by apply ex_answered|]. done.
Qed.
Print Assumptions C116_scale_refuted.

(** scale(3) during adaptive scaling, with a failed attempt: the limit is 2. *)
Example C116_example : exists h1 s1 s2 h2 s, kreach ex_kc h1 s1 /\ answered s1 0 /\ taken ex_kc s1 0 (KScale 3) 1 s2 /\ kleads ex_kc s2 h2 s /\ no_request 0 h2 /\ returned 1 h2 /\
  nothing_left s1 0 /\ adapting s1 0 /\ outcome s = (2, AOff, (Some 1, Some 2)).
Proof.
  assert (exists h1 s1 s2 h2 s, kreach ex_kc h1 s1 /\ answered s1 0 /\ taken ex_kc s1 0 (KScale 3) 1 s2 /\ kleads ex_kc s2 h2 s /\ no_request 0 h2 /\ returned 1 h2 /\
    (nothing_left_b s1 0, ad (adapter s1 0), outcome s) = (true, ASleep, (2, AOff, (Some 1, Some 2)))) as (h1 & s1 & s2 & h2 & s & X1 & X2 & X3 & X4 & X5 & X6 & X).
  { apply (kex_run ex_kc (ex_runs ++ [KAsk 0 (KAdapt (Some 1) None); KHandle 0; KResult 0 true; KTick 0 (Some 0) false]) 0 (KScale 3) 1
      [KHandle 0; KResult 1 false; KEnd 0; KRetry 1; KHandle 0; KResult 1 true]
      (fun s1 s2 h s => (nothing_left_b s1 0, ad (adapter s1 0), outcome s) = (true, ASleep, (2, AOff, (Some 1, Some 2))))). vm_compute. repeat split. }
  apply pair_equal_spec in X as [[Y1 Y2]%pair_equal_spec Y3]. exists h1, s1, s2, h2, s. do 6 (split; [done|]). split; [by apply ex_nothing_left|]. split; [by left|]. exact Y3.
Qed.
(** adapt(1, 5): the limit is 2. *)
Example C116_example_2 : exists h1 s1 s2 h2 s, kreach ex_kc h1 s1 /\ answered s1 0 /\ taken ex_kc s1 0 (KAdapt (Some 1) (Some 5)) 0 s2 /\ kleads ex_kc s2 h2 s /\ no_request 0 h2 /\ returned 0 h2 /\
  nothing_left s1 0 /\ not_adapting s1 0 /\ outcome s = (2, AScaling, (Some 1, Some 2)).
Proof.
  assert (exists h1 s1 s2 h2 s, kreach ex_kc h1 s1 /\ answered s1 0 /\ taken ex_kc s1 0 (KAdapt (Some 1) (Some 5)) 0 s2 /\ kleads ex_kc s2 h2 s /\ no_request 0 h2 /\ returned 0 h2 /\
    (nothing_left_b s1 0, ad (adapter s1 0), outcome s) = (true, AOff, (2, AScaling, (Some 1, Some 2)))) as (h1 & s1 & s2 & h2 & s & X1 & X2 & X3 & X4 & X5 & X6 & X).
  { apply (kex_run ex_kc ex_runs 0 (KAdapt (Some 1) (Some 5)) 0 [KHandle 0; KResult 0 true; KTick 0 (Some 7) true]
      (fun s1 s2 h s => (nothing_left_b s1 0, ad (adapter s1 0), outcome s) = (true, AOff, (2, AScaling, (Some 1, Some 2))))). vm_compute. repeat split. }
  apply pair_equal_spec in X as [[Y1 Y2]%pair_equal_spec Y3]. exists h1, s1, s2, h2, s. do 6 (split; [done|]). split; [by apply ex_nothing_left|]. split; [done|]. exact Y3.
Qed.

(** C117. The workers follow: after scale(k) was answered as in C116, when there is
    nothing left to do (C114), the cluster has exactly as many workers as were asked
    for, each of them connected or being started. *)
Theorem C117_workers_follow_partial : forall kc h1 s1 n k r s2 h2 s c, let h := h1 ++ (KAsk n (KScale k), KObs [] (KTaken r)) :: h2 in
  fids_ok (k_fleet kc) (fleet_part h) ->
  kreach kc h1 s1 -> answered s1 n -> nothing_left s1 n -> taken kc s1 n (KScale k) r s2 -> kleads kc s2 h2 s -> no_request n h2 -> returned r h2 ->
  in_order n (fleet_part h) -> up_to_date (fleet_part h) n -> on_air (y_fleet s) n c -> idle (f_gw (y_fleet s)) ->
  Z.of_nat (n_connected (y_fleet s) n) <= at_most_limit c k -> none_left (k_fleet kc) (fleet_part h) n c ->
  Z.of_nat (length (List.filter wanted (c_workers c))) = at_most_limit c k /\
  forall x, x ∈ c_workers c -> wanted x = true -> connected (y_fleet s) n (w_name x) \/ w_status x = SUBMITTED.
Proof. exact scale_workers. Qed.
Print Assumptions C117_workers_follow_partial.

(** scale(3) on a cluster with at most two workers. *)
Definition ex_follow : list kevent := ([KHandle 0; KResult 0 true] ++ map KFleet (beat 7 [] ++
  map FGateway [EGet 0 8; EGet 0 8; EGet 1 8; EBackend 0 (Yields 8) 9; EBackend 0 Ends 10; EBackend 1 Ends 10] ++
  [FSched 0 (EAdded 11 1); FSched 0 (EAdded 12 2)] ++ beat 11 []))%nat.
Example C117_example : exists h1 s1 s2 h2 s c, let h := h1 ++ (KAsk 0 (KScale 3), KObs [] (KTaken 0)) :: h2 in
  kreach ex_kc h1 s1 /\ answered s1 0 /\ nothing_left s1 0 /\ taken ex_kc s1 0 (KScale 3) 0 s2 /\ kleads ex_kc s2 h2 s /\ no_request 0 h2 /\ returned 0 h2 /\
  in_order 0 (fleet_part h) /\ up_to_date (fleet_part h) 0 /\ on_air (y_fleet s) 0 c /\ idle (f_gw (y_fleet s)) /\
  n_connected (y_fleet s) 0 = 2%nat /\ at_most_limit c 3 = 2 /\ none_left ex_fc (fleet_part h) 0 c.
Proof.
  assert (exists h1 s1 s2 h2 s, kreach ex_kc h1 s1 /\ answered s1 0 /\ taken ex_kc s1 0 (KScale 3) 0 s2 /\ kleads ex_kc s2 h2 s /\ no_request 0 h2 /\ returned 0 h2 /\
    (nothing_left_b s1 0, at_end (fleet_part (h1 ++ (KAsk 0 (KScale 3), KObs [] (KTaken 0)) :: h2)) (y_fleet s), (fun c => at_most_limit c 3) <$> lookup_cluster 0 (f_gw (y_fleet s))) =
      (true, Some (RUNNING, RUNNING, 2, [1; 2]%nat, [], 2%nat), Some 2)) as (h1 & s1 & s2 & h2 & s & X1 & X2 & X3 & X4 & X5 & X6 & X).
  { apply (kex_run ex_kc ex_runs 0 (KScale 3) 0 ex_follow
      (fun s1 s2 h s => (nothing_left_b s1 0, at_end (fleet_part h) (y_fleet s), (fun c => at_most_limit c 3) <$> lookup_cluster 0 (f_gw (y_fleet s))) =
      (true, Some (RUNNING, RUNNING, 2, [1; 2]%nat, [], 2%nat), Some 2))). vm_compute. repeat split. }
  injection X as Y1 Y2 Y3. destruct (ex_at_end _ _ _ _ _ _ Y2) as (c & H1 & H2 & H3 & H4 & H5 & H6 & H7 & H8). rewrite (proj1 H3) in Y3. injection Y3 as Y3.
  exists h1, s1, s2, h2, s, c. cbn zeta. do 2 (split; [done|]). split; [by apply ex_nothing_left|]. do 10 (split; [done|]). left. intros x Hin. destruct (retired x) eqn:E; [|done]. exfalso.
  apply map_eq_nil in H8. assert (x ∈ List.filter retired (c_workers c)) as Hf by (apply elem_of_list_In, filter_In; split; [by apply elem_of_list_In|done]).
  rewrite H8 in Hf. by apply elem_of_nil in Hf.
Qed.

(** Here too what is left over matters: the late message of an earlier scale(1) is
    carried out after scale(2) was answered, and everything comes to rest with one worker. *)
Definition ex_late_3 : list kevent := ex_runs ++ [KAsk 0 (KScale 1); KResult 0 false; KRetry 0; KHandle 1; KResult 0 true].
Definition ex_one : list kevent := ([KHandle 1; KResult 1 true; KHandle 0] ++ map KFleet (beat 7 [] ++
  map FGateway [EGet 0 8; EGet 0 8; EBackend 0 (Yields 8) 9; EBackend 0 Ends 10] ++ [FSched 0 (EAdded 11 1)] ++ beat 11 []))%nat.
Theorem C117_workers_follow_refuted : exists kc h1 s1 n k r s2 h2 s c, let h := h1 ++ (KAsk n (KScale k), KObs [] (KTaken r)) :: h2 in
  fids_ok (k_fleet kc) (fleet_part h) /\ kreach kc h1 s1 /\ answered s1 n /\ taken kc s1 n (KScale k) r s2 /\ kleads kc s2 h2 s /\ no_request n h2 /\ returned r h2 /\
  in_order n (fleet_part h) /\ up_to_date (fleet_part h) n /\ on_air (y_fleet s) n c /\ idle (f_gw (y_fleet s)) /\
  none_left (k_fleet kc) (fleet_part h) n c /\ n_connected (y_fleet s) n = 1%nat /\ at_most_limit c k = 2 /\ map w_name (List.filter wanted (c_workers c)) = [1%nat].
Proof.
  assert (exists h1 s1 s2 h2 s, kreach ex_kc h1 s1 /\ answered s1 0 /\ taken ex_kc s1 0 (KScale 2) 1 s2 /\ kleads ex_kc s2 h2 s /\ no_request 0 h2 /\ returned 1 h2 /\
    (at_end (fleet_part (h1 ++ (KAsk 0 (KScale 2), KObs [] (KTaken 1)) :: h2)) (y_fleet s), (fun c => at_most_limit c 2) <$> lookup_cluster 0 (f_gw (y_fleet s))) =
      (Some (RUNNING, RUNNING, 1, [1]%nat, [], 1%nat), Some 2)) as (h1 & s1 & s2 & h2 & s & X1 & X2 & X3 & X4 & X5 & X6 & X).
  { apply (kex_run ex_kc ex_late_3 0 (KScale 2) 1 ex_one
      (fun s1 s2 h s => (at_end (fleet_part h) (y_fleet s), (fun c => at_most_limit c 2) <$> lookup_cluster 0 (f_gw (y_fleet s))) =
      (Some (RUNNING, RUNNING, 1, [1]%nat, [], 1%nat), Some 2))). vm_compute. repeat split. }
  injection X as Y2 Y3. destruct (ex_at_end _ _ _ _ _ _ Y2) as (c & H1 & H2 & H3 & H4 & H5 & H6 & H7 & H8). rewrite (proj1 H3) in Y3. injection Y3 as Y3.
  exists ex_kc, h1, s1, 0%nat, 2, 1%nat, s2, h2, s, c. cbn zeta. split; [apply ex_fids|]. do 10 (split; [done|]). split; [|done]. left. intros x Hin. destruct (retired x) eqn:E; [|done]. exfalso.
  apply map_eq_nil in H8. assert (x ∈ List.filter retired (c_workers c)) as Hf by (apply elem_of_list_In, filter_In; split; [by apply elem_of_list_In|done]).
  rewrite H8 in Hf. by apply elem_of_nil in Hf.
Qed.
Print Assumptions C117_workers_follow_refuted.

(** C118. The limit of a cluster is kept: its scheduler never works for more workers,
    whatever is asked for, adaptive scaling included. *)
Theorem C118_limit : forall kc h s n c l,
  fids_ok (k_fleet kc) (fleet_part h) -> kreach kc h s -> lookup_cluster n (f_gw (y_fleet s)) = Some c -> r_max (c_row c) = Some l -> 0 <= l ->
  size_wanted s n <= l.
Proof. exact limit_kept. Qed.
Print Assumptions C118_limit.

(** The limit is 2; scale(9) and, after adapt(4, 8), a target of 7. *)
Example C118_example : exists h s c, fids_ok ex_fc (fleet_part h) /\ kreach ex_kc h s /\ lookup_cluster 0 (f_gw (y_fleet s)) = Some c /\ r_max (c_row c) = Some 2 /\ size_wanted s 0 = 2.
Proof.
  destruct (run (kstep ex_kc) (kinit ex_kc) (ex_runs ++ [KAsk 0 (KScale 9); KAsk 0 (KAdapt (Some 4) (Some 8)); KHandle 1; KHandle 0; KTick 0 (Some 7) false; KEnd 0])) as [s h] eqn:E.
  assert (((fun c => r_max (c_row c)) <$> lookup_cluster 0 (f_gw (y_fleet s)), size_wanted s 0) = (Some (Some 2), 2)) as X.
  { assert (s = (run (kstep ex_kc) (kinit ex_kc) (ex_runs ++ [KAsk 0 (KScale 9); KAsk 0 (KAdapt (Some 4) (Some 8)); KHandle 1; KHandle 0; KTick 0 (Some 7) false; KEnd 0])).1) as -> by (rewrite E; reflexivity). clear. vm_compute. reflexivity. }
  apply run_exec in E. injection X as X1 X2. destruct (lookup_cluster 0 (f_gw (y_fleet s))) as [c|] eqn:El; [|done]. injection X1 as X1.
  exists h, s, c. split; [apply ex_fids|]. done.
Qed.
