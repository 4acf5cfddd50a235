(** Properties C113-C115: the database-backed gateway (db_base.py) together with the
    schedulers of its clusters (scheduler_preload.py).  [freach fc h s]: the system gets
    into state [s] through the events [h]; messages may be delayed, overtake each other
    and get lost, and so may the answers. *)
From Coq Require Import ZArith Lia Ascii String.
From stdpp Require Import prelude gmap.
From Verif Require Import Trace WorkQueue_Model Router_Model Gateway_Model Gateway_Spec Gateway_Spec3 Gateway_Proofs3 Report_Model Report_Spec
  Fleet_Model Fleet_Spec Fleet_Proofs Fleet_Proofs2 P_Gateway.
Open Scope Z_scope.

(** ** Runs for the examples: one cluster (0) with at most two workers (1 and 2). *)
Definition ex_fc : fcfg := FCfg (ex_cf false 3) (fun _ => ["a"%char]) (fun _ => ["s"%char]) (fun _ => ["d"%char]).
Lemma ex_fids h : fids_ok ex_fc h. Proof. left. apply ex_fresh. Qed.
Lemma fex_run fc (evs : list fevent) (P : fhistory -> fleet -> Prop) :
  (let '(s, h) := run (fstep fc) (finit fc) evs in P h s) -> exists h s, freach fc h s /\ P h s.
Proof. destruct (run (fstep fc) (finit fc) evs) as [s h] eqn:E. intros HP. exists h, s. split; [exact (run_exec _ _ _ _ _ E)|done]. Qed.
Definition ordered (n : nat) (evs : list fevent) : bool :=
  forallb (fun e => match e with FArrive n' i _ => negb (Nat.eqb n' n) || Nat.eqb i 0 | _ => true end) evs.
Lemma ex_ordered n (h : fhistory) : ordered n (map fst h) = true -> in_order n h.
Proof.
  intros H i now o Hin. unfold ordered in H. rewrite forallb_forall in H. specialize (H (FArrive n i now)). cbn beta iota in H. rewrite Nat.eqb_refl in H.
  apply Nat.eqb_eq, H, elem_of_list_In, elem_of_list_fmap. by exists (FArrive n i now, o).
Qed.
(** Conditions on a computed run, as booleans. *)
Definition up_to_date_b (h : fhistory) (n : nat) : bool :=
  let l := sch_part n h in
  match drop (length l - 2) l with [(EBeat _, OMsg _); (EAnswer true, ONone)] => true | _ => false end.
Lemma ex_up_to_date n h : up_to_date_b h n = true -> up_to_date h n.
Proof.
  unfold up_to_date_b. intros H. remember (drop (length (sch_part n h) - 2) (sch_part n h)) as l eqn:E.
  destruct l as [|[[] []] [|[[] []] []]]; try done; try (destruct ok; done). destruct ok; [|done].
  exists (take (length (sch_part n h) - 2) (sch_part n h)), choice, m. rewrite E. by rewrite take_drop.
Qed.
Definition idle_b (s : gw) : bool := match queue (q s), map_to_list (busy s) with [], [] => true | _, _ => false end.
Lemma ex_idle_b s : idle_b s = true -> idle s.
Proof.
  unfold idle_b. intros H. destruct (queue (q s)) eqn:E; [|done]. split; [done|]. destruct (map_to_list (busy s)) eqn:E2; [|done].
  by apply map_to_list_empty_iff in E2.
Qed.
(** The last state of a run: status and target of cluster 0, requested size, names of
    the wanted and of the retired workers, number of connected workers. *)
Definition at_end (h : fhistory) (s : fleet) : option (job * job * Z * list nat * list nat * nat) :=
  c ← lookup_cluster 0 (f_gw s);
  guard (ordered 0 (map fst h) && up_to_date_b h 0 && idle_b (f_gw s) = true);
  Some (c_status c, c_target c, asked_for s 0 c, map w_name (List.filter wanted (c_workers c)), map w_name (List.filter retired (c_workers c)), n_connected s 0).
Lemma ex_at_end h s a ws rs k : at_end h s = Some (RUNNING, RUNNING, a, ws, rs, k) ->
  exists c, in_order 0 h /\ up_to_date h 0 /\ on_air s 0 c /\ idle (f_gw s) /\ asked_for s 0 c = a /\ n_connected s 0 = k /\
    map w_name (List.filter wanted (c_workers c)) = ws /\ map w_name (List.filter retired (c_workers c)) = rs.
Proof.
  unfold at_end, on_air. destruct (lookup_cluster 0 (f_gw s)) as [c|]; [|done]. cbn [mbind option_bind]. case_option_guard as H; [|done].
  apply andb_true_iff in H as [[H1 H2]%andb_true_iff H3]. intros E. injection E as E1 E2 E3 E4 E5 E6. exists c.
  split; [by apply ex_ordered|]. split; [by apply ex_up_to_date|]. split; [done|]. split; [by apply ex_idle_b|]. done.
Qed.

(** The cluster is submitted, two workers are asked for, started, and connect. *)
Definition beat (now : Z) (choice : list positive) : list fevent := [FBeat 0 choice; FArrive 0 0 now; FAnswer 0 true]%nat.
Definition ex_grown : list fevent := (map FGateway ex_submit ++ FSched 0 (EScale 2) :: beat 4 [] ++
  map FGateway [EGet 0 5; EGet 0 6; EGet 1 6; EBackend 0 (Yields 8) 7; EBackend 0 Ends 8; EBackend 1 Ends 8] ++
  [FSched 0 (EAdded 11 1); FSched 0 (EAdded 12 2)] ++ beat 9 [])%nat.

(** What the gateway makes of a heartbeat: the message and its answer. *)
Definition arrival (s : fleet) (now : Z) : option (list nat * list nat * list Gateway_Model.obs) :=
  match snd (fstep ex_fc s (FArrive 0 0 now)) with
  | FO_Gw (EHeartbeat O gm t) go => if decide (t = now) then Some (Gateway_Model.m_active gm, Gateway_Model.m_closed gm, go) else None
  | _ => None end.
Lemma ex_arrival s now a b go : arrival s now = Some (a, b, go) -> exists s' gm, fstep ex_fc s (FArrive 0 0 now) = (s', FO_Gw (EHeartbeat 0 gm now) go) /\
  Gateway_Model.m_active gm = a /\ Gateway_Model.m_closed gm = b.
Proof.
  unfold arrival. destruct (fstep ex_fc s (FArrive 0 0 now)) as [s' o]. cbn [snd]. destruct o as [|e o|]; [done| |done]. destruct e; try done. destruct n; [|done].
  case_decide as Ht; [|done]. subst. intros E. injection E as <- <- <-. eauto.
Qed.

(** C113. A scheduler is not turned away by its gateway: each of its heartbeats is
    accepted, if the gateway handles them in the order in which they were sent. *)
Theorem C113_heartbeats_accepted_partial : forall fc h s n now s' gm go,
  fids_ok fc h -> freach fc h s -> in_order n h ->
  fstep fc s (FArrive n 0 now) = (s', FO_Gw (EHeartbeat n gm now) go) -> OAssertion ∉ go.
Proof. exact all_accepted. Qed.
Print Assumptions C113_heartbeats_accepted_partial.

(** Otherwise it may fail with an AssertionError (status 500): a message that was sent
    before a worker connected is handled after one that was sent later. *)
Theorem C113_heartbeats_accepted_refuted : exists fc h s n i now s' gm go,
  fids_ok fc h /\ freach fc h s /\ fstep fc s (FArrive n i now) = (s', FO_Gw (EHeartbeat n gm now) go) /\ OAssertion ∈ go.
Proof.
  assert (exists h s, freach ex_fc h s /\ arrival s 11 = Some ([], [], [OAssertion])) as (h & s & Hx & (s' & gm & Hs & _)%ex_arrival).
  { apply (fex_run ex_fc (take 14 ex_grown ++ [FBeat 0 []; FAnswer 0 false; FSched 0 (EAdded 11 1); FBeat 0 []; FArrive 0 1 10])%nat). vm_compute. reflexivity. }
  exists ex_fc, h, s, 0%nat, 0%nat, 11, s', gm, [OAssertion]. split; [apply ex_fids|]. split; [done|]. split; [done|]. by left.
Qed.
Print Assumptions C113_heartbeats_accepted_refuted.
(** The third heartbeat of a run in which one worker has gone. *)
Example C113_example : exists h s s' gm, freach ex_fc h s /\ in_order 0 h /\
  fstep ex_fc s (FArrive 0 0 11) = (s', FO_Gw (EHeartbeat 0 gm 11) []) /\
  Gateway_Model.m_active gm = [1%nat] /\ Gateway_Model.m_closed gm = [2%nat].
Proof.
  assert (exists h s, freach ex_fc h s /\ (ordered 0 (map fst h) = true /\ arrival s 11 = Some ([1%nat], [2%nat], []))) as (h & s & Hx & Ho%ex_ordered & (s' & gm & Hs & H)%ex_arrival).
  { apply (fex_run ex_fc (ex_grown ++ [FSched 0 (ERemoved 12); FBeat 0 []])%nat). vm_compute. split; reflexivity. }
  exists h, s, s', gm. done.
Qed.

(** C114. When there is nothing left to do, a running cluster has the right workers:
    the gateway is idle, the scheduler has reported all it knows and has no more workers
    than it should - then as many workers as were asked for are connected or being
    started; provided that no worker left as announced since the size was last changed,
    and that the gateway handles heartbeats in order. *)
Theorem C114_right_size_partial : forall fc h s n c,
  fids_ok fc h -> freach fc h s -> in_order n h -> up_to_date h n -> on_air s n c -> idle (f_gw s) ->
  Z.of_nat (n_connected s n) <= asked_for s n c -> none_left fc h n c -> right_size s n c.
Proof. exact size_right. Qed.
Print Assumptions C114_right_size_partial.
(** Without the proviso: never more than were asked for, and the workers that are
    there are all connected or being started. *)
Theorem C114_not_more_partial : forall fc h s n c,
  fids_ok fc h -> freach fc h s -> in_order n h -> up_to_date h n -> on_air s n c -> idle (f_gw s) ->
  Z.of_nat (n_connected s n) <= asked_for s n c ->
  r_count (c_row c) = asked_for s n c /\ Z.of_nat (length (List.filter wanted (c_workers c))) <= asked_for s n c /\
  forall x, x ∈ c_workers c -> wanted x = true -> connected s n (w_name x) \/ w_status x = SUBMITTED.
Proof. exact size_core. Qed.
Print Assumptions C114_not_more_partial.

(** The proviso is needed: one worker is asked for; the scheduler announces that worker 2
    will be closed, but does not get the answer; two workers are asked for again; then
    worker 2 is lost.  The gateway takes this for the announced departure: one worker
    is left, and nothing is done about it. *)
Definition ex_short : list fevent := (ex_grown ++ [FSched 0 (EScale 1); FBeat 0 [2%positive]; FArrive 0 0 10; FAnswer 0 false; FSched 0 (EScale 2)] ++
  beat 11 [] ++ [FGateway (EGet 0 12); FSched 0 (ERemoved 12)] ++ beat 13 [] ++ map FGateway [EGet 0 14; EBackend 0 Ends 15])%nat.
Theorem C114_right_size_refuted : exists fc h s n c,
  fids_ok fc h /\ freach fc h s /\ in_order n h /\ up_to_date h n /\ on_air s n c /\ idle (f_gw s) /\
  Z.of_nat (n_connected s n) <= asked_for s n c /\
  asked_for s n c = 2 /\ n_connected s n = 1%nat /\ length (List.filter wanted (c_workers c)) = 1%nat /\ ~ right_size s n c.
Proof.
  assert (exists h s, freach ex_fc h s /\ at_end h s = Some (RUNNING, RUNNING, 2, [1%nat], [2%nat], 1%nat)) as (h & s & Hx & (c & H1 & H2 & H3 & H4 & H5 & H6 & H7 & H8)%ex_at_end).
  { apply (fex_run ex_fc ex_short). vm_compute. reflexivity. }
  exists ex_fc, h, s, 0%nat, c. split; [apply ex_fids|]. do 5 (split; [done|]). apply (f_equal length) in H7. rewrite map_length in H7.
  rewrite H5, H6, H7. do 4 (split; [done|]). intros [H _]. rewrite H5, H7 in H. done.
Qed.
Print Assumptions C114_right_size_refuted.

(** Two workers; and, after worker 2 has left as announced, two again (1 and 3). *)
Example C114_example : exists h s c, freach ex_fc h s /\ in_order 0 h /\ up_to_date h 0 /\ on_air s 0 c /\ idle (f_gw s) /\
  asked_for s 0 c = 2 /\ n_connected s 0 = 2%nat /\ none_left ex_fc h 0 c /\ map w_name (c_workers c) = [1; 2]%nat.
Proof.
  assert (exists h s, freach ex_fc h s /\ (at_end h s = Some (RUNNING, RUNNING, 2, [1; 2]%nat, [], 2%nat) /\ (map w_name ∘ c_workers) <$> lookup_cluster 0 (f_gw s) = Some [1; 2]%nat))
    as (h & s & Hx & (c & H1 & H2 & H3 & H4 & H5 & H6 & H7 & H8)%ex_at_end & H9).
  { apply (fex_run ex_fc ex_grown). vm_compute. split; reflexivity. }
  exists h, s, c. do 7 (split; [done|]). rewrite (proj1 H3) in H9. injection H9 as H9. split; [|done]. left. intros x Hin. destruct (retired x) eqn:E; [|done]. exfalso.
  apply map_eq_nil in H8. assert (x ∈ List.filter retired (c_workers c)) as Hf by (apply elem_of_list_In, filter_In; split; [by apply elem_of_list_In|done]).
  rewrite H8 in Hf. by apply elem_of_nil in Hf.
Qed.
Definition ex_again_1 : list fevent := (ex_grown ++ [FSched 0 (EScale 1); FBeat 0 [2%positive]; FArrive 0 0 10; FAnswer 0 true; FSched 0 (ERemoved 12); FSched 0 (ERetired true)] ++
  beat 11 [] ++ map FGateway [EGet 0 12; EGet 0 13; EBackend 0 Ends 14] ++ [FSched 0 (EScale 2); FBeat 0 []])%nat.
Definition ex_again_2 : list fevent := (FAnswer 0 true :: map FGateway [EGet 0 16; EGet 0 17; EBackend 0 Ends 18] ++ FSched 0 (EAdded 13 3) :: beat 19 [])%nat.
Example C114_example_2 : exists h s c, freach ex_fc h s /\ in_order 0 h /\ up_to_date h 0 /\ on_air s 0 c /\ idle (f_gw s) /\
  asked_for s 0 c = 2 /\ n_connected s 0 = 2%nat /\ none_left ex_fc h 0 c /\ map w_name (List.filter retired (c_workers c)) = [2%nat] /\ map w_name (c_workers c) = [1; 2; 3]%nat.
Proof.
  destruct (run (fstep ex_fc) (finit ex_fc) ex_again_1) as [s1 h1] eqn:E1.
  destruct (fstep ex_fc s1 (FArrive 0 0 15)) as [s2 o] eqn:E2. destruct (run (fstep ex_fc) s2 ex_again_2) as [s h2] eqn:E3.
  assert ((fun c => (r_count (c_row c))) <$> lookup_cluster 0 (f_gw s1) = Some 1 /\
    (fun c => (r_count (c_row c), c_status c, c_target c, gone c)) <$> lookup_cluster 0 (f_gw s2) = Some (2, RUNNING, RUNNING, [2%nat]) /\
    at_end (h1 ++ (FArrive 0 0 15, o) :: h2) s = Some (RUNNING, RUNNING, 2, [1; 3]%nat, [2%nat], 2%nat) /\
    (map w_name ∘ c_workers) <$> lookup_cluster 0 (f_gw s) = Some [1; 2; 3]%nat) as (F1 & F2 & F3 & F4).
  { assert (s1 = (run (fstep ex_fc) (finit ex_fc) ex_again_1).1) as -> by (rewrite E1; done).
    assert (h1 = (run (fstep ex_fc) (finit ex_fc) ex_again_1).2) as -> by (rewrite E1; done).
    assert (s2 = (fstep ex_fc (run (fstep ex_fc) (finit ex_fc) ex_again_1).1 (FArrive 0 0 15)).1) as -> by (rewrite E2; done).
    assert (o = (fstep ex_fc (run (fstep ex_fc) (finit ex_fc) ex_again_1).1 (FArrive 0 0 15)).2) as -> by (rewrite E2; done).
    match type of E3 with ?t = _ => assert (s = t.1) as -> by (rewrite E3; done); assert (h2 = t.2) as -> by (rewrite E3; done) end.
    clear. vm_compute. repeat split. }
  destruct (ex_at_end _ _ _ _ _ _ F3) as (c & H1 & H2 & H3 & H4 & H5 & H6 & H7 & H8).
  apply run_exec in E1 as X1. apply run_exec in E3 as X3.
  clear E1 E3 F3. exists (h1 ++ (FArrive 0 0 15, o) :: h2), s, c. split; [apply exec_app; exists s1; split; [done|]; econstructor; done|]. do 6 (split; [done|]).
  rewrite (proj1 H3) in F4. injection F4 as F4. split; [|done].
  destruct (lookup_cluster 0 (f_gw s1)) as [c1|] eqn:L1; [|done]. destruct (lookup_cluster 0 (f_gw s2)) as [c2|] eqn:L2; [|done].
  injection F1 as F1. injection F2 as F5 F6 F7 F8. right. exists h1, 0%nat, 15, o, h2, s1, s2, c1, c2. do 4 (split; [done|]). split; [done|]. split; [rewrite F1, F5; done|].
  intros x Hin Hr. rewrite F8. assert (w_name x ∈ map w_name (List.filter retired (c_workers c))) as H.
  { apply elem_of_list_fmap. exists x. split; [done|]. apply elem_of_list_In, filter_In. split; [by apply elem_of_list_In|done]. }
  rewrite H8 in H. done.
Qed.

(** C115. When the scheduler lets workers go, the gateway knows: for each worker that
    retire_workers is called for the departure is on record as expected, or the worker
    or the cluster was already to end or had ended; and this remains so.  Messages may
    be handled in any order. *)
Theorem C115_retired_expected : forall fc h1 s1 n s1' l h2 s2 p c x,
  fids_ok fc (h1 ++ (FAnswer n true, FO_Sch n (EAnswer true) (ORetire l)) :: h2) -> freach fc h1 s1 ->
  fstep fc s1 (FAnswer n true) = (s1', FO_Sch n (EAnswer true) (ORetire l)) -> fleads fc s1' h2 s2 -> p ∈ l ->
  lookup_cluster n (f_gw s2) = Some c -> x ∈ c_workers c -> w_name x = Pos.to_nat p ->
  c_target c <> RUNNING \/ finished (w_status x) \/ w_close x = true.
Proof. exact retired_flagged. Qed.
Print Assumptions C115_retired_expected.

(** Worker 2 is retired; it is running, nothing else is known against it. *)
Example C115_example : exists h1 s1 s1', freach ex_fc h1 s1 /\
  fstep ex_fc s1 (FAnswer 0 true) = (s1', FO_Sch 0 (EAnswer true) (ORetire [2%positive])) /\
  (fun c => (c_target c, map (fun x => (w_name x, w_status x, w_target x, w_close x)) (c_workers c))) <$> lookup_cluster 0 (f_gw s1') =
    Some (RUNNING, [(1%nat, RUNNING, RUNNING, false); (2%nat, RUNNING, RUNNING, true)]).
Proof.
  assert (exists h s, freach ex_fc h s /\ let '(s', o) := fstep ex_fc s (FAnswer 0 true) in
    match o with FO_Sch O (EAnswer true) (ORetire [2%positive]) => true | _ => false end = true /\
    (fun c => (c_target c, map (fun x => (w_name x, w_status x, w_target x, w_close x)) (c_workers c))) <$> lookup_cluster 0 (f_gw s') =
    Some (RUNNING, [(1%nat, RUNNING, RUNNING, false); (2%nat, RUNNING, RUNNING, true)])) as (h & s & Hx & H).
  { apply (fex_run ex_fc (ex_grown ++ [FSched 0 (EScale 1); FBeat 0 [2%positive]; FArrive 0 0 10])%nat). vm_compute. split; reflexivity. }
  destruct (fstep ex_fc s (FAnswer 0 true)) as [s' o] eqn:E. destruct H as [Ho H]. exists h, s, s'. split; [done|]. split; [|done]. rewrite E. f_equal.
  destruct o as [| |n e o]; try done. destruct n; [|done]. destruct e; try done. destruct ok; [|done]. destruct o as [| |l| |]; try done.
  destruct l as [|[|[]|] []]; done.
Qed.
