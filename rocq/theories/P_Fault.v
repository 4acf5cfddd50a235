(** Properties C131-C139: the database-backed gateway when calls of the database
    fail (db_base.py, Fault_Model).  A failing call may have changed nothing
    ([Before]), only the objects in memory ([RolledBack]), or both the objects and
    the tables ([After]).  A crash of the process between two database calls of one
    event is a [Before] followed by a restart. *)
From Coq Require Import ZArith Lia Ascii String.
From stdpp Require Import prelude gmap.
From Verif Require Import Trace WorkQueue_Model Router_Model Gateway_Model Gateway_Spec Gateway_Proofs Gateway_Proofs3 P_Gateway
  Fault_Model Fault_Spec Fault_Proofs Fault_Queue.
Open Scope Z_scope.

(** Events of the examples: all calls work, or they go as listed. *)
Notation fine e := (FE e 0 []).
Notation bad e fs := (FE e 0 fs).
Definition fex_ups : list fevent := map (fun e => fine e) ex_up.
Definition fex_subs : list fevent := map (fun e => fine e) ex_submit.

Lemma fex_map cf s evs s' (h : history) : run (fstep cf) s evs = (s', h) -> map fst h = evs.
Proof.
  revert s s' h. induction evs as [|e evs IH]; intros s s' h E; simpl in E; [by injection E as <- <-|].
  destruct (fstep cf s e) as [s1 o]. destruct (run (fstep cf) s1 evs) as [s2 h2] eqn:E2. injection E as <- <-. simpl. f_equal. eapply IH; eauto.
Qed.
Lemma fex_run cf evs (P : history -> gw -> Prop) :
  (let '(s, h) := run (fstep cf) (gw_init cf) evs in P h s) -> exists h s, freach cf h s /\ map fst h = evs /\ P h s.
Proof.
  destruct (run (fstep cf) (gw_init cf) evs) as [s h] eqn:E. intros HP. exists h, s.
  split; [exact (run_exec _ _ _ _ _ E)|]. split; [exact (fex_map _ _ _ _ _ E)|exact HP].
Qed.
Lemma fex_run2 cf evs1 evs2 (P : history -> gw -> history -> gw -> Prop) :
  (let '(s1, h1) := run (fstep cf) (gw_init cf) evs1 in let '(s2, h2) := run (fstep cf) s1 evs2 in P h1 s1 h2 s2) ->
  exists h1 s1 h2 s2, freach cf h1 s1 /\ fleads cf s1 h2 s2 /\ map fst h1 = evs1 /\ map fst h2 = evs2 /\ P h1 s1 h2 s2.
Proof.
  destruct (run (fstep cf) (gw_init cf) evs1) as [s1 h1] eqn:E1. destruct (run (fstep cf) s1 evs2) as [s2 h2] eqn:E2. intros HP. exists h1, s1, h2, s2.
  split; [exact (run_exec _ _ _ _ _ E1)|]. split; [exact (run_exec _ _ _ _ _ E2)|]. split; [exact (fex_map _ _ _ _ _ E1)|]. split; [exact (fex_map _ _ _ _ _ E2)|exact HP].
Qed.
(** [o] was seen. *)
Definition has (o : fobs) (h : history) : bool := bool_decide (o ∈ fseen h).
(** The conditions on histories, as tests on the events. *)
Definition life_b (fes : list fevent) : bool := forallb (fun fe => negb (fcrash fe)) fes.
Definition clean_b (fes : list fevent) : bool := forallb (fun fe => forallb (fun f => bool_decide (f = Good \/ f = Before)) (faults fe)) fes.
Definition kept_b (fes : list fevent) : bool := forallb (fun fe => forallb (fun f => bool_decide (f <> RolledBack)) (faults fe)) fes.
Lemma fex_life (h : history) : life_b (map fst h) = true -> fone_life h.
Proof.
  intros H fe o Hin. unfold life_b in H. rewrite forallb_forall in H. apply negb_true_iff, H. apply in_map_iff. exists (fe, o). split; [done|]. apply elem_of_list_In. done.
Qed.
Lemma fex_only (P : fault -> Prop) (DP : forall f, Decision (P f)) (h : history) :
  forallb (fun fe => forallb (fun f => bool_decide (P f)) (faults fe)) (map fst h) = true -> only P h.
Proof.
  intros H fe o f Hin Hf. rewrite forallb_forall in H. assert (In fe (map fst h)) as Hi by (apply in_map_iff; exists (fe, o); split; [done|]; apply elem_of_list_In; done).
  specialize (H fe Hi). rewrite forallb_forall in H. apply elem_of_list_In in Hf. specialize (H f Hf). apply bool_decide_eq_true in H. done.
Qed.
Lemma fex_clean (h : history) : clean_b (map fst h) = true -> only clean h. Proof. apply (fex_only (fun f => f = Good \/ f = Before) _). Qed.
Lemma fex_kept (h : history) : kept_b (map fst h) = true -> only kept h. Proof. apply (fex_only (fun f => f <> RolledBack) _). Qed.
(** A computed state is at rest. *)
Ltac ex_rest := split; [ex_idle|apply gmap_eq, pmap.Pmap_eq; reflexivity].

(** ** C131. The reported status only moves forward, and finished is final. *)
Theorem C131_forward_partial : forall cf h1 h2 s1 s2 n p1 p2, life_ok cf (h1 ++ h2) -> freach cf h1 s1 -> fleads cf s1 h2 s2 ->
  reported n s1 p1 -> reported n s2 p2 -> forward p1 p2.
Proof. exact fforward. Qed.
Print Assumptions C131_forward_partial.
Theorem C131_final_partial : forall cf h1 h2 s1 s2 n c1, life_ok cf (h1 ++ h2) -> freach cf h1 s1 -> fleads cf s1 h2 s2 ->
  objs s1 !! n = Some c1 -> finished (c_status c1) ->
  (forall c2, objs s2 !! n = Some c2 -> c_status c2 = c_status c1 /\ r_stop (c_row c2) = r_stop (c_row c1)) /\
  FObs (OStartC n) ∉ fseen h2 /\ (forall w, FObs (OStartW n w) ∉ fseen h2).
Proof. exact ffinal. Qed.
Print Assumptions C131_final_partial.
(** The life of a cluster in which one call of every kind fails once: the start
    is retried, the stop is answered with an error and asked for again. *)
Definition fex_life1 : list fevent :=
  [fine (EStart 1 7 (Some 2) 0); fine (EGet 0 1); fine (EBackend 0 (Yields 5) 2); bad (EBackend 0 Ends 3) [Before; Before]; FTimer 100 (0%nat, None);
   fine (EGet 0 101); fine (EBackend 0 Ends 102); fine (EHeartbeat 0 (ex_msg 5 [] [] []) 103); bad (EGet 0 104) [Before]; FTimer 200 (0%nat, None)].
Definition fex_life2 : list fevent :=
  [bad (EStop 0 false) [Before]; fine (EStop 0 false); bad (EGet 0 201) [Before]; FTimer 300 (0%nat, None); fine (EGet 0 301); fine (EGet 0 302); bad (EBackend 0 Ends 303) [Before];
   FTimer 400 (0%nat, None); fine (EGet 0 401); fine (EBackend 0 Ends 402)].
Example C131_example : exists h1 s1 h2 s2, let cf := ex_cf false 3 in
  freach cf h1 s1 /\ fleads cf s1 h2 s2 /\ life_ok cf (h1 ++ h2) /\ reported 0 s1 PPENDING /\ reported 0 s2 PSTOPPED /\
  (exists c2, objs s2 !! 0%nat = Some c2 /\ finished (c_status c2)) /\ has FError h2 = true /\ has (FRetry (0%nat, None)) h1 = true.
Proof.
  destruct (fex_run2 (ex_cf false 3) fex_life1 fex_life2 (fun h1 s1 h2 s2 => reported 0 s1 PPENDING /\ reported 0 s2 PSTOPPED /\
    (exists c2, objs s2 !! 0%nat = Some c2 /\ finished (c_status c2)) /\ has FError h2 = true /\ has (FRetry (0%nat, None)) h1 = true))
    as (h1 & s1 & h2 & s2 & R & L & M1 & M2 & HP); [vm_compute; split; [reflexivity|]; split; [reflexivity|]; split; [eexists; split; [reflexivity|left; reflexivity]|done]|].
  exists h1, s1, h2, s2. split; [exact R|]. split; [exact L|]. split; [left; apply fex_life; rewrite map_app, M1, M2; vm_compute; reflexivity|exact HP].
Qed.
(** False when a transaction is rolled back after memory changed: a restart
    brings back what the tables say.  A stopped cluster is closing again; a
    cluster that was being stopped is running again. *)
Theorem C131_forward_refuted : let cf := ex_cf false 3 in
  (exists h1 s1 h2 s2, freach cf h1 s1 /\ fleads cf s1 h2 s2 /\ fresh_ids cf /\ reported 0 s1 PSTOPPED /\ reported 0 s2 PSTOPPING) /\
  (exists h1 s1 h2 s2, freach cf h1 s1 /\ fleads cf s1 h2 s2 /\ fresh_ids cf /\ reported 0 s1 PSTOPPING /\ reported 0 s2 PRUNNING).
Proof.
  split.
  - destruct (fex_run2 (ex_cf false 3) (fex_subs ++ [fine (EStop 0 false); fine (EGet 0 10); fine (EGet 0 11); bad (EBackend 0 Ends 12) [RolledBack]]) [fine (ERestart 20)]
      (fun h1 s1 h2 s2 => reported 0 s1 PSTOPPED /\ reported 0 s2 PSTOPPING)) as (h1 & s1 & h2 & s2 & R & L & _ & _ & H1 & H2); [vm_compute; split; reflexivity|].
    exists h1, s1, h2, s2. split; [exact R|]. split; [exact L|]. split; [apply ex_fresh|]. split; [exact H1|exact H2].
  - destruct (fex_run2 (ex_cf false 3) (fex_ups ++ [bad (EStop 0 false) [RolledBack]]) [fine (ERestart 20)]
      (fun h1 s1 h2 s2 => reported 0 s1 PSTOPPING /\ reported 0 s2 PRUNNING)) as (h1 & s1 & h2 & s2 & R & L & _ & _ & H1 & H2); [vm_compute; split; reflexivity|].
    exists h1, s1, h2, s2. split; [exact R|]. split; [exact L|]. split; [apply ex_fresh|]. split; [exact H1|exact H2].
Qed.
Print Assumptions C131_forward_refuted.

(** ** C132. When there is nothing left to do, what was asked has happened. *)
Theorem C132_settled_partial : forall cf h s n c, clean_ok cf h -> freach cf h s -> at_rest s -> objs s !! n = Some c -> settled c.
Proof. exact fsettled. Qed.
Print Assumptions C132_settled_partial.
(** A restart repairs what calls that raised after the commit left undone. *)
Theorem C132_restart_heals_partial : forall cf h1 now lt fs o h2 s n c, fresh_ids cf -> only kept h1 -> only clean h2 ->
  freach cf (h1 ++ (FE (ERestart now) lt fs, o) :: h2) s -> at_rest s -> objs s !! n = Some c -> settled c.
Proof. exact heals. Qed.
Print Assumptions C132_restart_heals_partial.
Example C132_example : exists h s, let cf := ex_cf false 3 in
  freach cf h s /\ clean_ok cf h /\ at_rest s /\ (exists c, objs s !! 0%nat = Some c /\ c_target c = STOPPED) /\
  has FError h = true /\ has (FRetry (0%nat, None)) h = true.
Proof.
  destruct (fex_run (ex_cf false 3) (fex_life1 ++ fex_life2 ++ [fine (EGet 0 500)]) (fun h s => at_rest s /\ (exists c, objs s !! 0%nat = Some c /\ c_target c = STOPPED) /\
    has FError h = true /\ has (FRetry (0%nat, None)) h = true)) as (h & s & R & M & HP); [vm_compute; split; [ex_rest|]; split; [eexists; split; reflexivity|done]|].
  exists h, s. split; [exact R|]. split; [|exact HP]. split; [apply fex_clean; rewrite M; vm_compute; reflexivity|left; apply fex_life; rewrite M; vm_compute; reflexivity].
Qed.
(** The stop that got lost (see below) is carried out after a restart. *)
Example C132_example_2 : exists h1 o h2 s, let cf := ex_cf false 3 in
  fresh_ids cf /\ only kept h1 /\ only clean h2 /\ freach cf (h1 ++ (fine (ERestart 20), o) :: h2) s /\ at_rest s /\
  exists c, objs s !! 0%nat = Some c /\ c_target c = STOPPED.
Proof.
  destruct (fex_run2 (ex_cf false 3) (fex_subs ++ [bad (EStop 0 false) [After]]) [fine (ERestart 20); fine (EGet 0 21); fine (EGet 0 22); fine (EBackend 0 Ends 23)]
    (fun h1 s1 h2 s2 => at_rest s2 /\ exists c, objs s2 !! 0%nat = Some c /\ c_target c = STOPPED)) as (h1 & s1 & h2 & s2 & R & L & M1 & M2 & H1 & H2);
    [vm_compute; split; [ex_rest|eexists; split; reflexivity]|].
  destruct h2 as [|[fe o] h2]; [discriminate M2|]. injection M2 as -> M2. exists h1, o, h2, s2. split; [apply ex_fresh|].
  split; [apply fex_kept; rewrite M1; vm_compute; reflexivity|]. split; [apply fex_clean; rewrite M2; vm_compute; reflexivity|].
  split; [apply freach_app; exists s1; split; [exact R|exact L]|]. split; [exact H1|exact H2].
Qed.
(** False when a call raises after its commit.  A stop request is answered with an
    error; the retried request is answered with success; nothing is ever stopped.
    A cluster whose creation is answered with an error stays, and is never started. *)
Theorem C132_settled_refuted : let cf := ex_cf false 3 in
  (exists h s, freach cf h s /\ fone_life h /\ has FError h = true /\ at_rest s /\ fstep cf s (fine (EStop 0 false)) = (s, []) /\
     exists c, objs s !! 0%nat = Some c /\ c_target c = STOPPED /\ c_status c = RUNNING) /\
  (exists h s, freach cf h s /\ fone_life h /\ has FError h = true /\ at_rest s /\ reported 0 s PPENDING /\
     exists c, objs s !! 0%nat = Some c /\ c_target c = RUNNING /\ c_status c = CREATED).
Proof.
  split.
  - destruct (fex_run (ex_cf false 3) (fex_ups ++ [bad (EStop 0 false) [After]]) (fun h s => has FError h = true /\ at_rest s /\
      exists c, lookup_cluster 0 s = Some c /\ c_target c = STOPPED /\ c_status c = RUNNING)) as (h & s & R & M & H1 & H2 & c & Hc & H3 & H4);
      [vm_compute; split; [done|]; split; [ex_rest|]; eexists; repeat split|].
    exists h, s. split; [exact R|]. split; [apply fex_life; rewrite M; vm_compute; reflexivity|]. split; [exact H1|]. split; [exact H2|].
    split; [cbn [fstep]; unfold fstop_cluster; rewrite Hc, H3; reflexivity|]. exists c. split; [apply (lookup_obj _ _ _ Hc)|]. split; [exact H3|exact H4].
  - destruct (fex_run (ex_cf false 3) [bad (EStart 1 7 (Some 2) 0) [After]] (fun h s => has FError h = true /\ at_rest s /\ reported 0 s PPENDING /\
      exists c, objs s !! 0%nat = Some c /\ c_target c = RUNNING /\ c_status c = CREATED)) as (h & s & R & M & HP);
      [vm_compute; split; [done|]; split; [ex_rest|]; split; [reflexivity|]; eexists; repeat split|].
    exists h, s. split; [exact R|]. split; [apply fex_life; rewrite M; vm_compute; reflexivity|exact HP].
Qed.
Print Assumptions C132_settled_refuted.

(** ** C133. Operations of the backend on one cluster or worker do not overlap. *)
Theorem C133_one_operation_partial : forall cf h s k1 k2 p1 p2, life_ok cf h -> freach cf h s ->
  busy s !! k1 = Some p1 -> busy s !! k2 = Some p2 -> pc_item p1 = pc_item p2 -> k1 = k2 /\ p1 = p2.
Proof. exact fone_operation. Qed.
Print Assumptions C133_one_operation_partial.
(** In one lifetime a cluster is started again only after its reconciler was
    interrupted by an exception. *)
Theorem C133_start_again_partial : forall cf h1 h2 s1 s2 n l1 l2 l3, life_ok cf h1 -> freach cf h1 s1 -> fone_life h2 -> fleads cf s1 h2 s2 ->
  fseen h2 = l1 ++ FObs (OStartC n) :: l2 ++ FObs (OStartC n) :: l3 -> FRetry (n, None) ∈ l2.
Proof. exact start_again. Qed.
Print Assumptions C133_start_again_partial.
(** ... and then it is: two failing updates, and a second scheduler is started
    although the first one was. *)
Theorem C133_started_once_refuted : exists h s l2 l3, let cf := ex_cf false 3 in
  freach cf h s /\ clean_ok cf h /\ fone_life h /\ fseen h = [FObs (OCreated 0)] ++ FObs (OStartC 0) :: l2 ++ FObs (OStartC 0) :: l3 /\
  FObs (OStateC 0 5) ∈ l2 /\ FObs (OStateC 0 6) ∈ l3 /\ (forall st, FObs (OStopC 0 st) ∉ fseen h).
Proof.
  destruct (fex_run (ex_cf false 3) [fine (EStart 1 7 (Some 2) 0); fine (EGet 0 1); fine (EBackend 0 (Yields 5) 2); bad (EBackend 0 Ends 3) [Before; Before];
    FTimer 100 (0%nat, None); fine (EGet 0 101); fine (EBackend 0 (Yields 6) 102); fine (EBackend 0 Ends 103)]
    (fun h s => fseen h = [FObs (OCreated 0); FObs (OStartC 0); FObs (OStateC 0 5); FRetry (0%nat, None); FObs (OStartC 0); FObs (OStateC 0 6)])) as (h & s & R & M & E); [vm_compute; reflexivity|].
  exists h, s, [FObs (OStateC 0 5); FRetry (0%nat, None)], [FObs (OStateC 0 6)]. split; [exact R|].
  assert (fone_life h) as Hol by (apply fex_life; rewrite M; vm_compute; reflexivity).
  split; [split; [apply fex_clean; rewrite M; vm_compute; reflexivity|left; exact Hol]|]. split; [exact Hol|]. split; [exact E|].
  split; [by left|]. split; [by left|]. intros st Hin. rewrite E in Hin. repeat (apply elem_of_cons in Hin as [Hin|Hin]; [discriminate Hin|]). inversion Hin.
Qed.
Print Assumptions C133_started_once_refuted.

(** ** C134. What was started is stopped. *)
(** A cluster is finished only after its stop was called, and it is not started
    after that. *)
Theorem C134_cluster_stop_called_partial : forall cf h s n c, life_ok cf h -> freach cf h s -> objs s !! n = Some c -> finished (c_status c) ->
  exists l1 st l2, fseen h = l1 ++ FObs (OStopC n st) :: l2 /\ FObs (OStartC n) ∉ l2.
Proof. exact cluster_stop_seen. Qed.
Print Assumptions C134_cluster_stop_called_partial.
(** Not with the state that the start reported last: if that cannot be stored,
    the stop is called with what was stored before. *)
Theorem C134_state_refuted : exists h s, let cf := ex_cf false 3 in
  freach cf h s /\ clean_ok cf h /\ (exists c, objs s !! 0%nat = Some c /\ finished (c_status c)) /\
  has (FObs (OStateC 0 5)) h = true /\ flast_state 0 (fseen h) = 5%nat /\ has (FObs (OStopC 0 0)) h = true /\ has (FObs (OStopC 0 5)) h = false.
Proof.
  destruct (fex_run (ex_cf false 3) [fine (EStart 1 7 (Some 2) 0); fine (EGet 0 1); bad (EBackend 0 (Yields 5) 2) [Before]; fine (EGet 0 3); fine (EGet 0 4); fine (EBackend 0 Ends 5)]
    (fun h s => (exists c, objs s !! 0%nat = Some c /\ finished (c_status c)) /\
     has (FObs (OStateC 0 5)) h = true /\ flast_state 0 (fseen h) = 5%nat /\ has (FObs (OStopC 0 0)) h = true /\ has (FObs (OStopC 0 5)) h = false)) as (h & s & R & M & HP);
    [vm_compute; split; [eexists; split; [reflexivity|right; reflexivity]|done]|].
  exists h, s. split; [exact R|]. split; [|exact HP]. split; [apply fex_clean; rewrite M; vm_compute; reflexivity|left; apply fex_life; rewrite M; vm_compute; reflexivity].
Qed.
Print Assumptions C134_state_refuted.
(** A worker that was started may be recorded as stopped although no stop was ever
    called for it: its cluster runs on, and so does the worker. *)
Theorem C134_worker_refuted : exists h s c x, let cf := ex_cf false 3 in
  freach cf h s /\ clean_ok cf h /\ fone_life h /\ objs s !! 0%nat = Some c /\ x ∈ c_workers c /\ w_name x = 1%nat /\ finished (w_status x) /\
  has (FObs (OStartW 0 1)) h = true /\ has (FObs (OStateW 0 1 8)) h = true /\ (forall st, FObs (OStopW 0 1 st) ∉ fseen h) /\ (forall st, FObs (OStopC 0 st) ∉ fseen h).
Proof.
  destruct (fex_run (ex_cf false 3) (fex_subs ++ [fine (EHeartbeat 0 (ex_msg 1 [] [] []) 4); fine (EGet 0 5); fine (EGet 0 6); fine (EBackend 0 (Yields 8) 7); bad (EBackend 0 Ends 8) [Before; Before];
     fine (EHeartbeat 0 (ex_msg 0 [] [] []) 9); fine (EGet 0 10); fine (EGet 0 11)])
    (fun h s => (exists c x, objs s !! 0%nat = Some c /\ c_workers c = [x] /\ w_name x = 1%nat /\ finished (w_status x)) /\
     has (FObs (OStartW 0 1)) h = true /\ has (FObs (OStateW 0 1 8)) h = true /\
     forallb (fun o => match o with FObs (OStopW _ _ _) | FObs (OStopC _ _) => false | _ => true end) (fseen h) = true)) as (h & s & R & M & (c & x & Hc & Ex & En & Hf) & H1 & H2 & H3);
    [vm_compute; split; [do 2 eexists; split; [reflexivity|]; split; [reflexivity|]; split; [reflexivity|left; reflexivity]|done]|].
  rewrite forallb_forall in H3. assert (fone_life h) as Hol by (apply fex_life; rewrite M; vm_compute; reflexivity).
  exists h, s, c, x. split; [exact R|]. split; [split; [apply fex_clean; rewrite M; vm_compute; reflexivity|left; exact Hol]|]. split; [exact Hol|].
  split; [exact Hc|]. split; [rewrite Ex; by left|]. split; [exact En|]. split; [exact Hf|]. split; [exact H1|]. split; [exact H2|].
  split; intros st Hin; apply elem_of_list_In in Hin; specialize (H3 _ Hin); discriminate H3.
Qed.
Print Assumptions C134_worker_refuted.
Example C134_example : exists h s c, let cf := ex_cf false 3 in
  freach cf h s /\ life_ok cf h /\ objs s !! 0%nat = Some c /\ finished (c_status c) /\ has (FRetry (0%nat, None)) h = true.
Proof.
  destruct (fex_run (ex_cf false 3) (fex_life1 ++ fex_life2) (fun h s => (exists c, objs s !! 0%nat = Some c /\ finished (c_status c)) /\ has (FRetry (0%nat, None)) h = true))
    as (h & s & R & M & (c & Hc & Hf) & H); [vm_compute; split; [eexists; split; [reflexivity|left; reflexivity]|done]|].
  exists h, s, c. split; [exact R|]. split; [left; apply fex_life; rewrite M; vm_compute; reflexivity|]. split; [exact Hc|]. split; [exact Hf|exact H].
Qed.

(** ** C135. Never more workers than the cluster's limit. *)
Theorem C135_worker_cap_partial : forall cf h s u i m t lt fs n c, life_ok cf h -> freach cf h s ->
  (FE (EStart u i (Some m) t) lt fs, [FObs (OCreated n)]) ∈ h -> 0 <= m -> objs s !! n = Some c ->
  Z.of_nat (length (List.filter wanted (c_workers c))) <= m /\ r_count (c_row c) <= m.
Proof. exact fworker_cap. Qed.
Print Assumptions C135_worker_cap_partial.
(** That a worker was found dead is noted in memory and rolled back in the database;
    it is replaced; a restart brings it back. *)
Definition fex_cap : list fevent := take 11 fex_ups ++
  [fine ECheckWorkers; bad (ECheckWorkersEnd (Some [true; false])) [RolledBack]; fine (EHeartbeat 0 (ex_msg 1 [1; 2] [] []) 11);
   fine (EHeartbeat 0 (ex_msg 2 [1; 2] [] []) 12); fine (EGet 0 13)]%nat.
Theorem C135_worker_cap_refuted : exists h s c, let cf := ex_cf false 3 in
  freach cf h s /\ fresh_ids cf /\ (fine (EStart 1 7 (Some 2) 0), [FObs (OCreated 0)]) ∈ h /\ objs s !! 0%nat = Some c /\
  length (List.filter wanted (c_workers c)) = 3%nat.
Proof.
  destruct (fex_run (ex_cf false 3) (fex_cap ++ [fine (ERestart 20)]) (fun h s => (exists h', h = (fine (EStart 1 7 (Some 2) 0), [FObs (OCreated 0)]) :: h') /\ exists c, objs s !! 0%nat = Some c /\
     length (List.filter wanted (c_workers c)) = 3%nat)) as (h & s & R & M & (h' & Eh) & c & Hc & E); [vm_compute; split; [eexists; reflexivity|eexists; split; reflexivity]|].
  exists h, s, c. split; [exact R|]. split; [apply ex_fresh|]. split; [rewrite Eh; by left|]. split; [exact Hc|exact E].
Qed.
Print Assumptions C135_worker_cap_refuted.
Example C135_example : exists h s c, let cf := ex_cf false 3 in
  freach cf h s /\ life_ok cf h /\ (fine (EStart 1 7 (Some 2) 0), [FObs (OCreated 0)]) ∈ h /\ objs s !! 0%nat = Some c /\
  length (List.filter wanted (c_workers c)) = 2%nat /\ length (c_workers c) = 3%nat /\ has FLogged h = true.
Proof.
  destruct (fex_run (ex_cf false 3) fex_cap (fun h s => (exists h', h = (fine (EStart 1 7 (Some 2) 0), [FObs (OCreated 0)]) :: h') /\ exists c, objs s !! 0%nat = Some c /\
     length (List.filter wanted (c_workers c)) = 2%nat /\ length (c_workers c) = 3%nat /\ has FLogged h = true)) as (h & s & R & M & (h' & Eh) & c & Hc & E); [vm_compute; split; [eexists; reflexivity|eexists; repeat split]|].
  exists h, s, c. split; [exact R|]. split; [left; apply fex_life; rewrite M; vm_compute; reflexivity|]. split; [rewrite Eh; by left|]. split; [exact Hc|exact E].
Qed.

(** ** C136. Memory is the database, and a restart keeps all records. *)
Theorem C136_memory_is_database_partial : forall cf h s, fresh_ids cf -> only kept h -> freach cf h s ->
  (forall id r, db_c s !! id = Some r <-> exists n c, lookup_cluster n s = Some c /\ c_id c = id /\ c_row c = r) /\
  (forall wid cid x, db_w s !! wid = Some (cid, x) <->
     exists n c, lookup_cluster n s = Some c /\ c_id c = cid /\ x ∈ c_workers c /\ w_id x = wid).
Proof. exact fmemory. Qed.
Print Assumptions C136_memory_is_database_partial.
Theorem C136_restart_keeps_partial : forall cf h s now lt fs, fresh_ids cf -> only kept h -> freach cf h s ->
  let s' := (fstep cf s (FE (ERestart now) lt fs)).1 in
  (forall n, match lookup_cluster n s, lookup_cluster n s' with
             | Some c, Some c' => same_record c c' | None, None => True | _, _ => False end) /\
  indexes_agree s' /\ db_c s' = db_c s /\ db_w s' = db_w s /\ busy s' = ∅ /\ routes s' = ∅.
Proof. exact frestart_keeps. Qed.
Print Assumptions C136_restart_keeps_partial.
Example C136_example : exists h s, let cf := ex_cf false 3 in
  freach cf h s /\ fresh_ids cf /\ only kept h /\ has FError h = true /\ has (FRetry (0%nat, None)) h = true /\
  elements (dom (db_c s)) = [0]%nat /\ elements (dom (db_w s)) = [0; 1]%nat.
Proof.
  destruct (fex_run (ex_cf false 3) (fex_life1 ++ [fine (EGet 0 201); bad (EStop 0 false) [After]]) (fun h s => has FError h = true /\ has (FRetry (0%nat, None)) h = true /\
    elements (dom (db_c s)) = [0]%nat /\ elements (dom (db_w s)) = [0; 1]%nat)) as (h & s & R & M & HP); [vm_compute; repeat split|].
  exists h, s. split; [exact R|]. split; [apply ex_fresh|]. split; [apply fex_kept; rewrite M; vm_compute; reflexivity|exact HP].
Qed.
(** False when a transaction is rolled back: a cluster that the gateway tells its
    owner is stopping is a running cluster in the database; a cluster that the
    gateway lists is not in the database. *)
Theorem C136_memory_is_database_refuted : let cf := ex_cf false 3 in
  (exists h s c r, freach cf h s /\ fresh_ids cf /\ lookup_cluster 0 s = Some c /\ db_c s !! c_id c = Some r /\ c_target c = STOPPED /\ r_target r = RUNNING) /\
  (exists h s c, freach cf h s /\ fresh_ids cf /\ has FError h = true /\ lookup_cluster 0 s = Some c /\ db_c s !! c_id c = None).
Proof.
  split.
  - destruct (fex_run (ex_cf false 3) (fex_subs ++ [bad (EStop 0 false) [RolledBack]]) (fun h s => exists c r, lookup_cluster 0 s = Some c /\ db_c s !! c_id c = Some r /\ c_target c = STOPPED /\ r_target r = RUNNING))
      as (h & s & R & M & c & r & HP); [vm_compute; do 2 eexists; repeat split|].
    exists h, s, c, r. split; [exact R|]. split; [apply ex_fresh|exact HP].
  - destruct (fex_run (ex_cf false 3) [bad (EStart 1 7 (Some 2) 0) [RolledBack]] (fun h s => exists c, has FError h = true /\ lookup_cluster 0 s = Some c /\ db_c s !! c_id c = None))
      as (h & s & R & M & c & HP); [vm_compute; eexists; repeat split|].
    exists h, s, c. split; [exact R|]. split; [apply ex_fresh|exact HP].
Qed.
Print Assumptions C136_memory_is_database_refuted.

(** ** C137. A purge removes what has expired, or nothing. *)
Theorem C137_purge_partial : forall cf h s now lt fs s' o, fresh_ids cf -> only kept h -> freach cf h s -> down s = None -> RolledBack ∉ fs ->
  fstep cf s (FE (ECleanup now) lt fs) = (s', o) ->
  (s' = s /\ o = [FLogged]) \/
  ((forall n c, lookup_cluster n s' = Some c <-> lookup_cluster n s = Some c /\ ~ ended_before (now - max_age cf) (c_row c)) /\
   (forall id r, db_c s' !! id = Some r <-> db_c s !! id = Some r /\ ~ ended_before (now - max_age cf) r) /\
   (forall wid cid x, db_w s' !! wid = Some (cid, x) <-> db_w s !! wid = Some (cid, x) /\ exists r, db_c s' !! cid = Some r) /\
   indexes_agree s' /\ (fs = [] -> o = [])).
Proof. exact fpurge. Qed.
Print Assumptions C137_purge_partial.
Example C137_example : exists h s, let cf := ex_cf false 3 in
  freach cf h s /\ fresh_ids cf /\ only kept h /\ down s = None /\ is_Some (lookup_cluster 0 s) /\
  lookup_cluster 0 (fstep cf s (bad (ECleanup 1000) [Before])).1 <> None /\ lookup_cluster 0 (fstep cf s (fine (ECleanup 1000))).1 = None.
Proof.
  destruct (fex_run (ex_cf false 3) (fex_life1 ++ fex_life2) (fun h s => down s = None /\ is_Some (lookup_cluster 0 s) /\
    lookup_cluster 0 (fstep (ex_cf false 3) s (bad (ECleanup 1000) [Before])).1 <> None /\ lookup_cluster 0 (fstep (ex_cf false 3) s (fine (ECleanup 1000))).1 = None))
    as (h & s & R & M & HP); [vm_compute; split; [reflexivity|]; split; [eexists; reflexivity|]; split; [discriminate|reflexivity]|].
  exists h, s. split; [exact R|]. split; [apply ex_fresh|]. split; [apply fex_kept; rewrite M; vm_compute; reflexivity|exact HP].
Qed.
(** A purge that is rolled back: from then on every purge fails and removes nothing
    from the database, however many clusters expire, until the gateway is restarted. *)
Theorem C137_purge_refuted : exists h s, let cf := ex_cf false 3 in
  freach cf h s /\ fresh_ids cf /\ down s = None /\ lookup_cluster 0 s = None /\ is_Some (db_c s !! 0%nat) /\
  forall now lt fs, 200 < now -> exists s', fstep cf s (FE (ECleanup now) lt fs) = (s', [FLogged]) /\ db_c s' = db_c s /\ db_w s' = db_w s.
Proof.
  destruct (fex_run (ex_cf false 3) (fex_subs ++ [fine (EStop 0 false); fine (EGet 0 10); fine (EGet 0 11); fine (EBackend 0 Ends 12); bad (ECleanup 200) [RolledBack]])
    (fun h s => down s = None /\ lookup_cluster 0 s = None /\ by_id s !! 0%nat = None /\ exists r, db_c s !! 0%nat = Some r /\ r_stop r = Some 12))
    as (h & s & R & M & H1 & H2 & H3 & r & H4 & H5); [vm_compute; repeat split; eexists; split; reflexivity|].
  exists h, s. split; [exact R|]. split; [apply ex_fresh|]. split; [exact H1|]. split; [exact H2|]. split; [rewrite H4; by eexists|].
  intros now lt fs Hn. cbn [fstep]. rewrite H1. apply (purge_stuck _ 0 r); [exact H4| |exact H3]. unfold is_expired. rewrite H5. simpl. lia.
Qed.
Print Assumptions C137_purge_refuted.

(** ** C138. A reconciliation that was interrupted is tried again. *)
Theorem C138_retried : forall cf h s e lt fs s' o x, freach cf h s -> fstep cf s (FE e lt fs) = (s', o) -> FRetry x ∈ o ->
  x ∈ dirty (q s') \/ exists t, timers (q s') !! x = Some t /\ t <= lt + q_max cf.
Proof. exact fretried_in. Qed.
Print Assumptions C138_retried.
Theorem C138_timer : forall cf h s x t lt, freach cf h s -> timers (q s) !! x = Some t -> t <= lt ->
  let s' := (fstep cf s (FTimer lt x)).1 in x ∈ queue (q s') \/ x ∈ processing (q s').
Proof. exact ftimer_in. Qed.
Print Assumptions C138_timer.
Example C138_example : exists h s, let cf := ex_cf false 3 in
  freach cf h s /\ life_ok cf h /\ (fstep cf s (FE (EBackend 0 Ends 3) 40 [Before; Before])).2 = [FRetry (0%nat, None)] /\
  timers (q (fstep cf s (FE (EBackend 0 Ends 3) 40 [Before; Before])).1) !! (0%nat, None) = Some 41.
Proof.
  destruct (fex_run (ex_cf false 3) (take 3 fex_life1) (fun h s => (fstep (ex_cf false 3) s (FE (EBackend 0 Ends 3) 40 [Before; Before])).2 = [FRetry (0%nat, None)] /\
    timers (q (fstep (ex_cf false 3) s (FE (EBackend 0 Ends 3) 40 [Before; Before])).1) !! (0%nat, None) = Some 41)) as (h & s & R & M & HP); [vm_compute; split; reflexivity|].
  exists h, s. split; [exact R|]. split; [left; apply fex_life; rewrite M; vm_compute; reflexivity|exact HP].
Qed.

(** ** C139. Waiting requests are told: the flags agree with the status. *)
Theorem C139_flags_partial : forall cf h s n c, clean_ok cf h -> freach cf h s -> objs s !! n = Some c ->
  (c_ready c = true <-> c_status c <> CREATED /\ c_status c <> SUBMITTED) /\ (c_shutdown c = true <-> finished (c_status c)).
Proof. exact fflags. Qed.
Print Assumptions C139_flags_partial.
(** An update that raises after its commit: the cluster is running, nothing is left
    to do, and who waits for it is not told; the same with the end of a cluster. *)
Theorem C139_flags_refuted : let cf := ex_cf false 3 in
  (exists h s c, freach cf h s /\ fone_life h /\ only kept h /\ at_rest s /\ objs s !! 0%nat = Some c /\ c_status c = RUNNING /\ c_target c = RUNNING /\ c_ready c = false) /\
  (exists h s c, freach cf h s /\ fone_life h /\ only kept h /\ at_rest s /\ objs s !! 0%nat = Some c /\ c_status c = STOPPED /\ c_shutdown c = false).
Proof.
  split.
  - destruct (fex_run (ex_cf false 3) (fex_subs ++ [fine (EHeartbeat 0 (ex_msg 0 [] [] []) 4); bad (EGet 0 5) [After]; FTimer 100 (0%nat, None); fine (EGet 0 101)])
      (fun h s => at_rest s /\ exists c, objs s !! 0%nat = Some c /\ c_status c = RUNNING /\ c_target c = RUNNING /\ c_ready c = false)) as (h & s & R & M & H1 & c & HP);
      [vm_compute; split; [ex_rest|eexists; repeat split]|].
    exists h, s, c. split; [exact R|]. split; [apply fex_life; rewrite M; vm_compute; reflexivity|]. split; [apply fex_kept; rewrite M; vm_compute; reflexivity|]. split; [exact H1|exact HP].
  - destruct (fex_run (ex_cf false 3) (fex_subs ++ [fine (EStop 0 false); fine (EGet 0 10); fine (EGet 0 11); bad (EBackend 0 Ends 12) [After]; FTimer 100 (0%nat, None); fine (EGet 0 101)])
      (fun h s => at_rest s /\ exists c, objs s !! 0%nat = Some c /\ c_status c = STOPPED /\ c_shutdown c = false)) as (h & s & R & M & H1 & c & HP);
      [vm_compute; split; [ex_rest|eexists; repeat split]|].
    exists h, s, c. split; [exact R|]. split; [apply fex_life; rewrite M; vm_compute; reflexivity|]. split; [apply fex_kept; rewrite M; vm_compute; reflexivity|]. split; [exact H1|exact HP].
Qed.
Print Assumptions C139_flags_refuted.
Example C139_example : exists h s c, let cf := ex_cf false 3 in
  freach cf h s /\ clean_ok cf h /\ objs s !! 0%nat = Some c /\ c_status c = STOPPED /\ c_shutdown c = true /\ has (FRetry (0%nat, None)) h = true.
Proof.
  destruct (fex_run (ex_cf false 3) (fex_life1 ++ fex_life2) (fun h s => exists c, objs s !! 0%nat = Some c /\ c_status c = STOPPED /\ c_shutdown c = true /\ has (FRetry (0%nat, None)) h = true))
    as (h & s & R & M & c & HP); [vm_compute; eexists; repeat split|].
  exists h, s, c. split; [exact R|]. split; [|exact HP]. split; [apply fex_clean; rewrite M; vm_compute; reflexivity|left; apply fex_life; rewrite M; vm_compute; reflexivity].
Qed.
