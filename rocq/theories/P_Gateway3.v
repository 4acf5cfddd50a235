(** Properties C81-C83: what the database-backed gateway (db_base.py) does sooner
    or later.  [endless] and [fair] are in Gateway_Spec3.  At the end, more on C22. *)
From Coq Require Import ZArith Lia Ascii String.
From stdpp Require Import prelude gmap.
From Verif Require Import Trace WorkQueue_Model Router_Model Gateway_Model Gateway_Spec Gateway_Spec3 Gateway_Proofs3 Gateway_Live2 Gateway_Size P_Gateway.
Open Scope Z_scope.

(** The runs the theorems are about exist: from every state the gateway can be in
    (with reconcilers, before the queue is closed), and beginning with any events
    but a crash and the closing of the queue. *)
Theorem C81_runs_exist : forall cf h s pre, ids_ok cf h -> reach cf h s -> closed (q s) = false -> (0 < parallelism cf)%nat ->
  Forall (fun e => crash e = false /\ e <> EClose) pre ->
  exists run ev, run O = s /\ (forall i e, pre !! i = Some e -> ev i = e) /\ endless cf run ev /\ fair cf run ev.
Proof.
  intros cf h s pre Hi Hr Hc Hp Hpre. exists (run_of cf s (evs_of pre)), (evs_of pre). split; [done|].
  split; [intros i e E; unfold evs_of; rewrite E; done|]. eapply runs_exist; eauto.
Qed.
Print Assumptions C81_runs_exist.

(** C81. A stop request is carried out: whatever the backend does, and whatever
    else happens, some day the cluster and all its workers have finished and the
    proxy does not lead to it, for good. *)
Theorem C81_stop_ends : forall cf run ev i n failed c, endless cf run ev -> fair cf run ev ->
  ev i = EStop n failed -> lookup_cluster n (run i) = Some c ->
  exists j, (i <= j)%nat /\ forall l, (j <= l)%nat -> ended (run l) n.
Proof. intros cf run ev i n failed c HE HF. exact (stop_ends cf run ev HE HF i n failed c). Qed.
Print Assumptions C81_stop_ends.
(** The same for whatever reason the cluster has to end. *)
Theorem C81_told_ends : forall cf run ev i n, endless cf run ev -> fair cf run ev -> to_end (run i) n ->
  exists j, (i <= j)%nat /\ forall l, (j <= l)%nat -> ended (run l) n.
Proof. intros cf run ev i n HE HF. exact (told_ends cf run ev HE HF i n). Qed.
Print Assumptions C81_told_ends.
(** And for a single worker. *)
Theorem C81_worker_ends : forall cf run ev i n w x, endless cf run ev -> fair cf run ev ->
  has_worker (run i) n w x -> finished (w_target x) ->
  exists j, (i <= j)%nat /\ forall l, (j <= l)%nat -> exists y, has_worker (run l) n w y /\ finished (w_status y).
Proof. intros cf run ev i n w x HE HF. exact (worker_told cf run ev HE HF i n w x). Qed.
Print Assumptions C81_worker_ends.

Lemma ex_ids b l (h : list (event * list obs)) : ids_ok (ex_cf b l) h.
Proof. left. apply ex_fresh. Qed.

(** A cluster with two running workers; a stop request; a heartbeat that takes no
    notice of it; then only turns. *)
Example C81_example : forall b, exists run ev c x, endless (ex_cf b 3) run ev /\ fair (ex_cf b 3) run ev /\
  ev O = EStop 0 false /\ lookup_cluster 0 (run O) = Some c /\ c_status c = RUNNING /\ length (c_workers c) = 2%nat /\
  ev 1%nat = EHeartbeat 0 (ex_msg 9 [1; 2]%nat [] []) 10 /\
  has_worker (run O) 0 1 x /\ w_status x = RUNNING /\ ~ to_end (run O) 0 /\ to_end (run 1%nat) 0 /\ ~ ended (run 1%nat) 0.
Proof.
  intros b.
  assert (exists h s, reach (ex_cf b 3) h s /\ (map fst h = ex_up /\ closed (q s) = false /\ exists c x, lookup_cluster 0 s = Some c /\ c_status c = RUNNING /\
    length (c_workers c) = 2%nat /\ c_target c = RUNNING /\ c_workers c !! O = Some x /\ w_name x = 1%nat /\ w_status x = RUNNING /\
    exists c', objs (step (ex_cf b 3) s (EStop 0 false)).1 !! O = Some c' /\ c_status c' = RUNNING /\ c_target c' = STOPPED))
    as (h & s & Hr & _ & Hc & c & x & Hl & H1 & H2 & H3 & H4 & H5 & H6 & c' & H7 & H8 & H9).
  { apply ex_run. destruct b; vm_compute; (split; [reflexivity|]); do 2 eexists; do 7 (split; [reflexivity|]); eexists; repeat split. }
  set (pre := [EStop 0 false; EHeartbeat 0 (ex_msg 9 [1; 2]%nat [] []) 10]).
  exists (run_of (ex_cf b 3) s (evs_of pre)), (evs_of pre), c, x.
  assert (objs s !! O = Some c) as Hn by (apply Gateway_Proofs.lookup_obj in Hl as [? _]; done).
  destruct (runs_exist (ex_cf b 3) h s pre) as [HE HF]; [apply ex_ids|done|done|simpl; lia|repeat constructor; done|].
  do 2 (split; [done|]). do 5 (split; [done|]). split; [exists c; split; [done|]; split; [apply (elem_of_list_lookup_2 _ O); done|done]|].
  split; [done|]. split; [intros (d & Hd & H); cbn [run_of] in Hd; congruence|]. split; [exists c'; split; [exact H7|congruence]|].
  intros (d & Hd & [Hf|Hf] & _); cbn [run_of] in Hd; change (evs_of pre O) with (EStop 0 false) in Hd; congruence.
Qed.

(** C82. What was asked for is begun: a cluster, and a worker, that was created is
    given to the backend some day (or was told to end before). *)
Theorem C82_starts : forall cf run ev i n c, endless cf run ev -> fair cf run ev -> objs (run i) !! n = Some c ->
  exists j, (i <= j)%nat /\ forall l, (j <= l)%nat -> exists d, objs (run l) !! n = Some d /\ c_status d <> CREATED.
Proof. intros cf run ev i n c HE HF. exact (created_starts cf run ev HE HF i n c). Qed.
Print Assumptions C82_starts.
Theorem C82_worker_starts : forall cf run ev i n w x, endless cf run ev -> fair cf run ev -> has_worker (run i) n w x ->
  exists j, (i <= j)%nat /\ forall l, (j <= l)%nat -> exists y, has_worker (run l) n w y /\ w_status y <> CREATED.
Proof. intros cf run ev i n w x HE HF. exact (created_wstarts cf run ev HE HF i n w x). Qed.
Print Assumptions C82_worker_starts.
(** A submitted cluster whose scheduler reports is up some day: it runs, the proxy
    leads to it, and it has the workers its scheduler asked for; unless it has to
    end.  (The heartbeats of this cluster say where its scheduler listens, and
    this one is accepted.) *)
Theorem C82_reports_up : forall cf run ev i n c m now, endless cf run ev -> fair cf run ev ->
  ev i = EHeartbeat n m now -> (forall l m now, ev l = EHeartbeat n m now -> m_sched m <> []) ->
  lookup_cluster n (run i) = Some c -> c_status c = SUBMITTED -> OAssertion ∉ (step cf (run i) (ev i)).2 ->
  exists j, (i <= j)%nat /\ (up (run j) n \/ to_end (run j) n).
Proof. intros cf run ev i n c m now HE HF. exact (reports_up cf run ev HE HF i n c m now). Qed.
Print Assumptions C82_reports_up.
(** So is, again and again, every running cluster, whatever happens to its workers. *)
Theorem C82_running_up : forall cf run ev i n c, endless cf run ev -> fair cf run ev -> objs (run i) !! n = Some c -> c_status c = RUNNING ->
  exists j, (i <= j)%nat /\ (up (run j) n \/ to_end (run j) n).
Proof. intros cf run ev i n c HE HF. exact (running_up cf run ev HE HF i n c). Qed.
Print Assumptions C82_running_up.

(** A submitted cluster, and a heartbeat that asks for two workers. *)
Example C82_example : exists run ev c, endless (ex_cf false 3) run ev /\ fair (ex_cf false 3) run ev /\
  ev O = EHeartbeat 0 (ex_msg 2 [] [] []) 4 /\ (forall l m now, ev l = EHeartbeat 0 m now -> m_sched m <> []) /\
  lookup_cluster 0 (run O) = Some c /\ c_status c = SUBMITTED /\ c_workers c = [] /\ OAssertion ∉ (step (ex_cf false 3) (run O) (ev O)).2 /\
  ~ up (run 1%nat) 0 /\ ~ to_end (run 1%nat) 0.
Proof.
  assert (exists h s, reach (ex_cf false 3) h s /\ (map fst h = ex_submit /\ closed (q s) = false /\ exists c, lookup_cluster 0 s = Some c /\ c_status c = SUBMITTED /\
    c_workers c = [] /\ (step (ex_cf false 3) s (EHeartbeat 0 (ex_msg 2 [] [] []) 4)).2 = [] /\
    exists c', objs (step (ex_cf false 3) s (EHeartbeat 0 (ex_msg 2 [] [] []) 4)).1 !! O = Some c' /\ c_status c' = SUBMITTED /\ c_target c' = RUNNING))
    as (h & s & Hr & _ & Hc & c & Hl & H1 & H2 & H3 & c' & H4 & H5 & H6).
  { apply ex_run. vm_compute. split; [reflexivity|]. eexists. do 4 (split; [reflexivity|]). eexists. repeat split. }
  set (pre := [EHeartbeat 0 (ex_msg 2 [] [] []) 4]). exists (run_of (ex_cf false 3) s (evs_of pre)), (evs_of pre), c.
  destruct (runs_exist (ex_cf false 3) h s pre) as [HE HF]; [apply ex_ids|done|done|simpl; lia|repeat constructor; done|].
  do 2 (split; [done|]). split; [done|]. split.
  { intros [|l] m now E; [injection E as <- _; done|]. exfalso. unfold evs_of in E. simpl in E. unfold turns in E.
    destruct (Cantor.of_nat (S l)) as [k b]. destruct (b mod 3)%nat as [|[|]]; done. }
  do 3 (split; [done|]). split; [cbn [run_of]; change (evs_of pre O) with (EHeartbeat 0 (ex_msg 2 [] [] []) 4); rewrite H3; apply not_elem_of_nil|].
  split; intros (d & Hd & H); cbn [run_of] in Hd; change (evs_of pre O) with (EHeartbeat 0 (ex_msg 2 [] [] []) 4) in Hd.
  - destruct H as [H _]. congruence.
  - congruence.
Qed.

(** C83. A shutdown does not wait for ever: some day all the clusters it waits for
    have ended, for good, and the queue can be closed. *)
Theorem C83_wait_over : forall cf run ev i ns, endless cf run ev -> fair cf run ev -> down (run i) = Some ns ->
  exists j, (i <= j)%nat /\ forall l, (j <= l)%nat -> down (run l) = Some ns /\ ~ waits (run l) /\ closed (q (step cf (run l) EClose).1) = true.
Proof. intros cf run ev i ns HE HF. exact (wait_over cf run ev HE HF i ns). Qed.
Print Assumptions C83_wait_over.

(** A shutdown with a running cluster: it waits. *)
Example C83_example : exists run ev, endless (ex_cf false 3) run ev /\ fair (ex_cf false 3) run ev /\ ev O = EShutdown /\
  down (run 1%nat) = Some [O] /\ waits (run 1%nat) /\ closed (q (step (ex_cf false 3) (run 1%nat) EClose).1) = false.
Proof.
  assert (exists h s, reach (ex_cf false 3) h s /\ (map fst h = ex_up /\ closed (q s) = false /\
    down (step (ex_cf false 3) s EShutdown).1 = Some [O] /\ (exists c, objs (step (ex_cf false 3) s EShutdown).1 !! O = Some c /\ c_status c = RUNNING) /\
    closed (q (step (ex_cf false 3) (step (ex_cf false 3) s EShutdown).1 EClose).1) = false)) as (h & s & Hr & _ & Hc & H1 & (c & H2 & H3) & H4).
  { apply ex_run. vm_compute. do 2 (split; [reflexivity|]). split; [eexists; repeat split|reflexivity]. }
  set (pre := [EShutdown]). exists (run_of (ex_cf false 3) s (evs_of pre)), (evs_of pre).
  destruct (runs_exist (ex_cf false 3) h s pre) as [HE HF]; [apply ex_ids|done|done|simpl; lia|repeat constructor; done|].
  do 3 (split; [done|]). cbn [run_of]. change (evs_of pre O) with EShutdown. split; [done|]. split; [|done].
  exists [O], O, c. split; [done|]. split; [left|]. split; [done|]. rewrite H3. intros [?|?]; done.
Qed.

(** C22, from any moment on: if a running cluster has the workers that were asked for
    in some state, then whenever the gateway is idle later it has as many as are asked
    for then, not counting those that left, as announced, in between. *)
Theorem C22_enough_since : forall cf h1 s1 h2 s2 n c1 c2,
  ids_ok cf (h1 ++ h2) -> reach cf h1 s1 -> leads cf s1 h2 s2 ->
  objs s1 !! n = Some c1 -> c_status c1 = RUNNING -> c_target c1 = RUNNING ->
  r_count (c_row c1) <= Z.of_nat (length (present c1)) ->
  idle s2 -> objs s2 !! n = Some c2 -> c_status c2 = RUNNING -> c_target c2 = RUNNING ->
  r_count (c_row c2) <= Z.of_nat (length (List.filter wanted (c_workers c2))) +
    Z.of_nat (length (List.filter (fun x => retired x && bool_decide (w_name x ∉ gone c1)) (c_workers c2))).
Proof. intros. eapply idle_enough_since; eauto. Qed.
Print Assumptions C22_enough_since.

(** The same from a heartbeat on that changes the requested number: workers that had
    left before it are no longer set off against the number. *)
Theorem C22_enough_since_change : forall cf h1 s1 n m now s1' o h2 s2 c0 c1 c2,
  ids_ok cf (h1 ++ (EHeartbeat n m now, o) :: h2) -> reach cf h1 s1 -> step cf s1 (EHeartbeat n m now) = (s1', o) ->
  objs s1 !! n = Some c0 -> objs s1' !! n = Some c1 -> r_count (c_row c1) <> r_count (c_row c0) ->
  c_status c1 = RUNNING -> c_target c1 = RUNNING -> leads cf s1' h2 s2 ->
  idle s2 -> objs s2 !! n = Some c2 -> c_status c2 = RUNNING -> c_target c2 = RUNNING ->
  r_count (c_row c2) <= Z.of_nat (length (List.filter wanted (c_workers c2))) +
    Z.of_nat (length (List.filter (fun x => retired x && bool_decide (w_name x ∉ gone c1)) (c_workers c2))).
Proof. exact idle_enough_changed. Qed.
Print Assumptions C22_enough_since_change.

(** Worker 2 leaves as announced when one worker is asked for; then two are asked for
    again: the bound of [C22_enough] would be met by worker 1 alone, this one is not. *)
Definition ex_shrink : list event :=
  (ex_up ++ [EHeartbeat 0 (ex_msg 1 [1] [2] []) 10; EGet 0 11; EHeartbeat 0 (ex_msg 1 [1] [] [2]) 12; EGet 0 13; EBackend 0 Ends 14])%list%nat.
Example C22_example_since : exists h1 s1 h2 s2, let cf := ex_cf false 3 in
  reach cf h1 s1 /\ leads cf s1 h2 s2 /\
  map fst h2 = [EHeartbeat 0 (ex_msg 2 [1] [] []) 15; EGet 0 16; EGet 0 17; EBackend 0 Ends 18]%nat /\ idle s2 /\
  exists c1 c2, objs s1 !! 0%nat = Some c1 /\ c_status c1 = RUNNING /\ c_target c1 = RUNNING /\ r_count (c_row c1) = 1 /\
  present c1 = [1%nat] /\ gone c1 = [2%nat] /\
  objs s2 !! 0%nat = Some c2 /\ c_status c2 = RUNNING /\ c_target c2 = RUNNING /\ r_count (c_row c2) = 2 /\
  map (fun x => (w_name x, wanted x, retired x)) (c_workers c2) = [(1, true, false); (2, false, true); (3, true, false)]%nat.
Proof.
  apply (ex_run2 _ ex_shrink [EHeartbeat 0 (ex_msg 2 [1] [] []) 15; EGet 0 16; EGet 0 17; EBackend 0 Ends 18]%nat).
  vm_compute. split; [reflexivity|]. split; [ex_idle|]. do 2 eexists. repeat split.
Qed.
