(** Properties C76-C80: the database-backed gateway (db_base.py), continued. *)
From Coq Require Import ZArith Lia Ascii String.
From stdpp Require Import prelude gmap.
From Verif Require Import Trace WorkQueue_Model Router_Model Gateway_Model Gateway_Spec Gateway_Spec2 Gateway_Proofs3 Gateway_Status P_Gateway.
Open Scope Z_scope.

(** C76. What a reported status means.  Pending: not to end, nobody was told it is
    ready, not reachable.  Running: not to end, those who waited for it were woken,
    the scheduler's address is known.  Stopping: it is to end, and has not.
    Stopped, failed: it was to end with this outcome, the time is recorded, it is
    not reachable, those who waited for its end were woken, the backend was asked
    to stop its scheduler, and each worker has finished. *)
Theorem C76_status_meaning : forall cf h s n c p,
  ids_ok cf h -> reach cf h s -> lookup_cluster n s = Some c -> reported n s p ->
  match p with
  | PPENDING => c_target c = RUNNING /\ c_ready c = false /\ no_route s n /\ r_stop (c_row c) = None
  | PRUNNING => c_target c = RUNNING /\ c_ready c = true /\ r_sched (c_row c) <> [] /\ r_stop (c_row c) = None
  | PSTOPPING => (exists j, told_to_end c j) /\ r_stop (c_row c) = None
  | PSTOPPED => told_to_end c STOPPED /\ is_Some (r_stop (c_row c)) /\ no_route s n /\ c_shutdown c = true /\
      stop_called_c n (seen h) /\ forall x, x ∈ c_workers c -> finished (w_status x)
  | PFAILED => told_to_end c FAILED /\ is_Some (r_stop (c_row c)) /\ no_route s n /\ c_shutdown c = true /\
      stop_called_c n (seen h) /\ forall x, x ∈ c_workers c -> finished (w_status x)
  end.
Proof. exact status_meaning. Qed.
Print Assumptions C76_status_meaning.

(** Each status is reported in some history. *)
Example C76_example :
  (exists h s, reach (ex_cf false 3) h s /\ map fst h = ex_submit /\ reported 0 s PPENDING) /\
  (exists h s, reach (ex_cf false 3) h s /\ map fst h = ex_up /\ reported 0 s PRUNNING) /\
  (exists h s, reach (ex_cf false 3) h s /\ map fst h = (ex_up ++ take 3 ex_down)%list /\ reported 0 s PSTOPPING) /\
  (exists h s, reach (ex_cf false 3) h s /\ map fst h = (ex_up ++ ex_down)%list /\ reported 0 s PSTOPPED) /\
  (exists h s, reach (ex_cf false 3) h s /\ map fst h = (ex_up ++ EStop 0 true :: tail ex_down)%list /\ reported 0 s PFAILED).
Proof. split; [|split; [|split; [|split]]]; apply ex_run; vm_compute; reflexivity. Qed.

(** C77. An accepted heartbeat of a live cluster changes exactly what it says, for
    each of the cluster's workers: closing and active ones are connected, the
    closing ones are expected to go, closed ones have ended as expected or not,
    and those the scheduler does not know are left alone or, while they are being
    started, dropped as surplus.  Finished workers do not change. *)
Theorem C77_heartbeat_exact : forall cf h s n m now s' o c,
  ids_ok cf h -> reach cf h s -> lookup_cluster n s = Some c -> c_target c = RUNNING ->
  step cf s (EHeartbeat n m now) = (s', o) -> OAssertion ∉ o ->
  exists c', objs s' !! n = Some c' /\ Forall2 (told m) (c_workers c) (c_workers c').
Proof. exact heartbeat_told. Qed.
Print Assumptions C77_heartbeat_exact.

(** Worker 1 is closing, then closed; worker 2 is closed without notice. *)
Example C77_example : exists h1 s1 h2 s2, let cf := ex_cf false 3 in reach cf h1 s1 /\ leads cf s1 h2 s2 /\
  map fst h1 = ex_up /\ map fst h2 = [EHeartbeat 0 (ex_msg 2 [2] [1] []) 10; EHeartbeat 0 (ex_msg 2 [] [] [1; 2]) 11]%nat /\
  (exists c, lookup_cluster 0 s1 = Some c /\ c_target c = RUNNING) /\ seen h2 = [] /\
  exists c, lookup_cluster 0 s2 = Some c /\ map w_name (c_workers c) = [1; 2]%nat /\ map w_target (c_workers c) = [STOPPED; FAILED] /\ map w_close (c_workers c) = [true; false].
Proof.
  apply (ex_run2 (ex_cf false 3) ex_up [EHeartbeat 0 (ex_msg 2 [2] [1] []) 10; EHeartbeat 0 (ex_msg 2 [] [] [1; 2]) 11]%nat).
  vm_compute. repeat split; eexists; repeat split.
Qed.

(** C78. A listing contains each cluster once, and exactly the clusters asked for,
    with their status: those of the user (if one is given), and without a list of
    statuses those that are not to end, otherwise those with such a status. *)
Theorem C78_list_exact : forall cf h s user sts l, fresh_ids cf -> reach cf h s -> list_clusters user sts s = Some l ->
  NoDup (map fst l) /\
  forall n p, (n, p) ∈ l <-> reported n s p /\ exists c, lookup_cluster n s = Some c /\
    (forall u, user = Some u -> r_user (c_row c) = u) /\
    match sts with None => ~ finished (c_target c) | Some ps => p ∈ ps end.
Proof. exact list_exact. Qed.
Print Assumptions C78_list_exact.

(** Two users, three clusters, one of which is being stopped. *)
Example C78_example : exists h s, let cf := ex_cf false 3 in reach cf h s /\
  map fst h = (ex_up ++ [EStart 1 7 None 20; EStart 2 7 None 21; EStop 0 false])%list%nat /\
  list_clusters (Some 1)%nat None s = Some [(3, PPENDING)]%nat /\ list_clusters None None s = Some [(3, PPENDING); (4, PPENDING)]%nat /\
  list_clusters (Some 1)%nat (Some [PSTOPPING; PPENDING]) s = Some [(0, PSTOPPING); (3, PPENDING)]%nat /\
  list_clusters (Some 3)%nat None s = Some [].
Proof. apply ex_run. vm_compute. repeat split. Qed.

(** C79. A live cluster is told to end only for one of these reasons, and with
    this outcome ([end_cause]): it was asked for; it did not start or was not heard
    of in time; the backend answered that it is gone; its start failed; too many
    worker starts failed; the gateway is shut down and is to take its clusters
    with it. *)
Theorem C79_end_cause : forall cf h s e s' o n c c',
  ids_ok cf (h ++ [(e, o)]) -> reach cf h s -> step cf s e = (s', o) ->
  objs s !! n = Some c -> objs s' !! n = Some c' -> c_target c = RUNNING -> c_target c' <> RUNNING -> end_cause cf s e n c (c_target c').
Proof. exact ended_cause. Qed.
Print Assumptions C79_end_cause.

(** So, whenever a cluster is to end or has ended, there was such an event. *)
Theorem C79_cause_in_history : forall cf h s n c, ids_ok cf h -> reach cf h s -> objs s !! n = Some c -> c_target c <> RUNNING ->
  exists h1 e o h2 s1 c1 j, h = h1 ++ (e, o) :: h2 /\ reach cf h1 s1 /\ objs s1 !! n = Some c1 /\ c_target c1 = RUNNING /\ end_cause cf s1 e n c1 j.
Proof. exact always_cause. Qed.
Print Assumptions C79_cause_in_history.

(** A status check finds the submitted cluster gone. *)
Example C79_example : exists h s, let cf := ex_cf false 3 in reach cf h s /\ map fst h = (ex_submit ++ [ECheckClusters])%list /\
  chk_c s = Some [0]%nat /\ reported 0 s PPENDING /\ reported 0 (step cf s (ECheckClustersEnd (Some [false]))).1 PSTOPPING /\
  reported 0 (step cf s (ECheckClustersEnd (Some [true]))).1 PPENDING /\ reported 0 (step cf s (ECheckClustersEnd None)).1 PPENDING.
Proof. apply ex_run. vm_compute. repeat split. Qed.

(** C80. A worker is told to end only for one of these reasons ([worker_cause]):
    its scheduler reports it as closed; it is being started and is surplus; it was
    not heard of in time; the backend answered that it is gone; its start failed;
    its cluster ends. *)
Theorem C80_worker_cause_partial : forall cf h s e s' o n c c' x x',
  ids_ok cf (h ++ [(e, o)]) -> reach cf h s -> step cf s e = (s', o) ->
  objs s !! n = Some c -> x ∈ c_workers c -> w_target x = RUNNING ->
  objs s' !! n = Some c' -> x' ∈ c_workers c' -> w_name x' = w_name x -> w_target x' <> RUNNING -> worker_cause cf s e n c x.
Proof. exact worker_ended_cause. Qed.
Print Assumptions C80_worker_cause_partial.

(** Once a worker is connected fewer of them are left, but more than its scheduler
    and the end of the cluster: *)
Theorem C80_connected_partial : forall cf s e n c x, worker_cause cf s e n c x -> w_status x = RUNNING ->
  (exists m now, e = EHeartbeat n m now /\ mentioned m (w_name x) = MClosed) \/
  (exists oks ws i, e = ECheckWorkersEnd (Some oks) /\ chk_w s = Some ws /\ ws !! i = Some (n, w_name x) /\ oks !! i = Some false) \/
  (exists k now, e = EBackend k Raises now /\ busy s !! k = Some (InStartWorker n (w_name x))) \/
  (takes cf s e (n, None) /\ finished (c_target c)).
Proof. exact connected_kept. Qed.
Print Assumptions C80_connected_partial.

(** ... the answer to a check that was begun before it connected still fails it,
    though its scheduler reports it as active and its cluster is not to end; *)
Theorem C80_checked_refuted : exists h s, let cf := ex_cf false 3 in reach cf h s /\
  map fst h = (take 11 ex_up ++ [ECheckWorkers; EHeartbeat 0 (ex_msg 2 [1; 2] [] []) 9; ECheckWorkersEnd (Some [false; true])])%list%nat /\
  reported 0 s PRUNNING /\ exists c, lookup_cluster 0 s = Some c /\ map w_status (c_workers c) = [RUNNING; RUNNING] /\ map w_target (c_workers c) = [FAILED; RUNNING].
Proof. apply ex_run. vm_compute. repeat split. eexists. repeat split. Qed.
Print Assumptions C80_checked_refuted.

(** ... and so does a start operation that fails, or exceeds its time, after it
    connected. *)
Theorem C80_started_refuted : exists h s, let cf := ex_cf false 3 in reach cf h s /\
  map fst h = (take 9 ex_up ++ [EHeartbeat 0 (ex_msg 2 [1; 2] [] []) 9; EBackend 0 Raises 10])%list%nat /\
  reported 0 s PRUNNING /\ exists c, lookup_cluster 0 s = Some c /\ map w_target (c_workers c) = [FAILED; RUNNING] /\ c_fails c = 1%nat.
Proof. apply ex_run. vm_compute. repeat split. eexists. repeat split. Qed.
Print Assumptions C80_started_refuted.
