(** Properties C18-C32 and C62: the database-backed gateway (db_base.py).
    [ids_ok cf h]: the database never reuses a primary key, or the history has no
    restart.  [reach cf h s]: [s] is reached from an empty database by the events
    [h], in any order, with any arguments, answers and clock readings. *)
From Coq Require Import ZArith Lia Ascii String.
From stdpp Require Import prelude gmap.
From Verif Require Import Trace WorkQueue_Model Router_Model Gateway_Model Gateway_Spec Gateway_Proofs Gateway_Proofs2 Gateway_Proofs3.
Open Scope Z_scope.

(** A configuration for the examples, the addresses a scheduler reports, and the
    life of a cluster (0) with two workers (1 and 2). *)
Definition ex_cf (bulk : bool) (limit : nat) : cfg :=
  Cfg bulk limit 15 60 60 100 true 2 1 60 (fun k _ => k) (fun k _ => k).
Lemma ex_fresh b l : fresh_ids (ex_cf b l).
Proof. exists (fun k => k), (fun k => k). repeat split; auto. Qed.
Definition ex_msg (count : Z) (active closing closed : list nat) : hbmsg :=
  Msg ["a"%char] ["s"%char] ["d"%char] count active closing closed.
Definition ex_submit : list event := [EStart 1 7 (Some 2) 0; EGet 0 1; EBackend 0 (Yields 5) 2; EBackend 0 Ends 3].
Definition ex_up : list event := (ex_submit ++
  [EHeartbeat 0 (ex_msg 5 [] [] []) 4; EGet 0 5; EGet 0 6; EGet 1 6; EBackend 0 (Yields 8) 7; EBackend 0 Ends 8; EBackend 1 Ends 8;
   EHeartbeat 0 (ex_msg 2 [1; 2] [] []) 9])%list%nat.
(** ... it is stopped: closing, each worker, then the scheduler. *)
Definition ex_down : list event :=
  ([EStop 0 false; EGet 0 10; EGet 0 11; EGet 1 11; EBackend 0 Ends 12; EBackend 1 Raises 12; EGet 0 13; EBackend 0 Ends 14])%nat.

(** What is left to do after a restart in the middle of this. *)
Definition ex_after : list event :=
  [EGet 0 51; EGet 0 52; EGet 1 53; EBackend 0 Ends 54; EBackend 1 Ends 54; EGet 0 55; EGet 1 55; EBackend 1 Ends 56; EBackend 0 Ends 56; EGet 0 57]%nat.

(** C18. The status the API reports for a cluster only moves forward. *)
Theorem C18_status_forward : forall cf h1 h2 s1 s2 n p1 p2,
  ids_ok cf (h1 ++ h2) -> reach cf h1 s1 -> leads cf s1 h2 s2 ->
  reported n s1 p1 -> reported n s2 p2 -> forward p1 p2.
Proof. exact status_forward. Qed.
Print Assumptions C18_status_forward.

(** Each stage is reached. *)
Example C18_example : exists h1 s1 h2 s2, let cf := ex_cf false 3 in
  reach cf h1 s1 /\ leads cf s1 h2 s2 /\ reported 0 s1 PRUNNING /\ reported 0 s2 PSTOPPED /\
  seen (h1 ++ h2) = [OCreated 0; OStartC 0; OStateC 0 5; OStartW 0 1; OStartW 0 2; OStateW 0 1 8; OStopW 0 1 8; OStopW 0 2 0; OStopC 0 5]%nat.
Proof. apply (ex_run2 _ ex_up ex_down). vm_compute. repeat split. Qed.
Example C18_example_2 : exists h1 s1 h2 s2, let cf := ex_cf false 3 in
  reach cf h1 s1 /\ leads cf s1 h2 s2 /\ reported 0 s1 PPENDING /\ reported 0 s2 PSTOPPING.
Proof. apply (ex_run2 _ ex_submit (drop 4 ex_up ++ take 5 ex_down)). vm_compute. repeat split. Qed.

(** C19. Once a cluster is recorded as stopped or failed nothing is started for
    it, its heartbeats change nothing, and its record stays, but for one field:
    the target may still become FAILED.  A finished worker stays finished and is
    not started again. *)
Theorem C19_stopped_final_partial : forall cf h1 h2 s1 s2 n c1,
  ids_ok cf (h1 ++ h2) -> reach cf h1 s1 -> leads cf s1 h2 s2 ->
  objs s1 !! n = Some c1 -> finished (c_status c1) ->
  (forall c2, objs s2 !! n = Some c2 -> c_row c2 = c_row c1 \/ c_row c2 = rset_target FAILED (c_row c1)) /\
  OStartC n ∉ seen h2 /\ (forall w, OStartW n w ∉ seen h2) /\
  forall m now, step cf s2 (EHeartbeat n m now) = (s2, []).
Proof. exact stopped_final. Qed.
Print Assumptions C19_stopped_final_partial.

Theorem C19_worker_final_partial : forall cf h1 h2 s1 s2 n c1 x1,
  ids_ok cf (h1 ++ h2) -> reach cf h1 s1 -> leads cf s1 h2 s2 ->
  objs s1 !! n = Some c1 -> x1 ∈ c_workers c1 -> finished (w_status x1) ->
  (forall c2, objs s2 !! n = Some c2 -> exists x2, x2 ∈ c_workers c2 /\ w_name x2 = w_name x1 /\ w_start x2 = w_start x1 /\
     finished (w_status x2) /\ finished (w_target x2)) /\
  OStartW n (w_name x1) ∉ seen h2.
Proof. exact worker_final. Qed.
Print Assumptions C19_worker_final_partial.

(** A cluster that is not yet finished but to be stopped ignores heartbeats too. *)
Theorem C19_heartbeat_ignored : forall cf h s n c m now,
  ids_ok cf h -> reach cf h s -> objs s !! n = Some c -> finished (c_target c) ->
  step cf s (EHeartbeat n m now) = (s, []).
Proof. exact heartbeat_ignored. Qed.
Print Assumptions C19_heartbeat_ignored.

Example C19_example : exists h s, let cf := ex_cf false 3 in
  reach cf h s /\ map fst h = ex_up ++ ex_down /\ exists c, objs s !! 0%nat = Some c /\ c_status c = STOPPED /\ map w_status (c_workers c) = [STOPPED; STOPPED].
Proof. apply (ex_run _ (ex_up ++ ex_down)). vm_compute. eexists. repeat split. Qed.

(** The full statement is false.  check_clusters_loop asks the backend about a
    submitted cluster; the user stops it and it becomes STOPPED; then the answer
    "gone" arrives: the record changes, and the API can no longer report it. *)
Theorem C19_stopped_final_refuted : exists h1 s1 h2 s2, let cf := ex_cf false 3 in
  reach cf h1 s1 /\ leads cf s1 h2 s2 /\
  map fst (h1 ++ h2) = (ex_submit ++ [ECheckClusters; EStop 0 false; EGet 0 10; EGet 0 11; EBackend 0 Ends 12; ECheckClustersEnd (Some [false])])%list%nat /\
  reported 0 s1 PSTOPPED /\ get_cluster 0 s2 = Some None /\
  exists c1 c2, objs s1 !! 0%nat = Some c1 /\ finished (c_status c1) /\ objs s2 !! 0%nat = Some c2 /\ c_row c2 <> c_row c1.
Proof.
  apply (ex_run2 _ (ex_submit ++ [ECheckClusters; EStop 0 false; EGet 0 10; EGet 0 11; EBackend 0 Ends 12]%nat) [ECheckClustersEnd (Some [false])]).
  vm_compute. split; [reflexivity|]. split; [reflexivity|]. split; [reflexivity|]. do 2 eexists. split; [reflexivity|]. split; [left; reflexivity|]. split; [reflexivity|discriminate].
Qed.
Print Assumptions C19_stopped_final_refuted.

(** C20. Whenever nothing is in line and no operation is running, whatever was
    to be stopped is stopped (with all its workers), whatever was to be started
    has been submitted, and so for the single workers. *)
Theorem C20_idle_settled : forall cf h s n c,
  ids_ok cf h -> reach cf h s -> idle s -> objs s !! n = Some c ->
  (c_target c <> RUNNING -> finished (c_status c) /\ forall x, x ∈ c_workers c -> finished (w_status x)) /\
  (c_target c = RUNNING -> c_status c <> CREATED) /\
  forall x, x ∈ c_workers c -> (finished (w_target x) -> finished (w_status x)) /\ (w_target x = RUNNING -> w_status x <> CREATED).
Proof. exact idle_settled. Qed.
Print Assumptions C20_idle_settled.

(** In particular after a stop request. *)
Theorem C20_stop_carried_out : forall cf h1 h2 s1 s n f o c1 c,
  ids_ok cf (h1 ++ (EStop n f, o) :: h2) -> reach cf h1 s1 -> lookup_cluster n s1 = Some c1 ->
  reach cf (h1 ++ (EStop n f, o) :: h2) s -> idle s -> objs s !! n = Some c ->
  finished (c_status c) /\ forall x, x ∈ c_workers c -> finished (w_status x).
Proof. exact stop_carried_out. Qed.
Print Assumptions C20_stop_carried_out.

(** An idle state with a running cluster and one with a stopped cluster; also
    when the gateway dies in the middle of the stop and is restarted. *)
Example C20_example : let cf := ex_cf false 3 in
  (exists h s, reach cf h s /\ map fst h = ex_up /\ idle s /\ exists c, objs s !! 0%nat = Some c /\ c_target c = RUNNING) /\
  (exists h s, reach cf h s /\ map fst h = ex_up ++ ex_down /\ idle s /\ exists c, objs s !! 0%nat = Some c /\ c_target c = STOPPED /\ length (c_workers c) = 2%nat) /\
  exists h s, reach cf h s /\ map fst h = ex_up ++ take 5 ex_down ++ ERestart 50 :: ex_after /\
    idle s /\ exists c, objs s !! 0%nat = Some c /\ c_target c = STOPPED /\ length (c_workers c) = 2%nat.
Proof.
  split; [|split]; apply ex_run; vm_compute; (split; [ex_idle|]); eexists; repeat split.
Qed.

(** C21. A cluster started with a maximum of [m] workers never has more than [m]
    workers that were not told to end, and is never recorded as wanting more. *)
Theorem C21_worker_cap : forall cf h s u i m t n c,
  ids_ok cf h -> reach cf h s -> (EStart u i (Some m) t, [OCreated n]) ∈ h -> 0 <= m -> objs s !! n = Some c ->
  Z.of_nat (length (List.filter wanted (c_workers c))) <= m /\ r_count (c_row c) <= m.
Proof. exact worker_cap. Qed.
Print Assumptions C21_worker_cap.

(** A hostile scheduler asks for 1000. *)
Example C21_example : exists h s, let cf := ex_cf false 3 in
  reach cf h s /\ map fst h = (ex_up ++ [EHeartbeat 0 (ex_msg 1000 [1; 2] [] []) 10; EGet 0 11])%list%nat /\
  head h = Some (EStart 1 7 (Some 2) 0, [OCreated 0%nat]) /\
  exists c, objs s !! 0%nat = Some c /\ length (List.filter wanted (c_workers c)) = 2%nat /\ r_count (c_row c) = 2.
Proof. apply ex_run. vm_compute. split; [reflexivity|]. eexists. repeat split. Qed.

(** C22. When the gateway is idle a running cluster has at least as many workers
    as requested, not counting those that left as announced by the scheduler; *)
Theorem C22_enough : forall cf h s n c,
  ids_ok cf h -> reach cf h s -> idle s -> objs s !! n = Some c -> c_status c = RUNNING -> c_target c = RUNNING ->
  r_count (c_row c) <= Z.of_nat (length (List.filter wanted (c_workers c))) + Z.of_nat (length (List.filter retired (c_workers c))).
Proof. exact idle_enough. Qed.
Print Assumptions C22_enough.

(** ... and, from its last heartbeat on, at all times no more than requested,
    except for the workers this heartbeat reported as active or closing (these
    are the scheduler's to retire). *)
Theorem C22_not_too_many : forall cf h1 s1 n m now s1' o h2 s2 c1 c2,
  ids_ok cf (h1 ++ (EHeartbeat n m now, o) :: h2) -> reach cf h1 s1 ->
  lookup_cluster n s1 = Some c1 -> c_target c1 = RUNNING -> step cf s1 (EHeartbeat n m now) = (s1', o) -> OAssertion ∉ o ->
  leads cf s1' h2 s2 -> no_heartbeat n h2 -> objs s2 !! n = Some c2 ->
  r_count (c_row c2) = (match r_max (c_row c1) with Some mx => Z.min mx (m_count m) | None => m_count m end) /\
  Z.of_nat (length (List.filter wanted (c_workers c2))) <=
    Z.max (r_count (c_row c2)) (Z.of_nat (size (list_to_set (m_active m) : gset nat))) + Z.of_nat (size (list_to_set (m_closing m) : gset nat)).
Proof. exact wanted_bound. Qed.
Print Assumptions C22_not_too_many.

(** The heartbeat itself tells surplus workers that are still being started to
    end: those it did not report and that stay fit into the requested number. *)
Theorem C22_surplus : forall cf h s n m now s' o c c',
  ids_ok cf h -> reach cf h s -> lookup_cluster n s = Some c -> c_target c = RUNNING ->
  step cf s (EHeartbeat n m now) = (s', o) -> OAssertion ∉ o -> objs s' !! n = Some c' ->
  r_count (c_row c') = (match r_max (c_row c) with Some mx => Z.min mx (m_count m) | None => m_count m end) /\
  Z.of_nat (length (List.filter (fun x => wanted x && unreported m x) (c_workers c'))) <=
    Z.max 0 (r_count (c_row c') - Z.of_nat (size (list_to_set (m_active m) : gset nat))).
Proof. exact heartbeat_bound. Qed.
Print Assumptions C22_surplus.

(** A worker died unexpectedly: it is replaced; one left as announced: it is not. *)
Example C22_example : exists h s, let cf := ex_cf false 3 in
  reach cf h s /\ map fst h = (ex_up ++ [EHeartbeat 0 (ex_msg 2 [2] [] [1]) 10; EGet 0 11; EBackend 0 Ends 12; EGet 0 13;
     EGet 0 14; EBackend 0 Ends 15; EHeartbeat 0 (ex_msg 2 [] [2] []) 16; EHeartbeat 0 (ex_msg 2 [] [] [2]) 17; EGet 0 18; EBackend 0 Ends 19; EGet 0 20])%list%nat /\
  idle s /\ exists c, objs s !! 0%nat = Some c /\ c_status c = RUNNING /\ c_target c = RUNNING /\ r_count (c_row c) = 2 /\
  map (fun x => (w_name x, w_status x, w_close x)) (c_workers c) = [(1, FAILED, false); (2, STOPPED, true); (3, SUBMITTED, false)]%nat.
Proof. apply ex_run. vm_compute. split; [ex_idle|]. eexists. repeat split. Qed.
(** A heartbeat that is not the last word: one worker more than requested, both
    reported active; the gateway does not interfere. *)
Example C22_example_2 : exists h1 s1 h2 s2, let cf := ex_cf false 3 in
  reach cf h1 s1 /\ leads cf s1 h2 s2 /\ map fst h2 = [EHeartbeat 0 (ex_msg 1 [1; 2] [] []) 10; EGet 0 11]%nat /\
  exists c1 c2, lookup_cluster 0 s1 = Some c1 /\ c_target c1 = RUNNING /\ objs s2 !! 0%nat = Some c2 /\
  r_count (c_row c2) = 1 /\ length (List.filter wanted (c_workers c2)) = 2%nat.
Proof. apply (ex_run2 _ ex_up [EHeartbeat 0 (ex_msg 1 [1; 2] [] []) 10; EGet 0 11]%nat). vm_compute. split; [reflexivity|]. do 2 eexists. repeat split. Qed.

(** C23. When a cluster is recorded as finished its stop operation has been
    called, with the state its start operation reported last, and nothing was
    started after that. *)
Theorem C23_cluster_stop_called : forall cf h s n c,
  ids_ok cf h -> reach cf h s -> objs s !! n = Some c -> finished (c_status c) -> stop_called_c n (seen h).
Proof. exact cluster_stop_called. Qed.
Print Assumptions C23_cluster_stop_called.

(** For workers: true as long as the gateway process lives, *)
Theorem C23_worker_stop_called_partial : forall cf h s n c x,
  one_life h -> reach cf h s -> objs s !! n = Some c -> x ∈ c_workers c ->
  OStartW n (w_name x) ∈ seen h -> finished (w_status x) -> stop_called_w (bulk cf) n (w_name x) (seen h).
Proof. exact worker_stop_called_one_life. Qed.
Print Assumptions C23_worker_stop_called_partial.

(** ... and in general unless the process died while the worker was being started. *)
Theorem C23_worker_or_crash_partial : forall cf h s n c x,
  ids_ok cf h -> reach cf h s -> objs s !! n = Some c -> x ∈ c_workers c ->
  OStartW n (w_name x) ∈ seen h -> finished (w_status x) -> stop_called_w (bulk cf) n (w_name x) (seen h) \/ start_cut cf n (w_name x) h.
Proof. exact worker_stop_called. Qed.
Print Assumptions C23_worker_or_crash_partial.

Example C23_example : exists h s, let cf := ex_cf false 3 in
  reach cf h s /\ map fst h = ex_up ++ ex_down /\
  seen h = [OCreated 0; OStartC 0; OStateC 0 5; OStartW 0 1; OStartW 0 2; OStateW 0 1 8; OStopW 0 1 8; OStopW 0 2 0; OStopC 0 5]%nat /\
  exists c, objs s !! 0%nat = Some c /\ c_status c = STOPPED /\ map w_name (c_workers c) = [1; 2]%nat /\ map w_status (c_workers c) = [STOPPED; STOPPED].
Proof. apply ex_run. vm_compute. split; [reflexivity|]. eexists. repeat split. Qed.

(** The exception is real: the process dies after the start of worker 1 began
    (and reported a state); after the restart its record is still CREATED, so when
    the cluster is stopped it becomes STOPPED with no stop operation at all. *)
Theorem C23_worker_stop_called_refuted : exists h s, let cf := ex_cf false 3 in
  reach cf h s /\ map fst h = (take 7 ex_up ++ [EBackend 0 (Yields 8) 7; ERestart 20; EStop 0 false; EGet 0 21; EGet 0 22])%list%nat /\
  seen h = [OCreated 0; OStartC 0; OStateC 0 5; OStartW 0 1; OStateW 0 1 8]%nat /\
  exists c x, objs s !! 0%nat = Some c /\ x ∈ c_workers c /\ w_name x = 1%nat /\ finished (w_status x).
Proof. apply ex_run. vm_compute. split; [reflexivity|]. do 2 eexists. split; [reflexivity|]. split; [left|]. split; [reflexivity|left; reflexivity]. Qed.
Print Assumptions C23_worker_stop_called_refuted.

(** C24. Within one lifetime of the process each cluster and each worker is
    started at most once, *)
Theorem C24_started_once : forall cf h1 h2 s1 s2,
  ids_ok cf h1 -> reach cf h1 s1 -> one_life h2 -> leads cf s1 h2 s2 ->
  (forall n l1 l2 l3, seen h2 <> l1 ++ OStartC n :: l2 ++ OStartC n :: l3) /\
  (forall n w l1 l2 l3, seen h2 <> l1 ++ OStartW n w :: l2 ++ OStartW n w :: l3).
Proof. exact started_once. Qed.
Print Assumptions C24_started_once.

(** ... and at any time at most one operation is running for it. *)
Theorem C24_one_operation : forall cf h s k1 k2 p1 p2,
  ids_ok cf h -> reach cf h s -> busy s !! k1 = Some p1 -> busy s !! k2 = Some p2 -> pc_item p1 = pc_item p2 -> k1 = k2 /\ p1 = p2.
Proof. exact one_operation. Qed.
Print Assumptions C24_one_operation.

Theorem C24_not_concurrent : forall cf h s, ids_ok cf h -> reach cf h s ->
  (forall n, starting_c s n -> ~ stopping_c s n) /\ (forall n w, starting_w s n w -> ~ stopping_w s n w).
Proof. exact no_concurrent. Qed.
Print Assumptions C24_not_concurrent.

(** Both reconcilers are busy with workers of the same cluster; and the "one
    lifetime" is needed: a crash during the start makes the next process start
    the cluster again. *)
Example C24_example :
  (exists h s, reach (ex_cf false 3) h s /\ map fst h = take 8 ex_up /\ starting_w s 0 1 /\ starting_w s 0 2) /\
  exists h s, reach (ex_cf false 3) h s /\ map fst h = (take 3 ex_submit ++ [ERestart 5; EGet 0 6])%list%nat /\
  seen h = [OCreated 0; OStartC 0; OStateC 0 5; OStartC 0]%nat.
Proof. split; apply ex_run; vm_compute; [split; [exists 0%nat|exists 1%nat]; reflexivity|reflexivity]. Qed.

(** C25. Every route belongs to a cluster that is running or closing (known to
    the API) and leads to the address this cluster's scheduler reported, *)
Theorem C25_routes_live : forall cf h s k n a,
  ids_ok cf h -> reach cf h s -> routes s !! (k, n) = Some a -> exists c,
  objs s !! n = Some c /\ (c_status c = RUNNING \/ c_status c = CLOSING) /\
  a = match k with RSNI => r_sched (c_row c) | RPATH => r_dash (c_row c) end /\ (fresh_ids cf -> lookup_cluster n s = Some c).
Proof. exact routes_live. Qed.
Print Assumptions C25_routes_live.

(** ... and whenever the gateway is idle every running cluster has its routes. *)
Theorem C25_running_routed : forall cf h s n c,
  ids_ok cf h -> reach cf h s -> idle s -> objs s !! n = Some c -> c_status c = RUNNING -> c_target c = RUNNING ->
  routes s !! (RSNI, n) = Some (r_sched (c_row c)) /\ r_sched (c_row c) <> [] /\
  routes s !! (RPATH, n) = (if decide (r_dash (c_row c) = []) then None else Some (r_dash (c_row c))).
Proof. exact idle_routed. Qed.
Print Assumptions C25_running_routed.

Example C25_example : exists h s, let cf := ex_cf false 3 in
  reach cf h s /\ map fst h = ex_up /\ idle s /\ routes s !! (RSNI, 0%nat) = Some ["s"%char] /\ routes s !! (RPATH, 0%nat) = Some ["d"%char].
Proof. apply ex_run. vm_compute. split; [ex_idle|]. repeat split. Qed.

(** C26. The purge removes exactly the clusters that finished before the cutoff,
    with their workers, from memory and database; the indexes agree afterwards;
    nothing else changes. *)
Theorem C26_purge_exact : forall cf h s now s' o,
  fresh_ids cf -> reach cf h s -> down s = None -> step cf s (ECleanup now) = (s', o) ->
  (forall n c, lookup_cluster n s' = Some c <-> lookup_cluster n s = Some c /\ ~ ended_before (now - max_age cf) (c_row c)) /\
  (forall id r, db_c s' !! id = Some r <-> db_c s !! id = Some r /\ ~ ended_before (now - max_age cf) r) /\
  (forall wid cid x, db_w s' !! wid = Some (cid, x) <-> db_w s !! wid = Some (cid, x) /\ exists r, db_c s' !! cid = Some r) /\
  indexes_agree s' /\ q s' = q s /\ busy s' = busy s /\ routes s' = routes s.
Proof. exact purge_exact. Qed.
Print Assumptions C26_purge_exact.

(** The boundary: the cluster stopped at time 14, the age is 100. *)
Example C26_example : exists h s, let cf := ex_cf false 3 in
  reach cf h s /\ map fst h = ex_up ++ ex_down /\ down s = None /\ is_Some (lookup_cluster 0 s) /\
  is_Some (lookup_cluster 0 (step cf s (ECleanup 114)).1) /\ lookup_cluster 0 (step cf s (ECleanup 115)).1 = None /\
  elements (dom (db_w (step cf s (ECleanup 114)).1)) = [0; 1]%nat /\ elements (dom (db_w (step cf s (ECleanup 115)).1)) = [].
Proof. apply ex_run. vm_compute. repeat split; eexists; reflexivity. Qed.

(** C27. The records in memory are those in the database, at every point, *)
Theorem C27_memory_is_database_partial : forall cf h s, fresh_ids cf -> reach cf h s ->
  (forall id r, db_c s !! id = Some r <-> exists n c, lookup_cluster n s = Some c /\ c_id c = id /\ c_row c = r) /\
  (forall wid cid x, db_w s !! wid = Some (cid, x) <->
     exists n c, lookup_cluster n s = Some c /\ c_id c = cid /\ x ∈ c_workers c /\ w_id x = wid).
Proof. exact memory_is_database. Qed.
Print Assumptions C27_memory_is_database_partial.

(** ... so that a restart at any point keeps every cluster and worker and puts
    exactly the unfinished ones in line. *)
Theorem C27_restart_keeps_partial : forall cf h s now, fresh_ids cf -> reach cf h s -> let s' := (step cf s (ERestart now)).1 in
  (forall n, match lookup_cluster n s, lookup_cluster n s' with
             | Some c, Some c' => same_record c c' | None, None => True | _, _ => False end) /\
  indexes_agree s' /\ db_c s' = db_c s /\ db_w s' = db_w s /\
  (forall x, x ∈ queue (q s') <-> unfinished_item s x) /\ NoDup (queue (q s')) /\ busy s' = ∅ /\ routes s' = ∅.
Proof. exact restart_keeps. Qed.
Print Assumptions C27_restart_keeps_partial.

Example C27_example : exists h s, let cf := ex_cf false 3 in
  reach cf h s /\ map fst h = ex_up ++ take 5 ex_down /\ elements (dom (db_c s)) = [0]%nat /\ elements (dom (db_w s)) = [0; 1]%nat /\
  queue (q (step cf s (ERestart 50)).1) = [(0, None); (0, Some 2)]%nat.
Proof. apply ex_run. vm_compute. repeat split. Qed.

(** What is missing: SQLite, the default database, gives a key out again once
    the newest record is deleted.  A check that was waiting for the backend while
    its cluster was stopped and purged then marks the record of a later cluster as
    failed, in the database only: this cluster runs, but is failed after a restart. *)
Definition ex_sqlite : cfg := Cfg false 3 15 60 60 100 true 2 1 60 (fun _ => max_plus_one) (fun _ => max_plus_one).
Definition ex_reuse : list event := (ex_submit ++ [ECheckClusters; EStop 0 false; EGet 0 10; EGet 0 11; EBackend 0 Ends 12; ECleanup 200;
     EStart 2 8 None 201; ECheckClustersEnd (Some [false])])%list%nat.
Theorem C27_memory_is_database_refuted : sqlite_ids ex_sqlite /\ exists h s, reach ex_sqlite h s /\ map fst h = ex_reuse /\
  exists c r c', lookup_cluster 1 s = Some c /\ c_target c = RUNNING /\ db_c s !! c_id c = Some r /\ r_target r = FAILED /\
  lookup_cluster 1 (step ex_sqlite s (ERestart 300)).1 = Some c' /\ c_target c' = FAILED.
Proof.
  split; [split; reflexivity|]. apply ex_run. vm_compute. do 3 eexists. repeat split.
Qed.
Print Assumptions C27_memory_is_database_refuted.

(** C28. Stopping an unknown cluster, or one that is stopping or stopped, changes
    nothing; *)
Theorem C28_stop_idempotent : forall cf n f s,
  lookup_cluster n s = None \/ (exists p, reported n s p /\ (p = PSTOPPING \/ p = PSTOPPED \/ p = PFAILED)) ->
  step cf s (EStop n f) = (s, []).
Proof. exact stop_unknown. Qed.
Print Assumptions C28_stop_idempotent.

(** ... after a stop request the cluster is never reported pending or running
    again, and gets no worker it did not have. *)
Theorem C28_stop_wins : forall cf h1 s1 n f c1 s1' o h2 s2,
  ids_ok cf (h1 ++ (EStop n f, o) :: h2) -> reach cf h1 s1 -> lookup_cluster n s1 = Some c1 ->
  step cf s1 (EStop n f) = (s1', o) -> leads cf s1' h2 s2 ->
  ~ reported n s2 PRUNNING /\ ~ reported n s2 PPENDING /\
  (forall c2, objs s2 !! n = Some c2 -> length (c_workers c2) = length (c_workers c1) /\
     forall x2, x2 ∈ c_workers c2 -> exists x1, x1 ∈ c_workers c1 /\ w_name x1 = w_name x2) /\
  (forall w, OStartW n w ∈ seen h2 -> exists x1, x1 ∈ c_workers c1 /\ w_name x1 = w).
Proof. exact stop_wins. Qed.
Print Assumptions C28_stop_wins.

Example C28_example : exists h s, let cf := ex_cf false 3 in
  reach cf h s /\ map fst h = ex_up /\ (exists c, lookup_cluster 0 s = Some c /\ length (c_workers c) = 2%nat) /\ reported 0 s PRUNNING /\
  reported 0 (step cf s (EStop 0 true)).1 PSTOPPING /\ lookup_cluster 77 s = None.
Proof. apply ex_run. vm_compute. repeat split. eexists. repeat split. Qed.

(** C29. Every reachable pair of recorded and desired state has a public status,
    except (STOPPED, FAILED); the default listing (active clusters) never fails. *)
Theorem C29_reportable_partial : forall cf h s n c, ids_ok cf h -> reach cf h s -> objs s !! n = Some c ->
  is_Some (model_status c) \/ (c_status c = STOPPED /\ c_target c = FAILED).
Proof. exact reportable. Qed.
Print Assumptions C29_reportable_partial.

Theorem C29_list_active : forall cf h s user, ids_ok cf h -> reach cf h s -> is_Some (list_clusters user None s).
Proof. exact list_never_fails. Qed.
Print Assumptions C29_list_active.

Example C29_example : exists h s, let cf := ex_cf false 3 in
  reach cf h s /\ map fst h = ex_up /\ list_clusters (Some 1%nat) None s = Some [(0%nat, PRUNNING)] /\ list_clusters (Some 2%nat) None s = Some [] /\
  list_clusters None (Some [PSTOPPED]) s = Some [].
Proof. apply ex_run. vm_compute. repeat split. Qed.

(** The exception is reachable (as in C19): getting this cluster fails, and so
    does any listing of this user's clusters by status. *)
Theorem C29_reportable_refuted : exists h s, let cf := ex_cf false 3 in reach cf h s /\
  map fst h = (ex_submit ++ [ECheckClusters; EStop 0 false; EGet 0 10; EGet 0 11; EBackend 0 Ends 12; ECheckClustersEnd (Some [false])])%list%nat /\
  get_cluster 0 s = Some None /\ forall l, list_clusters (Some 1%nat) (Some l) s = None.
Proof. apply ex_run. vm_compute. repeat split. Qed.
Print Assumptions C29_reportable_refuted.

(** C30. A check marks exactly the late clusters and workers as failed. *)
Theorem C30_timeouts_exact_partial : forall cf h s now s' o,
  ids_ok cf h -> reach cf h s -> down s = None ->
  (forall n c, lookup_cluster n s = Some c -> c_status c = RUNNING -> c_target c = RUNNING -> is_Some (c_hb c)) ->
  step cf s (ECheckTimeouts now) = (s', o) ->
  o = [] /\ forall n c, lookup_cluster n s = Some c -> exists c', lookup_cluster n s' = Some c' /\
    (late_cluster cf now c -> c_target c' = FAILED) /\ (~ late_cluster cf now c -> c_row c' = c_row c) /\
    Forall2 (fun x x' => (late_worker cf now c x -> x' = wset_target FAILED x) /\ (~ late_worker cf now c x -> x' = x)) (c_workers c) (c_workers c').
Proof. exact timeouts_exact. Qed.
Print Assumptions C30_timeouts_exact_partial.

(** Its hypothesis, that every running cluster was heard of, holds as long as
    the process lives. *)
Theorem C30_heard_partial : forall cf h s n c, one_life h -> reach cf h s -> objs s !! n = Some c -> c_status c = RUNNING -> is_Some (c_hb c).
Proof. exact heard_one_life. Qed.
Print Assumptions C30_heard_partial.

(** The boundary: last heartbeat at 9, timeout 15. *)
Example C30_example : exists h s, let cf := ex_cf false 3 in
  reach cf h s /\ map fst h = ex_up /\ down s = None /\ (exists c, lookup_cluster 0 s = Some c /\ c_hb c = Some 9) /\
  reported 0 (step cf s (ECheckTimeouts 24)).1 PRUNNING /\ reported 0 (step cf s (ECheckTimeouts 25)).1 PSTOPPING.
Proof. apply ex_run. vm_compute. repeat split. eexists. repeat split. Qed.

(** After a restart it may fail: a cluster restored as submitted with a known
    scheduler address becomes running without ever being heard of; from then on
    every check raises TypeError, and no cluster is checked any more. *)
Theorem C30_timeouts_refuted : exists h s, let cf := ex_cf false 3 in reach cf h s /\
  map fst h = (ex_submit ++ [EHeartbeat 0 (ex_msg 0 [] [] []) 4; ERestart 20; EStart 1 7 None 21; EGet 0 22; EGet 1 22; EBackend 1 Ends 23])%list%nat /\
  down s = None /\ (forall now, (step cf s (ECheckTimeouts now)).2 = [OTypeError]) /\
  (exists c, lookup_cluster 0 s = Some c /\ c_status c = RUNNING /\ c_target c = RUNNING /\ c_hb c = None) /\
  exists d, lookup_cluster 1 s = Some d /\ late_cluster cf 100 d /\ lookup_cluster 1 (step cf s (ECheckTimeouts 100)).1 = Some d.
Proof.
  apply ex_run. vm_compute. split; [reflexivity|]. split; [reflexivity|]. split; [eexists; repeat split|].
  eexists. split; [reflexivity|]. split; [|reflexivity]. split; [reflexivity|]. left. split; reflexivity.
Qed.
Print Assumptions C30_timeouts_refuted.

(** C31. The count of failed worker starts goes up by one with each failure, back
    to zero when a starting worker is heard of, and changes in no other way; *)
Theorem C31_fail_count : forall cf h s e s' o n c c',
  ids_ok cf h -> reach cf h s -> crash e = false -> step cf s e = (s', o) -> objs s !! n = Some c -> objs s' !! n = Some c' ->
  (connects s e n -> OAssertion ∉ o -> c_fails c' = 0%nat) /\
  (~ connects s e n -> c_fails c' = (c_fails c + start_failures s e n)%nat).
Proof. exact fail_count. Qed.
Print Assumptions C31_fail_count.

(** ... whenever a running cluster's turn comes it is failed iff the limit is reached; *)
Theorem C31_limit_reached_partial : forall cf h s e s' o n c,
  ids_ok cf h -> reach cf h s -> takes cf s e (n, None) -> step cf s e = (s', o) ->
  lookup_cluster n s = Some c -> c_status c = RUNNING -> c_target c = RUNNING ->
  exists c', objs s' !! n = Some c' /\ c_target c' = if decide (fail_limit cf <= c_fails c)%nat then FAILED else RUNNING.
Proof. exact limit_reached. Qed.
Print Assumptions C31_limit_reached_partial.

(** ... and the gateway fails a cluster on its own account only then, or when the
    start of the cluster itself failed. *)
Theorem C31_limit_only : forall cf h s e s' o n c c',
  ids_ok cf h -> reach cf h s -> own_work e = true -> step cf s e = (s', o) ->
  objs s !! n = Some c -> objs s' !! n = Some c' -> c_target c' <> c_target c ->
  c_target c' = FAILED /\ ((takes cf s e (n, None) /\ (fail_limit cf <= c_fails c)%nat) \/ exists k now, e = EBackend k Raises now /\ busy s !! k = Some (InStartCluster n)).
Proof. exact limit_only. Qed.
Print Assumptions C31_limit_only.

(** With limit 2: two failing starts in a row fail the cluster. *)
Example C31_example : exists h s, let cf := ex_cf false 2 in
  reach cf h s /\ map fst h = (take 6 ex_up ++ [EGet 0 6; EGet 1 6; EBackend 0 Raises 7; EBackend 1 Raises 7; EGet 0 7; EGet 1 7; EBackend 0 Ends 7])%list%nat /\
  (exists c, lookup_cluster 0 s = Some c /\ c_status c = RUNNING /\ c_target c = RUNNING /\ c_fails c = 2%nat) /\
  reported 0 (step cf s (EGet 0 8)).1 PSTOPPING /\ busy s !! 0%nat = None /\ tasks (q s) !! 0%nat = None /\
  (WorkQueue_Model.step (q s) (WorkQueue_Model.EGet 0)).2 = Some (Returned 0 (Item (0, None)))%nat.
Proof. apply ex_run. vm_compute. split; [eexists; repeat split|]. repeat split. Qed.

(** "Is failed when the limit is reached" does not hold at once, nor ever: if the
    scheduler announced that the worker is closing (there is another), its failure
    wakes nobody up.
    The gateway is idle, the count has reached the limit, and the cluster runs. *)
Theorem C31_limit_refuted : exists h s, let cf := ex_cf false 1 in reach cf h s /\
  map fst h = (ex_submit ++ [EHeartbeat 0 (ex_msg 2 [] [] []) 4; EGet 0 5; EGet 0 6; EGet 1 6; EBackend 1 Ends 6; EHeartbeat 0 (ex_msg 1 [2] [1] []) 7;
    EGet 1 7; EBackend 0 Raises 8; EGet 0 9; EBackend 0 Ends 10])%list%nat /\ idle s /\
  exists c, lookup_cluster 0 s = Some c /\ c_status c = RUNNING /\ c_target c = RUNNING /\ c_fails c = fail_limit cf.
Proof. apply ex_run. vm_compute. split; [ex_idle|]. eexists. repeat split. Qed.
Print Assumptions C31_limit_refuted.

(** C32. A heartbeat never raises if the scheduler never forgets a worker it
    reported before, *)
Theorem C32_heartbeat_accepted_partial : forall cf h s n m now,
  ids_ok cf h -> reach cf h s -> remembers h n m -> OAssertion ∉ (step cf s (EHeartbeat n m now)).2.
Proof. exact heartbeat_accepted. Qed.
Print Assumptions C32_heartbeat_accepted_partial.

Example C32_example : exists h s, let cf := ex_cf false 3 in
  reach cf h s /\ map fst h = ex_up /\ remembers h 0 (ex_msg 1 [1%nat] [] [2%nat]) /\ (step cf s (EHeartbeat 0 (ex_msg 1 [1%nat] [] [2%nat]) 10)).2 = [].
Proof.
  destruct (ex_run (ex_cf false 3) ex_up (fun h s => (step (ex_cf false 3) s (EHeartbeat 0 (ex_msg 1 [1%nat] [] [2%nat]) 10)).2 = [])) as (h & s & Hr & Hm & Ho); [vm_compute; reflexivity|].
  exists h, s. split; [done|]. split; [done|]. split; [|done]. apply ex_remembers. rewrite Hm. vm_compute. reflexivity.
Qed.

(** ... but not in general: a message that omits a worker reported earlier (as
    after a restart of the scheduler process) raises AssertionError. *)
Theorem C32_heartbeat_refuted : exists h s, let cf := ex_cf false 3 in reach cf h s /\ map fst h = ex_up /\
  forall now, (step cf s (EHeartbeat 0 (ex_msg 2 [] [] []) now)).2 = [OAssertion].
Proof. apply ex_run. vm_compute. reflexivity. Qed.
Print Assumptions C32_heartbeat_refuted.

(** C62. The events the API waits for match the record: [ready] is set exactly if
    the cluster is running or later, [shutdown] exactly if it is finished, also
    right after a restart. *)
Theorem C62_flags_match : forall cf h s n c, ids_ok cf h -> reach cf h s -> objs s !! n = Some c ->
  (c_ready c = true <-> c_status c = RUNNING \/ c_status c = CLOSING \/ finished (c_status c)) /\
  (c_shutdown c = true <-> finished (c_status c)).
Proof. exact flags_match. Qed.
Print Assumptions C62_flags_match.

Example C62_example : exists h s, let cf := ex_cf false 3 in
  reach cf h s /\ map fst h = ex_up ++ [ERestart 50] /\ exists c, objs s !! 0%nat = Some c /\ c_ready c = true /\ c_shutdown c = false.
Proof. apply ex_run. vm_compute. eexists. repeat split. Qed.
