(** Model of dask-gateway-server/dask_gateway_server/backends/db_base.py when
    calls of the database fail: the same functions as in Gateway_Model, cut at
    every database call, with the exceptions and where they go.

    Every method of DataManager that writes is one transaction
    [with self.db.begin() as conn: ...]; the objects in memory are changed inside
    the block, before the commit (475-496, 514-516, 522-527, 533-540, 544-549,
    555-562, 387-406).  So a call can fail in three ways, see [fault].

    Simplifications, beyond those of Gateway_Model:
    - which calls fail, and how, is chosen by the environment: every event carries
      a list with one [fault] for each database call it makes, in order; calls
      beyond the end of the list succeed;
    - a failing call may be an insert that the database refuses, a lock, a lost
      connection...: the model does not say why.  A commit that fails although the
      database did commit is [After];
    - inside one call the changes in memory are all made or not at all (between
      them there is nothing that can raise);
    - _cluster_to_stopped and _worker_to_stopped write [status=target] with the target
      of the object in memory (1307, 1384); as in Gateway_Model the row gets its own
      target.  The two differ only after a transaction was rolled back;
    - loading the database at start-up either works or the process does not start;
    - the clock of the event loop ([lt], for the delays of the work queue) is
      separate from the clock of the timestamps ([now]). *)
From Coq Require Import ZArith Ascii.
From stdpp Require Import prelude gmap.
From Verif Require Import Router_Model WorkQueue_Model Gateway_Model.
Open Scope Z_scope.

(** How one database call goes. *)
Inductive fault :=
| Good                 (* it works *)
| Before               (* it raises before anything changed *)
| RolledBack           (* the objects in memory changed, then the commit fails: the tables did not *)
| After.               (* objects and tables changed, then it raises *)
Global Instance fault_eq_dec : EqDecision fault.
Proof. solve_decision. Defined.

(** What a piece of code leaves: the state, the faults not used up, and whether
    it ran to its end ([false]: it raised). *)
Notation res := (gw * list fault * bool)%type.
Definition act := gw -> list fault -> res.

(** One database call, whose effect is [f]. *)
Definition call (f : gw -> gw) : act := fun s fs =>
  match fs with
  | [] => (f s, [], true)
  | Good :: r => (f s, r, true)
  | Before :: r => (s, r, false)
  | RolledBack :: r => (set_db_w (db_w s) (set_db_c (db_c s) (f s)), r, false)
  | After :: r => (f s, r, false)
  end.
(** Code that makes no database call and cannot raise. *)
Definition pure (f : gw -> gw) : act := fun s fs => (f s, fs, true).
Definition seq (a b : act) : act := fun s fs =>
  match a s fs with
  | (s1, fs1, true) => b s1 fs1
  | r => r
  end.
Notation "a ;> b" := (seq a b) (at level 63, right associativity).
Definition ok : act := pure (fun s => s).
(** update_clusters / update_workers make no call for an empty list (531-532, 553-554). *)
Definition call_for {A} (xs : list A) (f : gw -> gw) : act := match xs with [] => ok | _ => call f end.

(** What can be seen from outside, beyond [obs]. *)
Inductive fobs :=
| FObs (o : obs)
| FError                   (* an API request ends with an exception: HTTP 500 *)
| FLogged                  (* a periodic task caught an exception and logged it *)
| FRetry (x : item).       (* reconciler_loop caught an exception (1183-1187) *)

(** * API *)

(** start_cluster (922-927). *)
Definition fstart_cluster (cf : cfg) (user info : nat) (mx : option Z) (now : Z) (fs : list fault) (s : gw) : gw * list fobs :=
  match call (fun s => (create_cluster cf user info mx now s).2) s fs with
  | (s1, _, true) => (qput (uuid s, None) s1, [FObs (OCreated (uuid s))])
  | (s1, _, false) => (s1, [FError])
  end.

Definition answer (r : res) : gw * list fobs :=
  match r with (s1, _, b) => (s1, if b then [] else [FError]) end.

(** stop_cluster (929-937). *)
Definition fstop_cluster (n : nat) (failed : bool) (fs : list fault) (s : gw) : gw * list fobs :=
  match lookup_cluster n s with
  | None => (s, [])
  | Some c =>
      if jge RUNNING (c_target c) then
        answer ((call (update_cluster n (rset_target (if failed then FAILED else STOPPED))) ;> pure (qput (n, None))) s fs)
      else (s, [])
  end.

(** on_cluster_heartbeat (939-1034): up to four calls (1016, 1019, 1026, 1032). *)
Definition heartbeat_acts (n : nat) (m : hbmsg) (c : cluster) (z : sorted) : act :=
  let count := match r_max (c_row c) with
               | Some mx => if mx <? m_count m then mx else m_count m
               | None => m_count m end in
  let n_pending := (length (z_created z) + length (z_submitted z))%nat in
  let n_active := size (list_to_set (m_active m) : gset nat) in
  let n_to_stop := Z.of_nat n_active + Z.of_nat n_pending - count in
  let targets := z_targets z ++
      (if 0 <? n_to_stop
       then map (fun w => (w, STOPPED)) (take (Z.to_nat n_to_stop) (z_created z ++ z_submitted z))
       else []) in
  let running := decide (c_status c = RUNNING) in
  let changed := negb (count =? r_count (c_row c)) in
  let f := fun r : crow =>
      let r1 := if running then r else rset_addresses (m_api m) (m_sched m) (m_dash m) r in
      if changed then rset_count count r1 else r1 in
  (if negb (bool_decide (c_status c = RUNNING)) || changed
   then call (update_cluster n f) ;> pure (qput (n, None)) else ok) ;>
  call_for targets (set_targets n targets) ;>
  pure (qputs (map (fun t : nat * job => (n, Some t.1)) targets)) ;>
  match z_running z with
  | [] => ok
  | ws => pure (upd_obj n (cset_fails 0%nat)) ;> call (update_workers n ws (wset_status RUNNING))
  end ;>
  call_for (z_close z) (update_workers n (z_close z) (wset_close true)).
Definition fheartbeat (n : nat) (m : hbmsg) (now : Z) (fs : list fault) (s : gw) : gw * list fobs :=
  match lookup_cluster n s with
  | None => (s, [])
  | Some c =>
      if jlt RUNNING (c_target c) then (s, [])
      else
        let s1 := upd_obj n (cset_hb (Some now)) s in
        match classify m (c_workers c) with
        | None => (s1, [FObs OAssertion])
        | Some z => answer (heartbeat_acts n m c z s1 fs)
        end
  end.

(** * Periodic checks: every exception is caught and logged (1041-1047,
    1105-1110, 1139-1144, 1148-1153). *)
Definition logged (r : res) : gw * list fobs :=
  match r with (s1, _, b) => (s1, if b then [] else [FLogged]) end.

Definition ffail_clusters (ns : list nat) : act :=
  call_for ns (update_clusters ns (rset_target FAILED)) ;> pure (qputs (map (fun n => (n, None)) ns)).
Definition ffail_workers (ws : list (nat * nat)) : act :=
  call_for ws (fun s => fold_left (fun s p => update_worker p.1 p.2 (wset_target FAILED) s) ws s) ;>
  pure (qputs (map (fun p : nat * nat => (p.1, Some p.2)) ws)).
(** _check_timeouts (1049-1083). *)
Definition fcheck_timeouts (cf : cfg) (now : Z) (fs : list fault) (s : gw) : gw * list fobs :=
  match find_late cf now (active_clusters s) with
  | None => (s, [FObs OTypeError])
  | Some (cs, ws) => logged ((ffail_clusters cs ;> ffail_workers ws) s fs)
  end.
(** The second halves of check_clusters_loop (1096-1104) and check_workers_loop (1129-1138). *)
Definition fcheck_clusters_end (oks : list bool) (fs : list fault) (s : gw) : gw * list fobs :=
  match chk_c s with
  | None => (s, [])
  | Some ns => logged (ffail_clusters (failed_of ns oks) (set_chk_c None s) fs)
  end.
Definition fcheck_workers_end (oks : list bool) (fs : list fault) (s : gw) : gw * list fobs :=
  match chk_w s with
  | None => (s, [])
  | Some ws =>
      let bad := failed_of ws oks in
      logged ((call_for bad (fun s => fold_left (fun s p => update_worker p.1 p.2 (wset_target FAILED) s) bad s) ;>
               pure (fun s => fold_left (fun s (p : nat * nat) => qput (p.1, Some p.2) (upd_obj p.1 (fun c => cset_fails (S (c_fails c)) c) s)) bad s))
              (set_chk_w None s) fs)
  end.

(** cleanup_expired (385-408) and cleanup_db_loop (1146-1156).  The pops of 400:
    [false] is the KeyError for an id that is not in the index; what was popped
    before stays popped.  (The other two pops find their entries: the three
    indexes always change together.) *)
Fixpoint pop_ids (ids : list nat) (s : gw) : gw * bool :=
  match ids with
  | [] => (s, true)
  | id :: r => match by_id s !! id with None => (s, false) | Some n => pop_ids r (forget n s) end
  end.
Definition fcleanup (cf : cfg) (now : Z) (fs : list fault) (s : gw) : gw * list fobs :=
  let cutoff := now - max_age cf in
  let dead := filter (fun kv => is_expired cutoff kv.2 = true) (db_c s) in
  let s1 := set_db_c (filter (fun kv => is_expired cutoff kv.2 = false) (db_c s)) s in
  let s2 := set_db_w (filter (fun kv => kv.2.1 ∉ dom dead) (db_w s)) s1 in
  match pop_ids (map fst (map_to_list dead)) s2 with
  | (s3, true) => logged (call (fun _ => s3) s fs)
  | (s3, false) =>
      match fs with
      | Before :: _ => (s, [FLogged])
      | _ => (set_db_w (db_w s) (set_db_c (db_c s) s3), [FLogged])
      end
  end.

(** * Reconcilers *)

(** The end of an item in reconciler_loop (1181-1191): reset_backoff and
    task_done, or put_backoff and task_done. *)
Definition settle (lt : Z) (x : item) (r : res) : gw * list fobs :=
  match r with
  | (s1, _, true) => (finish x s1, [])
  | (s1, _, false) => (set_q (task_done x (put_backoff lt x (q s1))) s1, [FRetry x])
  end.

(** _cluster_to_closing (1274-1286). *)
Definition fcluster_to_closing (cf : cfg) (n : nat) (c : cluster) : act :=
  let target := if bulk cf then CLOSING else STOPPED in
  let ws := map w_name (List.filter (fun w => jlt (w_target w) target) (c_workers c)) in
  call_for ws (update_workers n ws (wset_target target)) ;>
  pure (qputs (map (fun w => (n, Some w)) ws)) ;>
  call (update_cluster n (rset_status CLOSING)) ;>
  pure (fun s => upd_obj n (cset_ready true) (match ws with [] => qput (n, None) s | _ => s end)).

(** _cluster_to_stopped (1288-1309) after the stop operation (1300-1309). *)
Definition fcluster_stopped (n : nat) (now : Z) : act := fun s fs =>
  match objs s !! n with
  | None => ok s fs
  | Some c =>
      let ws := map w_name (List.filter (fun w => jlt (w_status w) STOPPED) (c_workers c)) in
      (call_for ws (update_workers n ws (fun w => wset_target STOPPED (wset_status STOPPED w))) ;>
       call (update_cluster n (fun r => rset_stop (Some now) (rset_status (r_target r) r))) ;>
       pure (upd_obj n (fun c => cset_shutdown true (cset_ready true c)))) s fs
  end.

(** _check_cluster_scale (1330-1348). *)
Fixpoint fcreate_workers (cf : cfg) (k : nat) (n : nat) (now : Z) : act :=
  match k with
  | O => ok
  | S k' => (fun s => (call (fun s => (create_worker cf n now s).2) ;> pure (qput (n, Some (uuid s)))) s) ;>
            fcreate_workers cf k' n now
  end.
Definition fcheck_scale (cf : cfg) (n : nat) (now : Z) : act := fun s fs =>
  match objs s !! n with
  | None => ok s fs
  | Some c =>
      if decide (fail_limit cf <= c_fails c)%nat then
        (call (update_cluster n (rset_target FAILED)) ;> pure (qput (n, None))) s fs
      else fcreate_workers cf (Z.to_nat (r_count (c_row c) - Z.of_nat (length (active_workers c)))) n now s fs
  end.

(** reconcile_cluster (1192-1214), for a cluster whose target is RUNNING and
    whose status is not CREATED. *)
Definition frunning (cf : cfg) (n : nat) (now : Z) (c : cluster) : act :=
  (if decide (c_status c = SUBMITTED /\ r_sched (c_row c) <> [])
   then call (update_cluster n (rset_status RUNNING)) ;> pure (upd_obj n (cset_ready true)) (* 1311-1314 *)
   else ok) ;>
  (fun s1 => match objs s1 !! n with
             | Some c1 => if decide (c_status c1 = RUNNING) then (pure (check_proxied n) ;> fcheck_scale cf n now) s1 else ok s1
             | None => ok s1
             end).
Definition freconcile_cluster (cf : cfg) (k : nat) (n : nat) (now lt : Z) (fs : list fault) (s : gw) : gw * list fobs :=
  let x := (n, None) in
  match objs s !! n with
  | None => (finish x s, [])
  | Some c =>
      if jge (c_status c) STOPPED then (finish x s, [])
      else if decide (c_target c = STOPPED \/ c_target c = FAILED) then
        if decide (c_status c = CLOSING) then
          if ready_to_close cf c then
            if jlt CREATED (c_status c)
            then (suspend k (InStopCluster n) s, [FObs (OStopC n (r_state (c_row c)))])
            else settle lt x (fcluster_stopped n now s fs)
          else (finish x s, [])
        else settle lt x (fcluster_to_closing cf n c s fs)
      else if decide (c_target c = RUNNING) then
        if decide (c_status c = CREATED) then (suspend k (InStartCluster n) s, [FObs (OStartC n)])
        else settle lt x (frunning cf n now c s fs)
      else (finish x s, [])
  end.

(** reconcile_worker (1216-1239). *)
Definition freconcile_worker (cf : cfg) (k : nat) (n w : nat) (now lt : Z) (fs : list fault) (s : gw) : gw * list fobs :=
  let x := (n, Some w) in
  match get_worker n w s with
  | None => (finish x s, [])
  | Some wk =>
      if jge (w_status wk) STOPPED then (finish x s, [])
      else if decide (w_target wk = CLOSING) then
        settle lt x (((if decide (w_status wk = CLOSING) then ok else call (update_worker n w (wset_status CLOSING))) ;>
                      pure (fun s1 => if is_ready cf n s1 then qput (n, None) s1 else s1)) s fs)
      else if decide (w_target wk = STOPPED \/ w_target wk = FAILED) then
        if jlt CREATED (w_status wk)
        then (suspend k (InStopWorker n w) s, [FObs (OStopW n w (w_state wk))])
        else settle lt x ((call (worker_stopped n w now) ;> pure (worker_stopped_rest cf n w)) s fs)
      else if decide (w_status wk = CREATED /\ w_target wk = RUNNING) then
        (suspend k (InStartWorker n w) s, [FObs (OStartW n w)])
      else (finish x s, [])
  end.
Definition freconcile (cf : cfg) (k : nat) (x : item) (now lt : Z) (fs : list fault) (s : gw) : gw * list fobs :=
  match x.2 with
  | None => freconcile_cluster cf k x.1 now lt fs s
  | Some w => freconcile_worker cf k x.1 w now lt fs s
  end.

(** The handlers of _cluster_to_submitted (1262-1272) and _worker_to_submitted
    (1361-1372). *)
Definition cluster_failed (n : nat) : act :=
  call (update_cluster n (fun r => rset_target FAILED (rset_status SUBMITTED r))) ;> pure (qput (n, None)).
Definition worker_failed (n w : nat) : act :=
  call (update_worker n w (fun x => wset_target FAILED (wset_status SUBMITTED x))) ;>
  pure (fun s => qput (n, Some w) (upd_obj n (fun c => cset_fails (S (c_fails c)) c) s)).
(** try: a except: b. *)
Definition orelse (a b : act) : act := fun s fs =>
  match a s fs with
  | (s1, fs1, false) => b s1 fs1
  | r => r
  end.

(** A backend operation goes on.  A reported state that cannot be stored ends
    the [async for] and the operation with it (1255-1257, 1354-1356): the
    reconciler goes to the handler.  [st]: the reported state is seen even if it
    is not stored. *)
Definition fresume (cf : cfg) (k : nat) (o : outcome) (now lt : Z) (fs : list fault) (s : gw) : gw * list fobs :=
  match busy s !! k with
  | None => (s, [])
  | Some p =>
      let s0 := release k s in
      match p, o with
      | InStartCluster n, Yields st =>
          match call (update_cluster n (rset_state st)) s fs with
          | (s1, _, true) => (s1, [FObs (OStateC n st)])
          | (s1, fs1, false) =>
              let r := settle lt (n, None) (cluster_failed n (release k s1) fs1) in (r.1, FObs (OStateC n st) :: r.2)
          end
      | InStartCluster n, Ends =>
          settle lt (n, None) (orelse (call (update_cluster n (rset_status SUBMITTED))) (cluster_failed n) s0 fs)
      | InStartCluster n, Raises => settle lt (n, None) (cluster_failed n s0 fs)
      | InStartWorker n w, Yields st =>
          match call (update_worker n w (wset_state st)) s fs with
          | (s1, _, true) => (s1, [FObs (OStateW n w st)])
          | (s1, fs1, false) =>
              let r := settle lt (n, Some w) (worker_failed n w (release k s1) fs1) in (r.1, FObs (OStateW n w st) :: r.2)
          end
      | InStartWorker n w, Ends =>
          settle lt (n, Some w) (orelse (call (update_worker n w (wset_status SUBMITTED))) (worker_failed n w) s0 fs)
      | InStartWorker n w, Raises => settle lt (n, Some w) (worker_failed n w s0 fs)
      | InStopCluster n, Yields _ => (s, [])
      | InStopCluster n, _ => settle lt (n, None) (fcluster_stopped n now (remove_routes n s0) fs)
      | InStopWorker n w, Yields _ => (s, [])
      | InStopWorker n w, _ =>
          settle lt (n, Some w) ((call (worker_stopped n w now) ;> pure (worker_stopped_rest cf n w)) s0 fs)
      end
  end.

(** cleanup (867-905).  If the update of 879 fails, the exception leaves
    cleanup(): nothing waits and close() is not called by it; the model allows
    the queue to be closed at once (more behaviours). *)
Definition fshutdown (cf : cfg) (fs : list fault) (s : gw) : gw * list fobs :=
  let s0 := set_chk_w None (set_chk_c None s) in
  if stop_on_shutdown cf then
    match ffail_clusters (map c_name (active_clusters s0)) s0 fs with
    | (s1, _, true) =>
        (set_down (Some (map c_name (List.filter (fun c => jlt (c_status c) STOPPED) (all_clusters s1)))) s1, [])
    | (s1, _, false) => (set_down (Some []) s1, [FError])
    end
  else (set_down (Some []) s0, []).

(** * Events *)
Inductive fevent :=
| FE (e : event) (lt : Z) (fs : list fault)
| FTimer (lt : Z) (x : item).          (* the loop runs the timer of a delayed item *)

Definition fgot (cf : cfg) (k : nat) (now lt : Z) (fs : list fault) (s : gw) (r : wq item * option (out item)) : gw * list fobs :=
  match r with
  | (q', Some (Returned _ (Item x))) => freconcile cf k x now lt fs (set_q q' s)
  | (q', _) => (set_q q' s, [])
  end.
(** Events that make no database call. *)
Definition plain (r : gw * list obs) : gw * list fobs := (r.1, map FObs r.2).

Definition fstep (cf : cfg) (s : gw) (fe : fevent) : gw * list fobs :=
  match fe with
  | FTimer lt x => (set_q (WorkQueue_Model.step (q s) (ETimer lt x)).1 s, [])
  | FE e lt fs =>
    match e with
    | EStart user info mx now => fstart_cluster cf user info mx now fs s
    | EStop n failed => fstop_cluster n failed fs s
    | EHeartbeat n m now => fheartbeat n m now fs s
    | ECheckTimeouts now => match down s with None => fcheck_timeouts cf now fs s | _ => (s, []) end
    | ECheckClustersEnd (Some oks) => fcheck_clusters_end oks fs s
    | ECheckWorkersEnd (Some oks) => fcheck_workers_end oks fs s
    | ECleanup now => match down s with None => fcleanup cf now fs s | _ => (s, []) end
    | EGet k now =>
        if decide (k < parallelism cf)%nat then
          match busy s !! k, tasks (q s) !! k with
          | None, None => fgot cf k now lt fs s (WorkQueue_Model.step (q s) (WorkQueue_Model.EGet k))
          | _, _ => (s, [])
          end
        else (s, [])
    | EWake k now => fgot cf k now lt fs s (WorkQueue_Model.step (q s) (WorkQueue_Model.EResume k))
    | EBackend k o now => fresume cf k o now lt fs s
    | EShutdown => match down s with None => fshutdown cf fs s | _ => (s, []) end
    | ECheckClusters | ECheckClustersEnd None | ECheckWorkers | ECheckWorkersEnd None | ERestart _ | EClose => plain (step cf s e)
    end
  end.
