(** Model of dask-gateway-server/dask_gateway_server/backends/db_base.py: the
    records, the DataManager (memory and database), the API entry points, the
    periodic checks, the reconciler loops, start-up and shutdown.  The work
    queue is the one of WorkQueue_Model.

    Simplifications, valid for the whole file:
    - coroutines are cut at the awaits that can suspend: queue.get (1161),
      do_start_cluster (1255), do_stop_cluster (1292), do_start_worker (1354),
      do_stop_worker (1378), do_check_clusters (1095), do_check_workers (1128),
      the sleeps of the loops and the wait at shutdown (893).  Proxy
      add_route/remove_route (proxy/core.py:320-357) never suspend;
    - a reconciler that finished an item asks for the next one in a step of its
      own (in the code there is no suspension in between when an item is in
      line): more interleavings, never fewer;
    - uuid4().hex (456, 457, 502) is a counter: it never repeats;
    - users, backend states (JSON) and the payload "options, config, token and
      TLS credentials" are numbers, [{}] is 0; of the configuration only
      cluster_max_workers is kept;
    - timestamps are integers (ms); the timeouts are given in ms;
    - database calls do not fail, so that the branch 1183-1187 (put_backoff) has
      no cause in the model (Fault_Model has failing calls); a backend that raises
      CancelledError is left out. *)
From Coq Require Import ZArith Ascii.
From stdpp Require Import prelude gmap.
From Verif Require Import Router_Model WorkQueue_Model.
Open Scope Z_scope.

(** JobStatus (82-88). *)
Inductive job := CREATED | SUBMITTED | RUNNING | CLOSING | STOPPED | FAILED.
Global Instance job_eq_dec : EqDecision job.
Proof. solve_decision. Defined.
Definition jnum (j : job) : nat :=
  match j with CREATED => 1 | SUBMITTED => 2 | RUNNING => 3 | CLOSING => 4 | STOPPED => 5 | FAILED => 6 end.
(** [a < b] and [a >= b] on IntEnum members. *)
Definition jlt (a b : job) : bool := bool_decide (jnum a < jnum b)%nat.
Definition jge (a b : job) : bool := negb (jlt a b).

(** models.ClusterStatus. *)
Inductive public := PPENDING | PRUNNING | PSTOPPING | PSTOPPED | PFAILED.
Global Instance public_eq_dec : EqDecision public.
Proof. solve_decision. Defined.

(** Cluster._status_map (176-193), model_status (204-206); [None]: KeyError. *)
Definition status_map (status target : job) : option public :=
  match status, target with
  | CREATED, RUNNING => Some PPENDING
  | CREATED, CLOSING => Some PSTOPPING
  | CREATED, STOPPED => Some PSTOPPING
  | CREATED, FAILED => Some PSTOPPING
  | SUBMITTED, RUNNING => Some PPENDING
  | SUBMITTED, CLOSING => Some PSTOPPING
  | SUBMITTED, STOPPED => Some PSTOPPING
  | SUBMITTED, FAILED => Some PSTOPPING
  | RUNNING, RUNNING => Some PRUNNING
  | RUNNING, CLOSING => Some PSTOPPING
  | RUNNING, STOPPED => Some PSTOPPING
  | RUNNING, FAILED => Some PSTOPPING
  | CLOSING, STOPPED => Some PSTOPPING
  | CLOSING, FAILED => Some PSTOPPING
  | STOPPED, STOPPED => Some PSTOPPED
  | FAILED, FAILED => Some PFAILED
  | _, _ => None
  end.

(** Worker (226-262).  All of it is stored (289-303). *)
Record worker := Wk {
  w_id : nat; w_name : nat; w_status : job; w_target : job; w_state : nat;
  w_start : Z; w_stop : option Z; w_close : bool (* close_expected *) }.

(** The stored part of Cluster (268-287). *)
Record crow := Row {
  r_name : nat; r_user : nat; r_status : job; r_target : job; r_count : Z; r_state : nat;
  r_sched : bytes; r_dash : bytes; r_api : bytes; r_start : Z; r_stop : option Z;
  r_max : option Z;         (* config.cluster_max_workers *)
  r_info : nat }.           (* options, config, token, tls_cert, tls_key *)

(** Cluster (123-174): the stored part, the attributes that only live in memory,
    and [workers], a dict in insertion order. *)
Record cluster := Cl {
  c_id : nat; c_row : crow; c_hb : option Z (* last_heartbeat *); c_fails : nat (* worker_start_failure_count *);
  c_proxied : bool; c_ready : bool; c_shutdown : bool; c_workers : list worker }.

Definition wset_status v w := Wk (w_id w) (w_name w) v (w_target w) (w_state w) (w_start w) (w_stop w) (w_close w).
Definition wset_target v w := Wk (w_id w) (w_name w) (w_status w) v (w_state w) (w_start w) (w_stop w) (w_close w).
Definition wset_state v w := Wk (w_id w) (w_name w) (w_status w) (w_target w) v (w_start w) (w_stop w) (w_close w).
Definition wset_stop v w := Wk (w_id w) (w_name w) (w_status w) (w_target w) (w_state w) (w_start w) v (w_close w).
Definition wset_close v w := Wk (w_id w) (w_name w) (w_status w) (w_target w) (w_state w) (w_start w) (w_stop w) v.

Definition rset_status v r := Row (r_name r) (r_user r) v (r_target r) (r_count r) (r_state r) (r_sched r) (r_dash r) (r_api r) (r_start r) (r_stop r) (r_max r) (r_info r).
Definition rset_target v r := Row (r_name r) (r_user r) (r_status r) v (r_count r) (r_state r) (r_sched r) (r_dash r) (r_api r) (r_start r) (r_stop r) (r_max r) (r_info r).
Definition rset_count v r := Row (r_name r) (r_user r) (r_status r) (r_target r) v (r_state r) (r_sched r) (r_dash r) (r_api r) (r_start r) (r_stop r) (r_max r) (r_info r).
Definition rset_state v r := Row (r_name r) (r_user r) (r_status r) (r_target r) (r_count r) v (r_sched r) (r_dash r) (r_api r) (r_start r) (r_stop r) (r_max r) (r_info r).
Definition rset_addresses api sched dash r := Row (r_name r) (r_user r) (r_status r) (r_target r) (r_count r) (r_state r) sched dash api (r_start r) (r_stop r) (r_max r) (r_info r).
Definition rset_stop v r := Row (r_name r) (r_user r) (r_status r) (r_target r) (r_count r) (r_state r) (r_sched r) (r_dash r) (r_api r) (r_start r) v (r_max r) (r_info r).

Definition cset_row v c := Cl (c_id c) v (c_hb c) (c_fails c) (c_proxied c) (c_ready c) (c_shutdown c) (c_workers c).
Definition cset_hb v c := Cl (c_id c) (c_row c) v (c_fails c) (c_proxied c) (c_ready c) (c_shutdown c) (c_workers c).
Definition cset_fails v c := Cl (c_id c) (c_row c) (c_hb c) v (c_proxied c) (c_ready c) (c_shutdown c) (c_workers c).
Definition cset_proxied v c := Cl (c_id c) (c_row c) (c_hb c) (c_fails c) v (c_ready c) (c_shutdown c) (c_workers c).
Definition cset_ready v c := Cl (c_id c) (c_row c) (c_hb c) (c_fails c) (c_proxied c) v (c_shutdown c) (c_workers c).
Definition cset_shutdown v c := Cl (c_id c) (c_row c) (c_hb c) (c_fails c) (c_proxied c) (c_ready c) v (c_workers c).
Definition cset_workers v c := Cl (c_id c) (c_row c) (c_hb c) (c_fails c) (c_proxied c) (c_ready c) (c_shutdown c) v.

Definition c_name c := r_name (c_row c).
Definition c_status c := r_status (c_row c).
Definition c_target c := r_target (c_row c).

(** Worker.is_active (264-265), Cluster.is_active (198-199). *)
Definition w_active (w : worker) : bool := jlt (w_target w) STOPPED.
Definition c_active (c : cluster) : bool := jlt (c_target c) STOPPED.
(** active_workers (195-196). *)
Definition active_workers (c : cluster) : list worker := List.filter w_active (c_workers c).
(** all_workers_at_least (201-202). *)
Definition all_at_least (j : job) (c : cluster) : bool := forallb (fun w => jge (w_status w) j) (c_workers c).
(** model_status (204-206). *)
Definition model_status (c : cluster) : option public := status_map (c_status c) (c_target c).

(** Cluster.__init__ (143-174) for a stored record; [now] is timestamp() of 162. *)
Definition new_cluster (now : Z) (id : nat) (r : crow) : cluster :=
  Cl id r (if decide (r_status r = RUNNING) then Some now else None) 0%nat false
     (jge (r_status r) RUNNING) (jge (r_status r) STOPPED) [].

(** Items of the work queue: a cluster [(n, None)] or a worker [(n, Some w)]. *)
Notation item := (nat * option nat)%type.
(** Where a reconciler that holds an item is suspended. *)
Inductive pc :=
| InStartCluster (n : nat)      (* 1255 *)
| InStopCluster (n : nat)       (* 1292 *)
| InStartWorker (n w : nat)     (* 1354 *)
| InStopWorker (n w : nat).     (* 1378 *)
Global Instance pc_eq_dec : EqDecision pc.
Proof. solve_decision. Defined.
Definition pc_item (p : pc) : item :=
  match p with
  | InStartCluster n | InStopCluster n => (n, None)
  | InStartWorker n w | InStopWorker n w => (n, Some w)
  end.

(** Configuration (578-813).  [alloc_c k ids] is the primary key the database
    gives to the k-th inserted cluster when [ids] are the keys in use, [alloc_w]
    the same for workers: see [fresh_ids] and [sqlite_ids] in Gateway_Spec. *)
Record cfg := Cfg {
  bulk : bool;                    (* supports_bulk_shutdown *)
  fail_limit : nat;               (* worker_start_failure_limit *)
  hb_timeout : Z; cstart_timeout : Z; wstart_timeout : Z; max_age : Z;
  stop_on_shutdown : bool;
  parallelism : nat;
  q_base : Z; q_max : Z;
  alloc_c : nat -> gset nat -> nat; alloc_w : nat -> gset nat -> nat }.

(** The two kinds of routes of a cluster. *)
Inductive rkind := RSNI | RPATH.
Global Instance rkind_eq_dec : EqDecision rkind.
Proof. solve_decision. Defined.
Global Program Instance rkind_countable : Countable rkind :=
  {| encode k := encode (bool_decide (k = RSNI));
     decode p := b ← decode p; Some (if b : bool then RSNI else RPATH) |}.
Next Obligation. intros []; reflexivity. Qed.

(** The whole gateway.  [objs]: every Cluster object of this process (also those
    that left the indexes but are still referenced by a coroutine), by name.
    [by_name], [by_id], [by_user]: the three indexes of DataManager (331-333).
    [db_c], [db_w]: the tables.  [routes]: the proxy's table (without the
    gateway's own route), by kind and cluster name. *)
Record gw := GW {
  objs : gmap nat cluster;
  by_name : list nat;
  by_id : gmap nat nat;
  by_user : gmap nat (list nat);
  db_c : gmap nat crow;
  db_w : gmap nat (nat * worker);
  uuid : nat; n_cins : nat; n_wins : nat;
  q : wq item;
  busy : gmap nat pc;
  chk_c : option (list nat);           (* suspended at 1095, with [clusters] *)
  chk_w : option (list (nat * nat));   (* suspended at 1128, with [workers] *)
  routes : gmap (rkind * nat) bytes;
  down : option (list nat) }.          (* cleanup() is waiting at 893 for these *)

Definition set_objs v s := GW v (by_name s) (by_id s) (by_user s) (db_c s) (db_w s) (uuid s) (n_cins s) (n_wins s) (q s) (busy s) (chk_c s) (chk_w s) (routes s) (down s).
Definition set_index bn bi bu s := GW (objs s) bn bi bu (db_c s) (db_w s) (uuid s) (n_cins s) (n_wins s) (q s) (busy s) (chk_c s) (chk_w s) (routes s) (down s).
Definition set_db_c v s := GW (objs s) (by_name s) (by_id s) (by_user s) v (db_w s) (uuid s) (n_cins s) (n_wins s) (q s) (busy s) (chk_c s) (chk_w s) (routes s) (down s).
Definition set_db_w v s := GW (objs s) (by_name s) (by_id s) (by_user s) (db_c s) v (uuid s) (n_cins s) (n_wins s) (q s) (busy s) (chk_c s) (chk_w s) (routes s) (down s).
Definition set_counters u nc nw s := GW (objs s) (by_name s) (by_id s) (by_user s) (db_c s) (db_w s) u nc nw (q s) (busy s) (chk_c s) (chk_w s) (routes s) (down s).
Definition set_q v s := GW (objs s) (by_name s) (by_id s) (by_user s) (db_c s) (db_w s) (uuid s) (n_cins s) (n_wins s) v (busy s) (chk_c s) (chk_w s) (routes s) (down s).
Definition set_busy v s := GW (objs s) (by_name s) (by_id s) (by_user s) (db_c s) (db_w s) (uuid s) (n_cins s) (n_wins s) (q s) v (chk_c s) (chk_w s) (routes s) (down s).
Definition set_chk_c v s := GW (objs s) (by_name s) (by_id s) (by_user s) (db_c s) (db_w s) (uuid s) (n_cins s) (n_wins s) (q s) (busy s) v (chk_w s) (routes s) (down s).
Definition set_chk_w v s := GW (objs s) (by_name s) (by_id s) (by_user s) (db_c s) (db_w s) (uuid s) (n_cins s) (n_wins s) (q s) (busy s) (chk_c s) v (routes s) (down s).
Definition set_routes v s := GW (objs s) (by_name s) (by_id s) (by_user s) (db_c s) (db_w s) (uuid s) (n_cins s) (n_wins s) (q s) (busy s) (chk_c s) (chk_w s) v (down s).
Definition set_down v s := GW (objs s) (by_name s) (by_id s) (by_user s) (db_c s) (db_w s) (uuid s) (n_cins s) (n_wins s) (q s) (busy s) (chk_c s) (chk_w s) (routes s) v.

(** What can be seen from outside: calls of backend operations (with the state
    they are given), states the backend reported, new names, errors. *)
Inductive obs :=
| OCreated (n : nat)
| OStartC (n : nat) | OStateC (n st : nat) | OStopC (n st : nat)
| OStartW (n w : nat) | OStateW (n w st : nat) | OStopW (n w st : nat)
| OAssertion                             (* AssertionError in a heartbeat (1002) *)
| OTypeError.                            (* TypeError in _check_timeouts (1065) *)

Definition qput (x : item) (s : gw) : gw := set_q (put x (q s)) s.
Definition qputs (xs : list item) (s : gw) : gw := fold_left (fun s x => qput x s) xs s.

(** * DataManager *)

(** Change of attributes that only live in memory. *)
Definition upd_obj (n : nat) (f : cluster -> cluster) (s : gw) : gw := set_objs (alter f n (objs s)) s.
(** update_cluster (520-527), one element of update_clusters (529-540): the row
    with the object's id, if there is one, and the object. *)
Definition update_cluster (n : nat) (f : crow -> crow) (s : gw) : gw :=
  match objs s !! n with
  | None => s
  | Some c => set_db_c (alter f (c_id c) (db_c s)) (upd_obj n (fun c => cset_row (f (c_row c)) c) s)
  end.
Definition map_worker (w : nat) (f : worker -> worker) (l : list worker) : list worker :=
  map (fun x => if decide (w_name x = w) then f x else x) l.
Definition find_worker (w : nat) (l : list worker) : option worker :=
  List.find (fun x => bool_decide (w_name x = w)) l.
Definition get_worker (n w : nat) (s : gw) : option worker :=
  c ← objs s !! n; find_worker w (c_workers c).
(** update_worker (542-549), one element of update_workers (551-562). *)
Definition update_worker (n w : nat) (f : worker -> worker) (s : gw) : gw :=
  match get_worker n w s with
  | None => s
  | Some x => set_db_w (alter (fun p => (p.1, f p.2)) (w_id x) (db_w s))
                (upd_obj n (fun c => cset_workers (map_worker w f (c_workers c)) c) s)
  end.
Definition update_clusters (ns : list nat) (f : crow -> crow) (s : gw) : gw :=
  fold_left (fun s n => update_cluster n f s) ns s.
Definition update_workers (n : nat) (ws : list nat) (f : worker -> worker) (s : gw) : gw :=
  fold_left (fun s w => update_worker n w f s) ws s.

(** get_cluster (430-431), used by every API entry. *)
Definition lookup_cluster (n : nat) (s : gw) : option cluster :=
  if decide (n ∈ by_name s) then objs s !! n else None.
(** name_to_cluster.values(). *)
Definition all_clusters (s : gw) : list cluster := omap (fun n => objs s !! n) (by_name s).
(** active_clusters (449-452). *)
Definition active_clusters (s : gw) : list cluster := List.filter c_active (all_clusters s).

(** create_cluster (454-498): the row, the object, the three indexes. *)
Definition create_cluster (cf : cfg) (user info : nat) (mx : option Z) (now : Z) (s : gw) : nat * gw :=
  let n := uuid s in
  let id := alloc_c cf (n_cins s) (dom (db_c s)) in
  let r := Row n user CREATED RUNNING 0 0%nat [] [] [] now None mx info in
  let s1 := set_counters (S (uuid s)) (S (n_cins s)) (n_wins s) s in
  let s2 := set_db_c (<[id := r]> (db_c s1)) s1 in
  let s3 := set_objs (<[n := new_cluster now id r]> (objs s2)) s2 in
  (n, set_index (by_name s3 ++ [n]) (<[id := n]> (by_id s3))
        (<[user := default [] (by_user s3 !! user) ++ [n]]> (by_user s3)) s3).

(** create_worker (500-518). *)
Definition create_worker (cf : cfg) (n : nat) (now : Z) (s : gw) : nat * gw :=
  let w := uuid s in
  let id := alloc_w cf (n_wins s) (dom (db_w s)) in
  let x := Wk id w CREATED RUNNING 0%nat now None false in
  let cid := match objs s !! n with Some c => c_id c | None => 0%nat end in
  let s1 := set_counters (S (uuid s)) (n_cins s) (S (n_wins s)) s in
  let s2 := set_db_w (<[id := (cid, x)]> (db_w s1)) s1 in
  (w, upd_obj n (fun c => cset_workers (c_workers c ++ [x]) c) s2).

(** cleanup_expired (385-408).  The deletion cascades to the workers (294).  The
    pops of 400-406 raise KeyError if an entry is missing; Gateway_Proofs shows
    that the entries are there ([purge_indexes]). *)
Definition is_expired (cutoff : Z) (r : crow) : bool :=
  match r_stop r with Some t => t <? cutoff | None => false end.
Definition forget (n : nat) (s : gw) : gw :=
  match objs s !! n with
  | None => s
  | Some c =>
      let u := r_user (c_row c) in
      let rest := List.filter (fun m => negb (bool_decide (m = n))) (default [] (by_user s !! u)) in
      set_index (List.filter (fun m => negb (bool_decide (m = n))) (by_name s)) (delete (c_id c) (by_id s))
        (if decide (rest = []) then delete u (by_user s) else <[u := rest]> (by_user s)) s
  end.
Definition cleanup_expired (cf : cfg) (now : Z) (s : gw) : gw :=
  let cutoff := now - max_age cf in
  let dead := filter (fun kv => is_expired cutoff kv.2 = true) (db_c s) in
  let names := omap (fun id => by_id s !! id) (map fst (map_to_list dead)) in
  let s1 := set_db_c (filter (fun kv => is_expired cutoff kv.2 = false) (db_c s)) s in
  let s2 := set_db_w (filter (fun kv => kv.2.1 ∉ dom dead) (db_w s)) s1 in
  fold_left (fun s n => forget n s) names s2.

(** DataManager.__init__ (337-383): load everything.  Workers are listed in the
    order of the table. *)
Definition load_cluster (now : Z) (dw : gmap nat (nat * worker)) (id : nat) (r : crow) : cluster :=
  cset_workers (map (fun p => p.2.2) (List.filter (fun p : nat * (nat * worker) => bool_decide (p.2.1 = id)) (map_to_list dw)))
    (new_cluster now id r).
Definition load_objs (now : Z) (dc : gmap nat crow) (dw : gmap nat (nat * worker)) : gmap nat cluster :=
  list_to_map (map (fun p => (r_name p.2, load_cluster now dw p.1 p.2)) (map_to_list dc)).
Definition load_by_user (dc : gmap nat crow) : gmap nat (list nat) :=
  fold_left (fun m p => <[r_user p.2 := default [] (m !! r_user p.2) ++ [r_name p.2]]> m)
    (map_to_list dc) (∅ : gmap nat (list nat)).

(** The process dies at any moment; a new one runs setup (822-865): new queue,
    new proxy table, load the database, put everything that is not finished.
    The database and the source of names survive. *)
Definition restart (cf : cfg) (now : Z) (s : gw) : gw :=
  let os := load_objs now (db_c s) (db_w s) in
  let names := map (fun p : nat * crow => r_name p.2) (map_to_list (db_c s)) in
  let s0 := GW os names ((fun r => r_name r) <$> db_c s) (load_by_user (db_c s)) (db_c s) (db_w s)
              (uuid s) (n_cins s) (n_wins s) (init (q_base cf) (q_max cf)) ∅ None None ∅ None in
  let unfinished := List.filter (fun c => jlt (c_status c) STOPPED) (all_clusters s0) in
  qputs (flat_map (fun c => (c_name c, None) ::
           map (fun w => (c_name c, Some (w_name w))) (List.filter (fun w => jlt (w_status w) STOPPED) (c_workers c)))
         unfinished) s0.
Definition gw_init (cf : cfg) : gw :=
  GW ∅ [] ∅ ∅ ∅ ∅ 0%nat 0%nat 0%nat (init (q_base cf) (q_max cf)) ∅ None None ∅ None.

(** * API *)

(** start_cluster (922-927); process_cluster_options is outside. *)
Definition start_cluster (cf : cfg) (user info : nat) (mx : option Z) (now : Z) (s : gw) : gw * list obs :=
  let '(n, s1) := create_cluster cf user info mx now s in (qput (n, None) s1, [OCreated n]).

(** stop_cluster (929-937). *)
Definition stop_cluster (n : nat) (failed : bool) (s : gw) : gw :=
  match lookup_cluster n s with
  | None => s
  | Some c =>
      if jge RUNNING (c_target c) then
        qput (n, None) (update_cluster n (rset_target (if failed then FAILED else STOPPED)) s)
      else s
  end.

(** A heartbeat message (routes.py:262-278 and db_base.py:939-1034). *)
Record hbmsg := Msg {
  m_api : bytes; m_sched : bytes; m_dash : bytes; m_count : Z;
  m_active : list nat; m_closing : list nat; m_closed : list nat }.

(** The loop of 984-1006: the five lists; [None] is the AssertionError of 1005. *)
Record sorted := Sorted {
  z_created : list nat; z_submitted : list nat; z_targets : list (nat * job);
  z_running : list nat; z_close : list nat }.
Fixpoint classify (m : hbmsg) (ws : list worker) : option sorted :=
  match ws with
  | [] => Some (Sorted [] [] [] [] [])
  | w :: ws' =>
      z ← classify m ws';
      let '(Sorted cr su ta ru cl) := z in
      let x := w_name w in
      if jge (w_status w) STOPPED then Some z
      else if decide (x ∈ m_closing m) then
        Some (Sorted cr su ta (if jlt (w_status w) RUNNING then x :: ru else ru) (x :: cl))
      else if decide (x ∈ m_active m) then
        Some (Sorted cr su ta (if jlt (w_status w) RUNNING then x :: ru else ru) cl)
      else if decide (x ∈ m_closed m) then
        Some (Sorted cr su ((x, if w_close w then STOPPED else FAILED) :: ta) ru cl)
      else if decide (w_status w = SUBMITTED) then Some (Sorted cr (x :: su) ta ru cl)
      else if decide (w_status w = CREATED) then Some (Sorted (x :: cr) su ta ru cl)
      else None
  end.

Definition set_targets (n : nat) (ts : list (nat * job)) (s : gw) : gw :=
  fold_left (fun s t => update_worker n t.1 (wset_target t.2) s) ts s.

(** on_cluster_heartbeat (939-1034). *)
Definition heartbeat (n : nat) (m : hbmsg) (now : Z) (s : gw) : gw * list obs :=
  match lookup_cluster n s with
  | None => (s, [])
  | Some c =>
      if jlt RUNNING (c_target c) then (s, [])
      else
        let s1 := upd_obj n (cset_hb (Some now)) s in
        let count := match r_max (c_row c) with
                     | Some mx => if mx <? m_count m then mx else m_count m
                     | None => m_count m end in
        match classify m (c_workers c) with
        | None => (s1, [OAssertion])
        | Some z =>
            let n_pending := (length (z_created z) + length (z_submitted z))%nat in
            let n_active := size (list_to_set (m_active m) : gset nat) in
            let n_to_stop := Z.of_nat n_active + Z.of_nat n_pending - count in
            let targets := z_targets z ++
                (if 0 <? n_to_stop
                 then map (fun w => (w, STOPPED)) (take (Z.to_nat n_to_stop) (z_created z ++ z_submitted z))
                 else []) in
            let running := decide (c_status c = RUNNING) in
            let changed := negb (count =? r_count (c_row c)) in
            let f := fun r : crow =>
                let r1 := if running then r else rset_addresses (m_api m) (m_sched m) (m_dash m) r in
                if changed then rset_count count r1 else r1 in
            let s2 := if negb (bool_decide (c_status c = RUNNING)) || changed
                      then qput (n, None) (update_cluster n f s1) else s1 in
            let s3 := qputs (map (fun t : nat * job => (n, Some t.1)) targets) (set_targets n targets s2) in
            let s4 := match z_running z with
                      | [] => s3
                      | ws => update_workers n ws (wset_status RUNNING) (upd_obj n (cset_fails 0%nat) s3)
                      end in
            (update_workers n (z_close z) (wset_close true) s4, [])
        end
  end.

(** get_cluster (911-920) without the wait, DBBackendBase.list_clusters
    (907-909) on DataManager.list_clusters (433-447).  Outer [None] of
    [list_clusters] / inner [None] of [get_cluster]: KeyError. *)
Definition get_cluster (n : nat) (s : gw) : option (option public) := model_status <$> lookup_cluster n s.
Definition user_clusters (user : option nat) (s : gw) : list cluster :=
  match user with
  | None => all_clusters s
  | Some u => omap (fun n => objs s !! n) (default [] (by_user s !! u))
  end.
Fixpoint select_clusters (statuses : option (list public)) (cs : list cluster) : option (list cluster) :=
  match cs with
  | [] => Some []
  | c :: cs' =>
      keep ← match statuses with
             | None => Some (c_active c)
             | Some l => p ← model_status c; Some (bool_decide (p ∈ l))
             end;
      rest ← select_clusters statuses cs';
      Some (if keep : bool then c :: rest else rest)
  end.
Definition list_clusters (user : option nat) (statuses : option (list public)) (s : gw) : option (list (nat * public)) :=
  cs ← select_clusters statuses (user_clusters user s);
  mapM (fun c => p ← model_status c; Some (c_name c, p)) cs.

(** * Periodic checks *)

(** _check_timeouts (1049-1083): the clusters and workers to be failed; [None]:
    TypeError, a running cluster has no last_heartbeat (1065). *)
Definition late_workers (cf : cfg) (now : Z) (c : cluster) : list (nat * nat) :=
  map (fun w => (c_name c, w_name w))
    (List.filter (fun w => bool_decide (w_status w = SUBMITTED) && bool_decide (w_target w = RUNNING)
                           && (w_start w <? now - wstart_timeout cf)) (c_workers c)).
Fixpoint find_late (cf : cfg) (now : Z) (cs : list cluster) : option (list nat * list (nat * nat)) :=
  match cs with
  | [] => Some ([], [])
  | c :: cs' =>
      p ← match c_status c with
          | SUBMITTED => Some (if r_start (c_row c) <? now - cstart_timeout cf then ([c_name c], []) else ([], []))
          | RUNNING => hb ← c_hb c;
                       Some (if hb <? now - hb_timeout cf then ([c_name c], []) else ([], late_workers cf now c))
          | _ => Some ([], [])
          end;
      rest ← find_late cf now cs';
      Some (p.1 ++ rest.1, p.2 ++ rest.2)
  end.
Definition fail_clusters (ns : list nat) (s : gw) : gw :=
  qputs (map (fun n => (n, None)) ns) (update_clusters ns (rset_target FAILED) s).
Definition fail_workers (ws : list (nat * nat)) (s : gw) : gw :=
  qputs (map (fun p : nat * nat => (p.1, Some p.2)) ws)
    (fold_left (fun s p => update_worker p.1 p.2 (wset_target FAILED) s) ws s).
Definition check_timeouts (cf : cfg) (now : Z) (s : gw) : gw * list obs :=
  match find_late cf now (active_clusters s) with
  | None => (s, [OTypeError])
  | Some (cs, ws) => (fail_workers ws (fail_clusters cs s), [])
  end.

(** check_clusters_loop (1085-1110): up to the await, and after it.  [oks] is
    the answer, zip stops at the shorter list. *)
Definition check_clusters_begin (s : gw) : gw :=
  set_chk_c (Some (map c_name (List.filter (fun c => bool_decide (c_status c = SUBMITTED)) (active_clusters s)))) s.
Definition failed_of {A} (xs : list A) (oks : list bool) : list A :=
  map fst (List.filter (fun p : A * bool => negb p.2) (combine xs oks)).
Definition check_clusters_end (oks : list bool) (s : gw) : gw :=
  match chk_c s with
  | None => s
  | Some ns => fail_clusters (failed_of ns oks) (set_chk_c None s)
  end.
(** check_workers_loop (1112-1144). *)
Definition check_workers_begin (s : gw) : gw :=
  set_chk_w (Some (flat_map (fun c => map (fun w => (c_name c, w_name w))
                                (List.filter (fun w => bool_decide (w_status w = SUBMITTED)) (active_workers c)))
                     (List.filter (fun c => bool_decide (c_status c = RUNNING)) (active_clusters s)))) s.
Definition check_workers_end (oks : list bool) (s : gw) : gw :=
  match chk_w s with
  | None => s
  | Some ws =>
      let bad := failed_of ws oks in
      let s1 := fold_left (fun s p => update_worker p.1 p.2 (wset_target FAILED) s) bad (set_chk_w None s) in
      fold_left (fun s (p : nat * nat) => qput (p.1, Some p.2) (upd_obj p.1 (fun c => cset_fails (S (c_fails c)) c) s)) bad s1
  end.

(** * Reconcilers *)

(** The end of an item in reconciler_loop: reset_backoff (1189), task_done (1191). *)
Definition finish (x : item) (s : gw) : gw := set_q (task_done x (reset_backoff x (q s))) s.
(** The reconciler [k] suspends at [p], holding the item. *)
Definition suspend (k : nat) (p : pc) (s : gw) : gw := set_busy (<[k := p]> (busy s)) s.
Definition release (k : nat) (s : gw) : gw := set_busy (delete k (busy s)) s.

(** is_cluster_ready_to_close (1241-1249); [and] binds tighter than [or]. *)
Definition ready_to_close (cf : cfg) (c : cluster) : bool :=
  (bool_decide (c_status c = CLOSING) && (bulk cf && all_at_least CLOSING c)) || all_at_least STOPPED c.
Definition is_ready (cf : cfg) (n : nat) (s : gw) : bool :=
  match objs s !! n with Some c => ready_to_close cf c | None => false end.

(** _cluster_to_closing (1274-1286). *)
Definition cluster_to_closing (cf : cfg) (n : nat) (c : cluster) (s : gw) : gw :=
  let target := if bulk cf then CLOSING else STOPPED in
  let ws := map w_name (List.filter (fun w => jlt (w_target w) target) (c_workers c)) in
  let s1 := qputs (map (fun w => (n, Some w)) ws) (update_workers n ws (wset_target target) s) in
  let s2 := update_cluster n (rset_status CLOSING) s1 in
  let s3 := match ws with [] => qput (n, None) s2 | _ => s2 end in
  upd_obj n (cset_ready true) s3.

(** _cluster_to_stopped (1288-1309) after the stop operation (1303-1309). *)
Definition cluster_stopped (n : nat) (now : Z) (s : gw) : gw :=
  match objs s !! n with
  | None => s
  | Some c =>
      let ws := map w_name (List.filter (fun w => jlt (w_status w) STOPPED) (c_workers c)) in
      let s1 := update_workers n ws (fun w => wset_target STOPPED (wset_status STOPPED w)) s in
      let s2 := update_cluster n (fun r => rset_stop (Some now) (rset_status (r_target r) r)) s1 in
      upd_obj n (fun c => cset_shutdown true (cset_ready true c)) s2
  end.
(** The routes are removed after the stop operation, whatever its outcome (1297-1298). *)
Definition remove_routes (n : nat) (s : gw) : gw :=
  set_routes (delete (RSNI, n) (delete (RPATH, n) (routes s))) s.

(** _check_cluster_proxied (1316-1328). *)
Definition check_proxied (n : nat) (s : gw) : gw :=
  match objs s !! n with
  | None => s
  | Some c =>
      if c_proxied c then s
      else
        let rs := match r_dash (c_row c) with [] => routes s | d => <[(RPATH, n) := d]> (routes s) end in
        upd_obj n (cset_proxied true) (set_routes (<[(RSNI, n) := r_sched (c_row c)]> rs) s)
  end.
(** _check_cluster_scale (1330-1348). *)
Fixpoint create_workers (cf : cfg) (k : nat) (n : nat) (now : Z) (s : gw) : gw :=
  match k with
  | O => s
  | S k' => let '(w, s1) := create_worker cf n now s in create_workers cf k' n now (qput (n, Some w) s1)
  end.
Definition check_scale (cf : cfg) (n : nat) (now : Z) (s : gw) : gw :=
  match objs s !! n with
  | None => s
  | Some c =>
      if decide (fail_limit cf <= c_fails c)%nat then
        qput (n, None) (update_cluster n (rset_target FAILED) s)
      else create_workers cf (Z.to_nat (r_count (c_row c) - Z.of_nat (length (active_workers c)))) n now s
  end.

(** reconcile_cluster (1192-1214), up to a suspension or the end of the item.
    [now] is the clock where one is read. *)
Definition reconcile_cluster (cf : cfg) (k : nat) (n : nat) (now : Z) (s : gw) : gw * list obs :=
  let x := (n, None) in
  match objs s !! n with
  | None => (finish x s, [])
  | Some c =>
      if jge (c_status c) STOPPED then (finish x s, [])
      else if decide (c_target c = STOPPED \/ c_target c = FAILED) then
        if decide (c_status c = CLOSING) then
          if ready_to_close cf c then
            if jlt CREATED (c_status c)                                  (* 1290 *)
            then (suspend k (InStopCluster n) s, [OStopC n (r_state (c_row c))])
            else (finish x (cluster_stopped n now s), [])
          else (finish x s, [])
        else (finish x (cluster_to_closing cf n c s), [])
      else if decide (c_target c = RUNNING) then
        if decide (c_status c = CREATED) then (suspend k (InStartCluster n) s, [OStartC n])
        else
          let s1 := if decide (c_status c = SUBMITTED /\ r_sched (c_row c) <> [])
                    then upd_obj n (cset_ready true) (update_cluster n (rset_status RUNNING) s) (* 1311-1314 *)
                    else s in
          let s2 := match objs s1 !! n with
                    | Some c1 => if decide (c_status c1 = RUNNING) then check_scale cf n now (check_proxied n s1) else s1
                    | None => s1 end in
          (finish x s2, [])
      else (finish x s, [])
  end.

(** The rest of reconcile_worker after _worker_to_stopped (1228-1234). *)
Definition worker_stopped_rest (cf : cfg) (n w : nat) (s : gw) : gw :=
  match objs s !! n, get_worker n w s with
  | Some c, Some x =>
      if ready_to_close cf c then qput (n, None) s
      else if decide (c_target c = RUNNING /\ w_close x = false) then qput (n, None) s
      else s
  | _, _ => s
  end.
(** The end of _worker_to_stopped (1384). *)
Definition worker_stopped (n w : nat) (now : Z) (s : gw) : gw :=
  update_worker n w (fun x => wset_stop (Some now) (wset_status (w_target x) x)) s.

(** reconcile_worker (1216-1239). *)
Definition reconcile_worker (cf : cfg) (k : nat) (n w : nat) (now : Z) (s : gw) : gw * list obs :=
  let x := (n, Some w) in
  match get_worker n w s with
  | None => (finish x s, [])
  | Some wk =>
      if jge (w_status wk) STOPPED then (finish x s, [])
      else if decide (w_target wk = CLOSING) then
        let s1 := if decide (w_status wk = CLOSING) then s else update_worker n w (wset_status CLOSING) s in
        (finish x (if is_ready cf n s1 then qput (n, None) s1 else s1), [])
      else if decide (w_target wk = STOPPED \/ w_target wk = FAILED) then
        if jlt CREATED (w_status wk)                                      (* 1376 *)
        then (suspend k (InStopWorker n w) s, [OStopW n w (w_state wk)])
        else (finish x (worker_stopped_rest cf n w (worker_stopped n w now s)), [])
      else if decide (w_status wk = CREATED /\ w_target wk = RUNNING) then
        (suspend k (InStartWorker n w) s, [OStartW n w])
      else (finish x s, [])
  end.

(** One reconciler gets an item (1161-1181). *)
Definition reconcile (cf : cfg) (k : nat) (x : item) (now : Z) (s : gw) : gw * list obs :=
  match x.2 with
  | None => reconcile_cluster cf k x.1 now s
  | Some w => reconcile_worker cf k x.1 w now s
  end.

(** What a suspended backend operation does next: a start operation reports a
    state (1255-1257, 1354-1356); the operation ends; it raises, or times out. *)
Inductive outcome := Yields (st : nat) | Ends | Raises.

Definition resume (cf : cfg) (k : nat) (o : outcome) (now : Z) (s : gw) : gw * list obs :=
  match busy s !! k with
  | None => (s, [])
  | Some p =>
      let s0 := release k s in
      match p, o with
      | InStartCluster n, Yields st => (update_cluster n (rset_state st) s, [OStateC n st])
      | InStartCluster n, Ends =>                                          (* 1258 *)
          (finish (n, None) (update_cluster n (rset_status SUBMITTED) s0), [])
      | InStartCluster n, Raises =>                                        (* 1262-1272 *)
          (finish (n, None) (qput (n, None) (update_cluster n (fun r => rset_target FAILED (rset_status SUBMITTED r)) s0)), [])
      | InStartWorker n w, Yields st => (update_worker n w (wset_state st) s, [OStateW n w st])
      | InStartWorker n w, Ends =>                                         (* 1357 *)
          (finish (n, Some w) (update_worker n w (wset_status SUBMITTED) s0), [])
      | InStartWorker n w, Raises =>                                       (* 1361-1372 *)
          (finish (n, Some w) (qput (n, Some w)
             (upd_obj n (fun c => cset_fails (S (c_fails c)) c)
               (update_worker n w (fun x => wset_target FAILED (wset_status SUBMITTED x)) s0))), [])
      | InStopCluster n, Yields _ => (s, [])                               (* not a generator *)
      | InStopCluster n, _ =>                                              (* 1293-1309 *)
          (finish (n, None) (cluster_stopped n now (remove_routes n s0)), [])
      | InStopWorker n w, Yields _ => (s, [])
      | InStopWorker n w, _ =>                                             (* 1379-1384, 1228-1234 *)
          (finish (n, Some w) (worker_stopped_rest cf n w (worker_stopped n w now s0)), [])
      end
  end.

(** * Shutdown: cleanup (867-905), up to the wait at 893: the task pool is
    closed, so that the suspended checks are gone and no check runs any more. *)
Definition shutdown (cf : cfg) (s : gw) : gw :=
  let s0 := set_chk_w None (set_chk_c None s) in
  if stop_on_shutdown cf then
    let act := map c_name (active_clusters s0) in
    let s1 := fail_clusters act s0 in
    set_down (Some (map c_name (List.filter (fun c => jlt (c_status c) STOPPED) (all_clusters s1)))) s1
  else set_down (Some []) s0.
(** All the awaited flags are set (893), the queue is closed (898). *)
Definition close_queue (s : gw) : gw :=
  match down s with
  | Some ns => if forallb (fun n => match objs s !! n with Some c => c_shutdown c | None => true end) ns
               then set_q (close (q s)) s else s
  | None => s
  end.

(** * Events *)

Inductive event :=
| EStart (user info : nat) (mx : option Z) (now : Z)
| EStop (n : nat) (failed : bool)
| EHeartbeat (n : nat) (m : hbmsg) (now : Z)
| ECheckTimeouts (now : Z)
| ECheckClusters                          (* check_clusters_loop wakes up *)
| ECheckClustersEnd (oks : option (list bool)) (* do_check_clusters answers, or raises *)
| ECheckWorkers
| ECheckWorkersEnd (oks : option (list bool))
| ECleanup (now : Z)
| EGet (k : nat) (now : Z)                (* reconciler k asks for an item *)
| EWake (k : nat) (now : Z)               (* reconciler k, waiting in get, runs again *)
| EBackend (k : nat) (o : outcome) (now : Z) (* the backend operation reconciler k waits for *)
| ERestart (now : Z)
| EShutdown
| EClose.

(** The answer of queue.get for reconciler [k]. *)
Definition got (cf : cfg) (k : nat) (now : Z) (s : gw) (r : wq item * option (out item)) : gw * list obs :=
  match r with
  | (q', Some (Returned _ (Item x))) => reconcile cf k x now (set_q q' s)
  | (q', _) => (set_q q' s, [])
  end.

Definition step (cf : cfg) (s : gw) (e : event) : gw * list obs :=
  match e with
  | EStart user info mx now => start_cluster cf user info mx now s
  | EStop n failed => (stop_cluster n failed s, [])
  | EHeartbeat n m now => heartbeat n m now s
  | ECheckTimeouts now => match down s with None => check_timeouts cf now s | _ => (s, []) end
  | ECheckClusters => match down s, chk_c s with None, None => (check_clusters_begin s, []) | _, _ => (s, []) end
  | ECheckClustersEnd (Some oks) => (check_clusters_end oks s, [])
  | ECheckClustersEnd None => (set_chk_c None s, [])
  | ECheckWorkers => match down s, chk_w s with None, None => (check_workers_begin s, []) | _, _ => (s, []) end
  | ECheckWorkersEnd (Some oks) => (check_workers_end oks s, [])
  | ECheckWorkersEnd None => (set_chk_w None s, [])
  | ECleanup now => match down s with None => (cleanup_expired cf now s, []) | _ => (s, []) end
  | EGet k now =>
      if decide (k < parallelism cf)%nat then
        match busy s !! k, tasks (q s) !! k with
        | None, None => got cf k now s (WorkQueue_Model.step (q s) (WorkQueue_Model.EGet k))
        | _, _ => (s, [])
        end
      else (s, [])
  | EWake k now => got cf k now s (WorkQueue_Model.step (q s) (WorkQueue_Model.EResume k))
  | EBackend k o now => resume cf k o now s
  | ERestart now => (restart cf now s, [])
  | EShutdown => match down s with None => (shutdown cf s, []) | _ => (s, []) end
  | EClose => (close_queue s, [])
  end.
