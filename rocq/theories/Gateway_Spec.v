(** Vocabulary for the gateway properties C18-C32.  Nothing here repeats the
    code: histories, what was seen from outside, and a few words about records. *)
From Coq Require Import ZArith Lia.
From stdpp Require Import prelude gmap.
From Verif Require Import Trace WorkQueue_Model Router_Model Gateway_Model.
Open Scope Z_scope.

Global Instance obs_eq_dec : EqDecision obs.
Proof. solve_decision. Defined.

(** * Histories *)
(** [reach cf h s]: the gateway, started with an empty database, is in state [s]
    after the events of [h]; [h] also records what was seen at each event. *)
Definition reach (cf : cfg) (h : list (event * list obs)) (s : gw) : Prop := exec (step cf) (gw_init cf) h s.
(** From state [s], the further events [h] lead to [s']. *)
Definition leads (cf : cfg) (s : gw) (h : list (event * list obs)) (s' : gw) : Prop := exec (step cf) s h s'.
(** All that was seen from outside, in order. *)
Definition seen (h : list (event * list obs)) : list obs := concat (map snd h).

Definition crash (e : event) : bool := match e with ERestart _ => true | _ => false end.
(** The history lies within one lifetime of the gateway process. *)
Definition one_life (h : list (event * list obs)) : Prop := forall e o, (e, o) ∈ h -> crash e = false.

(** The database never uses a primary key twice (PostgreSQL, MySQL, SQLite with
    AUTOINCREMENT). *)
Definition fresh_ids (cf : cfg) : Prop := exists fc fw : nat -> nat,
  (forall i j, fc i = fc j -> i = j) /\ (forall i j, fw i = fw j -> i = j) /\
  (forall k ids, alloc_c cf k ids = fc k) /\ (forall k ids, alloc_w cf k ids = fw k).
(** SQLite's rule for INTEGER PRIMARY KEY: one more than the largest key in use. *)
Definition max_plus_one (ids : gset nat) : nat := S (set_fold max 0%nat ids).
Definition sqlite_ids (cf : cfg) : Prop :=
  (forall k ids, alloc_c cf k ids = max_plus_one ids) /\ (forall k ids, alloc_w cf k ids = max_plus_one ids).
(** The keys do not matter as long as the process is not restarted. *)
Definition ids_ok (cf : cfg) (h : list (event * list obs)) : Prop := fresh_ids cf \/ one_life h.

(** * Records *)
(** finished: stopped or failed. *)
Definition finished (j : job) : Prop := j = STOPPED \/ j = FAILED.
(** The API reports status [p] for cluster [n]. *)
Definition reported (n : nat) (s : gw) (p : public) : Prop := get_cluster n s = Some (Some p).
(** pending < running < stopping < stopped, failed. *)
Definition rank (p : public) : nat :=
  match p with PPENDING => 0 | PRUNNING => 1 | PSTOPPING => 2 | PSTOPPED | PFAILED => 3 end.
Definition forward (p p' : public) : Prop := p = p' \/ (rank p < rank p')%nat.
(** Nothing is in line and no backend operation is being waited for. *)
Definition idle (s : gw) : Prop := queue (q s) = [] /\ busy s = ∅.
(** The worker [x] belongs to cluster [n]. *)
Definition worker_of (s : gw) (n : nat) (x : worker) : Prop := exists c, objs s !! n = Some c /\ x ∈ c_workers c.
(** A worker that was not told to end. *)
Definition wanted (x : worker) : bool := bool_decide (~ finished (w_target x)).
(** A worker that is gone, as its scheduler had announced. *)
Definition retired (x : worker) : bool := bool_decide (finished (w_status x)) && w_close x.
(** A worker the backend has not been heard of through the scheduler. *)
Definition starting (x : worker) : bool := bool_decide (w_status x = CREATED \/ w_status x = SUBMITTED).

(** * Backend operations *)
(** Reconciler [k] is waiting for a start / stop operation. *)
Definition starting_c (s : gw) (n : nat) : Prop := exists k, busy s !! k = Some (InStartCluster n).
Definition stopping_c (s : gw) (n : nat) : Prop := exists k, busy s !! k = Some (InStopCluster n).
Definition starting_w (s : gw) (n w : nat) : Prop := exists k, busy s !! k = Some (InStartWorker n w).
Definition stopping_w (s : gw) (n w : nat) : Prop := exists k, busy s !! k = Some (InStopWorker n w).
(** The state the start operation of cluster [n] / of worker [w] reported last
    (0, the empty state, if it reported none). *)
Definition last_cstate (n : nat) (l : list obs) : nat :=
  fold_left (fun st o => match o with OStateC m st' => if decide (m = n) then st' else st | _ => st end) l 0%nat.
Definition last_wstate (n w : nat) (l : list obs) : nat :=
  fold_left (fun st o => match o with OStateW m v st' => if decide (m = n /\ v = w) then st' else st | _ => st end) l 0%nat.
(** [l] contains the stop of the scheduler of cluster [n] with the state last
    reported, and no start and no report after it. *)
Definition stop_called_c (n : nat) (l : list obs) : Prop := exists l1 l2,
  l = l1 ++ OStopC n (last_cstate n l1) :: l2 /\ OStartC n ∉ l2 /\ forall st, OStateC n st ∉ l2.
(** The same for a worker; [bulk]: the stop of the cluster stops its workers. *)
Definition stop_called_w (bulk : bool) (n w : nat) (l : list obs) : Prop := exists l1 o l2,
  l = l1 ++ o :: l2 /\ (o = OStopW n w (last_wstate n w l1) \/ (bulk = true /\ exists st, o = OStopC n st)) /\
  OStartW n w ∉ l2 /\ forall st, OStateW n w st ∉ l2.
(** The gateway process died while it was waiting for the start of worker [w]. *)
Definition start_cut (cf : cfg) (n w : nat) (h : list (event * list obs)) : Prop := exists h1 now o h2 s,
  h = h1 ++ (ERestart now, o) :: h2 /\ reach cf h1 s /\ starting_w s n w.

(** * Heartbeats *)
(** The scheduler of cluster [n] never forgets a worker: whoever it reported as
    active or closing is in every later message. *)
Definition remembers (h : list (event * list obs)) (n : nat) (m : hbmsg) : Prop :=
  forall m0 now o w, (EHeartbeat n m0 now, o) ∈ h -> w ∈ m_active m0 \/ w ∈ m_closing m0 ->
  w ∈ m_active m \/ w ∈ m_closing m \/ w ∈ m_closed m.

(** Worker [x] is neither active nor closing according to message [m]. *)
Definition unreported (m : hbmsg) (x : worker) : bool := bool_decide (w_name x ∉ m_active m /\ w_name x ∉ m_closing m).
(** [h] contains no heartbeat of cluster [n]. *)
Definition no_heartbeat (n : nat) (h : list (event * list obs)) : Prop := forall m now o, (EHeartbeat n m now, o) ∉ h.

(** * Lookups *)
(** The three indexes describe the same set of clusters; no name twice, no user
    with an empty list. *)
Record indexes_agree (s : gw) : Prop := {
  ia_nodup : NoDup (by_name s);
  ia_name : forall n, n ∈ by_name s <-> is_Some (lookup_cluster n s);
  ia_id : forall id n, by_id s !! id = Some n <-> exists c, lookup_cluster n s = Some c /\ c_id c = id;
  ia_user : forall u n, n ∈ default [] (by_user s !! u) <-> exists c, lookup_cluster n s = Some c /\ r_user (c_row c) = u;
  ia_lists : forall u l, by_user s !! u = Some l -> NoDup l /\ l <> [] }.
(** Finished before [t]. *)
Definition ended_before (t : Z) (r : crow) : Prop := finished (r_status r) /\ exists t', r_stop r = Some t' /\ t' < t.
(** The record and the workers of [c'] are those of [c]. *)
Definition same_record (c c' : cluster) : Prop :=
  c_id c' = c_id c /\ c_row c' = c_row c /\ Permutation (c_workers c') (c_workers c).
(** There is work left for cluster [n] / for worker [w] of [n]. *)
Definition unfinished_item (s : gw) (x : nat * option nat) : Prop := exists c, lookup_cluster x.1 s = Some c /\
  match x.2 with
  | None => ~ finished (c_status c)
  | Some w => exists y, y ∈ c_workers c /\ w_name y = w /\ ~ finished (w_status y)
  end.

(** * Timeouts *)
Definition late_cluster (cf : cfg) (now : Z) (c : cluster) : Prop := c_target c = RUNNING /\
  ((c_status c = SUBMITTED /\ r_start (c_row c) + cstart_timeout cf < now) \/
   (c_status c = RUNNING /\ exists t, c_hb c = Some t /\ t + hb_timeout cf < now)).
Definition late_worker (cf : cfg) (now : Z) (c : cluster) (x : worker) : Prop :=
  c_target c = RUNNING /\ c_status c = RUNNING /\ ~ late_cluster cf now c /\
  w_status x = SUBMITTED /\ w_target x = RUNNING /\ w_start x + wstart_timeout cf < now.

(** * Worker start failures *)
(** How many worker starts of cluster [n] fail with event [e]: a start operation
    raises, or the backend answers that a submitted worker is gone. *)
Definition start_failures (s : gw) (e : event) (n : nat) : nat :=
  match e with
  | EBackend k Raises _ =>
      match busy s !! k with Some (InStartWorker m _) => if decide (m = n) then 1 else 0 | _ => 0 end
  | ECheckWorkersEnd (Some oks) =>
      match chk_w s with
      | Some ws => length (List.filter (fun p : nat * nat * bool => bool_decide (p.1.1 = n /\ p.2 = false)) (combine ws oks))
      | None => 0
      end
  | _ => 0
  end%nat.
(** [e] is a heartbeat of the live cluster [n] by which a worker that was being
    started is heard of. *)
Definition connects (s : gw) (e : event) (n : nat) : Prop := exists m now c x, e = EHeartbeat n m now /\
  lookup_cluster n s = Some c /\ c_target c = RUNNING /\ x ∈ c_workers c /\ starting x = true /\
  (w_name x ∈ m_active m \/ w_name x ∈ m_closing m).
(** With event [e] a reconciler takes item [x] from the work queue. *)
Definition takes (cf : cfg) (s : gw) (e : event) (x : item) : Prop := exists k now q',
  (e = EGet k now /\ (k < parallelism cf)%nat /\ busy s !! k = None /\ tasks (q s) !! k = None /\
     WorkQueue_Model.step (q s) (WorkQueue_Model.EGet k) = (q', Some (Returned k (Item x)))) \/
  (e = EWake k now /\ WorkQueue_Model.step (q s) (WorkQueue_Model.EResume k) = (q', Some (Returned k (Item x)))).
(** The gateway's own work, as opposed to requests and checks. *)
Definition own_work (e : event) : bool := match e with EGet _ _ | EWake _ _ | EBackend _ _ _ => true | _ => false end.
