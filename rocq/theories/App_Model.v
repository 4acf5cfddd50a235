(** The life of the gateway process: S/app.py 193-262 (setup, cleanup, start, main),
    S/utils.py 293-315 (run_main), S/backends/db_base.py 822-905 (setup, cleanup of the
    backend) and 1158-1252, 1275-1299 (a reconciler's turn), S/backends/base.py 150, 156,
    S/backends/yarn.py 191-227, S/backends/inprocess.py 37-39, S/proxy/core.py 267-300.
    S = dask-gateway-server/dask_gateway_server.

    Main is a list of instructions, executed one after the other; while it is suspended at
    one, signals are delivered, requests served and reconcilers run.  Simplified: a turn of
    a reconciler is one step (calls that are under way are awaited at 898), a cluster is
    closed and stopped in one turn, and workers, heartbeats and checks are left out
    (Gateway_Model has them).  Not for the Kubernetes backend. *)
From Coq Require Import ZArith.
From stdpp Require Import prelude gmap.

(** app.py 199-220 with db_base.py 823-861. *)
Inductive instr :=
| IAuth            (* authenticator.setup *)
| ISession         (* base.py 150 *)
| IReconcilers     (* 826-834 *)
| IProxy           (* 837-838 *)
| IDb              (* 841-843 *)
| ILoad            (* 846-858 *)
| IBackend         (* do_setup, 861 *)
| IRunner          (* AppRunner, runner.setup *)
| ISite.           (* site.start *)
Definition setup_prog : list instr := [IAuth; ISession; IReconcilers; IProxy; IDb; ILoad; IBackend; IRunner; ISite].
(** app.py 222-235 with db_base.py 868-905. *)
Inductive kinstr :=
| KRunner          (* runner.cleanup, 224-225 *)
| KTasks           (* 868-870 *)
| KStop            (* 872-882 *)
| KWait            (* 885-893 *)
| KReconcilers     (* 896-898 *)
| KBackend         (* do_cleanup, 900 *)
| KProxy           (* 902-903 *)
| KSession         (* base.py 156 *)
| KAuth.           (* authenticator.cleanup, app.py 232-233 *)
Definition cleanup_prog : list kinstr := [KRunner; KTasks; KStop; KWait; KReconcilers; KBackend; KProxy; KSession; KAuth].
(** Where main is; [code]: the exit code that is to come. *)
Inductive place := Setup (l : list instr) | Serving | Cleanup (code : Z) (l : list kinstr) | Exited (code : Z).

(** A cluster's record: its status (Submitted stands for everything in between), whether
    its target is to run, and whether the id of its application is recorded. *)
Inductive status := Created | Submitted | Closed.
Record cluster := Cl { c_st : status; c_wanted : bool; c_app : bool }.
(** What has been made and not been released; [ready]: what do_setup makes exists;
    [queued]: keys in the work queue; [apps]: applications that run. *)
Record state := State {
  at_ : place; session : bool; auth : bool; reconcilers : bool; proxy : bool; proc : bool;
  db : bool; tasks : bool; ready : bool; runner : bool; listening : bool;
  clusters : gmap nat cluster; queued : gset nat; apps : gset nat }.
Definition init (cs : gmap nat cluster) (a : gset nat) : state :=
  State (Setup setup_prog) false false false false false false false false false false cs ∅ a.

(** The backend: whether do_setup suspends (and can raise), and whether the operations, and
    do_cleanup, use what it makes: YARN, in-process, and the others.  [stop_flag]:
    stop_clusters_on_shutdown; [external]: externally_managed. *)
Record config := Config { suspends : bool; ops_need : bool; cleanup_needs : bool; stop_flag : bool; external : bool }.
Definition yarn (stop ext : bool) : config := Config true true true stop ext.
Definition inprocess (stop ext : bool) : config := Config false true false stop ext.
Definition others (stop ext : bool) : config := Config false false false stop ext.

Inductive event :=
| EMain (ok : bool)          (* main's instruction is done, or has raised *)
| ESignal                    (* SIGTERM or SIGINT *)
| ETurn (n : nat) (ok : bool)(* a reconciler takes cluster n; whether the backend's call works *)
| ECreate (n : nat)          (* a request to start a cluster *)
| EStop (n : nat)            (* a request to stop a cluster *)
| EDie (n : nat).            (* an application ends by itself *)
Inductive out :=
| OStart (n : nat) (is_ready : bool)   (* do_start_cluster is called *)
| OStop (n : nat) (is_ready : bool)    (* do_stop_cluster is called *)
| OTerm                      (* the proxy process is told to end *)
| OCleanup                   (* do_cleanup is called *)
| OServe                     (* "Dask-Gateway server started" *)
| OStopped                   (* "Stopped successfully" *)
| OExit (code : Z).

Definition set_place p s := State p (session s) (auth s) (reconcilers s) (proxy s) (proc s) (db s) (tasks s) (ready s) (runner s) (listening s) (clusters s) (queued s) (apps s).
Definition set_session v s := State (at_ s) v (auth s) (reconcilers s) (proxy s) (proc s) (db s) (tasks s) (ready s) (runner s) (listening s) (clusters s) (queued s) (apps s).
Definition set_auth v s := State (at_ s) (session s) v (reconcilers s) (proxy s) (proc s) (db s) (tasks s) (ready s) (runner s) (listening s) (clusters s) (queued s) (apps s).
Definition set_reconcilers v s := State (at_ s) (session s) (auth s) v (proxy s) (proc s) (db s) (tasks s) (ready s) (runner s) (listening s) (clusters s) (queued s) (apps s).
Definition set_proxy v w s := State (at_ s) (session s) (auth s) (reconcilers s) v w (db s) (tasks s) (ready s) (runner s) (listening s) (clusters s) (queued s) (apps s).
Definition set_db v s := State (at_ s) (session s) (auth s) (reconcilers s) (proxy s) (proc s) v (tasks s) (ready s) (runner s) (listening s) (clusters s) (queued s) (apps s).
Definition set_tasks v s := State (at_ s) (session s) (auth s) (reconcilers s) (proxy s) (proc s) (db s) v (ready s) (runner s) (listening s) (clusters s) (queued s) (apps s).
Definition set_ready v s := State (at_ s) (session s) (auth s) (reconcilers s) (proxy s) (proc s) (db s) (tasks s) v (runner s) (listening s) (clusters s) (queued s) (apps s).
Definition set_runner v w s := State (at_ s) (session s) (auth s) (reconcilers s) (proxy s) (proc s) (db s) (tasks s) (ready s) v w (clusters s) (queued s) (apps s).
Definition set_clusters c q a s := State (at_ s) (session s) (auth s) (reconcilers s) (proxy s) (proc s) (db s) (tasks s) (ready s) (runner s) (listening s) c q a.

(** The clusters that are not closed (835-858, 885-889). *)
Definition is_open (c : cluster) : bool := match c_st c with Closed => false | _ => true end.
Definition open_keys (s : state) : gset nat := dom (filter (fun x => is_open (snd x) = true) (clusters s)).
Definition all_closed (s : state) : bool := bool_decide (filter (fun x => is_open (snd x) = true) (clusters s) = ∅).

(** One instruction of setup.  None: it raised, with what it had done before.  That
    ISession, IReconcilers and ILoad raise is left out; do_setup raises only if it asks
    somebody else. *)
Definition exec_instr (cf : config) (i : instr) (ok : bool) (s : state) : state * bool :=
  match i with
  | IAuth => (set_auth true s, ok)
  | ISession => (set_session true s, true)
  | IReconcilers => (set_reconcilers true s, true)
  | IProxy => (set_proxy true (ok && negb (external cf)) s, ok)
  | IDb => (if ok then set_db true s else s, ok)
  | ILoad => (set_tasks true (set_clusters (clusters s) (open_keys s) (apps s) s), true)
  | IBackend => if ok || negb (suspends cf) then (set_ready true s, true) else (s, false)
  | IRunner => (set_runner true false s, ok)
  | ISite => (if ok then set_runner true true s else s, ok)
  end.
(** One instruction of cleanup: None: not yet (KWait).  [false]: it raised. *)
Definition exec_kinstr (cf : config) (k : kinstr) (ok : bool) (s : state) : option (state * list out * bool) :=
  match k with
  | KRunner => Some (set_runner false false s, [], if runner s then ok else true)
  | KTasks => Some (set_tasks false s, [], true)
  | KStop => Some (if db s && stop_flag cf then
                     set_clusters ((fun c => if is_open c then Cl (c_st c) false (c_app c) else c) <$> clusters s) (queued s ∪ open_keys s) (apps s) s
                   else s, [], true)
  | KWait => if db s && stop_flag cf && negb (all_closed s) then None else Some (s, [], true)
  | KReconcilers => Some (set_reconcilers false s, [], true)
  | KBackend => if cleanup_needs cf && negb (ready s) then Some (s, [], false)
                else Some (s, [OCleanup], ok)
  | KProxy => Some (set_proxy (proxy s) false s, if proc s then [OTerm] else [], true)
  | KSession => if session s then Some (set_session false s, [], true) else Some (s, [], false)
  | KAuth => Some (set_auth false s, [], true)
  end.
(** Whether main can be suspended here. *)
Definition suspended (cf : config) (s : state) : bool :=
  match at_ s with
  | Setup (IBackend :: _) => suspends cf
  | Setup (IRunner :: _) | Setup (ISite :: _) => true
  | Setup _ => false
  | Serving => true
  | Cleanup _ (KStop :: _) => false
  | Cleanup _ _ => true
  | Exited _ => false
  end.
(** A reconciler's turn with cluster [n] (reconcile_cluster, _cluster_to_submitted,
    _cluster_to_closing, _cluster_to_stopped).  yarn.py: do_start_cluster (205-214) and
    do_stop_cluster (216-224) use self.skein_client; the latter only if the id of the
    application is recorded.  Exceptions: a start fails the cluster (1240-1252), a stop is
    taken for done (1278-1281). *)
Definition turn (cf : config) (n : nat) (c : cluster) (ok : bool) (s : state) : state * list out :=
  let works := ok && (ready s || negb (ops_need cf)) in
  let q := queued s ∖ {[n]} in
  match c_st c with
  | Closed => (set_clusters (clusters s) q (apps s) s, [])
  | st =>
      if negb (c_wanted c) then
        (set_clusters (<[n := Cl Closed false (c_app c)]> (clusters s)) q (if c_app c && works then apps s ∖ {[n]} else apps s) s, [OStop n (ready s)])
      else match st with
           | Created =>
               if works then (set_clusters (<[n := Cl Submitted true true]> (clusters s)) q (apps s ∪ {[n]}) s, [OStart n (ready s)])
               else (set_clusters (<[n := Cl Submitted false false]> (clusters s)) (q ∪ {[n]}) (apps s) s, [OStart n (ready s)])
           | _ => (set_clusters (clusters s) q (apps s) s, [])
           end
  end.
Definition step (cf : config) (s : state) (e : event) : state * list out :=
  match e with
  | EMain ok =>
      match at_ s with
      | Setup (i :: l) =>
          let '(s', done) := exec_instr cf i ok s in
          if done then match l with [] => (set_place Serving s', [OServe]) | _ => (set_place (Setup l) s', []) end
          else (set_place (Cleanup 1 cleanup_prog) s', [])
      | Cleanup code (k :: l) =>
          match exec_kinstr cf k ok s with
          | None => (s, [])
          | Some (s', o, true) => match l with [] => (set_place (Exited code) s', o ++ [OStopped; OExit code]) | _ => (set_place (Cleanup code l) s', o) end
          | Some (s', o, false) => (set_place (Exited code) s', o ++ [OExit code])   (* app.py 259-262 *)
          end
      | _ => (s, [])
      end
  | ESignal =>
      if suspended cf s then
        match at_ s with
        | Setup _ | Serving => (set_place (Cleanup 0 cleanup_prog) s, [])
        | Cleanup _ _ => (set_place (Exited 0) s, [OExit 0])
        | Exited _ => (s, [])
        end
      else (s, [])
  | ETurn n ok =>
      if suspended cf s && reconcilers s && db s && bool_decide (n ∈ queued s) then
        match clusters s !! n with Some c => turn cf n c ok s | None => (s, []) end
      else (s, [])
  | ECreate n =>
      if listening s && bool_decide (clusters s !! n = None) && bool_decide (n ∉ apps s) && suspended cf s then
        (set_clusters (<[n := Cl Created true false]> (clusters s)) (queued s ∪ {[n]}) (apps s) s, [])
      else (s, [])
  | EStop n =>
      if listening s && suspended cf s then
        match clusters s !! n with
        | Some c => if is_open c then (set_clusters (<[n := Cl (c_st c) false (c_app c)]> (clusters s)) (queued s ∪ {[n]}) (apps s) s, []) else (s, [])
        | None => (s, [])
        end
      else (s, [])
  | EDie n => (set_clusters (clusters s) (queued s) (apps s ∖ {[n]}) s, [])
  end.
