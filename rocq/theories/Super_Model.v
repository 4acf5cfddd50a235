(** The gateway and its proxy process: S/proxy/core.py 221-241 (start_proxy_process),
    243-265 (monitor_proxy_process), 267-275 (setup), 291-300 (_on_shutdown, cleanup), and
    G/cmd/dask-gateway-proxy/main.go 116-124 (awaitShutdown).
    S = dask-gateway-server/dask_gateway_server, G = dask-gateway-server/dask-gateway-proxy.
    Only for a proxy that is not managed externally.  Time is in half seconds, and a sleep
    of the monitor takes exactly its time.  Processes are numbered; a number stands for a
    Popen object with its process, so numbers are not used twice.  A process may end at any
    time, for any reason. *)
From Coq Require Import ZArith List.
From stdpp Require Import prelude gmap.
Local Open Scope Z_scope.

(** The monitor: when its sleep is over, and the backoff. *)
Record monitor := Monitor { m_due : Z; m_backoff : Z }.
(** [procs]: the processes ever started, and which of them are alive; [cur]:
    self.proxy_process; [mon]: the task, while it runs. *)
Record state := State { now : Z; procs : gmap nat bool; cur : option nat; mon : option monitor; up : bool }.
Definition init (t : Z) : state := State t ∅ None None true.

(** [spawned]: the process that Popen made, or None if start_proxy_process raised. *)
Inductive event :=
| ESetup (spawned : option nat)
| ETime (d : Z)                       (* time passes *)
| EExit (p : nat)                     (* a proxy process ends *)
| ECheck (spawned : option nat)       (* the monitor wakes up; [spawned] is used only if it starts the proxy *)
| EClose                              (* _on_shutdown: the monitor is cancelled *)
| ECleanup                            (* cleanup *)
| ECrash.                             (* the gateway process is gone *)
(** Started, start failed, SIGTERM sent, end of file on its standard input. *)
Inductive obs := OStart (t : Z) (p : nat) | OFailed (t : Z) | OTerm (t : Z) (p : nat) | OEof (t : Z) (p : nat).

Definition alive (s : state) (p : nat) : bool := match procs s !! p with Some b => b | None => false end.
Definition default_backoff : Z := 1.  (* 0.5 s *)
Definition max_backoff : Z := 30.     (* 15 s *)
(** 246-247: poll() of the current process says that it has ended. *)
Definition exited (s : state) : bool := match cur s with Some p => negb (alive s p) | None => false end.
(** start_proxy_process (221-234); a number that is in use is refused. *)
Definition start (s : state) (spawned : option nat) : option (state * list obs) :=
  match spawned with
  | Some p => match procs s !! p with
              | None => Some (State (now s) (<[p := true]> (procs s)) (Some p) (mon s) (up s), [OStart (now s) p])
              | Some _ => None
              end
  | None => Some (s, [OFailed (now s)])
  end.
Definition set_mon (s : state) (m : option monitor) : state := State (now s) (procs s) (cur s) m (up s).
Definition kill_mon (s : state) : state := set_mon s None.

(** setup (273-275), monitor_proxy_process (243-265), _on_shutdown (291-293), cleanup (295-300),
    awaitShutdown (116-124).  [period]: proxy_status_period. *)
Definition step (period : Z) (s : state) (e : event) : state * list obs :=
  if negb (up s) then
    (* the gateway is gone; only the processes go on *)
    match e with
    | ETime d => if 0 <? d then (State (now s + d) (procs s) (cur s) (mon s) (up s), []) else (s, [])
    | EExit p => if alive s p then (State (now s) (<[p := false]> (procs s)) (cur s) (mon s) (up s), []) else (s, [])
    | _ => (s, [])
    end
  else
  match e with
  | ESetup spawned =>
      match cur s, mon s with
      | None, None =>
          match start s spawned with
          | None => (s, [])
          (* if it raised, setup raises, and no task is spawned *)
          | Some (s', o) => (match spawned with Some _ => set_mon s' (Some (Monitor (now s) default_backoff)) | None => s' end, o)
          end
      | _, _ => (s, [])
      end
  | ETime d =>
      if (0 <? d) && match mon s with Some m => now s + d <=? m_due m | None => true end
      then (State (now s + d) (procs s) (cur s) (mon s) (up s), []) else (s, [])
  | EExit p => if alive s p then (State (now s) (<[p := false]> (procs s)) (cur s) (mon s) (up s), []) else (s, [])
  | ECheck spawned =>
      match mon s with
      | Some m =>
          if now s =? m_due m then
            if exited s then
              match start s spawned, spawned with
              | None, _ => (s, [])
              | Some (s', o), None => (set_mon s' (Some (Monitor (now s + m_backoff m) (Z.min (m_backoff m * 2) max_backoff))), o)
              | Some (s', o), Some _ => (set_mon s' (Some (Monitor (now s + period) default_backoff)), o)
              end
            else (set_mon s (Some (Monitor (now s + period) default_backoff)), [])
          else (s, [])
      | None => (s, [])
      end
  | EClose => (kill_mon s, [])
  | ECleanup => (kill_mon s, match cur s with Some p => if alive s p then [OTerm (now s) p] else [] | None => [] end)
  | ECrash => (State (now s) (procs s) (cur s) None false,
               map (OEof (now s)) (filter (fun p => alive s p = true) (map fst (map_to_list (procs s)))))
  end.
