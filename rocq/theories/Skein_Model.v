(** The YARN backend's dealings with its applications: S/backends/yarn.py 109-130
    (_get_security, _get_app_client with its two caches), 205-214 (do_start_cluster), 216-224
    (do_stop_cluster), 239-260 (do_start_worker, do_stop_worker), 262-271 (the client used by
    do_check_workers), and S/utils.py 247-273 (LRUCache, Util_Model).

    S = dask-gateway-server/dask_gateway_server.
    Skein and YARN, dependencies, are modelled from their documentation: an application gets an
    id when it is submitted, and an address when it runs, which it keeps until it ends and which
    may then be given to another; containers are numbered by each application from 0; an
    application answers those who have its credentials only, and the client accepts no other
    either (TLS both ways).  A call is begun in the event loop and takes effect later, in a
    thread ([Perform]); if the application is not there by then it raises, and nothing happens.
    Simplified: names, credentials and addresses are numbers; a worker is begun at most once
    (C24) and so is a cluster; _get_app_client is one step (it has no await); the timeouts of
    the starts (db_base.py 1254, and in _worker_to_submitted) are [recorded = false]: the thread
    is not stopped by them, its result is not recorded. *)
From Coq Require Import ZArith.
From stdpp Require Import prelude.
From Verif Require Import Router_Model ProxyLog_Model Util_Model.
Local Open Scope nat_scope.

(** * YARN *)
Inductive app_state := Accepted | Running (addr : nat) | Ended.
(** An application: the cluster it was submitted for (its specification), credentials,
    state, and the worker of each container with whether it is running. *)
Record app := App { a_cluster : nat; a_cred : nat; a_state : app_state; a_containers : list (nat * bool) }.
Definition set_state (x : app_state) (a : app) : app := App (a_cluster a) (a_cred a) x (a_containers a).

(** * The gateway *)
(** skein.ApplicationClient (128): address, application id, security. *)
Record client := Client { c_addr : nat; c_app : nat; c_cred : nat }.
Inductive call := Add (w : nat) (record : bool) | Kill (w c : nat).
(** [y_db]: credentials and state["app_id"] of each cluster; [y_workers]: cluster and
    state["container_id"] of each worker; [y_clients], [y_addrs]: the caches (199-200);
    [y_calls]: the calls in threads, in the order they were made ([None]: done). *)
Record state := State { y_apps : list app; y_db : list (nat * (nat * option nat)); y_workers : list (nat * (nat * option nat));
  y_clients : cache nat client; y_addrs : list (nat * nat); y_calls : list (option (client * call)) }.
Definition init : state := State [] [] [] [] [] [].

Inductive event :=
| StartCluster (n cred : nat) (recorded : bool)     (* 205-214 *)
| AppRuns (a addr : nat) | AppEnds (a : nat)         (* YARN *)
| StopCluster (n : nat) (ok : bool)                  (* 216-224; [ok]: kill_application does not raise *)
| StartWorker (n w : nat) (recorded : bool)          (* 239-249 *)
| StopWorker (w : nat)                               (* 251-260 *)
| CheckWorkers (n : nat)                             (* 262-271, for one cluster *)
| Perform (i : nat)                                  (* a thread *)
| Restart.                                           (* do_setup, 191-200 *)
(** What happens in YARN. *)
Inductive effect := Submitted (a : nat) | KilledApp (a : nat) | Added (a w : nat) | Killed (a c : nat).

(** _get_app_client (115-130).  [None]: an exception. *)
Definition get_client (max_size : nat) (n : nat) (s : state) : state * option client :=
  let '(cache, out) := lru_get n (y_clients s) in
  let s := State (y_apps s) (y_db s) (y_workers s) cache (y_addrs s) (y_calls s) in
  match out with
  | Some x => (s, Some x)
  | None =>
      match dget n (y_db s) with
      | Some (cred, Some a) =>
          let found := match dget n (y_addrs s) with
                       | Some addr => Some (y_addrs s, addr)
                       | None => match y_apps s !! a with
                                 | Some (App _ _ (Running addr) _) => Some (dset n addr (y_addrs s), addr)
                                 | _ => None
                                 end
                       end in
          match found with
          | Some (addrs, addr) =>
              let x := Client addr a cred in
              (State (y_apps s) (y_db s) (y_workers s) (fst (lru_put max_size n x (y_clients s))) addrs (y_calls s), Some x)
          | None => (s, None)
          end
      | _ => (s, None)
      end
  end.
(** Who answers a client. *)
Definition answering (x : client) (a : app) : bool := match a_state a with Running addr => bool_decide (addr = c_addr x) && bool_decide (a_cred a = c_cred x) | _ => false end.
Fixpoint find_app (x : client) (i : nat) (l : list app) : option (nat * app) :=
  match l with [] => None | a :: l => if answering x a then Some (i, a) else find_app x (S i) l end.
Definition put_app (s : state) (i : nat) (a : app) : state := State (<[i := a]> (y_apps s)) (y_db s) (y_workers s) (y_clients s) (y_addrs s) (y_calls s).
Definition make_call (s : state) (x : client) (c : call) : state := State (y_apps s) (y_db s) (y_workers s) (y_clients s) (y_addrs s) (y_calls s ++ [Some (x, c)]).
Definition perform (s : state) (x : client) (c : call) : state * list effect :=
  match find_app x 0 (y_apps s) with
  | None => (s, [])
  | Some (i, a) =>
      match c with
      | Add w record =>
          let s' := put_app s i (App (a_cluster a) (a_cred a) (a_state a) (a_containers a ++ [(w, true)])) in
          let ws := match dget w (y_workers s) with
                    | Some (n, _) => if record then dset w (n, Some (length (a_containers a))) (y_workers s) else y_workers s
                    | None => y_workers s
                    end in
          (State (y_apps s') (y_db s) ws (y_clients s) (y_addrs s) (y_calls s), [Added i w])
      | Kill w c =>
          match a_containers a !! c with
          | Some (v, true) => (put_app s i (App (a_cluster a) (a_cred a) (a_state a) (<[c := (v, false)]> (a_containers a))), [Killed i c])
          | _ => (s, [])                      (* ValueError, passed over at 259 *)
          end
      end
  end.
Definition in_use (addr : nat) (l : list app) : bool := existsb (fun a => match a_state a with Running x => bool_decide (x = addr) | _ => false end) l.
Definition step (max_size : nat) (s : state) (e : event) : state * list effect :=
  match e with
  | StartCluster n cred rec =>
      if decide (is_Some (dget n (y_db s)) \/ cred ∈ map (fun x => fst (snd x)) (y_db s)) then (s, [])      (* names and credentials are new *)
      else let a := length (y_apps s) in
           (State (y_apps s ++ [App n cred Accepted []]) (dset n (cred, if rec then Some a else None) (y_db s)) (y_workers s) (y_clients s) (y_addrs s) (y_calls s), [Submitted a])
  | AppRuns i addr =>
      match y_apps s !! i with
      | Some a => match a_state a with
                  | Accepted => if in_use addr (y_apps s) then (s, []) else (put_app s i (set_state (Running addr) a), [])
                  | _ => (s, [])
                  end
      | None => (s, [])
      end
  | AppEnds i => match y_apps s !! i with Some a => (put_app s i (set_state Ended a), []) | None => (s, []) end
  | StopCluster n ok =>
      match dget n (y_db s) with
      | Some (_, Some i) =>
          if ok then
            let s' := match y_apps s !! i with Some a => put_app s i (set_state Ended a) | None => s end in
            (State (y_apps s') (y_db s) (y_workers s) (lru_discard n (y_clients s)) (ddel n (y_addrs s)) (y_calls s), [KilledApp i])
          else (s, [])
      | _ => (s, [])
      end
  | StartWorker n w rec =>
      match dget n (y_db s), dget w (y_workers s) with
      | Some _, None =>
          let s := State (y_apps s) (y_db s) (dset w (n, None) (y_workers s)) (y_clients s) (y_addrs s) (y_calls s) in
          let '(s, x) := get_client max_size n s in
          (match x with Some x => make_call s x (Add w rec) | None => s end, [])
      | _, _ => (s, [])
      end
  | StopWorker w =>
      match dget w (y_workers s) with
      | Some (n, Some c) =>
          let '(s, x) := get_client max_size n s in
          (match x with Some x => make_call s x (Kill w c) | None => s end, [])
      | _ => (s, [])
      end
  | CheckWorkers n => (fst (get_client max_size n s), [])
  | Perform i =>
      match y_calls s !! i with
      | Some (Some (x, c)) =>
          let s := State (y_apps s) (y_db s) (y_workers s) (y_clients s) (y_addrs s) (<[i := None]> (y_calls s)) in
          perform s x c
      | _ => (s, [])
      end
  | Restart => (State (y_apps s) (y_db s) (y_workers s) [] [] [], [])
  end.
Definition run (max_size : nat) (es : list event) : state := foldl (fun s e => fst (step max_size s e)) init es.
