(** The phases of a cluster on Kubernetes (S/backends/kubernetes/controller.py).  One
    cluster object: the API server keeps its versions, the controller sees them through
    its watch cache, which may lag behind but does not go back (C53), and reconciles
    the object one run at a time (C04).  What the other caches and the API answer is
    arbitrary.  Times are milliseconds.  Simplified: the answers of a run are given at
    once when it ends; names are derived from the cluster's name, so a status only says
    whether they are recorded; scaling (C50) is only its return value. *)
From Coq Require Import ZArith.
From stdpp Require Import list.
Local Open Scope Z_scope.

Inductive phase := Pending | Running | Stopped | Failed.
Inductive resource := Secret | Pod | Service | Route | RouteTCP.
Global Instance phase_dec : EqDecision phase. Proof. solve_decision. Defined.
Global Instance resource_dec : EqDecision resource. Proof. solve_decision. Defined.
(** The status of a DaskCluster object: phase, credentials, schedulerPod, service,
    ingressroute, ingressroutetcp, completionTime (in seconds). *)
Record status := Status { phase_ : option phase; secret : bool; pod_ : bool; service : bool; route : bool; routetcp : bool; completion : option Z }.
Global Instance status_dec : EqDecision status. Proof. solve_decision. Defined.
Definition status0 : status := Status None false false false false false None.
(** An object: spec.active, spec.replicas and the status, if any. *)
Record obj := Obj { active : bool; replicas : Z; stat : option status }.
(** status.get("phase", "Pending") (628). *)
Definition phase_of (st : status) : phase := default Pending (phase_ st).

(** A scheduler pod: its phase and the state of its container; get_container_state (50-61). *)
Inductive pphase := PPending | PRunning | PSucceeded | PFailed | PUnknown.
Inductive cstate := Waiting | Up | Terminated.
Record pod := MkPod { pphase_ : pphase; cs : option cstate }.
Inductive sstate := SWaiting | SRunning | STerminated | SUnknown.
Definition container_state (p : pod) : sstate :=
  match pphase_ p with
  | PPending => SWaiting
  | _ => match cs p with Some Waiting => SWaiting | Some Up => SRunning | Some Terminated => STerminated | None => SUnknown end
  end.

(** Answers of the API. *)
Inductive answer := Ok | Conflict | NotFound | Err.
Inductive obs :=
| OCreate (r : resource) (a : answer)
| ODelete (r : resource) (a : answer)
| OPatch (st : status) (applied : bool)      (* patch_cluster_status *)
| ODone (requeue : bool) | ORaised           (* how the run ended *)
| OExpired.                                  (* the cluster object is deleted *)
(** What a run meets: answers to creations and deletions, the scheduler pod in the
    cache, the pod the creation returns, the endpoints in the cache (ready or not),
    the time, and what scaling returns ([None]: it raises). *)
Record world := World { creating : resource -> answer; deleting : resource -> answer; seen_pod : option pod; new_pod : pod;
                        endpoints : option bool; now : Z; scaling : option bool }.
(** A computation with calls that may raise. *)
Definition io A := (list obs * option A)%type.
Definition ret {A} (a : A) : io A := ([], Some a).
Definition bind {A B} (x : io A) (f : A -> io B) : io B :=
  match snd x with Some a => let y := f a in (fst x ++ fst y, snd y) | None => (fst x, None) end.

(** create_*_if_not_exists (909-1032): 409 is fine. *)
Definition create (w : world) (r : resource) : io unit :=
  ([OCreate r (creating w r)], match creating w r with Ok | Conflict => Some tt | _ => None end).
(** create_scheduler_pod_if_not_exists (931-956): on 409 there is no pod yet. *)
Definition create_pod (w : world) : io (option pod) :=
  ([OCreate Pod (creating w Pod)], match creating w Pod with Ok => Some (Some (new_pod w)) | Conflict => Some None | _ => None end).
(** cleanup_cluster_resources (893-907): 404 is fine. *)
Definition del (w : world) (r : resource) (recorded : bool) : io unit :=
  if recorded then ([ODelete r (deleting w r)], match deleting w r with Ok | NotFound => Some tt | _ => None end) else ret tt.
Definition cleanup (w : world) (st : status) : io unit := bind (del w Pod (pod_ st)) (fun _ => del w Secret (secret st)).
(** k8s_timestamp (utils.py 22-24): whole seconds. *)
Definition set_phase (st : status) (p : phase) : status := Status (Some p) (secret st) (pod_ st) (service st) (route st) (routetcp st) (completion st).
Definition finish (w : world) (st : status) (p : phase) : status :=
  Status (Some p) (secret st) (pod_ st) (service st) (route st) (routetcp st) (Some (now w / 1000)).
Definition set_secret (st : status) := Status (phase_ st) true (pod_ st) (service st) (route st) (routetcp st) (completion st).
Definition set_pod (st : status) := Status (phase_ st) (secret st) true (service st) (route st) (routetcp st) (completion st).
Definition set_service (st : status) := Status (phase_ st) (secret st) (pod_ st) true (route st) (routetcp st) (completion st).
Definition set_route (st : status) := Status (phase_ st) (secret st) (pod_ st) (service st) true (routetcp st) (completion st).
Definition set_routetcp (st : status) := Status (phase_ st) (secret st) (pod_ st) (service st) (route st) true (completion st).
(** if not status.get(x): create it and record it. *)
Definition ensure (w : world) (r : resource) (have : bool) (put : status -> status) (st : status) : io status :=
  if have then ret st else bind (create w r) (fun _ => ret (put st)).

(** handle_pending_cluster (654-715); setdefault (659). *)
Definition handle_pending (w : world) (st0 : status) : io (status * bool) :=
  let st1 := set_phase st0 (phase_of st0) in
  bind (ensure w Secret (secret st1) set_secret st1) (fun st2 =>
  bind (if pod_ st2 then ret (seen_pod w, st2) else bind (create_pod w) (fun p => ret (p, set_pod st2))) (fun '(p, st3) =>
  match p with
  | None => ret (st3, false)
  | Some p =>
    match container_state p with
    | SRunning =>
      bind (ensure w Service (service st3) set_service st3) (fun st4 =>
      match endpoints w with
      | Some true =>
        bind (ensure w Route (route st4) set_route st4) (fun st5 =>
        bind (ensure w RouteTCP (routetcp st5) set_routetcp st5) (fun st6 => ret (set_phase st6 Running, false)))
      | _ => ret (st4, false)
      end)
    | STerminated => bind (cleanup w st3) (fun _ => ret (finish w st3 Failed, false))
    | _ => ret (st3, false)
    end
  end)).
(** handle_running_cluster (717-756). *)
Definition handle_running (w : world) (st : status) : io (status * bool) :=
  let state := if pod_ st then match seen_pod w with Some p => container_state p | None => STerminated end else STerminated in
  match state with
  | STerminated => bind (cleanup w st) (fun _ => ret (finish w st Failed, false))
  | SRunning => ([], match scaling w with Some b => Some (st, b) | None => None end)
  | _ => ret (st, false)
  end.
(** handle_cluster (621-652): status update, requeue; and the time under which the
    cluster is noted in stopped_clusters. *)
Definition handle_cluster (w : world) (o : obj) : io (option status * bool) * option Z :=
  let st := default status0 (stat o) in
  match phase_of st with
  | Stopped | Failed => (ret (None, false), Some (match completion st with Some t => t * 1000 | None => now w end))
  | p =>
    if negb (active o) then (bind (cleanup w st) (fun _ => ret (Some (finish w st Stopped), false)), None)
    else (bind (match p with Running => handle_running w st | _ => handle_pending w st end) (fun '(st', b) => ret (Some st', b)), None)
  end.

(** [versions] of the object on the server (never empty); [seen]: number of versions
    the cache has seen (0: it has not seen the object); the run in progress with its
    snapshot; stopped_clusters; whether the object is deleted. *)
Record state := State { versions : list obj; seen : nat; busy : option obj; noted : option Z; gone : bool }.
Definition init (o : obj) : state := State [o] 0 None None false.
Definition current (s : state) : obj := default (Obj true 0 None) (last (versions s)).
Definition cached (s : state) : option obj := match seen s with O => None | S n => versions s !! n end.
Inductive event :=
| EStop                                 (* stop_cluster: spec.active := False *)
| EScale (n : Z)                        (* a heartbeat: spec.replicas := n *)
| ECache (n : nat)                      (* the cache moves on by n versions *)
| EBegin                                (* reconcile_cluster starts *)
| EEnd (w : world) (applied ok : bool)  (* and ends; whether a patch is applied, and its answer *)
| ERestart                              (* the controller is restarted *)
| EExpire (t : Z).                      (* cleanup_expired_cluster_records_loop at time t *)

Definition write (s : state) (o : obj) : state := if gone s then s else State (versions s ++ [o]) (seen s) (busy s) (noted s) (gone s).
(** reconcile_cluster (607-619) from the snapshot on. *)
Definition ends (s : state) (o : obj) (w : world) (applied ok : bool) : state * list obs :=
  let '((os, r), note) := handle_cluster w o in
  let s1 := State (versions s) (seen s) None (match note with Some t => Some t | None => noted s end) (gone s) in
  match r with
  | None => (s1, os ++ [ORaised])
  | Some (None, b) => (s1, os ++ [ODone b])
  | Some (Some st, b) =>
    if decide (Some st = stat o) then (s1, os ++ [ODone b])
    else
      let applied := applied && negb (gone s) in
      let s2 := if applied then write s1 (Obj (active (current s1)) (replicas (current s1)) (Some st)) else s1 in
      (s2, os ++ [OPatch st applied; if applied && ok then ODone b else ORaised])
  end.
(** [max_age]: completed_cluster_max_age, in seconds. *)
Definition step (max_age : Z) (s : state) (e : event) : state * list obs :=
  match e with
  | EStop => (write s (Obj false (replicas (current s)) (stat (current s))), [])
  | EScale n => (write s (Obj (active (current s)) n (stat (current s))), [])
  | ECache n => (State (versions s) (Nat.min (seen s + n) (length (versions s))) (busy s) (noted s) (gone s), [])
  | EBegin => match busy s, cached s with None, Some o => (State (versions s) (seen s) (Some o) (noted s) (gone s), []) | _, _ => (s, []) end
  | EEnd w applied ok => match busy s with Some o => ends s o w applied ok | None => (s, []) end
  | ERestart => (State (versions s) (length (versions s)) None None (gone s), [])
  | EExpire t =>
    match noted s with
    | Some t0 => if t0 <=? t - max_age * 1000 then (State (versions s) (seen s) (busy s) (noted s) true, [OExpired]) else (s, [])
    | None => (s, [])
    end
  end.
