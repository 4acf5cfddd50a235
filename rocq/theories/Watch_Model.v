(** Requests that watch the routes, and their end at shutdown: routes_handler with ?watch
    (S/proxy/core.py 367-413), _append_event (305-318), _events_after (358-365),
    _on_shutdown (291-293); CancelGroup and _cancel_context (S/utils.py 38-78).

    S = dask-gateway-server/dask_gateway_server.
    Simplifications: the answer of a request is a sequence of batches of events (what they
    say, and that none is left out, is ProxyLog_Model); a request is a task of its own
    (aiohttp handles the requests of one connection one after the other in one task);
    task_pool.close(), which comes before cg.cancel(), is Super_Model.  A task that was
    cancelled gets CancelledError at its next turn, wherever it waits. *)
From Coq Require Import ZArith Lia.
From stdpp Require Import gmap list.
Open Scope Z_scope.

(** Where a request is: in response.prepare (402), in queue.get (406), in response.write
    (408). *)
Inductive place := Preparing | Getting | Writing.
Record request := { where_ : place; cancelled : bool }.
(** [queues]: self._watchers, each with the batches in it; [group]: cg.tasks, [closed]:
    cg.cancelled, [joining]: the tasks that cg.cancel() waits for; [events], [offset],
    [next]: the log; [born] numbers the requests. *)
Record state := { requests : gmap positive request; queues : gmap positive (list (list Z)); group : gset positive; closed : bool; joining : option (gset positive); events : list Z; offset : Z; next : Z; born : positive }.
Definition init : state := {| requests := ∅; queues := ∅; group := ∅; closed := false; joining := None; events := []; offset := 0; next := 1; born := 1%positive |}.

Inductive event :=
| Open (last_id : Z)                  (** a request arrives *)
| Turn (r : positive) (ok : bool)     (** what the request waits for is there, or raises *)
| Append                              (** a route changes *)
| Shutdown                            (** aiohttp calls _on_shutdown *)
| Join.                               (** the gather of cg.cancel() *)
(** What is seen of it: a request is accepted, told to fetch all routes, gets to its loop,
    sends a batch, ends; _on_shutdown returns, or raises. *)
Inductive output := Accepted (r : positive) | Gone (r : positive) | Streams (r : positive) | Sends (r : positive) (b : list Z) | Ended (r : positive) | Stopped | Raised.

Definition set_requests f s := {| requests := f (requests s); queues := queues s; group := group s; closed := closed s; joining := joining s; events := events s; offset := offset s; next := next s; born := born s |}.
Definition set_queues f s := {| requests := requests s; queues := f (queues s); group := group s; closed := closed s; joining := joining s; events := events s; offset := offset s; next := next s; born := born s |}.
Definition set_group f s := {| requests := requests s; queues := queues s; group := f (group s); closed := closed s; joining := joining s; events := events s; offset := offset s; next := next s; born := born s |}.
Definition set_cancel c j s := {| requests := requests s; queues := queues s; group := group s; closed := c; joining := j; events := events s; offset := offset s; next := next s; born := born s |}.

(** _events_after (358-365). *)
Definition events_after (s : state) (last_id : Z) : option (list Z) :=
  let index := last_id - offset s in if 0 <=? index then Some (drop (Z.to_nat index) (events s)) else None.
(** _append_event (305-318): the event is put into every queue. *)
Definition append_event (max_events : Z) (s : state) : state :=
  let n := if max_events <=? Z.of_nat (length (events s)) then Z.to_nat (max_events / 2) else 0%nat in
  {| requests := requests s; queues := (fun q => q ++ [[next s]]) <$> queues s; group := group s; closed := closed s; joining := joining s;
     events := drop n (events s) ++ [next s]; offset := offset s + Z.of_nat n; next := next s + 1; born := born s |}.

(** The request is over: __aexit__ (75-78) if it was in the loop, then the finally (409-410). *)
Definition finish (r : positive) (s : state) : state * list output :=
  (set_queues (delete r) (set_group (fun g => g ∖ {[r]}) (set_requests (delete r) s)), [Ended r]).
(** while True (405-408): get a batch and begin to write it, or wait. *)
Definition loop (r : positive) (s : state) : state * list output :=
  match queues s !! r with
  | Some (b :: q) => (set_queues <[r := q]> (set_requests <[r := {| where_ := Writing; cancelled := false |}]> s), [Sends r b])
  | _ => (set_requests <[r := {| where_ := Getting; cancelled := false |}]> s, [])
  end.
(** __aenter__ (66-73), then the loop. *)
Definition enter (r : positive) (s : state) : state * list output :=
  if closed s then finish r s
  else let '(s, o) := loop r (set_group (fun g => {[r]} ∪ g) s) in (s, Streams r :: o).
(** A turn of the request: exceptions and cancellation end it. *)
Definition turn (r : positive) (ok : bool) (s : state) : state * list output :=
  match requests s !! r with
  | None => (s, [])
  | Some q =>
      if negb ok || cancelled q then finish r s
      else match where_ q with Preparing => enter r s | Getting | Writing => loop r s end
  end.
(** routes_handler up to prepare (383-402). *)
Definition set_born s := {| requests := requests s; queues := queues s; group := group s; closed := closed s; joining := joining s; events := events s; offset := offset s; next := next s; born := Pos.succ (born s) |}.
Definition open (last_id : Z) (s : state) : state * list output :=
  let r := born s in
  match events_after s last_id with
  | None => (set_born s, [Gone r])
  | Some es => (set_queues <[r := match es with [] => [] | _ => [es] end]> (set_requests <[r := {| where_ := Preparing; cancelled := false |}]> (set_born s)), [Accepted r])
  end.
(** CancelGroup.cancel (46-54), in two parts: up to the gather, and after it. *)
Definition mark (g : gset positive) (m : gmap positive request) : gmap positive request :=
  map_imap (fun r q => Some (if bool_decide (r ∈ g) then {| where_ := where_ q; cancelled := true |} else q)) m.
Definition shutdown (s : state) : state * list output :=
  if closed s then (s, [Raised])
  else (set_cancel true (Some (group s)) (set_requests (mark (group s)) s), []).
Definition join (s : state) : state * list output :=
  match joining s with
  | Some g => if bool_decide (set_Forall (fun r => requests s !! r = None) g) then (set_cancel (closed s) None (set_group (fun _ => ∅) s), [Stopped]) else (s, [])
  | None => (s, [])
  end.
Definition step (max_events : Z) (s : state) (e : event) : state * list output :=
  match e with
  | Open last_id => open last_id s
  | Turn r ok => turn r ok s
  | Append => (append_event max_events s, [])
  | Shutdown => shutdown s
  | Join => join s
  end.
