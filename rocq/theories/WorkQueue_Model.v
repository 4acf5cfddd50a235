(** Model of dask-gateway-server/dask_gateway_server/workqueue.py (whole file).

    Simplifications, valid for the whole file:
    - loop times and delays are integers in an arbitrary unit (Python: floats);
    - the item type is any countable type (Python: hashable objects);
    - a [get] call is identified by a number; its current waiter future is
      identified with the call, since a call awaits one future at a time and a
      future leaves [_waiting] when it is resolved;
    - the asyncio loop is the environment: which enabled step comes next is an
      arbitrary choice (an event), steps are atomic between awaits. *)
From stdpp Require Import base list gmap sets fin_maps.
From Coq Require Import ZArith.

Section model.
Context {A : Type} `{Countable A}.

(** State of a [get] call suspended at line 155 [await waiter]:
    [Blocked]: the future is pending; [Woken]: [set_result] was called but the
    coroutine has not run yet; [Cancelling]: the task was cancelled (task.cancel())
    and CancelledError will be raised when it runs. *)
Inductive cstate := Blocked | Woken | Cancelling.
Global Instance cstate_eq_dec : EqDecision cstate.
Proof. solve_decision. Defined.

(** WorkQueue.__init__ (workqueue.py:59-67) and Backoff.__init__ (17-20). *)
Record wq := WQ {
  base_delay : Z;            (* 19 *)
  max_delay : Z;             (* 20 *)
  failures_ : gmap A nat;    (* 18, defaultdict(int) *)
  waiting : list nat;        (* 62 *)
  queue : list A;            (* 63 *)
  processing : gset A;       (* 64 *)
  dirty : gset A;            (* 65 *)
  timers : gmap A Z;         (* 66; the value is the deadline [when]; an entry is a live timer handle *)
  closed : bool;             (* 67 *)
  tasks : gmap nat cstate;   (* suspended get() calls *)
}.

Definition init (base mx : Z) : wq := WQ base mx ∅ [] [] ∅ ∅ ∅ false ∅.

Definition set_failures f s := WQ (base_delay s) (max_delay s) f (waiting s) (queue s) (processing s) (dirty s) (timers s) (closed s) (tasks s).
Definition set_waiting w s := WQ (base_delay s) (max_delay s) (failures_ s) w (queue s) (processing s) (dirty s) (timers s) (closed s) (tasks s).
Definition set_queue q s := WQ (base_delay s) (max_delay s) (failures_ s) (waiting s) q (processing s) (dirty s) (timers s) (closed s) (tasks s).
Definition set_processing p s := WQ (base_delay s) (max_delay s) (failures_ s) (waiting s) (queue s) p (dirty s) (timers s) (closed s) (tasks s).
Definition set_dirty d s := WQ (base_delay s) (max_delay s) (failures_ s) (waiting s) (queue s) (processing s) d (timers s) (closed s) (tasks s).
Definition set_timers t s := WQ (base_delay s) (max_delay s) (failures_ s) (waiting s) (queue s) (processing s) (dirty s) t (closed s) (tasks s).
Definition set_closed c s := WQ (base_delay s) (max_delay s) (failures_ s) (waiting s) (queue s) (processing s) (dirty s) (timers s) c (tasks s).
Definition set_tasks t s := WQ (base_delay s) (max_delay s) (failures_ s) (waiting s) (queue s) (processing s) (dirty s) (timers s) (closed s) t.

(** Backoff.backoff (22-27): returns the delay, increments the failure count. *)
Definition backoff_delay (base mx : Z) (exp : nat) : Z := Z.min (base * 2 ^ Z.of_nat exp) mx.
Definition backoff (x : A) (s : wq) : Z * wq :=
  let exp := default 0 (failures_ s !! x) in
  (backoff_delay (base_delay s) (max_delay s) exp,
   set_failures (<[x := S exp]> (failures_ s)) s).
(** Backoff.failures (29-31) / WorkQueue.failures (139-141). *)
Definition failures (x : A) (s : wq) : nat := default 0 (failures_ s !! x).
(** Backoff.reset (33-35) / reset_backoff (143-145). *)
Definition reset_backoff (x : A) (s : wq) : wq := set_failures (delete x (failures_ s)) s.

(** is_empty (69-71). *)
Definition is_empty (s : wq) : bool := bool_decide (dirty s = ∅).

(** _put (73-77). *)
Definition put_ (x : A) (s : wq) : wq :=
  if decide (x ∈ dirty s) then s
  else let s1 := set_dirty ({[x]} ∪ dirty s) s in
       if decide (x ∈ processing s1) then s1 else set_queue (queue s1 ++ [x]) s1.

(** What a call to [get] can end with. [IndexError] is [popleft] on an empty
    deque (82), kept as an error value. *)
Inductive result := Item (x : A) | ClosedError | IndexError | CancelledError.

(** _get (79-85). *)
Definition get_ (s : wq) : result * wq :=
  if closed s then (ClosedError, s)
  else match queue s with
       | [] => (IndexError, s)
       | x :: q => (Item x, set_dirty (dirty s ∖ {[x]}) (set_processing ({[x]} ∪ processing s) (set_queue q s)))
       end.

(** _wakeup_next (87-92): pop waiters until one that is not done; resolve it. *)
Fixpoint wakeup_next_aux (w : list nat) (t : gmap nat cstate) : list nat * gmap nat cstate :=
  match w with
  | [] => ([], t)
  | c :: w' => match t !! c with
               | Some Blocked => (w', <[c := Woken]> t)
               | _ => wakeup_next_aux w' t
               end
  end.
Definition wakeup_next (s : wq) : wq :=
  let '(w, t) := wakeup_next_aux (waiting s) (tasks s) in set_tasks t (set_waiting w s).

(** _wakeup_all (94-98). *)
Fixpoint wakeup_all_aux (w : list nat) (t : gmap nat cstate) : gmap nat cstate :=
  match w with
  | [] => t
  | c :: w' => match t !! c with
               | Some Blocked => wakeup_all_aux w' (<[c := Woken]> t)
               | _ => wakeup_all_aux w' t
               end
  end.
Definition wakeup_all (s : wq) : wq :=
  set_tasks (wakeup_all_aux (waiting s) (tasks s)) (set_waiting [] s).

(** put (104-107). *)
Definition put (x : A) (s : wq) : wq := wakeup_next (put_ x s).

(** _put_delayed (100-102). *)
Definition put_delayed (x : A) (s : wq) : wq := put x (set_timers (delete x (timers s)) s).

(** put_after (109-129). [now] is loop.time(). Cancelling the existing handle
    (120) and replacing the entry is the overwrite of the map entry. *)
Definition put_after (now : Z) (x : A) (delay : Z) (s : wq) : wq :=
  let when := (now + delay)%Z in
  let go :=
    if (0 <? delay)%Z then set_timers (<[x := when]> (timers s)) s
    else put x (set_timers (delete x (timers s)) s) in
  match timers s !! x with
  | None => go
  | Some w => if (when <? w)%Z then go else s
  end.

(** put_backoff (131-137). *)
Definition put_backoff (now : Z) (x : A) (s : wq) : wq :=
  let '(d, s1) := backoff x s in put_after now x d s1.

(** One turn of the loop in get (149-162) for call [c], from the test in line
    149 to the next await or the end of the call. *)
Definition get_turn (c : nat) (s : wq) : wq * option result :=
  match queue s with
  | [] =>
      if closed s then (set_tasks (delete c (tasks s)) s, Some ClosedError)
      else (set_tasks (<[c := Blocked]> (tasks s)) (set_waiting (waiting s ++ [c]) s), None)
  | _ :: _ =>
      let '(r, s1) := get_ s in (set_tasks (delete c (tasks s1)) s1, Some r)
  end.

(** First occurrence removal: deque.remove (158). *)
Fixpoint remove1 (c : nat) (l : list nat) : list nat :=
  match l with [] => [] | x :: l' => if decide (x = c) then l' else x :: remove1 c l' end.

(** task_done (164-172). *)
Definition task_done (x : A) (s : wq) : wq :=
  let s1 := set_processing (processing s ∖ {[x]}) s in
  if decide (x ∈ dirty s1) then wakeup_next (set_queue (queue s1 ++ [x]) s1) else s1.

(** close (174-180). *)
Definition close (s : wq) : wq := wakeup_all (set_closed true s).

(** Calls made by users of the queue and choices made by the event loop. *)
Inductive event :=
| EPut (x : A)                       (* queue.put(x) *)
| EPutAfter (now : Z) (x : A) (delay : Z)
| EPutBackoff (now : Z) (x : A)
| EResetBackoff (x : A)
| ETimer (now : Z) (x : A)           (* the loop runs the timer of x, not before its deadline *)
| EGet (c : nat)                     (* a new call of get(), runs to its first await *)
| EResume (c : nat)                  (* the loop resumes call c *)
| ECancel (c : nat)                  (* the task awaiting in call c is cancelled *)
| ETaskDone (x : A)
| EClose.

(** What happened in a step: hand-outs and the like, visible to callers. *)
Inductive out := Returned (c : nat) (r : result).

Definition as_out (c : nat) (p : wq * option result) : wq * option out :=
  match p with (s, Some r) => (s, Some (Returned c r)) | (s, None) => (s, None) end.

Definition step (s : wq) (e : event) : wq * option out :=
  match e with
  | EPut x => (put x s, None)
  | EPutAfter now x d => (put_after now x d s, None)
  | EPutBackoff now x => (put_backoff now x s, None)
  | EResetBackoff x => (reset_backoff x s, None)
  | ETimer now x =>
      match timers s !! x with
      | Some w => if (w <=? now)%Z then (put_delayed x s, None) else (s, None)
      | None => (s, None)
      end
  | EGet c =>
      match tasks s !! c with
      | Some _ => (s, None)                       (* call id in use: not a new call *)
      | None => as_out c (get_turn c s)
      end
  | EResume c =>
      match tasks s !! c with
      | Some Woken => as_out c (get_turn c s)
      | Some Cancelling =>                        (* lines 156-161 *)
          (set_tasks (delete c (tasks s)) (set_waiting (remove1 c (waiting s)) s),
           Some (Returned c CancelledError))
      | _ => (s, None)                            (* still pending: cannot run *)
      end
  | ECancel c =>
      match tasks s !! c with
      | Some _ => (set_tasks (<[c := Cancelling]> (tasks s)) s, None)
      | None => (s, None)
      end
  | ETaskDone x => (task_done x s, None)
  | EClose => (close s, None)
  end.

(** A history: events with what they returned, oldest first (see Trace.v). *)
Definition history := list (event * option out).

End model.

Arguments wq A {_ _}.
Arguments result A : clear implicits.
Arguments event A : clear implicits.
Arguments out A : clear implicits.
Arguments history A : clear implicits.
