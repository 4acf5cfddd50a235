(** Adaptive scaling in the scheduler (C/scheduler_preload.py, GatewaySchedulerService:
    scale, _scale, adapt, adapt_loop, 300-351).  Sizes are integers.  The await in
    [_scale] (Waiter.interrupt, 41-45) is a state of its own if there is a sleep to
    cancel. *)
From Coq Require Import ZArith.
From stdpp Require Import base list.
Open Scope Z_scope.

(** adapt_task: [None]; in asyncio.sleep (351); in cancel_task within _scale (310); told
    to end, and not ended yet.  [waiting]: requests that wait for its end (324), with the
    size to be set then. *)
Inductive mode := AOff | ASleep | AScaling | AEnding.
Record state := State { count : Z; minimum : option Z; maximum : option Z; window : list Z; ad : mode; waiting : list (nat * option Z) }.
(** __init__ (130, 147-152). *)
Definition init : state := State 0 None None [] AOff [].
(** [r]: a number that tells requests apart. *)
Inductive event :=
| EAdapt (mn mx : option Z)                   (* adapt(minimum, maximum), 312-320 *)
| EOff (r : nat)                              (* adapt(active=False), 321-325 *)
| EScale (r : nat) (n : Z)                    (* scale(count), 300-303 *)
| EEnd                                        (* the loop has ended *)
| ETick (x : option Z) (sleeping : bool)      (* a turn of adapt_loop; adaptive_target returned x or raised;
                                                 is the heartbeat loop sleeping (the interrupt takes a while) *)
| EResume.                                    (* the interrupt is over *)
(** [OStart]: a new loop; [OTarget t]: a turn with this target; [OAnswer l]: the requests
    [l] have been carried out. *)
Inductive obs := ONone | OStart | OTarget (t : Z) | OAnswer (l : list nat).

(** deque(maxlen=w).append (328, 338). *)
Definition append (w : nat) (l : list Z) (t : Z) : list Z := let l' := l ++ [t] in drop (length l' - w) l'.
(** max(window), raising when empty (343). *)
Definition maxl (l : list Z) : option Z := match l with [] => None | x :: l => Some (fold_left Z.max l x) end.
(** Lines 333-336. *)
Definition clamp (s : state) (t : Z) : Z :=
  let t := match minimum s with Some m => Z.max m t | None => t end in
  match maximum s with Some m => Z.min m t | None => t end.
(** The size asked for by a turn (340-345). *)
Definition decide_size (c t : Z) (win : list Z) : Z :=
  if c <? t then t
  else if t <? c then match maxl win with Some m => if m <? c then m else c | None => c end
  else c.
Definition turn (w : nat) (s : state) (r : option Z) (sleeping : bool) : state * obs :=
  match r with
  | None => (s, ONone)                                        (* logged (348-349) *)
  | Some r =>
    let t := clamp s r in
    let win := append w (window s) t in
    let c := decide_size (count s) t win in
    (State c (minimum s) (maximum s) win (if (negb (c =? count s)) && sleeping then AScaling else ASleep) (waiting s), OTarget t)
  end.
(** adapt(active=False), and then _scale if there is a size (300-303, 321-325).  A loop
    that is asleep is going to end.  In cancel_task (within _scale) the error is taken for
    that of the sleep being cancelled (C/utils.py 11-16), so the loop goes on, and the
    request waits until another one ends it. *)
Definition set_size (c : Z) (x : option Z) : Z := match x with Some n => n | None => c end.
Definition off (s : state) (r : nat) (x : option Z) : state * obs :=
  match ad s with
  | AOff => (State (set_size (count s) x) (minimum s) (maximum s) (window s) AOff (waiting s), OAnswer [r])
  | m => (State (count s) (minimum s) (maximum s) (window s) (match m with ASleep => AEnding | _ => m end) (waiting s ++ [(r, x)]), ONone)
  end.
(** The loop's end wakes all that wait for it, in the order in which they came. *)
Definition ended (s : state) : state * obs :=
  (State (fold_left set_size (map snd (waiting s)) (count s)) (minimum s) (maximum s) (window s) AOff [], OAnswer (map fst (waiting s))).
Definition step (w : nat) (s : state) (e : event) : state * obs :=
  match e with
  | EAdapt mn mx =>
    match ad s with
    | AOff => (State (count s) mn mx [] ASleep (waiting s), OStart)
    | m => (State (count s) mn mx (window s) m (waiting s), ONone)
    end
  | EOff r => off s r None
  | EScale r n => off s r (Some n)
  | EEnd => match ad s with AEnding => ended s | _ => (s, ONone) end
  | ETick r sl => match ad s with ASleep => turn w s r sl | _ => (s, ONone) end
  | EResume => match ad s with AScaling => (State (count s) (minimum s) (maximum s) (window s) ASleep (waiting s), ONone) | _ => (s, ONone) end
  end.
