(** Idle shutdown (C/scheduler_preload.py, check_idle 227-246).  Times are integers;
    events say how much later they happen than the one before.  The scheduler changes
    what it is working on only by transitions, which it logs with their time. *)
From Coq Require Import ZArith.
From stdpp Require Import base list.
Open Scope Z_scope.

(** [work]: some task is processing or unrunnable; [last]: time of the last transition,
    or time_started; [alive]: the check_idle task has not died of an exception. *)
Record state := State { now : Z; work : bool; last : Z; alive : bool }.
Definition init (t0 : Z) : state := State t0 false t0 true.
Inductive event :=
| ETransition (d : N) (w : bool)   (* transitions; afterwards there is work or not *)
| ECheck (d : N) (ok : bool).      (* a turn of the loop; would the request to the gateway succeed *)
(** The time, and whether the gateway is asked to stop the cluster. *)
Record obs := Obs { o_time : Z; o_shutdown : bool }.
Definition step (timeout : Z) (s : state) (e : event) : state * obs :=
  match e with
  | ETransition d w => let t := now s + Z.of_N d in (State t w t (alive s), Obs t false)
  | ECheck d ok =>
    let t := now s + Z.of_N d in
    if alive s && negb (work s) && (timeout <? t - last s)
    then (State t (work s) (last s) ok, Obs t true)
    else (State t (work s) (last s) (alive s), Obs t false)
  end.
