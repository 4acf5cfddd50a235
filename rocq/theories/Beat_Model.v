(** When the scheduler sends heartbeats (C/scheduler_preload.py: Waiter, 23-54;
    heartbeat_loop, 280-298; _scale, 305-310). *)
From Coq Require Import ZArith.
From stdpp Require Import base list.
Open Scope Z_scope.

(** Where heartbeat_loop is: in Waiter.wait ([long]: for heartbeat_max seconds, else for
    a back-off); its sleep is over or cancelled; awaiting the gateway, with the size in
    the message; in retire_workers. *)
Inductive phase := PSleep (long : bool) | PWoken | PSending (c : Z) | PRetiring.
(** Waiter.task: None, the sleep under way, or one that is over. *)
Inductive task := TNone | TSleep | TOver.
(** [timer]: Waiter.timer is not None; [armed]: its three seconds are running.
    [told]: the size in the last heartbeat that the gateway accepted; 0 before. *)
Record state := State { count : Z; told : Z; ph : phase; tk : task; timer : bool; armed : bool }.
(** [long]: heartbeat_initial is 3600 (133-135). *)
Definition init (long : bool) : state := State 0 0 (PSleep long) TSleep false false.
Inductive event :=
| EScale (n : Z)           (* _scale *)
| ESoon                    (* interrupt_soon (47-50), called on excess or lost workers (175, 187) *)
| EFire                    (* the three seconds of the timer are over (53-54) *)
| EElapsed                 (* the sleep is over *)
| EBeat                    (* wait returns (36-39), heartbeat (248-267) up to the gateway's answer *)
| EAnswer (ok retire : bool)  (* the gateway's answer; are there workers to retire (269) *)
| ERetired (ok : bool).

(** interrupt (41-45).  Setting the task to None happens when the awaiting code resumes,
    before that nothing else looks at it. *)
Definition interrupt (s : state) : state :=
  match tk s with
  | TNone => s
  | TOver => State (count s) (told s) (ph s) TNone (timer s) (armed s)
  | TSleep => State (count s) (told s) PWoken TNone (timer s) (armed s)
  end.
(** The next turn of the loop: wait(period) makes a new sleep (27-29). *)
Definition sleep (long : bool) (s : state) : state := State (count s) (told s) (PSleep long) TSleep (timer s) (armed s).
Definition step (s : state) (e : event) : state * unit :=
  (match e with
   | EScale n => if n =? count s then s else interrupt (State n (told s) (ph s) (tk s) (timer s) (armed s))
   | ESoon => if timer s then s else State (count s) (told s) (ph s) (tk s) true true
   | EFire => if armed s then interrupt (State (count s) (told s) (ph s) (tk s) (timer s) false) else s
   | EElapsed => match ph s with PSleep _ => State (count s) (told s) PWoken TOver (timer s) (armed s) | _ => s end
   | EBeat => match ph s with PWoken => State (count s) (told s) (PSending (count s)) (tk s) false false | _ => s end
   | EAnswer ok retire =>
     match ph s with
     | PSending c =>
       if ok then
         let s' := State (count s) c PRetiring (tk s) (timer s) (armed s) in if retire then s' else sleep true s'
       else sleep false s
     | _ => s
     end
   | ERetired ok => match ph s with PRetiring => sleep ok s | _ => s end
   end, tt).
