(** Vocabulary for C70. *)
From Coq Require Import ZArith.
From stdpp Require Import base list.
From Verif Require Import Trace Beat_Model.

Notation history := (list (event * unit)).
(** The loop is in the middle of a heartbeat. *)
Definition busy (s : state) : Prop := match ph s with PSending _ | PRetiring => True | _ => False end.
(** No event of this kind happened in the middle of a heartbeat. *)
Definition never_busy (long : bool) (P : event -> Prop) (h : history) : Prop :=
  forall h1 e o h2 s, h = h1 ++ (e, o) :: h2 -> exec step (init long) h1 s -> busy s -> ~ P e.
Definition scales (e : event) : Prop := exists n, e = EScale n.
(** Nothing but the passing of time wakes the loop. *)
Definition only_waits (e : event) : Prop := e <> EElapsed /\ forall n, e <> EScale n.
