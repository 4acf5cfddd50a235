(** Vocabulary for C100. *)
From Coq Require Import ZArith List.
From stdpp Require Import prelude gmap.
From Verif Require Import Trace Super_Model.
Local Open Scope Z_scope.

Notation history := (list (event * list obs)).
Definition obs_of (h : history) : list obs := concat (map snd h).
(** The gateway tries to start a proxy. *)
Definition attempt (o : obs) : Prop := match o with OStart _ _ | OFailed _ => True | _ => False end.
Definition is_start (o : obs) : Prop := match o with OStart _ _ => True | _ => False end.
Definition ends (e : event) : Prop := match e with EClose | ECleanup | ECrash => True | _ => False end.
(** How many attempts failed since the last one that worked. *)
Fixpoint failures (k : nat) (os : list obs) : nat :=
  match os with [] => k | OFailed _ :: os' => failures (S k) os' | OStart _ _ :: os' => failures 0 os' | _ :: os' => failures k os' end.
(** The pause after the (k+1)-th failure: 0.5 s, 1 s, 2 s, ..., at most 15 s. *)
Definition pause (k : nat) : Z := Z.min (2 ^ Z.of_nat k) 30.
