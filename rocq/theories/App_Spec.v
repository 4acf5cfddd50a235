(** Vocabulary for C107-C109. *)
From Coq Require Import ZArith.
From stdpp Require Import prelude gmap.
From Verif Require Import Trace App_Model.

Notation hist := (list (event * list out)).
Definition outs (h : hist) : list out := concat (map snd h).
Definition happened (e : event) (h : hist) : Prop := e ∈ map fst h.
(** From a start of the gateway, with what the database and the backend then have. *)
Notation life cf cs a := (exec (step cf) (init cs a)).
(** Operations of the backend. *)
Definition is_call (o : out) : Prop := match o with OStart _ _ | OStop _ _ => True | _ => False end.
(** All that main and the backend do works. *)
Definition works (e : event) : Prop := match e with EMain ok | ETurn _ ok => ok = true | _ => True end.
(** A cluster that runs and is to run. *)
Definition runs (n : nat) (cs : gmap nat cluster) (a : gset nat) : Prop := cs !! n = Some (Cl Submitted true true) /\ n ∈ a.
(** Nothing of the process's own is left. *)
Definition released (s : state) : Prop :=
  session s = false /\ auth s = false /\ reconcilers s = false /\ proc s = false /\ tasks s = false /\ listening s = false.
