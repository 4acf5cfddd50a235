(** Vocabulary for C57 and C72. *)
From Coq Require Import ZArith.
From stdpp Require Import base list.
From Verif Require Import Trace Idle_Model.
Open Scope Z_scope.

Notation history := (list (event * obs)).
Definition transition (e : event) : Prop := exists d w, e = ETransition d w.
(** There is work at time [u]: the last transitions up to [u] left some. *)
Definition working_at (h : history) (u : Z) : Prop :=
  exists h1 d o h2, h = h1 ++ (ETransition d true, o) :: h2 /\ o_time o <= u /\ forall e o', (e, o') ∈ h2 -> transition e -> u < o_time o'.
(** Nothing happened at time [u]. *)
Definition quiet_at (h : history) (u : Z) : Prop := ~ working_at h u /\ forall e o, (e, o) ∈ h -> transition e -> o_time o <> u.
(** Some request to stop the cluster failed. *)
Definition refused (h : history) : Prop := exists d t, (ECheck d false, Obs t true) ∈ h.
