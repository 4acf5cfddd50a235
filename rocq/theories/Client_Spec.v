(** Vocabulary for C58. *)
From stdpp Require Import base list.
From Verif Require Import Trace Client_Model.

Notation history := (list (event * obs)).
(** The gateway was asked to stop the cluster. *)
Definition asked (h : history) (n : name) : Prop := exists e, (e, OStop n) ∈ h.
(** The submission was cut short: closed or failed while awaiting its answer. *)
Definition cut (soc asyn : bool) (given : option name) (h : history) : Prop :=
  exists h1 e o h2 s, h = h1 ++ (e, o) :: h2 /\ exec (step soc asyn) (init given) h1 s /\ st s = SSubmitting /\ (e = EFailed \/ exists sd, e = EClose sd).
(** The cluster of this object: submitted by it, or given. *)
Definition its_cluster (given : option name) (s : state) (n : name) : Prop := given = Some n \/ created s = Some n.
