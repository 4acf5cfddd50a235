(** Vocabulary for C54. *)
From Coq Require Import ZArith.
From stdpp Require Import gmap.
From Verif Require Import Trace View_Model.

Notation history := (list (event * unit)).
(** What a cluster object is shown as. *)
Definition shown (o : obj) (v : view) : Prop :=
  v_user v = username o /\ v_status v = ophase o /\ v_stop v = ocompletion o /\ (v_addr v = match ophase o with RUNNING => oservice o | _ => None end) /\
  (v_status v = RUNNING -> ocred o = true -> v_cred v <> None).
(** Nothing is left to do for a key; for all keys. *)
Definition done_with (s : state) (k : key) : Prop := k ∉ dirty s /\ forall v, proc s <> Some (k, v).
Definition settled (s : state) : Prop := forall k, done_with s k.
(** The status filter of list_clusters: active ones by default. *)
Definition wanted (sts : option (list phase)) (v : view) : Prop :=
  match sts with None => v_status v = PENDING \/ v_status v = RUNNING | Some l => v_status v ∈ l end.
(** The objects of a key always name the same user. *)
Definition same_user (owner : key -> user) (h : history) : Prop := Forall (fun eo => match fst eo with EPut k o => username o = owner k | _ => True end) h.
