(** Vocabulary for the properties about failing database calls (C131-C139):
    histories, what was seen, and which failures happen. *)
From Coq Require Import ZArith Lia.
From stdpp Require Import prelude gmap.
From Verif Require Import Trace WorkQueue_Model Router_Model Gateway_Model Gateway_Spec Fault_Model.
Open Scope Z_scope.

Global Instance fobs_eq_dec : EqDecision fobs.
Proof. solve_decision. Defined.

(** * Histories *)
Notation history := (list (fevent * list fobs)).
(** The gateway, started with an empty database, is in state [s] after [h]. *)
Definition freach (cf : cfg) (h : history) (s : gw) : Prop := exec (fstep cf) (gw_init cf) h s.
Definition fleads (cf : cfg) (s : gw) (h : history) (s' : gw) : Prop := exec (fstep cf) s h s'.
Definition fseen (h : history) : list fobs := concat (map snd h).

Definition fcrash (fe : fevent) : bool := match fe with FE e _ _ => crash e | FTimer _ _ => false end.
Definition fone_life (h : history) : Prop := forall fe o, (fe, o) ∈ h -> fcrash fe = false.

(** * Failures *)
Definition faults (fe : fevent) : list fault := match fe with FE _ _ fs => fs | FTimer _ _ => [] end.
(** Every database call of the history goes in a way that satisfies [P]. *)
Definition only (P : fault -> Prop) (h : history) : Prop := forall fe o f, (fe, o) ∈ h -> f ∈ faults fe -> P f.
(** The call works, or raises before anything changed. *)
Definition clean (f : fault) : Prop := f = Good \/ f = Before.
(** What is changed in memory is changed in the tables. *)
Definition kept (f : fault) : Prop := f <> RolledBack.

(** Either one lifetime of the gateway process, with failures of any kind; or
    any number of lifetimes, no transaction rolled back after memory changed,
    and no primary key used twice. *)
Definition life_ok (cf : cfg) (h : history) : Prop := fone_life h \/ (fresh_ids cf /\ only kept h).
(** The same, when only clean failures happen. *)
Definition clean_ok (cf : cfg) (h : history) : Prop := only clean h /\ (fone_life h \/ fresh_ids cf).

(** Nothing is in line, no operation is running, no retry is waiting for its time. *)
Definition at_rest (s : gw) : Prop := idle s /\ timers (q s) = ∅.
(** The record of cluster [c] is as was asked: if it was told to end it ended, with
    all its workers; otherwise it was submitted; and so for its workers. *)
Definition settled (c : cluster) : Prop :=
  (c_target c <> RUNNING -> finished (c_status c) /\ forall x, x ∈ c_workers c -> finished (w_status x)) /\
  (c_target c = RUNNING -> c_status c <> CREATED) /\
  forall x, x ∈ c_workers c -> (finished (w_target x) -> finished (w_status x)) /\ (w_target x = RUNNING -> w_status x <> CREATED).

(** The state the start operation of cluster [n] reported last. *)
Definition flast_state (n : nat) (l : list fobs) : nat :=
  fold_left (fun st o => match o with FObs (OStateC m st') => if decide (m = n) then st' else st | _ => st end) l 0%nat.
