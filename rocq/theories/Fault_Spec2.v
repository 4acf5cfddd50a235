(** Vocabulary for the endless runs of the gateway with failing database calls (C140). *)
From Coq Require Import ZArith Lia.
From stdpp Require Import prelude gmap.
From Verif Require Import Trace WorkQueue_Model Router_Model Gateway_Model Gateway_Spec Fault_Model Fault_Spec.
Open Scope Z_scope.

(** Since the start, or since the last restart, the failing calls raised before
    anything changed; before that restart they may also have raised after the
    commit. *)
Definition healed (h : history) : Prop :=
  only clean h \/ exists h1 now lt fs o h2, h = h1 ++ (FE (ERestart now) lt fs, o) :: h2 /\ only kept h1 /\ only clean h2.

(** An endless run, as [endless] of Gateway_Spec3.  Database calls go on failing
    for a while, in any number; some day the database works again. *)
Record fendless (cf : cfg) (run : nat -> gw) (ev : nat -> fevent) : Prop := {
  fe_ids : fresh_ids cf;
  fe_from : exists h, freach cf h (run 0%nat) /\ healed h;
  fe_step : forall i, run (S i) = (fstep cf (run i) (ev i)).1;
  fe_life : forall i, fcrash (ev i) = false;
  fe_open : forall i, closed (q (run i)) = false;
  fe_clean : forall i f, f ∈ faults (ev i) -> clean f;
  fe_works : exists j, forall i, (j <= i)%nat -> faults (ev i) = [] }.

(** Fair, as [fair] of Gateway_Spec3; and the timer of an item that is put back
    goes off some day, not before its time. *)
Record ffair (cf : cfg) (run : nat -> gw) (ev : nat -> fevent) : Prop := {
  ff_some : (0 < parallelism cf)%nat;
  ff_get : forall i k, (k < parallelism cf)%nat -> exists j now lt fs, (i <= j)%nat /\ ev j = FE (EGet k now) lt fs;
  ff_wake : forall i k, (k < parallelism cf)%nat -> exists j now lt fs, (i <= j)%nat /\ ev j = FE (EWake k now) lt fs;
  ff_ends : forall i k, is_Some (busy (run i) !! k) ->
            exists j o now lt fs, (i <= j)%nat /\ ev j = FE (EBackend k o now) lt fs /\ (o = Ends \/ o = Raises);
  ff_timer : forall i x t, timers (q (run i)) !! x = Some t ->
             exists j, (i <= j)%nat /\ (timers (q (run j)) !! x <> Some t \/ exists lt, ev j = FTimer lt x /\ t <= lt) }.
