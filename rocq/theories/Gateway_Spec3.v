(** Vocabulary for the endless runs of the gateway (C81). *)
From Coq Require Import ZArith Lia.
From stdpp Require Import prelude gmap.
From Verif Require Import Trace WorkQueue_Model Router_Model Gateway_Model Gateway_Spec.
Open Scope Z_scope.

(** An endless run: [run i] is the state before the i-th event [ev i].  It begins
    in any state the gateway can be in.  The process does not die, and the work
    queue is not closed (it is at the end of a shutdown, see [waits]).  All other
    events, in any order: requests, heartbeats, checks, purges, a shutdown. *)
Record endless (cf : cfg) (run : nat -> gw) (ev : nat -> event) : Prop := {
  en_from : exists h, ids_ok cf h /\ reach cf h (run 0%nat);
  en_step : forall i, run (S i) = (step cf (run i) (ev i)).1;
  en_life : forall i, crash (ev i) = false;
  en_open : forall i, closed (q (run i)) = false }.

(** Fair: there is at least one reconciler, each reconciler gets its turns again
    and again, and every operation of the backend ends or raises some day. *)
Record fair (cf : cfg) (run : nat -> gw) (ev : nat -> event) : Prop := {
  fa_some : (0 < parallelism cf)%nat;
  fa_get : forall i k, (k < parallelism cf)%nat -> exists j now, (i <= j)%nat /\ ev j = EGet k now;
  fa_wake : forall i k, (k < parallelism cf)%nat -> exists j now, (i <= j)%nat /\ ev j = EWake k now;
  fa_ends : forall i k, is_Some (busy (run i) !! k) ->
            exists j o now, (i <= j)%nat /\ ev j = EBackend k o now /\ (o = Ends \/ o = Raises) }.

(** Shutdown is still waiting for clusters to end. *)
Definition waits (s : gw) : Prop := exists ns n c, down s = Some ns /\ n ∈ ns /\ objs s !! n = Some c /\ ~ finished (c_status c).

(** Cluster [n] has ended: it and all its workers have finished, the proxy does
    not know it any more. *)
Definition ended (s : gw) (n : nat) : Prop := exists c, objs s !! n = Some c /\ finished (c_status c) /\
  (forall x, x ∈ c_workers c -> finished (w_status x)) /\ routes s !! (RSNI, n) = None /\ routes s !! (RPATH, n) = None.

(** A worker that is there, or will be, or that was announced to go. *)
Definition counted (x : worker) : bool := w_close x || match w_status x with STOPPED | FAILED => false | _ => true end.
(** Cluster [n] is up: running, the proxy leads to its scheduler, and it has the
    workers that were asked for. *)
Definition up (s : gw) (n : nat) : Prop := exists c, objs s !! n = Some c /\ c_status c = RUNNING /\
  r_sched (c_row c) <> [] /\ routes s !! (RSNI, n) = Some (r_sched (c_row c)) /\
  (r_dash (c_row c) <> [] -> routes s !! (RPATH, n) = Some (r_dash (c_row c))) /\
  r_count (c_row c) <= Z.of_nat (length (List.filter counted (c_workers c))).
(** Somebody decided that cluster [n] has to end. *)
Definition to_end (s : gw) (n : nat) : Prop := exists c, objs s !! n = Some c /\ c_target c <> RUNNING.
(** Worker [w] of cluster [n] has this record. *)
Definition has_worker (s : gw) (n w : nat) (x : worker) : Prop := exists c, objs s !! n = Some c /\ x ∈ c_workers c /\ w_name x = w.

(** The workers of a cluster that are finished, and the others, by name. *)
Definition gone (c : cluster) : list nat := map w_name (List.filter (fun x => bool_decide (finished (w_status x))) (c_workers c)).
Definition present (c : cluster) : list nat := map w_name (List.filter (fun x => bool_decide (~ finished (w_status x))) (c_workers c)).
