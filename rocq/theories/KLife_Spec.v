(** Vocabulary for C141 and C142. *)
From Coq Require Import ZArith.
From stdpp Require Import list.
From Verif Require Import Trace Phase_Model Phase_Spec KLife_Model.
Open Scope Z_scope.

Notation lhistory := (list (levent * list obs)).
(** [h] is a history of a new cluster that ends in [s]. *)
Definition lreach (max_age : Z) (h : lhistory) (s : life) : Prop := exists o0, start o0 /\ exec (lstep max_age) (linit o0) h s.
(** The object as the API server has it. *)
Definition object (s : life) : obj := current (l_obj s).

(** An endless run: [run i] is the state before the i-th event [ev i].  It begins in any
    state the controller can be in, also after restarts; then the controller is not
    restarted any more. *)
Record endless (max_age : Z) (run : nat -> life) (ev : nat -> levent) : Prop := {
  en_from : exists h, lreach max_age h (run 0%nat);
  en_step : forall i, run (S i) = (lstep max_age (run i) (ev i)).1;
  en_life : forall i p e, ev i <> LRestart p e }.
(** Fair: the informer sees every version some day, a reconciler takes the key when it is
    on the queue, every run ends some day, and timers run out. *)
Record fair (run : nat -> life) (ev : nat -> levent) : Prop := {
  fa_watch : forall i, exists j, (i <= j)%nat /\ (length (versions (l_obj (run i))) <= seen (l_obj (run j)))%nat;
  fa_get : forall i, l_dirty (run i) = true -> exists j, (i <= j)%nat /\ ev j = LGet /\ busy (l_obj (run j)) = None;
  fa_end : forall i, busy (l_obj (run i)) <> None -> exists j w a ok, (i <= j)%nat /\ ev j = LEnd w a ok /\ seen_pod w ∈ l_pods (run j) /\ endpoints w ∈ l_ends (run j);
  fa_timer : forall i, l_timer (run i) = true -> exists j, (i <= j)%nat /\ ev j = LTimer }.
(** From the [n]-th event on the API server answers as it should: creations succeed or
    find that the object exists, deletions succeed or find that it does not, patches are
    applied, unless the object was deleted; scaling does not raise. *)
Definition answers (w : world) : Prop :=
  (forall r, creating w r = Ok \/ creating w r = Conflict) /\ (forall r, deleting w r = Ok \/ deleting w r = NotFound) /\ scaling w <> None.
Definition healthy (ev : nat -> levent) (n : nat) : Prop :=
  forall j w a ok, (n <= j)%nat -> ev j = LEnd w a ok -> answers w /\ a = true /\ ok = true.

(** The scheduler's pod runs, has ended. *)
Definition pod_runs (p : option pod) : Prop := exists q, p = Some q /\ container_state q = SRunning.
Definition pod_ended (p : option pod) : Prop := exists q, p = Some q /\ container_state q = STerminated.
(** The cluster has ended, or its object was deleted. *)
Definition has_ended (s : life) : Prop := gone (l_obj s) = true \/ exists p, shows (object s) p /\ over p.
(** The controller has nothing to do: it knows the newest object, no run is going on,
    waiting or scheduled. *)
Record idle (s : life) : Prop := {
  id_seen : seen (l_obj s) = length (versions (l_obj s));
  id_queue : l_dirty s = false /\ l_timer s = false /\ busy (l_obj s) = None }.
