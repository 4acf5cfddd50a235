(** Vocabulary for C121-C124: calls of new_cluster() and connect(). *)
From Coq Require Import ZArith.
From stdpp Require Import prelude gmap.
From Verif Require Import Trace WorkQueue_Model Gateway_Model Gateway_Spec Gateway_Spec3 Visit_Model.
Open Scope Z_scope.

Notation vhistory := (list (vevent * (event * list obs))).
Definition vreach (cf : cfg) (h : vhistory) (s : vgw) : Prop := exec (vstep cf) (vinit cf) h s.
Definition vleads (cf : cfg) (s : vgw) (h : vhistory) (s' : vgw) : Prop := exec (vstep cf) s h s'.
(** The gateway's part of a history. *)
Definition gw_part (h : vhistory) : list (event * list obs) := map snd h.

(** Call [k] by [user], of this kind, is at [st]. *)
Definition at_stage (s : vgw) (k user : nat) (new close : bool) (st : stage) : Prop :=
  v_calls s !! k = Some (Visit user close new st).
(** The call is over: it returned, or it raised. *)
Definition over (st : stage) : Prop := (exists n r, st = Started n r) \/ exists n e, st = Failed n e.

(** At some moment of [h] during call [k] this was true of the gateway. *)
Definition during (cf : cfg) (h : vhistory) (k : nat) (P : gw -> Prop) : Prop :=
  exists h1 e o h2 s1 v, h = h1 ++ (e, o) :: h2 /\ vreach cf h1 s1 /\ v_calls s1 !! k = Some v /\ ~ over (v_stage v) /\ P (v_gw s1).
(** Call [k] made the gateway create cluster [n]: the gateway answered its POST
    with this name. *)
Definition made (cf : cfg) (h : vhistory) (k n : nat) : Prop :=
  exists h1 now ge h2, h = h1 ++ (VMove k now, (ge, [OCreated n])) :: h2.

(** What a report says of a running cluster: all that is needed to connect. *)
Definition full_report (c : cluster) (n : nat) (r : report) : Prop :=
  rp_name r = n /\ rp_status r = PRUNNING /\ rp_addr r = true /\ rp_creds r = Some (r_info (c_row c)) /\
  (rp_link r = true <-> r_dash (c_row c) <> []) /\ rp_start r = r_start (c_row c) /\ rp_stop r = None.

(** [user]'s cluster [n] runs, its scheduler listens somewhere, and [r] is what the
    gateway has to tell of it. *)
Definition running_for (user n : nat) (r : report) (g : gw) : Prop := exists c, objs g !! n = Some c /\
  model_status c = Some PRUNNING /\ r_user (c_row c) = user /\ r_sched (c_row c) <> [] /\ full_report c n r.
(** Something went wrong with a connection of call [k], or the gateway's process died. *)
Definition broken (h : vhistory) (k : nat) : Prop :=
  (exists o, (VBreak k, o) ∈ h) \/ exists now o, (VGateway (ERestart now), o) ∈ h.

(** Endless runs with calls: [run i] is the state before the i-th event.  The
    process does not die, the queue is not closed, and the gateway is not shutting
    down. *)
Record vendless (cf : cfg) (run : nat -> vgw) (ev : nat -> vevent) : Prop := {
  ve_from : exists h, ids_ok cf (gw_part h) /\ vreach cf h (run 0%nat);
  ve_step : forall i, run (S i) = (vstep cf (run i) (ev i)).1;
  ve_life : forall i, crash (gevent cf (run i) (ev i)) = false;
  ve_open : forall i, closed (q (v_gw (run i))) = false;
  ve_up : forall i, down (v_gw (run i)) = None }.
(** The process has not died before either. *)
Definition first_life (cf : cfg) (s : vgw) : Prop := exists h, one_life (gw_part h) /\ vreach cf h s.
(** Reconcilers and the backend's operations as in [fair]; and the check of timeouts
    runs again and again, at any later time. *)
Record vfair (cf : cfg) (run : nat -> vgw) (ev : nat -> vevent) : Prop := {
  vf_gw : fair cf (fun i => v_gw (run i)) (fun i => gevent cf (run i) (ev i));
  vf_check : forall i t, exists j now, (i <= j)%nat /\ t < now /\ ev j = VGateway (ECheckTimeouts now) }.
(** What call [k] waits for comes some day (requests and answers arrive or fail, the
    gateway's wait of 20 seconds and the client's sleep end), and from some day on
    without TimeoutError. *)
Record served (run : nat -> vgw) (ev : nat -> vevent) (k : nat) : Prop := {
  se_moves : forall i v, v_calls (run i) !! k = Some v -> over (v_stage v) \/
             exists j, (i <= j)%nat /\ v_calls (run j) !! k <> Some v;
  se_time : exists i, forall j, (i <= j)%nat -> ev j <> VTimeout k }.
(** A call that waits for cluster [n]: no answer is on its way. *)
Definition waits_for (n : nat) (st : stage) : Prop := st = Created n \/ st = Asking n \/ st = Held n \/ st = Sleeping n.
(** The gateway says of [user]'s cluster [n] that it runs. *)
Definition says_running (g : gw) (user n : nat) : Prop :=
  exists c, lookup_cluster n g = Some c /\ r_user (c_row c) = user /\ reported n g PRUNNING.
