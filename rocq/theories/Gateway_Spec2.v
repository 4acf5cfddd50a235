(** Vocabulary for the gateway properties C76-C80: what a reported status means,
    why a cluster or a worker may end, and what a heartbeat changes. *)
From Coq Require Import ZArith Lia.
From stdpp Require Import prelude gmap.
From Verif Require Import Trace WorkQueue_Model Router_Model Gateway_Model Gateway_Spec.
Open Scope Z_scope.

(** * Status *)
(** The proxy has no route for cluster [n]. *)
Definition no_route (s : gw) (n : nat) : Prop := routes s !! (RSNI, n) = None /\ routes s !! (RPATH, n) = None.
(** It was decided that the cluster has to end, with this outcome. *)
Definition told_to_end (c : cluster) (j : job) : Prop := c_target c = j /\ finished j.

(** * Causes *)
(** The reasons for which a running cluster [n], with record [c], may be told to
    end at event [e]; the index is the outcome. *)
Inductive end_cause (cf : cfg) (s : gw) (e : event) (n : nat) (c : cluster) : job -> Prop :=
| cause_asked f : e = EStop n f -> end_cause cf s e n c (if f then FAILED else STOPPED)
| cause_late now : e = ECheckTimeouts now -> late_cluster cf now c -> end_cause cf s e n c FAILED
| cause_gone oks ns i : e = ECheckClustersEnd (Some oks) -> chk_c s = Some ns -> ns !! i = Some n -> oks !! i = Some false ->
    end_cause cf s e n c FAILED
| cause_start k now : e = EBackend k Raises now -> busy s !! k = Some (InStartCluster n) -> end_cause cf s e n c FAILED
| cause_limit : takes cf s e (n, None) -> (fail_limit cf <= c_fails c)%nat -> end_cause cf s e n c FAILED
| cause_shutdown : e = EShutdown -> stop_on_shutdown cf = true -> end_cause cf s e n c FAILED.

(** * Heartbeats *)
(** What message [m] says about a worker; a worker may be named more than once,
    the first of these counts. *)
Inductive mention := MClosing | MActive | MClosed | MNothing.
Definition mentioned (m : hbmsg) (w : nat) : mention :=
  if decide (w ∈ m_closing m) then MClosing else if decide (w ∈ m_active m) then MActive
  else if decide (w ∈ m_closed m) then MClosed else MNothing.
(** The worker [x] is [x'] after the message. *)
Definition told (m : hbmsg) (x x' : worker) : Prop :=
  w_name x' = w_name x /\ w_id x' = w_id x /\ w_state x' = w_state x /\ w_start x' = w_start x /\ w_stop x' = w_stop x /\
  (finished (w_status x) -> x' = x) /\
  (~ finished (w_status x) ->
   match mentioned m (w_name x) with
   | MClosing => w_status x' = (if starting x then RUNNING else w_status x) /\ w_target x' = w_target x /\ w_close x' = true
   | MActive => w_status x' = (if starting x then RUNNING else w_status x) /\ w_target x' = w_target x /\ w_close x' = w_close x
   | MClosed => w_status x' = w_status x /\ w_target x' = (if w_close x then STOPPED else FAILED) /\ w_close x' = w_close x
   | MNothing => w_status x' = w_status x /\ w_close x' = w_close x /\ (w_target x' = w_target x \/ starting x = true /\ w_target x' = STOPPED)
   end).

(** The reasons for which a worker [x] of cluster [n], with record [c], may be told
    to end at event [e]. *)
Inductive worker_cause (cf : cfg) (s : gw) (e : event) (n : nat) (c : cluster) (x : worker) : Prop :=
| wc_closed m now : e = EHeartbeat n m now -> mentioned m (w_name x) = MClosed -> worker_cause cf s e n c x
| wc_surplus m now : e = EHeartbeat n m now -> mentioned m (w_name x) = MNothing -> starting x = true -> worker_cause cf s e n c x
| wc_late now : e = ECheckTimeouts now -> late_worker cf now c x -> worker_cause cf s e n c x
| wc_gone oks ws i : e = ECheckWorkersEnd (Some oks) -> chk_w s = Some ws -> ws !! i = Some (n, w_name x) -> oks !! i = Some false ->
    worker_cause cf s e n c x
| wc_start k now : e = EBackend k Raises now -> busy s !! k = Some (InStartWorker n (w_name x)) -> worker_cause cf s e n c x
| wc_cluster : takes cf s e (n, None) -> finished (c_target c) -> worker_cause cf s e n c x.
