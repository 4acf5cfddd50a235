(** Properties C141 and C142: what the Kubernetes controller has to do for a cluster is done
    sooner or later. *)
From Coq Require Import ZArith Lia.
From stdpp Require Import list.
From Verif Require Import Trace Phase_Model Phase_Spec Phase_Proofs2 KLife_Model KLife_Spec KLife_Proofs KLife_Live KLife_Live2.
Open Scope Z_scope.

(** C141. A cluster that is to be stopped has ended some day, for good, whatever else
    happens: in every endless run that is fair, and in which the API server answers as it
    should from some event on. *)
Theorem C141_stops : forall max_age run ev n i, endless max_age run ev -> fair run ev -> healthy ev n ->
  active (object (run i)) = false -> exists j, (i <= j)%nat /\ forall k, (j <= k)%nat -> has_ended (run k).
Proof. intros ma run ev n i HE HF HH. by eapply stops. Qed.
Print Assumptions C141_stops.
(** ... and its end is recorded by a run in which the API server confirmed that the
    scheduler's pod and the secret, if recorded, were deleted, unless the object itself was
    deleted. *)
Theorem C141_cleans : forall max_age run ev n i, endless max_age run ev -> fair run ev -> healthy ev n ->
  active (object (run i)) = false -> ~ has_ended (run i) -> exists j, (i <= j)%nat /\ (gone (l_obj (run j)) = true \/
    let os := (lstep max_age (run j) (ev j)).2 in
    exists st, OPatch st true ∈ os /\ over (phase_of st) /\ forall r, r = Pod \/ r = Secret -> records st r -> ODelete r Ok ∈ os \/ ODelete r NotFound ∈ os).
Proof. intros ma run ev n i HE HF HH. by eapply cleans. Qed.
Print Assumptions C141_cleans.
(** C141, at rest: when the controller has nothing to do, a cluster that is to be stopped
    has ended, whether or not requests failed on the way. *)
Theorem C141_at_rest : forall max_age h s, lreach max_age h s -> idle s -> active (object s) = false -> exists p, shows (object s) p /\ over p.
Proof.
  intros ma h s Hr Hi Ha. destruct (idle_hold ma h s Hr Hi) as (H & _). exists (phase_of (status_of (object s))). split; [by apply shows_iff|]. by apply H.
Qed.
Print Assumptions C141_at_rest.
(** From every state of the controller such runs exist, with any state of the scheduler's
    pod and endpoints. *)
Theorem C141_runs_exist : forall max_age h s, lreach max_age h s -> exists run ev, run 0%nat = s /\ endless max_age run ev /\ fair run ev /\ healthy ev 0 /\
  (forall i, the_pod (run i) = the_pod s /\ the_ends (run i) = the_ends s) /\ (forall i, ev i <> LStop).
Proof. exact runs_exist. Qed.
Print Assumptions C141_runs_exist.

(** C142. A cluster that is starting does not stay so: if its scheduler's pod runs and the
    endpoints are ready from some event on, and nobody stops it, then some day it is
    running, or has ended. *)
Theorem C142_starts : forall max_age run ev n i, endless max_age run ev -> fair run ev -> healthy ev n ->
  (forall k, active (object (run k)) = true) -> (forall v, v ∈ versions (l_obj (run i)) -> shows v Pending) ->
  (forall k, (n <= k)%nat -> pod_runs (the_pod (run k)) /\ the_ends (run k) = Some true) ->
  exists j, (i <= j)%nat /\ ~ shows (object (run j)) Pending.
Proof. intros ma run ev n i HE HF HH. by eapply starts. Qed.
Print Assumptions C142_starts.
(** C142, failures: a cluster whose scheduler has ended for good is recorded as failed or
    stopped some day. *)
Theorem C142_fails : forall max_age run ev n i, endless max_age run ev -> fair run ev -> healthy ev n ->
  (forall k, active (object (run k)) = true) -> (forall v p, v ∈ versions (l_obj (run i)) -> shows v p -> ~ over p) ->
  (forall k, (n <= k)%nat -> pod_ended (the_pod (run k))) ->
  exists j p, (i <= j)%nat /\ shows (object (run j)) p /\ over p.
Proof. intros ma run ev n i HE HF HH. by eapply fails. Qed.
Print Assumptions C142_fails.
(** ... and one whose scheduler's pod is gone for good does not go on being shown as
    running. *)
Theorem C142_lost : forall max_age run ev n i, endless max_age run ev -> fair run ev -> healthy ev n ->
  (forall k, active (object (run k)) = true) -> (forall v p, v ∈ versions (l_obj (run i)) -> shows v p -> ~ over p) ->
  (forall k, (n <= k)%nat -> the_pod (run k) = None) ->
  exists j, (i <= j)%nat /\ ~ shows (object (run j)) Running.
Proof. intros ma run ev n i HE HF HH. by eapply lost. Qed.
Print Assumptions C142_lost.
(** C142, at rest: when the controller has nothing to do and has not seen the cluster
    ended, it is not pending while its scheduler is ready or has ended, and not running
    while its scheduler has ended or is gone. *)
Theorem C142_at_rest : forall max_age h s, lreach max_age h s -> idle s -> noted (l_obj s) = None -> active (object s) = true ->
  (shows (object s) Pending -> ~ (pod_runs (the_pod s) /\ the_ends s = Some true) /\ ~ pod_ended (the_pod s)) /\
  (shows (object s) Running -> ~ pod_ended (the_pod s) /\ the_pod s <> None).
Proof.
  intros ma h s Hr Hi Hn Ha. destruct (idle_hold ma h s Hr Hi) as (_ & H2 & H3). split; intros Hs; apply shows_iff in Hs; auto.
Qed.
Print Assumptions C142_at_rest.

(** A new cluster; its first run creates the secret and the pod, which waits. *)
Definition fresh_obj : obj := Obj true 0 None.
Definition wait_pod : pod := MkPod PPending None.
Definition up_pod : pod := MkPod PRunning (Some Up).
Definition down_pod : pod := MkPod PFailed (Some Terminated).
Definition w_of (p : option pod) (e : option bool) : world := World (fun _ => Ok) (fun _ => Ok) p wait_pod e 5000 (Some false).
Definition bad_world : world := World (fun _ => Err) (fun _ => Err) None wait_pod None 5000 None.
Definition after (es : list levent) : life := (run (lstep 60) (linit fresh_obj) es).1.
Lemma after_reach es : exists h, lreach 60 h (after es).
Proof.
  unfold after. destruct (run (lstep 60) (linit fresh_obj) es) as [s h] eqn:E. exists h, fresh_obj. split; [done|]. by eapply run_exec.
Qed.
Definition begun : list levent := [LWatch 1; LGet; LEnd (w_of None None) true true].
(** C141: the cluster is stopped while its first run goes on, and the first attempt to
    clean up fails; the object is not yet ended, but all later runs that are fair end it. *)
Definition stopping_late : list levent := begun ++ [LStop; LWatch 2; LGet; LEnd bad_world false false].
Example C141_example : active (object (after stopping_late)) = false /\ shows (object (after stopping_late)) Pending /\ l_timer (after stopping_late) = true /\
  exists run ev, run 0%nat = after stopping_late /\ endless 60 run ev /\ fair run ev /\ healthy ev 0 /\ exists j, forall k, (j <= k)%nat -> has_ended (run k).
Proof.
  split_and!; try (vm_compute; reflexivity). destruct (after_reach stopping_late) as [h Hr]. destruct (runs_exist 60 h _ Hr) as (run & ev & H0 & HE & HF & HH & _).
  exists run, ev. split; [exact H0|]. split; [exact HE|]. split; [exact HF|]. split; [exact HH|]. destruct (C141_stops 60 run ev 0 0 HE HF HH) as (j & _ & Hj); [rewrite H0; vm_compute; reflexivity|]. eauto.
Qed.
(** C142: the pod runs and the endpoints are ready, the cluster is pending. *)
Definition ready : list levent := begun ++ [LPod (Some wait_pod); LWatch 1; LPod (Some up_pod); LEnds (Some true)].
Example C142_example : shows (object (after ready)) Pending /\
  exists run ev, run 0%nat = after ready /\ endless 60 run ev /\ fair run ev /\ healthy ev 0 /\ exists j, ~ shows (object (run j)) Pending.
Proof.
  split; [vm_compute; reflexivity|]. destruct (after_reach ready) as [h Hr]. destruct (runs_exist 60 h _ Hr) as (run & ev & H0 & HE & HF & HH & Hc & Hs).
  exists run, ev. split; [exact H0|]. split; [exact HE|]. split; [exact HF|]. split; [exact HH|]. destruct (C142_starts 60 run ev 0 0 HE HF HH) as (j & _ & Hj); [| | |eauto].
  - eapply stays_on; [exact HE|exact Hs|]. rewrite H0. vm_compute. reflexivity.
  - rewrite H0. assert (Forall (fun v => shows v Pending) (versions (l_obj (after ready)))) as HF' by (vm_compute; repeat constructor). intros v Hv. by eapply Forall_forall in HF'.
  - intros k _. destruct (Hc k) as [-> ->]. split; [exists up_pod; split; vm_compute; reflexivity|vm_compute; reflexivity].
Qed.
(** The same run, step by step: it is running after one more run. *)
Example C142_example_2 : shows (object (after (ready ++ [LGet; LEnd (w_of (Some up_pod) (Some true)) true true]))) Running /\
  shows (object (after (ready ++ [LGet; LEnd (w_of (Some up_pod) (Some true)) true true; LWatch 1; LPod (Some down_pod); LGet; LEnd (w_of (Some down_pod) (Some true)) true true]))) Failed.
Proof. split; vm_compute; reflexivity. Qed.
(** The scheduler of a running cluster ends, or its pod vanishes. *)
Definition going : list levent := ready ++ [LGet; LEnd (w_of (Some up_pod) (Some true)) true true; LWatch 1].
Example C142_example_3 : (exists run ev j p, run 0%nat = after (going ++ [LPod (Some down_pod)]) /\ shows (object (run 0%nat)) Running /\ endless 60 run ev /\ fair run ev /\ healthy ev 0 /\ shows (object (run j)) p /\ over p) /\
  (exists run ev j, run 0%nat = after (going ++ [LPod None]) /\ shows (object (run 0%nat)) Running /\ endless 60 run ev /\ fair run ev /\ healthy ev 0 /\ ~ shows (object (run j)) Running).
Proof.
  assert (Hv : forall es, forallb (fun v => match phase_of (status_of v) with Stopped | Failed => false | _ => true end) (versions (l_obj (after es))) = true ->
    forall v p, v ∈ versions (l_obj (after es)) -> shows v p -> ~ over p).
  { intros es H v p Hin Hs Ho. rewrite forallb_forall in H. apply elem_of_list_In in Hin. specialize (H v Hin). apply shows_iff in Hs. rewrite Hs in H. by destruct Ho as [-> | ->]. }
  split.
  - destruct (after_reach (going ++ [LPod (Some down_pod)])) as [h Hr]. destruct (runs_exist 60 h _ Hr) as (run & ev & H0 & HE & HF & HH & Hc & Hs).
    destruct (C142_fails 60 run ev 0 0 HE HF HH) as (j & p & _ & Hj).
    + eapply stays_on; [exact HE|exact Hs|]. rewrite H0. vm_compute. reflexivity.
    + rewrite H0. apply Hv. vm_compute. reflexivity.
    + intros k _. destruct (Hc k) as [-> _]. exists down_pod. split; vm_compute; reflexivity.
    + exists run, ev, j, p. split; [exact H0|]. split; [rewrite H0; vm_compute; reflexivity|]. split; [exact HE|]. split; [exact HF|]. split; [exact HH|exact Hj].
  - destruct (after_reach (going ++ [LPod None])) as [h Hr]. destruct (runs_exist 60 h _ Hr) as (run & ev & H0 & HE & HF & HH & Hc & Hs).
    destruct (C142_lost 60 run ev 0 0 HE HF HH) as (j & _ & Hj).
    + eapply stays_on; [exact HE|exact Hs|]. rewrite H0. vm_compute. reflexivity.
    + rewrite H0. apply Hv. vm_compute. reflexivity.
    + intros k _. destruct (Hc k) as [-> _]. vm_compute. reflexivity.
    + exists run, ev, j. split; [exact H0|]. split; [rewrite H0; vm_compute; reflexivity|]. split; [exact HE|]. split; [exact HF|]. split; [exact HH|exact Hj].
Qed.
(** C142 does not hold for a pod that vanishes before the cluster is running: the cluster
    stays pending for ever, although all answers are good (handle_pending_cluster waits for
    the pod whose name is recorded). *)
Definition vanished : list levent := begun ++ [LPod (Some wait_pod); LWatch 1; LGet; LEnd (w_of (Some wait_pod) None) true true; LPod None; LGet; LEnd (w_of None None) true true].
Theorem C142_vanished_refuted : exists run ev, endless 60 run ev /\ fair run ev /\ healthy ev 0 /\ (forall k, active (object (run k)) = true) /\
  (forall k, the_pod (run k) = None) /\ forall k, shows (object (run k)) Pending.
Proof.
  destruct (after_reach vanished) as [h Hr]. exists (turns 60 (after vanished)), (fun i => turn i (turns 60 (after vanished) i)).
  assert (Hst : forall i, turns 60 (after vanished) i = after vanished).
  { induction i as [|i IH]; [done|]. cbn [turns]. rewrite IH. unfold turn. destruct (i mod 4)%nat as [|[|[|]]]; vm_compute; reflexivity. }
  destruct (turns_fair 60 h (after vanished) Hr) as (HE & HF & HH & _). split; [exact HE|]. split; [exact HF|]. split; [exact HH|]. split_and!; intros k; rewrite Hst; vm_compute; reflexivity.
Qed.
Print Assumptions C142_vanished_refuted.
