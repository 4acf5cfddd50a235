(** C107-C109: the life of the gateway process. *)
From Coq Require Import ZArith Lia.
From stdpp Require Import prelude gmap.
From Verif Require Import Trace App_Model App_Spec App_Proofs App_Proofs2.

Definition boot (n : nat) : list event := replicate n (EMain true).

(** * C107: the backend is used only between its setup and its cleanup *)
(** Once do_cleanup has been called, no operation of the backend is. *)
Theorem C107_not_after cf cs a h s o1 o2 :
  life cf cs a h s -> outs h = o1 ++ OCleanup :: o2 -> Forall (fun x => ~ is_call x) o2.
Proof. exact (not_after cf cs a h s o1 o2). Qed.
Print Assumptions C107_not_after.
(** A backend whose do_setup does not ask anybody else is set up before any of its
    operations is called. *)
Theorem C107_ready_partial cf cs a h s :
  suspends cf = false -> life cf cs a h s -> forall n r, OStart n r ∈ outs h \/ OStop n r ∈ outs h -> r = true.
Proof. exact (only_ready cf cs a h s). Qed.
Print Assumptions C107_ready_partial.
(** With YARN they are called before it is: a cluster that was to be stopped when the
    gateway was restarted is recorded as closed although its application runs and will not be
    stopped by anything the gateway does; a cluster that was to be started is failed.  All
    that the gateway and the backend were asked to do works, and the gateway serves. *)
Theorem C107_refuted :
  exists cs a h s, life (yarn true false) cs a h s /\ Forall (fun x => works (fst x)) h /\ ~ happened ESignal h /\ at_ s = Serving /\
  cs !! 0 = Some (Cl Submitted false true) /\ 0 ∈ a /\ OStop 0 false ∈ outs h /\ clusters s !! 0 = Some (Cl Closed false true) /\
  (forall h' s', exec (step (yarn true false)) s h' s' -> ~ happened (EDie 0) h' -> clusters s' !! 0 = Some (Cl Closed false true) /\ 0 ∈ apps s') /\
  cs !! 1 = Some (Cl Created true false) /\ OStart 1 false ∈ outs h /\ clusters s !! 1 = Some (Cl Closed false false).
Proof.
  set (cs := {[0 := Cl Submitted false true; 1 := Cl Created true false]} : gmap nat cluster).
  set (es := boot 6 ++ [ETurn 0 true; ETurn 1 true; ETurn 1 true] ++ boot 3).
  destruct (run (step (yarn true false)) (init cs {[0]}) es) as [s h] eqn:E.
  assert (s = fst (run (step (yarn true false)) (init cs {[0]}) es)) as Hs by (by rewrite E).
  assert (h = snd (run (step (yarn true false)) (init cs {[0]}) es)) as Hh by (by rewrite E).
  assert (map fst h = es /\ outs h = [OStop 0 false; OStart 1 false; OStop 1 false; OServe] /\ at_ s = Serving /\ clusters s !! 0 = Some (Cl Closed false true) /\ clusters s !! 1 = Some (Cl Closed false false)) as (F1 & F2 & F3 & F4 & F5).
  { rewrite Hs, Hh. vm_compute. repeat split; reflexivity. }
  assert (0 ∈ apps s) as F6 by (rewrite Hs; apply (bool_decide_unpack _); vm_compute; exact I).
  exists cs, {[0]}, h, s. clear Hs Hh. split; [by apply run_exec in E|].
  split; [apply Forall_forall; intros x Hx; assert (fst x ∈ es) as Hin by (rewrite <- F1; by apply elem_of_list_fmap_1); unfold es, boot in Hin; cbn in Hin; repeat (apply elem_of_cons in Hin as [->|Hin]; [done|]); by apply elem_of_nil in Hin|].
  split; [unfold happened; rewrite F1; unfold es, boot; cbn; intros Hin; repeat (apply elem_of_cons in Hin as [Hin|Hin]; [discriminate Hin|]); by apply elem_of_nil in Hin|].
  split; [done|]. split; [done|]. split; [set_solver|]. split; [rewrite F2; left|]. split; [done|].
  split; [intros h' s' Hx Hd; by eapply closed_stays|]. split; [done|]. split; [rewrite F2; right; left|]. done.
Qed.
Print Assumptions C107_refuted.

(** * C108: a gateway that does not get to serve leaves the clusters of an earlier one alone *)
(** What makes a cluster unwanted: a request to stop it, a start of it that was tried, or,
    with stop_clusters_on_shutdown, a signal or something that failed in main. *)
Theorem C108_cause cf cs a h s n st ap :
  life cf cs a h s -> cs !! n = Some (Cl st true ap) -> st <> Closed ->
  exists c, clusters s !! n = Some c /\
  (c = Cl st true ap \/ happened (EStop n) h \/ (exists r, OStart n r ∈ outs h) \/ (stop_flag cf = true /\ (happened ESignal h \/ happened (EMain false) h))).
Proof. exact (wanted_cause cf cs a h s n st ap). Qed.
Print Assumptions C108_cause.
(** With stop_clusters_on_shutdown off, or if nothing in main failed and there was no signal,
    a running cluster keeps its record and its application unless a request asks for its
    stop, and the backend is not asked to start or stop it. *)
Theorem C108_partial cf cs a h s n :
  life cf cs a h s -> runs n cs a -> ~ happened (EStop n) h -> (stop_flag cf = false \/ (~ happened ESignal h /\ ~ happened (EMain false) h)) ->
  clusters s !! n = Some (Cl Submitted true true) /\ (forall r, OStop n r ∉ outs h /\ OStart n r ∉ outs h) /\ (~ happened (EDie n) h -> n ∈ apps s).
Proof. exact (running_kept cf cs a h s n). Qed.
Print Assumptions C108_partial.
(** As long as the database has not been opened, nothing is done to clusters. *)
Theorem C108_before_db cf cs a h s :
  life cf cs a h s -> db s = false -> clusters s = cs /\ Forall (fun x => ~ is_call x) (outs h).
Proof. exact (before_db cf cs a h s). Qed.
Print Assumptions C108_before_db.
(** With stop_clusters_on_shutdown on, which is the default, a gateway that cannot listen,
    for instance because another one does, stops the clusters: the only thing that fails is
    that the port is taken. *)
Theorem C108_refuted :
  exists h s, life (others true false) {[0 := Cl Submitted true true]} {[0]} h s /\ runs 0 {[0 := Cl Submitted true true]} {[0]} /\
  map fst h = boot 8 ++ [EMain false] ++ boot 3 ++ [ETurn 0 true] ++ boot 6 /\
  at_ s = Exited 1 /\ outs h = [OStop 0 true; OCleanup; OTerm; OStopped; OExit 1] /\ clusters s !! 0 = Some (Cl Closed false true) /\ 0 ∉ apps s.
Proof.
  destruct (run (step (others true false)) (init {[0 := Cl Submitted true true]} {[0]}) (boot 8 ++ [EMain false] ++ boot 3 ++ [ETurn 0 true] ++ boot 6)) as [s h] eqn:E.
  exists h, s. split; [by apply run_exec in E|]. split; [split; [done|set_solver]|].
  assert (s = fst (run (step (others true false)) (init {[0 := Cl Submitted true true]} {[0]}) (boot 8 ++ [EMain false] ++ boot 3 ++ [ETurn 0 true] ++ boot 6))) as -> by (by rewrite E).
  assert (h = snd (run (step (others true false)) (init {[0 := Cl Submitted true true]} {[0]}) (boot 8 ++ [EMain false] ++ boot 3 ++ [ETurn 0 true] ++ boot 6))) as -> by (by rewrite E).
  clear E. do 4 (split; [vm_compute; reflexivity|]). apply (bool_decide_unpack _). vm_compute. exact I.
Qed.
Print Assumptions C108_refuted.

(** * C109: the gateway process says how it ended, and leaves nothing behind *)
(** Exit code 1 says that it never served, and something in main had failed; exit code 0
    that there was a signal.  There are no others. *)
Theorem C109_code cf cs a h s c :
  life cf cs a h s -> at_ s = Exited c -> (c = 1%Z /\ OServe ∉ outs h /\ happened (EMain false) h) \/ (c = 0%Z /\ happened ESignal h).
Proof. intros Hx Ha. pose proof (exit_code cf cs a h s Hx) as H. by rewrite Ha in H. Qed.
Print Assumptions C109_code.
(** If it says that it stopped successfully, the session, the authenticator, the proxy
    process, the listening socket and its tasks are gone, and with stop_clusters_on_shutdown
    all clusters are closed. *)
Theorem C109_released cf cs a h s :
  life cf cs a h s -> OStopped ∈ outs h ->
  released s /\ (exists c, at_ s = Exited c) /\
  (db s = true -> stop_flag cf = true -> forall n c, clusters s !! n = Some c -> c_st c = Closed).
Proof.
  intros Hx Ho. destruct (stopped_released cf cs a h s Hx Ho) as (H1 & H2 & H3). split; [done|]. split; [done|].
  intros Hd Hf n c Hc. specialize (H3 Hd Hf n c Hc). unfold is_open in H3. by destruct (c_st c).
Qed.
Print Assumptions C109_released.
(** Whatever has happened before, once it is ending it can end, without another signal and
    without anything failing. *)
Theorem C109_can_end cf cs a h s c l :
  life cf cs a h s -> at_ s = Cleanup c l ->
  exists h' s', exec (step cf) s h' s' /\ at_ s' = Exited c /\ Forall (fun x => fst x <> ESignal /\ works (fst x)) h'.
Proof. exact (can_end cf cs a l h s c). Qed.
Print Assumptions C109_can_end.
(** With YARN, if the resource manager cannot be reached when the gateway starts, the proxy
    process is not told to end: do_cleanup uses the client that do_setup has not made. *)
Theorem C109_refuted :
  exists h s, life (yarn true false) ∅ ∅ h s /\ map fst h = boot 6 ++ [EMain false] ++ boot 6 /\
  at_ s = Exited 1 /\ outs h = [OExit 1] /\ proc s = true /\ session s = true.
Proof.
  destruct (run (step (yarn true false)) (init ∅ ∅) (boot 6 ++ [EMain false] ++ boot 6)) as [s h] eqn:E.
  exists h, s. split; [by apply run_exec in E|].
  assert (s = fst (run (step (yarn true false)) (init ∅ ∅) (boot 6 ++ [EMain false] ++ boot 6))) as -> by (by rewrite E).
  assert (h = snd (run (step (yarn true false)) (init ∅ ∅) (boot 6 ++ [EMain false] ++ boot 6))) as -> by (by rewrite E).
  clear E. do 4 (split; [vm_compute; reflexivity|]). vm_compute. reflexivity.
Qed.
Print Assumptions C109_refuted.

(** The hypotheses are satisfiable: a gateway that starts, runs a cluster and is stopped by a
    signal, with the clusters of an earlier one and with a new one. *)
Definition busy : list event := boot 9 ++ [ECreate 1; ETurn 1 true; ESignal] ++ boot 3 ++ [ETurn 0 true; ETurn 1 true] ++ boot 6.
Example C107_C109_nonvacuous :
  let r := run (step (others true false)) (init {[0 := Cl Submitted true true]} {[0]}) busy in
  at_ (fst r) = Exited 0 /\ outs (snd r) = [OServe; OStart 1 true; OStop 0 true; OStop 1 true; OCleanup; OTerm; OStopped; OExit 0] /\ clusters (fst r) !! 1 = Some (Cl Closed false true).
Proof. vm_compute. repeat split; reflexivity. Qed.
Example C108_nonvacuous :
  let r := run (step (others false false)) (init {[0 := Cl Submitted true true]} {[0]}) busy in
  at_ (fst r) = Exited 0 /\ outs (snd r) = [OServe; OStart 1 true; OCleanup; OTerm; OStopped; OExit 0] /\ clusters (fst r) !! 0 = Some (Cl Submitted true true).
Proof. vm_compute. repeat split; reflexivity. Qed.
Example C108_before_db_nonvacuous :
  let r := run (step (yarn true false)) (init {[0 := Cl Submitted true true]} {[0]}) (boot 4 ++ [EMain false] ++ boot 9) in
  at_ (fst r) = Exited 1 /\ db (fst r) = false /\ outs (snd r) = [OExit 1].
Proof. vm_compute. repeat split; reflexivity. Qed.
