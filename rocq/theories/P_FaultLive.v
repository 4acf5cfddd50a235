(** Property C140: what the database-backed gateway (db_base.py, Fault_Model) does
    sooner or later although database calls failed.  [fendless] and [ffair] are in
    Fault_Spec2, [to_end], [ended], [up] and [has_worker] in Gateway_Spec3. *)
From Coq Require Import ZArith Lia Ascii String.
From stdpp Require Import prelude gmap.
From Verif Require Import Trace WorkQueue_Model Router_Model Gateway_Model Gateway_Spec Gateway_Spec3 Gateway_Proofs P_Gateway
  Fault_Model Fault_Spec Fault_Spec2 Fault_Proofs Fault_Queue Fault_Live P_Fault.
Open Scope Z_scope.

(** The runs the theorems are about exist: after every history in which what
    failed was repaired, and beginning with any events in which calls raise before
    anything changed. *)
Theorem C140_runs_exist : forall cf h s pre, fresh_ids cf -> freach cf h s -> healed h -> closed (q s) = false -> (0 < parallelism cf)%nat ->
  Forall (fun fe => fcrash fe = false /\ closes fe = false /\ forall f, f ∈ faults fe -> clean f) pre ->
  exists run ev, run O = s /\ (forall i e, pre !! i = Some e -> ev i = e) /\ fendless cf run ev /\ ffair cf run ev.
Proof.
  intros cf h s pre Hi Hr Hh Hc Hp Hpre. exists (frun_of cf s (fevs_of pre)), (fevs_of pre). split; [done|].
  split; [intros i e E; unfold fevs_of; rewrite E; done|]. eapply fruns_exist; eauto.
Qed.
Print Assumptions C140_runs_exist.

(** C140. A stop request that was answered with success is carried out. *)
Theorem C140_stop_ends : forall cf run ev i n failed lt fs c, fendless cf run ev -> ffair cf run ev ->
  ev i = FE (EStop n failed) lt fs -> lookup_cluster n (run i) = Some c -> FError ∉ (fstep cf (run i) (ev i)).2 ->
  exists j, (i <= j)%nat /\ forall l, (j <= l)%nat -> ended (run l) n.
Proof. intros cf run ev i n failed lt fs c HE HF. exact (fstop_ends cf run ev HE HF i n failed lt fs c). Qed.
Print Assumptions C140_stop_ends.
(** The same for whatever reason the cluster has to end, and for a single worker. *)
Theorem C140_told_ends : forall cf run ev i n, fendless cf run ev -> ffair cf run ev -> to_end (run i) n ->
  exists j, (i <= j)%nat /\ forall l, (j <= l)%nat -> ended (run l) n.
Proof. intros cf run ev i n HE HF. exact (ftold_ends cf run ev HE HF i n). Qed.
Print Assumptions C140_told_ends.
Theorem C140_worker_ends : forall cf run ev i n w x, fendless cf run ev -> ffair cf run ev ->
  has_worker (run i) n w x -> finished (w_target x) ->
  exists j, (i <= j)%nat /\ forall l, (j <= l)%nat -> exists y, has_worker (run l) n w y /\ finished (w_status y).
Proof. intros cf run ev i n w x HE HF. exact (fworker_told cf run ev HE HF i n w x). Qed.
Print Assumptions C140_worker_ends.
(** What was created is given to the backend, or was told to end before. *)
Theorem C140_starts : forall cf run ev i n c, fendless cf run ev -> ffair cf run ev -> objs (run i) !! n = Some c ->
  exists j, (i <= j)%nat /\ forall l, (j <= l)%nat -> exists d, objs (run l) !! n = Some d /\ c_status d <> CREATED.
Proof. intros cf run ev i n c HE HF. exact (fcreated_starts cf run ev HE HF i n c). Qed.
Print Assumptions C140_starts.
Theorem C140_worker_starts : forall cf run ev i n w x, fendless cf run ev -> ffair cf run ev -> has_worker (run i) n w x ->
  exists j, (i <= j)%nat /\ forall l, (j <= l)%nat -> exists y, has_worker (run l) n w y /\ w_status y <> CREATED.
Proof. intros cf run ev i n w x HE HF. exact (fcreated_wstarts cf run ev HE HF i n w x). Qed.
Print Assumptions C140_worker_starts.
(** A running cluster gets its routes and its workers, unless it has to end. *)
Theorem C140_running_up : forall cf run ev i n c, fendless cf run ev -> ffair cf run ev -> objs (run i) !! n = Some c -> c_status c = RUNNING ->
  exists j, (i <= j)%nat /\ (up (run j) n \/ to_end (run j) n).
Proof. intros cf run ev i n c HE HF. exact (frunning_up cf run ev HE HF i n c). Qed.
Print Assumptions C140_running_up.

(** A running cluster.  A stop request fails; a second one is answered with
    success; then the reconciler is interrupted twice; then only turns. *)
Definition fex_trouble : list fevent :=
  [bad (EStop 0 false) [Before]; fine (EStop 0 false); bad (EGet 0 201) [Before]; FTimer 300 (0%nat, None); bad (EGet 0 301) [Good; Before]].
Example C140_example : exists run ev c, let cf := ex_cf false 3 in fendless cf run ev /\ ffair cf run ev /\
  lookup_cluster 0 (run O) = Some c /\ c_status c = RUNNING /\ length (c_workers c) = 2%nat /\
  ev O = bad (EStop 0 false) [Before] /\ FError ∈ (fstep cf (run O) (ev O)).2 /\ ~ to_end (run 1%nat) 0 /\
  ev 1%nat = fine (EStop 0 false) /\ FError ∉ (fstep cf (run 1%nat) (ev 1%nat)).2 /\ to_end (run 2%nat) 0 /\
  FRetry (0%nat, None) ∈ (fstep cf (run 2%nat) (ev 2%nat)).2 /\ FRetry (0%nat, None) ∈ (fstep cf (run 4%nat) (ev 4%nat)).2 /\ ~ ended (run 5%nat) 0.
Proof.
  destruct (fex_run (ex_cf false 3) fex_ups (fun h s => closed (q s) = false /\ exists c c1 c2 c5, lookup_cluster 0 s = Some c /\ c_status c = RUNNING /\ length (c_workers c) = 2%nat /\
    FError ∈ (fstep (ex_cf false 3) s (bad (EStop 0 false) [Before])).2 /\ objs (frun_of (ex_cf false 3) s (fevs_of fex_trouble) 1) !! O = Some c1 /\ c_target c1 = RUNNING /\
    (fstep (ex_cf false 3) (frun_of (ex_cf false 3) s (fevs_of fex_trouble) 1) (fine (EStop 0 false))).2 = [] /\
    objs (frun_of (ex_cf false 3) s (fevs_of fex_trouble) 2) !! O = Some c2 /\ c_target c2 = STOPPED /\
    FRetry (0%nat, None) ∈ (fstep (ex_cf false 3) (frun_of (ex_cf false 3) s (fevs_of fex_trouble) 2) (bad (EGet 0 201) [Before])).2 /\
    FRetry (0%nat, None) ∈ (fstep (ex_cf false 3) (frun_of (ex_cf false 3) s (fevs_of fex_trouble) 4) (bad (EGet 0 301) [Good; Before])).2 /\
    objs (frun_of (ex_cf false 3) s (fevs_of fex_trouble) 5) !! O = Some c5 /\ c_status c5 = RUNNING))
    as (h & s & R & M & Ho & c & c1 & c2 & c5 & H1 & H2 & H3 & H4 & H5 & H6 & H7 & H8 & H9 & H10 & H11 & H12 & H13).
  { vm_compute. split; [reflexivity|]. do 4 eexists. do 3 (split; [reflexivity|]). split; [left|]. do 5 (split; [reflexivity|]). split; [left|]. split; [left|]. split; reflexivity. }
  exists (frun_of (ex_cf false 3) s (fevs_of fex_trouble)), (fevs_of fex_trouble), c. cbv zeta.
  destruct (fruns_exist (ex_cf false 3) h s fex_trouble) as [HE HF]; [apply ex_fresh|exact R|left; apply fex_clean; rewrite M; vm_compute; reflexivity|exact Ho|cbn; lia| |].
  { apply Forall_forall. intros fe Hin. repeat (apply elem_of_cons in Hin as [->|Hin]; [split; [reflexivity|]; split; [reflexivity|]; intros f Hf; cbn [faults] in Hf;
      repeat (apply elem_of_cons in Hf as [->|Hf]; [unfold clean; auto|]); inversion Hf|]). inversion Hin. }
  split; [exact HE|]. split; [exact HF|]. split; [exact H1|]. split; [exact H2|]. split; [exact H3|]. split; [reflexivity|]. split; [exact H4|].
  split; [intros (d & Hd & Ht); rewrite H5 in Hd; injection Hd as <-; exact (Ht H6)|]. split; [reflexivity|].
  split; [change (fevs_of fex_trouble 1) with (fine (EStop 0 false)); rewrite H7; intros H; inversion H|].
  split; [exists c2; split; [exact H8|rewrite H9; discriminate]|]. split; [exact H10|]. split; [exact H11|].
  intros (d & Hd & Hf & _). rewrite H12 in Hd. injection Hd as <-. rewrite H13 in Hf. destruct Hf; discriminate.
Qed.
(** A stop that got lost because its call raised after the commit, and a restart. *)
Example C140_example_2 : exists run ev, let cf := ex_cf false 3 in fendless cf run ev /\ ffair cf run ev /\ to_end (run O) 0 /\ ~ ended (run O) 0.
Proof.
  destruct (fex_run2 (ex_cf false 3) (fex_subs ++ [bad (EStop 0 false) [After]]) [fine (ERestart 20)]
    (fun h1 s1 h2 s2 => closed (q s2) = false /\ exists c, objs s2 !! 0%nat = Some c /\ c_target c = STOPPED /\ c_status c = SUBMITTED)) as (h1 & s1 & h2 & s2 & R & L & M1 & M2 & H1 & c & H2 & H3 & H4);
    [vm_compute; split; [reflexivity|]; eexists; repeat split|].
  destruct h2 as [|[fe o] h2]; [discriminate M2|]. injection M2 as -> M2.
  exists (frun_of (ex_cf false 3) s2 (fevs_of [])), (fevs_of []). cbv zeta.
  destruct (fruns_exist (ex_cf false 3) (h1 ++ (fine (ERestart 20), o) :: h2) s2 []) as [HE HF]; [apply ex_fresh|apply freach_app; exists s1; split; [exact R|exact L]| |exact H1|cbn; lia|constructor|].
  { right. exists h1, 20, 0, [], o, h2. split; [reflexivity|]. split; [apply fex_kept; rewrite M1; vm_compute; reflexivity|apply fex_clean; rewrite M2; reflexivity]. }
  split; [exact HE|]. split; [exact HF|]. split; [exists c; split; [exact H2|rewrite H3; discriminate]|].
  intros (d & Hd & Hf & _). cbn [frun_of] in Hd. rewrite H2 in Hd. injection Hd as <-. rewrite H4 in Hf. destruct Hf; discriminate.
Qed.
(** Without the restart it is lost for good, in a fair run without any further
    failure: the condition [healed] is needed. *)
Theorem C140_healed_refuted : exists h run ev, let cf := ex_cf false 3 in
  fresh_ids cf /\ freach cf h (run O) /\ fone_life h /\ only kept h /\ has FError h = true /\
  (forall i, run (S i) = (fstep cf (run i) (ev i)).1) /\ (forall i, fcrash (ev i) = false) /\ (forall i, closed (q (run i)) = false) /\
  (forall i, faults (ev i) = []) /\ ffair cf run ev /\ forall i, to_end (run i) 0 /\ ~ ended (run i) 0.
Proof.
  destruct (fex_run (ex_cf false 3) (fex_ups ++ [bad (EStop 0 false) [After]]) (fun h s => has FError h = true /\
    (queue (q s) = [] /\ (timers (q s) = ∅ /\ busy s = ∅) /\ closed (q s) = false /\ tasks (q s) = ∅) /\
    exists c, objs s !! 0%nat = Some c /\ c_target c = STOPPED /\ c_status c = RUNNING)) as (h & s & R & M & H1 & (Q1 & (Q2 & Q3) & Q4 & Q5) & c & Hc & H3 & H4).
  { vm_compute. split; [reflexivity|]. split; [|eexists; repeat split].
    split; [reflexivity|]. split; [split; apply gmap_eq, pmap.Pmap_eq; reflexivity|]. split; [reflexivity|]. apply gmap_eq, pmap.Pmap_eq; reflexivity. }
  assert (quiet_gw s) as HQ by (constructor; try done; intros k; rewrite Q5, lookup_empty; auto).
  exists h, (frun_of (ex_cf false 3) s (fevs_of [])), (fevs_of []). cbv zeta.
  split; [apply ex_fresh|]. split; [exact R|]. split; [apply fex_life; rewrite M; vm_compute; reflexivity|]. split; [apply fex_kept; rewrite M; vm_compute; reflexivity|].
  split; [exact H1|]. split; [done|].
  split; [intros i; destruct (fturns_case i) as [(k & E)|[(k & E)|[(k & E)|(lt & x & E)]]]; unfold fevs_of; cbn; rewrite E; done|].
  split; [intros i; apply (quiet_forever _ s i HQ)|].
  split; [intros i; destruct (fturns_case i) as [(k & E)|[(k & E)|[(k & E)|(lt & x & E)]]]; unfold fevs_of; cbn; rewrite E; done|].
  split; [apply fturns_fair; cbn; lia|]. intros i. destruct (quiet_forever (ex_cf false 3) s i HQ) as [_ Ho].
  split.
  - exists c. split; [|rewrite H3; discriminate]. transitivity (objs s !! 0%nat); [|exact Hc]. rewrite <- Ho. reflexivity.
  - intros (d & Hd & Hf & _). assert (objs s !! 0%nat = Some d) as Hd' by (rewrite <- Ho; exact Hd). rewrite Hc in Hd'. injection Hd' as <-. rewrite H4 in Hf. destruct Hf; discriminate.
Qed.
Print Assumptions C140_healed_refuted.
