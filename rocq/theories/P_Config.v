(** Properties C44, C45 and C66: resource limits and memory sizes. *)
From Coq Require Import Ascii ZArith QArith Qround Lqa Lia.
From stdpp Require Import prelude.
From Verif Require Import Config_Model Config_Spec Config_Proofs.
Local Open Scope Z_scope.

(** C44. The worker limit is the largest number of workers that fit together with the
    scheduler, and 0 if not even the scheduler fits. *)
Theorem C44_largest : forall s n, 0 < worker_mem s -> (0 < worker_cores s)%Q ->
  worker_limit s = Some n <-> limited s /\ ((fits s n /\ forall m, fits s m -> m <= n) \/ (n = 0 /\ ~ fits s 0)).
Proof. exact limit_largest. Qed.
Print Assumptions C44_largest.
Theorem C44_unlimited : forall s, worker_limit s = None <-> ~ limited s.
Proof. exact limit_none. Qed.
Print Assumptions C44_unlimited.
(** If nobody sets cluster_max_workers, it reads as this limit. *)
Theorem C44_default : forall kwargs conf c, forallb (fun x => negb (is_max x)) (kwargs ++ conf) = true -> build kwargs conf = Some c ->
  max_workers c = worker_limit (c_sizes c).
Proof. exact default_exact. Qed.
Print Assumptions C44_default.
(** The scheduler itself is always within the limits (otherwise there is no
    configuration). *)
Theorem C44_scheduler_fits : forall kwargs conf c, build kwargs conf = Some c ->
  (forall m, max_mem (c_sizes c) = Some m -> sched_mem (c_sizes c) <= m) /\ (forall q, max_cores (c_sizes c) = Some q -> (sched_cores (c_sizes c) <= q)%Q).
Proof. exact scheduler_room. Qed.
Print Assumptions C44_scheduler_fits.
Example C44_example_2 : build [SchedMem (20 * 2 ^ 30)] [MaxMem (Some (10 * 2 ^ 30))] = None /\ build [SchedCores 2] [MaxCores (Some (3 # 2))] = None /\
  exists c, build [SchedCores 2; SchedMem (10 * 2 ^ 30)] [SchedCores 1; MaxMem (Some (10 * 2 ^ 30)); MaxCores (Some (2 # 1))] = Some c /\ max_workers c = Some 0.
Proof. do 2 (split; [vm_compute; reflexivity|]). eexists. split; vm_compute; reflexivity. Qed.
(** 10 GiB of memory and 4.5 cores; the scheduler takes 2 GiB and 1 core, a worker 2
    GiB and 1.5 cores: 2 workers, limited by the cores. *)
Example C44_example : exists c, build [WorkerCores (3 # 2)] [MaxMem (Some (10 * 2 ^ 30)); MaxCores (Some (9 # 2))] = Some c /\
  max_workers c = Some 2 /\ fits (c_sizes c) 2 /\ ~ fits (c_sizes c) 3 /\ 0 < worker_mem (c_sizes c) /\ (0 < worker_cores (c_sizes c))%Q.
Proof.
  eexists. split; [vm_compute; reflexivity|]. cbn. repeat split; try lia; try (intros ? [= <-]; cbn; try lia; try lra; done).
  intros (_ & _ & H). specialize (H _ eq_refl). vm_compute in H. by apply H.
Qed.

(** C66. The maximum is within what the limits allow if it is set by the operator
    only and no option of the user overrides an operator's setting... *)
Theorem C66_operator_partial : forall kwargs conf c, forallb (fun x => negb (is_max x)) kwargs = true ->
  forallb (fun x => negb (existsb (same_trait x) conf)) kwargs = true -> once conf -> build kwargs conf = Some c -> within c.
Proof. exact operator_within. Qed.
Print Assumptions C66_operator_partial.
(** ... or if the operator sets no sizes and no limits. *)
Theorem C66_user_partial : forall kwargs conf c, forallb is_max conf = true -> once conf -> build kwargs conf = Some c -> within c.
Proof. exact user_within. Qed.
Print Assumptions C66_user_partial.
Example C66_example : exists c c', build [SchedCores 1] [MaxMem (Some (10 * 2 ^ 30)); MaxWorkers (Some 50)] = Some c /\ max_workers c = Some 4 /\
  build [MaxMem (Some (10 * 2 ^ 30)); MaxWorkers (Some 60)] [MaxWorkers (Some 50)] = Some c' /\ max_workers c' = Some 4.
Proof. do 2 eexists. split; [vm_compute; reflexivity|]. split; [reflexivity|]. split; vm_compute; reflexivity. Qed.
(** Not in general.  The operator allows 50 workers and 100 GiB, with workers of 1 GiB;
    a user asks for workers of 50 GiB.  They may still have 50. *)
Theorem C66_max_refuted : exists kwargs conf c, once kwargs /\ once conf /\ forallb (fun x => negb (is_max x)) kwargs = true /\
  build kwargs conf = Some c /\ max_workers c = Some 50 /\ worker_limit (c_sizes c) = Some 1 /\ ~ within c.
Proof.
  exists [WorkerMem (50 * 2 ^ 30)], [WorkerMem (2 ^ 30); MaxMem (Some (100 * 2 ^ 30)); MaxWorkers (Some 50)].
  eexists. split; [|split; [|split; [reflexivity|split; [vm_compute; reflexivity|]]]].
  - intros l1 x l2 y l3 H. exfalso. apply (f_equal length) in H. rewrite !app_length in H. cbn in H. rewrite app_length in H. cbn in H. lia.
  - intros l1 x l2 y l3 H. assert (Hn : (length l1 + length l2 <= 1)%nat).
    { apply (f_equal length) in H. rewrite !app_length in H. cbn in H. rewrite app_length in H. cbn in H. lia. }
    destruct l1 as [|? [|? ?]], l2 as [|? [|? ?]]; cbn in Hn; try lia; simplify_eq/=; done.
  - split; [reflexivity|]. split; [vm_compute; reflexivity|]. intros H. destruct (H 1) as (n & [= <-] & Hn); [vm_compute; reflexivity|lia].
Qed.
Print Assumptions C66_max_refuted.

(** C45. What PBS is asked for is at least the configured size and at most a tenth
    more, up to 2^53 bytes... *)
Theorem C45_pbs_partial : forall n, 0 <= n <= 2 ^ 53 -> n <= denotes (pbs_memory n) /\ 10 * denotes (pbs_memory n) <= 11 * n.
Proof. exact pbs_exact. Qed.
Print Assumptions C45_pbs_partial.
(** ... and beyond that it is short by at most one part in 2^53... *)
Theorem C45_pbs_large_partial : forall n, 0 <= n -> (2 ^ 53 - 1) * n <= 2 ^ 53 * denotes (pbs_memory n).
Proof. exact pbs_near. Qed.
Print Assumptions C45_pbs_large_partial.
(** ... which does happen. *)
Theorem C45_pbs_refuted : exists n, 0 <= n /\ denotes (pbs_memory n) < n.
Proof. exists (2 ^ 53 + 1). vm_compute. split; done. Qed.
Print Assumptions C45_pbs_refuted.
(** The same for Slurm from 10 KiB on; below, Slurm is asked for 1 KiB. *)
Theorem C45_slurm_partial : forall n, 10 * 1024 <= n <= 2 ^ 53 -> n <= denotes (slurm_memory n) /\ 10 * denotes (slurm_memory n) <= 11 * n.
Proof. exact slurm_exact. Qed.
Print Assumptions C45_slurm_partial.
Theorem C45_slurm_refuted : exists n, 0 <= n < 10 * 1024 /\ denotes (slurm_memory n) < n.
Proof. exists 5000. vm_compute. repeat split; done. Qed.
Print Assumptions C45_slurm_refuted.
(** A configured size such as "2.5 G" is read as the number of bytes, rounded down. *)
Theorem C45_read : forall x u m, (0 <= x)%Q -> memory_limit (Str (Some x) u) = Some m ->
  exists f, (u = "K"%char /\ f = 1024 \/ u = "M"%char /\ f = 1024 ^ 2 \/ u = "G"%char /\ f = 1024 ^ 3 \/ u = "T"%char /\ f = 1024 ^ 4) /\
    (inject_Z m <= x * inject_Z f < inject_Z (m + 1))%Q.
Proof. exact memory_limit_spec. Qed.
Print Assumptions C45_read.
Example C45_example : memory_limit (Str (Some (5 # 2)) "G") = Some 2684354560 /\ pbs_memory 2684354560 = (2560, Mega) /\
  slurm_memory (2684354560 + 1) = (2561, Mega) /\ pbs_memory 10239 = (10239, Bytes).
Proof. vm_compute. repeat split; done. Qed.
