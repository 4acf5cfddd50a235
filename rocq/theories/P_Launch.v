(** Properties C85, C86: what schedulers and workers are started with. *)
From Coq Require Import Ascii String.
From stdpp Require Import prelude.
From Verif Require Import Router_Model ProxyLog_Model Launch_Model Launch_Spec Launch_Proofs.
Local Open Scope nat_scope.

(** C85. "Whatever variables are asked for, a process has the gateway's own." *)
Theorem C85_set_by_gateway : forall b g c r k v, sane b -> (k, v) ∈ required b g c r -> dget k (process_env b g c r) = Some v.
Proof. exact env_required. Qed.
(** All others are as asked for (for local processes: as the operator lets them inherit). *)
Theorem C85_as_asked : forall b g c r k, ~ set_by_gateway r k -> dget k (process_env b g c r) = expected b c k.
Proof. exact env_rest. Qed.
(** YARN: a container also has its own worker's name and its scheduler's address. *)
Theorem C85_yarn_worker : forall g c w k, dget k (yarn_container_env g c w) =
  if decide (k = b_ "DASK_GATEWAY_WORKER_NAME") then Some w
  else if decide (k = b_ "DASK_GATEWAY_SCHEDULER_ADDRESS") then Some (c_address c) else dget k (process_env Yarn g c Worker).
Proof. exact yarn_worker_env. Qed.
Print Assumptions C85_set_by_gateway.
Print Assumptions C85_as_asked.
Print Assumptions C85_yarn_worker.

(** C86. "A batch job has exactly these variables": as long as no name asked for has a
    comma or an equals sign in it. *)
Theorem C86_variables_partial : forall b g c w k, b = Pbs \/ b = Slurm -> Forall plain_name (map fst (c_env c)) ->
  dget k (job_env (submit b g c w)) = dget k (process_env b g c (match w with Some _ => Worker | None => Scheduler end)).
Proof. exact job_env_ok. Qed.
(** "... and runs exactly the configured command": as long as no word of it is special
    to the shell. *)
Theorem C86_command_partial : forall b g c w, b = Pbs \/ b = Slurm ->
  let cmd := match w with Some n => worker_command b c n None | None => scheduler_command b g c end in
  Forall plain_word cmd -> sh_words (last_line (j_script (submit b g c w))) = Some cmd.
Proof. exact script_runs. Qed.
(** A worker is told its scheduler's address, its name, threads and memory. *)
Theorem C86_worker_told : forall b c w, b <> Yarn -> exists opts,
  worker_command b c w None = c_worker_cmd c ++ c_address c :: flags opts /\
  dget (b_ "--name") opts = Some w /\ dget (b_ "--nthreads") opts = Some (c_threads c) /\ dget (b_ "--memory-limit") opts = Some (c_memory c).
Proof.
  intros b c w Hb. exists [(b_ "--dashboard-address", default_host b ++ b_ ":0"); (b_ "--name", w); (b_ "--nthreads", c_threads c); (b_ "--memory-limit", c_memory c)].
  by destruct b.
Qed.
(** A scheduler speaks TLS, and is told how often to report and when to give up. *)
Theorem C86_scheduler_told : forall b g c, exists opts,
  scheduler_command b g c = c_scheduler_cmd c ++ flags opts /\
  dget (b_ "--protocol") opts = Some (b_ "tls") /\ dget (b_ "--host") opts = Some (default_host b) /\
  dget (b_ "--preload") opts = Some (b_ "dask_gateway.scheduler_preload") /\ dget (b_ "--dg-heartbeat-period") opts = Some (gw_heartbeat g) /\
  dget (b_ "--dg-adaptive-period") opts = Some (c_adaptive_period c) /\ dget (b_ "--dg-idle-timeout") opts = Some (c_idle_timeout c).
Proof.
  intros b g c. exists [(b_ "--protocol", b_ "tls"); (b_ "--port", b_ "0"); (b_ "--host", default_host b);
   (b_ "--dashboard-address", default_host b ++ b_ ":0"); (b_ "--preload", b_ "dask_gateway.scheduler_preload");
   (b_ "--dg-api-address", default_host b ++ b_ ":0"); (b_ "--dg-heartbeat-period", gw_heartbeat g);
   (b_ "--dg-adaptive-period", c_adaptive_period c); (b_ "--dg-idle-timeout", c_idle_timeout c)]. done.
Qed.

Definition ex_g : gateway := Gw (b_ "http://gw:8000/api") (b_ "15").
Definition ex_c (env : list (bytes * bytes)) (cmd : list bytes) : cluster :=
  Cluster (b_ "c1") (b_ "secret") (b_ "alice") (b_ "tls://10.0.0.7:4321") env cmd [b_ "dask-worker"] (b_ "3") (b_ "0.0") (b_ "2") (b_ "2147483648")
    [] [] (b_ "/run/dask/c1") (b_ "/home/alice/.dask-gateway/") true.
(** A variable with a comma in its name is lost; so are the words of a command with a
    blank in one of them. *)
Theorem C86_variables_refuted : exists g c k v, dget k (process_env Slurm g c Scheduler) = Some v /\ dget k (job_env (submit Slurm g c None)) = None.
Proof.
  exists ex_g, (ex_c [(b_ "A,B", b_ "1")] [b_ "dask-scheduler"]), (b_ "A,B"), (b_ "1"). split; vm_compute; reflexivity.
Qed.
Theorem C86_command_refuted : exists g c ws, sh_words (last_line (j_script (submit Slurm g c None))) = Some ws /\ ws <> scheduler_command Slurm g c.
Proof.
  exists ex_g, (ex_c [] [b_ "/opt/my env/bin/dask-scheduler"]). eexists. split; [vm_compute; reflexivity|]. intros E.
  apply (f_equal length) in E. vm_compute in E. discriminate E.
Qed.
Print Assumptions C86_variables_partial.
Print Assumptions C86_variables_refuted.
Print Assumptions C86_command_partial.
Print Assumptions C86_command_refuted.
Print Assumptions C86_worker_told.
Print Assumptions C86_scheduler_told.

(** A user who asks for their own token and address gets neither; a plain variable is
    passed on, also to the batch job; the gateway's PATH is inherited. *)
Definition ex_env : list (bytes * bytes) := [(b_ "DASK_GATEWAY_API_TOKEN", b_ "mine"); (b_ "OMP_NUM_THREADS", b_ "1"); (b_ "PATH", b_ "/tmp")].
Example C85_example :
  let c := ex_c ex_env [b_ "dask-scheduler"] in
  let local := Local [b_ "PATH"] [(b_ "PATH", b_ "/usr/bin"); (b_ "SECRET", b_ "x")] in
  sane local /\ dget (b_ "DASK_GATEWAY_API_TOKEN") (process_env local ex_g c Worker) = Some (b_ "secret") /\
  dget (b_ "PATH") (process_env local ex_g c Worker) = Some (b_ "/usr/bin") /\ dget (b_ "SECRET") (process_env local ex_g c Worker) = None /\
  dget (b_ "OMP_NUM_THREADS") (job_env (submit Pbs ex_g c (Some (b_ "w1")))) = Some (b_ "1") /\
  dget (b_ "DASK_GATEWAY_API_TOKEN") (job_env (submit Pbs ex_g c (Some (b_ "w1")))) = Some (b_ "secret") /\
  Forall plain_name (map fst (c_env c)) /\ Forall plain_word (scheduler_command Slurm ex_g c) /\ Forall plain_word (worker_command Slurm c (b_ "w1") None) /\
  dget (b_ "DASK_DISTRIBUTED__COMM__TLS__WORKER__KEY") (process_env Slurm ex_g c Worker) = Some (b_ "/home/alice/.dask-gateway/c1/dask.pem").
Proof.
  cbn zeta. split; [|split; [vm_compute; reflexivity|split; [vm_compute; reflexivity|split; [vm_compute; reflexivity|split; [vm_compute; reflexivity|
    split; [vm_compute; reflexivity|split; [|split; [|split; [|vm_compute; reflexivity]]]]]]]]].
  - intros r k Hk. cbn in Hk. apply elem_of_list_singleton in Hk as ->. intros [H|[H|H]].
    + revert H. apply (bool_decide_unpack _). vm_compute. done.
    + destruct r; discriminate H.
    + destruct r; discriminate H.
  - apply (bool_decide_unpack _). vm_compute. done.
  - apply (bool_decide_unpack _). vm_compute. done.
  - apply (bool_decide_unpack _). vm_compute. done.
Qed.
