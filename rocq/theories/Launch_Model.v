(** What a scheduler or worker of the database backends is started with:
    S/backends/db_base.py 1386-1469 (get_tls_paths, get_env, get_scheduler_env,
    get_worker_env, get_scheduler_command, get_worker_command),
    S/backends/local.py 136, 202-217 (paths and environment), S/backends/yarn.py 132-182,
    S/backends/jobqueue/base.py 77-88, pbs.py 112-163, slurm.py 56-103.
    (Kubernetes: Manifest_Model.)
    S = dask-gateway-server/dask_gateway_server.
    Strings are lists of ASCII characters; dicts are association lists in insertion
    order ([dget]/[dset] of ProxyLog_Model).  Numbers that are only printed are given
    as their text. *)
From Coq Require Import Ascii String.
From stdpp Require Import prelude.
From Verif Require Import Router_Model ProxyLog_Model.
Local Open Scope nat_scope.

(** dict.update. *)
Definition dupdate {V} (d : list (bytes * V)) (l : list (bytes * V)) : list (bytes * V) :=
  fold_left (fun d kv => dset (fst kv) (snd kv) d) l d.
(** os.path.join of two parts. *)
Definition slash : ascii := "/"%char.
Definition path_join (a b : bytes) : bytes :=
  match b with
  | c :: _ => if decide (c = slash) then b
              else match last a with None => b | Some c => if decide (c = slash) then a ++ b else a ++ slash :: b end
  | [] => match last a with None => [] | Some c => if decide (c = slash) then a else a ++ [slash] end
  end.
(** sep.join. *)
Fixpoint join (sep : bytes) (l : list bytes) : bytes :=
  match l with [] => [] | [x] => x | x :: l' => x ++ sep ++ join sep l' end.
(** sorted() of strings: by code points. *)
Fixpoint str_le (a b : bytes) : bool :=
  match a, b with
  | [], _ => true
  | _ :: _, [] => false
  | x :: a', y :: b' => (nat_of_ascii x <? nat_of_ascii y) || ((nat_of_ascii x =? nat_of_ascii y) && str_le a' b')
  end.
Fixpoint sort_in (x : bytes) (l : list bytes) : list bytes :=
  match l with [] => [x] | y :: l' => if str_le x y then x :: l else y :: sort_in x l' end.
Definition sorted (l : list bytes) : list bytes := foldr sort_in [] l.

(** The cluster and its configuration, as far as these functions read them.
    [c_workdir]: state["workdir"] of the local backend; [c_staging]: the formatted
    template of staging_directory. *)
Record cluster := Cluster {
  c_name : bytes; c_token : bytes; c_user : bytes; c_address : bytes;
  c_env : list (bytes * bytes); c_scheduler_cmd : list bytes; c_worker_cmd : list bytes;
  c_adaptive_period : bytes; c_idle_timeout : bytes; c_threads : bytes; c_memory : bytes;
  c_scheduler_setup : bytes; c_worker_setup : bytes; c_workdir : bytes; c_staging : bytes; c_stagein : bool }.
Inductive role := Scheduler | Worker.
Inductive backend :=
| Yarn | Pbs | Slurm
| Local (inherited : list bytes) (environ : list (bytes * bytes)).   (* inherited_environment, os.environ *)
Record gateway := Gw { gw_url : bytes; gw_heartbeat : bytes }.

(** get_tls_paths: db_base 1386-1388, local 202-209, jobqueue/base 77-88, pbs 112-115. *)
Definition staging_dir (c : cluster) : bytes := path_join (c_staging c) (c_name c).
Definition tls_paths (b : backend) (c : cluster) : bytes * bytes :=
  let staged := (path_join (staging_dir c) (b_ "dask.crt"), path_join (staging_dir c) (b_ "dask.pem")) in
  match b with
  | Yarn => (b_ "dask.crt", b_ "dask.pem")
  | Pbs => if c_stagein c then (b_ "dask.crt", b_ "dask.pem") else staged
  | Slurm => staged
  | Local _ _ => let certs := path_join (c_workdir c) (b_ ".certs") in
                 (path_join certs (b_ "dask.crt"), path_join certs (b_ "dask.pem"))
  end.
(** get_env (db_base 1390-1402). *)
Definition base_env (g : gateway) (c : cluster) : list (bytes * bytes) :=
  dupdate (dupdate [] (c_env c))
    [(b_ "DASK_GATEWAY_API_URL", gw_url g); (b_ "DASK_GATEWAY_API_TOKEN", c_token c);
     (b_ "DASK_GATEWAY_CLUSTER_NAME", c_name c); (b_ "DASK_DISTRIBUTED__COMM__REQUIRE_ENCRYPTION", b_ "True")].
(** The local backend's get_env (211-217). *)
Definition inherit (environ env : list (bytes * bytes)) (k : bytes) : list (bytes * bytes) :=
  match dget k environ with Some v => dset k v env | None => env end.
Definition get_env (b : backend) (g : gateway) (c : cluster) : list (bytes * bytes) :=
  match b with
  | Local inherited environ => dset (b_ "USER") (c_user c) (fold_left (inherit environ) inherited (base_env g c))
  | _ => base_env g c
  end.
(** get_scheduler_env (1404-1414), get_worker_env (1416-1426). *)
Definition process_env (b : backend) (g : gateway) (c : cluster) (r : role) : list (bytes * bytes) :=
  let '(cert, key) := tls_paths b c in
  dupdate (get_env b g c)
    match r with
    | Scheduler => [(b_ "DASK_DISTRIBUTED__COMM__TLS__CA_FILE", cert);
                    (b_ "DASK_DISTRIBUTED__COMM__TLS__SCHEDULER__KEY", key);
                    (b_ "DASK_DISTRIBUTED__COMM__TLS__SCHEDULER__CERT", cert)]
    | Worker => [(b_ "DASK_DISTRIBUTED__COMM__TLS__CA_FILE", cert);
                 (b_ "DASK_DISTRIBUTED__COMM__TLS__WORKER__KEY", key);
                 (b_ "DASK_DISTRIBUTED__COMM__TLS__WORKER__CERT", cert)]
    end.

(** default_host (db_base 1428, local 136). *)
Definition default_host (b : backend) : bytes := match b with Local _ _ => b_ "127.0.0.1" | _ => b_ "0.0.0.0" end.
(** get_scheduler_command (1430-1450). *)
Definition scheduler_command (b : backend) (g : gateway) (c : cluster) : list bytes :=
  c_scheduler_cmd c ++
  [b_ "--protocol"; b_ "tls"; b_ "--port"; b_ "0"; b_ "--host"; default_host b;
   b_ "--dashboard-address"; default_host b ++ b_ ":0"; b_ "--preload"; b_ "dask_gateway.scheduler_preload";
   b_ "--dg-api-address"; default_host b ++ b_ ":0"; b_ "--dg-heartbeat-period"; gw_heartbeat g;
   b_ "--dg-adaptive-period"; c_adaptive_period c; b_ "--dg-idle-timeout"; c_idle_timeout c].
(** worker_nthreads_memory_limit_args (1452-1453, yarn 132-133) and get_worker_command
    (1455-1469). *)
Definition threads_memory (b : backend) (c : cluster) : bytes * bytes :=
  match b with Yarn => (b_ "$SKEIN_RESOURCE_VCORES", b_ "${SKEIN_RESOURCE_MEMORY}MiB") | _ => (c_threads c, c_memory c) end.
Definition worker_command (b : backend) (c : cluster) (worker_name : bytes) (address : option bytes) : list bytes :=
  let '(nthreads, memory_limit) := threads_memory b c in
  c_worker_cmd c ++
  [match address with Some a => a | None => c_address c end; b_ "--dashboard-address"; default_host b ++ b_ ":0";
   b_ "--name"; worker_name; b_ "--nthreads"; nthreads; b_ "--memory-limit"; memory_limit].

(** The batch job: [j_export] is the list of variables given to -v or --export, [j_env]
    the environment of the submit command, [j_script] the script (pbs 117-163, slurm
    56-103; the resource options are those of Config_Model, the other options are left
    out).  [worker]: the name of the worker, None for the scheduler. *)
Record jobspec := JobSpec { j_export : bytes; j_env : list (bytes * bytes); j_script : bytes }.
Definition newline : bytes := [ascii_of_nat 10].
Definition submit (b : backend) (g : gateway) (c : cluster) (worker : option bytes) : jobspec :=
  let env := process_env b g c (match worker with Some _ => Worker | None => Scheduler end) in
  let setup := match worker with Some _ => c_worker_setup c | None => c_scheduler_setup c end in
  let cmd := match worker with Some w => worker_command b c w None | None => scheduler_command b g c end in
  let body := [setup; join (b_ " ") cmd] in
  JobSpec (join (b_ ",") (sorted (map fst env))) env
    (join newline (match b with Slurm => b_ "#!/bin/sh" :: body | _ => body end)).
(** YARN's scripts (152-153). *)
Definition yarn_script (g : gateway) (c : cluster) (r : role) : bytes :=
  match r with
  | Scheduler => c_scheduler_setup c ++ newline ++ join (b_ " ") (scheduler_command Yarn g c)
  | Worker => c_worker_setup c ++ newline ++
              join (b_ " ") (worker_command Yarn c (b_ "$DASK_GATEWAY_WORKER_NAME") (Some (b_ "$DASK_GATEWAY_SCHEDULER_ADDRESS")))
  end.
(** The variables YARN adds when it starts a container (239-249): skein's add_container
    updates the service's environment with these. *)
Definition yarn_container_env (g : gateway) (c : cluster) (worker_name : bytes) : list (bytes * bytes) :=
  dupdate (process_env Yarn g c Worker)
    [(b_ "DASK_GATEWAY_WORKER_NAME", worker_name); (b_ "DASK_GATEWAY_SCHEDULER_ADDRESS", c_address c)].
