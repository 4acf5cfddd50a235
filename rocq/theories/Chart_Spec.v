(** What the chart's values mean (values.yaml, values.schema.yaml): value at a path, the
    options' names, the settings of each kind of authentication. *)
From Coq Require Import Ascii String ZArith.
From stdpp Require Import prelude.
From Verif Require Import Router_Model ProxyLog_Model Json_Model Api_Model Chart_Model.

(** [v] has [x] under the path. *)
Inductive found : json -> list bytes -> json -> Prop :=
| found_here v : found v [] v
| found_in o k v p x : In (k, v) o -> found v p x -> found (JObj o) (k :: p) x.
(** The path's value is set: present and not null. *)
Definition given (v : json) (path : list string) (x : json) : Prop := found v (map b_ path) x /\ x <> JNull.
Definition unset (v : json) (path : list string) : Prop := forall x, ~ given v path x.
(** YAML maps have every key once. *)
Inductive proper : json -> Prop :=
| proper_obj o : NoDup (map fst o) -> (forall k v, In (k, v) o -> proper v) -> proper (JObj o)
| proper_other v : (forall o, v <> JObj o) -> proper v.

(** The cluster options of the chart and their names in the gateway (values.yaml 125-178). *)
Definition options : list (string * list string) :=
  [("scheduler_cores", ["scheduler"; "cores"; "request"]); ("scheduler_cores_limit", ["scheduler"; "cores"; "limit"]);
   ("scheduler_memory", ["scheduler"; "memory"; "request"]); ("scheduler_memory_limit", ["scheduler"; "memory"; "limit"]);
   ("scheduler_extra_pod_config", ["scheduler"; "extraPodConfig"]); ("scheduler_extra_container_config", ["scheduler"; "extraContainerConfig"]);
   ("worker_cores", ["worker"; "cores"; "request"]); ("worker_cores_limit", ["worker"; "cores"; "limit"]);
   ("worker_memory", ["worker"; "memory"; "request"]); ("worker_memory_limit", ["worker"; "memory"; "limit"]);
   ("worker_extra_pod_config", ["worker"; "extraPodConfig"]); ("worker_extra_container_config", ["worker"; "extraContainerConfig"]);
   ("worker_threads", ["worker"; "threads"]); ("namespace", ["namespace"]); ("environment", ["environment"]);
   ("image_pull_policy", ["image"; "pullPolicy"])]%string.

(** Kinds of authentication: type, class, section, and which value sets which field. *)
Definition kinds : list (string * string * string * list (string * string)) :=
  [("simple", "dask_gateway_server.auth.SimpleAuthenticator", "SimpleAuthenticator", [("password", "password")]);
   ("kerberos", "dask_gateway_server.auth.KerberosAuthenticator", "KerberosAuthenticator", [("keytab", "keytab")]);
   ("jupyterhub", "dask_gateway_server.auth.JupyterHubAuthenticator", "JupyterHubAuthenticator",
      [("jupyterhub_api_url", "apiUrl"); ("jupyterhub_service_name", "jupyterhubServiceName")])]%string.

(** What is withheld from the configuration file: extraConfig, and a JupyterHub token. *)
Definition withheld (path : list bytes) : Prop :=
  (exists q, path = map b_ ["gateway"; "extraConfig"]%string ++ q) \/ (exists q, path = map b_ ["gateway"; "auth"; "jupyterhub"; "apiToken"]%string ++ q).

(** Unicode text: code points without surrogates. *)
Definition rune (r : Z) : Prop := (0 <= r < 55296 \/ 57344 <= r <= 1114111)%Z.
(** A path in the gateway's part that neither is withheld nor leads to what is withheld. *)
Definition token_path : list bytes := map b_ ["gateway"; "auth"; "jupyterhub"; "apiToken"]%string.
Definition apart (path : list bytes) : Prop :=
  (exists k q, path = b_ "gateway" :: k :: q /\ k <> b_ "extraConfig") /\ (forall q, path ++ q <> token_path) /\ (forall q, path <> token_path ++ q).

(** The values are enough for an authenticator to be set up in [env]. *)
Definition sufficient (env : list (bytes * bytes)) (v : json) : Prop :=
  let kind ty := given v ["gateway"; "auth"; "type"]%string (JStr (b_ ty)) in
  kind "simple"%string \/ kind "kerberos"%string \/
  (kind "jupyterhub"%string /\ ((exists x, given v ["gateway"; "auth"; "jupyterhub"; "apiUrl"]%string x) \/ (is_Some (dget (b_ "HUB_SERVICE_HOST") env) /\ is_Some (dget (b_ "HUB_SERVICE_PORT") env)))) \/
  (kind "custom"%string /\ (exists cls, given v ["gateway"; "auth"; "custom"; "class"]%string (JStr cls)) /\
     forall x, given v ["gateway"; "auth"; "custom"; "config"]%string x -> (exists o, x = JObj o) \/ Api_Model.truthy x = false).
