(** The Kubernetes objects the gateway makes:
    S/backends/kubernetes/controller.py 64-71 (get_cluster_key), 384-416 (what is
    watched), 812-820, 909-1028 (owner references), 1030-1305 (commands, environment,
    labels, pod, secret, service, routes), and of S/backends/kubernetes/backend.py
    416-432 (stop_cluster), 457-496 (on_cluster_heartbeat), 498-532 (the cluster object).
    S = dask-gateway-server/dask_gateway_server.
    Objects are JSON values.  Label and annotation values are strings, and so are
    numbers that are only printed (periods, threads).  cores are floats, modelled as the
    rational numbers they are; the validators make them non-negative.  A test like
    `if extra_pod_config:` is left out where merging nothing changes nothing.  Secret
    data is given as its base64 text. *)
From Coq Require Import Ascii String ZArith QArith Qround.
From stdpp Require Import prelude pretty.
From Verif Require Import Router_Model ProxyLog_Model Json_Model Util_Model Config_Model Launch_Model.
Local Open Scope nat_scope.

Definition jobj (l : list (string * json)) : json := JObj (map (fun kv => (b_ (fst kv), snd kv)) l).
Definition jfields (l : list (string * json)) : list (bytes * json) := map (fun kv => (b_ (fst kv), snd kv)) l.
Definition jstr (s : string) : json := JStr (b_ s).
Definition jdict (d : list (bytes * bytes)) : json := JObj (map (fun kv => (fst kv, JStr (snd kv))) d).
(** str(int). *)
Definition dec (z : Z) : bytes := list_ascii_of_string (pretty z).
(** f"{x:.3f}" of a non-negative number: rounded half to even. *)
Definition millis (q : Q) : Z := round_half_even (1000 * Qnum q) (Zpos (Qden q)).
Definition digit (n : Z) : ascii := ascii_of_nat (48 + Z.to_nat n).
Definition fixed3 (q : Q) : bytes :=
  let n := millis q in
  dec (n / 1000) ++ "."%char :: [digit (n / 100 mod 10); digit (n / 10 mod 10); digit (n mod 10)]%Z.

(** The configuration in spec.config of the cluster object, and the part of it that
    depends on the role. *)
Record rconf := RConf { r_cmd : list bytes; r_mem : Z; r_mem_limit : Z; r_cores : Q; r_cores_limit : Q;
  r_pod : list (bytes * json); r_container : list (bytes * json); r_annotations : list (bytes * bytes); r_labels : list (bytes * bytes) }.
Record kconf := KConf { k_image : bytes; k_pull_policy : option bytes; k_pull_secrets : list json; k_env : list (bytes * bytes);
  k_adaptive : bytes; k_idle : bytes; k_threads : bytes; k_scheduler : rconf; k_worker : rconf }.
Definition rconf_of (cf : kconf) (r : role) : rconf := match r with Scheduler => k_scheduler cf | Worker => k_worker cf end.
(** The controller's settings. *)
Record ctl := Ctl { t_url : bytes; t_instance : bytes; t_labels : list (bytes * bytes); t_annotations : list (bytes * bytes);
  t_prefix : bytes; t_web : bytes; t_tcp : bytes; t_middlewares : list json }.

(** make_secret_name (1202-1203), make_service_name (1226-1227). *)
Definition secret_name (c : bytes) : bytes := b_ "dask-credentials-" ++ c.
Definition service_name (c : bytes) : bytes := b_ "dask-" ++ c.
Definition scheduler_name (c : bytes) : bytes := b_ "dask-scheduler-" ++ c.
Definition full_name (ns c : bytes) : bytes := ns ++ b_ "." ++ c.

(** get_scheduler_command (1030-1050), get_worker_command (1052-1064). *)
Definition pod_command (ns c : bytes) (cf : kconf) (r : role) : list bytes :=
  match r with
  | Scheduler => r_cmd (k_scheduler cf) ++
      map b_ ["--protocol"; "tls"; "--host"; ""; "--port"; "8786"; "--dashboard-address"; ":8787"; "--dg-api-address"; ":8788";
              "--preload"; "dask_gateway.scheduler_preload"; "--dg-heartbeat-period"; "0"]%string ++
      [b_ "--dg-adaptive-period"; k_adaptive cf; b_ "--dg-idle-timeout"; k_idle cf]
  | Worker => r_cmd (k_worker cf) ++
      [b_ "tls://" ++ service_name c ++ b_ "." ++ ns ++ b_ ":8786"; b_ "--dashboard-address"; b_ ":8787";
       b_ "--name"; b_ "$(DASK_GATEWAY_WORKER_NAME)"; b_ "--nthreads"; k_threads cf; b_ "--memory-limit"; dec (r_mem_limit (k_worker cf))]
  end.
(** get_env (1066-1080). *)
Definition pod_env (t : ctl) (ns c : bytes) (cf : kconf) : list json :=
  map (fun kv => jobj [("name", JStr (fst kv)); ("value", JStr (snd kv))]%string)
    (dupdate (dupdate [] (k_env cf))
       [(b_ "DASK_GATEWAY_API_URL", t_url t); (b_ "DASK_GATEWAY_CLUSTER_NAME", full_name ns c);
        (b_ "DASK_GATEWAY_API_TOKEN", b_ "/etc/dask-credentials/api-token");
        (b_ "DASK_DISTRIBUTED__COMM__TLS__CA_FILE", b_ "/etc/dask-credentials/dask.crt");
        (b_ "DASK_DISTRIBUTED__COMM__TLS__SCHEDULER__CERT", b_ "/etc/dask-credentials/dask.crt");
        (b_ "DASK_DISTRIBUTED__COMM__TLS__SCHEDULER__KEY", b_ "/etc/dask-credentials/dask.pem");
        (b_ "DASK_DISTRIBUTED__COMM__TLS__WORKER__CERT", b_ "/etc/dask-credentials/dask.crt");
        (b_ "DASK_DISTRIBUTED__COMM__TLS__WORKER__KEY", b_ "/etc/dask-credentials/dask.pem")]).
(** get_labels (1082-1092). *)
Definition get_labels (t : ctl) (c : bytes) (component : option bytes) : list (bytes * bytes) :=
  let l := dupdate (t_labels t) [(b_ "gateway.dask.org/instance", t_instance t); (b_ "gateway.dask.org/cluster", c)] in
  match component with Some x => dset (b_ "app.kubernetes.io/component") x l | None => l end.

(** make_pod (1094-1200), in its parts. *)
Definition container_name (r : role) : bytes := match r with Scheduler => b_ "dask-scheduler" | Worker => b_ "dask-worker" end.
Definition worker_name_var : json :=
  jobj [("name", jstr "DASK_GATEWAY_WORKER_NAME"); ("valueFrom", jobj [("fieldRef", jobj [("fieldPath", jstr "metadata.name")])])]%string.
Definition make_container (t : ctl) (ns c : bytes) (cf : kconf) (r : role) : list (bytes * json) :=
  let rc := rconf_of cf r in
  let env := pod_env t ns c cf ++ match r with Worker => [worker_name_var] | Scheduler => [] end in
  let port name n := jobj [("name", jstr name); ("containerPort", JInt n)]%string in
  let a := jfields
    [("name", JStr (container_name r)); ("image", JStr (k_image cf)); ("args", JList (map JStr (pod_command ns c cf r))); ("env", JList env);
     ("resources", jobj [("requests", jobj [("cpu", JStr (fixed3 (r_cores rc))); ("memory", JStr (dec (r_mem rc)))]);
                         ("limits", jobj [("cpu", JStr (fixed3 (r_cores_limit rc))); ("memory", JStr (dec (r_mem_limit rc)))])]);
     ("volumeMounts", JList [jobj [("name", jstr "dask-credentials"); ("mountPath", jstr "/etc/dask-credentials/"); ("readOnly", JBool true)]]);
     ("ports", JList [port "scheduler" 8786%Z; port "dashboard" 8787%Z; port "api" 8788%Z])]%string in
  let a := match k_pull_policy cf with Some (x :: p) => dset (b_ "imagePullPolicy") (JStr (x :: p)) a | _ => a end in
  let a := match r with
           | Scheduler => dset (b_ "readinessProbe") (jobj [("httpGet", jobj [("port", JInt 8788); ("path", jstr "/api/health")]);
                                                            ("periodSeconds", JInt 5); ("failureThreshold", JInt 3)]%string) a
           | Worker => a
           end in
  merge (r_container rc) a.
Definition pod_labels (t : ctl) (c : bytes) (cf : kconf) (r : role) : list (bytes * bytes) :=
  dupdate (get_labels t c (Some (container_name r))) (r_labels (rconf_of cf r)).
Definition make_pod_spec (t : ctl) (ns c : bytes) (cf : kconf) (r : role) : list (bytes * json) :=
  let a := jfields
    [("containers", JList [JObj (make_container t ns c cf r)]);
     ("volumes", JList [jobj [("name", jstr "dask-credentials"); ("secret", jobj [("secretName", JStr (secret_name c))])]]);
     ("restartPolicy", match r with Worker => jstr "OnFailure" | Scheduler => jstr "Never" end);
     ("automountServiceAccountToken", JBool false)]%string in
  let a := match k_pull_secrets cf with [] => a | l => dset (b_ "imagePullSecrets") (JList l) a end in
  merge (r_pod (rconf_of cf r)) a.
(** [owner]: the ownerReferences that the callers set (handle_scale_up 812-820,
    create_*_if_not_exists): kind, name and uid. *)
Record owner := Owner { o_kind : bytes; o_version : bytes; o_name : bytes; o_uid : bytes }.
Definition owner_ref (o : owner) : json :=
  JList [jobj [("apiVersion", JStr (o_version o)); ("kind", JStr (o_kind o)); ("name", JStr (o_name o)); ("uid", JStr (o_uid o))]%string].
Definition with_meta (labels annotations : list (bytes * bytes)) (name : string * bytes) (o : owner) : string * json :=
  ("metadata", jobj [("labels", jdict labels); ("annotations", jdict annotations); (fst name, JStr (snd name)); ("ownerReferences", owner_ref o)])%string.
Definition pod_name (c : bytes) (r : role) : string * bytes :=
  match r with Worker => ("generateName"%string, b_ "dask-worker-" ++ c ++ b_ "-") | Scheduler => ("name"%string, scheduler_name c) end.
Definition make_pod (t : ctl) (ns c : bytes) (cf : kconf) (r : role) (o : owner) : json :=
  jobj [("apiVersion", jstr "v1"); ("kind", jstr "Pod");
        with_meta (pod_labels t c cf r) (dupdate (t_annotations t) (r_annotations (rconf_of cf r)))
          (pod_name c r) o;
        ("spec", JObj (make_pod_spec t ns c cf r))]%string.
(** make_secret (1205-1224). *)
Definition make_secret (t : ctl) (c : bytes) (crt pem token : bytes) (o : owner) : json :=
  jobj [("apiVersion", jstr "v1"); ("kind", jstr "Secret");
        with_meta (get_labels t c (Some (b_ "credentials"))) (t_annotations t) ("name", secret_name c)%string o;
        ("data", jobj [("dask.crt", JStr crt); ("dask.pem", JStr pem); ("api-token", JStr token)])]%string.
(** make_service (1229-1249). *)
Definition make_service (t : ctl) (c : bytes) (o : owner) : json :=
  let port name n := jobj [("name", jstr name); ("port", JInt n); ("target_port", jstr name)]%string in
  jobj [with_meta (get_labels t c (Some (b_ "dask-scheduler"))) (t_annotations t) ("name", service_name c)%string o;
        ("spec", jobj [("clusterIP", jstr "None");
                       ("selector", jobj [("gateway.dask.org/cluster", JStr c); ("gateway.dask.org/instance", JStr (t_instance t));
                                          ("app.kubernetes.io/component", jstr "dask-scheduler")]);
                       ("ports", JList [port "scheduler" 8786%Z; port "dashboard" 8787%Z; port "api" 8788%Z])])]%string.
(** make_ingressroute (1251-1278), make_ingressroutetcp (1280-1305). *)
Definition to_service (c ns : bytes) (port : Z) : json :=
  JList [jobj [("name", JStr (service_name c)); ("namespace", JStr ns); ("port", JInt port)]%string].
Definition make_ingressroute (t : ctl) (c ns : bytes) (o : owner) : json :=
  let route := t_prefix t ++ b_ "/clusters/" ++ full_name ns c ++ b_ "/" in
  jobj [("apiVersion", jstr "traefik.io/v1alpha1"); ("kind", jstr "IngressRoute");
        with_meta (get_labels t c (Some (b_ "dask-scheduler"))) (t_annotations t) ("name", service_name c)%string o;
        ("spec", jobj [("entryPoints", JList [JStr (t_web t)]);
                       ("routes", JList [jobj [("kind", jstr "Rule"); ("match", JStr (b_ "PathPrefix(`" ++ route ++ b_ "`)"));
                                               ("services", to_service c ns 8787); ("middlewares", JList (t_middlewares t))]])])]%string.
Definition make_ingressroutetcp (t : ctl) (c ns : bytes) (o : owner) : json :=
  jobj [("apiVersion", jstr "traefik.io/v1alpha1"); ("kind", jstr "IngressRouteTCP");
        with_meta (get_labels t c (Some (b_ "dask-scheduler"))) (t_annotations t) ("name", service_name c)%string o;
        ("spec", jobj [("entryPoints", JList [JStr (t_tcp t)]);
                       ("routes", JList [jobj [("match", JStr (b_ "HostSNI(`daskgateway-" ++ full_name ns c ++ b_ "`)"));
                                               ("services", to_service c ns 8786)]]);
                       ("tls", jobj [("passthrough", JBool true)])])]%string.
(** What the callers create, with its owner: create_secret_if_not_exists (909-929) and
    create_scheduler_pod_if_not_exists (931-956) name the cluster object; handle_scale_up
    (807-820), create_service_if_not_exists (958-979) and create_ingressroute*_if_not_exists
    (981-1028) name the scheduler pod.  [uid] is that object's uid. *)
Definition by_cluster (c uid : bytes) : owner := Owner (b_ "DaskCluster") (b_ "gateway.dask.org/v1alpha1") c uid.
Definition by_scheduler (c uid : bytes) : owner := Owner (b_ "Pod") (b_ "v1") (scheduler_name c) uid.
Inductive resource := Secret (crt pem token : bytes) | SchedulerPod | WorkerPod | Service | Route | RouteTCP.
Definition create (t : ctl) (ns c : bytes) (cf : kconf) (cluster_uid pod_uid : bytes) (x : resource) : json :=
  match x with
  | Secret crt pem token => make_secret t c crt pem token (by_cluster c cluster_uid)
  | SchedulerPod => make_pod t ns c cf Scheduler (by_cluster c cluster_uid)
  | WorkerPod => make_pod t ns c cf Worker (by_scheduler c pod_uid)
  | Service => make_service t c (by_scheduler c pod_uid)
  | Route => make_ingressroute t c ns (by_scheduler c pod_uid)
  | RouteTCP => make_ingressroutetcp t c ns (by_scheduler c pod_uid)
  end.
(** The client's view of a cluster's name: the path of the dashboard (S/models.py 134) and
    the server name of the connection (dask-gateway/dask_gateway/comm.py 36). *)
Definition dashboard_route (name : bytes) : bytes := b_ "/clusters/" ++ name ++ b_ "/status".
Definition server_name (name : bytes) : bytes := b_ "daskgateway-" ++ name.
(** _validate_proxy_prefix (266-269). *)
Definition strip_l (l : bytes) : bytes := (fix go l := match l with x :: l' => if decide (x = slash) then go l' else l | [] => [] end) l.
Definition strip_slashes (l : bytes) : bytes := rev (strip_l (rev (strip_l l))).
Definition valid_prefix (p : bytes) : bytes := match strip_slashes p with [] => [] | q => slash :: q end.

(** * Reading objects back.  The namespace of an object is set by the server. *)
Definition field (k : string) (j : json) : option json := match j with JObj o => dget (b_ k) o | _ => None end.
Definition label (k : string) (obj : json) : option bytes :=
  match m ← field "metadata" obj; l ← field "labels" m; field k l with Some (JStr s) => Some s | _ => None end.
(** get_cluster_key (64-71). *)
Definition cluster_key (ns : bytes) (obj : json) : option bytes :=
  match label "gateway.dask.org/cluster" obj with Some n => Some (full_name ns n) | None => None end.
(** The label selector of the informers (backend.py 340-342) and the one of the endpoints
    (384-386), as pairs that must be there. *)
Definition watched (t : ctl) : list (bytes * bytes) := [(b_ "gateway.dask.org/instance", t_instance t)].
Definition watched_endpoints (t : ctl) : list (bytes * bytes) := watched t ++ [(b_ "app.kubernetes.io/component", b_ "dask-scheduler")].

(** * The gateway's side: the cluster object (510-527; username, options and
    configuration left out) and the requests that change it.  [split_dot]: str.split("."). *)
Definition make_cluster_object (t : ctl) (c : bytes) : json :=
  jobj [("kind", jstr "DaskCluster"); ("metadata", jobj [("name", JStr c); ("labels", jdict (get_labels t c None)); ("annotations", jdict (t_annotations t))])]%string.
Fixpoint split_dot (l : bytes) : list bytes :=
  match l with
  | [] => [[]]
  | x :: l' => if decide (x = "."%char) then [] :: split_dot l' else match split_dot l' with [] => [[x]] | w :: ws => (x :: w) :: ws end
  end.
Inductive patched := NoPatch | BadName | Patch (ns name : bytes) (active : option bool) (replicas : option Z).
(** on_cluster_heartbeat (457-496); [max]: None if the cluster is not known, else its
    cluster_max_workers. *)
Definition heartbeat (name : bytes) (max : option (option Z)) (count : Z) : patched :=
  match split_dot name with
  | [ns; c] =>
      match max with
      | None => NoPatch
      | Some m => Patch ns c None (Some (match m with Some m => if (m <? count)%Z then m else count | None => count end))
      end
  | _ => BadName
  end.
(** stop_cluster (416-432); [finished]: the known status is at least STOPPED. *)
Definition stop_cluster (name : bytes) (finished : bool) : patched :=
  if finished then NoPatch else match split_dot name with [ns; c] => Patch ns c (Some false) None | _ => BadName end.
