(** Properties C87-C91: the Kubernetes objects the gateway makes. *)
From Coq Require Import Ascii String ZArith QArith Qabs Lia.
From stdpp Require Import prelude.
From Verif Require Import Router_Model ProxyLog_Model Json_Model Util_Model Util_Spec Launch_Model Manifest_Model Manifest_Spec Manifest_Proofs Manifest_Proofs2.
Local Open Scope nat_scope.

(** C87. "The service of a cluster leads to its scheduler, and to no worker and no other
    cluster": as long as the configured extra labels leave the gateway's labels alone. *)
Theorem C87_service_partial : forall t t' ns c c' cf r o o', keeps_labels cf r ->
  serves (make_service t c o) (make_pod t' ns c' cf r o') <-> t_instance t = t_instance t' /\ c = c' /\ r = Scheduler.
Proof. exact serves_iff. Qed.
(** "The controller sees all pods, services and clusters it made, as what they are, and no
    other gateway's." *)
Theorem C87_known_partial : forall t ns c cf r o, keeps_labels cf r ->
  selected_by (watched t) (make_pod t ns c cf r o) /\ cluster_key ns (make_pod t ns c cf r o) = Some (full_name ns c) /\
  label "app.kubernetes.io/component" (make_pod t ns c cf r o) = Some (container_name r).
Proof. exact pod_known. Qed.
Theorem C87_foreign_partial : forall t t' ns c cf r o, keeps_labels cf r ->
  selected_by (watched t) (make_pod t' ns c cf r o) -> t_instance t = t_instance t'.
Proof. exact pod_foreign. Qed.
Theorem C87_service_known : forall t ns c o,
  selected_by (watched_endpoints t) (make_service t c o) /\ cluster_key ns (make_service t c o) = Some (full_name ns c).
Proof. exact service_known. Qed.
Theorem C87_cluster_known : forall t c, selected_by (watched t) (make_cluster_object t c).
Proof. exact cluster_known. Qed.
Print Assumptions C87_service_partial.
Print Assumptions C87_known_partial.
Print Assumptions C87_foreign_partial.
Print Assumptions C87_service_known.
Print Assumptions C87_cluster_known.

(** A concrete configuration. *)
Definition ex_rconf (labels : list (bytes * bytes)) (container : list (bytes * json)) : rconf :=
  RConf [b_ "dask-worker"] (2 * 2 ^ 30) (4 * 2 ^ 30) (1 # 3) (3 # 2) [] container [] labels.
Definition ex_kconf (labels : list (bytes * bytes)) (container : list (bytes * json)) : kconf :=
  KConf (b_ "daskgateway/dask-gateway:latest") None [] [(b_ "COLOR", b_ "red"); (b_ "DASK_GATEWAY_CLUSTER_NAME", b_ "other")] (b_ "3") (b_ "0") (b_ "1")
    (ex_rconf [] []) (ex_rconf labels container).
Definition ex_ctl : ctl := Ctl (b_ "http://gateway:8000/api") (b_ "gw") [(b_ "team", b_ "a")] [] (b_ "/gw") (b_ "web") (b_ "web") [].
Definition ex_owner : owner := by_scheduler (b_ "abc") (b_ "u1").

(** Extra labels can break it: a worker pod that calls itself a scheduler is served as one. *)
Theorem C87_refuted : exists t ns c cf o o', serves (make_service t c o) (make_pod t ns c cf Worker o') /\
  label "app.kubernetes.io/component" (make_pod t ns c cf Worker o') = Some (b_ "dask-scheduler").
Proof.
  exists ex_ctl, (b_ "prod"), (b_ "abc"), (ex_kconf [(b_ "app.kubernetes.io/component", b_ "dask-scheduler")] []), ex_owner, ex_owner.
  split; [|vm_compute; done]. eexists. split; [vm_compute; reflexivity|]. split; [done|].
  intros k v H. repeat (apply elem_of_cons in H as [H|H]; [injection H as -> ->; eexists; split; [reflexivity|vm_compute; reflexivity]|]). by apply elem_of_nil in H.
Qed.
Print Assumptions C87_refuted.

(** C88. "The dashboard of a cluster is reached under its own path and nothing else's." *)
Theorem C88_dashboard : forall t ns c o,
  web_to (make_ingressroute t c ns o) (t_prefix t ++ dashboard_route (full_name ns c)) ns (service_name c) 8787.
Proof.
  intros t ns c o. apply web_iff. split; [|done]. exists (b_ "status"). unfold dashboard_route. rewrite <- !app_assoc. reflexivity.
Qed.
Theorem C88_dashboard_only : forall t ns c o ns' c' o' p n s port n' s' port', name_ok ns -> name_ok c -> name_ok ns' -> name_ok c' ->
  web_to (make_ingressroute t c ns o) p n s port -> web_to (make_ingressroute t c' ns' o') p n' s' port' -> ns = ns' /\ c = c'.
Proof. exact web_one. Qed.
(** "The address a client is given leads to the cluster's scheduler, unopened, and nowhere
    else": the server name of the address is routed to the service's port 8786, where
    schedulers are told to listen. *)
Theorem C88_scheduler : forall t ns c o ns' c' n s port, name_ok ns -> name_ok ns' ->
  tcp_to (make_ingressroutetcp t c ns o) (server_name (full_name ns' c')) n s port <->
  ns' = ns /\ c' = c /\ n = ns /\ s = service_name c /\ port = 8786%Z.
Proof.
  intros t ns c o ns' c' n s port Hn Hn'. rewrite tcp_iff. unfold server_name. split.
  - intros (E & H). apply app_inv_head in E. apply full_name_inj in E as [-> ->]; done.
  - intros (-> & -> & H). done.
Qed.
Theorem C88_ports : forall ns c cf,
  option_is (b_ "--port") (b_ "8786") (pod_command ns c cf Scheduler) /\
  option_is (b_ "--dashboard-address") (b_ ":8787") (pod_command ns c cf Scheduler) /\
  option_is (b_ "--protocol") (b_ "tls") (pod_command ns c cf Scheduler).
Proof.
  intros ns c cf. unfold pod_command, option_is. cbn [map app].
  split_and!; [exists (r_cmd (k_scheduler cf) ++ map b_ ["--protocol"; "tls"; "--host"; ""]%string)|
    exists (r_cmd (k_scheduler cf) ++ map b_ ["--protocol"; "tls"; "--host"; ""; "--port"; "8786"]%string)|exists (r_cmd (k_scheduler cf))];
    eexists; cbn [map]; rewrite <- ?app_assoc; reflexivity.
Qed.
(** "Workers connect to their own cluster's service." *)
Theorem C88_worker : forall ns c cf, exists post,
  pod_command ns c cf Worker = r_cmd (k_worker cf) ++ (b_ "tls://" ++ service_name c ++ b_ "." ++ ns ++ b_ ":8786") :: post.
Proof. intros. eexists. reflexivity. Qed.
Print Assumptions C88_dashboard.
Print Assumptions C88_dashboard_only.
Print Assumptions C88_scheduler.
Print Assumptions C88_ports.
Print Assumptions C88_worker.
Example C88_example : name_ok (b_ "prod") /\ name_ok (b_ "abc") /\
  t_prefix ex_ctl ++ dashboard_route (full_name (b_ "prod") (b_ "abc")) = b_ "/gw/clusters/prod.abc/status" /\
  ~ web_to (make_ingressroute ex_ctl (b_ "ab") (b_ "prod") ex_owner) (b_ "/gw/clusters/prod.abc/status") (b_ "prod") (b_ "dask-ab") 8787.
Proof.
  split; [split; [done|split; apply (bool_decide_unpack _); vm_compute; done]|]. split; [split; [done|split; apply (bool_decide_unpack _); vm_compute; done]|].
  split; [vm_compute; done|]. intros [[rest H] _]%web_iff. vm_compute in H. congruence.
Qed.

(** C89. "Every pod's container has the gateway's variables": as long as the configured
    extra container settings name none of them. *)
Theorem C89_set_by_gateway_partial : forall t ns c cf r o k v, extras_ok cf r -> quiet k (r_container (rconf_of cf r)) -> (k, v) ∈ pod_required t ns c ->
  variable k (make_pod t ns c cf r o) = Some (JStr v).
Proof. exact pod_variable_required. Qed.
Theorem C89_as_asked_partial : forall t ns c cf r o k, extras_ok cf r -> quiet k (r_container (rconf_of cf r)) -> k ∉ map fst (pod_required t ns c) ->
  k <> b_ "DASK_GATEWAY_WORKER_NAME" -> variable k (make_pod t ns c cf r o) = JStr <$> dget k (dupdate [] (k_env cf)).
Proof. exact pod_variable_asked. Qed.
Theorem C89_worker_name_partial : forall t ns c cf o, extras_ok cf Worker -> quiet (b_ "DASK_GATEWAY_WORKER_NAME") (r_container (k_worker cf)) ->
  variable (b_ "DASK_GATEWAY_WORKER_NAME") (make_pod t ns c cf Worker o) = Some (jobj [("fieldRef", jobj [("fieldPath", jstr "metadata.name")])]%string).
Proof. exact pod_worker_name. Qed.
(** "The files those variables name are the cluster's certificate, key and token." *)
Theorem C89_files_partial : forall t ns c cf r o o' crt pem token,
  extras_ok cf r -> adds_only "volumeMounts" (r_container (rconf_of cf r)) -> adds_only "volumes" (r_pod (rconf_of cf r)) ->
  let file := file_is (make_pod t ns c cf r o) (make_secret t c crt pem token o') in
  file (b_ "/etc/dask-credentials/dask.crt") crt /\ file (b_ "/etc/dask-credentials/dask.pem") pem /\ file (b_ "/etc/dask-credentials/api-token") token.
Proof. exact pod_files. Qed.
(** "The pod asks for the configured memory exactly, and for the configured cores up to
    half a thousandth; and never for more than its limit." *)
Theorem C89_resources_partial : forall t ns c cf r o, extras_ok cf r -> leaves "resources" (r_container (rconf_of cf r)) ->
  let rc := rconf_of cf r in
  (0 <= r_mem rc)%Z -> (r_mem rc <= r_mem_limit rc)%Z -> (0 <= r_cores rc)%Q -> (r_cores rc <= r_cores_limit rc)%Q ->
  exists x mem mem_limit cpu cpu_limit, main_container (make_pod t ns c cf r o) = Some x /\
    part (path ["resources"; "requests"; "memory"]%string) x = Some (JStr mem) /\ digits 0 mem = Some (r_mem rc) /\
    part (path ["resources"; "limits"; "memory"]%string) x = Some (JStr mem_limit) /\ digits 0 mem_limit = Some (r_mem_limit rc) /\
    part (path ["resources"; "requests"; "cpu"]%string) x = Some (JStr cpu) /\
    part (path ["resources"; "limits"; "cpu"]%string) x = Some (JStr cpu_limit) /\
    exists q ql, quantity cpu = Some q /\ quantity cpu_limit = Some ql /\ (q <= ql)%Q /\
      (Qabs (q - r_cores rc) <= 1 # 2000)%Q /\ (Qabs (ql - r_cores_limit rc) <= 1 # 2000)%Q.
Proof.
  intros t ns c cf r o Hx Hl rc Hm Hml Hc Hcl. destruct (pod_resources t ns c cf r o Hx Hl) as (x & H1 & H2 & H3 & H4 & H5).
  eexists x, _, _, _, _. split; [exact H1|]. split; [exact H2|]. split; [by apply dec_digits|]. split; [exact H3|]. split; [apply dec_digits; lia|].
  split; [exact H4|]. split; [exact H5|].
  destruct (fixed3_mono _ _ Hc Hcl) as (q & ql & E1 & E2 & Hle).
  destruct (fixed3_close _ Hc) as (q' & E1' & B1). destruct (fixed3_close (r_cores_limit rc)) as (ql' & E2' & B2); [by eapply Qle_trans|].
  fold rc. rewrite E1 in E1'. rewrite E2 in E2'. injection E1' as <-. injection E2' as <-. by exists q, ql.
Qed.
(** "The container runs the configured command." *)
Theorem C89_command_partial : forall t ns c cf r o, extras_ok cf r -> leaves "args" (r_container (rconf_of cf r)) ->
  exists x, main_container (make_pod t ns c cf r o) = Some x /\ field "args" x = Some (JList (map JStr (pod_command ns c cf r))).
Proof. exact pod_args. Qed.
(** Extra container settings can break it: here the pod believes it is of another cluster. *)
Theorem C89_refuted : exists t ns c cf o, extras_ok cf Worker /\ k_env cf = [] /\
  variable (b_ "DASK_GATEWAY_CLUSTER_NAME") (make_pod t ns c cf Worker o) <> Some (JStr (full_name ns c)).
Proof.
  exists ex_ctl, (b_ "prod"), (b_ "abc").
  exists (KConf (b_ "image") None [] [] (b_ "3") (b_ "0") (b_ "1") (ex_rconf [] [])
    (ex_rconf [] [(b_ "env", JList [jobj [("name", jstr "DASK_GATEWAY_CLUSTER_NAME"); ("value", jstr "x")]%string])])), ex_owner.
  split; [split; [apply NoDup_nil_2|split; [apply NoDup_singleton|exact I]]|]. split; [done|]. vm_compute. congruence.
Qed.
Print Assumptions C89_set_by_gateway_partial.
Print Assumptions C89_as_asked_partial.
Print Assumptions C89_worker_name_partial.
Print Assumptions C89_files_partial.
Print Assumptions C89_resources_partial.
Print Assumptions C89_command_partial.
Print Assumptions C89_refuted.
(** The hypotheses hold with a sidecar-free configuration that adds a variable. *)
Example C89_example : let cf := ex_kconf [] [(b_ "env", JList [jobj [("name", jstr "SIZE"); ("value", jstr "7")]%string])] in
  extras_ok cf Worker /\ quiet (b_ "DASK_GATEWAY_CLUSTER_NAME") (r_container (rconf_of cf Worker)) /\ leaves "resources" (r_container (rconf_of cf Worker)) /\
  variable (b_ "COLOR") (make_pod ex_ctl (b_ "prod") (b_ "abc") cf Worker ex_owner) = Some (JStr (b_ "red")) /\
  variable (b_ "SIZE") (make_pod ex_ctl (b_ "prod") (b_ "abc") cf Worker ex_owner) = Some (JStr (b_ "7")) /\
  variable (b_ "DASK_GATEWAY_CLUSTER_NAME") (make_pod ex_ctl (b_ "prod") (b_ "abc") cf Worker ex_owner) = Some (JStr (b_ "prod.abc")) /\
  fixed3 (1 # 3) = b_ "0.333" /\ fixed3 (12345 # 10000) = b_ "1.234" /\ fixed3 (25 # 2) = b_ "12.500".
Proof.
  split; [split; [apply NoDup_nil_2|split; [apply NoDup_singleton|exact I]]|]. split_and!; vm_compute; done.
Qed.

(** C90. "Nothing made for a cluster outlives it": once Kubernetes' garbage collector is
    done, what was made for a cluster whose object is gone is gone. *)
Theorem C90_cluster_gone : forall objs t ns c cf cluster_uid pod_uid x u, settled objs ->
  (forall v obj, (v, obj) ∈ objs -> v = pod_uid -> obj = create t ns c cf cluster_uid pod_uid SchedulerPod) ->
  cluster_uid ∉ map fst objs -> (u, create t ns c cf cluster_uid pod_uid x) ∉ objs.
Proof.
  intros objs t ns c cf cu pu x u Hs Hp Hc Hin. pose proof (settled_gone _ _ _ _ _ _ _ _ _ Hs Hin) as H.
  assert (Hpu : pu ∈ map fst objs -> False).
  { intros ([v obj] & -> & Ho)%elem_of_list_fmap. cbn [fst] in Hp. rewrite (Hp v obj Ho eq_refl) in Ho.
    exact (Hc (settled_gone t ns c cf cu v SchedulerPod _ _ Hs Ho)). }
  destruct x; auto.
Qed.
(** "... and when the scheduler's pod is removed, its workers, service and routes go". *)
Theorem C90_scheduler_gone : forall objs t ns c cf cluster_uid pod_uid x u, settled objs -> pod_uid ∉ map fst objs ->
  match x with Secret _ _ _ | SchedulerPod => False | _ => True end -> (u, create t ns c cf cluster_uid pod_uid x) ∉ objs.
Proof.
  intros objs t ns c cf cu pu x u Hs Hp Hx Hin. pose proof (settled_gone _ _ _ _ _ _ _ _ _ Hs Hin) as H. destruct x; done.
Qed.
(** "... and as long as its owner is there, nothing is collected." *)
Theorem C90_kept : forall (objs : list (bytes * json)) t ns c cf cluster_uid pod_uid x, cluster_uid ∈ map fst objs -> pod_uid ∈ map fst objs ->
  exists v, JStr v ∈ owner_uids (create t ns c cf cluster_uid pod_uid x) /\ v ∈ map fst objs.
Proof. intros objs t ns c cf cu pu x Hc Hp. eexists. rewrite create_owner. split; [by left|]. by destruct x. Qed.
Print Assumptions C90_cluster_gone.
Print Assumptions C90_scheduler_gone.
Print Assumptions C90_kept.
Definition ex_create (x : resource) : json := create ex_ctl (b_ "prod") (b_ "abc") (ex_kconf [] []) (b_ "u0") (b_ "u1") x.
Example C90_example :
  settled [(b_ "u0", make_cluster_object ex_ctl (b_ "abc")); (b_ "u1", ex_create SchedulerPod); (b_ "u2", ex_create WorkerPod); (b_ "u3", ex_create Service)] /\
  ~ settled [(b_ "u1", ex_create SchedulerPod); (b_ "u2", ex_create WorkerPod); (b_ "u3", ex_create Service)].
Proof.
  split.
  - intros u obj H. repeat (apply elem_of_cons in H as [H|H]; [injection H as -> ->|]); [by left| | | |by apply elem_of_nil in H].
    + right. exists (b_ "u0"). split; [by left|]. apply elem_of_list_In. cbn. auto.
    + right. exists (b_ "u1"). split; [by left|]. apply elem_of_list_In. cbn. auto.
    + right. exists (b_ "u1"). split; [by left|]. apply elem_of_list_In. cbn. auto.
  - intros H. destruct (H (b_ "u1") (ex_create SchedulerPod)) as [E|(v & Hv & Hin)]; [by left|done|].
    unfold ex_create in Hv. rewrite create_owner in Hv. apply elem_of_list_singleton in Hv. injection Hv as ->.
    revert Hin. apply (bool_decide_unpack _). vm_compute. done.
Qed.

(** C91. "A scheduler's heartbeat sets the wanted number of workers of its own cluster, to
    what it asks for but never above the limit." *)
Theorem C91_heartbeat : forall ns c max count, name_ok ns -> name_ok c ->
  exists n, heartbeat (full_name ns c) (Some max) count = Patch ns c None (Some n) /\ (n <= count)%Z /\
    match max with Some m => (n <= m)%Z /\ ((count <= m)%Z -> n = count) | None => n = count end.
Proof.
  intros ns c max count Hn Hc. unfold heartbeat. rewrite split_full by done. eexists. split; [reflexivity|].
  destruct max as [m|]; [|lia]. destruct (m <? count)%Z eqn:E; [apply Z.ltb_lt in E|apply Z.ltb_ge in E]; lia.
Qed.
Theorem C91_unknown : forall ns c count, name_ok ns -> name_ok c -> heartbeat (full_name ns c) None count = NoPatch.
Proof. intros ns c count Hn Hc. unfold heartbeat. by rewrite split_full. Qed.
(** "Stopping a cluster stops that cluster, once." *)
Theorem C91_stop : forall ns c finished, name_ok ns -> name_ok c ->
  stop_cluster (full_name ns c) finished = if finished then NoPatch else Patch ns c (Some false) None.
Proof. intros ns c finished Hn Hc. unfold stop_cluster. by rewrite split_full. Qed.
Print Assumptions C91_heartbeat.
Print Assumptions C91_unknown.
Print Assumptions C91_stop.
Example C91_example : heartbeat (b_ "prod.abc") (Some (Some 10%Z)) 12 = Patch (b_ "prod") (b_ "abc") None (Some 10%Z) /\
  heartbeat (b_ "prod.abc") (Some (Some 10%Z)) 7 = Patch (b_ "prod") (b_ "abc") None (Some 7%Z) /\ heartbeat (b_ "abc") (Some None) 7 = BadName.
Proof. vm_compute. done. Qed.
