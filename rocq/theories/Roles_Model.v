(** Rights and identities of the chart's installations: H/templates/gateway/rbac.yaml,
    controller/rbac.yaml, traefik/rbac.yaml, the serviceAccountName of the deployments
    (gateway/deployment.yaml 26-32, controller/deployment.yaml 27-33, traefik/deployment.yaml
    24-30), the requests that gateway and controller send to
    the Kubernetes API (S/backends/kubernetes/backend.py, controller.py, the lines are with
    [request]), and what Helm does when a release is installed.

    H = resources/helm/dask-gateway, S = dask-gateway-server/dask_gateway_server.
    Kubernetes' authorisation as documented: a request is allowed if a rule of a role bound to
    the account names its group, resource (with subresource) and verb, "*" standing for every
    one; a ClusterRoleBinding counts in every namespace.  Helm as documented: it refuses to
    install a release if one of its objects is there already and belongs to another release.
    Simplifications: all releases are of this chart, with controller.enabled and
    traefik.installTraefik set and traefik.dashboard and the JupyterHub token not; other
    objects of the cluster are left out, and so are upgrades of a release. *)
From Coq Require Import Ascii String ZArith.
From stdpp Require Import prelude.
From Verif Require Import Router_Model ProxyLog_Model Launch_Model Manifest_Model Fit_Model.
Local Open Scope nat_scope.

(** * Roles *)
(** A rule of a ClusterRole: apiGroups, resources, verbs. *)
Record rule := Rule { ru_groups : list string; ru_resources : list string; ru_verbs : list string }.
(** gateway/rbac.yaml 16-22. *)
Definition gateway_role : list rule :=
  [Rule [""] ["secrets"] ["get"]; Rule ["gateway.dask.org"] ["daskclusters"] ["*"]]%string.
(** controller/rbac.yaml 17-32. *)
Definition controller_role : list rule :=
  [Rule ["gateway.dask.org"] ["daskclusters"; "daskclusters/status"] ["*"]; Rule ["traefik.io"] ["ingressroutes"; "ingressroutetcps"] ["get"; "create"; "delete"];
   Rule [""] ["pods"] ["get"; "list"; "watch"; "create"; "delete"]; Rule [""] ["endpoints"] ["get"; "list"; "watch"]; Rule [""] ["secrets"; "services"] ["create"; "delete"]]%string.
(** traefik/rbac.yaml 23-64. *)
Definition traefik_role : list rule :=
  [Rule [""] ["nodes"; "secrets"; "services"] ["get"; "list"; "watch"]; Rule ["discovery.k8s.io"] ["endpointslices"] ["list"; "watch"];
   Rule ["extensions"; "networking.k8s.io"] ["ingressclasses"] ["get"; "list"; "watch"];
   Rule ["traefik.io"] ["ingressroutes"; "ingressroutetcps"; "ingressrouteudps"; "middlewares"; "middlewaretcps"; "serverstransports"; "serverstransporttcps"; "tlsoptions"; "tlsstores"; "traefikservices"]
     ["get"; "list"; "watch"]]%string.
(** One of the lists of a rule and a word. *)
Definition names_it (l : list string) (x : string) : bool := bool_decide (x ∈ l) || bool_decide ("*"%string ∈ l).
(** [ns]: [None] is a request over all namespaces. *)
Record request := Request { q_verb : string; q_group : string; q_resource : string; q_ns : option bytes; q_name : option bytes }.
(** Kubernetes' authoriser on one role. *)
Definition permits (role : list rule) (q : request) : bool :=
  existsb (fun u => names_it (ru_groups u) (q_group q) && names_it (ru_resources u) (q_resource q) && names_it (ru_verbs u) (q_verb q)) role.

(** * Requests *)
Inductive gateway_call :=
| GList | GWatch                          (* backend.py 371-384, utils.py 148, 171 *)
| GCreate (ns : bytes)                    (* 411 *)
| GPatch (ns name : bytes)                (* 425, 486 *)
| GSecret (ns name : bytes).              (* 614 *)
Definition gateway_request (c : gateway_call) : request :=
  (match c with
   | GList => Request "list" "gateway.dask.org" "daskclusters" None None
   | GWatch => Request "watch" "gateway.dask.org" "daskclusters" None None
   | GCreate ns => Request "create" "gateway.dask.org" "daskclusters" (Some ns) None
   | GPatch ns n => Request "patch" "gateway.dask.org" "daskclusters" (Some ns) (Some n)
   | GSecret ns n => Request "get" "" "secrets" (Some ns) (Some n)
   end)%string.
Inductive watched_kind := Clusters | Pods | Endpoints.      (* controller.py 387-418 *)
Inductive controller_call :=
| CList (k : watched_kind) | CWatch (k : watched_kind)
| CDeleteCluster (ns name : bytes)        (* 478 *)
| CCreatePod (ns : bytes)                 (* 760, 948 *)
| CDeletePod (ns name : bytes)            (* 786, 897 *)
| CStatus (ns name : bytes)               (* 884 *)
| CCreateSecret (ns : bytes)              (* 924 *)
| CDeleteSecret (ns name : bytes)         (* 904 *)
| CCreateService (ns : bytes)             (* 973 *)
| CCreateRoute (ns : bytes)               (* 997 *)
| CCreateRouteTCP (ns : bytes).           (* 1021 *)
Definition kind_request (verb : string) (k : watched_kind) : request :=
  (match k with
   | Clusters => Request verb "gateway.dask.org" "daskclusters" None None
   | Pods => Request verb "" "pods" None None
   | Endpoints => Request verb "" "endpoints" None None
   end)%string.
Definition controller_request (c : controller_call) : request :=
  (match c with
   | CList k => kind_request "list" k
   | CWatch k => kind_request "watch" k
   | CDeleteCluster ns n => Request "delete" "gateway.dask.org" "daskclusters" (Some ns) (Some n)
   | CCreatePod ns => Request "create" "" "pods" (Some ns) None
   | CDeletePod ns n => Request "delete" "" "pods" (Some ns) (Some n)
   | CStatus ns n => Request "patch" "gateway.dask.org" "daskclusters/status" (Some ns) (Some n)
   | CCreateSecret ns => Request "create" "" "secrets" (Some ns) None
   | CDeleteSecret ns n => Request "delete" "" "secrets" (Some ns) (Some n)
   | CCreateService ns => Request "create" "" "services" (Some ns) None
   | CCreateRoute ns => Request "create" "traefik.io" "ingressroutes" (Some ns) None
   | CCreateRouteTCP ns => Request "create" "traefik.io" "ingressroutetcps" (Some ns) None
   end)%string.

(** * Accounts *)
(** The values rbac.enabled and rbac.*.serviceAccountName (empty: not set), values.yaml 298-312. *)
Record rbac := Rbac { rb_enabled : bool; rb_gateway : bytes; rb_controller : bytes; rb_traefik : bytes }.
(** _helpers.tpl 66-75. *)
Definition traefik_name (r : release) : bytes := short (b_ "traefik-" ++ fullname r).
Definition controller_name (r : release) : bytes := short (b_ "controller-" ++ fullname r).
Inductive component := Gateway | Controller | Traefik.
Definition component_name (r : release) (x : component) : bytes := match x with Gateway => api_name r | Controller => controller_name r | Traefik => traefik_name r end.
Definition given (b : rbac) (x : component) : bytes := match x with Gateway => rb_gateway b | Controller => rb_controller b | Traefik => rb_traefik b end.
Definition role_of (x : component) : list rule := match x with Gateway => gateway_role | Controller => controller_role | Traefik => traefik_role end.
(** The two conditions at the top of each rbac.yaml. *)
Definition makes_role (b : rbac) (x : component) : bool := rb_enabled b && match given b x with [] => true | _ => false end.
(** The account of the component's pods: the serviceAccountName of the deployment, and
    Kubernetes' default if there is none. *)
Definition account (r : release) (b : rbac) (x : component) : bytes :=
  if rb_enabled b then match given b x with [] => component_name r x | n => n end else b_ "default".
(** The roles bound by the installation: account, its namespace, rules. *)
Definition bindings (r : release) (b : rbac) : list (bytes * bytes * list rule) :=
  let bind x := if makes_role b x then [(component_name r x, r_ns r, role_of x)] else [] in
  bind Gateway ++ bind Controller ++ bind Traefik.
(** Kubernetes' authoriser: account [acc] of namespace [ns] sends request [q]. *)
Definition authorised (l : list (bytes * bytes * list rule)) (acc ns : bytes) (q : request) : bool :=
  existsb (fun x => let '(a, n, role) := x in bool_decide (a = acc) && bool_decide (n = ns) && permits role q) l.

(** * Helm *)
(** The objects of a release: kind, namespace (none: of the whole cluster), name. *)
Definition identity : Type := string * option bytes * bytes.
(** The three objects of each rbac.yaml. *)
Definition role_objects (r : release) (b : rbac) (x : component) : list identity :=
  if makes_role b x then [("ServiceAccount", Some (r_ns r), component_name r x); ("ClusterRole", None, component_name r x); ("ClusterRoleBinding", None, component_name r x)]%string else [].
(** Every template of the chart (the files under templates/). *)
Definition helm_objects (r : release) (b : rbac) : list identity :=
  role_objects r b Gateway ++ role_objects r b Controller ++ role_objects r b Traefik ++
  [("ConfigMap", Some (r_ns r), api_name r); ("Deployment", Some (r_ns r), api_name r); ("Service", Some (r_ns r), api_name r); ("IngressRoute", Some (r_ns r), api_name r);
   ("Middleware", Some (r_ns r), clusters_prefix_name r); ("Middleware", Some (r_ns r), api_prefix_name r);
   ("ConfigMap", Some (r_ns r), controller_name r); ("Deployment", Some (r_ns r), controller_name r);
   ("Deployment", Some (r_ns r), traefik_name r); ("Service", Some (r_ns r), traefik_name r)]%string.
(** Releases are known by name and namespace. *)
Definition same_release (r r' : release) : bool := bool_decide (r_name r = r_name r') && bool_decide (r_ns r = r_ns r').
(** helm install and helm uninstall. *)
Inductive helm := Install (r : release) (b : rbac) | Uninstall (name ns : bytes).
Definition clash (x y : release * rbac) : bool :=
  existsb (fun i => bool_decide (i ∈ helm_objects (fst y) (snd y))) (helm_objects (fst x) (snd x)).
Definition helm_step (s : list (release * rbac)) (e : helm) : list (release * rbac) :=
  match e with
  | Install r b => if existsb (fun x => same_release r (fst x) || clash (r, b) x) s then s else (r, b) :: s
  | Uninstall n ns => List.filter (fun x => negb (bool_decide (r_name (fst x) = n) && bool_decide (r_ns (fst x) = ns))) s
  end.
Definition after_helm (es : list helm) : list (release * rbac) := foldl helm_step [] es.
