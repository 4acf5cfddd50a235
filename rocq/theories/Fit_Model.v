(** An installation of the Helm chart as a whole: the names (H/templates/_helpers.tpl), the
    gateway's service, route and middlewares (H/templates/gateway/service.yaml,
    ingressroute.yaml, middleware.yaml), the addresses in both configurations
    (H/templates/gateway/configmap.yaml 38-45, controller/configmap.yaml), the pods' labels
    (the three deployment.yaml), Traefik's service and arguments (H/templates/traefik/
    service.yaml, deployment.yaml), and what Traefik makes of these objects and of those that
    the controller creates (Manifest_Model).

    H = resources/helm/dask-gateway.
    Traefik, a dependency, is modelled from its documentation: it reads the objects with the
    label it was told to look for; a rule PathPrefix must begin with a slash; of the routes
    that match, the one with the longest rule is taken; a route whose middlewares are not
    there is not served; StripPrefix and StripPrefixRegex as documented, the latter with Go's
    leftmost-first regular expressions.  Of these only what a prefix needs: characters, "." and
    "+"; other special characters are taken literally here, and the theorems leave them out.
    Values that are printed into Python text are assumed to need no escaping (see Chart_Model
    for the rest of that text).  The TCP port's value is given as its text. *)
From Coq Require Import Ascii String ZArith.
From stdpp Require Import prelude.
From Verif Require Import Router_Model ProxyLog_Model Json_Model Util_Model Launch_Model Manifest_Model.
Local Open Scope nat_scope.

(** * Values *)
Record release := Release { r_name : bytes; r_ns : bytes; v_name_override : bytes; v_fullname_override : bytes; v_prefix : bytes;
  v_web_port : Z; v_tcp_port : bytes }.
(** sprig's trunc, trimSuffix and contains. *)
Definition trunc (n : nat) (s : bytes) : bytes := take n s.
Definition trim_suffix (x : ascii) (s : bytes) : bytes := match rev s with y :: t => if decide (x = y) then rev t else s | [] => [] end.
Fixpoint is_prefix (p s : bytes) : bool := match p, s with [], _ => true | x :: p', y :: s' => bool_decide (x = y) && is_prefix p' s' | _, _ => false end.
Fixpoint contains (p s : bytes) : bool := is_prefix p s || match s with [] => false | _ :: s' => contains p s' end.
Definition short (s : bytes) : bytes := trim_suffix "-"%char (trunc 63 s).
(** 5-7, 14-25. *)
Definition chart_name (r : release) : bytes := match v_name_override r with [] => b_ "dask-gateway" | n => n end.
Definition fullname (r : release) : bytes :=
  match v_fullname_override r with
  | [] => if contains (chart_name r) (r_name r) then short (r_name r) else short (r_name r ++ b_ "-" ++ chart_name r)
  | n => short n
  end.
(** 60-76, and the names in middleware.yaml, ingressroute.yaml, controller/configmap.yaml. *)
Definition api_name (r : release) : bytes := short (b_ "api-" ++ fullname r).
Definition clusters_prefix_name (r : release) : bytes := short (b_ "clusters-prefix-" ++ fullname r).
Definition api_prefix_name (r : release) : bytes := short (b_ "api-prefix-" ++ fullname r).
(** 37-55. *)
Definition match_labels (r : release) : list (bytes * bytes) := [(b_ "app.kubernetes.io/name", short (chart_name r)); (b_ "app.kubernetes.io/instance", r_name r)].
Definition chart_labels (r : release) : list (bytes * bytes) := match_labels r ++ [(b_ "gateway.dask.org/instance", fullname r)].

(** * Objects of the chart, with their namespace *)
Definition meta (r : release) (name : bytes) (labels : list (bytes * bytes)) : string * json :=
  ("metadata", jobj [("labels", jdict labels); ("name", JStr name)])%string.
Definition own_service (r : release) : json :=
  jobj [("kind", jstr "Service"); meta r (api_name r) (chart_labels r);
        ("spec", jobj [("selector", jdict (match_labels r ++ [(b_ "app.kubernetes.io/component", b_ "gateway")]));
                       ("ports", JList [jobj [("port", JInt 8000); ("targetPort", JInt 8000)]])])]%string.
Definition no_slash_end (r : release) : bytes := trim_suffix slash (v_prefix r).
Definition clusters_middleware (r : release) : json :=
  jobj [("kind", jstr "Middleware"); meta r (clusters_prefix_name r) (chart_labels r);
        ("spec", jobj [("stripPrefixRegex", JStr (no_slash_end r ++ b_ "/clusters/[a-zA-Z0-9.-]+"))])]%string.
Definition api_middleware (r : release) : json :=
  jobj [("kind", jstr "Middleware"); meta r (api_prefix_name r) (chart_labels r);
        ("spec", jobj [("stripPrefix", JStr (no_slash_end r))])]%string.
Definition at_root (r : release) : bool := bool_decide (v_prefix r = [slash]).
Definition own_route (r : release) : json :=
  jobj [("kind", jstr "IngressRoute"); meta r (api_name r) (chart_labels r);
        ("spec", jobj [("entryPoints", JList [jstr "web"]);
                       ("routes", JList [jobj [("match", JStr (b_ "PathPrefix(`" ++ v_prefix r ++ b_ "`)")); ("kind", jstr "Rule");
                          ("services", JList [jobj [("name", JStr (api_name r)); ("port", JInt 8000)]]);
                          ("middlewares", JList (if at_root r then [] else [jobj [("name", JStr (api_prefix_name r))]]))]])])]%string.
Definition chart_objects (r : release) : list (bytes * json) :=
  map (pair (r_ns r)) ([own_service r; own_route r; clusters_middleware r] ++ if at_root r then [] else [api_middleware r]).
(** Labels of the pods: gateway, controller, traefik. *)
Definition own_pod (r : release) (component : bytes) : json :=
  jobj [("kind", jstr "Pod"); meta r [] (chart_labels r ++ [(b_ "app.kubernetes.io/component", component)])]%string.

(** * Configurations *)
Definition api_url (r : release) : bytes := b_ "http://" ++ api_name r ++ b_ "." ++ r_ns r ++ b_ ":8000/api".
Definition tcp_shared (r : release) : bool := bool_decide (v_tcp_port r = b_ "web").
(** controller/configmap.yaml; proxy_prefix after its validation, the entry points' defaults
    (controller.py 271-281), proxy_web_middlewares. *)
Definition controller (r : release) (labels annotations : list (bytes * bytes)) : ctl :=
  Ctl (api_url r) (fullname r) labels annotations (valid_prefix (v_prefix r)) (b_ "web") (if tcp_shared r then b_ "web" else b_ "tcp")
    [jobj [("name", JStr (clusters_prefix_name r)); ("namespace", JStr (r_ns r))]%string].
(** gateway/configmap.yaml: the gateway's own instance and address (host part empty). *)
Definition gateway_instance (r : release) : bytes := fullname r.
Definition gateway_port : Z := 8000.

(** * Traefik *)
(** Its entry points, and the ports of its service with the port of the pod they lead to. *)
Definition entrypoints (r : release) : list (bytes * Z) := [(b_ "traefik", 9000%Z); (b_ "web", 8000%Z)] ++ if tcp_shared r then [] else [(b_ "tcp", 8786%Z)].
Definition exposed (r : release) : list (bytes * Z) := [(dec (v_web_port r), 8000%Z)] ++ if tcp_shared r then [] else [(v_tcp_port r, 8786%Z)].
Definition visible (r : release) (obj : json) : bool := bool_decide (label "gateway.dask.org/instance" obj = Some (fullname r)).
Definition is_kind (k : string) (obj : json) : bool := match field "kind" obj with Some (JStr x) => bool_decide (x = b_ k) | _ => false end.
Definition text (o : option json) : option bytes := match o with Some (JStr s) => Some s | _ => None end.
Definition items (o : option json) : list json := match o with Some (JList l) => l | _ => [] end.

(** Middlewares. *)
Definition atom (x : ascii) : ascii -> bool := if decide (x = "."%char) then fun _ => true else fun y => bool_decide (x = y).
Definition letter (x : ascii) : bool :=   (* [a-zA-Z0-9.-] *)
  let n := nat_of_ascii x in ((97 <=? n) && (n <=? 122)) || ((65 <=? n) && (n <=? 90)) || ((48 <=? n) && (n <=? 57)) || (n =? 46) || (n =? 45).
Inductive piece := One (p : ascii -> bool) | Plus (p : ascii -> bool).
Fixpoint pieces (s : bytes) : list piece :=
  match s with
  | x :: ((y :: s'') as s') => if decide (y = "+"%char) then Plus (atom x) :: pieces s'' else One (atom x) :: pieces s'
  | [x] => [One (atom x)]
  | [] => []
  end.
(** The rest of [s] after a match at its start; a [Plus] takes as much as it can. *)
Fixpoint at_start (fuel : nat) (re : list piece) (s : bytes) : option bytes :=
  match fuel with
  | 0 => None
  | S fuel =>
      match re, s with
      | [], _ => Some s
      | _, [] => None
      | One p :: re', x :: s' => if p x then at_start fuel re' s' else None
      | Plus p :: re', x :: s' => if p x then match at_start fuel re s' with Some z => Some z | None => at_start fuel re' s' end else None
      end
  end.
Fixpoint find_match (re : list piece) (s : bytes) : option bytes :=
  match at_start (S (length re + length s)) re s with
  | Some z => Some (take (length s - length z) s)
  | None => match s with [] => None | _ :: s' => find_match re s' end
  end.
Definition lead (s : bytes) : bytes := match s with [] => [] | x :: _ => if decide (x = slash) then s else slash :: s end.
(** stripPrefixRegex: the expressions of the chart end in the class above. *)
Definition class_text : bytes := b_ "[a-zA-Z0-9.-]+".
Definition drop_end (e s : bytes) : bytes := take (length s - length e) s.
Definition compiled (s : bytes) : list piece := pieces (drop_end class_text s) ++ [Plus letter].
Definition apply (m : json) (path : bytes) : bytes :=
  match field "spec" m with
  | Some spec =>
      match text (field "stripPrefix" spec), text (field "stripPrefixRegex" spec) with
      | Some p, _ => if is_prefix p path then lead (drop (length p) path) else path
      | None, Some e => match find_match (compiled e) path with
                        | Some ((_ :: _) as w) => if is_prefix w path then lead (drop (length w) path) else path
                        | _ => path
                        end
      | _, _ => path
      end
  | None => path
  end.

(** Routes. *)
Record router := Route { rt_rule : bytes; rt_prefix : bytes; rt_service : bytes * bytes * Z; rt_middlewares : list json }.
Definition rule_prefix (m : bytes) : option bytes :=
  let a := b_ "PathPrefix(`" in let p := drop_end (b_ "`)") (drop (length a) m) in
  if is_prefix a m && is_prefix [slash] p then Some p else None.
Definition name_of (obj : json) : option bytes := m ← field "metadata" obj; text (field "name" m).
Definition find_middleware (r : release) (objs : list (bytes * json)) (ns name : bytes) : option json :=
  snd <$> List.find (fun no => visible r (snd no) && is_kind "Middleware" (snd no) && bool_decide (fst no = ns) && bool_decide (name_of (snd no) = Some name)) objs.
Definition all_some {A} (l : list (option A)) : option (list A) := foldr (fun x y => x ← x; y ← y; Some (x :: y)) (Some []) l.
(** The router made of an IngressRoute of namespace [ns] (one rule and one service, as all
    objects here have). *)
Definition router_of (r : release) (objs : list (bytes * json)) (entry : bytes) (no : bytes * json) : option router :=
  let '(ns, obj) := no in
  if visible r obj && is_kind "IngressRoute" obj then
    spec ← field "spec" obj;
    if existsb (fun j => bool_decide (text (Some j) = Some entry)) (items (field "entryPoints" spec)) then
      rule ← head (items (field "routes" spec)); m ← text (field "match" rule); p ← rule_prefix m;
      svc ← head (items (field "services" rule)); name ← text (field "name" svc);
      port ← match field "port" svc with Some (JInt z) => Some z | _ => None end;
      ms ← all_some (map (fun j => name ← text (field "name" j); find_middleware r objs (default ns (text (field "namespace" j))) name) (items (field "middlewares" rule)));
      Some (Route m p (default ns (text (field "namespace" svc)), name, port) ms)
    else None
  else None.
(** The longest rule wins. *)
Definition best (l : list router) : option router :=
  foldr (fun x y => match y with Some y' => if length (rt_rule y') <=? length (rt_rule x) then Some x else y | None => Some x end) None l.
(** Where a request goes: namespace, service, port, and the path it arrives with. *)
Definition web (r : release) (objs : list (bytes * json)) (path : bytes) : option (bytes * bytes * Z * bytes) :=
  x ← best (List.filter (fun x => is_prefix (rt_prefix x) path) (omap (router_of r objs (b_ "web")) objs));
  Some (rt_service x, foldl (fun p m => apply m p) path (rt_middlewares x)).
