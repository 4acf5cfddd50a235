(** The gateway's configuration in the Helm chart: the templates and the Python code of
    H/templates/gateway/configmap.yaml 9-129, H/templates/gateway/secret.yaml 1-10 and the
    token's environment variable in H/templates/gateway/deployment.yaml 60-71.

    H = resources/helm/dask-gateway.
    Simplifications: values are parsed YAML, i.e. JSON values; a template function that meets
    a value of the wrong kind stops the rendering ([None]).  toJson and json.loads are inverse
    and left out; what is between them, Go's quoting and Python's string literal, is [quote]
    and [literal], on Unicode code points.  Of the Python code the assignments to
    c.KubeClusterConfig, c.DaskGateway.authenticator_class and to the authenticator's section;
    [None]: it raises.  dict.update also takes a list of pairs, which is an error here.
    A section's name starts with a capital letter (otherwise traitlets ignores it).  That
    YAML's block scalar and nindent give back the text is assumed. *)
From Coq Require Import Ascii String ZArith.
From stdpp Require Import prelude.
From Verif Require Import Router_Model ProxyLog_Model Json_Model Api_Model.
From Verif Require Launch_Model Manifest_Model.
Local Open Scope Z_scope.

Notation dict := (list (bytes * json)).

(** * Rendering *)
(** What is handed to toJson (configmap.yaml 12-18): pick, omit, set of sprig, which copy.
    Go's truth value of a template is Python's here: zero, empty and nil are false. *)
Definition forwarded (values : dict) : option json :=
  match dget (b_ "gateway") values with
  | Some (JObj g) =>
      let g := ddel (b_ "extraConfig") g in
      match dget (b_ "auth") g with
      | Some (JObj a) =>
          match dget (b_ "jupyterhub") a with
          | Some (JObj h) =>
              let g := if truthy (jget (b_ "apiToken") JNull h)
                       then dset (b_ "auth") (JObj (dset (b_ "jupyterhub") (JObj (ddel (b_ "apiToken") h)) a)) g else g in
              Some (JObj [(b_ "gateway", JObj g)])
          | _ => None
          end
      | _ => None
      end
  | _ => None
  end.
(** The code blocks appended (10, 119-129). *)
Definition block_of (o : dict) (k : bytes) : option bytes := match dget k o with Some (JStr s) => Some s | _ => None end.
Definition extra (x : json) : option (list bytes) :=
  if truthy x then match x with JStr s => Some [s] | JObj o => mapM (block_of o) (Launch_Model.sorted (map fst o)) | _ => None end else Some [].
(** The chart's Secret (secret.yaml): its name and its data, base64 undone. *)
Definition hub (values : dict) : option dict :=
  match dget (b_ "gateway") values with
  | Some (JObj g) => match dget (b_ "auth") g with
    | Some (JObj a) => match dget (b_ "type") a, dget (b_ "jupyterhub") a with
      | Some (JStr t), Some (JObj h) => if decide (t = b_ "jupyterhub") then Some h else None
      | _, _ => None end
    | _ => None end
  | _ => None
  end.
Definition secret (api : bytes) (values : dict) : option (bytes * list (bytes * bytes)) :=
  match hub values with
  | Some h => match jget (b_ "apiToken") JNull h with JStr (x :: t) => Some (api, [(b_ "jupyterhub-api-token", x :: t)]) | _ => None end
  | None => None
  end.
(** The secretKeyRef of JUPYTERHUB_API_TOKEN (deployment.yaml 60-71): name and key. *)
Definition token_ref (api : bytes) (values : dict) : option (bytes * bytes) :=
  match hub values with
  | Some h =>
      if truthy (jget (b_ "apiToken") JNull h) then Some (api, b_ "jupyterhub-api-token")
      else match dget (b_ "apiTokenFromSecretName") h, dget (b_ "apiTokenFromSecretKey") h with Some (JStr n), Some (JStr k) => Some (n, k) | _, _ => None end
  | None => None
  end.

(** strconv.Quote, which sprig's quote uses (26): strconv/quote.go appendQuotedWith,
    appendEscapedRune.  [p]: IsPrint outside ASCII. *)
Definition go_print (p : Z -> bool) (r : Z) : bool := if r <? 128 then (32 <=? r) && (r <=? 126) else p r.
Definition hexdigit (d : Z) : Z := if d <? 10 then 48 + d else 87 + d.
Definition hex2 (r : Z) : list Z := [hexdigit (r / 16 mod 16); hexdigit (r mod 16)].
Definition hex4 (r : Z) : list Z := hex2 (r / 256) ++ hex2 r.
Definition hex8 (r : Z) : list Z := hex4 (r / 65536) ++ hex4 r.
Definition valid_rune (r : Z) : bool := ((0 <=? r) && (r <? 55296)) || ((57343 <? r) && (r <=? 1114111)).
Definition escape (p : Z -> bool) (r : Z) : list Z :=
  if (r =? 34) || (r =? 92) then [92; r]
  else if go_print p r then [r]
  else if r =? 7 then [92; 97] else if r =? 8 then [92; 98] else if r =? 12 then [92; 102]
  else if r =? 10 then [92; 110] else if r =? 13 then [92; 114] else if r =? 9 then [92; 116] else if r =? 11 then [92; 118]
  else if (r <? 32) || (r =? 127) then 92 :: 120 :: hex2 r
  else if negb (valid_rune r) then 92 :: 117 :: hex4 65533
  else if r <? 65536 then 92 :: 117 :: hex4 r
  else 92 :: 85 :: hex8 r.
Definition quote (p : Z -> bool) (s : list Z) : list Z := 34 :: concat (map (escape p) s) ++ [34].

(** Python's string literal in double quotes; octal escapes, \N and unknown escapes, which
    [quote] does not write, are left out. *)
Definition hexval (c : Z) : option Z :=
  if (48 <=? c) && (c <=? 57) then Some (c - 48) else if (97 <=? c) && (c <=? 102) then Some (c - 87)
  else if (65 <=? c) && (c <=? 70) then Some (c - 55) else None.
Definition hexnum (l : list Z) : option Z := foldl (fun acc c => a ← acc; d ← hexval c; Some (16 * a + d)) (Some 0) l.
Definition simple_escape (e : Z) : option Z :=
  if e =? 34 then Some 34 else if e =? 92 then Some 92 else if e =? 39 then Some 39
  else if e =? 97 then Some 7 else if e =? 98 then Some 8 else if e =? 102 then Some 12 else if e =? 110 then Some 10
  else if e =? 114 then Some 13 else if e =? 116 then Some 9 else if e =? 118 then Some 11 else None.
Fixpoint body (t : list Z) : option (list Z) :=
  match t with
  | [] => None
  | c :: t1 =>
      if c =? 34 then match t1 with [] => Some [] | _ => None end
      else if (c =? 10) || (c =? 13) then None
      else if c =? 92 then
        match t1 with
        | [] => None
        | e :: t2 =>
            if e =? 120 then match t2 with a :: b :: t3 => v ← hexnum [a; b]; cons v <$> body t3 | _ => None end
            else if e =? 117 then match t2 with a :: b :: c' :: d :: t3 => v ← hexnum [a; b; c'; d]; cons v <$> body t3 | _ => None end
            else if e =? 85 then
              match t2 with
              | a :: b :: c' :: d :: a' :: b' :: c'' :: d' :: t3 => v ← hexnum [a; b; c'; d; a'; b'; c''; d']; if v <=? 1114111 then cons v <$> body t3 else None
              | _ => None
              end
            else v ← simple_escape e; cons v <$> body t2
        end
      else cons c <$> body t1
  end.
Definition literal (t : list Z) : option (list Z) := match t with c :: t' => if c =? 34 then body t' else None | [] => None end.

(** * The Python code *)
(** get_property (28-35); the default is None. *)
Fixpoint lookup (v : json) (keys : list bytes) : json :=
  match keys with
  | [] => v
  | k :: ks => match v with JObj o => match dget k o with Some v' => lookup v' ks | None => JNull end | _ => JNull end
  end.
Definition get_property (props : json) (key : bytes) : json := lookup props (Manifest_Model.split_dot key).
(** str() of what is not a string: [sh]. *)
Definition show (sh : json -> bytes) (x : json) : bytes := match x with JStr s => s | _ => sh x end.
(** 47-54 *)
Definition image_part (sh : json -> bytes) (props : json) : dict :=
  let name := get_property props (b_ "gateway.backend.image.name") in
  if truthy name then
    let tag := get_property props (b_ "gateway.backend.image.tag") in
    [(b_ "image", if truthy tag then JStr (show sh name ++ b_ ":" ++ show sh tag) else name);
     (b_ "image_pull_secrets", get_property props (b_ "gateway.backend.imagePullSecrets"))]
  else [].
(** 57-77 *)
Definition table : list (string * string) :=
  [("scheduler_cores", "scheduler.cores.request"); ("scheduler_cores_limit", "scheduler.cores.limit");
   ("scheduler_memory", "scheduler.memory.request"); ("scheduler_memory_limit", "scheduler.memory.limit");
   ("scheduler_extra_container_config", "scheduler.extraContainerConfig"); ("scheduler_extra_pod_config", "scheduler.extraPodConfig");
   ("worker_cores", "worker.cores.request"); ("worker_cores_limit", "worker.cores.limit");
   ("worker_memory", "worker.memory.request"); ("worker_memory_limit", "worker.memory.limit");
   ("worker_threads", "worker.threads");
   ("worker_extra_container_config", "worker.extraContainerConfig"); ("worker_extra_pod_config", "worker.extraPodConfig");
   ("image_pull_policy", "image.pullPolicy"); ("environment", "environment"); ("namespace", "namespace")]%string.
(** 78-80 *)
Definition forward (props : json) (c : dict) (row : string * string) : dict :=
  match get_property props (b_ "gateway.backend." ++ b_ (snd row)) with JNull => c | x => dset (b_ (fst row)) x c end.
Definition set_if (key : bytes) (x : json) : dict := match x with JNull => [] | _ => [(key, x)] end.
(** [f_class]: c.DaskGateway.authenticator_class; [f_section], [f_settings]: the section
    that is set for it. *)
Record conf := Conf { f_cluster : dict; f_class : bytes; f_section : bytes; f_settings : dict }.
(** 82-117 *)
Definition authentication (env : list (bytes * bytes)) (props : json) : option (bytes * bytes * dict) :=
  match get_property props (b_ "gateway.auth.type") with
  | JStr t =>
      if decide (t = b_ "simple") then
        Some (b_ "dask_gateway_server.auth.SimpleAuthenticator", b_ "SimpleAuthenticator", set_if (b_ "password") (get_property props (b_ "gateway.auth.simple.password")))
      else if decide (t = b_ "kerberos") then
        Some (b_ "dask_gateway_server.auth.KerberosAuthenticator", b_ "KerberosAuthenticator", set_if (b_ "keytab") (get_property props (b_ "gateway.auth.kerberos.keytab")))
      else if decide (t = b_ "jupyterhub") then
        url ← match get_property props (b_ "gateway.auth.jupyterhub.apiUrl") with
              | JNull => host ← dget (b_ "HUB_SERVICE_HOST") env; port ← dget (b_ "HUB_SERVICE_PORT") env;
                         Some (JStr (b_ "http://" ++ host ++ b_ ":" ++ port ++ b_ "/hub/api"))
              | x => Some x
              end;
        Some (b_ "dask_gateway_server.auth.JupyterHubAuthenticator", b_ "JupyterHubAuthenticator",
              (b_ "jupyterhub_api_url", url) :: set_if (b_ "jupyterhub_service_name") (get_property props (b_ "gateway.auth.jupyterhub.jupyterhubServiceName")))
      else if decide (t = b_ "custom") then
        match get_property props (b_ "gateway.auth.custom.class") with
        | JStr cls =>
            let x := get_property props (b_ "gateway.auth.custom.config") in
            s ← match x with JObj o => Some o | _ => if truthy x then None else Some [] end;
            Some (cls, default [] (list.last (Manifest_Model.split_dot cls)), s)
        | _ => None
        end
      else None
  | _ => None
  end.
Definition python (sh : json -> bytes) (env : list (bytes * bytes)) (props : json) : option conf :=
  a ← authentication env props;
  Some (Conf (foldl (forward props) (image_part sh props) table) (fst (fst a)) (snd (fst a)) (snd a)).
(** The chart installed with [values], read by a gateway in [env]. *)
Definition config (sh : json -> bytes) (env : list (bytes * bytes)) (values : dict) : option conf := p ← forwarded values; python sh env p.
