(** Model of the HTTP API of the gateway server:
    dask-gateway-server/dask_gateway_server/auth.py (UserCache 21-45,
    authenticate_and_handle 84-107, SimpleAuthenticator 193-208,
    JupyterHubAuthenticator 408-484), routes.py, models.py (has_permissions 59-61,
    to_dict 132-153) and backends/base.py (forward_message_to_scheduler 102-137).

    Left out: KerberosAuthenticator (its outcome is covered by the arbitrary
    authenticator), logging, health and version (they take no user data), the text
    of error messages, HTTP parsing.  Exceptions that are not HTTPException end
    as status 500. *)
From Coq Require Import Ascii String ZArith QArith Qcanon.
From stdpp Require Import prelude.
From Verif Require Import Router_Model ProxyLog_Model Json_Model.
Local Open Scope Z_scope.

(** models.User (48-61). *)
Record user := User { u_name : bytes; u_groups : list bytes; u_admin : bool }.

(** * auth.UserCache (21-45).  [None]: KeyError.  uuid4().hex of 41 is [fresh]. *)
Record cache := Cache { name_to_cookie : list (bytes * bytes); cookie_to_user : list (bytes * (Z * user)) }.
Definition cache_init : cache := Cache [] [].
Definition ddel_strict {V} (k : bytes) (d : list (bytes * V)) : option (list (bytes * V)) :=
  match dget k d with Some _ => Some (ddel k d) | None => None end.
(** get (27-36). *)
Definition cache_get (max_age : Z) (cookie : bytes) (now : Z) (c : cache) : option (option user * cache) :=
  match dget cookie (cookie_to_user c) with
  | None => Some (None, c)
  | Some (t, u) =>
      if t + max_age <? now then
        cu ← ddel_strict cookie (cookie_to_user c);
        nc ← ddel_strict (u_name u) (name_to_cookie c);
        Some (None, Cache nc cu)
      else Some (Some u, c)
  end.
(** put (38-45). *)
Definition cache_put (u : user) (now : Z) (fresh : bytes) (c : cache) : bytes * cache :=
  match dget (u_name u) (name_to_cookie c) with
  | Some cookie => (cookie, c)
  | None => (fresh, Cache (dset (u_name u) fresh (name_to_cookie c)) (dset fresh (now, u) (cookie_to_user c)))
  end.

(** * Authenticators: a user, or the status of the error raised. *)
(** str.split(sep, 1) unpacked into two names: [None] is ValueError. *)
Fixpoint split1 (sep : ascii) (s : bytes) : option (bytes * bytes) :=
  match s with
  | [] => None
  | c :: s' => if decide (c = sep) then Some ([], s')
               else p ← split1 sep s'; Some (c :: fst p, snd p)
  end.
(** SimpleAuthenticator.authenticate (193-208).  [b64]: base64.b64decode followed
    by decode("ascii"), any partial function. *)
Definition simple_authenticate (b64 : bytes -> option bytes) (password : option bytes) (header : option bytes) : user + Z :=
  match header with
  | None | Some [] => inr 401
  | Some h =>
      match split1 " "%char h with
      | None => inr 500
      | Some (ty, key) =>
          if decide (ty = b_ "Basic") then
            match b64 key with
            | None => inr 500
            | Some k =>
                match split1 ":"%char k with
                | None => inr 500
                | Some (name, pw) =>
                    match password with
                    | None | Some [] => inl (User name [] false)
                    | Some p => if decide (pw = p) then inl (User name [] false) else inr 401
                    end
                end
            end
          else inr 401
      end
  end.
(** JupyterHubAuthenticator.get_token (408-414); [inr 500]: ValueError. *)
Definition hub_token (header : option bytes) : option bytes + Z :=
  match header with
  | None | Some [] => inl None
  | Some h => match split1 " "%char h with
              | None => inr 500
              | Some (ty, key) => inl (if decide (ty = b_ "jupyterhub") then Some key else None)
              end
  end.
(** The hub's answer to GET /user: a status, and with status < 400 the data. *)
Record hubdata := HubData { h_kind : bytes; h_name : bytes; h_scopes : list bytes; h_groups : list bytes; h_admin : bool }.
(** The user name (429-436). *)
Definition hub_username (kind name : bytes) : bytes :=
  if decide (kind <> b_ "user" \/ ":"%char ∈ name) then kind ++ ":"%char :: name else name.
(** authenticate (416-484).  [scopes]: use_service_access_scopes with the name of
    the service. *)
Definition hub_authenticate (service : option bytes) (hub : bytes -> Z * hubdata) (header : option bytes) : user + Z :=
  match hub_token header with
  | inr e => inr e
  | inl None => inr 401
  | inl (Some token) =>
      let '(status, d) := hub token in
      if status <? 400 then
        let ok := match service with
                  | None => true
                  | Some s => bool_decide (Exists (fun x => x = b_ "access:services" \/ x = b_ "access:services!service=" ++ s) (h_scopes d))
                  end in
        if ok then inl (User (hub_username (h_kind d) (h_name d)) (h_groups d) (h_admin d)) else inr 401
      else if status =? 404 then inr 401
      else if status =? 403 then inr 500
      else if 500 <=? status then inr 502
      else inr 500
  end.

(** * models.Cluster, as far as the API shows it. *)
Inductive cstatus := KPENDING | KRUNNING | KSTOPPING | KSTOPPED | KFAILED.
Global Instance cstatus_eq_dec : EqDecision cstatus.
Proof. solve_decision. Defined.
Record clus := Clus {
  k_name : bytes; k_user : bytes; k_token : bytes; k_status : cstatus;
  k_dash : bytes; k_api : bytes; k_cert : bytes; k_key : bytes; k_max : option Z (* config.get("cluster_max_workers") *) }.
(** has_permissions (59-61). *)
Definition has_permissions (u : user) (c : clus) : bool := bool_decide (u_name u = k_user c).
(** to_dict (132-153); [r_tls]: [None] the keys are absent, [Some None] both null. *)
Record report := Report { r_name : bytes; r_dash : option bytes; r_status : cstatus; r_tls : option (option (bytes * bytes)) }.
Definition to_dict (full : bool) (c : clus) : report :=
  Report (k_name c)
    (if decide (k_status c = KRUNNING /\ k_dash c <> []) then Some (b_ "/clusters/" ++ k_name c ++ b_ "/status") else None)
    (k_status c)
    (if full then Some (if decide (k_status c = KRUNNING) then Some (k_cert c, k_key c) else None) else None).

(** * Messages to the scheduler *)
Inductive smsg := MScale (count : Z) | MAdapt (minimum maximum active : json).
(** forward_message_to_scheduler (102-137).  [posts]: whether each attempt
    succeeds.  Delays in tenths of a second. *)
Inductive fevent := FPost (c : clus) (m : smsg) | FSleep (tenths : Z) | FStop (name : bytes) (failed : bool).
Fixpoint forward_loop (posts : nat -> bool) (retries : Z) (c : clus) (m : smsg) (fuel : nat) (attempt : Z) (t : Z) : list fevent * bool :=
  if posts (Z.to_nat attempt) then ([FPost c m], true)
  else match fuel with
       | O => ([FPost c m; FStop (k_name c) true], false)
       | S f => if attempt <? retries then
                  let '(evs, ok) := forward_loop posts retries c m f (attempt + 1) (Z.min (t * 2) 50) in
                  (FPost c m :: FSleep t :: evs, ok)
                else ([FPost c m; FStop (k_name c) true], false)
       end.
Definition forward (posts : nat -> bool) (retries : Z) (c : clus) (m : smsg) : list fevent * bool :=
  if decide (k_status c = KRUNNING) then forward_loop posts retries c m (Z.to_nat retries) 1 1 else ([], false).

(** * routes.py *)
(** A request: the path with its parameters, the cookie sent under the
    authenticator's cookie name, the Authorization header, the JSON body
    ([None]: not JSON). *)
Inductive endpoint :=
| EpOptions
| EpList (statuses : option bytes)
| EpCreate
| EpGet (name : bytes)
| EpDelete (name : bytes)
| EpScale (name : bytes)
| EpAdapt (name : bytes)
| EpHeartbeat (name : bytes).
Record request := Request { rq_ep : endpoint; rq_cookie : option bytes; rq_auth : option bytes; rq_body : option json }.

(** What a handler does besides answering. *)
Inductive effect :=
| FxStart (u : user) (options : json)
| FxStop (name : bytes) (failed : bool)
| FxForward (ev : fevent)
| FxHeartbeat (name : bytes) (msg : json).
Inductive rbody :=
| BEmpty | BOptions | BName (n : bytes) | BError
| BClusters (l : list report) | BCluster (r : report) | BOk (ok : bool).
Record response := Resp { rs_status : Z; rs_body : rbody }.
(** [HTTPException] or another exception escaped from the handler: no cookie is
    set (99 is not reached). *)
Inductive outcome := Answer (r : response) | Raised (status : Z).

(** What the environment answers during one request: [o_auth] the authenticator,
    [o_db1] / [o_db2] backend.get_cluster in the wrapper / in the handler, [o_list]
    backend.list_clusters, [o_start] backend.start_cluster ([None]:
    PublicException), [o_posts] the attempts to reach the scheduler, [o_hb]
    whether on_cluster_heartbeat accepts. *)
Record oracle := Oracle {
  o_auth : user + Z;
  o_db1 : bytes -> option clus; o_db2 : bytes -> option clus;
  o_list : bytes -> option (list cstatus) -> list clus;
  o_start : user -> json -> option bytes;
  o_posts : nat -> bool;
  o_hb : bool }.

(** list_clusters (94-110): the statuses.  [models.IntEnum.from_name] upper-cases
    (only ASCII letters here). *)
Definition upper (c : ascii) : ascii :=
  let n := nat_of_ascii c in if decide (97 <= n <= 122)%nat then ascii_of_nat (n - 32) else c.
Definition from_name (s : bytes) : option cstatus :=
  let s := map upper s in
  if decide (s = b_ "PENDING") then Some KPENDING
  else if decide (s = b_ "RUNNING") then Some KRUNNING
  else if decide (s = b_ "STOPPING") then Some KSTOPPING
  else if decide (s = b_ "STOPPED") then Some KSTOPPED
  else if decide (s = b_ "FAILED") then Some KFAILED
  else None.
(** str.split(","). *)
Fixpoint split_all (sep : ascii) (s : bytes) : list bytes :=
  match s with
  | [] => [[]]
  | c :: s' => if decide (c = sep) then [] :: split_all sep s'
               else match split_all sep s' with [] => [[c]] | w :: ws => (c :: w) :: ws end
  end.
Definition parse_statuses (q : option bytes) : option (option (list cstatus)) :=
  match q with
  | None => Some None
  | Some s => l ← mapM from_name (split_all ","%char s); Some (Some l)
  end.

(** msg.get(k, default) on a parsed body; [None]: the body is not JSON, or not an
    object. *)
Definition body_obj (b : option json) : option (list (bytes * json)) :=
  match b with Some (JObj o) => Some o | _ => None end.
Definition jget (k : bytes) (d : json) (o : list (bytes * json)) : json := default d (dget k o).
(** Python's truth value, for [or {}] of create_cluster. *)
Definition truthy (x : json) : bool :=
  match x with
  | JNull => false | JBool b => b | JInt z => negb (z =? 0)
  | JFloat (Fin q) => negb (bool_decide (q = Q2Qc 0)) | JFloat _ => true
  | JStr s => negb (bool_decide (length s = 0%nat)) | JList l => negb (bool_decide (length l = 0%nat)) | JObj o => negb (bool_decide (length o = 0%nat))
  end.

(** The numbers adapt_cluster (222-243) works with when there is a limit; [None]:
    TypeError.  [min(a, b)] returns [a] unless [b < a]. *)
Definition jlt_lim (lim : Z) (x : json) : option bool := f ← num_of x; Some (fltb (of_Z lim) f).   (* x > lim *)
Definition jmin_lim (lim : Z) (x : json) : option json := f ← num_of x; Some (if fltb f (of_Z lim) then x else JInt lim).
(** [if x is None: x = d] (231-234). *)
Definition if_none (x d : json) : json := match x with JNull => d | _ => x end.
Definition clamp_adapt (lim : Z) (minimum maximum : json) : option (json * json * bool) :=
  let maximum := if_none maximum (JInt lim) in
  let minimum := if_none minimum (JInt 0) in
  over1 ← jlt_lim lim maximum;
  over ← (if over1 : bool then Some true else jlt_lim lim minimum);
  if over : bool then
    mx ← jmin_lim lim maximum; mn ← jmin_lim lim minimum; Some (mn, mx, true)
  else Some (minimum, maximum, false).

(** forward and the answer of scale_cluster (196-204) / adapt_cluster (245-255). *)
Definition send (retries : Z) (o : oracle) (c : clus) (m : smsg) (clamped : bool) : outcome * list effect :=
  let '(evs, ok) := forward (o_posts o) retries c m in
  (if ok : bool then Answer (Resp 200 (BOk (negb clamped))) else Raised 409, map FxForward evs).

(** The handlers (84-278).  [who]: request["user"], [None] for a cluster token. *)
Definition handler (retries : Z) (o : oracle) (rq : request) (who : option user) : outcome * list effect :=
  match rq_ep rq, who with
  | EpOptions, Some _ => (Answer (Resp 200 BOptions), [])
  | EpList q, Some u =>
      match parse_statuses q with
      | None => (Raised 422, [])
      | Some sts => (Answer (Resp 200 (BClusters (map (to_dict true) (o_list o (u_name u) sts)))), [])
      end
  | EpCreate, Some u =>
      match body_obj (rq_body rq) with
      | None => (Raised 500, [])
      | Some b =>
          let opts := let x := jget (b_ "cluster_options") JNull b in if truthy x then x else JObj [] in
          match o_start o u opts with
          | None => (Raised 422, [FxStart u opts])
          | Some n => (Answer (Resp 201 (BName n)), [FxStart u opts])
          end
      end
  | EpGet n, Some u =>
      match o_db2 o n with
      | None => (Raised 404, [])
      | Some c => if has_permissions u c then (Answer (Resp 200 (BCluster (to_dict true c))), []) else (Raised 403, [])
      end
  | EpDelete n, who =>
      match o_db2 o n with
      | None => (Answer (Resp 204 BEmpty), [])
      | Some c =>
          if match who with Some u => negb (has_permissions u c) | None => false end then (Raised 403, [])
          else (Answer (Resp 204 BEmpty), [FxStop n false])
      end
  | EpScale n, Some u =>
      match o_db2 o n with
      | None => (Raised 404, [])
      | Some c =>
          if has_permissions u c then
            match body_obj (rq_body rq) with
            | None => (Raised 500, [])
            | Some b =>
                match int_of (jget (b_ "count") JNull b) with
                | None => (Raised 422, [])
                | Some count =>
                    if count <? 0 then (Raised 422, [])
                    else match k_max c with
                         | Some mx => if mx <? count then send retries o c (MScale mx) true else send retries o c (MScale count) false
                         | None => send retries o c (MScale count) false
                         end
                end
            end
          else (Raised 403, [])
      end
  | EpAdapt n, Some u =>
      match o_db2 o n with
      | None => (Raised 404, [])
      | Some c =>
          if has_permissions u c then
            match body_obj (rq_body rq) with
            | None => (Raised 500, [])
            | Some b =>
                let mn := jget (b_ "minimum") JNull b in
                let mx := jget (b_ "maximum") JNull b in
                let act := jget (b_ "active") (JBool true) b in
                match k_max c with
                | None => send retries o c (MAdapt mn mx act) false
                | Some lim =>
                    match clamp_adapt lim mn mx with
                    | None => (Raised 500, [])
                    | Some (mn', mx', cl) => send retries o c (MAdapt mn' mx' act) cl
                    end
                end
            end
          else (Raised 403, [])
      end
  | EpHeartbeat n, _ =>
      match rq_body rq with
      | None => (Raised 500, [])
      | Some msg => (if o_hb o then Answer (Resp 200 BEmpty) else Raised 409, [FxHeartbeat n msg])
      end
  | _, None => (Raised 500, [])                        (* not reached: see [wants] *)
  end.

(** The decorators of the handlers (84-259): user_authenticated, token_authenticated. *)
Definition wants (e : endpoint) : bool * bool :=
  match e with
  | EpDelete _ => (true, true)
  | EpHeartbeat _ => (false, true)
  | _ => (true, false)
  end.
Definition ep_name (e : endpoint) : bytes :=
  match e with EpGet n | EpDelete n | EpScale n | EpAdapt n | EpHeartbeat n => n | _ => [] end.

(** _wrap_authenticated (24-49), the token part: [inl true] the token is right,
    [inl false] go on, [inr s] an error. *)
Definition token_check (o : oracle) (rq : request) : bool + Z :=
  let '(wu, wt) := wants (rq_ep rq) in
  if wt : bool then
    let no := if wu : bool then inl false else inr 401 in
    match rq_auth rq with
    | None | Some [] => no
    | Some h =>
        match split1 " "%char h with
        | None => inr 500
        | Some (ty, tok) =>
            if decide (ty = b_ "token") then
              match o_db1 o (ep_name (rq_ep rq)) with
              | Some c => if decide (k_token c = tok) then inl true else no
              | None => no
              end
            else no
        end
    end
  else inl false.

(** The server as far as sessions are concerned: the cache, and the requests that
    authenticated and whose response is being produced.  A request arrives: the
    token check, the cookie, the authenticator, the handler.  Later it finishes:
    the cookie is stored and sent (105-106).  What happens in between in other
    requests is arbitrary. *)
Record server := Server { sv_cache : cache; sv_pending : list (nat * (user * response)) }.
Definition server_init : server := Server cache_init [].
Inductive aevent :=
| Arrive (id : nat) (rq : request) (o : oracle) (now : Z)
| Finish (id : nat) (now : Z) (fresh : bytes).
(** Who a request acts as. *)
Inductive identity := Nobody | ByToken | ByCookie (u : user) | ByLogin (u : user).
Record aout := AOut { ao_who : identity; ao_status : Z; ao_body : rbody; ao_effects : list effect; ao_cookie : option bytes }.

Definition dcookie (max_age : Z) (rq : request) (now : Z) (c : cache) : option (option user * cache) :=
  match rq_cookie rq with None => Some (None, c) | Some k => cache_get max_age k now c end.
Definition out_of (who : identity) (r : outcome * list effect) : aout :=
  match fst r with
  | Answer rs => AOut who (rs_status rs) (rs_body rs) (snd r) None
  | Raised st => AOut who st BError (snd r) None
  end.
Definition api_step (max_age retries : Z) (s : server) (e : aevent) : server * aout :=
  match e with
  | Arrive id rq o now =>
      match token_check o rq with
      | inr st => (s, AOut Nobody st BError [] None)
      | inl true => (s, out_of ByToken (handler retries o rq None))
      | inl false =>
          match dcookie max_age rq now (sv_cache s) with
          | None => (s, AOut Nobody 500 BError [] None)           (* KeyError in the cache *)
          | Some (Some u, c) => (Server c (sv_pending s), out_of (ByCookie u) (handler retries o rq (Some u)))
          | Some (None, c) =>
              match o_auth o with
              | inr st => (Server c (sv_pending s), AOut Nobody st BError [] None)
              | inl u =>
                  let r := handler retries o rq (Some u) in
                  let p := match fst r with Answer rs => (id, (u, rs)) :: sv_pending s | Raised _ => sv_pending s end in
                  (Server c p, out_of (ByLogin u) r)
              end
          end
      end
  | Finish id now fresh =>
      match dget id (sv_pending s) with
      | None => (s, AOut Nobody 0 BEmpty [] None)
      | Some (u, rs) =>
          let '(cookie, c) := cache_put u now fresh (sv_cache s) in
          (Server c (ddel id (sv_pending s)), AOut (ByLogin u) (rs_status rs) (rs_body rs) [] (Some cookie))
      end
  end.
