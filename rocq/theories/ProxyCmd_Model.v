(** From the configuration of the proxy to the running process: S/utils.py 132-143
    (normalize_address), S/app.py 142-148 (the gateway's address), S/proxy/core.py 74-80
    (defaults and validation of the addresses), 92-102 (_validate_prefix), 109-112 (gateway_url), 130-136 (api_token), 196-219
    (get_start_command, get_start_env), 368-377 (the check of the token in routes_handler),
    449-457 (ProxyApp.start), S/backends/db_base.py 815-820 (api_url),
    G/cmd/dask-gateway-proxy/main.go 126-154 (run, up to the listeners), 238-244 and 300-307
    (the Authorization header), 548-593 (main), G/internal/logging/logging.go 24-36
    (ParseLevel), and Go's package flag (parseOne).
    S = dask-gateway-server/dask_gateway_server, G = dask-gateway-server/dask-gateway-proxy.
    Text is ASCII.  What random_port, gethostname and uuid4 return are arguments. *)
From Coq Require Import Ascii String ZArith.
From stdpp Require Import prelude.
From Verif Require Import Router_Model ProxyLog_Model Launch_Model Manifest_Model Addr_Model.
Local Open Scope nat_scope.

(** * normalize_address (132-143). *)
(** int(s) for a str: blanks around it, a sign, digits with single underscores between. *)
Definition is_space (c : ascii) : bool := ((9 <=? code c) && (code c <=? 13)) || ((28 <=? code c) && (code c <=? 32)).
Fixpoint lstrip_ws (s : bytes) : bytes := match s with c :: s' => if is_space c then lstrip_ws s' else s | [] => [] end.
Definition strip_ws (s : bytes) : bytes := rev (lstrip_ws (rev (lstrip_ws s))).
Definition digit_value (c : ascii) : Z := (Z.of_nat (code c) - 48)%Z.
Fixpoint more_digits (acc : Z) (l : bytes) : option Z :=
  match l with
  | [] => Some acc
  | x :: l' =>
      if is_digit x then more_digits (10 * acc + digit_value x) l'
      else if decide (x = "_"%char) then
        match l' with y :: l'' => if is_digit y then more_digits (10 * acc + digit_value y) l'' else None | [] => None end
      else None
  end.
Definition unsigned (l : bytes) : option Z := match l with x :: l' => if is_digit x then more_digits (digit_value x) l' else None | [] => None end.
Definition py_int (s : bytes) : option Z :=
  match strip_ws s with
  | x :: l => if decide (x = "-"%char) then option_map Z.opp (unsigned l) else if decide (x = "+"%char) then unsigned l else unsigned (x :: l)
  | [] => None
  end.
Definition any_host (h : bytes) : bool := bool_decide (h = [] \/ h = b_ "0.0.0.0").
(** [name]: socket.gethostname(); [free]: random_port(). *)
Definition normalize (resolve : bool) (name : bytes) (free : Z) (address : bytes) : res bytes :=
  match partition colon address with
  | Some (host, p) =>
      if bool_decide (colon ∈ p) then ValueError else   (* too many values to unpack *)
      match py_int p with
      | None => ValueError
      | Some n => let host := if resolve && any_host host then name else host in
                  Ok (host ++ colon :: dec (if Z.eqb n 0 then free else n))
      end
  | None => ValueError
  end.

(** * The configuration (core.py 34-194). *)
Inductive level := LError | LWarn | LInfo | LDebug.
Definition level_name (l : level) : bytes :=
  match l with LError => b_ "error" | LWarn => b_ "warn" | LInfo => b_ "info" | LDebug => b_ "debug" end.
(** None: not set.  [c_gateway]: the application's address (app.py 125-148). *)
Record config := Config { c_address : bytes; c_tcp : option bytes; c_prefix : bytes; c_url : option bytes; c_gateway : bytes;
                          c_token : option bytes; c_cert : bytes; c_key : bytes; c_level : level }.
(** What the system answers: host name, three free ports, uuid4().hex, the environment variable. *)
Record system := System { y_name : bytes; y_free1 : Z; y_free2 : Z; y_free3 : Z; y_uuid : bytes; y_env : bytes }.
Definition bind {A B} (x : res A) (f : A -> res B) : res B := match x with Ok a => f a | ValueError => ValueError end.
(** 74-80; the default of tcp_address is validated as well. *)
Definition address_of (y : system) (c : config) : res bytes := normalize false (y_name y) (y_free1 y) (c_address c).
Definition tcp_of (y : system) (c : config) : res bytes :=
  match c_tcp c with
  | Some t => normalize false (y_name y) (y_free2 y) t
  | None => bind (address_of y c) (normalize false (y_name y) (y_free2 y))
  end.
(** 92-102. *)
Definition prefix_of (c : config) : res bytes :=
  match c_prefix c with
  | [] => Ok []
  | x :: p => if decide (x = slash) then Ok (rstrip (x :: p)) else ValueError
  end.
(** app.py 142-148: where the gateway listens, and what the proxy knows as gateway_address. *)
Definition gateway_of (y : system) (c : config) : res bytes := normalize false (y_name y) (y_free3 y) (c_gateway c).
(** 109-112. *)
Definition url_of (y : system) (c : config) : res bytes :=
  match c_url c with
  | Some u => Ok u
  | None => bind (gateway_of y c) (fun g => bind (normalize true (y_name y) (y_free3 y) g) (fun a => Ok (b_ "http://" ++ a)))
  end.
(** 130-136. *)
Definition token_of (y : system) (c : config) : bytes :=
  match c_token c with Some t => t | None => match y_env y with [] => y_uuid y | t => t end end.
(** 196-214. *)
Definition non_empty (s : bytes) : bool := match s with [] => false | _ => true end.
Definition start_command (exe : bytes) (y : system) (c : config) (child : bool) : res (list bytes) :=
  bind (address_of y c) (fun address => bind (tcp_of y c) (fun tcp => bind (url_of y c) (fun url =>
    let out := [exe; b_ "-address"; address; b_ "-tcp-address"; tcp; b_ "-api-url"; url ++ b_ "/api/v1/routes"; b_ "-log-level"; level_name (c_level c)]
               ++ (if child then [b_ "-is-child-process"] else []) in
    if xorb (non_empty (c_cert c)) (non_empty (c_key c)) then ValueError
    else Ok (if non_empty (c_cert c) then out ++ [b_ "-tls-cert"; c_cert c; b_ "-tls-key"; c_key c] else out)))).
(** db_base.py 815-820, when it is not set. *)
Definition api_url (y : system) (c : config) : res bytes :=
  bind (address_of y c) (fun address => bind (normalize true (y_name y) (y_free3 y) address) (fun a => bind (prefix_of c) (fun p =>
    Ok ((if non_empty (c_cert c) then b_ "https" else b_ "http") ++ b_ "://" ++ a ++ p ++ b_ "/api")))).

(** * The proxy's main (548-593). *)
Record settings := Settings { s_address : bytes; s_tcp : bytes; s_api : bytes; s_level : bytes; s_child : bool; s_cert : bytes; s_key : bytes }.
Definition defaults : settings := Settings (b_ ":8000") [] [] (b_ "INFO") false [] [].
Definition set_string (name value : bytes) (s : settings) : option settings :=
  let 'Settings a t u l c ce k := s in
  if decide (name = b_ "address") then Some (Settings value t u l c ce k)
  else if decide (name = b_ "tcp-address") then Some (Settings a value u l c ce k)
  else if decide (name = b_ "api-url") then Some (Settings a t value l c ce k)
  else if decide (name = b_ "log-level") then Some (Settings a t u value c ce k)
  else if decide (name = b_ "tls-cert") then Some (Settings a t u l c value k)
  else if decide (name = b_ "tls-key") then Some (Settings a t u l c ce value)
  else None.
Definition set_child (b : bool) (s : settings) : settings :=
  Settings (s_address s) (s_tcp s) (s_api s) (s_level s) b (s_cert s) (s_key s).
(** strconv.ParseBool. *)
Definition parse_bool (s : bytes) : option bool :=
  if decide (s ∈ [b_ "1"; b_ "t"; b_ "T"; b_ "true"; b_ "TRUE"; b_ "True"]) then Some true
  else if decide (s ∈ [b_ "0"; b_ "f"; b_ "F"; b_ "false"; b_ "FALSE"; b_ "False"]) then Some false else None.
(** The name of a flag, with the value after an equals sign; None: not a flag (the end of
    the flags), Some None: bad syntax.  An equals sign is looked for from the second
    character on. *)
Definition flag_name (arg : bytes) : option (option (bytes * option bytes)) :=
  match arg with
  | a :: b :: rest =>
      if decide (a = "-"%char) then
        let body := if decide (b = "-"%char) then rest else b :: rest in
        match body with
        | [] => None                                   (* "--" *)
        | x :: name =>
            Some (if decide (x = "-"%char \/ x = "="%char) then None
                  else Some (match partition "=" name with Some (n, v) => (x :: n, Some v) | None => (x :: name, None) end))
        end
      else None
  | _ => None
  end.
(** Parse with ExitOnError; None: the process exits. *)
Fixpoint parse (args : list bytes) (s : settings) : option settings :=
  match args with
  | [] => Some s
  | arg :: rest =>
      match flag_name arg with
      | None => Some s
      | Some None => None
      | Some (Some (name, v)) =>
          if decide (name = b_ "is-child-process") then
            match v with
            | Some v => match parse_bool v with Some b => parse rest (set_child b s) | None => None end
            | None => parse rest (set_child true s)
            end
          else
            match v with
            | Some v => match set_string name v s with Some s' => parse rest s' | None => None end
            | None => match rest with
                      | v :: rest' => match set_string name v s with Some s' => parse rest' s' | None => None end
                      | [] => None
                      end
            end
      end
  end.
(** logging.go 24-36. *)
Definition parse_level (s : bytes) : option level :=
  if decide (s = b_ "ERROR" \/ s = b_ "error") then Some LError
  else if decide (s = b_ "WARN" \/ s = b_ "warn") then Some LWarn
  else if decide (s = b_ "INFO" \/ s = b_ "info") then Some LInfo
  else if decide (s = b_ "DEBUG" \/ s = b_ "debug") then Some LDebug else None.
(** run's arguments, or the process ends. [url_ok]: url.Parse. *)
Inductive ran := Ends | Runs (s : settings) (l : level) (token : bytes).
Definition main (url_ok : bytes -> bool) (args : list bytes) (token : bytes) : ran :=
  match parse args defaults with
  | None => Ends
  | Some s =>
      match token, parse_level (s_level s) with
      | _ :: _, Some l =>
          if xorb (non_empty (s_cert s)) (non_empty (s_key s)) then Ends
          else if non_empty (s_api s) && url_ok (s_api s) then Runs s l token else Ends
      | _, _ => Ends
      end
  end.
(** 126-154: which addresses it listens at (HTTP and TCP); None: it exits.  [can]: whether
    a socket can listen at an address while others listen at some.  A bare string
    comparison decides whether there is one socket or two. *)
Inductive listening := One (a : bytes) | Two (http tcp : bytes).
Definition listen (can : list bytes -> bytes -> bool) (s : settings) : option listening :=
  let tcp := match s_tcp s with [] => s_address s | t => t end in
  if can [] tcp then
    if decide (s_address s = tcp) then Some (One tcp)
    else if can [tcp] (s_address s) then Some (Two (s_address s) tcp) else None
  else None.

(** * The token. *)
(** A header in Go's client: refused if it has a control character (httpguts), and blanks
    at its ends are taken off. *)
Definition is_blank (c : ascii) : bool := bool_decide (c = " "%char \/ code c = 9).
Definition header_char (c : ascii) : bool := (bool_decide (code c = 9) || (32 <=? code c)) && negb (bool_decide (code c = 127)).
Fixpoint ltrim (s : bytes) : bytes := match s with c :: s' => if is_blank c then ltrim s' else s | [] => [] end.
Definition trim (s : bytes) : bytes := rev (ltrim (rev (ltrim s))).
Definition send_header (v : bytes) : option bytes := if forallb header_char v then Some (trim v) else None.
(** 238-244, 300-307. *)
Definition proxy_header (token : bytes) : option bytes := send_header (b_ "token " ++ token).
(** 368-377. *)
Inductive answer := Served | Unauthorized | Failed.
Definition check (api_token : bytes) (header : option bytes) : answer :=
  match header with
  | None | Some [] => Unauthorized
  | Some h => match partition " " h with
              | None => Failed                      (* ValueError: a 500 *)
              | Some (ty, tok) => if decide (ty = b_ "token" /\ tok = api_token) then Served else Unauthorized
              end
  end.
