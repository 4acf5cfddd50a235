(** Addresses in the client: C/client.py 199-232 (ClusterReport._from_json: the scheduler's
    address and the dashboard link), 280-319 (Gateway.__init__), 605-615 and 640-646 (the
    addresses handed on to a GatewayCluster, which makes a Gateway of them), C/comm.py 18-36
    (parse_gateway_address, the server name).  C = dask-gateway/dask_gateway.
    urlparse is modelled after CPython's urllib.parse for ASCII text without control
    characters or blanks; the validation of what is in brackets is left out.  ValueError is
    a value. *)
From Coq Require Import Ascii String ZArith.
From stdpp Require Import prelude.
From Verif Require Import Router_Model ProxyLog_Model Launch_Model Manifest_Model.
Local Open Scope nat_scope.

Inductive res (A : Type) := Ok (a : A) | ValueError.
Arguments Ok {A}. Arguments ValueError {A}.

(** * urlparse. *)
Definition code (c : ascii) : nat := nat_of_ascii c.
Definition is_upper (c : ascii) : bool := (65 <=? code c) && (code c <=? 90).
Definition is_lower (c : ascii) : bool := (97 <=? code c) && (code c <=? 122).
Definition is_alpha (c : ascii) : bool := is_upper c || is_lower c.
Definition is_digit (c : ascii) : bool := (48 <=? code c) && (code c <=? 57).
Definition lower1 (c : ascii) : ascii := if is_upper c then ascii_of_nat (code c + 32) else c.
Definition lower (s : bytes) : bytes := map lower1 s.
Definition is_scheme_char (c : ascii) : bool := is_alpha c || is_digit c || bool_decide (c ∈ b_ "+-.").
(** str.partition / rpartition by one character: None if it does not occur. *)
Fixpoint partition (c : ascii) (s : bytes) : option (bytes * bytes) :=
  match s with
  | [] => None
  | x :: s' => if decide (x = c) then Some ([], s') else match partition c s' with Some (a, b) => Some (x :: a, b) | None => None end
  end.
Definition rpartition (c : ascii) (s : bytes) : option (bytes * bytes) :=
  match partition c (rev s) with Some (b, a) => Some (rev a, rev b) | None => None end.
(** The part before the first of some characters, and the rest from there. *)
Fixpoint until (stop : ascii -> bool) (s : bytes) : bytes * bytes :=
  match s with
  | [] => ([], [])
  | x :: s' => if stop x then ([], s) else let '(a, b) := until stop s' in (x :: a, b)
  end.
Definition colon : ascii := ":"%char.
Definition split_scheme (url : bytes) : bytes * bytes :=
  match partition colon url with
  | Some (x :: a, rest) => if is_alpha x && forallb is_scheme_char (x :: a) then (lower (x :: a), rest) else ([], url)
  | _ => ([], url)
  end.
Definition ends_netloc (c : ascii) : bool := bool_decide (c ∈ b_ "/?#").
Definition ends_path (c : ascii) : bool := bool_decide (c ∈ b_ "?#").
Record url := Url { u_scheme : bytes; u_netloc : bytes; u_path : bytes }.
Definition urlparse (s : bytes) : res url :=
  let '(scheme, rest) := split_scheme s in
  match rest with
  | "/"%char :: "/"%char :: rest' =>
      let '(netloc, rest'') := until ends_netloc rest' in
      if eqb (bool_decide ("["%char ∈ netloc)) (bool_decide ("]"%char ∈ netloc)) then Ok (Url scheme netloc (fst (until ends_path rest''))) else ValueError
  | _ => Ok (Url scheme [] (fst (until ends_path rest)))
  end.
(** .hostname and .port. *)
Definition hostinfo (netloc : bytes) : bytes * bytes :=
  let h := match rpartition "@" netloc with Some (_, h) => h | None => netloc end in
  match partition "[" h with
  | Some (_, bracketed) =>
      match partition "]" bracketed with
      | Some (host, after) => (host, match partition colon after with Some (_, port) => port | None => [] end)
      | None => (bracketed, [])
      end
  | None => match partition colon h with Some (host, port) => (host, port) | None => (h, []) end
  end.
Definition hostname (u : url) : option bytes :=
  match fst (hostinfo (u_netloc u)) with
  | [] => None
  | h => Some (match partition "%" h with Some (a, zone) => lower a ++ "%"%char :: zone | None => lower h end)
  end.
Fixpoint number (acc : Z) (l : bytes) : Z := match l with [] => acc | x :: l' => number (10 * acc + (Z.of_nat (code x) - 48)) l' end.
Definition port (u : url) : res (option Z) :=
  match snd (hostinfo (u_netloc u)) with
  | [] => Ok None
  | p => if forallb is_digit p then let n := number 0 p in if (n <=? 65535)%Z then Ok (Some n) else ValueError else ValueError
  end.

(** * Gateway.__init__ (280-319). *)
Definition rstrip (s : bytes) : bytes := rev (strip_l (rev s)).
Definition show (o : option bytes) : bytes := match o with Some s => s | None => b_ "None" end.
Inductive proxy_arg := PNone | PInt (n : Z) | PStr (s : bytes).
Definition netloc_of (address : bytes) (proxy : proxy_arg) : res bytes :=
  match proxy with
  | PNone =>
      match urlparse address with
      | ValueError => ValueError
      | Ok u =>
          match u_netloc u with
          | [] => Ok (b_ "None")                      (* proxy_netloc = proxy_address, which is None *)
          | _ => match port u with
                 | ValueError => ValueError
                 | Ok p =>
                     let n := match p with
                              | Some n => n
                              | None => if decide (u_scheme u = b_ "http") then 80%Z else if decide (u_scheme u = b_ "https") then 443%Z else 8786%Z
                              end in
                     Ok (show (hostname u) ++ colon :: dec n)
                 end
          end
      end
  | PInt n => match urlparse address with ValueError => ValueError | Ok u => Ok (show (hostname u) ++ colon :: dec n) end
  | PStr s => match urlparse s with ValueError => ValueError | Ok u => Ok (match u_netloc u with [] => s | n => n end) end
  end.
Record gateway := Gateway { g_address : bytes; g_proxy : bytes; g_public : bytes }.
Definition new_gateway (address : bytes) (proxy : proxy_arg) (public : option bytes) : res gateway :=
  let address := rstrip address in
  match netloc_of address proxy, urlparse address with
  | ValueError, _ | _, ValueError => ValueError       (* 311: urlparse(address).scheme *)
  | Ok n, Ok _ => Ok (Gateway address (b_ "gateway://" ++ n) (match public with Some p => rstrip p | None => address end))
  end.
(** _from_json (199-232) for a running cluster. *)
Definition scheduler_address (g : gateway) (name : bytes) : bytes := g_proxy g ++ slash :: name.
Definition dashboard_link (g : gateway) (route : bytes) : bytes := g_public g ++ route.
(** The Gateway of the cluster object (605-615, 640-646). *)
Definition gateway_of_cluster (g : gateway) : res gateway := new_gateway (g_address g) (PStr (g_proxy g)) (Some (g_public g)).

(** * comm.py 18-36: host, port, server name. *)
Fixpoint starts_with (p s : bytes) : bool :=
  match p, s with [], _ => true | x :: p', y :: s' => bool_decide (x = y) && starts_with p' s' | _, [] => false end.
Definition parse_gateway_address (address : bytes) : res (option bytes * option Z * bytes) :=
  let address := if starts_with (b_ "gateway://") address then address else b_ "gateway://" ++ address in
  match urlparse address with
  | ValueError => ValueError
  | Ok u => match u_path u with
            | [] => ValueError
            | p => match port u with ValueError => ValueError | Ok n => Ok (hostname u, n, strip_slashes p) end
            end
  end.
Definition connection (address : bytes) : res (option bytes * option Z * bytes) :=
  match parse_gateway_address address with Ok (h, p, path) => Ok (h, p, server_name path) | ValueError => ValueError end.
