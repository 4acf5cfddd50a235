(** The scheduler's HTTP API and its start: BaseHandler, CommHandler (C/scheduler_preload.py
    55-99), getenv, make_gateway_client, dask_setup (372-395, 427-451); the request that
    forward_message_to_scheduler sends (S/backends/base.py 113-118).

    C = dask-gateway/dask_gateway, S = dask-gateway-server/dask_gateway_server.
    Simplifications: of a request the headers Authorization and Content-Type and the body as
    json.loads sees it ([None]: it raises); headers arrive as they were sent; @web.authenticated
    answers 403 to a POST without user (tornado).  What scale and adapt do is Adapt_Model and
    Beat_Model; that they return is assumed here.  A count of True, which the gateway lets
    through as an integer, is 1 here. *)
From Coq Require Import Ascii String ZArith.
From stdpp Require Import prelude.
From Verif Require Import Router_Model ProxyLog_Model Json_Model Api_Model.
From Verif Require ProxyCmd_Model.
Local Open Scope Z_scope.

(** What the service is told to do. *)
Inductive order := OScale (count : json) | OAdapt (minimum maximum active : json).
Record srequest := SRequest { sr_auth : option bytes; sr_type : option bytes; sr_body : option json }.

(** str.startswith *)
Definition starts_with (p s : bytes) : bool := bool_decide (take (length p) s = p).
(** prepare (66-70): self.json_data; [None]: json.loads raises. *)
Definition prepare (rq : srequest) : option (option json) :=
  if starts_with (b_ "application/json") (default [] (sr_type rq)) then option_map Some (sr_body rq) else Some None.
(** get_current_user (72-78); [None]: ValueError. *)
Definition current_user (token : bytes) (rq : srequest) : option bool :=
  match sr_auth rq with
  | None | Some [] => Some false
  | Some h => match split1 " "%char h with None => None | Some (ty, tok) => Some (bool_decide (ty = b_ "token") && bool_decide (tok = token)) end
  end.
(** CommHandler.post (81-99). *)
Definition post (msg : option json) : Z * option order :=
  match msg with
  | Some (JObj o) =>
      match dget (b_ "op") o with
      | Some (JStr op) =>
          if decide (op = b_ "scale") then (200, Some (OScale (jget (b_ "count") (JInt 0) o)))
          else if decide (op = b_ "adapt") then (200, Some (OAdapt (jget (b_ "minimum") JNull o) (jget (b_ "maximum") JNull o) (jget (b_ "active") (JBool true) o)))
          else (422, None)
      | _ => (422, None)
      end
  | _ => (500, None)   (* AttributeError, or TypeError of list.pop *)
  end.
Definition comm (token : bytes) (rq : srequest) : Z * option order :=
  match prepare rq with
  | None => (500, None)
  | Some msg => match current_user token rq with None => (500, None) | Some false => (403, None) | Some true => post msg end
  end.

(** The gateway's request (base.py 113-118): session.post(json=..., headers=...), with the
    messages of scale_cluster and adapt_cluster (S/routes.py 214-216, 251-254). *)
Definition body_of (m : smsg) : json :=
  match m with
  | MScale n => JObj [(b_ "op", JStr (b_ "scale")); (b_ "count", JInt n)]
  | MAdapt mn mx act => JObj [(b_ "op", JStr (b_ "adapt")); (b_ "minimum", mn); (b_ "maximum", mx); (b_ "active", act)]
  end.
Definition request_of (c : clus) (m : smsg) : srequest := SRequest (Some (b_ "token " ++ k_token c)) (Some (b_ "application/json")) (Some (body_of m)).

(** getenv (372-377); [None]: sys.exit(1). *)
Definition getenv (env : list (bytes * bytes)) (key : bytes) : option bytes := match dget key env with None | Some [] => None | Some v => Some v end.
(** make_gateway_client (380-387), called without arguments.  [files]: what open().read()
    gives; [None]: an exception, which dask_setup answers with sys.exit(1). *)
Definition make_gateway_client (env : list (bytes * bytes)) (files : bytes -> option bytes) : option (bytes * bytes * bytes) :=
  name ← getenv env (b_ "DASK_GATEWAY_CLUSTER_NAME");
  url ← getenv env (b_ "DASK_GATEWAY_API_URL");
  tok ← getenv env (b_ "DASK_GATEWAY_API_TOKEN");
  tok ← (if decide ("/"%char ∈ tok) then files tok else Some tok);
  Some (name, url, tok).
(** dask_setup (427-451): the service that runs, with name, url and token; [None]:
    sys.exit(1).  [can]: whether it can listen there. *)
Definition dask_setup (env : list (bytes * bytes)) (files : bytes -> option bytes) (can : bytes -> Z -> bool) (address : bytes) : option (bytes * bytes * bytes) :=
  match split_all ":"%char address with
  | [host; port] =>
      match ProxyCmd_Model.py_int port with
      | None => None
      | Some port => client ← make_gateway_client env files; if can host port then Some client else None
      end
  | _ => None
  end.
