(** One call of the client (C/client.py _request 380-418, C/auth.py 62-165) against the HTTP
    API of the gateway (Api_Model), with the authenticators of S/auth.py (SimpleAuthenticator
    193-208, KerberosAuthenticator 231-278, JupyterHubAuthenticator 408-484).
    C = dask-gateway/dask_gateway, S = dask-gateway-server/dask_gateway_server.
    A character is a byte (latin1); the cookie jar is what is sent with a request, and may
    change between the two requests of a call; pykerberos is a pair of arbitrary functions;
    connection errors and timeouts are left out. *)
From Coq Require Import Ascii String ZArith.
From stdpp Require Import prelude.
From Verif Require Import Router_Model ProxyLog_Model Json_Model Api_Model.
From Verif Require Cred_Model.
Local Open Scope Z_scope.

(** * base64 of texts.  b64decode skips - and _ (urlsafe_b64decode, which Cred_Model has,
    translates them). *)
Definition to_z (s : bytes) : list Z := map (fun c => Z.of_nat (nat_of_ascii c)) s.
Definition of_z (l : list Z) : bytes := map (fun n => ascii_of_nat (Z.to_nat n)) l.
Definition b64encode (s : bytes) : bytes := of_z (Cred_Model.b64 false (to_z s)).
Definition is_ascii (c : ascii) : bool := Nat.ltb (nat_of_ascii c) 128.
(** base64.b64decode(x).decode("ascii") *)
Definition b64decode_ascii (t : bytes) : option bytes :=
  match Cred_Model.b64dec (List.filter (fun c => negb ((c =? 45) || (c =? 95))) (to_z t)) with
  | Some b => if forallb is_ascii (of_z b) then Some (of_z b) else None
  | None => None
  end.

(** * The authenticators of the server: the user and the context, or a status.
    [gss t]: authGSSServerStep, -Response and -UserName for the ticket [t]: the full user
    name and the answer; None: GSSError. *)
Inductive sauth := SimpleAuth (password : option bytes) | HubAuth (service : option bytes) (hub : bytes -> Z * hubdata) | KerbAuth (gss : bytes -> option (bytes * bytes)).
Definition kerberos_authenticate (gss : bytes -> option (bytes * bytes)) (header : option bytes) : user * bytes + Z :=
  match header with
  | None | Some [] => inr 401
  | Some h =>
      match split1 " "%char h with
      | None => inr 500
      | Some (ty, key) =>
          if decide (ty = b_ "Negotiate") then
            match gss key with
            | None => inr 500
            | Some (full, answer) => inl (User (match split1 "@"%char full with Some (u, _) => u | None => full end) [] false, answer)
            end
          else inr 401
      end
  end.
Definition verdict (a : sauth) (header : option bytes) : user + Z :=
  match a with
  | SimpleAuth p => simple_authenticate b64decode_ascii p header
  | HubAuth s hub => hub_authenticate s hub header
  | KerbAuth gss => match kerberos_authenticate gss header with inl (u, _) => inl u | inr s => inr s end
  end.
(** pre_response: the token of the WWW-Authenticate header.  It is set only after a login
    and when the handler returned (84-107); a refusal names the kind only (166-169). *)
Definition www (a : sauth) (rq : request) (out : aout) : option bytes :=
  match a, ao_who out, ao_body out with
  | KerbAuth gss, ByLogin _, BError => None
  | KerbAuth gss, ByLogin _, _ => match kerberos_authenticate gss (rq_auth rq) with inl (_, k) => Some k | inr _ => None end
  | KerbAuth gss, Nobody, _ => if ao_status out =? 401 then Some [] else None
  | _, _, _ => None
  end.

(** * The client's authentication (62-165).  [ticket]: authGSSClientResponse, [accepts]:
    the last authGSSClientStep does not raise. *)
Inductive cauth := BasicAuth (username password : bytes) | HubToken (token : bytes) | Kerberos (ticket : bytes) (accepts : bytes -> bool).
Definition header_of (a : cauth) : bytes :=
  match a with
  | BasicAuth u p => b_ "Basic " ++ b64encode (u ++ ":"%char :: p)
  | HubToken t => b_ "jupyterhub " ++ t
  | Kerberos t _ => b_ "Negotiate " ++ t
  end.
(** post_response; the regular expression finds the text after "Negotiate". *)
Definition post_response (a : cauth) (w : option bytes) : bool :=
  match a, w with
  | Kerberos _ accepts, Some (x :: t) => accepts (x :: t)
  | Kerberos _ _, _ => false
  | _, _ => true
  end.

(** * _request (380-418). *)
Record call := Call { cl_auth : cauth; cl_ep : endpoint; cl_body : option json }.
Definition first_request (c : call) (jar : option bytes) : request := Request (cl_ep c) jar None (cl_body c).
Definition second_request (c : call) (jar : option bytes) : request := Request (cl_ep c) jar (Some (header_of (cl_auth c))) (cl_body c).
Record answer := Ans { a_status : Z; a_body : rbody; a_www : option bytes }.
Definition answer_of (a : sauth) (rq : request) (out : aout) : answer := Ans (ao_status out) (ao_body out) (www a rq out).
Inductive cresult := CReturned (b : rbody) | CValueError | CClusterError | CServerError | CHTTPError (status : Z) | CNegotiationFailed.
Definition outcome_of (a : answer) : cresult :=
  if 400 <=? a_status a then
    if (a_status a =? 404) || (a_status a =? 422) then CValueError
    else if a_status a =? 409 then CClusterError
    else if a_status a =? 500 then CServerError
    else CHTTPError (a_status a)
  else CReturned (a_body a).
(** [retry]: the answer to the second request, which is sent only after a 401. *)
Definition request_result (auth : cauth) (first retry : answer) : cresult :=
  if a_status first =? 401 then if post_response auth (a_www retry) then outcome_of retry else CNegotiationFailed
  else outcome_of first.
