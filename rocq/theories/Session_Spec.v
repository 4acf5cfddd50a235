(** Vocabulary for C97 and C98. *)
From Coq Require Import Ascii String ZArith.
From stdpp Require Import prelude.
From Verif Require Import Trace Router_Model ProxyLog_Model Json_Model Api_Model Api_Spec Session_Model.
Local Open Scope Z_scope.

(** A request in a history: with what was answered and all that went before. *)
Record exchange := Ex { x_before : hist; x_rq : request; x_o : oracle; x_out : aout }.
Definition happens (h : hist) (x : exchange) : Prop := exists id t rest, h = x_before x ++ (Arrive id (x_rq x) (x_o x) t, x_out x) :: rest.
(** The client performs call [c] in history [h]: one request, or a refused one and a second. *)
Definition performs (h : hist) (c : call) (x1 : exchange) (x2 : option exchange) : Prop :=
  happens h x1 /\ (exists jar, x_rq x1 = first_request c jar) /\
  match x2 with
  | None => ao_status (x_out x1) <> 401
  | Some x2 => ao_status (x_out x1) = 401 /\ happens h x2 /\ (exists jar, x_rq x2 = second_request c jar) /\ (length (x_before x1) < length (x_before x2))%nat
  end.
Definition last_of (x1 : exchange) (x2 : option exchange) : exchange := match x2 with Some x => x | None => x1 end.
(** What the caller sees. *)
Definition seen (a : sauth) (c : call) (x1 : exchange) (x2 : option exchange) : cresult :=
  let ans x := answer_of a (x_rq x) (x_out x) in request_result (cl_auth c) (ans x1) (ans (last_of x1 x2)).
(** Calls of users (not the heartbeats of schedulers). *)
Definition user_call (c : call) : Prop := forall n, cl_ep c <> EpHeartbeat n.
(** The server's authenticator is [a]. *)
Definition honest (a : sauth) (h : hist) : Prop := forall id rq o t out, (Arrive id rq o t, out) ∈ h -> o_auth o = verdict a (rq_auth rq).
(** The cookies that are sent were handed out to user [n] earlier. *)
Definition own_cookie (n : bytes) (x : exchange) : Prop :=
  forall k, rq_cookie (x_rq x) = Some k -> exists eo u t, eo ∈ x_before x /\ hands_out eo k u t /\ u_name u = n.
(** Nothing was done: no cluster was started or stopped, nothing sent to a scheduler. *)
Definition nothing_done (x : exchange) : Prop :=
  (forall n, ~ stops (ao_effects (x_out x)) n) /\ (forall k m, ~ sends (ao_effects (x_out x)) k m) /\
  (forall u opts, FxStart u opts ∈ ao_effects (x_out x) -> o_start (x_o x) u opts = None) /\ (forall n, ~ beats (ao_effects (x_out x)) n).
(** The request was carried out for the user named [n]. *)
Definition acts_as (x : exchange) (n : bytes) : Prop := exists u, user_of (ao_who (x_out x)) = Some u /\ u_name u = n.
(** Names and passwords of ASCII characters; a name without colon. *)
Definition ascii_text (s : bytes) : Prop := Forall (fun c => nat_of_ascii c < 128)%nat s.
