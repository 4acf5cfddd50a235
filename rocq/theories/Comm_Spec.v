(** Vocabulary for C146. *)
From Coq Require Import Ascii String ZArith.
From stdpp Require Import prelude.
From Verif Require Import Router_Model ProxyLog_Model Json_Model Api_Model Comm_Model.
Local Open Scope Z_scope.
(** The request shows the token. *)
Definition shows (token : bytes) (rq : srequest) : Prop := sr_auth rq = Some (b_ "token " ++ token).
(** The request says what to do, in JSON. *)
Definition field (o : list (bytes * json)) (k : string) (default v : json) : Prop := dget (b_ k) o = Some v \/ dget (b_ k) o = None /\ v = default.
Inductive says (rq : srequest) : order -> Prop :=
| says_scale o ty rest v : sr_type rq = Some ty -> ty = b_ "application/json" ++ rest -> sr_body rq = Some (JObj o) -> dget (b_ "op") o = Some (JStr (b_ "scale")) ->
    field o "count" (JInt 0) v -> says rq (OScale v)
| says_adapt o ty rest mn mx act : sr_type rq = Some ty -> ty = b_ "application/json" ++ rest -> sr_body rq = Some (JObj o) -> dget (b_ "op") o = Some (JStr (b_ "adapt")) ->
    field o "minimum" JNull mn -> field o "maximum" JNull mx -> field o "active" (JBool true) act -> says rq (OAdapt mn mx act).
(** What a message of the gateway means. *)
Definition meaning (m : smsg) : order := match m with MScale n => OScale (JInt n) | MAdapt mn mx act => OAdapt mn mx act end.
(** A variable of the environment that is set. *)
Definition set_to (env : list (bytes * bytes)) (k : string) (v : bytes) : Prop := dget (b_ k) env = Some v /\ v <> [].
(** The token that the variable stands for: itself, or the content of the file it names. *)
Definition stands_for (files : bytes -> option bytes) (v tok : bytes) : Prop := "/"%char ∈ v /\ files v = Some tok \/ "/"%char ∉ v /\ tok = v.
(** Tokens that the gateway makes: hexadecimal digits. *)
Definition hex (s : bytes) : Prop := s <> [] /\ Forall (fun c => c ∈ b_ "0123456789abcdef") s.
