(** Vocabulary for C105 and C106. *)
From Coq Require Import Ascii String ZArith NArith.
From stdpp Require Import prelude.
From Verif Require Import Router_Model ProxyLog_Model ProxyLog_Spec Wire_Model.

(** Text without surrogates. *)
Definition is_text (s : text) : Prop := Forall (fun c => (c < 1114112)%N /\ ~ (55296 <= c < 57344)%N) s.
(** An event with a number that fits in 64 bits and with proper text. *)
Definition is_event (e : wevent) : Prop :=
  (0 <= we_id e < 2 ^ 64)%Z /\ is_text (w_name (we_route e)) /\ match w_target (we_route e) with Some t => is_text t | None => True end.
(** What the proxy is to see of an event: its number, its type, the kind, the name in the
    field for this kind, and the target if there is one. *)
Definition as_seen (e : wevent) : gevt :=
  let r := we_route e in
  GEvt (we_id e) (match we_type e with TPut => t_ "PUT" | TDelete => t_ "DELETE" end)
    (match w_kind r with
     | SNI => GRoute (t_ "SNI") (w_name r) [] (default [] (w_target r))
     | PATH => GRoute (t_ "PATH") [] (w_name r) (default [] (w_target r))
     end).
(** The line of a message is not longer than the scanner allows. *)
Definition short (evs : list wevent) : Prop := (N.of_nat (length (line evs)) <= 65536)%N.
(** Neither the table changes nor a request is refused or garbled. *)
Definition quiet (e : event) : Prop :=
  match e with SAdd _ _ _ | SRemove _ _ | SRestart | SFetchFail | SWatchFail | SGarbage => False | _ => True end.
