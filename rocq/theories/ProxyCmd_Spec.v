(** Vocabulary for C101-C104. *)
From Coq Require Import Ascii String ZArith.
From stdpp Require Import prelude.
From Verif Require Import Router_Model ProxyLog_Model Launch_Model Manifest_Model Addr_Model ProxyCmd_Model.
Local Open Scope nat_scope.

(** host:port. *)
Definition at_port (host : bytes) (n : Z) : bytes := host ++ b_ ":" ++ dec n.
Definition everywhere (host : bytes) : Prop := host = [] \/ host = b_ "0.0.0.0".
(** Printable ASCII. *)
Definition printable (s : bytes) : Prop := forall c, c ∈ s -> 32 <= nat_of_ascii c <= 126.
Definition ends_in_blank (s : bytes) : Prop := exists s', s = s' ++ b_ " ".
Definition hex (s : bytes) : Prop := forall c, c ∈ s -> c ∈ b_ "0123456789abcdef".
(** Two sockets of one machine cannot listen at the same port, unless at different hosts
    that are both not "everywhere". *)
Definition linux (others : list bytes) (a : bytes) : bool :=
  forallb (fun b => match partition colon a, partition colon b with
                    | Some (h1, p1), Some (h2, p2) => bool_decide (p1 <> p2 \/ (h1 <> h2 /\ ~ everywhere h1 /\ ~ everywhere h2))
                    | _, _ => true
                    end) others.
