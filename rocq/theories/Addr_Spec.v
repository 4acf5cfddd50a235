(** Vocabulary for C96. *)
From Coq Require Import Ascii String ZArith.
From stdpp Require Import prelude.
From Verif Require Import Router_Model ProxyLog_Model Launch_Model Manifest_Model Addr_Model.
Local Open Scope nat_scope.

(** The characters of host names, addresses with dots, and cluster names. *)
Definition host_chars : bytes := b_ "abcdefghijklmnopqrstuvwxyzABCDEFGHIJKLMNOPQRSTUVWXYZ0123456789-._".
Definition plain_name (n : bytes) : Prop := n <> [] /\ Forall (fun c => c ∈ host_chars) n.
(** Schemes such as http and HTTPS. *)
Definition scheme_ok (s : bytes) : Prop :=
  (exists c s', s = c :: s' /\ c ∈ b_ "abcdefghijklmnopqrstuvwxyzABCDEFGHIJKLMNOPQRSTUVWXYZ") /\
  Forall (fun c => c ∈ b_ "abcdefghijklmnopqrstuvwxyzABCDEFGHIJKLMNOPQRSTUVWXYZ0123456789+-.") s.
(** "user:password" before an at-sign. *)
Definition user_ok (u : option bytes) : Prop := match u with Some u => Forall (fun c => c ∉ b_ "/?#[]") u | None => True end.
Definition port_ok (n : Z) : Prop := (0 <= n <= 65535)%Z.
(** What follows the host: nothing, or a path, query or fragment. *)
Definition tail_ok (t : bytes) : Prop := t = [] \/ exists c t', t = c :: t' /\ c ∈ b_ "/?#".
(** scheme://[user@]host[:port]tail *)
Definition web_address (scheme : bytes) (user : option bytes) (host : bytes) (port : option Z) (tail : bytes) : bytes :=
  scheme ++ b_ "://" ++ (match user with Some u => u ++ b_ "@" | None => [] end) ++ host ++ (match port with Some n => b_ ":" ++ dec n | None => [] end) ++ tail.
(** The port that web browsers use for an address (8786: that of dask). *)
Definition standard_port (scheme : bytes) (port : option Z) : Z :=
  match port with Some n => n | None => if decide (lower scheme = b_ "http") then 80%Z else if decide (lower scheme = b_ "https") then 443%Z else 8786%Z end.
Definition host_port (host : bytes) (n : Z) : bytes := host ++ b_ ":" ++ dec n.
(** The host and port that the settings mean: none, a port, "host:port", or an address with
    a scheme. *)
Definition means (scheme host : bytes) (port : option Z) (proxy : proxy_arg) (h : bytes) (n : Z) : Prop :=
  match proxy with
  | PNone => h = lower host /\ n = standard_port scheme port
  | PInt m => h = lower host /\ n = m /\ port_ok m
  | PStr s => plain_name h /\ port_ok n /\
              (s = host_port h n \/ exists scheme' tail, scheme_ok scheme' /\ tail_ok tail /\ s = web_address scheme' None h (Some n) tail)
  end.
