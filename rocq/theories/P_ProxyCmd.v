(** Properties C101-C104: how the proxy process is configured, and how it proves who it is. *)
From Coq Require Import Ascii String ZArith Lia.
From stdpp Require Import prelude.
From Verif Require Import Router_Model ProxyLog_Model Launch_Model Manifest_Model Addr_Model ProxyCmd_Model ProxyCmd_Spec ProxyCmd_Proofs.
Local Open Scope nat_scope.

(** A gateway on a host called "node", with TLS and a prefix, all ports chosen. *)
Definition y1 : system := System (b_ "node") 40001 40002 40003 (b_ "0123abcd") [].
Definition y2 : system := System (b_ "node") 50001 50002 50003 (b_ "89abcdef") [].
Definition c1 : config := Config (b_ ":443") None (b_ "/dask/") None (b_ "0.0.0.0:8787") (Some (b_ "s3cret")) (b_ "/tls/cert") (b_ "/tls/key") LInfo.

(** C101. The routing table is given out to a request if and only if its Authorization
    header is "token", a blank, and the token... *)
Theorem C101_only : forall token header, check token header = Served <-> header = Some (b_ "token " ++ token).
Proof. exact check_token. Qed.
Print Assumptions C101_only.
(** ... and that is what a proxy with the token sends, if the token is printable and does
    not end in a blank... *)
Theorem C101_own_partial : forall token, printable token -> token <> [] -> ~ ends_in_blank token ->
  exists h, proxy_header token = Some h /\ check token (Some h) = Served.
Proof. intros t Hp Hne Hb. exists (b_ "token " ++ t). split; [by apply own_token|by apply check_token]. Qed.
Print Assumptions C101_own_partial.
(** ... in particular, if the gateway made it up... *)
Theorem C101_generated : forall y c, c_token c = None -> y_env y = [] -> hex (y_uuid y) -> y_uuid y <> [] ->
  exists h, proxy_header (token_of y c) = Some h /\ check (token_of y c) (Some h) = Served.
Proof.
  intros y c Hc He Hh Hne. unfold token_of. rewrite Hc, He.
  assert (HF : forall x, x ∈ b_ "0123456789abcdef" -> 32 <= nat_of_ascii x <= 126 /\ x <> " "%char).
  { intros x Hx. apply (Forall_forall (fun x => 32 <= nat_of_ascii x <= 126 /\ x <> " "%char) (b_ "0123456789abcdef")); [|done]. apply (bool_decide_unpack _). vm_compute. done. }
  apply C101_own_partial; [|done|].
  - intros x Hx. by apply HF, Hh.
  - intros [s E]. rewrite E in Hh. assert (" "%char ∈ b_ "0123456789abcdef") as Hb by (apply Hh, elem_of_app; right; left). by apply HF in Hb as [_ Hb].
Qed.
Print Assumptions C101_generated.
(** ... but a token that ends in a blank, or contains a line end, is never accepted from
    the gateway's own proxy, although the gateway accepts it as its configuration. *)
Theorem C101_refuted : forall s token, token = s ++ b_ " " \/ token = s ++ [ascii_of_nat 10] ->
  forall h, proxy_header token = Some h -> check token (Some h) <> Served.
Proof.
  intros s t Ht h Hh. assert (ends_in_blank t \/ exists c, c ∈ t /\ header_char c = false) as Hb.
  { destruct Ht as [-> | ->]; [left; by exists s|right]. exists (ascii_of_nat 10). split; [|done]. apply elem_of_app. right. left. }
  pose proof (bad_token t Hb) as H. by rewrite Hh in H.
Qed.
Print Assumptions C101_refuted.
Example C101_example : proxy_header (token_of y1 c1) = Some (b_ "token s3cret") /\ check (token_of y1 c1) (Some (b_ "token s3cret")) = Served /\
  check (b_ "s3cret") (Some (b_ "token other")) = Unauthorized /\ check (b_ "s3cret") (Some (b_ "s3cret")) = Failed /\
  proxy_header (b_ "s3cret ") = Some (b_ "token s3cret") /\ check (b_ "s3cret ") (Some (b_ "token s3cret")) = Unauthorized.
Proof. repeat split; vm_compute; done. Qed.

(** C102. Whatever is configured, the proxy process started by the gateway runs with exactly
    these settings, and as a child of the gateway (one started by hand does not)... *)
Theorem C102_reaches : forall exe y c child args url_ok, start_command exe y c child = Ok (exe :: args) -> token_of y c <> [] ->
  (forall u, url_of y c = Ok u -> url_ok (u ++ b_ "/api/v1/routes") = true) ->
  exists address tcp url, address_of y c = Ok address /\ tcp_of y c = Ok tcp /\ url_of y c = Ok url /\
    main url_ok args (token_of y c) = Runs (Settings address tcp (url ++ b_ "/api/v1/routes") (level_name (c_level c)) child (c_cert c) (c_key c)) (c_level c) (token_of y c).
Proof. exact reaches. Qed.
Print Assumptions C102_reaches.
(** ... unless only one of certificate and key is set, which is refused. *)
Theorem C102_pair : forall exe y c child address tcp url, address_of y c = Ok address -> tcp_of y c = Ok tcp -> url_of y c = Ok url ->
  (start_command exe y c child = ValueError <-> (c_cert c = [] /\ c_key c <> []) \/ (c_cert c <> [] /\ c_key c = [])).
Proof.
  intros exe y c child address tcp url Ha Ht Hu. unfold start_command. rewrite Ha, Ht, Hu. cbn [bind]. destruct (c_cert c), (c_key c); cbn [non_empty xorb]; split; try done; try by intros [[]|[]].
  - intros _. left. done.
  - intros _. right. done.
Qed.
Print Assumptions C102_pair.
(** Without a token no proxy runs. *)
Theorem C102_no_token : forall url_ok args, main url_ok args [] = Ends.
Proof. intros. unfold main. by destruct (parse args defaults). Qed.
Print Assumptions C102_no_token.
Example C102_example : exists args, start_command (b_ "proxy") y1 c1 true = Ok (b_ "proxy" :: args) /\
  main (fun _ => true) args (token_of y1 c1) = Runs (Settings (b_ ":443") (b_ ":443") (b_ "http://node:8787/api/v1/routes") (b_ "info") true (b_ "/tls/cert") (b_ "/tls/key")) LInfo (b_ "s3cret").
Proof. eexists. split; vm_compute; done. Qed.

(** C103. An address that is accepted is host:port, with the host as given and a port that is
    not zero; the port is the given one, or a free one if that is zero... *)
Theorem C103_normal : forall name free a b, free <> 0%Z -> normalize false name free a = Ok b ->
  exists host p n, a = host ++ b_ ":" ++ p /\ colon ∉ host ++ p /\ b = at_port host n /\ n <> 0%Z /\ (py_int p = Some n \/ (py_int p = Some 0%Z /\ n = free)).
Proof.
  intros name free a b Hf H. destruct (normalize_inv _ _ _ _ _ H) as (host & p & n & -> & Hh & Hp & Hn & ->). exists host, p, (if (n =? 0)%Z then free else n). split; [done|].
  split; [rewrite elem_of_app; tauto|]. split; [done|]. destruct (n =? 0)%Z eqn:E; [apply Z.eqb_eq in E as ->; auto|apply Z.eqb_neq in E; auto].
Qed.
Print Assumptions C103_normal.
(** ... an address with a written-out port stays as it is, and one with two colons (IPv6) is
    refused... *)
Theorem C103_kept : forall name free host n, colon ∉ host -> n <> 0%Z -> normalize false name free (at_port host n) = Ok (at_port host n).
Proof. intros name free host n Hh Hn. rewrite normalize_at by done. cbn [andb]. apply Z.eqb_neq in Hn. by rewrite Hn. Qed.
Theorem C103_no_ipv6 : forall resolve name free a x y, normalize resolve name free (a ++ b_ ":" ++ x ++ b_ ":" ++ y) = ValueError.
Proof. exact two_colons. Qed.
(** ... the gateway listens at an address the proxy knows: the same port, and the same host,
    or the name of the machine if it listens everywhere... *)
Theorem C103_gateway : forall y c g, y_free3 y <> 0%Z -> c_url c = None -> gateway_of y c = Ok g ->
  exists host n, g = at_port host n /\ url_of y c = Ok (b_ "http://" ++ at_port (if decide (everywhere host) then y_name y else host) n).
Proof.
  intros y c g Hf Hc Hg. destruct (normalize_inv _ _ _ _ _ Hg) as (host & p & n & E & Hh & Hp & Hn & ->). cbn [andb] in *.
  eexists host, _. split; [done|]. unfold url_of. rewrite Hc, Hg. cbn [bind]. rewrite normalize_at by done. cbn [bind andb]. f_equal. f_equal. unfold any_host. 
  assert ((if (n =? 0)%Z then y_free3 y else n) <> 0%Z) as Hz by (destruct (n =? 0)%Z eqn:En; [done|by apply Z.eqb_neq in En]). apply Z.eqb_neq in Hz. rewrite Hz.
  f_equal. by destruct (decide (everywhere host)) as [H|H]; [rewrite bool_decide_true by done|rewrite bool_decide_false by done].
Qed.
Print Assumptions C103_gateway.
(** ... so is the address at which schedulers and workers reach the gateway through the
    proxy: https if the proxy serves TLS, the port where the proxy listens, the prefix... *)
Theorem C103_api_url : forall y c address p, y_free1 y <> 0%Z -> address_of y c = Ok address -> prefix_of c = Ok p ->
  exists host n, address = at_port host n /\
    api_url y c = Ok ((if decide (c_cert c = []) then b_ "http" else b_ "https") ++ b_ "://" ++ at_port (if decide (everywhere host) then y_name y else host) n ++ p ++ b_ "/api").
Proof.
  intros y c a p Hf Ha Hp. destruct (normalize_inv _ _ _ _ _ Ha) as (host & q & n & E & Hh & Hq & Hn & ->). cbn [andb] in *. eexists host, _. split; [done|].
  unfold api_url. rewrite Ha, Hp. cbn [bind]. rewrite normalize_at by done. cbn [bind andb]. f_equal.
  assert ((if (n =? 0)%Z then y_free1 y else n) <> 0%Z) as Hz by (destruct (n =? 0)%Z eqn:En; [done|by apply Z.eqb_neq in En]). apply Z.eqb_neq in Hz. rewrite Hz.
  f_equal; [by destruct (c_cert c)|]. f_equal. f_equal. f_equal. unfold any_host. by destruct (decide (everywhere host)) as [H|H]; [rewrite bool_decide_true by done|rewrite bool_decide_false by done].
Qed.
Print Assumptions C103_api_url.
(** ... and if no separate address is set for the schedulers, the proxy uses one socket for
    both, and listens where it was told. *)
Theorem C103_one_socket : forall can y c address tcp api l child cert key, y_free1 y <> 0%Z -> c_tcp c = None -> address_of y c = Ok address -> tcp_of y c = Ok tcp -> can [] address = true ->
  listen can (Settings address tcp api l child cert key) = Some (One address).
Proof.
  intros can y c a t api l child cert key Hf Hc Ha Ht Hcan. unfold tcp_of in Ht. rewrite Hc, Ha in Ht. cbn [bind] in Ht.
  rewrite (normalize_again _ _ _ _ _ _ Hf Ha) in Ht. injection Ht as <-. unfold listen. cbn [s_tcp s_address]. destruct a; by rewrite Hcan, decide_True.
Qed.
Print Assumptions C103_one_socket.
(** With a separate address it listens at both, each for its own purpose, if it can. *)
Theorem C103_two_sockets : forall can y c address tcp api l child cert key, c_tcp c <> None -> tcp_of y c = Ok tcp -> address <> tcp -> can [] tcp = true -> can [tcp] address = true ->
  listen can (Settings address tcp api l child cert key) = Some (Two address tcp).
Proof.
  intros can y c a t api l child cert key Hc Ht Hne H1 H2. unfold tcp_of in Ht. destruct (c_tcp c) as [a0|]; [|done]. destruct (normalize_inv _ _ _ _ _ Ht) as (host & p & n & _ & _ & _ & _ & E).
  unfold listen. cbn [s_tcp s_address]. destruct t as [|x t]; [exfalso; unfold at_port in E; by destruct (if false && any_host host then y_name y else host)|]. by rewrite H1, decide_False, H2.
Qed.
Print Assumptions C103_two_sockets.
(** Two spellings of the same address are accepted by the gateway, but the proxy then never
    starts to listen: it exits at once, and is started again and again (C100). *)
Theorem C103_refuted : exists y c address tcp, c_tcp c <> None /\ address_of y c = Ok address /\ tcp_of y c = Ok tcp /\ forall api l child cert key, listen linux (Settings address tcp api l child cert key) = None.
Proof.
  exists y1, (Config (b_ ":8000") (Some (b_ "0.0.0.0:8000")) [] None (b_ "127.0.0.1:0") None [] [] LWarn), (b_ ":8000"), (b_ "0.0.0.0:8000").
  split; [done|]. split; [vm_compute; done|]. split; [vm_compute; done|]. intros. vm_compute. done.
Qed.
Print Assumptions C103_refuted.
Example C103_example : normalize false (b_ "node") 40001 (b_ "localhost: 0_8") = Ok (b_ "localhost:8") /\ normalize false (b_ "node") 40001 (b_ "localhost:0") = Ok (b_ "localhost:40001") /\
  normalize false (b_ "node") 40001 (b_ "[::1]:80") = ValueError /\ api_url y1 c1 = Ok (b_ "https://node:443/dask/api") /\ gateway_of y1 c1 = Ok (b_ "0.0.0.0:8787") /\ url_of y1 c1 = Ok (b_ "http://node:8787").
Proof. repeat split; vm_compute; done. Qed.

(** C104. A proxy that is started by hand from the same configuration watches the gateway
    and is let in, if the token is set in the configuration (or in the environment of both),
    and either the gateway's url is set, or its address has a port, and a host that means
    the same on both machines... *)
Theorem C104_partial : forall y y' c host n, 
  (c_url c <> None \/ (c_gateway c = at_port host n /\ colon ∉ host /\ n <> 0%Z /\ (~ everywhere host \/ y_name y = y_name y'))) ->
  (c_token c <> None \/ (y_env y = y_env y' /\ y_env y <> [])) -> printable (token_of y c) -> token_of y c <> [] -> ~ ends_in_blank (token_of y c) ->
  url_of y' c = url_of y c /\ exists h, proxy_header (token_of y' c) = Some h /\ check (token_of y c) (Some h) = Served.
Proof.
  intros y y' c host n Hu Ht Hp Hne Hb. split.
  - unfold url_of. destruct (c_url c) as [u|] eqn:Eu; [done|]. destruct Hu as [|(Hg & Hh & Hn & He)]; [done|]. unfold gateway_of. rewrite Hg, !normalize_at by done. cbn [bind andb].
    rewrite !normalize_at by done. cbn [bind]. apply Z.eqb_neq in Hn. rewrite !Hn. unfold any_host. destruct He as [He| ->]; [rewrite bool_decide_false by done|]; done.
  - assert (token_of y' c = token_of y c) as ->; [|by apply C101_own_partial]. unfold token_of. destruct (c_token c); [done|]. destruct Ht as [|[E Hn]]; [done|]. rewrite <- E. by destruct (y_env y).
Qed.
Print Assumptions C104_partial.
(** ... but not with the defaults: the two make up different tokens, and different ports. *)
Theorem C104_refuted : forall y y' c, c_token c = None -> y_env y = [] -> y_env y' = [] -> y_uuid y <> y_uuid y' ->
  forall h, hex (y_uuid y') -> y_uuid y' <> [] -> proxy_header (token_of y' c) = Some h -> check (token_of y c) (Some h) <> Served.
Proof.
  intros y y' c Hc He He' Hd h Hh Hne Hp Hs. destruct (C101_generated y' c Hc He' Hh Hne) as (h' & Hp' & Hs'). rewrite Hp in Hp'. injection Hp' as <-.
  apply check_token in Hs, Hs'. rewrite Hs in Hs'. injection Hs' as E. unfold token_of in E. rewrite Hc, He, He' in E. congruence.
Qed.
Print Assumptions C104_refuted.
Example C104_example : url_of y2 c1 = url_of y1 c1 /\ token_of y2 c1 = token_of y1 c1 /\ c_token c1 <> None /\ c_gateway c1 = at_port (b_ "0.0.0.0") 8787 /\ y_name y1 = y_name y2.
Proof. repeat split; vm_compute; done. Qed.
