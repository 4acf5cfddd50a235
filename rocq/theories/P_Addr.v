(** Property C96: from the address a user gives to the connection that is made. *)
From Coq Require Import Ascii String ZArith.
From stdpp Require Import prelude.
From Verif Require Import Router_Model ProxyLog_Model Launch_Model Manifest_Model Addr_Model Addr_Spec Addr_Proofs.
Local Open Scope nat_scope.

Lemma ok_inj {A} (a b : A) : Ok a = Ok b -> b = a.
Proof. intros H. by injection H as ->. Qed.
(** C96. "The client connects to the host and port that the address and the proxy setting
    mean, asking for the cluster by its name."  For addresses scheme://[user@]host[:port]...
    with a host of plain characters: *)
Theorem C96_proxy_partial : forall scheme user host port tail proxy h n public,
  scheme_ok scheme -> user_ok user -> plain_name host -> (forall p, port = Some p -> port_ok p) -> tail_ok tail -> means scheme host port proxy h n ->
  exists g, new_gateway (web_address scheme user host port tail) proxy public = Ok g /\ g_proxy g = b_ "gateway://" ++ host_port h n.
Proof.
  intros scheme user host port tail proxy h n public Hs Hu Hh Hp Ht M.
  assert (Hp' : optport_ok port) by (destruct port; [by apply Hp|done]). eexists. split; [by eapply gateway_ok|done].
Qed.
Theorem C96_reaches_partial : forall scheme user host port tail proxy h n public g name,
  scheme_ok scheme -> user_ok user -> plain_name host -> (forall p, port = Some p -> port_ok p) -> tail_ok tail -> means scheme host port proxy h n -> plain_name name ->
  new_gateway (web_address scheme user host port tail) proxy public = Ok g ->
  connection (scheduler_address g name) = Ok (Some (lower h), Some n, b_ "daskgateway-" ++ name) /\
  forall loc, scheduler_address g name = b_ "gateway://" ++ loc -> connection loc = Ok (Some (lower h), Some n, b_ "daskgateway-" ++ name).
Proof.
  intros scheme user host port tail proxy h n public g name Hs Hu Hh Hp Ht M Hm H.
  assert (Hp' : optport_ok port) by (destruct port; [by apply Hp|done]). destruct (meant_ok _ _ _ _ _ _ Hh Hp' M) as [H1 H2].
  rewrite (gateway_ok scheme user host port tail proxy h n public) in H by done. apply ok_inj in H as ->. unfold scheduler_address. cbn [g_proxy]. split.
  - rewrite <- app_assoc. by apply connection_ok.
  - intros loc E. rewrite <- app_assoc in E. apply app_inv_head in E as <-. by apply connection_loc.
Qed.
(** The gateway object that a cluster object makes for itself is the same. *)
Theorem C96_same_partial : forall scheme user host port tail proxy h n public g,
  scheme_ok scheme -> user_ok user -> plain_name host -> (forall p, port = Some p -> port_ok p) -> tail_ok tail -> means scheme host port proxy h n ->
  new_gateway (web_address scheme user host port tail) proxy public = Ok g -> gateway_of_cluster g = Ok g.
Proof.
  intros scheme user host port tail proxy h n public g Hs Hu Hh Hp Ht M H.
  assert (Hp' : optport_ok port) by (destruct port; [by apply Hp|done]). destruct (meant_ok _ _ _ _ _ _ Hh Hp' M) as [H1 H2].
  rewrite (gateway_ok scheme user host port tail proxy h n public) in H by done. apply ok_inj in H as ->. unfold gateway_of_cluster. cbn [g_address g_proxy g_public].
  rewrite (rstrip_web scheme user host port tail) by done.
  rewrite (gateway_ok scheme user host port (rstrip tail) (PStr (b_ "gateway://" ++ host_port h n)) h n).
  - rewrite (rstrip_web scheme user host port (rstrip tail)) by done. rewrite !rstrip_idem. destruct public; [by rewrite rstrip_idem|].
    by rewrite (rstrip_web scheme user host port (rstrip tail)), rstrip_idem by done.
  - done.
  - done.
  - done.
  - done.
  - by apply rstrip_tail.
  - cbn [means]. split; [done|]. split; [done|]. right. exists (b_ "gateway"), []. split; [apply gateway_scheme|]. split; [by left|].
    unfold web_address. rewrite app_nil_r. done.
Qed.
(** Links to dashboards are the public address, without slashes at its end, and the route. *)
Theorem C96_links : forall base k proxy g route, last base <> Some slash ->
  (new_gateway (base ++ replicate k slash) proxy None = Ok g -> g_address g = base /\ dashboard_link g route = base ++ route) /\
  (forall address, new_gateway address proxy (Some (base ++ replicate k slash)) = Ok g -> dashboard_link g route = base ++ route).
Proof.
  intros base k proxy g route L. unfold new_gateway, dashboard_link. split.
  - rewrite rstrip_slashes by done. destruct (netloc_of _ _); [|done]. destruct (urlparse base); [|done]. intros H. by injection H as <-.
  - intros address. destruct (netloc_of _ _); [|done]. destruct (urlparse _); [|done]. intros H. injection H as <-. cbn [g_public]. by rewrite rstrip_slashes.
Qed.
(** Addresses for which it is false: one without a scheme gives the host "None"; an IPv6
    address loses its brackets, and the connection fails. *)
Theorem C96_no_scheme_refuted : exists g, new_gateway (b_ "localhost:8000") PNone None = Ok g /\ g_proxy g = b_ "gateway://None" /\
  connection (scheduler_address g (b_ "abc")) = Ok (Some (b_ "none"), None, b_ "daskgateway-abc").
Proof. eexists. split; [vm_compute; done|]. split; vm_compute; done. Qed.
Theorem C96_ipv6_refuted : exists g, new_gateway (b_ "http://[::1]:8000") PNone None = Ok g /\ g_proxy g = b_ "gateway://::1:8000" /\
  connection (scheduler_address g (b_ "abc")) = ValueError.
Proof. eexists. split; [vm_compute; done|]. split; vm_compute; done. Qed.
Print Assumptions C96_proxy_partial.
Print Assumptions C96_reaches_partial.
Print Assumptions C96_same_partial.
Print Assumptions C96_links.
Print Assumptions C96_no_scheme_refuted.
Print Assumptions C96_ipv6_refuted.
(** The hypotheses can be met; concrete addresses. *)
Example C96_example :
  web_address (b_ "https") (Some (b_ "me:pw")) (b_ "Gateway.example.com") None (b_ "/gw/") = b_ "https://me:pw@Gateway.example.com/gw/" /\
  new_gateway (b_ "https://me:pw@Gateway.example.com/gw/") PNone None =
    Ok (Gateway (b_ "https://me:pw@Gateway.example.com/gw") (b_ "gateway://gateway.example.com:443") (b_ "https://me:pw@Gateway.example.com/gw")) /\
  scheme_ok (b_ "https") /\ user_ok (Some (b_ "me:pw")) /\ plain_name (b_ "Gateway.example.com") /\ tail_ok (b_ "/gw/") /\
  means (b_ "https") (b_ "Gateway.example.com") None PNone (b_ "gateway.example.com") 443.
Proof.
  split; [vm_compute; done|]. split; [vm_compute; done|]. split.
  { split; [eexists _, _; split; [done|]|]; apply (bool_decide_unpack _); vm_compute; done. }
  split; [apply (bool_decide_unpack _); vm_compute; done|]. split; [split; [done|apply (bool_decide_unpack _); vm_compute; done]|].
  split; [|split; vm_compute; done]. right. eexists _, _. split; [done|apply (bool_decide_unpack _); vm_compute; done].
Qed.
Example C96_settings :
  means (b_ "http") (b_ "h") None (PStr (b_ "proxy:8786")) (b_ "proxy") 8786 /\ means (b_ "http") (b_ "h") None (PStr (b_ "tls://proxy:8786/x")) (b_ "proxy") 8786.
Proof.
  assert (P : plain_name (b_ "proxy")) by (split; [done|apply (bool_decide_unpack _); vm_compute; done]).
  split; (split; [done|]; split; [split; lia|]); [left; vm_compute; done|right].
  exists (b_ "tls"), (b_ "/x"). split; [split; [eexists _, _; split; [done|]|]; apply (bool_decide_unpack _); vm_compute; done|].
  split; [|vm_compute; done]. right. eexists _, _. split; [done|apply (bool_decide_unpack _); vm_compute; done].
Qed.
