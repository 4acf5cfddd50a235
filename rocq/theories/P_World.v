(** Properties C110-C112: the gateway and its proxy as one system.
    [wreach wc h w]: [w] is reached by the events [h] - of the gateway, between
    gateway and proxy, of clients, starts of either process - in any order, with
    any arguments and answers.  [setup_ok wc h]: cluster names are not empty, have
    no slash and are not used twice, the prefix is normalised, the buffer holds a
    record header, and no database key is used twice (or no restart). *)
From Coq Require Import ZArith Lia Ascii String.
From stdpp Require Import prelude gmap.
From Verif Require Import Trace WorkQueue_Model Router_Model Router_Spec ProxyLog_Model ProxyLog_Spec Sni_Model Sni_Spec
  Gateway_Model Gateway_Spec Gateway_Proofs3 P_Gateway P_ProxyLog
  World_Model World_Spec World_Proofs2 World_Proofs4 World_Proofs5.
Open Scope Z_scope.

(** For the examples: cluster n is called "a...a", the client of cluster n sends a
    record with that name; one cluster (0) comes up and is stopped. *)
Definition ex_name (n : nat) : bytes := replicate (S n) "a"%char.
Definition ex_client (n : nat) : list bytes := [[handshake; "3"%char; "1"%char; ascii_of_nat 0; ascii_of_nat (S n)]; ex_name n].
Definition ex_wc (external : bool) : wcfg :=
  WCfg (ex_cf false 3) ex_name (b_ "http://gw") (b_ "/p") 100 external parse0 32 (fun r => sniPrefix ++ drop 5 r) true.
Definition ex_fetch : list wevent := [WNet SAnswer; WNet SRecv; WNet SWatch; WNet (SWrite 0); WNet SRead].
Definition ex_deliver : list wevent := [WNet (SWrite 0); WNet SRead; WNet (SWrite 0); WNet SRead].
Definition ex_req (p : string) : goReq := Req (URL (b_ "https") (b_ "proxy") (b_ p) []) (b_ "proxy").
Definition ex_world_up : list wevent := ex_fetch ++ map WGateway ex_up ++ ex_deliver.
Definition ex_world_down : list wevent := ex_world_up ++ map WGateway ex_down ++ ex_deliver.
Lemma ex_setup b h : setup_ok (ex_wc b) h.
Proof.
  split; [|split; [|split; [|split]]]; [|right; by vm_compute|done|simpl; lia|left; apply ex_fresh].
  split; cbn [wc_name ex_wc]; unfold ex_name.
  - intros n n' E. apply (f_equal length) in E. rewrite !replicate_length in E. lia.
  - intros n. split; [done|]. intros Hin%elem_of_replicate_inv. done.
Qed.
Lemma ex_asks b n : (n < 20)%nat -> asks_for (ex_wc b) (ex_client n) n.
Proof.
  intros Hn. do 20 (destruct n as [|n]; [
    match goal with |- asks_for _ ?l _ => exists (concat l) end; split; [|split; [apply (bool_decide_unpack _); vm_compute; exact I|vm_compute; reflexivity]];
    match goal with |- first_record _ (concat (ex_client ?k)) => exists "3"%char, "1"%char, (ascii_of_nat 0), (ascii_of_nat (S k)), (ex_name k), [] end;
    vm_compute; repeat split|]). lia.
Qed.
Lemma ex_world wc es : exists h w, (w, h) = run (wstep wc) (winit wc) es /\ wreach wc h w.
Proof. destruct (run (wstep wc) (winit wc) es) as [w h] eqn:E. exists h, w. split; [done|]. by eapply run_exec. Qed.
Lemma ex_wrun wc es (P : list (wevent * wobs) -> world -> Prop) :
  (let r := run (wstep wc) (winit wc) es in P (snd r) (fst r)) -> exists h w, wreach wc h w /\ P h w.
Proof. intros H. destruct (ex_world wc es) as (h & w & E & Hr). rewrite <- E in H. by exists h, w. Qed.
Lemma ex_young h : young_proxy (ex_wc false) h.
Proof. done. Qed.

(** ** C110: isolation *)

(** A connection that is spliced through names exactly one cluster, and goes to an
    address that cluster's own scheduler reported. *)
Theorem C110_splice : forall wc h1 dial cs a x h2 w,
  let h := h1 ++ (WTls dial cs, OTls (Some (FSpliced a x))) :: h2 in
  setup_ok wc h -> wreach wc h w ->
  exists n m, asks_for wc cs n /\ reported h1 n m /\ m_sched m <> [] /\ a = trim_tls (m_sched m).
Proof. intros wc h1 dial cs a x h2 w h. exact (splice_isolated wc h1 dial cs a x h2 w). Qed.
Print Assumptions C110_splice.
Theorem C110_one : forall wc cs n n', names_good wc -> asks_for wc cs n -> asks_for wc cs n' -> n = n'.
Proof. exact asks_one. Qed.
Print Assumptions C110_one.

(** A request is refused, or goes to the gateway, or goes to a dashboard that the
    scheduler of the cluster named in the path reported. *)
Theorem C110_http : forall wc h1 req r h2 w,
  let h := h1 ++ (WHttp req, OHttp r) :: h2 in
  setup_ok wc h -> wreach wc h w ->
  r = Some NotFound \/
  (gateway_route wc `prefix_of` asked req /\ exists u, leads_to (wc_parse wc) (wc_url wc) u /\ goes_to r u) \/
  (exists n m u, cluster_route wc n `prefix_of` asked req /\ reported h1 n m /\ leads_to (wc_parse wc) (m_dash m) u /\ goes_to r u).
Proof. intros wc h1 req r h2 w h. exact (http_isolated wc h1 req r h2 w). Qed.
Print Assumptions C110_http.
(** The path names at most one cluster. *)
Theorem C110_http_one : forall wc req n n', names_good wc -> prefix_good wc ->
  cluster_route wc n `prefix_of` asked req -> cluster_route wc n' `prefix_of` asked req -> n = n'.
Proof. exact route_one. Qed.
Print Assumptions C110_http_one.
(** Nothing outside the prefix is served. *)
Theorem C110_outside : forall wc h w req, setup_ok wc h -> wreach wc h w ->
  ~ gateway_route wc `prefix_of` asked req -> request wc w req = OHttp (Some NotFound).
Proof. exact outside_refused. Qed.
Print Assumptions C110_outside.

(** A client is spliced through, requests reach dashboard and gateway, and one
    outside the prefix is refused. *)
Example C110_example : exists h w, let wc := ex_wc false in
  wreach wc h w /\ setup_ok wc h /\
  map fst h = ex_world_up ++ [WTls (fun _ => true) (ex_client 0); WHttp (ex_req "/p/clusters/a/status"); WHttp (ex_req "/p/api"); WHttp (ex_req "/api")] /\
  exists x, map snd (drop (length ex_world_up) h) =
    [OTls (Some (FSpliced ["s"%char] x)); OHttp (Some (Forwarded (Req (URL (b_ "http") (b_ "d") (b_ "/status") []) (b_ "d"))));
     OHttp (Some (Forwarded (Req (URL (b_ "http") (b_ "http://gw") (b_ "/api") []) (b_ "http://gw")))); OHttp (Some NotFound)].
Proof.
  apply (ex_wrun (ex_wc false) (ex_world_up ++ [WTls (fun _ => true) (ex_client 0); WHttp (ex_req "/p/clusters/a/status"); WHttp (ex_req "/p/api"); WHttp (ex_req "/api")])).
  split; [apply ex_setup|]. split; [vm_compute; reflexivity|]. eexists. vm_compute. reflexivity.
Qed.

(** ** C111: reachability

    The full claim is for every proxy; it is proved for one that was started with
    or after the gateway process ([young_proxy]) and fails for an older one, see
    C111_old_proxy_refuted. *)

(** A connection naming a running cluster is spliced to the address the cluster's
    scheduler reported. *)
Theorem C111_running_partial : forall wc h w n c dial cs,
  setup_ok wc h -> wreach wc h w -> young_proxy wc h -> caught_up w -> idle (w_gw w) -> runs_on w n c -> asks_for wc cs n ->
  let a := trim_tls (r_sched (c_row c)) in a <> [] -> dial a = true ->
  (exists x, connect wc w dial cs = OTls (Some (FSpliced a x))) /\ exists m, reported h n m /\ m_sched m = r_sched (c_row c).
Proof. exact running_served. Qed.
Print Assumptions C111_running_partial.
(** A request below its path goes to the dashboard it reported. *)
Theorem C111_dashboard_partial : forall wc h w n c req u,
  setup_ok wc h -> wreach wc h w -> young_proxy wc h -> caught_up w -> idle (w_gw w) -> runs_on w n c ->
  cluster_route wc n `prefix_of` asked req -> leads_to (wc_parse wc) (r_dash (c_row c)) u ->
  (exists r, request wc w req = OHttp r /\ goes_to r u) /\ exists m, reported h n m /\ m_dash m = r_dash (c_row c).
Proof. exact dashboard_served. Qed.
Print Assumptions C111_dashboard_partial.
(** A connection naming a cluster that is gone, or never was, is closed. *)
Theorem C111_gone_partial : forall wc h w n dial cs,
  setup_ok wc h -> wreach wc h w -> young_proxy wc h -> caught_up w -> is_gone w n -> asks_for wc cs n ->
  connect wc w dial cs = OTls (Some FClosed).
Proof. exact gone_closed. Qed.
Print Assumptions C111_gone_partial.
(** Every other request below the prefix goes to the gateway, also those that name
    a cluster that is gone. *)
Theorem C111_gateway_partial : forall wc h w req u,
  setup_ok wc h -> wreach wc h w -> young_proxy wc h -> caught_up w ->
  gateway_route wc `prefix_of` asked req -> leads_to (wc_parse wc) (wc_url wc) u ->
  (forall n, cluster_route wc n `prefix_of` asked req -> is_gone w n) ->
  exists r, request wc w req = OHttp r /\ goes_to r u.
Proof. exact gateway_served. Qed.
Print Assumptions C111_gateway_partial.

Example C111_example : let wc := ex_wc false in
  (exists h w, wreach wc h w /\ setup_ok wc h /\ young_proxy wc h /\ caught_up w /\ idle (w_gw w) /\
     map fst h = ex_world_up /\ asks_for wc (ex_client 0) 0 /\ (exists c, runs_on w 0 c /\ trim_tls (r_sched (c_row c)) = ["s"%char] /\ r_dash (c_row c) = ["d"%char]) /\
     cluster_route wc 0 `prefix_of` asked (ex_req "/p/clusters/a/status") /\ gateway_route wc `prefix_of` asked (ex_req "/p/api")) /\
  exists h w, wreach wc h w /\ setup_ok wc h /\ young_proxy wc h /\ caught_up w /\ idle (w_gw w) /\ map fst h = ex_world_down /\ is_gone w 0 /\
     exists c, objs (w_gw w) !! 0%nat = Some c /\ c_status c = STOPPED.
Proof.
  split.
  - apply (ex_wrun (ex_wc false) ex_world_up). split; [apply ex_setup|]. split; [apply ex_young|]. split; [vm_compute; reflexivity|].
    split; [vm_compute; ex_idle|]. split; [vm_compute; reflexivity|]. split; [apply ex_asks; lia|].
    split; [eexists; split; [split; [vm_compute; reflexivity|split; vm_compute; reflexivity]|split; vm_compute; reflexivity]|].
    split; eexists; vm_compute; reflexivity.
  - apply (ex_wrun (ex_wc false) ex_world_down). split; [apply ex_setup|]. split; [apply ex_young|]. split; [vm_compute; reflexivity|].
    split; [vm_compute; ex_idle|]. split; [vm_compute; reflexivity|]. split.
    + intros c Hc. vm_compute in Hc. injection Hc as <-. done.
    + eexists. split; [vm_compute; reflexivity|]. vm_compute. reflexivity.
Qed.

(** A proxy that was running before the gateway was restarted asks only for changes
    newer than those it saw, counted by the old process.  Here the gateway is at
    rest, the proxy is connected and has seen the newest change, and still sends
    clients of a stopped cluster to its old address and turns away the clients of
    a running one. *)
Definition ex_again : list Gateway_Model.event :=
  [ERestart 50; EStop 0 false; EGet 0 51; EGet 0 52; EGet 1 53; EBackend 0 Ends 54; EBackend 1 Ends 54; EGet 0 55; EBackend 0 Ends 56;
   EStart 1 7 (Some 2%Z) 60; EGet 0 61; EBackend 0 (Yields 5) 62; EBackend 0 Ends 63; EHeartbeat 3 (ex_msg 0 [] [] []) 64; EGet 0 65]%nat.
Theorem C111_old_proxy_refuted : exists wc h w n n' c dial cs cs' x,
  setup_ok wc h /\ wreach wc h w /\ drained w /\ caught_up w /\ idle (w_gw w) /\
  is_gone w n /\ asks_for wc cs n /\ connect wc w dial cs = OTls (Some (FSpliced ["s"%char] x)) /\
  runs_on w n' c /\ asks_for wc cs' n' /\ trim_tls (r_sched (c_row c)) <> [] /\ (forall a, dial a = true) /\ connect wc w dial cs' = OTls (Some FClosed).
Proof.
  exists (ex_wc true).
  edestruct (ex_wrun (ex_wc true) (ex_world_up ++ map WGateway ex_again ++ [WNet SEnd; WNet SWatch; WNet (SWrite 1); WNet SRead])
    (fun h w => setup_ok (ex_wc true) h /\ drained w /\ caught_up w /\ idle (w_gw w) /\ is_gone w 0 /\
      (exists x, connect (ex_wc true) w (fun _ => true) (ex_client 0) = OTls (Some (FSpliced ["s"%char] x))) /\
      (exists c, runs_on w 3 c /\ trim_tls (r_sched (c_row c)) <> []) /\ connect (ex_wc true) w (fun _ => true) (ex_client 3) = OTls (Some FClosed)))
    as (h & w & Hr & H1 & H2 & H3 & H4 & H5 & (x & H6) & (c & H7 & H8) & H9).
  - split; [apply ex_setup|]. split; [exists 1%nat; split; vm_compute; reflexivity|]. split; [vm_compute; reflexivity|].
    split; [vm_compute; ex_idle|]. split; [intros c Hc; vm_compute in Hc; injection Hc as <-; done|].
    split; [eexists; vm_compute; reflexivity|]. split; [|vm_compute; reflexivity].
    eexists. split; [split; [vm_compute; reflexivity|split; vm_compute; reflexivity]|vm_compute; discriminate].
  - exists h, w, 0%nat, 3%nat, c, (fun _ => true), (ex_client 0), (ex_client 3), x.
    repeat (split; [first [assumption|apply ex_asks; lia|done]|]). assumption.
Qed.
Print Assumptions C111_old_proxy_refuted.

(** ** C112: catching up *)

(** Connected, with nothing left to send or read, the proxy has seen every change. *)
Theorem C112_drained : forall wc h w, setup_ok wc h -> wreach wc h w -> young_proxy wc h -> drained w -> caught_up w.
Proof. exact drained_caught_up. Qed.
Print Assumptions C112_drained.
(** From every state deliveries alone lead to one in which it has, without any
    further event of the gateway. *)
Theorem C112_catches_up : forall wc h w, setup_ok wc h -> wreach wc h w -> young_proxy wc h ->
  exists es w', Forall delivery es /\ exec (wstep wc) w (map (fun e => (WNet e, OQuiet)) es) w' /\ w_gw w' = w_gw w /\ caught_up w'.
Proof. exact catches_up. Qed.
Print Assumptions C112_catches_up.
(** A new proxy process has caught up after its first answer, whatever happened before. *)
Theorem C112_fresh_proxy : forall wc h w, setup_ok wc h -> wreach wc h w ->
  exists h' w', exec (wstep wc) w h' w' /\ map fst h' = [WProxyStart; WNet SAnswer; WNet SRecv] /\
    setup_ok wc (h ++ h') /\ young_proxy wc (h ++ h') /\ caught_up w' /\ w_gw w' = w_gw w.
Proof. exact fresh_proxy. Qed.
Print Assumptions C112_fresh_proxy.

Example C112_example : let wc := ex_wc false in
  (exists h w, wreach wc h w /\ setup_ok wc h /\ young_proxy wc h /\ map fst h = ex_fetch ++ map WGateway ex_up /\ ~ caught_up w) /\
  (exists h w, wreach wc h w /\ setup_ok wc h /\ young_proxy wc h /\ map fst h = ex_world_up /\ drained w).
Proof.
  split.
  - apply (ex_wrun (ex_wc false) (ex_fetch ++ map WGateway ex_up)). split; [apply ex_setup|]. split; [apply ex_young|].
    split; [vm_compute; reflexivity|]. vm_compute. discriminate.
  - apply (ex_wrun (ex_wc false) ex_world_up). split; [apply ex_setup|]. split; [apply ex_young|]. split; [vm_compute; reflexivity|].
    exists 0%nat. split; vm_compute; reflexivity.
Qed.
