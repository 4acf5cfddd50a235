(** The gateway, its route table and the proxy as one system: which calls of
    add_route and remove_route the events of the gateway
    (dask-gateway-server/dask_gateway_server/backends/db_base.py) make, and what
    the proxy then does with connections and requests of clients.

    The parts are those of Gateway_Model.v, ProxyLog_Model.v, Sni_Model.v and
    Router_Model.v.  Simplifications: requests to the API reach the gateway
    directly; the proxy started by the gateway is replaced at the moment the
    gateway is (C100-C104 describe its life in detail); a proxy killed while it
    runs is replaced at once; add_route and remove_route do not suspend. *)
From Coq Require Import Ascii String ZArith.
From stdpp Require Import prelude gmap.
From Verif Require Import Router_Model ProxyLog_Model Sni_Model Gateway_Model.
Open Scope Z_scope.

(** The settings: of the gateway, of the proxy (proxy/core.py:83-147), how Go
    parses URLs and TLS records, and the names of clusters (uuid.uuid4().hex,
    db_base.py:456), in the gateway model numbered 0, 1, 2, ... *)
Record wcfg := WCfg {
  wc_gw : cfg;
  wc_name : nat -> bytes;
  wc_url : bytes;                (* gateway_url (core.py:104-112) *)
  wc_prefix : bytes;             (* core.py:83-102 *)
  wc_max : Z;                    (* max_events (138-147) *)
  wc_external : bool;            (* externally_managed (core.py:167-177) *)
  wc_parse : bytes -> option goURL;
  wc_bufsize : nat;
  wc_hello : bytes -> bytes;
  wc_shared : bool;              (* tcp_address = address (core.py:58-80) *)
}.

Record world := World { w_gw : gw; w_sys : sys }.

Inductive wevent :=
| WGateway (e : Gateway_Model.event)
| WNet (e : ProxyLog_Model.event)        (* between proxy and gateway; calls of add_route, ... are not of this kind *)
| WProxyStart                            (* the proxy process is replaced by a new one *)
| WTls (dial : bytes -> bool) (cs : list bytes)   (* a connection to the proxy's TCP port *)
| WHttp (req : goReq).                   (* a request to its HTTP port *)
Inductive wobs :=
| OGateway (o : list obs)
| OQuiet
| OTls (f : option fate)                 (* [None]: the proxy panics *)
| OHttp (r : option served).

Section world.
Context (wc : wcfg).
Notation netstep := (ProxyLog_Model.step (wc_parse wc)).
Notation netruns := (ProxyLog_Model.runs (wc_parse wc)).

(** f"/clusters/{cluster.name}" (db_base.py:1297, 1322). *)
Definition path_of (n : nat) : bytes := b_ "/clusters/" ++ wc_name wc n.
(** Proxy.setup (core.py:289). *)
Definition setup_call : ProxyLog_Model.event := SAdd PATH (b_ "/") (wc_url wc).
(** _check_cluster_proxied (db_base.py:1319-1327). *)
Definition add_calls (n : nat) (c : cluster) : list ProxyLog_Model.event :=
  (if decide (r_dash (c_row c) = []) then [] else [SAdd PATH (path_of n) (r_dash (c_row c))]) ++
  [SAdd SNI (wc_name wc n) (r_sched (c_row c))].
(** _cluster_to_stopped (1297-1298). *)
Definition remove_calls (n : nat) : list ProxyLog_Model.event := [SRemove PATH (path_of n); SRemove SNI (wc_name wc n)].

(** The clusters that [_check_cluster_proxied] marked between two states: it is
    the only place where [added_to_proxies] is set (1328). *)
Definition marked (s : gw) (n : nat) : bool := match objs s !! n with Some c => c_proxied c | None => false end.
Definition newly (s s' : gw) : list (nat * cluster) :=
  List.filter (fun p => c_proxied p.2 && negb (marked s p.1)) (map_to_list (objs s')).

(** What the step of the gateway from [s] to [s'] does to its route table. *)
Definition calls (e : Gateway_Model.event) (s s' : gw) : list ProxyLog_Model.event :=
  match e with
  | EGet _ _ | EWake _ _ => concat (map (fun p => add_calls p.1 p.2) (newly s s'))
  | EBackend k Ends _ | EBackend k Raises _ =>
      match busy s !! k with Some (InStopCluster n) => remove_calls n | _ => [] end
  | _ => []
  end.
Definition new_proxy (y : sys) : sys := Sys (s_gw y) pinit.
(** A new gateway process: setup (core.py:267-289); a proxy that is its child
    ends with the old one (core.py:221-236, main.go:116-129). *)
Definition new_gateway (y : sys) : sys :=
  let y1 := netstep y SRestart in
  netstep (if wc_external wc then y1 else new_proxy y1) setup_call.

Definition wstep (w : world) (e : wevent) : world * wobs :=
  match e with
  | WGateway e =>
      let '(s', o) := Gateway_Model.step (wc_gw wc) (w_gw w) e in
      (World s' (match e with ERestart _ => new_gateway (w_sys w) | _ => netruns (w_sys w) (calls e (w_gw w) s') end), OGateway o)
  | WNet e =>
      (match e with SAdd _ _ _ | SRemove _ _ | SRestart => w | _ => World (w_gw w) (netstep (w_sys w) e) end, OQuiet)
  | WProxyStart => (World (w_gw w) (new_proxy (w_sys w)), OQuiet)
  | WTls dial cs =>
      (w, OTls (handleConnection (wc_bufsize wc) (wc_hello wc) (wc_shared wc) (t_sni (p_tables (s_px (w_sys w)))) dial cs))
  | WHttp req => (w, OHttp (r ← t_router (p_tables (s_px (w_sys w))); ServeHTTP r req))
  end.
Definition winit : world := World (gw_init (wc_gw wc)) (netstep (sinit (wc_prefix wc) (wc_max wc)) setup_call).
End world.
