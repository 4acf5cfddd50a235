(** Vocabulary for C110-C112. *)
From Coq Require Import Ascii String ZArith.
From stdpp Require Import prelude gmap.
From Verif Require Import Trace Router_Model Router_Spec ProxyLog_Model ProxyLog_Spec Sni_Model Sni_Spec Gateway_Model Gateway_Spec World_Model.
Open Scope Z_scope.

Section spec.
Context (wc : wcfg).
Notation hist := (list (wevent * wobs)).
Definition wreach (h : hist) (w : world) : Prop := exec (wstep wc) (winit wc) h w.

(** Names of clusters are not empty, have no slash and are not used twice; the
    prefix is as the gateway normalises it. *)
Definition names_good : Prop :=
  (forall n n', wc_name wc n = wc_name wc n' -> n = n') /\ forall n, wc_name wc n <> [] /\ slash ∉ wc_name wc n.
Definition prefix_good : Prop :=
  wc_prefix wc = [] \/ (head (wc_prefix wc) = Some slash /\ last (wc_prefix wc) <> Some slash).
(** The database never uses a key twice, or the gateway process lives on. *)
Definition restarts (h : hist) : Prop := exists now o, (WGateway (ERestart now), o) ∈ h.
Definition wids_ok (h : hist) : Prop := fresh_ids (wc_gw wc) \/ ~ restarts h.
Definition setup_ok (h : hist) : Prop :=
  names_good /\ prefix_good /\ 0 <= wc_max wc /\ (5 <= wc_bufsize wc)%nat /\ wids_ok h.

(** The scheduler of cluster [n] sent the heartbeat [m]. *)
Definition reported (h : hist) (n : nat) (m : hbmsg) : Prop := exists now o, (WGateway (EHeartbeat n m now), o) ∈ h.
(** The first record of the connection names cluster [n]. *)
Definition asks_for (cs : list bytes) (n : nat) : Prop := names_cluster (wc_bufsize wc) (wc_hello wc) (concat cs) (wc_name wc n).
(** The segments of the path of cluster [n]'s dashboard, and of the gateway. *)
Definition gateway_route : list bytes := route_of (wc_prefix wc).
Definition cluster_route (n : nat) : list bytes := gateway_route ++ [b_ "clusters"; wc_name wc n].
Definition asked (req : goReq) : list bytes := route_of (u_path (q_url req)).
(** The request is passed on to the server at [u]. *)
Definition goes_to (r : option served) (u : goURL) : Prop := exists req', r = Some (Forwarded req') /\
  u_scheme (q_url req') = u_scheme u /\ u_host (q_url req') = u_host u /\ q_host req' = u_host u.
Notation leads := (leads_to (wc_parse wc)).

(** The proxy process is not older than the gateway process: it is the
    gateway's child, or was started later. *)
Definition young_proxy (h : hist) : Prop := wc_external wc = true ->
  forall h1 now o h2, h = h1 ++ (WGateway (ERestart now), o) :: h2 -> (WProxyStart, OQuiet) ∈ h2.
(** The proxy has seen the newest change; this is so when it is connected and
    nothing is left to send or to read. *)
Definition caught_up (w : world) : Prop := p_last (s_px (w_sys w)) = g_next (s_gw (w_sys w)) - 1.
Definition drained (w : world) : Prop := exists k, p_phase (s_px (w_sys w)) = Watching k [] /\ g_watch (s_gw (w_sys w)) !! k = Some [].
(** The next connection, the next request. *)
Definition connect (w : world) (dial : bytes -> bool) (cs : list bytes) : wobs := (wstep wc w (WTls dial cs)).2.
Definition request (w : world) (req : goReq) : wobs := (wstep wc w (WHttp req)).2.
(** The cluster runs, and nothing is meant to change that. *)
Definition runs_on (w : world) (n : nat) (c : cluster) : Prop :=
  objs (w_gw w) !! n = Some c /\ c_status c = RUNNING /\ c_target c = RUNNING.
(** Cluster [n] is not running and not being closed. *)
Definition is_gone (w : world) (n : nat) : Prop :=
  forall c, objs (w_gw w) !! n = Some c -> c_status c <> RUNNING /\ c_status c <> CLOSING.
End spec.
(** What happens between proxy and gateway when nothing fails: answers and lines
    are written and arrive, streams the gateway ended end. *)
Definition delivery (e : ProxyLog_Model.event) : Prop :=
  match e with SWrite _ | SRead | SAnswer | SRecv | SWatch | SEnd => True | _ => False end.
