(** Vocabulary for the properties of the HTTP API (C33-C39, C61, C65). *)
From Coq Require Import Ascii String ZArith.
From stdpp Require Import prelude.
From Verif Require Import Trace Router_Model ProxyLog_Model Json_Model Api_Model.
Local Open Scope Z_scope.

Definition hist : Type := list (aevent * aout).
Definition reach (max_age retries : Z) (h : hist) (s : server) : Prop := exec (api_step max_age retries) server_init h s.

Definition time_of (e : aevent) : Z := match e with Arrive _ _ _ t => t | Finish _ t _ => t end.
(** The cookies drawn by uuid4, and that they are all different. *)
Definition drawn (eo : aevent * aout) : list bytes := match fst eo with Finish _ _ f => [f] | _ => [] end.
Definition distinct_draws (h : hist) : Prop := NoDup (concat (map drawn h)).
(** The clock does not go back. *)
Definition clock_forward (h : hist) : Prop :=
  forall h1 eo h2 eo' h3, h = h1 ++ eo :: h2 ++ eo' :: h3 -> time_of (fst eo) <= time_of (fst eo').

(** The response to a login sends cookie [k] to user [u] at time [t]. *)
Definition hands_out (eo : aevent * aout) (k : bytes) (u : user) (t : Z) : Prop :=
  (exists id f, fst eo = Finish id t f) /\ ao_who (snd eo) = ByLogin u /\ ao_cookie (snd eo) = Some k.
(** The authenticator vouched for [u]. *)
Definition logs_in (eo : aevent * aout) (u : user) : Prop :=
  exists id rq o t, fst eo = Arrive id rq o t /\ o_auth o = inl u.
(** Who a request carrying cookie [k], and nothing else, acts as. *)
Definition refuse : oracle := Oracle (inr 401) (fun _ => None) (fun _ => None) (fun _ _ => []) (fun _ _ => None) (fun _ => false) false.
Definition session (max_age retries : Z) (s : server) (k : bytes) (now : Z) : identity :=
  ao_who (snd (api_step max_age retries s (Arrive 0 (Request EpOptions (Some k) None None) refuse now))).

Definition user_of (w : identity) : option user := match w with ByCookie u | ByLogin u => Some u | _ => None end.
(** The Authorization header "token tok". *)
Definition carries_token (rq : request) (tok : bytes) : Prop := rq_auth rq = Some (b_ "token" ++ " "%char :: tok).

(** The cluster [n] is touched by an effect of a request: stopped, or sent a message,
    or given a heartbeat; [c] is the record of the cluster a message is sent to. *)
Definition stops (fx : list effect) (n : bytes) : Prop :=
  (exists failed, FxStop n failed ∈ fx) \/ (exists failed, FxForward (FStop n failed) ∈ fx).
Definition sends (fx : list effect) (c : clus) (m : smsg) : Prop := FxForward (FPost c m) ∈ fx.
Definition beats (fx : list effect) (n : bytes) : Prop := exists msg, FxHeartbeat n msg ∈ fx.
(** A body that tells something about cluster record [c]. *)
Definition tells (b : rbody) (c : clus) : Prop :=
  exists full, b = BCluster (to_dict full c) \/ exists l, b = BClusters l /\ to_dict full c ∈ l.
(** A report with TLS credentials in it. *)
Definition discloses (r : report) (cert key : bytes) : Prop := r_tls r = Some (Some (cert, key)).
Definition reports (b : rbody) (r : report) : Prop := b = BCluster r \/ exists l, b = BClusters l /\ r ∈ l.

(** backend.list_clusters(username=n) returns clusters of n only. *)
Definition lists_own (o : oracle) : Prop := forall n sts c, c ∈ o_list o n sts -> k_user c = n.

(** [x] is not above the limit, in Python's comparison. *)
Definition within (lim : Z) (x : json) : Prop := exists f, num_of x = Some f /\ fltb (of_Z lim) f = false.

(** backend.get_cluster(n) returns the record named n. *)
Definition names_ok (o : oracle) : Prop := forall n c, o_db2 o n = Some c -> k_name c = n.
(** [n] is a cluster of [u]. *)
Definition owns (o : oracle) (u : user) (n : bytes) : Prop := exists c, o_db2 o n = Some c /\ k_user c = u_name u.
(** The request names cluster [n] in a user operation. *)
Definition about (e : endpoint) (n : bytes) : Prop := e = EpGet n \/ e = EpDelete n \/ e = EpScale n \/ e = EpAdapt n.

(** The member [k] of the JSON object in the body. *)
Definition member (rq : request) (k : bytes) : option json :=
  match rq_body rq with Some (JObj b) => dget k b | _ => None end.
Definition is_object (rq : request) : Prop := exists b, rq_body rq = Some (JObj b).
(** The member [k] of the body, or [d] when it is absent or null. *)
Definition requested (rq : request) (k : bytes) (d : json) : json :=
  match member rq k with None | Some JNull => d | Some x => x end.
(** min(requested, configured maximum). *)
Definition clamped (c : clus) (z : Z) : Z := match k_max c with Some mx => Z.min z mx | None => z end.

(** The delays before attempts 2, 3, ..., in tenths of a second. *)
Fixpoint delays (n : nat) (t : Z) : list Z := match n with O => [] | S n => t :: delays n (Z.min (t * 2) 50) end.
(** Attempts that failed, each followed by a delay. *)
Definition failed_tries (c : clus) (m : smsg) (ds : list Z) : list fevent := concat (map (fun t => [FPost c m; FSleep t]) ds).
(** Requests in which a cluster's token plays no part. *)
Definition user_only (rq : request) : Prop :=
  (forall n, rq_ep rq <> EpHeartbeat n) /\ (rq_auth rq = None \/ forall n, rq_ep rq <> EpDelete n).
