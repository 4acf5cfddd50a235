(** Properties C33-C39, C61 and C65: the HTTP API.  A history [h] is any sequence of
    requests arriving and finishing, each with any answers of the authenticator and
    of the backend (the oracle [o]) and any clock; [reach] starts from an empty
    session cache.  [session s k now] is who a request with cookie [k] acts as. *)
From Coq Require Import Ascii String ZArith Lia.
From stdpp Require Import prelude.
From Verif Require Import Trace Router_Model ProxyLog_Model Json_Model Json_Proofs Api_Model Api_Spec Api_Proofs Api_Proofs2.
Local Open Scope Z_scope.

(** Two users: alice logs in (her request for the options arrives and finishes),
    bob logs in, alice comes back with her cookie. *)
Definition alice := User (b_ "alice") [] false.
Definition bob := User (b_ "bob") [] true.
Definition c_alice := Clus (b_ "ca") (b_ "alice") (b_ "tok-a") KRUNNING (b_ "dash") (b_ "http://a") (b_ "cert-a") (b_ "key-a") (Some 10).
Definition c_bob := Clus (b_ "cb") (b_ "bob") (b_ "tok-b") KRUNNING [] (b_ "http://b") (b_ "cert-b") (b_ "key-b") None.
Definition world (n : bytes) : option clus :=
  if decide (n = b_ "ca") then Some c_alice else if decide (n = b_ "cb") then Some c_bob else None.
Definition asked (auth : user + Z) (posts : nat -> bool) : oracle :=
  Oracle auth world world (fun n _ => List.filter (fun c => bool_decide (k_user c = n)) [c_alice; c_bob]) (fun _ _ => None) posts true.
Definition plain (e : endpoint) : request := Request e None None None.
Definition login (id : nat) (u : user) (t : Z) (f : bytes) : list aevent :=
  [Arrive id (plain EpOptions) (asked (inl u) (fun _ => true)) t; Finish id t f].
Definition ex_logins : list aevent := login 1 alice 0 (b_ "c1") ++ login 2 bob 10 (b_ "c2").
Definition ex_h : hist := snd (run (api_step 300 6) server_init ex_logins).
Definition ex_s : server := fst (run (api_step 300 6) server_init ex_logins).
Lemma ex_reach : reach 300 6 ex_h ex_s.
Proof. apply (run_exec _ _ ex_logins). vm_compute. reflexivity. Qed.
Lemma ex_names : names_ok (asked (inr 401) (fun _ => true)).
Proof. intros n c. cbn. unfold world. repeat case_decide; intros [= <-]; done. Qed.
Lemma ex_lists : lists_own (asked (inr 401) (fun _ => true)).
Proof. intros n sts c. cbn [asked o_list]. intros Hin. apply elem_of_list_In, filter_In in Hin as [_ Hu]. by apply bool_decide_eq_true in Hu. Qed.

(** C33. Whoever acts through a cookie got this very cookie earlier, in the answer
    to a login the authenticator had vouched for. *)
Theorem C33_issued : forall max_age retries h1 id rq o now out h2 s u,
  reach max_age retries (h1 ++ (Arrive id rq o now, out) :: h2) s ->
  distinct_draws (h1 ++ (Arrive id rq o now, out) :: h2) -> ao_who out = ByCookie u ->
  exists k eo t el, rq_cookie rq = Some k /\ eo ∈ h1 /\ hands_out eo k u t /\ el ∈ h1 /\ logs_in el u.
Proof. exact cookie_issued. Qed.
Print Assumptions C33_issued.
(** Two users never get the same cookie. *)
Theorem C33_not_shared : forall max_age retries h s eo eo' k u u' t t', reach max_age retries h s -> distinct_draws h ->
  eo ∈ h -> eo' ∈ h -> hands_out eo k u t -> hands_out eo' k u' t' -> u_name u = u_name u'.
Proof. exact cookie_not_shared. Qed.
Print Assumptions C33_not_shared.
(** A user has at most one cookie that works. *)
Theorem C33_one_session : forall max_age retries h s k k' now now' u u', reach max_age retries h s -> distinct_draws h ->
  session max_age retries s k now = ByCookie u -> session max_age retries s k' now' = ByCookie u' ->
  u_name u = u_name u' -> k = k'.
Proof. exact one_session. Qed.
Print Assumptions C33_one_session.
(** The cache never gets in the way of a valid login. *)
Theorem C33_never_raises : forall max_age retries h s id rq o now u s' out, reach max_age retries h s -> distinct_draws h ->
  api_step max_age retries s (Arrive id rq o now) = (s', out) -> user_only rq -> o_auth o = inl u ->
  ao_who out = ByLogin u \/ exists u', ao_who out = ByCookie u'.
Proof. exact login_works. Qed.
Print Assumptions C33_never_raises.
Example C33_example : distinct_draws ex_h /\ session 300 6 ex_s (b_ "c1") 300 = ByCookie alice /\ session 300 6 ex_s (b_ "c1") 301 = Nobody /\
  session 300 6 ex_s (b_ "c2") 301 = ByCookie bob /\ session 300 6 ex_s (b_ "c3") 11 = Nobody.
Proof. split; [|vm_compute; auto]. unfold distinct_draws. vm_compute. apply (bool_decide_unpack _). vm_compute. done. Qed.

(** C34, what holds: a cookie is accepted only up to [max_age] after it was first
    handed out; and up to then it is accepted, whatever happens in between. *)
Theorem C34_expires_partial : forall max_age retries h1 id rq o now out h2 s u,
  reach max_age retries (h1 ++ (Arrive id rq o now, out) :: h2) s ->
  distinct_draws (h1 ++ (Arrive id rq o now, out) :: h2) -> ao_who out = ByCookie u ->
  exists k ha id' t f o' hb, rq_cookie rq = Some k /\ h1 = ha ++ (Finish id' t f, o') :: hb /\ ao_cookie o' = Some k /\
    (forall eo, eo ∈ ha -> ao_cookie (snd eo) <> Some k) /\ now <= t + max_age.
Proof. exact never_too_old. Qed.
Print Assumptions C34_expires_partial.
Theorem C34_valid_partial : forall max_age retries ha id t f o hb k u s now,
  reach max_age retries (ha ++ (Finish id t f, o) :: hb) s -> distinct_draws (ha ++ (Finish id t f, o) :: hb) ->
  hands_out (Finish id t f, o) k u t -> (forall eo, eo ∈ ha -> ao_cookie (snd eo) <> Some k) ->
  (forall eo, eo ∈ hb -> time_of (fst eo) <= t + max_age) -> now <= t + max_age ->
  session max_age retries s k now = ByCookie u.
Proof. exact valid_full_first. Qed.
Print Assumptions C34_valid_partial.
(** What does not: a user who logs in again (without the cookie) while a session
    is live is handed the old cookie, which ends with the old session: here 51
    seconds after the login instead of 300. *)
Theorem C34_full_lifetime_refuted : exists h s eo k u t now, reach 300 6 h s /\ distinct_draws h /\
  Forall (fun eo => time_of (fst eo) <= now) h /\ eo ∈ h /\ hands_out eo k u t /\ now <= t + 300 /\ session 300 6 s k now = Nobody.
Proof.
  pose (evs := login 1 alice 0 (b_ "c1") ++ login 2 alice 250 (b_ "c2")).
  pose (r := run (api_step 300 6) server_init evs).
  exists (snd r), (fst r), (Finish 2 250 (b_ "c2"), AOut (ByLogin alice) 200 BOptions [] (Some (b_ "c1"))), (b_ "c1"), alice, 250, 301.
  split_and!.
  - apply (run_exec _ _ evs). by destruct r eqn:E.
  - unfold distinct_draws. vm_compute. apply (bool_decide_unpack _). vm_compute. done.
  - vm_compute. repeat constructor; done.
  - vm_compute. do 3 right. left.
  - split; [do 2 eexists; reflexivity|]. split; reflexivity.
  - lia.
  - vm_compute. reflexivity.
Qed.
Print Assumptions C34_full_lifetime_refuted.
Example C34_example : exists ha id t f o hb, ex_h = ha ++ (Finish id t f, o) :: hb /\ hands_out (Finish id t f, o) (b_ "c1") alice t /\
  (forall eo, eo ∈ ha -> ao_cookie (snd eo) <> Some (b_ "c1")) /\ (forall eo, eo ∈ hb -> time_of (fst eo) <= t + 300) /\ length hb = 2%nat.
Proof.
  exists (take 1 ex_h), 1%nat, 0, (b_ "c1"). eexists _, (drop 2 ex_h). split; [vm_compute; reflexivity|].
  split; [split; [do 2 eexists; reflexivity|split; reflexivity]|]. split; [|split; [|reflexivity]].
  - apply Forall_forall. vm_compute. repeat constructor; done.
  - apply Forall_forall. vm_compute. repeat constructor; done.
Qed.

(** C35. What a request of user [u] stops or messages is a cluster of [u]; clusters
    it creates are [u]'s; it delivers no heartbeat; reports it gets are about
    clusters of [u].  ([names_ok], [lists_own]: the backend answers a query by name
    or user with clusters of this name or user.) *)
Theorem C35_own_only : forall max_age retries s id rq o now s' out u,
  api_step max_age retries s (Arrive id rq o now) = (s', out) -> user_of (ao_who out) = Some u -> names_ok o -> lists_own o ->
  (forall n, stops (ao_effects out) n -> owns o u n) /\
  (forall c m, sends (ao_effects out) c m -> owns o u (k_name c) /\ o_db2 o (k_name c) = Some c) /\
  (forall n, ~ beats (ao_effects out) n) /\
  (forall u' opts, FxStart u' opts ∈ ao_effects out -> u' = u) /\
  (forall rp, reports (ao_body out) rp -> exists c, k_user c = u_name u /\ rp = to_dict true c).
Proof. exact user_acts. Qed.
Print Assumptions C35_own_only.
(** Another user's cluster is forbidden, whatever the operation. *)
Theorem C35_forbidden : forall max_age retries s id rq o now s' out u n c,
  api_step max_age retries s (Arrive id rq o now) = (s', out) -> user_of (ao_who out) = Some u ->
  about (rq_ep rq) n -> o_db2 o n = Some c -> k_user c <> u_name u ->
  ao_status out = 403 /\ ao_body out = BError /\ ao_effects out = [].
Proof. exact forbidden. Qed.
Print Assumptions C35_forbidden.
(** A request that is nobody's does nothing and learns nothing; and a request acts
    as a fresh login of [u] only if the authenticator said so (cookies: C33). *)
Theorem C35_nobody : forall max_age retries s id rq o now s' out, api_step max_age retries s (Arrive id rq o now) = (s', out) ->
  ao_who out = Nobody -> ao_effects out = [] /\ ao_body out = BError.
Proof. exact nobody. Qed.
Print Assumptions C35_nobody.
Theorem C35_vouched : forall max_age retries s id rq o now s' out u, api_step max_age retries s (Arrive id rq o now) = (s', out) ->
  ao_who out = ByLogin u -> o_auth o = inl u.
Proof. exact login_vouched. Qed.
Print Assumptions C35_vouched.
(** Bob, an admin, is refused alice's cluster; alice stops it; the listing shows
    only her own. *)
Example C35_example : names_ok (asked (inr 401) (fun _ => true)) /\ lists_own (asked (inr 401) (fun _ => true)) /\
  (forall e, e = EpGet (b_ "ca") \/ e = EpDelete (b_ "ca") \/ e = EpScale (b_ "ca") \/ e = EpAdapt (b_ "ca") ->
     ao_status (snd (api_step 300 6 ex_s (Arrive 3 (Request e (Some (b_ "c2")) None None) (asked (inr 401) (fun _ => true)) 20))) = 403) /\
  snd (api_step 300 6 ex_s (Arrive 3 (Request (EpDelete (b_ "ca")) (Some (b_ "c1")) None None) (asked (inr 401) (fun _ => true)) 20))
    = AOut (ByCookie alice) 204 BEmpty [FxStop (b_ "ca") false] None /\
  ao_body (snd (api_step 300 6 ex_s (Arrive 3 (Request (EpList None) (Some (b_ "c1")) None None) (asked (inr 401) (fun _ => true)) 20)))
    = BClusters [to_dict true c_alice].
Proof.
  split; [exact ex_names|]. split; [exact ex_lists|]. split; [|vm_compute; auto].
  intros e [->|[->|[->| ->]]]; vm_compute; reflexivity.
Qed.

(** C36. A request accepted by token carries the token of the cluster it names, is
    its heartbeat or its deletion, and touches nothing else. *)
Theorem C36_token_scope : forall max_age retries s id rq o now s' out, api_step max_age retries s (Arrive id rq o now) = (s', out) ->
  ao_who out = ByToken ->
  exists n c tok, (rq_ep rq = EpDelete n \/ rq_ep rq = EpHeartbeat n) /\ carries_token rq tok /\ o_db1 o n = Some c /\ k_token c = tok /\
    (forall n', stops (ao_effects out) n' -> n' = n /\ rq_ep rq = EpDelete n) /\
    (forall n', beats (ao_effects out) n' -> n' = n /\ rq_ep rq = EpHeartbeat n) /\
    (forall c' m, ~ sends (ao_effects out) c' m) /\ (forall u opts, FxStart u opts ∉ ao_effects out) /\ (forall rp, ~ reports (ao_body out) rp).
Proof. exact by_token. Qed.
Print Assumptions C36_token_scope.
(** A heartbeat for [n] is delivered iff it carries the token of [n] (and a JSON
    body); without it the request is refused. *)
Theorem C36_heartbeat_iff : forall max_age retries s id rq o now s' out n, api_step max_age retries s (Arrive id rq o now) = (s', out) ->
  rq_ep rq = EpHeartbeat n ->
  beats (ao_effects out) n <-> is_Some (rq_body rq) /\ exists c tok, carries_token rq tok /\ o_db1 o n = Some c /\ k_token c = tok.
Proof. exact heartbeat_iff. Qed.
Print Assumptions C36_heartbeat_iff.
Theorem C36_heartbeat_refused : forall max_age retries s id rq o now s' out n, api_step max_age retries s (Arrive id rq o now) = (s', out) ->
  rq_ep rq = EpHeartbeat n -> ~ (exists c tok, carries_token rq tok /\ o_db1 o n = Some c /\ k_token c = tok) ->
  ao_who out = Nobody /\ ao_effects out = [] /\ (ao_status out = 401 \/ ao_status out = 500).
Proof. exact heartbeat_refused. Qed.
Print Assumptions C36_heartbeat_refused.
(** A token is no user credential. *)
Theorem C36_no_login : forall rq tok, carries_token rq tok ->
  (forall b64 password, simple_authenticate b64 password (rq_auth rq) = inr 401) /\
  (forall service hub, hub_authenticate service hub (rq_auth rq) = inr 401).
Proof. exact token_is_no_login. Qed.
Print Assumptions C36_no_login.
Definition with_token (e : endpoint) (tok : bytes) : request := Request e None (Some (b_ "token " ++ tok)) (Some JNull).
Example C36_example : carries_token (with_token (EpHeartbeat (b_ "ca")) (b_ "tok-a")) (b_ "tok-a") /\
  snd (api_step 300 6 ex_s (Arrive 3 (with_token (EpHeartbeat (b_ "ca")) (b_ "tok-a")) (asked (inr 401) (fun _ => true)) 20))
    = AOut ByToken 200 BEmpty [FxHeartbeat (b_ "ca") JNull] None /\
  ao_status (snd (api_step 300 6 ex_s (Arrive 3 (with_token (EpHeartbeat (b_ "cb")) (b_ "tok-a")) (asked (inl bob) (fun _ => true)) 20))) = 401 /\
  ao_effects (snd (api_step 300 6 ex_s (Arrive 3 (with_token (EpDelete (b_ "ca")) (b_ "tok-a")) (asked (inr 401) (fun _ => true)) 20))) = [FxStop (b_ "ca") false] /\
  ao_status (snd (api_step 300 6 ex_s (Arrive 3 (with_token (EpGet (b_ "ca")) (b_ "tok-a")) (asked (inr 401) (fun _ => true)) 20))) = 401.
Proof. split; [reflexivity|]. vm_compute. auto. Qed.

(** C37, what holds: only the full report of a running cluster has TLS credentials,
    and through the API they reach nobody but the owner. *)
Theorem C37_running_partial : forall full c cert key, discloses (to_dict full c) cert key ->
  full = true /\ k_status c = KRUNNING /\ cert = k_cert c /\ key = k_key c.
Proof. exact tls_only_running. Qed.
Print Assumptions C37_running_partial.
Theorem C37_owner_partial : forall max_age retries s id rq o now s' out rp cert key,
  api_step max_age retries s (Arrive id rq o now) = (s', out) -> names_ok o -> lists_own o ->
  reports (ao_body out) rp -> discloses rp cert key ->
  exists u c, user_of (ao_who out) = Some u /\ k_user c = u_name u /\ k_status c = KRUNNING /\ cert = k_cert c /\ key = k_key c /\ r_name rp = k_name c.
Proof. exact tls_to_owner. Qed.
Print Assumptions C37_owner_partial.
(** What does not: listings contain them. *)
Theorem C37_listing_refuted : exists max_age retries s id rq q o now s' out l rp cert key,
  api_step max_age retries s (Arrive id rq o now) = (s', out) /\ rq_ep rq = EpList q /\ names_ok o /\ lists_own o /\
  ao_body out = BClusters l /\ rp ∈ l /\ discloses rp cert key.
Proof.
  exists 300, 6, ex_s, 3%nat, (Request (EpList None) (Some (b_ "c1")) None None), None, (asked (inr 401) (fun _ => true)), 20.
  do 2 eexists. exists [to_dict true c_alice], (to_dict true c_alice), (b_ "cert-a"), (b_ "key-a").
  split; [apply surjective_pairing|]. split; [reflexivity|]. split; [exact ex_names|]. split; [exact ex_lists|].
  split; [vm_compute; reflexivity|]. split; [left|reflexivity].
Qed.
Print Assumptions C37_listing_refuted.

(** C38. Different identities of the hub get different user names (the hub's kinds,
    "user" and "service", have no colon); a token is accepted iff the hub answers
    for it and, when scopes are checked, lists one of the two scopes. *)
Theorem C38_names_differ : forall k1 n1 k2 n2, ":"%char ∉ k1 -> ":"%char ∉ k2 ->
  hub_username k1 n1 = hub_username k2 n2 -> k1 = k2 /\ n1 = n2.
Proof. exact hub_names_differ. Qed.
Print Assumptions C38_names_differ.
Theorem C38_accepts_iff : forall service hub header u, hub_authenticate service hub header = inl u <->
  exists tok d status, header = Some (b_ "jupyterhub" ++ " "%char :: tok) /\ hub tok = (status, d) /\ status < 400 /\
    (forall s, service = Some s -> b_ "access:services" ∈ h_scopes d \/ (b_ "access:services!service=" ++ s) ∈ h_scopes d) /\
    u = User (hub_username (h_kind d) (h_name d)) (h_groups d) (h_admin d).
Proof. exact hub_accepts. Qed.
Print Assumptions C38_accepts_iff.
Example C38_example : ":"%char ∉ b_ "user" /\ ":"%char ∉ b_ "service" /\
  hub_username (b_ "user") (b_ "x") = b_ "x" /\ hub_username (b_ "service") (b_ "x") = b_ "service:x" /\
  hub_username (b_ "user") (b_ "service:x") = b_ "user:service:x" /\
  hub_authenticate (Some (b_ "dask")) (fun _ => (200, HubData (b_ "user") (b_ "x") [b_ "access:services!service=dask"] [] false)) (Some (b_ "jupyterhub t"))
    = inl (User (b_ "x") [] false) /\
  hub_authenticate (Some (b_ "dask")) (fun _ => (200, HubData (b_ "user") (b_ "x") [b_ "access:services!service=other"] [] false)) (Some (b_ "jupyterhub t"))
    = inr 401.
Proof. split; [|split]; [apply (bool_decide_unpack _); vm_compute; done..|]. vm_compute. auto. Qed.

(** C39, scaling: for the owner of the cluster, a request for [z >= 0] sends
    [min z maximum] and nothing else, and is answered with a warning exactly if
    this is not [z]; any other request sends nothing and is refused. *)
Theorem C39_scale : forall max_age retries s id rq o now s' out u n c,
  api_step max_age retries s (Arrive id rq o now) = (s', out) -> user_of (ao_who out) = Some u ->
  rq_ep rq = EpScale n -> o_db2 o n = Some c -> k_user c = u_name u ->
  (forall z, is_object rq -> member rq (b_ "count") ≫= int_of = Some z -> 0 <= z ->
     (forall c' m, sends (ao_effects out) c' m -> c' = c /\ m = MScale (clamped c z)) /\
     (k_status c = KRUNNING -> sends (ao_effects out) c (MScale (clamped c z))) /\
     (ao_status out = 409 /\ ao_body out = BError \/
      ao_status out = 200 /\ exists ok, ao_body out = BOk ok /\ (ok = true <-> clamped c z = z) /\ k_status c = KRUNNING)) /\
  (~ is_object rq \/ (forall z, member rq (b_ "count") ≫= int_of = Some z -> z < 0) ->
     ao_effects out = [] /\ ao_body out = BError /\ (ao_status out = 422 \/ ao_status out = 500)).
Proof. exact scale_reached. Qed.
Print Assumptions C39_scale.
(** C39, adapting, what holds: with a configured maximum neither bound sent exceeds
    it; the answer warns exactly if one of the requested bounds did. *)
Theorem C39_adapt_limit_partial : forall max_age retries s id rq o now s' out u n c lim,
  api_step max_age retries s (Arrive id rq o now) = (s', out) -> user_of (ao_who out) = Some u ->
  rq_ep rq = EpAdapt n -> o_db2 o n = Some c -> k_user c = u_name u -> k_max c = Some lim ->
  forall c' m, sends (ao_effects out) c' m -> exists mn mx act, c' = c /\ m = MAdapt mn mx act /\ within lim mn /\ within lim mx.
Proof. exact (fun ma re s id rq o now s' out u n c lim Hs Hu He Hc Hk Hm => proj1 (adapt_reached ma re s id rq o now s' out u n c lim Hs Hu He Hc Hk Hm)). Qed.
Print Assumptions C39_adapt_limit_partial.
Theorem C39_adapt_answer_partial : forall max_age retries s id rq o now s' out u n c lim ok,
  api_step max_age retries s (Arrive id rq o now) = (s', out) -> user_of (ao_who out) = Some u ->
  rq_ep rq = EpAdapt n -> o_db2 o n = Some c -> k_user c = u_name u -> k_max c = Some lim -> ao_body out = BOk ok ->
  exists mn mx act, sends (ao_effects out) c (MAdapt mn mx act) /\
    (ok = true <-> within lim (requested rq (b_ "minimum") (JInt 0)) /\ within lim (requested rq (b_ "maximum") (JInt lim))) /\
    (ok = true -> mn = requested rq (b_ "minimum") (JInt 0) /\ mx = requested rq (b_ "maximum") (JInt lim)).
Proof. exact adapt_answered. Qed.
Print Assumptions C39_adapt_answer_partial.
(** What does not: a minimum above the maximum is sent on, with the answer "ok";
    and without a configured maximum anything is. *)
Definition adapt_req (mn mx : json) (n k : bytes) : request :=
  Request (EpAdapt n) (Some k) None (Some (JObj [(b_ "minimum", mn); (b_ "maximum", mx)])).
Theorem C39_adapt_refuted :
  (exists max_age retries s id rq o now s' out c a b act, api_step max_age retries s (Arrive id rq o now) = (s', out) /\
     sends (ao_effects out) c (MAdapt (JInt a) (JInt b) act) /\ b < a /\ is_Some (k_max c) /\ ao_body out = BOk true) /\
  (exists max_age retries s id rq o now s' out c x act, api_step max_age retries s (Arrive id rq o now) = (s', out) /\
     sends (ao_effects out) c (MAdapt (JStr x) (JInt (-5)) act) /\ ao_body out = BOk true).
Proof.
  split.
  - exists 300, 6, ex_s, 3%nat, (adapt_req (JInt 5) (JInt 2) (b_ "ca") (b_ "c1")), (asked (inr 401) (fun _ => true)), 20.
    do 2 eexists. exists c_alice, 5, 2, (JBool true). split; [apply surjective_pairing|]. vm_compute. split; [left|]. split_and!; eauto.
  - exists 300, 6, ex_s, 3%nat, (adapt_req (JStr (b_ "no")) (JInt (-5)) (b_ "cb") (b_ "c2")), (asked (inr 401) (fun _ => true)), 20.
    do 2 eexists. exists c_bob, (b_ "no"), (JBool true). split; [apply surjective_pairing|]. vm_compute. split; [left|reflexivity].
Qed.
Print Assumptions C39_adapt_refuted.
Definition scale_req (x : json) (n k : bytes) : request := Request (EpScale n) (Some k) None (Some (JObj [(b_ "count", x)])).
Example C39_example :
  snd (api_step 300 6 ex_s (Arrive 3 (scale_req (JInt 15) (b_ "ca") (b_ "c1")) (asked (inr 401) (fun _ => true)) 20))
    = AOut (ByCookie alice) 200 (BOk false) [FxForward (FPost c_alice (MScale 10))] None /\
  snd (api_step 300 6 ex_s (Arrive 3 (scale_req (JInt 10) (b_ "ca") (b_ "c1")) (asked (inr 401) (fun _ => true)) 20))
    = AOut (ByCookie alice) 200 (BOk true) [FxForward (FPost c_alice (MScale 10))] None /\
  ao_status (snd (api_step 300 6 ex_s (Arrive 3 (scale_req (JInt (-1)) (b_ "ca") (b_ "c1")) (asked (inr 401) (fun _ => true)) 20))) = 422 /\
  ao_effects (snd (api_step 300 6 ex_s (Arrive 3 (adapt_req (JInt 1) (JInt 99) (b_ "ca") (b_ "c1")) (asked (inr 401) (fun _ => true)) 20)))
    = [FxForward (FPost c_alice (MAdapt (JInt 1) (JInt 10) (JBool true)))].
Proof. vm_compute. auto. Qed.

(** C61. A message to a running cluster is tried at most [retries] times (at least
    once), 0.1 s, 0.2 s, ... (at most 5 s) apart, until the first success; the
    cluster is failed exactly if all of these attempts failed.  Nothing is sent to
    a cluster that is not running. *)
Theorem C61_forward : forall posts retries c m evs ok, forward posts retries c m = (evs, ok) -> k_status c = KRUNNING ->
  exists n : nat, 1 + Z.of_nat n <= Z.max 1 retries /\
    (forall i : nat, (1 <= i <= n)%nat -> posts i = false) /\ posts (S n) = ok /\
    (ok = false -> 1 + Z.of_nat n = Z.max 1 retries) /\
    evs = failed_tries c m (delays n 1) ++ FPost c m :: (if ok then [] else [FStop (k_name c) true]).
Proof. exact forward_shape. Qed.
Print Assumptions C61_forward.
Theorem C61_not_running : forall posts retries c m, k_status c <> KRUNNING -> forward posts retries c m = ([], false).
Proof. exact forward_not_running. Qed.
Print Assumptions C61_not_running.
Example C61_example :
  forward (fun i => bool_decide (3 <= i)%nat) 6 c_alice (MScale 1) = ([FPost c_alice (MScale 1); FSleep 1; FPost c_alice (MScale 1); FSleep 2; FPost c_alice (MScale 1)], true) /\
  forward (fun _ => false) 2 c_alice (MScale 1) = ([FPost c_alice (MScale 1); FSleep 1; FPost c_alice (MScale 1); FStop (b_ "ca") true], false) /\
  delays 8 1 = [1; 2; 4; 8; 16; 32; 50; 50].
Proof. vm_compute. auto. Qed.

(** C65. With a password configured (not the empty one) the simple authenticator
    accepts exactly the Basic credentials "name:password" with this password. *)
Theorem C65_simple_password : forall b64 password header u, simple_authenticate b64 password header = inl u <->
  exists key name pw, header = Some (b_ "Basic" ++ " "%char :: key) /\ b64 key = Some (name ++ ":"%char :: pw) /\ ":"%char ∉ name /\
    u = User name [] false /\ (forall p, password = Some p -> p <> [] -> pw = p).
Proof. exact simple_accepts. Qed.
Print Assumptions C65_simple_password.
Example C65_example : simple_authenticate Some (Some (b_ "s3:x")) (Some (b_ "Basic alice:s3:x")) = inl alice /\
  simple_authenticate Some (Some (b_ "s3:x")) (Some (b_ "Basic alice:s3")) = inr 401 /\
  simple_authenticate Some (Some []) (Some (b_ "Basic alice:")) = inl alice.
Proof. vm_compute. auto. Qed.
