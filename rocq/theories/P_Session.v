(** Properties C97 and C98: one call of the client, from the caller to the gateway. *)
From Coq Require Import Ascii String ZArith Lia.
From stdpp Require Import prelude.
From Verif Require Import Trace Router_Model ProxyLog_Model Json_Model Api_Model Api_Spec Session_Model Session_Spec Session_Proofs.
Local Open Scope Z_scope.

(** C97. "A call takes effect at most once, and its result tells whether it did."  The
    request that is refused before the client authenticates does nothing: *)
Theorem C97_once : forall max_age retries h s c x1 x2, reach max_age retries h s -> performs h c x1 (Some x2) -> ao_effects (x_out x1) = [].
Proof.
  intros max_age retries h s c x1 x2 Hr (H1 & _ & H2 & _). destruct (exchange_cases _ _ _ _ _ Hr H1) as (E1 & E2 & _). by apply E2, E1.
Qed.
(** Whatever the gateway gets from a call asks for what the call is for, with its body; only
    a request that was refused is repeated, and then with the user's credentials. *)
Theorem C97_asks : forall h c x1 x2, performs h c x1 x2 ->
  (forall x, x = x1 \/ x2 = Some x -> rq_ep (x_rq x) = cl_ep c /\ rq_body (x_rq x) = cl_body c) /\
  (forall x, x2 = Some x -> ao_status (x_out x1) = 401 /\ rq_auth (x_rq x) = Some (header_of (cl_auth c))).
Proof.
  intros h c x1 x2 (_ & [jar E] & H). split; intros x.
  - intros [-> | ->]; [by rewrite E|]. destruct H as (_ & _ & [jar' ->] & _). done.
  - intros ->. destruct H as (H & _ & [jar' ->] & _). done.
Qed.
(** A result is what the gateway answered; an error means that nothing was done, except
    for errors about the cluster (409). *)
Theorem C97_told : forall max_age retries h s a c x1 x2, reach max_age retries h s -> performs h c x1 x2 ->
  match seen a c x1 x2 with
  | CReturned b => ao_body (x_out (last_of x1 x2)) = b /\ ao_status (x_out (last_of x1 x2)) < 400
  | CClusterError => ao_status (x_out (last_of x1 x2)) = 409
  | CNegotiationFailed => exists t acc, cl_auth c = Kerberos t acc
  | _ => nothing_done (last_of x1 x2)
  end.
Proof.
  intros max_age retries h s a c x1 x2 Hr (H1 & _ & H2). set (x := last_of x1 x2).
  assert (Hx : happens h x) by (unfold x, last_of; destruct x2; [by destruct H2 as (_ & ? & _)|done]).
  assert (E : seen a c x1 x2 = outcome_of (answer_of a (x_rq x) (x_out x)) \/ (seen a c x1 x2 = CNegotiationFailed /\ exists t acc, cl_auth c = Kerberos t acc)).
  { unfold seen, request_result. cbn [answer_of a_status a_www]. fold x. destruct x2 as [x2|].
    - destruct H2 as (-> & _). cbn [Z.eqb Pos.eqb]. destruct (post_response _ _) eqn:Ep; [by left|right]. split; [done|].
      destruct (cl_auth c); [done|done|eauto].
    - left. apply Z.eqb_neq in H2. by rewrite H2. }
  destruct E as [->|(-> & E)]; [|done]. destruct (exchange_cases _ _ _ _ _ Hr Hx) as (_ & _ & Hq & _).
  unfold outcome_of. cbn [answer_of a_status a_body]. destruct (400 <=? ao_status (x_out x)) eqn:E4; [apply Z.leb_le in E4|apply Z.leb_gt in E4; done].
  assert (N : ao_status (x_out x) <> 409 -> nothing_done x) by (intros; apply quiet_nothing; auto).
  destruct (ao_status (x_out x) =? 404) eqn:E1; [apply Z.eqb_eq in E1; apply N; lia|]. destruct (ao_status (x_out x) =? 422) eqn:E2; [apply Z.eqb_eq in E2; apply N; lia|]. cbn [orb].
  destruct (ao_status (x_out x) =? 409) eqn:E3; [by apply Z.eqb_eq in E3|]. apply Z.eqb_neq in E3. destruct (ao_status (x_out x) =? 500); by apply N.
Qed.
Print Assumptions C97_once.
Print Assumptions C97_asks.
Print Assumptions C97_told.

(** C98. "A call acts as the user that the client's credentials stand for." *)
Theorem C98_acts : forall max_age retries h s a c x1 x2 u, reach max_age retries h s -> distinct_draws h -> honest a h -> user_call c -> performs h c x1 x2 ->
  verdict a (Some (header_of (cl_auth c))) = inl u -> own_cookie (u_name u) x1 -> own_cookie (u_name u) (last_of x1 x2) ->
  acts_as (last_of x1 x2) (u_name u) /\ seen a c x1 x2 <> CHTTPError 401.
Proof.
  intros max_age retries h s a c x1 x2 u Hr Hd Ha Hu (H1 & (jar & Hj) & H2) Hv Ho1 Ho2.
  assert (A : acts_as (last_of x1 x2) (u_name u)).
  { destruct x2 as [x2|]; cbn [last_of] in *.
    - destruct H2 as (_ & H3 & (jar2 & Hj2) & _). eapply second_acts; eauto using header_other.
    - eapply first_acts; eauto. }
  split; [done|]. assert (Hx : happens h (last_of x1 x2)) by (unfold last_of; destruct x2; [by destruct H2 as (_ & ? & _)|done]).
  assert (N : ao_status (x_out (last_of x1 x2)) <> 401).
  { intros E. destruct (exchange_cases _ _ _ _ _ Hr Hx) as (E1 & _). destruct A as (u' & A & _). rewrite E1 in A by done. done. }
  unfold seen, request_result. cbn [answer_of a_status a_www].
  assert (O : outcome_of (answer_of a (x_rq (last_of x1 x2)) (x_out (last_of x1 x2))) <> CHTTPError 401).
  { unfold outcome_of. cbn [answer_of a_status a_body]. repeat case_match; congruence. }
  destruct (_ =? 401) eqn:E; [destruct (post_response _ _); done|]. destruct x2 as [x2|]; [|done]. destruct H2 as (H2 & _). apply Z.eqb_neq in E. done.
Qed.
(** Password: an ASCII name without colon, and the right password if there is one. *)
Theorem C98_basic_partial : forall max_age retries h s pw c x1 x2 name p, reach max_age retries h s -> distinct_draws h -> honest (SimpleAuth pw) h -> user_call c -> performs h c x1 x2 ->
  cl_auth c = BasicAuth name p -> ascii_text name -> ascii_text p -> ":"%char ∉ name -> (pw = None \/ pw = Some [] \/ pw = Some p) ->
  own_cookie name x1 -> own_cookie name (last_of x1 x2) -> acts_as (last_of x1 x2) name /\ seen (SimpleAuth pw) c x1 x2 <> CHTTPError 401.
Proof.
  intros max_age retries h s pw c x1 x2 name p Hr Hd Ha Hu Hp Hc Hn Hp' Hco Hpw Ho1 Ho2.
  apply (C98_acts max_age retries h s (SimpleAuth pw) c x1 x2 (User name [] false)); try done. rewrite Hc. by apply basic_verdict.
Qed.
(** JupyterHub: the hub is asked about the client's token, and its answer decides. *)
Theorem C98_hub : forall max_age retries h s hub c x1 x2 token d, reach max_age retries h s -> distinct_draws h -> honest (HubAuth None hub) h -> user_call c -> performs h c x1 x2 ->
  cl_auth c = HubToken token -> hub token = (200, d) -> h_kind d = b_ "user" -> ":"%char ∉ h_name d ->
  own_cookie (h_name d) x1 -> own_cookie (h_name d) (last_of x1 x2) -> acts_as (last_of x1 x2) (h_name d) /\ seen (HubAuth None hub) c x1 x2 <> CHTTPError 401.
Proof.
  intros max_age retries h s hub c x1 x2 token d Hr Hd Ha Hu Hp Hc Hh Hk Hn Ho1 Ho2.
  apply (C98_acts max_age retries h s (HubAuth None hub) c x1 x2 (User (h_name d) (h_groups d) (h_admin d))); try done.
  rewrite Hc. cbn [verdict]. unfold hub_authenticate. rewrite hub_token_ok, Hh. cbn. unfold hub_username. rewrite Hk, decide_False; [done|]. intros [H|H]; done.
Qed.
(** Kerberos: the user is right; the caller sees the answer if the second request was
    authenticated by its ticket and did not fail. *)
Theorem C98_kerberos_partial : forall max_age retries h s gss c x1 x2 ticket acc name realm key, reach max_age retries h s -> distinct_draws h -> honest (KerbAuth gss) h -> user_call c -> performs h c x1 x2 ->
  cl_auth c = Kerberos ticket acc -> gss ticket = Some (name ++ "@"%char :: realm, key) -> "@"%char ∉ name -> key <> [] -> acc key = true ->
  own_cookie name x1 -> own_cookie name (last_of x1 x2) ->
  acts_as (last_of x1 x2) name /\
  (x2 = None \/ (exists u, ao_who (x_out (last_of x1 x2)) = ByLogin u) /\ ao_body (x_out (last_of x1 x2)) <> BError ->
   seen (KerbAuth gss) c x1 x2 = outcome_of (answer_of (KerbAuth gss) (x_rq (last_of x1 x2)) (x_out (last_of x1 x2)))).
Proof.
  intros max_age retries h s gss c x1 x2 ticket acc name realm key Hr Hd Ha Hu Hp Hc Hg Hn Hk Hacc Ho1 Ho2.
  assert (K : kerberos_authenticate gss (Some (header_of (cl_auth c))) = inl (User name [] false, key)).
  { rewrite Hc. rewrite (kerb_verdict gss ticket acc _ _ Hg). by rewrite split1_app. }
  assert (V : verdict (KerbAuth gss) (Some (header_of (cl_auth c))) = inl (User name [] false)) by (unfold verdict; by rewrite K).
  destruct (C98_acts max_age retries h s (KerbAuth gss) c x1 x2 _ Hr Hd Ha Hu Hp V Ho1 Ho2) as [A _]. split; [exact A|].
  destruct Hp as (H1 & _ & H2). unfold seen, request_result. cbn [answer_of a_status a_www]. destruct x2 as [x2|]; cbn [last_of] in *.
  - destruct H2 as (E & _ & (jar & Hj) & _). rewrite E. cbn [Z.eqb Pos.eqb]. intros [|((u & Hw) & Hb)]; [done|].
    assert (W : www (KerbAuth gss) (x_rq x2) (x_out x2) = Some key).
    { unfold www. rewrite Hw, Hj. cbn [second_request rq_auth]. rewrite K. by destruct (ao_body (x_out x2)). }
    rewrite W, Hc. cbn [post_response]. destruct key; [done|]. by rewrite Hacc.
  - intros _. apply Z.eqb_neq in H2. by rewrite H2.
Qed.
Print Assumptions C98_acts.
Print Assumptions C98_basic_partial.
Print Assumptions C98_hub.
Print Assumptions C98_kerberos_partial.

(** * Concrete histories. *)
Definition known := Clus (b_ "ca") (b_ "alice") (b_ "tok") KRUNNING [] (b_ "http://a") (b_ "cert") (b_ "key") None.
Definition find (n : bytes) : option clus := if decide (n = b_ "ca") then Some known else None.
Definition ask (a : sauth) (rq : request) : oracle := Oracle (verdict a (rq_auth rq)) find find (fun _ _ => [known]) (fun _ _ => Some (b_ "new")) (fun _ => true) true.
Definition arrive (a : sauth) (id : nat) (rq : request) : aevent := Arrive id rq (ask a rq) 0.
Definition hist_of (evs : list aevent) : hist := snd (run (api_step 300 6) server_init evs).
Definition state_of (evs : list aevent) : server := fst (run (api_step 300 6) server_init evs).
Lemma ran evs : reach 300 6 (hist_of evs) (state_of evs).
Proof. apply (run_exec _ _ evs). unfold hist_of, state_of. by destruct (run _ _ _). Qed.
Definition nobody : aevent * aout := (Finish 0 0 [], AOut Nobody 0 BEmpty [] None).
(** The exchange that event number [n] makes. *)
Definition exch (evs : list aevent) (n : nat) : exchange :=
  match nth n (hist_of evs) nobody with
  | (Arrive _ rq o _, out) => Ex (firstn n (hist_of evs)) rq o out
  | _ => Ex [] (Request EpOptions None None None) (ask (SimpleAuth None) (Request EpOptions None None None)) (snd nobody)
  end.
Lemma exch_happens evs n id rq o t out : nth n (hist_of evs) nobody = (Arrive id rq o t, out) -> (n < length (hist_of evs))%nat -> happens (hist_of evs) (exch evs n).
Proof.
  intros E Hn. unfold exch, happens. rewrite E. cbn [x_before x_rq x_o x_out]. exists id, t, (skipn (S n) (hist_of evs)).
  rewrite <- E. rewrite <- (firstn_skipn n (hist_of evs)) at 1. f_equal. clear E. revert Hn. generalize (hist_of evs). induction n as [|n IH]; intros [|y l]; cbn; try lia; [done|]. intros H. apply IH. lia.
Qed.
(** A lone call with Kerberos for a cluster that does not exist. *)
Definition gss (t : bytes) : option (bytes * bytes) := if decide (t = b_ "T") then Some (b_ "alice@REALM", b_ "K") else None.
Definition with_kerberos (e : endpoint) : call := Call (Kerberos (b_ "T") (fun k => bool_decide (k = b_ "K"))) e None.
Definition missing : list aevent := [arrive (KerbAuth gss) 1 (first_request (with_kerberos (EpGet (b_ "no"))) None); arrive (KerbAuth gss) 2 (second_request (with_kerberos (EpGet (b_ "no"))) None)].
Ltac happens_now := eapply exch_happens; [reflexivity|vm_compute; lia].
Theorem C98_kerberos_error_refuted : exists h s gss c x1 x2, reach 300 6 h s /\ performs h c x1 (Some x2) /\
  (exists u, ao_who (x_out x2) = ByLogin u) /\ ao_status (x_out x2) = 404 /\ seen (KerbAuth gss) c x1 (Some x2) = CNegotiationFailed.
Proof.
  exists (hist_of missing), (state_of missing), gss, (with_kerberos (EpGet (b_ "no"))), (exch missing 0), (exch missing 1).
  split; [apply ran|]. split.
  { split; [happens_now|]. split; [by exists None|]. split; [vm_compute; done|]. split; [happens_now|]. split; [by exists None|vm_compute; lia]. }
  split; [eexists; vm_compute; done|]. split; vm_compute; done.
Qed.
(** Two calls at the same time, the first ones of a client: one cookie comes back before the
    other call's second request, which is then not answered with a ticket.  The cluster is
    stopped, and the caller told that the negotiation failed. *)
Definition both : list aevent :=
  [arrive (KerbAuth gss) 1 (first_request (with_kerberos EpOptions) None); arrive (KerbAuth gss) 2 (first_request (with_kerberos (EpDelete (b_ "ca"))) None);
   arrive (KerbAuth gss) 3 (second_request (with_kerberos EpOptions) None); Finish 3 0 (b_ "c1");
   arrive (KerbAuth gss) 4 (second_request (with_kerberos (EpDelete (b_ "ca"))) (Some (b_ "c1")))].
Theorem C97_kerberos_refuted : exists h s gss c x1 x2, reach 300 6 h s /\ performs h c x1 (Some x2) /\ own_cookie (b_ "alice") x2 /\
  seen (KerbAuth gss) c x1 (Some x2) = CNegotiationFailed /\ stops (ao_effects (x_out x2)) (b_ "ca").
Proof.
  exists (hist_of both), (state_of both), gss, (with_kerberos (EpDelete (b_ "ca"))), (exch both 1), (exch both 4).
  split; [apply ran|]. split.
  { split; [happens_now|]. split; [by exists None|]. split; [vm_compute; done|]. split; [happens_now|]. split; [by exists (Some (b_ "c1"))|vm_compute; lia]. }
  split.
  { intros k Hk. assert (k = b_ "c1") as -> by (vm_compute in Hk; injection Hk as <-; done).
    exists (nth 3 (hist_of both) nobody), (User (b_ "alice") [] false), 0. split; [apply elem_of_list_In; vm_compute; do 3 right; by left|].
    split; [|done]. split; [by exists 3%nat, (b_ "c1")|]. split; vm_compute; done. }
  split; [vm_compute; done|]. left. exists false. apply elem_of_list_In. vm_compute. by left.
Qed.
(** A name with a colon is cut at the colon; a name that is not ASCII is an error of the
    server. *)
Definition with_password (n p : bytes) : call := Call (BasicAuth n p) EpOptions None.
Definition twice (a : sauth) (c : call) : list aevent := [arrive a 1 (first_request c None); arrive a 2 (second_request c None)].
Theorem C98_colon_refuted : exists h s c x1 x2, reach 300 6 h s /\ performs h c x1 (Some x2) /\ cl_auth c = BasicAuth (b_ "alice:b") (b_ "") /\
  acts_as x2 (b_ "alice").
Proof.
  set (c := with_password (b_ "alice:b") (b_ "")). set (evs := twice (SimpleAuth None) c).
  exists (hist_of evs), (state_of evs), c, (exch evs 0), (exch evs 1). split; [apply ran|]. split.
  { split; [happens_now|]. split; [by exists None|]. split; [vm_compute; done|]. split; [happens_now|]. split; [by exists None|vm_compute; lia]. }
  split; [done|]. exists (User (b_ "alice") [] false). split; [vm_compute; done|done].
Qed.
Theorem C98_latin1_refuted : exists h s c x1 x2, reach 300 6 h s /\ performs h c x1 (Some x2) /\ cl_auth c = BasicAuth [ascii_of_nat 233] (b_ "") /\
  seen (SimpleAuth None) c x1 (Some x2) = CServerError.
Proof.
  set (c := with_password [ascii_of_nat 233] (b_ "")). set (evs := twice (SimpleAuth None) c).
  exists (hist_of evs), (state_of evs), c, (exch evs 0), (exch evs 1). split; [apply ran|]. split.
  { split; [happens_now|]. split; [by exists None|]. split; [vm_compute; done|]. split; [happens_now|]. split; [by exists None|vm_compute; lia]. }
  split; [done|]. vm_compute. done.
Qed.
Print Assumptions C98_kerberos_error_refuted.
Print Assumptions C97_kerberos_refuted.
Print Assumptions C98_colon_refuted.
Print Assumptions C98_latin1_refuted.
(** A call that meets the hypotheses of C97 and C98. *)
Example C98_example : let c := with_password (b_ "alice") (b_ "pw") in let evs := twice (SimpleAuth (Some (b_ "pw"))) c in
  reach 300 6 (hist_of evs) (state_of evs) /\ honest (SimpleAuth (Some (b_ "pw"))) (hist_of evs) /\ distinct_draws (hist_of evs) /\
  performs (hist_of evs) c (exch evs 0) (Some (exch evs 1)) /\ own_cookie (b_ "alice") (exch evs 1) /\
  acts_as (exch evs 1) (b_ "alice") /\ seen (SimpleAuth (Some (b_ "pw"))) c (exch evs 0) (Some (exch evs 1)) = CReturned BOptions.
Proof.
  intros c evs. split; [apply ran|]. split.
  { intros id rq o t out H. apply elem_of_list_In in H. vm_compute in H. destruct H as [H|[H|[]]]; injection H as <- <- <- <- <-; vm_compute; done. }
  split; [unfold distinct_draws; vm_compute; constructor|]. split.
  { split; [happens_now|]. split; [by exists None|]. split; [vm_compute; done|]. split; [happens_now|]. split; [by exists None|vm_compute; lia]. }
  split; [intros k Hk; vm_compute in Hk; done|]. split; [exists (User (b_ "alice") [] false); split; [vm_compute; done|done]|vm_compute; done].
Qed.
