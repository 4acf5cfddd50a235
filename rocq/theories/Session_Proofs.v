From Coq Require Import Ascii String ZArith Lia.
From stdpp Require Import prelude.
From Verif Require Import Trace Router_Model ProxyLog_Model Json_Model Api_Model Api_Spec Api_Proofs Api_Proofs2 Session_Model Session_Spec.
From Verif Require Cred_Model Cred_Spec Cred_Proofs.
Local Open Scope Z_scope.

(** * What handlers answer. *)
Definition quiet (o : oracle) (fx : list effect) : Prop := fx = [] \/ exists u opts, fx = [FxStart u opts] /\ o_start o u opts = None.
Definition handled (o : oracle) (r : outcome * list effect) : Prop :=
  match fst r with
  | Answer rs => rs_status rs < 400 /\ rs_body rs <> BError
  | Raised st => (st = 403 \/ st = 404 \/ st = 409 \/ st = 422 \/ st = 500) /\ (st <> 409 -> quiet o (snd r))
  end.
Lemma send_handled retries o c m cl : handled o (send retries o c m cl).
Proof. unfold send. destruct (forward _ _ _ _) as [evs [|]]; cbn [handled fst snd]; [done|]. split; [auto|done]. Qed.
Lemma handler_handled retries o rq who : handled o (handler retries o rq who).
Proof.
  unfold handler. destruct (rq_ep rq), who; repeat first [apply send_handled | case_match | done | (split; [auto 6; done|intros _; by left])].
  all: try (unfold handled; cbn [fst snd]).
  all: try done.
  all: try (split; [auto 6|intros _; by left]).
  all: try (split; [auto 6|by intros []]).
  all: try solve [split; [auto 6|intros _; right; eexists _, _; eauto]].
  all: try (split; [auto 6|done]).
Qed.
Lemma quiet_nothing x : quiet (x_o x) (ao_effects (x_out x)) -> nothing_done x.
Proof.
  intros [E|(u & opts & E & H)]; unfold nothing_done, stops, sends, beats; rewrite E.
  - split_and!; [intros n [[f H]|[f H]]|intros k m H|intros u opts H|intros n [f H]]; by apply elem_of_nil in H.
  - split_and!; [intros n [[f H']|[f H']]|intros k m H'|intros u' opts' H'|intros n [f H']]; apply elem_of_list_singleton in H'; try discriminate H'.
    injection H' as -> ->. done.
Qed.
(** * Requests in histories. *)
Lemma at_step max_age retries h s x : reach max_age retries h s -> happens h x ->
  exists id t s1 s2, reach max_age retries (x_before x) s1 /\ api_step max_age retries s1 (Arrive id (x_rq x) (x_o x) t) = (s2, x_out x).
Proof.
  intros Hr (id & t & rest & E). unfold reach in *. rewrite E in Hr. apply exec_app in Hr as (s1 & H1 & H2). inversion H2; subst. eauto 10.
Qed.
Lemma out_status who r : ao_status (out_of who r) = match fst r with Answer rs => rs_status rs | Raised st => st end.
Proof. unfold out_of. by destruct (fst r). Qed.
Lemma out_effects' who r : ao_effects (out_of who r) = snd r.
Proof. unfold out_of. by destruct (fst r). Qed.
Lemma out_body' who r : ao_body (out_of who r) = match fst r with Answer rs => rs_body rs | Raised _ => BError end.
Proof. unfold out_of. by destruct (fst r). Qed.
(** Errors, and what they say. *)
Lemma exchange_cases max_age retries h s x : reach max_age retries h s -> happens h x ->
  (ao_status (x_out x) = 401 -> ao_who (x_out x) = Nobody) /\
  (ao_who (x_out x) = Nobody -> ao_effects (x_out x) = [] /\ ao_body (x_out x) = BError) /\
  (400 <= ao_status (x_out x) -> ao_status (x_out x) <> 409 -> quiet (x_o x) (ao_effects (x_out x))) /\
  (ao_who (x_out x) <> Nobody -> ao_body (x_out x) = BError <-> 400 <= ao_status (x_out x)).
Proof.
  intros Hr Hx. destruct (at_step _ _ _ _ _ Hr Hx) as (id & t & s1 & s2 & _ & Hs). pose proof (arrive_who _ _ _ _ _ _ _ _ _ Hs) as Hw.
  assert (G : forall who w, x_out x = out_of w (handler retries (x_o x) (x_rq x) who) -> ao_status (x_out x) <> 401 /\
     (400 <= ao_status (x_out x) -> ao_status (x_out x) <> 409 -> quiet (x_o x) (ao_effects (x_out x))) /\ (ao_body (x_out x) = BError <-> 400 <= ao_status (x_out x))).
  { intros who w E. pose proof (handler_handled retries (x_o x) (x_rq x) who) as Hh. unfold handled in Hh. rewrite E, out_status, out_effects', out_body'.
    destruct (fst (handler _ _ _ _)) as [rs|st].
    - destruct Hh as [H1 H2]. split; [lia|]. split; [lia|]. split; [done|lia].
    - destruct Hh as [H1 H2]. split; [lia|]. split; [intros _; done|]. split; [lia|done]. }
  destruct (ao_who (x_out x)) as [| |u|u] eqn:Ew.
  - destruct Hw as [E1 E2]. rewrite E1. split_and!; [done|done|by left|done].
  - destruct Hw as [_ E]. destruct (G _ _ E) as (G1 & G2 & G3). split_and!; [done|done|done|done].
  - destruct Hw as (_ & _ & E). destruct (G _ _ E) as (G1 & G2 & G3). split_and!; [done|done|done|done].
  - destruct Hw as (_ & _ & E). destruct (G _ _ E) as (G1 & G2 & G3). split_and!; [done|done|done|done].
Qed.
(** * Who acts. *)
Definition other_header (hd : bytes) : Prop := exists ty rest, split1 " "%char hd = Some (ty, rest) /\ ty <> b_ "token" /\ hd <> [].
Lemma no_token o rq : (forall n, rq_ep rq <> EpHeartbeat n) -> (rq_auth rq = None \/ exists hd, rq_auth rq = Some hd /\ other_header hd) -> token_check o rq = inl false.
Proof.
  intros He Ha. unfold token_check. destruct (rq_ep rq) eqn:E; cbn [wants]; try done; [|by destruct (He name)].
  destruct Ha as [->|(hd & -> & ty & rest & Hs & Ht & Hn)]; [done|]. destruct hd; [done|]. rewrite Hs. by rewrite decide_False.
Qed.
Lemma cookie_user max_age retries h s x n u : reach max_age retries h s -> distinct_draws h -> happens h x -> own_cookie n x ->
  ao_who (x_out x) = ByCookie u -> u_name u = n.
Proof.
  intros Hr Hd (id & t & rest & E) Ho Hw. rewrite E in Hr, Hd. destruct (cookie_issued _ _ _ _ _ _ _ _ _ _ _ Hr Hd Hw) as (k & eo & t1 & el & Hk & Hin & Hh & _).
  destruct (Ho k Hk) as (eo' & u' & t' & Hin' & Hh' & <-). eapply (cookie_not_shared _ _ _ _ eo eo' k u u' t1 t' Hr Hd); [..|exact Hh|exact Hh']; apply elem_of_app; by left.
Qed.
Lemma before_reach max_age retries h s x : reach max_age retries h s -> distinct_draws h -> happens h x -> exists id t s1 s2,
  reach max_age retries (x_before x) s1 /\ distinct_draws (x_before x) /\ api_step max_age retries s1 (Arrive id (x_rq x) (x_o x) t) = (s2, x_out x).
Proof.
  intros Hr Hd Hx. destruct (at_step _ _ _ _ _ Hr Hx) as (id & t & s1 & s2 & H1 & H2). exists id, t, s1, s2. split; [done|]. split; [|done].
  destruct Hx as (id' & t' & rest & E). unfold distinct_draws in *. rewrite E, map_app, concat_app in Hd. by apply NoDup_app in Hd as (Hd & _).
Qed.
Lemma verdict_none a : verdict a None = inr 401.
Proof. by destruct a. Qed.
Lemma at_verdict a h x : honest a h -> happens h x -> o_auth (x_o x) = verdict a (rq_auth (x_rq x)).
Proof. intros Ha (id & t & rest & E). eapply Ha. rewrite E. apply elem_of_app. right. left. Qed.
Lemma first_acts max_age retries h s a c x n jar : reach max_age retries h s -> distinct_draws h -> honest a h -> happens h x -> user_call c ->
  x_rq x = first_request c jar -> own_cookie n x -> ao_status (x_out x) <> 401 -> acts_as x n.
Proof.
  intros Hr Hd Ha Hx Hu Hq Ho Hs. destruct (before_reach _ _ _ _ _ Hr Hd Hx) as (id & t & s1 & s2 & H1 & H2 & H3).
  assert (Ht : token_check (x_o x) (x_rq x) = inl false) by (apply no_token; rewrite Hq; [apply Hu|by left]).
  pose proof (at_verdict _ _ _ Ha Hx) as Hv. rewrite Hq in Hv. cbn [first_request rq_auth] in Hv. rewrite verdict_none in Hv.
  pose proof (reach_inv _ _ _ _ H2 H1) as Hi. cbn [api_step] in H3. rewrite Ht in H3.
  destruct (dcookie_spec max_age _ _ (x_rq x) t Hi) as (r & c' & Hc & _). rewrite Hc, Hv in H3. destruct r as [u|].
  - exists u. assert (E : ao_who (x_out x) = ByCookie u) by (injection H3 as _ <-; by rewrite who_out_of). rewrite E. split; [done|]. by apply (cookie_user max_age retries h s x n u).
  - injection H3 as _ E. rewrite <- E in Hs. done.
Qed.
Lemma second_acts max_age retries h s a c x u jar : reach max_age retries h s -> distinct_draws h -> honest a h -> happens h x -> user_call c ->
  x_rq x = second_request c jar -> own_cookie (u_name u) x -> other_header (header_of (cl_auth c)) -> verdict a (Some (header_of (cl_auth c))) = inl u ->
  acts_as x (u_name u).
Proof.
  intros Hr Hd Ha Hx Hu Hq Ho Hh Hv. destruct (before_reach _ _ _ _ _ Hr Hd Hx) as (id & t & s1 & s2 & H1 & H2 & H3).
  assert (Ht : token_check (x_o x) (x_rq x) = inl false) by (apply no_token; rewrite Hq; [apply Hu|right; by eexists]).
  pose proof (at_verdict _ _ _ Ha Hx) as Hw. rewrite Hq in Hw. cbn [second_request rq_auth] in Hw. rewrite Hv in Hw.
  destruct (cache_never_raises _ _ _ _ _ _ _ _ _ _ _ H1 H2 H3 Ht Hw) as [E|[u' E]].
  - exists u. by rewrite E.
  - exists u'. rewrite E. split; [done|]. by apply (cookie_user max_age retries h s x (u_name u) u').
Qed.

(** * Headers. *)
Lemma split1_app sep a b : sep ∉ a -> split1 sep (a ++ sep :: b) = Some (a, b).
Proof.
  induction a as [|x a IH]; intros H; cbn [app split1]; [by rewrite decide_True|]. apply not_elem_of_cons in H as [H1 H2].
  rewrite decide_False by congruence. rewrite IH by done. done.
Qed.
Lemma header_split a : exists ty rest, header_of a = ty ++ " "%char :: rest /\ " "%char ∉ ty /\ ty <> b_ "token" /\ ty <> [] /\
  match a with BasicAuth u p => ty = b_ "Basic" /\ rest = b64encode (u ++ ":"%char :: p) | HubToken t => ty = b_ "jupyterhub" /\ rest = t | Kerberos t _ => ty = b_ "Negotiate" /\ rest = t end.
Proof.
  destruct a as [u p|t|t acc]; cbn [header_of].
  - exists (b_ "Basic"), (b64encode (u ++ ":"%char :: p)). split; [done|]. split; [apply (bool_decide_unpack _); vm_compute; done|]. split_and!; [vm_compute; congruence..|done|done].
  - exists (b_ "jupyterhub"), t. split; [done|]. split; [apply (bool_decide_unpack _); vm_compute; done|]. split_and!; [vm_compute; congruence..|done|done].
  - exists (b_ "Negotiate"), t. split; [done|]. split; [apply (bool_decide_unpack _); vm_compute; done|]. split_and!; [vm_compute; congruence..|done|done].
Qed.
Lemma header_other a : other_header (header_of a).
Proof.
  destruct (header_split a) as (ty & rest & E & H1 & H2 & H3 & _). exists ty, rest. rewrite E. split; [by apply split1_app|]. split; [done|]. by destruct ty.
Qed.
(** * base64. *)
Lemma of_to s : of_z (to_z s) = s.
Proof. unfold of_z, to_z. rewrite map_map. rewrite <- (map_id s) at 2. apply map_ext. intros c. rewrite Nat2Z.id. apply ascii_nat_embedding. Qed.
Lemma to_of l : Forall (fun n => 0 <= n < 256) l -> to_z (of_z l) = l.
Proof.
  induction 1 as [|n l Hn _ IH]; [done|]. unfold to_z, of_z in *. cbn [map]. rewrite IH. rewrite nat_ascii_embedding by lia. by rewrite Z2Nat.id by lia.
Qed.
Lemma to_binary s : Cred_Spec.binary (to_z s).
Proof.
  unfold Cred_Spec.binary, to_z. apply Forall_forall. intros n Hn. apply elem_of_list_fmap in Hn as (c & -> & _). unfold Cred_Spec.is_byte.
  pose proof (nat_ascii_bounded c). lia.
Qed.
Lemma digit_std v : 0 <= v < 64 -> let d := Cred_Model.digit false v in d <> 45 /\ d <> 95 /\ 0 <= d < 256.
Proof.
  intros Hv. cbn zeta. unfold Cred_Model.digit. destruct (v <? 26) eqn:E1; [apply Z.ltb_lt in E1; lia|]. destruct (v <? 52) eqn:E2; [apply Z.ltb_ge in E1; apply Z.ltb_lt in E2; lia|].
  destruct (v <? 62) eqn:E3; [apply Z.ltb_ge in E2; apply Z.ltb_lt in E3; lia|]. destruct (v =? 62); lia.
Qed.
Lemma b64_std b : Cred_Spec.binary b -> Forall (fun n => n <> 45 /\ n <> 95 /\ 0 <= n < 256) (Cred_Model.b64 false b).
Proof.
  unfold Cred_Spec.binary, Cred_Spec.is_byte. induction b as [|a|a b|a b c l IH] using Cred_Proofs.three_ind; intros H.
  - constructor.
  - apply Forall_cons in H as [H _]. cbn [Cred_Model.b64]. repeat (apply Forall_cons; split); [| |lia|lia|constructor]; apply digit_std; Z.div_mod_to_equations; lia.
  - apply Forall_cons in H as [H1 H]. apply Forall_cons in H as [H2 _]. cbn [Cred_Model.b64]. repeat (apply Forall_cons; split); [| | |lia|constructor]; apply digit_std; Z.div_mod_to_equations; lia.
  - apply Forall_cons in H as [H1 H]. apply Forall_cons in H as [H2 H]. apply Forall_cons in H as [H3 H]. cbn [Cred_Model.b64].
    repeat (apply Forall_cons; split); [| | | |by apply IH]; apply digit_std; Z.div_mod_to_equations; lia.
Qed.
Lemma filter_all {A} (f : A -> bool) l : Forall (fun x => f x = true) l -> List.filter f l = l.
Proof. induction 1 as [|x l H _ IH]; [done|]. cbn [List.filter]. by rewrite H, IH. Qed.
Lemma b64_roundtrip s : b64decode_ascii (b64encode s) = if forallb is_ascii s then Some s else None.
Proof.
  unfold b64decode_ascii, b64encode. pose proof (b64_std _ (to_binary s)) as H.
  rewrite to_of by (eapply Forall_impl; [exact H|]; naive_solver).
  rewrite filter_all. 2: { eapply Forall_impl; [exact H|]. intros n (H1 & H2 & _). apply Z.eqb_neq in H1, H2. by rewrite H1, H2. }
  rewrite Cred_Proofs.b64dec_b64 by apply to_binary. by rewrite of_to.
Qed.
Lemma ascii_all s : ascii_text s -> forallb is_ascii s = true.
Proof. intros H. apply forallb_forall. intros c Hc. apply elem_of_list_In in Hc. unfold ascii_text in H. rewrite Forall_forall in H. by apply Nat.ltb_lt, H. Qed.
Lemma basic_verdict u p pw : ascii_text u -> ascii_text p -> ":"%char ∉ u -> (pw = None \/ pw = Some [] \/ pw = Some p) ->
  verdict (SimpleAuth pw) (Some (header_of (BasicAuth u p))) = inl (User u [] false).
Proof.
  intros Hu Hp Hc Hpw. cbn [verdict]. unfold simple_authenticate. destruct (header_split (BasicAuth u p)) as (ty & rest & E & H1 & H2 & H3 & -> & ->).
  rewrite E. rewrite split1_app by done. rewrite decide_True by done. rewrite b64_roundtrip. clear E.
  rewrite ascii_all by (apply Forall_app; split; [done|]; constructor; [vm_compute; lia|done]). rewrite split1_app by done.
  assert (N : forall l, b_ "Basic" ++ l <> []) by (intros l; destruct (b_ "Basic") eqn:Eb; [vm_compute in Eb; congruence|done]).
  specialize (N (" "%char :: b64encode (u ++ ":"%char :: p))). destruct (b_ "Basic" ++ " "%char :: _); [done|].
  destruct Hpw as [->|[->| ->]]; [done|done|]. destruct p; [done|]. by rewrite decide_True.
Qed.
Lemma hub_verdict s hub t : verdict (HubAuth s hub) (Some (header_of (HubToken t))) =
  hub_authenticate s hub (Some (b_ "jupyterhub" ++ " "%char :: t)).
Proof. done. Qed.
Lemma hub_token_ok t : hub_token (Some (header_of (HubToken t))) = inl (Some t).
Proof.
  unfold hub_token. destruct (header_split (HubToken t)) as (ty & rest & E & H1 & _ & _ & -> & ->). rewrite E, split1_app by done.
  rewrite decide_True by done. done.
Qed.
Lemma kerb_verdict gss t acc full k : gss t = Some (full, k) -> kerberos_authenticate gss (Some (header_of (Kerberos t acc))) =
  inl (User (match split1 "@"%char full with Some (u, _) => u | None => full end) [] false, k).
Proof.
  intros H. unfold kerberos_authenticate. destruct (header_split (Kerberos t acc)) as (ty & rest & E & H1 & _ & _ & -> & ->). rewrite E, split1_app by done.
  rewrite decide_True by done. by rewrite H.
Qed.
