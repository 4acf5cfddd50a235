(** Proofs about access, tokens, scaling and forwarding (C35-C39, C61, C65). *)
From Coq Require Import Ascii String ZArith Lia.
From stdpp Require Import prelude.
From Verif Require Import Trace Router_Model ProxyLog_Model ProxyLog_Proofs Json_Model Json_Proofs Api_Model Api_Spec Api_Proofs.
Local Open Scope Z_scope.

(** * Forwarding *)
Lemma forward_loop_shape posts retries c m : forall fuel a t evs ok,
  1 <= a -> retries - a <= Z.of_nat fuel -> forward_loop posts retries c m fuel a t = (evs, ok) ->
  exists n : nat, a + Z.of_nat n <= Z.max a retries /\
    (forall i : nat, (i < n)%nat -> posts (Z.to_nat a + i)%nat = false) /\
    posts (Z.to_nat a + n)%nat = ok /\ (ok = false -> a + Z.of_nat n = Z.max a retries) /\
    evs = failed_tries c m (delays n t) ++ FPost c m :: (if ok then [] else [FStop (k_name c) true]).
Proof.
  induction fuel as [|fuel IH]; intros a t evs ok Ha Hf Hl; cbn [forward_loop] in Hl; destruct (posts (Z.to_nat a)) eqn:Hp.
  - injection Hl as <- <-. exists 0%nat. rewrite Nat.add_0_r. split_and!; [lia|intros i Hi; lia|done|done|done].
  - injection Hl as <- <-. exists 0%nat. rewrite Nat.add_0_r. split_and!; [lia|intros i Hi; lia|done|lia|done].
  - injection Hl as <- <-. exists 0%nat. rewrite Nat.add_0_r. split_and!; [lia|intros i Hi; lia|done|done|done].
  - destruct (a <? retries) eqn:Hr.
    + apply Z.ltb_lt in Hr. destruct (forward_loop posts retries c m fuel (a + 1) (Z.min (t * 2) 50)) as [evs' ok'] eqn:Hl'.
      injection Hl as <- <-. apply IH in Hl' as (n & H1 & H2 & H3 & H4 & H5); [|lia|lia].
      replace (Z.to_nat (a + 1)) with (S (Z.to_nat a)) in * by lia.
      exists (S n). split_and!; [lia| | | |].
      * intros [|i] Hi; [by rewrite Nat.add_0_r|]. rewrite Nat.add_succ_r. apply H2. lia.
      * rewrite Nat.add_succ_r. exact H3.
      * intros E. specialize (H4 E). lia.
      * by rewrite H5.
    + apply Z.ltb_ge in Hr. injection Hl as <- <-. exists 0%nat. rewrite Nat.add_0_r. split_and!; [lia|intros i Hi; lia|done|lia|done].
Qed.
Lemma forward_shape posts retries c m evs ok : forward posts retries c m = (evs, ok) -> k_status c = KRUNNING ->
  exists n : nat, 1 + Z.of_nat n <= Z.max 1 retries /\
    (forall i : nat, (1 <= i <= n)%nat -> posts i = false) /\ posts (S n) = ok /\
    (ok = false -> 1 + Z.of_nat n = Z.max 1 retries) /\
    evs = failed_tries c m (delays n 1) ++ FPost c m :: (if ok then [] else [FStop (k_name c) true]).
Proof.
  unfold forward. intros Hf Hs. rewrite decide_True in Hf by done.
  apply forward_loop_shape in Hf as (n & H1 & H2 & H3 & H4 & H5); [|lia|lia].
  exists n. change (Z.to_nat 1) with 1%nat in *. split_and!; [done| |done|done|done].
  intros [|i] Hi; [lia|]. apply (H2 i). lia.
Qed.
Lemma forward_not_running posts retries c m : k_status c <> KRUNNING -> forward posts retries c m = ([], false).
Proof. unfold forward. intros H. by rewrite decide_False. Qed.
Lemma in_failed_tries c m ds e : e ∈ failed_tries c m ds -> e = FPost c m \/ exists t, e = FSleep t /\ t ∈ ds.
Proof.
  unfold failed_tries. induction ds as [|t ds IH]; cbn; [by intros ?%elem_of_nil|].
  rewrite !elem_of_cons. intros [->|[->|Hin]]; [auto|right; exists t; split; [done|left]|].
  destruct (IH Hin) as [?|(t' & ? & ?)]; [auto|right; exists t'; split; [done|by right]].
Qed.
Lemma forward_events posts retries c m evs ok e : forward posts retries c m = (evs, ok) -> e ∈ evs ->
  k_status c = KRUNNING /\ (e = FPost c m \/ (exists t, e = FSleep t) \/ (e = FStop (k_name c) true /\ ok = false)).
Proof.
  intros Hf He. destruct (decide (k_status c = KRUNNING)) as [Hr|Hr].
  2: { rewrite forward_not_running in Hf by done. injection Hf as <- <-. by apply elem_of_nil in He. }
  split; [done|]. destruct (forward_shape _ _ _ _ _ _ Hf Hr) as (n & _ & _ & _ & _ & ->).
  apply elem_of_app in He as [He|He].
  - apply in_failed_tries in He as [->|(t & -> & _)]; eauto.
  - apply elem_of_cons in He as [->|He]; [auto|]. destruct ok; [by apply elem_of_nil in He|]. apply elem_of_list_singleton in He as ->. auto.
Qed.
Lemma forward_sends posts retries c m evs ok : forward posts retries c m = (evs, ok) -> k_status c = KRUNNING -> FPost c m ∈ evs.
Proof.
  intros Hf Hr. destruct (forward_shape _ _ _ _ _ _ Hf Hr) as (n & _ & _ & _ & _ & ->). apply elem_of_app. right. left.
Qed.

(** * send *)
Lemma send_spec retries o c m cl out fx : send retries o c m cl = (out, fx) ->
  (forall n, stops fx n -> n = k_name c) /\ (forall c' m', sends fx c' m' -> c' = c /\ m' = m /\ k_status c = KRUNNING) /\
  (forall n, ~ beats fx n) /\ (forall u opts, FxStart u opts ∉ fx) /\
  (out = Answer (Resp 200 (BOk (negb cl))) \/ out = Raised 409) /\
  (k_status c = KRUNNING -> sends fx c m) /\ (forall rs, out = Answer rs -> k_status c = KRUNNING).
Proof.
  unfold send. destruct (forward (o_posts o) retries c m) as [evs ok] eqn:Hf. intros [= <- <-].
  assert (HF : forall e, FxForward e ∈ map FxForward evs -> e ∈ evs).
  { intros e (e' & [= ->] & ?)%elem_of_list_fmap. done. }
  split_and!.
  - intros n [(f & Hin)|(f & Hin)].
    + apply elem_of_list_fmap in Hin as (? & ? & _). done.
    + apply HF, (forward_events _ _ _ _ _ _ _ Hf) in Hin as (_ & [?|[(? & ?)|(E & _)]]); [done..|]. by injection E as ->.
  - intros c' m' Hin%HF. apply (forward_events _ _ _ _ _ _ _ Hf) in Hin as (? & [E|[(? & ?)|(? & _)]]); [|done..]. injection E as -> ->. done.
  - intros n (msg & Hin). apply elem_of_list_fmap in Hin as (? & ? & _). done.
  - intros u opts Hin. apply elem_of_list_fmap in Hin as (? & ? & _). done.
  - destruct ok; auto.
  - intros Hr. unfold sends. apply elem_of_list_fmap. eexists. split; [reflexivity|]. eapply forward_sends; eauto.
  - intros rs Hrs. destruct (decide (k_status c = KRUNNING)) as [|Hn]; [done|].
    rewrite forward_not_running in Hf by done. injection Hf as <- <-. done.
Qed.

(** * Access *)
Definition out_effects {w r} : ao_effects (out_of w r) = snd r := match fst r as x return ao_effects (match x with Answer rs => AOut w (rs_status rs) (rs_body rs) (snd r) None | Raised st => AOut w st BError (snd r) None end) = snd r with Answer _ => eq_refl | Raised _ => eq_refl end.
Lemma out_body w r : ao_body (out_of w r) = match fst r with Answer rs => rs_body rs | Raised _ => BError end.
Proof. unfold out_of. by destruct (fst r). Qed.
Lemma out_status w r : ao_status (out_of w r) = match fst r with Answer rs => rs_status rs | Raised st => st end.
Proof. unfold out_of. by destruct (fst r). Qed.

(** What the handlers do for a user. *)
Record fine (o : oracle) (u : user) (r : outcome * list effect) : Prop := {
  f_stop : forall n, stops (snd r) n -> exists c, (o_db2 o n = Some c \/ exists n', o_db2 o n' = Some c /\ n = k_name c) /\ k_user c = u_name u;
  f_send : forall c m, sends (snd r) c m -> (exists n, o_db2 o n = Some c) /\ k_user c = u_name u;
  f_beat : forall n, ~ beats (snd r) n;
  f_start : forall u' opts, FxStart u' opts ∈ snd r -> u' = u;
  f_tell : forall rs rp, fst r = Answer rs -> reports (rs_body rs) rp ->
    exists c, ((exists n, o_db2 o n = Some c) \/ exists sts, c ∈ o_list o (u_name u) sts) /\ (lists_own o -> k_user c = u_name u) /\ rp = to_dict true c }.
Lemma fine_quiet o u out : (forall rs, out = Answer rs -> forall rp, ~ reports (rs_body rs) rp) -> fine o u (out, []).
Proof.
  intros H. split; cbn; try done.
  - intros n [(f & Hin)|(f & Hin)]; by apply elem_of_nil in Hin.
  - intros c m Hin. by apply elem_of_nil in Hin.
  - intros n (msg & Hin). by apply elem_of_nil in Hin.
  - intros u' opts Hin. by apply elem_of_nil in Hin.
  - intros rs rp Hrs Hr. by destruct (H rs Hrs rp).
Qed.
Ltac no_report := let rp := fresh in intros rp [?|(? & ? & _)]; done.
Ltac quiet := apply fine_quiet; (let E := fresh in intros ? E; first [discriminate E|injection E as <-; no_report]).
Lemma fine_send o u retries c m cl : (exists n, o_db2 o n = Some c) -> k_user c = u_name u -> fine o u (send retries o c m cl).
Proof.
  intros [n Hn] Hu. destruct (send retries o c m cl) as [out fx] eqn:Hs.
  destruct (send_spec _ _ _ _ _ _ _ Hs) as (H1 & H2 & H3 & H4 & H5 & _). split; cbn.
  - intros n' ->%H1. eauto 10.
  - intros c' m' (-> & _ & _)%H2. eauto.
  - done.
  - intros u' opts Hin. by apply H4 in Hin.
  - intros rs rp -> Hr. destruct H5 as [[= ->]|?]; [|done]. destruct Hr as [?|(? & ? & _)]; done.
Qed.
Lemma perm_true u c : has_permissions u c = true <-> k_user c = u_name u.
Proof. unfold has_permissions. rewrite bool_decide_eq_true. naive_solver. Qed.

Lemma handler_fine retries o rq u : (forall n, rq_ep rq <> EpHeartbeat n) -> fine o u (handler retries o rq (Some u)).
Proof.
  intros Hnb. unfold handler. destruct (rq_ep rq) as [|q| |n|n|n|n|n] eqn:He.
  - quiet.
  - destruct (parse_statuses q) as [sts|]; [|quiet]. split; cbn.
    + intros n [(f & Hin)|(f & Hin)]; by apply elem_of_nil in Hin.
    + intros c m Hin. by apply elem_of_nil in Hin.
    + intros n (msg & Hin). by apply elem_of_nil in Hin.
    + intros u' opts Hin. by apply elem_of_nil in Hin.
    + intros rs rp [= <-] [?|(l & Hl & Hin)]; [done|]. cbn in Hl. injection Hl as <-.
      apply elem_of_list_fmap in Hin as (c & -> & Hc). exists c. split; [eauto|]. split; [|done]. intros Ho. exact (Ho _ _ _ Hc).
  - destruct (body_obj (rq_body rq)) as [b|]; [|quiet].
    assert (HF : forall opts out, (forall rs, out = Answer rs -> forall rp, ~ reports (rs_body rs) rp) -> fine o u (out, [FxStart u opts])).
    { intros opts out H. split; cbn.
      - intros n [(f & Hin)|(f & Hin)]; by apply elem_of_list_singleton in Hin.
      - intros c m Hin. by apply elem_of_list_singleton in Hin.
      - intros n (msg & Hin). by apply elem_of_list_singleton in Hin.
      - intros u' opts' Hin. apply elem_of_list_singleton in Hin. by injection Hin.
      - intros rs rp Hrs Hr. by destruct (H rs Hrs rp). }
    destruct (o_start o u _); apply HF; intros rs Hrs; [injection Hrs as <-; no_report|done].
  - destruct (o_db2 o n) as [c|] eqn:Hc; [|quiet]. destruct (has_permissions u c) eqn:Hp; [|quiet]. apply perm_true in Hp.
    split; cbn.
    + intros n' [(f & Hin)|(f & Hin)]; by apply elem_of_nil in Hin.
    + intros c' m Hin. by apply elem_of_nil in Hin.
    + intros n' (msg & Hin). by apply elem_of_nil in Hin.
    + intros u' opts Hin. by apply elem_of_nil in Hin.
    + intros rs rp [= <-] [Hl|(l & Hl & Hin)]; [|done]. cbn in Hl. injection Hl as <-. exists c. split; [eauto|]. done.
  - destruct (o_db2 o n) as [c|] eqn:Hc; [|quiet]. destruct (has_permissions u c) eqn:Hp; cbn [negb]; [|quiet]. apply perm_true in Hp.
    split; cbn.
    + intros n' [(f & Hin)|(f & Hin)]; apply elem_of_list_singleton in Hin; [|done]. injection Hin as -> _. eauto.
    + intros c' m Hin. by apply elem_of_list_singleton in Hin.
    + intros n' (msg & Hin). by apply elem_of_list_singleton in Hin.
    + intros u' opts Hin. by apply elem_of_list_singleton in Hin.
    + intros rs rp [= <-] [?|(? & ? & _)]; done.
  - destruct (o_db2 o n) as [c|] eqn:Hc; [|quiet]. destruct (has_permissions u c) eqn:Hp; [|quiet]. apply perm_true in Hp.
    destruct (body_obj (rq_body rq)) as [b|]; [|quiet]. destruct (int_of _) as [z|]; [|quiet].
    destruct (z <? 0); [quiet|]. destruct (k_max c) as [mx|]; [destruct (mx <? z)|]; apply fine_send; eauto.
  - destruct (o_db2 o n) as [c|] eqn:Hc; [|quiet]. destruct (has_permissions u c) eqn:Hp; [|quiet]. apply perm_true in Hp.
    destruct (body_obj (rq_body rq)) as [b|]; [|quiet]. destruct (k_max c) as [mx|]; [|apply fine_send; eauto].
    destruct (clamp_adapt _ _ _) as [[[? ?] ?]|]; [|quiet]. apply fine_send; eauto.
  - by destruct (Hnb n).
Qed.

Lemma split1_spec sep s a b : split1 sep s = Some (a, b) -> s = a ++ sep :: b /\ sep ∉ a.
Proof.
  revert a b. induction s as [|c s IH]; intros a b; cbn [split1]; [done|]. destruct (decide (c = sep)) as [->|Hc].
  - intros [= <- <-]. split; [done|]. by intros ?%elem_of_nil.
  - destruct (split1 sep s) as [[a' b']|]; [|done]. cbn. intros [= <- <-]. destruct (IH _ _ eq_refl) as [-> Hn].
    split; [done|]. rewrite elem_of_cons. intros [?|?]; [congruence|done].
Qed.
Lemma split1_complete sep a b : sep ∉ a -> split1 sep (a ++ sep :: b) = Some (a, b).
Proof.
  induction a as [|c a IH]; cbn [app split1]; intros Hn.
  - by rewrite decide_True.
  - rewrite decide_False by (intros ->; apply Hn; left). rewrite IH; [done|]. intros Hi. apply Hn. by right.
Qed.

Lemma token_true o rq : token_check o rq = inl true <-> exists n c tok, (rq_ep rq = EpDelete n \/ rq_ep rq = EpHeartbeat n) /\
  carries_token rq tok /\ o_db1 o n = Some c /\ k_token c = tok.
Proof.
  unfold token_check, carries_token. split.
  - destruct (wants (rq_ep rq)) as [wu wt] eqn:Hw. destruct wt; [|done].
    assert (Hno : forall x : bool + Z, x = inl true -> x = (if wu then inl false else inr 401) -> False) by (intros ? -> ?; by destruct wu).
    destruct (rq_auth rq) as [[|a h]|] eqn:Ha; [intros ?; by destruct (Hno _ H)| |intros ?; by destruct (Hno _ H)].
    destruct (split1 " "%char (a :: h)) as [[ty tok]|] eqn:Hsp; [|done]. apply split1_spec in Hsp as [-> _].
    destruct (decide (ty = b_ "token")) as [->|]; [|intros ?; by destruct (Hno _ H)].
    destruct (o_db1 o (ep_name (rq_ep rq))) as [c|] eqn:Hc; [|intros ?; by destruct (Hno _ H)].
    destruct (decide (k_token c = tok)) as [Ht|]; [|intros ?; by destruct (Hno _ H)]. intros _.
    destruct (rq_ep rq) as [| | | |n| | |n]; try done; exists n, c, tok; eauto 10.
  - intros (n & c & tok & He & Ha & Hc & Ht). rewrite Ha.
    assert (Hs : split1 " "%char (b_ "token" ++ " "%char :: tok) = Some (b_ "token", tok)).
    { apply split1_complete. vm_compute. intros Hin. repeat (apply elem_of_cons in Hin as [Hin|Hin]; [done|]). by apply elem_of_nil in Hin. }
    destruct He as [He|He]; rewrite He; cbn [wants ep_name]; (destruct (b_ "token" ++ " "%char :: tok) eqn:E; [done|]; rewrite <- E in *; rewrite Hs, decide_True by done; rewrite Hc, decide_True by done; done).
Qed.
Lemma token_false_not_heartbeat o rq n : token_check o rq = inl false -> rq_ep rq <> EpHeartbeat n.
Proof.
  unfold token_check. intros Ht He. rewrite He in Ht. cbn [wants] in Ht.
  destruct (rq_auth rq) as [[|a h]|]; [done| |done]. destruct (split1 _ _) as [[ty tok]|]; [|done].
  destruct (decide _); [|done]. destruct (o_db1 o _); [|done]. by destruct (decide _).
Qed.

Lemma user_only_token o rq : user_only rq -> token_check o rq = inl false.
Proof.
  intros [H1 H2]. unfold token_check. destruct (rq_ep rq) as [| | | |n| | |n] eqn:E; try done.
  - destruct H2 as [->|H2]; [done|by destruct (H2 n)].
  - by destruct (H1 n).
Qed.
Section steps.
Context (max_age retries : Z).
Notation step := (api_step max_age retries).

Lemma arrive_user s id rq o now s' out u : step s (Arrive id rq o now) = (s', out) -> user_of (ao_who out) = Some u ->
  token_check o rq = inl false /\ exists w, out = out_of w (handler retries o rq (Some u)).
Proof.
  intros Hs Hu. pose proof (arrive_who max_age retries _ _ _ _ _ _ _ Hs) as Ha. destruct (ao_who out) as [| |u'|u'] eqn:Hw; try done; injection Hu as ->.
  - destruct Ha as (? & _ & ?). eauto.
  - destruct Ha as (? & _ & ?). eauto.
Qed.

Lemma user_acts s id rq o now s' out u : step s (Arrive id rq o now) = (s', out) -> user_of (ao_who out) = Some u ->
  names_ok o -> lists_own o ->
  (forall n, stops (ao_effects out) n -> owns o u n) /\
  (forall c m, sends (ao_effects out) c m -> owns o u (k_name c) /\ o_db2 o (k_name c) = Some c) /\
  (forall n, ~ beats (ao_effects out) n) /\
  (forall u' opts, FxStart u' opts ∈ ao_effects out -> u' = u) /\
  (forall rp, reports (ao_body out) rp -> exists c, k_user c = u_name u /\ rp = to_dict true c).
Proof.
  intros Hs Hu Hn Ho. destruct (arrive_user _ _ _ _ _ _ _ _ Hs Hu) as (Ht & w & ->).
  destruct (handler_fine retries o rq u (fun n => token_false_not_heartbeat o rq n Ht)) as [H1 H2 H3 H4 H5].
  rewrite out_effects, out_body. split_and!.
  - intros n Hst. destruct (H1 n Hst) as (c & [Hc|(n' & Hc & ->)] & Hcu); exists c; split; try done. by rewrite (Hn _ _ Hc).
  - intros c m Hse. destruct (H2 c m Hse) as ([n Hc] & Hcu). rewrite (Hn _ _ Hc). split; [|done]. exists c. done.
  - done.
  - done.
  - intros rp Hrp. destruct (fst (handler retries o rq (Some u))) as [rs|st] eqn:E.
    + destruct (H5 rs rp eq_refl Hrp) as (c & _ & ? & ?). eauto.
    + destruct Hrp as [?|(? & ? & _)]; done.
Qed.

Lemma forbidden s id rq o now s' out u n c : step s (Arrive id rq o now) = (s', out) -> user_of (ao_who out) = Some u ->
  about (rq_ep rq) n -> o_db2 o n = Some c -> k_user c <> u_name u ->
  ao_status out = 403 /\ ao_body out = BError /\ ao_effects out = [].
Proof.
  intros Hs Hu Hab Hc Hcu. destruct (arrive_user _ _ _ _ _ _ _ _ Hs Hu) as (Ht & w & ->).
  assert (Hp : has_permissions u c = false). { destruct (has_permissions u c) eqn:E; [|done]. by apply perm_true in E. }
  rewrite out_effects, out_body, out_status. unfold handler.
  destruct Hab as [He|[He|[He|He]]]; rewrite He, Hc, Hp; done.
Qed.
Lemma missing s id rq o now s' out u n : step s (Arrive id rq o now) = (s', out) -> user_of (ao_who out) = Some u ->
  about (rq_ep rq) n -> o_db2 o n = None -> ao_effects out = [] /\ (ao_status out = 404 \/ rq_ep rq = EpDelete n /\ ao_status out = 204).
Proof.
  intros Hs Hu Hab Hc. destruct (arrive_user _ _ _ _ _ _ _ _ Hs Hu) as (Ht & w & ->).
  rewrite out_effects, out_status. unfold handler.
  destruct Hab as [He|[He|[He|He]]]; rewrite He, Hc; auto.
Qed.
Lemma nobody s id rq o now s' out : step s (Arrive id rq o now) = (s', out) -> ao_who out = Nobody ->
  ao_effects out = [] /\ ao_body out = BError.
Proof. intros Hs Hw. pose proof (arrive_who max_age retries _ _ _ _ _ _ _ Hs) as Ha. by rewrite Hw in Ha. Qed.
Lemma login_vouched s id rq o now s' out u : step s (Arrive id rq o now) = (s', out) -> ao_who out = ByLogin u -> o_auth o = inl u.
Proof. intros Hs Hw. pose proof (arrive_who max_age retries _ _ _ _ _ _ _ Hs) as Ha. rewrite Hw in Ha. apply Ha. Qed.

(** The answer to a finished login repeats the response of its own request, so the
    second phase tells nothing new. *)
(** C33. *)
Lemma login_works h s id rq o now u s' out : reach max_age retries h s -> distinct_draws h ->
  step s (Arrive id rq o now) = (s', out) -> user_only rq -> o_auth o = inl u ->
  ao_who out = ByLogin u \/ exists u', ao_who out = ByCookie u'.
Proof. intros Hr Hd Hs Hu Ha. eapply cache_never_raises; eauto using user_only_token. Qed.
(** C36. *)
Lemma by_token s id rq o now s' out : step s (Arrive id rq o now) = (s', out) -> ao_who out = ByToken ->
  exists n c tok, (rq_ep rq = EpDelete n \/ rq_ep rq = EpHeartbeat n) /\ carries_token rq tok /\ o_db1 o n = Some c /\ k_token c = tok /\
    (forall n', stops (ao_effects out) n' -> n' = n /\ rq_ep rq = EpDelete n) /\
    (forall n', beats (ao_effects out) n' -> n' = n /\ rq_ep rq = EpHeartbeat n) /\
    (forall c' m, ~ sends (ao_effects out) c' m) /\ (forall u opts, FxStart u opts ∉ ao_effects out) /\ (forall rp, ~ reports (ao_body out) rp).
Proof.
  intros Hs Hw. pose proof (arrive_who max_age retries _ _ _ _ _ _ _ Hs) as Ha. rewrite Hw in Ha. destruct Ha as [Ht ->].
  apply token_true in Ht as (n & c & tok & He & Hct & Hc & Htok). exists n, c, tok. split_and!; [done..| | | | |].
  all: try rewrite out_effects; try rewrite out_body; unfold handler; destruct He as [He|He]; rewrite He.
  all: try (destruct (o_db2 o n) as [c2|]); try (destruct (rq_body rq) as [j|]); cbn [snd fst].
  all: try (destruct (o_hb o)); cbn [rs_body].
  all: intros; try no_report.
  all: repeat match goal with
    | H : stops _ _ |- _ => destruct H as [[? H]|[? H]]
    | H : beats _ _ |- _ => destruct H as [? H]
    | H : _ ∈ [] |- _ => by apply elem_of_nil in H
    | H : _ ∈ [_] |- _ => apply elem_of_list_singleton in H; try discriminate H; injection H as ?; subst; done
    | |- ~ sends _ _ _ => intros H
    | |- _ ∉ _ => intros H
    | H : sends _ _ _ |- _ => unfold sends in H
    end.
  all: try (intros [?|(? & ? & _)]; done).
Qed.
Lemma beats_by_token s id rq o now s' out n : step s (Arrive id rq o now) = (s', out) -> beats (ao_effects out) n ->
  ao_who out = ByToken /\ rq_ep rq = EpHeartbeat n.
Proof.
  intros Hs Hb. destruct (ao_who out) as [| |u|u] eqn:Hw.
  - destruct (nobody _ _ _ _ _ _ _ Hs Hw) as [Hf _]. rewrite Hf in Hb. destruct Hb as [? Hb]. by apply elem_of_nil in Hb.
  - split; [done|]. destruct (by_token _ _ _ _ _ _ _ Hs Hw) as (n' & c & tok & _ & _ & _ & _ & _ & H & _). by destruct (H n Hb) as [-> ?].
  - exfalso. destruct (arrive_user _ _ _ _ _ _ _ u Hs) as (Ht & w & ->); [by rewrite Hw|]. rewrite out_effects in Hb.
    by destruct (f_beat _ _ _ (handler_fine retries o rq u (fun n => token_false_not_heartbeat o rq n Ht)) n).
  - exfalso. destruct (arrive_user _ _ _ _ _ _ _ u Hs) as (Ht & w & ->); [by rewrite Hw|]. rewrite out_effects in Hb.
    by destruct (f_beat _ _ _ (handler_fine retries o rq u (fun n => token_false_not_heartbeat o rq n Ht)) n).
Qed.
Lemma heartbeat_iff s id rq o now s' out n : step s (Arrive id rq o now) = (s', out) -> rq_ep rq = EpHeartbeat n ->
  beats (ao_effects out) n <-> is_Some (rq_body rq) /\ exists c tok, carries_token rq tok /\ o_db1 o n = Some c /\ k_token c = tok.
Proof.
  intros Hs He. split.
  - intros Hb. destruct (beats_by_token _ _ _ _ _ _ _ _ Hs Hb) as [Hw _].
    destruct (by_token _ _ _ _ _ _ _ Hs Hw) as (n' & c & tok & [He'|He'] & ? & ? & ? & _); [congruence|].
    assert (n' = n) as -> by congruence. split; [|eauto].
    pose proof (arrive_who max_age retries _ _ _ _ _ _ _ Hs) as Ha. rewrite Hw in Ha. destruct Ha as [_ ->].
    rewrite out_effects in Hb. unfold handler in Hb. rewrite He in Hb. destruct (rq_body rq); [eauto|]. destruct Hb as [? Hb]. by apply elem_of_nil in Hb.
  - intros ([j Hj] & c & tok & Hct & Hc & Htok). assert (Ht : token_check o rq = inl true) by (apply token_true; eauto 10).
    cbn [api_step] in Hs. rewrite Ht in Hs. injection Hs as _ <-. rewrite out_effects. unfold handler. rewrite He, Hj.
    exists j. cbn. left.
Qed.
Lemma heartbeat_refused s id rq o now s' out n : step s (Arrive id rq o now) = (s', out) -> rq_ep rq = EpHeartbeat n ->
  ~ (exists c tok, carries_token rq tok /\ o_db1 o n = Some c /\ k_token c = tok) ->
  ao_who out = Nobody /\ ao_effects out = [] /\ (ao_status out = 401 \/ ao_status out = 500).
Proof.
  intros Hs He Hno. cbn [api_step] in Hs. destruct (token_check o rq) as [[|]|st] eqn:Ht.
  - exfalso. apply token_true in Ht as (n' & c & tok & [He'|He'] & ? & ? & ?); [congruence|]. apply Hno. exists c, tok. split; [done|]. split; [congruence|done].
  - by apply (token_false_not_heartbeat o rq n) in Ht.
  - injection Hs as _ <-. cbn. split_and!; [done..|]. unfold token_check in Ht. rewrite He in Ht. cbn [wants] in Ht.
    destruct (rq_auth rq) as [[|a h]|]; [injection Ht as <-; auto| |injection Ht as <-; auto].
    destruct (split1 _ _) as [[ty tok]|]; [|injection Ht as <-; auto].
    destruct (decide _); [|injection Ht as <-; auto]. destruct (o_db1 o _); [|injection Ht as <-; auto].
    destruct (decide _); [done|injection Ht as <-; auto].
Qed.
Lemma no_colon_space_token : " "%char ∉ b_ "token".
Proof. vm_compute. intros Hin. repeat (apply elem_of_cons in Hin as [Hin|Hin]; [done|]). by apply elem_of_nil in Hin. Qed.
Lemma token_is_no_login rq tok : carries_token rq tok ->
  (forall b64 password, simple_authenticate b64 password (rq_auth rq) = inr 401) /\
  (forall service hub, hub_authenticate service hub (rq_auth rq) = inr 401).
Proof.
  unfold carries_token. intros ->. pose proof (split1_complete " "%char (b_ "token") tok no_colon_space_token) as Hs.
  split; intros.
  - unfold simple_authenticate. destruct (b_ "token" ++ _ :: tok) eqn:E; [done|]. rewrite <- E in *. rewrite Hs. by rewrite decide_False by (vm_compute; done).
  - unfold hub_authenticate, hub_token. destruct (b_ "token" ++ _ :: tok) eqn:E; [done|]. rewrite <- E in *. rewrite Hs. by rewrite decide_False by (vm_compute; done).
Qed.

(** C37. *)
Lemma tls_only_running full c cert key : discloses (to_dict full c) cert key ->
  full = true /\ k_status c = KRUNNING /\ cert = k_cert c /\ key = k_key c.
Proof.
  unfold discloses, to_dict. cbn. destruct full; [|done]. destruct (decide _); [|done]. by intros [= <- <-].
Qed.
Lemma tls_to_owner s id rq o now s' out rp cert key : step s (Arrive id rq o now) = (s', out) -> names_ok o -> lists_own o ->
  reports (ao_body out) rp -> discloses rp cert key ->
  exists u c, user_of (ao_who out) = Some u /\ k_user c = u_name u /\ k_status c = KRUNNING /\ cert = k_cert c /\ key = k_key c /\ r_name rp = k_name c.
Proof.
  intros Hs Hn Ho Hrp Hd. destruct (user_of (ao_who out)) as [u|] eqn:Hu.
  - destruct (user_acts _ _ _ _ _ _ _ _ Hs Hu Hn Ho) as (_ & _ & _ & _ & H). destruct (H rp Hrp) as (c & Hcu & ->).
    destruct (tls_only_running _ _ _ _ Hd) as (_ & ? & ? & ?). exists u, c. done.
  - exfalso. destruct (ao_who out) eqn:Hw; try done.
    + destruct (nobody _ _ _ _ _ _ _ Hs Hw) as [_ Hb]. rewrite Hb in Hrp. destruct Hrp as [?|(? & ? & _)]; done.
    + destruct (by_token _ _ _ _ _ _ _ Hs Hw) as (n & c & tok & _ & _ & _ & _ & _ & _ & _ & _ & H). by destruct (H rp).
Qed.

(** C39. *)
Lemma scale_reached s id rq o now s' out u n c : step s (Arrive id rq o now) = (s', out) -> user_of (ao_who out) = Some u ->
  rq_ep rq = EpScale n -> o_db2 o n = Some c -> k_user c = u_name u ->
  (forall z, is_object rq -> member rq (b_ "count") ≫= int_of = Some z -> 0 <= z ->
     (forall c' m, sends (ao_effects out) c' m -> c' = c /\ m = MScale (clamped c z)) /\
     (k_status c = KRUNNING -> sends (ao_effects out) c (MScale (clamped c z))) /\
     (ao_status out = 409 /\ ao_body out = BError \/
      ao_status out = 200 /\ exists ok, ao_body out = BOk ok /\ (ok = true <-> clamped c z = z) /\ k_status c = KRUNNING)) /\
  (~ is_object rq \/ (forall z, member rq (b_ "count") ≫= int_of = Some z -> z < 0) ->
     ao_effects out = [] /\ ao_body out = BError /\ (ao_status out = 422 \/ ao_status out = 500)).
Proof.
  intros Hs Hu He Hc Hcu. destruct (arrive_user _ _ _ _ _ _ _ _ Hs Hu) as (Ht & w & ->). apply perm_true in Hcu.
  rewrite out_effects, out_body, out_status. unfold handler. rewrite He, Hc, Hcu. unfold member, is_object, body_obj. split.
  - intros z [b Hb] Hm Hz. rewrite Hb in Hm |- *. unfold jget.
    destruct (dget (b_ "count") b) as [j|]; [|done]. cbn [mbind option_bind default] in Hm |- *. cbv [Datatypes.id]. rewrite Hm.
    replace (z <? 0) with false by (symmetry; apply Z.ltb_ge; lia).
    assert (HS : forall cl z', z' = clamped c z -> cl = negb (bool_decide (clamped c z = z)) ->
      let r := send retries o c (MScale z') cl in
      (forall c' m, sends (snd r) c' m -> c' = c /\ m = MScale (clamped c z)) /\ (k_status c = KRUNNING -> sends (snd r) c (MScale (clamped c z))) /\
      (match fst r with Answer rs => rs_status rs | Raised st => st end = 409 /\ match fst r with Answer rs => rs_body rs | Raised _ => BError end = BError \/
       match fst r with Answer rs => rs_status rs | Raised st => st end = 200 /\
       exists ok, match fst r with Answer rs => rs_body rs | Raised _ => BError end = BOk ok /\ (ok = true <-> clamped c z = z) /\ k_status c = KRUNNING)).
    { intros cl z' -> -> r. destruct (send retries o c _ _) as [out fx] eqn:Hsd. subst r. cbn [fst snd].
      destruct (send_spec _ _ _ _ _ _ _ Hsd) as (_ & H2 & _ & _ & H5 & H6 & H7). split_and!.
      - intros c' m Hm'. destruct (H2 c' m Hm') as (? & ? & _). done.
      - exact H6.
      - destruct H5 as [->| ->]; [right|left; done]. split; [done|]. eexists. split; [reflexivity|]. rewrite negb_involutive. split; [apply bool_decide_eq_true|]. eapply H7; reflexivity. }
    destruct (k_max c) as [mx|] eqn:Hmx; [destruct (mx <? z) eqn:Hlt|]; apply HS; unfold clamped; rewrite Hmx;
      try apply Z.ltb_lt in Hlt; try apply Z.ltb_ge in Hlt; try lia; try rewrite bool_decide_false by lia; try rewrite bool_decide_true by lia; done.
  - intros H. destruct (rq_body rq) as [j|] eqn:Hb; [|cbn; eauto]. destruct j as [| | | | | |b]; try (cbn; by eauto).
    destruct H as [H|H]; [destruct H; eauto|]. unfold jget.
    destruct (dget (b_ "count") b) as [j|]; cbn [mbind option_bind default] in H |- *; [|cbn; eauto]. cbv [Datatypes.id].
    destruct (int_of j) as [z|]; [|cbn; eauto]. specialize (H z eq_refl). replace (z <? 0) with true by (symmetry; apply Z.ltb_lt; lia). cbn; eauto.
Qed.

Lemma clamp_within lim mn mx mn' mx' cl : clamp_adapt lim mn mx = Some (mn', mx', cl) ->
  within lim mn' /\ within lim mx' /\
  (cl = false -> mn' = (if_none mn (JInt 0)) /\ mx' = (if_none mx (JInt lim))) /\
  (cl = true <-> ~ (within lim (if_none mn (JInt 0)) /\ within lim (if_none mx (JInt lim)))).
Proof.
  unfold clamp_adapt, within. set (a := (if_none mn (JInt 0))). set (b := (if_none mx (JInt lim))).
  unfold jlt_lim, jmin_lim. destruct (num_of b) as [fb|] eqn:Hb; [|done]. cbn [mbind option_bind].
  destruct (num_of a) as [fa|] eqn:Ha; cbn [mbind option_bind].
  2: { by destruct (fltb (of_Z lim) fb). }
  assert (HW : forall x f, num_of x = Some f -> exists f', num_of (if fltb f (of_Z lim) then x else JInt lim) = Some f' /\ fltb (of_Z lim) f' = false).
  { intros x f Hx. destruct (fltb f (of_Z lim)) eqn:E; [exists f; split; [done|by apply fltb_asym]|].
    exists (of_Z lim). split; [done|apply fltb_irrefl]. }
  destruct (fltb (of_Z lim) fb) eqn:Eb; cbn [mbind option_bind].
  - intros [= <- <- <-]. split; [by apply HW|]. split; [by apply HW|]. split; [done|]. split; [|done]. intros _ [_ (f & E & ?)]. congruence.
  - destruct (fltb (of_Z lim) fa) eqn:Ea; cbn [mbind option_bind].
    + intros [= <- <- <-]. split; [by apply HW|]. split; [by apply HW|]. split; [done|]. split; [|done]. intros _ [(f & E & ?) _]. congruence.
    + intros [= <- <- <-]. split; [eauto|]. split; [eauto|]. split; [done|]. split; [done|]. intros H. exfalso. apply H. eauto 10.
Qed.
Lemma adapt_reached s id rq o now s' out u n c lim : step s (Arrive id rq o now) = (s', out) -> user_of (ao_who out) = Some u ->
  rq_ep rq = EpAdapt n -> o_db2 o n = Some c -> k_user c = u_name u -> k_max c = Some lim ->
  (forall c' m, sends (ao_effects out) c' m -> exists mn mx act, c' = c /\ m = MAdapt mn mx act /\ within lim mn /\ within lim mx) /\
  (forall ok, ao_body out = BOk ok -> exists mn mx, sends (ao_effects out) c (MAdapt mn mx (default (JBool true) (member rq (b_ "active")))) /\
     (let mn0 := (if_none (default JNull (member rq (b_ "minimum"))) (JInt 0)) in
      let mx0 := (if_none (default JNull (member rq (b_ "maximum"))) (JInt lim)) in
      (ok = true <-> within lim mn0 /\ within lim mx0) /\ (ok = true -> mn = mn0 /\ mx = mx0))).
Proof.
  intros Hs Hu He Hc Hcu Hmx. destruct (arrive_user _ _ _ _ _ _ _ _ Hs Hu) as (Ht & w & ->). apply perm_true in Hcu.
  rewrite out_effects, out_body. unfold handler. rewrite He, Hc, Hcu, Hmx. unfold member, body_obj.
  destruct (rq_body rq) as [[| | | | | |b]|]; try (split; [intros c' m Hin; by apply elem_of_nil in Hin|done]).
  unfold jget. set (mn0 := default JNull (dget (b_ "minimum") b)). set (mx0 := default JNull (dget (b_ "maximum") b)).
  destruct (clamp_adapt lim mn0 mx0) as [[[mn mx] cl]|] eqn:Hcl.
  2: { split; [intros c' m Hin; by apply elem_of_nil in Hin|done]. }
  destruct (clamp_within _ _ _ _ _ _ Hcl) as (Hw1 & Hw2 & Hf & Hiff).
  destruct (send retries o c _ cl) as [out fx] eqn:Hsd. cbn [fst snd].
  destruct (send_spec _ _ _ _ _ _ _ Hsd) as (_ & H2 & _ & _ & H5 & H6 & H7). split.
  - intros c' m Hm. destruct (H2 c' m Hm) as (-> & -> & _). eauto 10.
  - intros ok Hok. exists mn, mx. destruct H5 as [->| ->]; [|done]. cbn in Hok. injection Hok as <-. split.
    + apply H6. eapply H7. reflexivity.
    + cbn zeta. destruct cl; cbn [negb].
      * split; [|done]. split; [done|]. intros Hw. exfalso. exact (proj1 Hiff eq_refl Hw).
      * destruct (Hf eq_refl) as [-> ->]. split; [|done]. split; intros; [exact (conj Hw1 Hw2)|reflexivity].
Qed.
Lemma requested_if_none rq k d : if_none (default JNull (member rq k)) d = requested rq k d.
Proof. unfold requested. by destruct (member rq k) as [[]|]. Qed.
Lemma adapt_answered s id rq o now s' out u n c lim ok : step s (Arrive id rq o now) = (s', out) -> user_of (ao_who out) = Some u ->
  rq_ep rq = EpAdapt n -> o_db2 o n = Some c -> k_user c = u_name u -> k_max c = Some lim -> ao_body out = BOk ok ->
  exists mn mx act, sends (ao_effects out) c (MAdapt mn mx act) /\
    (ok = true <-> within lim (requested rq (b_ "minimum") (JInt 0)) /\ within lim (requested rq (b_ "maximum") (JInt lim))) /\
    (ok = true -> mn = requested rq (b_ "minimum") (JInt 0) /\ mx = requested rq (b_ "maximum") (JInt lim)).
Proof.
  intros Hs Hu He Hc Hcu Hmx Hok. destruct (adapt_reached _ _ _ _ _ _ _ _ _ _ _ Hs Hu He Hc Hcu Hmx) as [_ H].
  destruct (H ok Hok) as (mn & mx & Hse & Hr). cbn zeta in Hr. rewrite !requested_if_none in Hr. eauto 10.
Qed.
Lemma adapt_malformed s id rq o now s' out u n : step s (Arrive id rq o now) = (s', out) -> user_of (ao_who out) = Some u ->
  rq_ep rq = EpAdapt n -> ~ is_object rq -> ao_effects out = [] /\ ao_body out = BError.
Proof.
  intros Hs Hu He Hno. destruct (arrive_user _ _ _ _ _ _ _ _ Hs Hu) as (Ht & w & ->).
  rewrite out_effects, out_body. unfold handler. rewrite He. destruct (o_db2 o n) as [c|]; [|done]. destruct (has_permissions u c); [|done].
  unfold body_obj. destruct (rq_body rq) as [[| | | | | |b]|] eqn:Hb; try done. destruct Hno. exists b. done.
Qed.
End steps.

(** C38. *)
Lemma hub_names_differ k1 n1 k2 n2 : ":"%char ∉ k1 -> ":"%char ∉ k2 -> hub_username k1 n1 = hub_username k2 n2 -> k1 = k2 /\ n1 = n2.
Proof.
  intros H1 H2. unfold hub_username.
  assert (HX : forall k (n m : bytes), ~ (m = k ++ ":"%char :: n /\ ":"%char ∉ m)).
  { intros k n m [-> Hn]. apply Hn. apply elem_of_app. right. left. }
  destruct (decide (k1 <> b_ "user" \/ ":"%char ∈ n1)) as [E1|E1], (decide (k2 <> b_ "user" \/ ":"%char ∈ n2)) as [E2|E2].
  - intros E. pose proof (split1_complete ":"%char k1 n1 H1) as S1. rewrite E, (split1_complete ":"%char k2 n2 H2) in S1. by injection S1.
  - intros E. exfalso. apply (HX k1 n1 n2). split; [done|]. tauto.
  - intros E. exfalso. apply (HX k2 n2 n1). split; [done|]. tauto.
  - intros ->. destruct (decide (k1 = b_ "user")) as [->|]; [|tauto]. destruct (decide (k2 = b_ "user")) as [->|]; [done|tauto].
Qed.
Lemma hub_accepts service hub header u : hub_authenticate service hub header = inl u <->
  exists tok d status, header = Some (b_ "jupyterhub" ++ " "%char :: tok) /\ hub tok = (status, d) /\ status < 400 /\
    (forall s, service = Some s -> b_ "access:services" ∈ h_scopes d \/ (b_ "access:services!service=" ++ s) ∈ h_scopes d) /\
    u = User (hub_username (h_kind d) (h_name d)) (h_groups d) (h_admin d).
Proof.
  assert (Hsp : " "%char ∉ b_ "jupyterhub").
  { vm_compute. intros Hin. repeat (apply elem_of_cons in Hin as [Hin|Hin]; [done|]). by apply elem_of_nil in Hin. }
  unfold hub_authenticate, hub_token. split.
  - destruct header as [[|a h]|]; [done| |done]. destruct (split1 " "%char (a :: h)) as [[ty tok]|] eqn:E; [|done]. apply split1_spec in E as [-> _].
    destruct (decide (ty = b_ "jupyterhub")) as [->|]; [|done]. destruct (hub tok) as [status d] eqn:Hh.
    destruct (status <? 400) eqn:Hst; [|repeat case_match; done]. apply Z.ltb_lt in Hst.
    case_match eqn:Hok; [|done]. intros [= <-]. exists tok, d, status. split_and!; [done..| |done].
    intros s ->. apply bool_decide_eq_true in Hok. apply Exists_exists in Hok as (x & Hin & [->| ->]); auto.
  - intros (tok & d & status & -> & Hh & Hst & Hsc & ->). pose proof (split1_complete " "%char _ tok Hsp) as E.
    destruct (b_ "jupyterhub" ++ " "%char :: tok) eqn:E2; [done|]. rewrite E, decide_True, Hh by done.
    apply Z.ltb_lt in Hst. rewrite Hst. case_match eqn:Hok; [done|]. exfalso. destruct service as [s|]; [|done].
    apply bool_decide_eq_false in Hok. apply Hok. apply Exists_exists. destruct (Hsc s eq_refl); eauto.
Qed.

(** C65. *)
Lemma simple_accepts b64 password header u : simple_authenticate b64 password header = inl u <->
  exists key name pw, header = Some (b_ "Basic" ++ " "%char :: key) /\ b64 key = Some (name ++ ":"%char :: pw) /\ ":"%char ∉ name /\
    u = User name [] false /\ (forall p, password = Some p -> p <> [] -> pw = p).
Proof.
  assert (Hsp : " "%char ∉ b_ "Basic").
  { vm_compute. intros Hin. repeat (apply elem_of_cons in Hin as [Hin|Hin]; [done|]). by apply elem_of_nil in Hin. }
  unfold simple_authenticate. split.
  - destruct header as [[|a h]|]; [done| |done]. destruct (split1 " "%char (a :: h)) as [[ty key]|] eqn:E; [|done]. apply split1_spec in E as [-> _].
    destruct (decide (ty = b_ "Basic")) as [->|]; [|done]. destruct (b64 key) as [k|] eqn:Hk; [|done].
    destruct (split1 ":"%char k) as [[name pw]|] eqn:E; [|done]. apply split1_spec in E as [-> Hn].
    intros H. exists key, name, pw. split_and!; [done..| |].
    + destruct password as [[|x p]|]; [by injection H as <-| |by injection H as <-]. destruct (decide _); [by injection H as <-|done].
    + intros p -> Hp. destruct p as [|x p]; [done|]. by destruct (decide (pw = x :: p)).
  - intros (key & name & pw & -> & Hk & Hn & -> & Hp). pose proof (split1_complete " "%char _ key Hsp) as E.
    destruct (b_ "Basic" ++ " "%char :: key) eqn:E2; [done|]. rewrite E, decide_True, Hk by done. rewrite (split1_complete _ _ _ Hn).
    destruct password as [[|x p]|]; [done| |done]. rewrite decide_True; [done|]. by apply Hp.
Qed.
