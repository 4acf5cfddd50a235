(** Proofs about sessions (C33, C34). *)
From Coq Require Import Ascii String ZArith Lia.
From stdpp Require Import prelude.
From Verif Require Import Trace Router_Model ProxyLog_Model ProxyLog_Proofs Json_Model Api_Model Api_Spec.
Local Open Scope Z_scope.

Section sessions.
Context (max_age retries : Z).
Notation step := (api_step max_age retries).

Record inv (h : hist) (s : server) : Prop := {
  i_user : forall k t u, dget k (cookie_to_user (sv_cache s)) = Some (t, u) ->
    dget (u_name u) (name_to_cookie (sv_cache s)) = Some k /\
    exists id o, (Finish id t k, o) ∈ h /\ ao_who o = ByLogin u /\ ao_cookie o = Some k;
  i_name : forall n k, dget n (name_to_cookie (sv_cache s)) = Some k ->
    exists t u, dget k (cookie_to_user (sv_cache s)) = Some (t, u) /\ u_name u = n;
  i_pending : forall id u rs, dget id (sv_pending s) = Some (u, rs) -> exists eo, eo ∈ h /\ logs_in eo u;
  i_out : forall eo k u t, eo ∈ h -> hands_out eo k u t ->
    (exists id t0 o0 u0, (Finish id t0 k, o0) ∈ h /\ ao_who o0 = ByLogin u0 /\ ao_cookie o0 = Some k /\ u_name u0 = u_name u) /\
    (exists eo', eo' ∈ h /\ logs_in eo' u) }.

Lemma draws_app h1 h2 : concat (map drawn (h1 ++ h2)) = concat (map drawn h1) ++ concat (map drawn h2).
Proof. by rewrite map_app, concat_app. Qed.
Lemma draw_in h id t k o : (Finish id t k, o) ∈ h -> k ∈ concat (map drawn h).
Proof.
  intros (h1 & h2 & ->)%elem_of_list_split. rewrite draws_app. apply elem_of_app. right. simpl. left.
Qed.
Lemma draw_unique h1 id t k o h2 id' t' o' : distinct_draws (h1 ++ (Finish id t k, o) :: h2) ->
  (Finish id' t' k, o') ∈ h1 ++ (Finish id t k, o) :: h2 -> id' = id /\ t' = t /\ o' = o /\ (Finish id t k, o) ∉ h1.
Proof.
  unfold distinct_draws. rewrite draws_app. intros Hd Hin. simpl in Hd.
  apply NoDup_app in Hd as (_ & Hx & Hd). apply NoDup_cons in Hd as [Hd _].
  assert (H1 : forall i t o, (Finish i t k, o) ∉ h1). { intros ??? Hi%draw_in. eapply Hx; [exact Hi|]. left. }
  apply elem_of_app in Hin as [Hin|Hin]; [by apply H1 in Hin|].
  apply elem_of_cons in Hin as [Hin|Hin]; [|by apply draw_in in Hin].
  injection Hin as -> -> ->. split_and!; auto.
Qed.
Lemma distinct_app_l h1 h2 : distinct_draws (h1 ++ h2) -> distinct_draws h1.
Proof. unfold distinct_draws. rewrite draws_app. by intros (H1 & _)%NoDup_app. Qed.

(** What a lookup does. *)
Lemma cache_get_spec h s k now : inv h s -> exists r c', cache_get max_age k now (sv_cache s) = Some (r, c') /\
  match r with
  | Some u => c' = sv_cache s /\ exists t, dget k (cookie_to_user (sv_cache s)) = Some (t, u) /\ now <= t + max_age
  | None => (dget k (cookie_to_user (sv_cache s)) = None /\ c' = sv_cache s) \/
      exists t u, dget k (cookie_to_user (sv_cache s)) = Some (t, u) /\ t + max_age < now /\
        c' = Cache (ddel (u_name u) (name_to_cookie (sv_cache s))) (ddel k (cookie_to_user (sv_cache s)))
  end.
Proof.
  intros Hi. unfold cache_get. destruct (dget k (cookie_to_user (sv_cache s))) as [[t u]|] eqn:Hk.
  2: { eexists None, _. split; [reflexivity|]. auto. }
  destruct (t + max_age <? now) eqn:Ht.
  - apply Z.ltb_lt in Ht. destruct (i_user h s Hi k t u Hk) as [Hn _].
    unfold ddel_strict. rewrite Hk, Hn. simpl. eexists None, _. split; [reflexivity|]. right. eauto 10.
  - apply Z.ltb_ge in Ht. eexists (Some u), _. split; [reflexivity|]. split; [done|]. eauto.
Qed.
Lemma dcookie_spec h s rq now : inv h s -> exists r c', dcookie max_age rq now (sv_cache s) = Some (r, c') /\
  match r with
  | Some u => c' = sv_cache s /\ exists k t, rq_cookie rq = Some k /\ dget k (cookie_to_user (sv_cache s)) = Some (t, u) /\ now <= t + max_age
  | None => c' = sv_cache s \/
      exists k t u, rq_cookie rq = Some k /\ dget k (cookie_to_user (sv_cache s)) = Some (t, u) /\ t + max_age < now /\
        c' = Cache (ddel (u_name u) (name_to_cookie (sv_cache s))) (ddel k (cookie_to_user (sv_cache s)))
  end.
Proof.
  intros Hi. unfold dcookie. destruct (rq_cookie rq) as [k|]; [|eexists None, _; eauto].
  destruct (cache_get_spec h s k now Hi) as (r & c' & -> & Hr). exists r, c'. split; [done|].
  destruct r as [u|]; [destruct Hr as (? & t & ? & ?); eauto 10|].
  destruct Hr as [[? ?]|(t & u & ? & ? & ?)]; [auto|right; eauto 10].
Qed.

(** Forgetting an expired cookie keeps the cache consistent. *)
Lemma inv_expire h s k t u p : inv h s -> dget k (cookie_to_user (sv_cache s)) = Some (t, u) ->
  (forall id u rs, dget id p = Some (u, rs) -> exists eo, eo ∈ h /\ logs_in eo u) ->
  inv h (Server (Cache (ddel (u_name u) (name_to_cookie (sv_cache s))) (ddel k (cookie_to_user (sv_cache s)))) p).
Proof.
  intros Hi Hk Hp. destruct (i_user h s Hi k t u Hk) as [Hn _]. split; cbn [sv_cache sv_pending cookie_to_user name_to_cookie].
  - intros k' t' u'. rewrite dget_ddel. destruct (decide (k' = k)) as [|Hkk]; [done|]. intros Hk'.
    destruct (i_user h s Hi k' t' u' Hk') as [Hn' He]. split; [|done]. rewrite dget_ddel.
    destruct (decide (u_name u' = u_name u)) as [Hu|]; [|done]. rewrite Hu in Hn'. congruence.
  - intros n k'. rewrite dget_ddel. destruct (decide (n = u_name u)) as [|Hnn]; [done|]. intros Hn'.
    destruct (i_name h s Hi n k' Hn') as (t' & u' & Hk' & Hu'). exists t', u'. split; [|done]. rewrite dget_ddel.
    destruct (decide (k' = k)) as [->|]; [|done]. rewrite Hk in Hk'. injection Hk' as <- <-. congruence.
  - exact Hp.
  - exact (i_out h s Hi).
Qed.
Lemma inv_pending h s c p : inv h s -> c = sv_cache s ->
  (forall id u rs, dget id p = Some (u, rs) -> exists eo, eo ∈ h /\ logs_in eo u) -> inv h (Server c p).
Proof. intros Hi -> Hp. destruct Hi as [H1 H2 H3 H4]. by split. Qed.

(** Recording an event that hands out no cookie. *)
Lemma inv_more h s eo : inv h s -> ao_cookie (snd eo) = None -> inv (h ++ [eo]) s.
Proof.
  intros Hi Hc. destruct Hi as [H1 H2 H3 H4]. split; [..|].
  - intros k t u Hk. destruct (H1 k t u Hk) as [? (id & o & ? & ?)]. split; [done|]. exists id, o. split; [|done]. apply elem_of_app; auto.
  - exact H2.
  - intros id u rs Hk. destruct (H3 id u rs Hk) as (e & ? & ?). exists e. split; [|done]. apply elem_of_app; auto.
  - intros e k u t [Hin|Hin]%elem_of_app Ho.
    + destruct (H4 e k u t Hin Ho) as [(id & t0 & o0 & u0 & ? & ?) (e' & ? & ?)]. split.
      * exists id, t0, o0, u0. split; [apply elem_of_app; auto|done].
      * exists e'. split; [apply elem_of_app; auto|done].
    + apply elem_of_list_singleton in Hin as ->. destruct Ho as (_ & _ & Ho). congruence.
Qed.

Lemma step_inv h s e o s' : distinct_draws (h ++ [(e, o)]) -> inv h s -> step s e = (s', o) -> inv (h ++ [(e, o)]) s'.
Proof.
  intros Hd Hi Hs. destruct e as [id rq orc now|id now f]; cbn [api_step] in Hs.
  - destruct (token_check orc rq) as [[|]|st].
    + injection Hs as <- <-. apply inv_more; [done|]. unfold out_of. cbn. destruct (fst _); reflexivity.
    + destruct (dcookie_spec h s rq now Hi) as (r & c' & Hc & Hr). rewrite Hc in Hs. destruct r as [u|].
      * destruct Hr as (-> & _). injection Hs as <- <-. destruct s as [c p]. cbn [sv_cache sv_pending].
        apply inv_more; [done|]. unfold out_of. cbn. destruct (fst _); reflexivity.
      * assert (HI : forall p, inv h (Server c' (sv_pending s)) -> inv (h ++ [(Arrive id rq orc now, o)]) (Server c' (sv_pending s)) ->
           p = sv_pending s \/ (exists u rs, o_auth orc = inl u /\ p = (id, (u, rs)) :: sv_pending s) ->
           inv (h ++ [(Arrive id rq orc now, o)]) (Server c' p)).
        { intros p _ Hm [->|(u & rs & Hu & ->)]; [done|]. destruct Hm as [H1 H2 H3 H4]. split; [done..| |done].
          cbn [sv_pending]. intros id' u' rs'. cbn [dget]. destruct (decide (id' = id)) as [->|]; [|apply H3].
          intros [= <- <-]. exists (Arrive id rq orc now, o). split; [apply elem_of_app; right; left|]. exists id, rq, orc, now. done. }
        assert (Hi' : inv h (Server c' (sv_pending s))).
        { destruct Hr as [->|(k & t & u & _ & Hk & _ & ->)].
          - destruct s. done.
          - eapply inv_expire; [exact Hi|exact Hk|]. exact (i_pending h s Hi). }
        assert (Ho : ao_cookie o = None).
        { destruct (o_auth orc); injection Hs as <- <-; [|done]. unfold out_of. cbn. destruct (fst _); reflexivity. }
        destruct (o_auth orc) as [u|st] eqn:Ha.
        -- injection Hs as <- Hs. apply HI; [done|by apply inv_more|].
           destruct (fst (handler retries orc rq (Some u))) as [rs|]; [right; eauto|auto].
        -- injection Hs as <- Hs. by apply inv_more.
    + injection Hs as <- <-. by apply inv_more.
  - destruct (dget id (sv_pending s)) as [[u rs]|] eqn:Hp.
    2: { injection Hs as <- <-. by apply inv_more. }
    destruct (i_pending h s Hi id u rs Hp) as (el & Hel & Hlog).
    assert (HP : forall id' u' rs', dget id' (ddel id (sv_pending s)) = Some (u', rs') -> exists eo, eo ∈ h ++ [(Finish id now f, o)] /\ logs_in eo u').
    { intros id' u' rs'. rewrite dget_ddel. destruct (decide (id' = id)); [done|]. intros Hg.
      destruct (i_pending h s Hi id' u' rs' Hg) as (eo & ? & ?). exists eo. split; [apply elem_of_app; auto|done]. }
    unfold cache_put in Hs. destruct (dget (u_name u) (name_to_cookie (sv_cache s))) as [k|] eqn:Hn.
    + injection Hs as <- Hso. destruct (i_name h s Hi _ _ Hn) as (t0 & u0 & Hk & Hu0).
      destruct (i_user h s Hi k t0 u0 Hk) as [_ (id0 & o0 & Hin0 & Hw0 & Hc0)].
      split; cbn [sv_cache sv_pending].
      * intros k' t' u' Hk'. destruct (i_user h s Hi k' t' u' Hk') as [? (i & oo & ? & ?)]. split; [done|].
        exists i, oo. split; [apply elem_of_app; auto|done].
      * exact (i_name h s Hi).
      * exact HP.
      * intros e k' u' t' [Hin|Hin]%elem_of_app Ho.
        -- destruct (i_out h s Hi e k' u' t' Hin Ho) as [(i & tt & oo & uu & ? & ?) (e' & ? & ?)]. split.
           ++ exists i, tt, oo, uu. split; [apply elem_of_app; auto|done].
           ++ exists e'. split; [apply elem_of_app; auto|done].
        -- apply elem_of_list_singleton in Hin as ->. destruct Ho as (_ & Hw & Hc). cbn in Hw, Hc. rewrite <- Hso in Hw, Hc.
           cbn in Hw, Hc. injection Hw as <-. injection Hc as <-. split.
           ++ exists id0, t0, o0, u0. split; [apply elem_of_app; auto|done].
           ++ exists el. split; [apply elem_of_app; auto|done].
    + injection Hs as <- Hso.
      assert (Hself : (Finish id now f, o) ∈ h ++ [(Finish id now f, o)]) by (apply elem_of_app; right; left).
      assert (Hfresh : dget f (cookie_to_user (sv_cache s)) = None).
      { destruct (dget f (cookie_to_user (sv_cache s))) as [[t' u']|] eqn:Hf; [|done]. exfalso.
        destruct (i_user h s Hi f t' u' Hf) as [_ (i & oo & Hin & _)].
        destruct (draw_unique h id now f o [] i t' oo) as (-> & -> & -> & Hx); [done| |done]. apply elem_of_app; auto. }
      split; cbn [sv_cache sv_pending cookie_to_user name_to_cookie].
      * intros k' t' u'. rewrite dget_dset. destruct (decide (k' = f)) as [->|Hkf].
        -- intros [= <- <-]. split; [rewrite dget_dset; by destruct (decide _)|].
           exists id, o. split; [done|]. rewrite <- Hso. done.
        -- intros Hk'. destruct (i_user h s Hi k' t' u' Hk') as [Hn' (i & oo & ? & ?)]. split.
           ++ rewrite dget_dset. destruct (decide (u_name u' = u_name u)) as [Hu|]; [|done]. rewrite Hu in Hn'. congruence.
           ++ exists i, oo. split; [apply elem_of_app; auto|done].
      * intros n k'. rewrite dget_dset. destruct (decide (n = u_name u)) as [->|Hnn].
        -- intros [= <-]. exists now, u. split; [|done]. rewrite dget_dset. by destruct (decide _).
        -- intros Hn'. destruct (i_name h s Hi n k' Hn') as (t' & u' & Hk' & Hu'). exists t', u'. split; [|done].
           rewrite dget_dset. destruct (decide (k' = f)) as [->|]; [congruence|done].
      * exact HP.
      * intros e k' u' t' [Hin|Hin]%elem_of_app Ho.
        -- destruct (i_out h s Hi e k' u' t' Hin Ho) as [(i & tt & oo & uu & ? & ?) (e' & ? & ?)]. split.
           ++ exists i, tt, oo, uu. split; [apply elem_of_app; auto|done].
           ++ exists e'. split; [apply elem_of_app; auto|done].
        -- apply elem_of_list_singleton in Hin as ->. destruct Ho as (_ & Hw & Hc). cbn in Hw, Hc. rewrite <- Hso in Hw, Hc.
           cbn in Hw, Hc. injection Hw as <-. injection Hc as <-. split.
           ++ exists id, now, o, u. split; [done|]. rewrite <- Hso. done.
           ++ exists el. split; [apply elem_of_app; auto|done].
Qed.

Lemma inv_init : inv [] server_init.
Proof. split; try done. intros eo k u t Hin. by apply elem_of_nil in Hin. Qed.
Lemma reach_inv h s : distinct_draws h -> reach max_age retries h s -> inv h s.
Proof.
  intros Hd Hx. revert Hd. revert h s Hx.
  apply (exec_ind_r step server_init (fun h s => distinct_draws h -> inv h s)); [intros _; apply inv_init|].
  intros h s e o s' _ IH Hs Hd. eapply step_inv; [exact Hd| |exact Hs]. apply IH. eapply distinct_app_l; eauto.
Qed.

Lemma reach_split h1 e o h2 s : reach max_age retries (h1 ++ (e, o) :: h2) s ->
  exists s1 s2, reach max_age retries h1 s1 /\ step s1 e = (s2, o) /\ exec step s2 h2 s.
Proof.
  intros (s1 & H1 & H2)%exec_app. inversion H2 as [|? ? ? s2 ? ? He Hr]; subst. eauto 10.
Qed.

(** C33. *)
Lemma who_out_of w r : ao_who (out_of w r) = w.
Proof. unfold out_of. by destruct (fst r). Qed.
Lemma arrive_who s id rq orc now : forall s' o, step s (Arrive id rq orc now) = (s', o) ->
  match ao_who o with
  | Nobody => ao_effects o = [] /\ ao_body o = BError
  | ByToken => token_check orc rq = inl true /\ o = out_of ByToken (handler retries orc rq None)
  | ByCookie u => token_check orc rq = inl false /\ (exists c, dcookie max_age rq now (sv_cache s) = Some (Some u, c)) /\
      o = out_of (ByCookie u) (handler retries orc rq (Some u))
  | ByLogin u => token_check orc rq = inl false /\ o_auth orc = inl u /\ o = out_of (ByLogin u) (handler retries orc rq (Some u))
  end.
Proof.
  intros s' o Hs. cbn [api_step] in Hs. destruct (token_check orc rq) as [[|]|st] eqn:Ht.
  - injection Hs as <- <-. rewrite who_out_of. done.
  - destruct (dcookie max_age rq now (sv_cache s)) as [[[u|] c]|] eqn:Hd.
    + injection Hs as <- <-. rewrite who_out_of. eauto.
    + destruct (o_auth orc) as [u|st] eqn:Ha; injection Hs as <- <-; [|done]. rewrite who_out_of. eauto.
    + injection Hs as <- <-. done.
  - injection Hs as <- <-. done.
Qed.

Lemma cookie_issued h1 id rq orc now out h2 s u :
  reach max_age retries (h1 ++ (Arrive id rq orc now, out) :: h2) s ->
  distinct_draws (h1 ++ (Arrive id rq orc now, out) :: h2) -> ao_who out = ByCookie u ->
  exists k eo t el, rq_cookie rq = Some k /\ eo ∈ h1 /\ hands_out eo k u t /\ el ∈ h1 /\ logs_in el u.
Proof.
  intros Hr Hd Hw. apply reach_split in Hr as (s1 & s2 & H1 & Hs & _).
  pose proof (reach_inv h1 s1 (distinct_app_l _ _ Hd) H1) as Hi.
  pose proof (arrive_who _ _ _ _ _ _ _ Hs) as Ha. rewrite Hw in Ha. destruct Ha as (_ & (c & Hc) & _).
  destruct (dcookie_spec h1 s1 rq now Hi) as (r & c' & Hc' & Hr). rewrite Hc in Hc'. injection Hc' as <- <-.
  destruct Hr as (_ & k & t & Hk & Hg & _). destruct (i_user _ _ Hi k t u Hg) as [_ (i & o & Hin & Hwo & Hco)].
  assert (Ho : hands_out (Finish i t k, o) k u t) by (split; [eauto|done]).
  destruct (i_out _ _ Hi _ _ _ _ Hin Ho) as [_ (el & ? & ?)].
  exists k, (Finish i t k, o), t, el. split_and!; auto.
Qed.

Lemma cookie_not_shared h s eo eo' k u u' t t' : reach max_age retries h s -> distinct_draws h ->
  eo ∈ h -> eo' ∈ h -> hands_out eo k u t -> hands_out eo' k u' t' -> u_name u = u_name u'.
Proof.
  intros Hr Hd H1 H2 Ho1 Ho2. pose proof (reach_inv h s Hd Hr) as Hi.
  destruct (i_out _ _ Hi _ _ _ _ H1 Ho1) as [(i & t0 & o0 & u0 & Hin & Hw & _ & Hu) _].
  destruct (i_out _ _ Hi _ _ _ _ H2 Ho2) as [(i' & t0' & o0' & u0' & Hin' & Hw' & _ & Hu') _].
  apply elem_of_list_split in Hin as (ha & hb & ->).
  destruct (draw_unique ha i t0 k o0 hb i' t0' o0' Hd Hin') as (_ & _ & -> & _). congruence.
Qed.

Lemma session_spec h s k now : inv h s -> session max_age retries s k now =
  match dget k (cookie_to_user (sv_cache s)) with Some (t, u) => if t + max_age <? now then Nobody else ByCookie u | None => Nobody end.
Proof.
  intros Hi. unfold session. cbn [api_step token_check wants rq_ep]. unfold dcookie. cbn [rq_cookie].
  destruct (cache_get_spec h s k now Hi) as (r & c' & -> & Hr). destruct r as [u|].
  - destruct Hr as (_ & t & -> & Ht). cbn [snd]. rewrite who_out_of.
    destruct (t + max_age <? now) eqn:E; [|done]. apply Z.ltb_lt in E. lia.
  - cbn. destruct Hr as [[-> _]|(t & u & -> & Ht & _)]; [done|]. apply Z.ltb_lt in Ht. by rewrite Ht.
Qed.
Lemma one_session h s k k' now now' u u' : reach max_age retries h s -> distinct_draws h ->
  session max_age retries s k now = ByCookie u -> session max_age retries s k' now' = ByCookie u' ->
  u_name u = u_name u' -> k = k'.
Proof.
  intros Hr Hd. pose proof (reach_inv h s Hd Hr) as Hi. rewrite !(session_spec h) by done.
  destruct (dget k (cookie_to_user (sv_cache s))) as [[t v]|] eqn:Hk; [|done].
  destruct (dget k' (cookie_to_user (sv_cache s))) as [[t' v']|] eqn:Hk'; [|done].
  destruct (_ <? _); [done|]. destruct (_ <? _); [done|]. intros [= ->] [= ->] Hu.
  destruct (i_user _ _ Hi _ _ _ Hk) as [Hn _]. destruct (i_user _ _ Hi _ _ _ Hk') as [Hn' _]. rewrite Hu in Hn. congruence.
Qed.
Lemma cache_never_raises h s id rq orc now u s' o : reach max_age retries h s -> distinct_draws h ->
  step s (Arrive id rq orc now) = (s', o) -> token_check orc rq = inl false -> o_auth orc = inl u ->
  ao_who o = ByLogin u \/ exists u', ao_who o = ByCookie u'.
Proof.
  intros Hr Hd Hs Ht Ha. pose proof (reach_inv h s Hd Hr) as Hi. cbn [api_step] in Hs. rewrite Ht in Hs.
  destruct (dcookie_spec h s rq now Hi) as (r & c' & Hc & _). rewrite Hc, Ha in Hs. destruct r as [u'|]; injection Hs as <- <-; rewrite who_out_of; eauto.
Qed.

(** C34. *)
Lemma first_is_draw h s ha id t f o hb k : reach max_age retries h s -> distinct_draws h -> h = ha ++ (Finish id t f, o) :: hb ->
  ao_cookie o = Some k -> (forall eo, eo ∈ ha -> ao_cookie (snd eo) <> Some k) -> f = k /\ exists u, ao_who o = ByLogin u.
Proof.
  intros Hr Hd -> Hc Hfirst.
  assert (Hr' : exists s', reach max_age retries (ha ++ [(Finish id t f, o)]) s').
  { apply reach_split in Hr as (s1 & s2 & H1 & Hs & _). exists s2. apply exec_app. exists s1. split; [done|]. econstructor; [exact Hs|constructor]. }
  destruct Hr' as [s' Hr'].
  assert (Hd' : distinct_draws (ha ++ [(Finish id t f, o)])).
  { apply (distinct_app_l _ hb). by rewrite <- app_assoc. }
  pose proof (reach_inv _ _ Hd' Hr') as Hi.
  assert (Hw : exists u, ao_who o = ByLogin u).
  { apply reach_split in Hr as (s1 & s2 & _ & Hs & _). cbn [api_step] in Hs. destruct (dget id (sv_pending s1)) as [[u rs]|].
    - destruct (cache_put _ _ _ _). injection Hs as _ <-. eauto.
    - injection Hs as _ <-. done. }
  split; [|exact Hw]. destruct Hw as [u Hw].
  assert (Ho : hands_out (Finish id t f, o) k u t) by (split; eauto).
  destruct (i_out _ _ Hi (Finish id t f, o) k u t) as [(i & t0 & o0 & u0 & Hin & _ & Hc0 & _) _]; [apply elem_of_app; right; left|done|].
  apply elem_of_app in Hin as [Hin|Hin]; [by apply Hfirst in Hin|].
  apply elem_of_list_singleton in Hin. by injection Hin.
Qed.

Lemma never_too_old h1 id rq orc now out h2 s u : 
  reach max_age retries (h1 ++ (Arrive id rq orc now, out) :: h2) s ->
  distinct_draws (h1 ++ (Arrive id rq orc now, out) :: h2) -> ao_who out = ByCookie u ->
  exists k ha id' t f o' hb, rq_cookie rq = Some k /\ h1 = ha ++ (Finish id' t f, o') :: hb /\ ao_cookie o' = Some k /\
    (forall eo, eo ∈ ha -> ao_cookie (snd eo) <> Some k) /\ now <= t + max_age.
Proof.
  intros Hr Hd Hw. apply reach_split in Hr as (s1 & s2 & H1 & Hs & _). apply distinct_app_l in Hd.
  pose proof (reach_inv h1 s1 Hd H1) as Hi.
  pose proof (arrive_who _ _ _ _ _ _ _ Hs) as Ha. rewrite Hw in Ha. destruct Ha as (_ & (c & Hc) & _).
  destruct (dcookie_spec h1 s1 rq now Hi) as (r & c' & Hc' & Hr). rewrite Hc in Hc'. injection Hc' as <- <-.
  destruct Hr as (_ & k & t & Hk & Hg & Ht). destruct (i_user _ _ Hi k t u Hg) as [_ (i & o & Hin & Hwo & Hco)].
  apply elem_of_list_split in Hin as (ha & hb & ->).
  exists k, ha, i, t, k, o, hb. split_and!; [done..| |done]. intros [e o1] Hin He. cbn in He.
  assert (H1' := H1). apply reach_split in H1 as (sa & sb & Hra & _ & _).
  pose proof (reach_inv ha sa (distinct_app_l _ _ Hd) Hra) as Hia.
  assert (exists u1 t1, hands_out (e, o1) k u1 t1) as (u1 & t1 & Hho).
  { apply elem_of_list_split in Hin as (h3 & h4 & ->). apply reach_split in Hra as (sc & sd & _ & Hse & _).
    destruct e as [id1 rq1 orc1 n1|id1 n1 f1]; cbn [api_step] in Hse.
    - exfalso. destruct (token_check orc1 rq1) as [[|]|].
      + injection Hse as _ <-. unfold out_of in He. cbn in He. by destruct (fst _).
      + destruct (dcookie _ _ _ _) as [[[?|] ?]|]; [| |by injection Hse as _ <-].
        * injection Hse as _ <-. unfold out_of in He. cbn in He. by destruct (fst _).
        * destruct (o_auth orc1); injection Hse as _ <-; [|done]. unfold out_of in He. cbn in He. by destruct (fst _).
      + by injection Hse as _ <-.
    - destruct (dget id1 (sv_pending sc)) as [[u1 rs1]|]; [|by injection Hse as _ <-].
      destruct (cache_put _ _ _ _) as [k1 c1]. injection Hse as _ <-. cbn in He. injection He as ->.
      exists u1, n1. split; [eauto|done]. }
  destruct (i_out _ _ Hia (e, o1) k u1 t1 Hin Hho) as [(i2 & t2 & o2 & u2 & Hin2 & _) _].
  destruct (draw_unique ha i t k o hb i2 t2 o2 Hd) as (-> & -> & -> & Hx); [apply elem_of_app; auto|]. by apply Hx.
Qed.

Lemma cookie_kept k t u : forall h h0 s s', distinct_draws (h0 ++ h) -> reach max_age retries h0 s -> exec step s h s' ->
  dget k (cookie_to_user (sv_cache s)) = Some (t, u) -> (forall eo, eo ∈ h -> time_of (fst eo) <= t + max_age) ->
  dget k (cookie_to_user (sv_cache s')) = Some (t, u).
Proof.
  induction h as [|[e o] h IH]; intros h0 s s' Hd Hr Hx Hk Ht; inversion Hx as [|? ? ? s1 ? ? He Hx']; subst; [done|].
  assert (Hr1 : reach max_age retries (h0 ++ [(e, o)]) s1).
  { apply exec_app. exists s. split; [done|]. econstructor; [exact He|constructor]. }
  rewrite cons_middle, app_assoc in Hd.
  apply (IH _ _ _ Hd Hr1 Hx'); [|intros eo Hin; apply Ht; by right]. clear IH Hx'.
  pose proof (reach_inv h0 s (distinct_app_l _ _ (distinct_app_l _ _ Hd)) Hr) as Hi.
  specialize (Ht (e, o)). cbn [fst] in Ht. specialize (Ht (elem_of_list_here _ _)).
  destruct e as [id rq orc now|id now f]; cbn [api_step time_of] in He, Ht.
  - destruct (token_check orc rq) as [[|]|st]; [by injection He as <- _| |by injection He as <- _].
    destruct (dcookie_spec h0 s rq now Hi) as (r & c' & Hc & Hr'). rewrite Hc in He.
    assert (Hc' : dget k (cookie_to_user c') = Some (t, u)).
    { destruct r; [destruct Hr' as [-> _]; done|]. destruct Hr' as [->|(k2 & t2 & u2 & _ & Hk2 & Hlt & ->)]; [done|].
      cbn. rewrite dget_ddel. destruct (decide (k = k2)) as [->|]; [|done]. rewrite Hk in Hk2. injection Hk2 as <- <-. lia. }
    destruct r; [by injection He as <- _|]. destruct (o_auth orc); by injection He as <- _.
  - destruct (dget id (sv_pending s)) as [[u' rs]|]; [|by injection He as <- _].
    unfold cache_put in He. destruct (dget (u_name u') _); injection He as <- _; [done|]. cbn.
    rewrite dget_dset. destruct (decide (k = f)) as [->|]; [|done]. exfalso.
    destruct (i_user _ _ Hi _ _ _ Hk) as [_ (i & oo & Hin & _)].
    apply distinct_app_l in Hd. destruct (draw_unique h0 id now f o [] i t oo) as (-> & -> & -> & Hx0); [done|apply elem_of_app; auto|]. by apply Hx0.
Qed.

Lemma valid_full_first ha id t f o hb k u s now :
  reach max_age retries (ha ++ (Finish id t f, o) :: hb) s -> distinct_draws (ha ++ (Finish id t f, o) :: hb) ->
  hands_out (Finish id t f, o) k u t -> (forall eo, eo ∈ ha -> ao_cookie (snd eo) <> Some k) ->
  (forall eo, eo ∈ hb -> time_of (fst eo) <= t + max_age) -> now <= t + max_age ->
  session max_age retries s k now = ByCookie u.
Proof.
  intros Hr Hd (_ & Hw & Hc) Hfirst Hb Hnow. cbn in Hw, Hc.
  destruct (first_is_draw _ _ ha id t f o hb k Hr Hd eq_refl Hc Hfirst) as [-> _].
  pose proof (reach_inv _ _ Hd Hr) as Hi. rewrite (session_spec _ _ k now Hi).
  apply reach_split in Hr as (s1 & s2 & H1 & Hs & H2).
  assert (Hr2 : reach max_age retries (ha ++ [(Finish id t k, o)]) s2).
  { apply exec_app. exists s1. split; [done|]. econstructor; [exact Hs|constructor]. }
  rewrite cons_middle, app_assoc in Hd.
  assert (Hg : dget k (cookie_to_user (sv_cache s2)) = Some (t, u)).
  { pose proof (reach_inv ha s1 (distinct_app_l _ _ (distinct_app_l _ _ Hd)) H1) as Hi1.
    cbn [api_step] in Hs. destruct (dget id (sv_pending s1)) as [[u' rs]|]; [|by injection Hs as <- <-].
    unfold cache_put in Hs. destruct (dget (u_name u') _) as [k'|] eqn:Hn.
    - exfalso. injection Hs as _ <-. cbn in Hc. injection Hc as ->.
      destruct (i_name _ _ Hi1 _ _ Hn) as (t2 & u2 & Hk2 & _). destruct (i_user _ _ Hi1 _ _ _ Hk2) as [_ (i & oo & Hin & _ & Hco)].
      by apply Hfirst in Hin.
    - injection Hs as <- <-. cbn in Hw. injection Hw as ->. cbn. rewrite dget_dset. by destruct (decide _). }
  rewrite (cookie_kept k t u hb _ s2 s Hd Hr2 H2 Hg Hb).
  destruct (_ <? _) eqn:E; [|done]. apply Z.ltb_lt in E. lia.
Qed.
End sessions.
