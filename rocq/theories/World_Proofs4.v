From Coq Require Import Ascii String ZArith Lia.
From stdpp Require Import prelude gmap.
From Verif Require Import Trace Router_Model Router_Spec Router_Proofs ProxyLog_Model ProxyLog_Spec ProxyLog_Proofs
  Sni_Model Sni_Spec Sni_Proofs WorkQueue_Model Gateway_Model Gateway_Spec Gateway_Inv Gateway_Steps4 Gateway_Sync Gateway_Restart Gateway_Hist
  Gateway_Queue Gateway_Proofs World_Gw World_Model World_Spec World_Net World_Proofs World_Proofs2 World_Proofs3.
Open Scope Z_scope.

Section proofs.
Context (wc : wcfg).
Notation cf := (wc_gw wc). Notation prefix := (wc_prefix wc). Notation mx := (wc_max wc). Notation parse := (wc_parse wc). Notation nm := (wc_name wc).
Notation hist := (list (wevent * wobs)).
Notation WInv := (WInv wc).

Lemma WInv_init : 0 <= mx -> WInv [] (winit wc) (L0 wc).
Proof.
  intros Hmx. pose proof (setup_sinv wc 0 Hmx) as HS. constructor; simpl.
  - apply GInv_init.
  - apply HS.
  - apply L0_names.
  - intros k x t. apply L0_src.
  - apply L0_table.
  - intros n c. simpl. by rewrite lookup_empty.
  - apply (step_P parse _ (Sys (ginit prefix mx 0) pinit) (setup_call wc)).
    + apply new_P. constructor; simpl; [by intros ??? H%elem_of_nil|by intros ? H%elem_of_nil|intros ???; by rewrite lookup_empty].
    + intros k n t [= <- <- <-]. right. left. done.
  - intros _. exact HS.
Qed.

Lemma net_inert e : match e with SAdd _ _ _ | SRemove _ _ | SRestart => False | _ => True end -> forall L, change_of prefix L e = L.
Proof. by destruct e. Qed.

Lemma WInv_step h w L e w' o : names_good wc -> prefix_good wc -> 0 <= mx -> (forall now, e = WGateway (ERestart now) -> fresh_ids cf) ->
  WInv h w L -> wstep wc w e = (w', o) -> exists L', WInv (h ++ [(e, o)]) w' L'.
Proof.
  intros Hn Hp Hmx Hf HW Hs. pose proof HW as [Hg Hl Hnm Hsrc Htab Hrows Hpast Hsync].
  pose proof (log_ok wc _ L Hn Hp Hnm Hsrc) as Hok.
  assert (Hsame : forall y, wc_gw wc = cf -> w' = World (w_gw w) y -> ginv prefix mx L (s_gw y) -> sP parse (past wc h) y ->
    (young_proxy wc (h ++ [(e, o)]) -> sinv parse prefix mx 0 (0, empty_tables) L y) -> exists L', WInv (h ++ [(e, o)]) w' L').
  { intros y _ -> H1 H2 H3. exists L. constructor; simpl; try done.
    - by apply rows_app.
    - eapply sP_mono; [|exact H2]. intros. by apply past_app. }
  destruct e as [e|e| |dial cs|req]; cbn [wstep] in Hs.
  - destruct (crash e) eqn:Ec.
    + destruct e; try discriminate Ec. specialize (Hf _ eq_refl). simpl in Hs. injection Hs as <- <-. exists (L0 wc).
      pose proof (GInv_step cf (w_gw w) (ERestart now) _ _ (fun _ => Hf) Hg eq_refl) as Hg'.
      assert (Hgl : s_gw (new_gateway wc (w_sys w)) = s_gw (ProxyLog_Model.step parse (Sys (ginit prefix mx (g_wnext (s_gw (w_sys w)))) pinit) (setup_call wc))).
      { unfold new_gateway. simpl. rewrite (gi_prefix _ _ _ _ Hl), (gi_max _ _ _ _ Hl). destruct (wc_external wc); done. }
      constructor; cbn [w_gw w_sys].
      * exact Hg'.
      * rewrite Hgl. apply (setup_sinv wc _ Hmx).
      * apply L0_names.
      * intros k x t. apply L0_src.
      * rewrite restart_routes. apply L0_table.
      * intros n c Hc. destruct Hf as (fc0 & fw0 & Hid). destruct (proj2 Hg fc0 fw0 Hid) as [Hy _].
        pose proof (restart_objs cf fc0 fw0 now (w_gw w) n Hy) as Hr. rewrite Hc in Hr. destruct Hr as (c0 & _ & Hc0 & Hrl).
        assert (E : adr c = adr c0) by (unfold adr; by rewrite (rl_row _ _ _ Hrl)). rewrite E. by apply (rows_app h _ _ Hrows n c0).
      * unfold new_gateway. set (y1 := ProxyLog_Model.step parse (w_sys w) SRestart).
        assert (Hy1 : sP parse (past wc (h ++ [(WGateway (ERestart now), OGateway [])])) y1).
        { apply step_P; [|done]. eapply sP_mono; [|exact Hpast]. intros. by apply past_app. }
        assert (Hpre : g_prefix (s_gw y1) = prefix) by (apply (gi_prefix _ _ _ _ Hl)).
        apply step_P.
        -- destruct (wc_external wc); [done|]. apply new_P. apply Hy1.
        -- intros k n t [= <- <- <-]. right. left. split; [done|]. split; [|done]. destruct (wc_external wc); simpl; by rewrite (gi_prefix _ _ _ _ Hl).
      * intros Hy. apply young_restart in Hy. unfold new_gateway. rewrite Hy. unfold new_proxy. simpl.
        rewrite (gi_prefix _ _ _ _ Hl), (gi_max _ _ _ _ Hl). apply (setup_sinv wc _ Hmx).
    + destruct (Gateway_Model.step cf (w_gw w) e) as [s' obs] eqn:Es. set (cs := calls wc e (w_gw w) s').
      assert (E : w' = World s' (ProxyLog_Model.runs parse (w_sys w) cs) /\ o = OGateway obs).
      { destruct e; try discriminate Ec; injection Hs as <- <-; done. }
      destruct E as [-> ->]. clear Hs.
      assert (HC : ccase wc (w_gw w) s' cs) by (pose proof (step_ccase wc (w_gw w) e Ec) as H; rewrite Es in H; exact H).
      pose proof (GInv_step cf (w_gw w) e s' obs ltac:(rewrite Ec; done) Hg Es) as Hg'.
      assert (Hsrc' : forall k x t, (TPut, Route k x t) ∈ L -> src wc s' k x t).
      { intros k x t H. apply Hsrc in H as [H|(n & c & Hc & Hpr & H)]; [by left|]. right.
        pose proof (step_vcase cf (w_gw w) e Ec) as HV. rewrite Es in HV. cbn [fst] in HV.
        destruct (proxied_stays cf _ _ _ (proj1 Hg) HV n c Hc Hpr) as (c' & Hc' & Hp' & Ea). exists n, c'. split; [done|]. split; [done|].
        unfold adr in Ea. injection Ea as _ E2 E3. by rewrite E2, E3. }
      destruct (calls_log wc _ _ _ L HC Hnm Hsrc') as [Hnm2 Hsrc2].
      pose proof (log_ok wc _ _ Hn Hp Hnm2 Hsrc2) as Hok2.
      assert (Hcall : forall e, e ∈ cs -> is_call e = true) by (intros; by eapply calls_are_calls).
      assert (Hrows2 : rows_ok (h ++ [(WGateway e, OGateway obs)]) s').
      { intros n c' Hc'. pose proof (step_rows wc (w_gw w) e n c' Ec) as H. rewrite Es in H. specialize (H Hc') as [H|[(c & Hc & H)|(m & now & -> & H)]].
        - by left.
        - rewrite H. by apply (rows_app h _ _ Hrows n c).
        - right. exists m. split; [|done]. exists now, (OGateway obs). apply elem_of_app. right. by left. }
      exists (grow prefix L cs). constructor; simpl.
      * exact Hg'.
      * by apply calls_ginv.
      * exact Hnm2.
      * exact Hsrc2.
      * by eapply table_calls.
      * exact Hrows2.
      * apply (calls_P parse prefix mx _ L); try done.
        -- eapply sP_mono; [|exact Hpast]. intros. by apply past_app.
        -- intros k n t H. eapply src_past; [exact Hrows2|]. by eapply calls_add.
      * intros Hy. apply calls_sinv; try done. apply Hsync. eapply young_keep; [exact Hy|done].
  - assert (Hmove : match e with SAdd _ _ _ | SRemove _ _ | SRestart => False | _ => True end ->
      w' = World (w_gw w) (ProxyLog_Model.step parse (w_sys w) e) -> exists L', WInv (h ++ [(WNet e, o)]) w' L').
    { intros He ->. eapply Hsame; [done|reflexivity| | |].
      - rewrite <- (net_inert e He L). apply ginv_step_any; [done|done|]. by intros ->.
      - apply step_P; [done|]. by intros k n t ->.
      - intros Hy. rewrite <- (net_inert e He L). apply step_sinv; [done| |done|by intros ->]. apply Hsync. by eapply young_keep. }
    assert (Hstay : w' = w -> exists L', WInv (h ++ [(WNet e, o)]) w' L').
    { intros ->. eapply Hsame; [done| |exact Hl|exact Hpast|]; [by destruct w|]. intros Hy. apply Hsync. by eapply young_keep. }
    destruct e; injection Hs as <- <-; first [by apply Hstay|by apply Hmove].
  - injection Hs as <- <-. eapply Hsame; [done|reflexivity|exact Hl| |].
    + apply new_P. apply Hpast.
    + intros _. by apply new_sinv.
  - injection Hs as <- <-. eapply Hsame; [done| |exact Hl|exact Hpast|]; [by destruct w|]. intros Hy. apply Hsync. by eapply young_keep.
  - injection Hs as <- <-. eapply Hsame; [done| |exact Hl|exact Hpast|]; [by destruct w|]. intros Hy. apply Hsync. by eapply young_keep.
Qed.

Lemma setup_app h1 h2 : setup_ok wc (h1 ++ h2) -> setup_ok wc h1.
Proof.
  intros (H1 & H2 & H3 & H4 & H5). do 4 (split; [done|]). destruct H5 as [H|H]; [by left|]. right. intros (now & o & Hin). apply H.
  exists now, o. apply elem_of_app. by left.
Qed.
Lemma reach_WInv h w : setup_ok wc h -> wreach wc h w -> exists L, WInv h w L.
Proof.
  intros Hs Hr. revert Hs. unfold wreach in Hr. revert h w Hr. apply (exec_ind_r (wstep wc) (winit wc) (fun h w => setup_ok wc h -> exists L, WInv h w L)).
  - intros (_ & _ & Hmx & _). exists (L0 wc). by apply WInv_init.
  - intros h w e o w' _ IH Hs Hok. destruct (IH (setup_app _ _ Hok)) as [L HW]. destruct Hok as (Hn & Hp & Hmx & _ & Hid).
    eapply WInv_step; eauto. intros now ->. destruct Hid as [H|H]; [done|]. destruct H. exists now, o. apply elem_of_app. right. by left.
Qed.

Lemma wreach_timers h w : wreach wc h w -> timers (q (w_gw w)) = ∅.
Proof.
  unfold wreach. revert h w. apply (exec_ind_r (wstep wc) (winit wc) (fun h w => timers (q (w_gw w)) = ∅)); [done|].
  intros h w e o w' _ IH Hs. assert (w' = (wstep wc w e).1) as -> by (rewrite Hs; done). clear Hs.
  destruct e as [e|e| |dial cs|req]; cbn [wstep]; try done; [|destruct e; done].
  assert (timers (q (Gateway_Model.step cf (w_gw w) e).1) = ∅) as H.
  { destruct (Gateway_Model.step cf (w_gw w) e) as [s' o'] eqn:E.
    apply (leads_timers cf (w_gw w) [(e, o')] s'); [econstructor; [exact E|constructor]|exact IH]. }
  destruct (Gateway_Model.step cf (w_gw w) e) as [s' o']. exact H.
Qed.

(** ** the theorems *)
Lemma names_fun st c c' : names_cluster (wc_bufsize wc) (wc_hello wc) st c -> names_cluster (wc_bufsize wc) (wc_hello wc) st c' -> c = c'.
Proof.
  intros (rec & (v1 & v2 & hi & lo & body & rest & E & El & ->) & _ & H) (rec' & (v1' & v2' & hi' & lo' & body' & rest' & E' & El' & ->) & _ & H').
  rewrite E in E'. injection E' as <- <- <- <- Eb.
  assert (body = body') as <-. { apply (app_inj_1 body body' rest rest'); [congruence|done]. }
  rewrite H in H'. by apply app_inv_head in H'.
Qed.
Lemma asks_one cs n n' : names_good wc -> asks_for wc cs n -> asks_for wc cs n' -> n = n'.
Proof. intros Hn H1 H2. apply Hn. eapply names_fun; eauto. Qed.

Lemma splice_isolated h1 dial cs a w' h2 w : setup_ok wc (h1 ++ (WTls dial cs, OTls (Some (FSpliced a w'))) :: h2) ->
  wreach wc (h1 ++ (WTls dial cs, OTls (Some (FSpliced a w'))) :: h2) w ->
  exists n m, asks_for wc cs n /\ reported h1 n m /\ m_sched m <> [] /\ a = trim_tls (m_sched m).
Proof.
  intros Hok Hr. pose proof (setup_app _ _ Hok) as Hok1. apply exec_app in Hr as (w1 & Hr1 & Hr2).
  destruct (reach_WInv h1 w1 Hok1 Hr1) as [L HW]. inversion Hr2 as [|? ? ? w2 ? ? Hst _]; subst. cbn [wstep] in Hst. injection Hst as _ Ho.
  destruct Hok1 as (Hn & Hp & _ & Hb & _).
  destruct (proj1 (spliced_iff _ Hb (wc_hello wc) (wc_shared wc) (t_sni (p_tables (s_px (w_sys w1)))) dial cs a)) as (c & Hc & Hd & Ha & _); [by exists w'|].
  destruct (proj1 (sp_t _ _ _ (wi_past _ _ _ _ HW)) c a Hd) as (tgt & HP & Hne & ->).
  destruct HP as [->|[(E & _)|(n & m & Hm & [(_ & -> & ->)|(E & _)])]]; try done.
  exists n, m. done.
Qed.
Lemma http_isolated h1 req r h2 w : setup_ok wc (h1 ++ (WHttp req, OHttp r) :: h2) -> wreach wc (h1 ++ (WHttp req, OHttp r) :: h2) w ->
  r = Some NotFound \/
  (gateway_route wc `prefix_of` asked req /\ exists u, leads_to parse (wc_url wc) u /\ goes_to r u) \/
  (exists n m u, cluster_route wc n `prefix_of` asked req /\ reported h1 n m /\ leads_to parse (m_dash m) u /\ goes_to r u).
Proof.
  intros Hok Hr. pose proof (setup_app _ _ Hok) as Hok1. apply exec_app in Hr as (w1 & Hr1 & Hr2).
  destruct (reach_WInv h1 w1 Hok1 Hr1) as [L HW]. inversion Hr2 as [|? ? ? w2 ? ? Hst _]; subst. cbn [wstep] in Hst. injection Hst as _ Ho.
  destruct Hok1 as (Hn & Hp & _ & Hb & _).
  destruct (proj2 (sp_t _ _ _ (wi_past _ _ _ _ HW))) as (ops & Eops & Hops). destruct (run_finite_map ops) as (ro & Ero & _).
  rewrite Eops, Ero in Ho. simpl in Ho. destruct (serve_spec ops ro req Ero) as (out & Es & Hout). rewrite Es in Ho. subst r.
  destruct out as [req'|]; [|by left]. right.
  destruct Hout as (k & u & lead & sep & rest & (Hk & Hpre & _) & _ & _ & _ & E1 & E2 & E3 & _).
  assert (Hgo : goes_to (Some (Forwarded req')) u) by (exists req'; done).
  assert (Hin : exists p, OPut p u ∈ ops /\ route_of p = k).
  { clear -Hk. revert k u Hk. induction ops as [|o ops IH] using rev_ind; intros k u Hk; [done|]. unfold table in Hk. rewrite fold_left_app in Hk. simpl in Hk.
    destruct o as [p v|p]; simpl in Hk.
    - case_decide as Hd; [injection Hk as <-; exists p; split; [apply elem_of_app; right; left|done]|].
      destruct (IH k u Hk) as (p' & H1 & H2). exists p'. split; [apply elem_of_app; by left|done].
    - case_decide as Hd; [done|]. destruct (IH k u Hk) as (p' & H1 & H2). exists p'. split; [apply elem_of_app; by left|done]. }
  destruct Hin as (p & Hin & Ep). apply Hops in Hin as (tgt & HP & Hld). subst k.
  destruct HP as [->|[(_ & -> & ->)|(n & m & Hm & [(E & _)|(_ & -> & ->)])]]; [by destruct Hld| |done|].
  - left. rewrite gateway_route_eq in Hpre by done. split; [done|]. by exists u.
  - right. exists n, m, u. change (croute wc n `prefix_of` asked req) in Hpre. rewrite croute_is in Hpre by done. done.
Qed.

Lemma in_sync_tables h w : setup_ok wc h -> wreach wc h w -> young_proxy wc h -> caught_up w -> exists L, WInv h w L /\ agree' parse (tab L) (p_tables (s_px (w_sys w))).
Proof.
  intros Hok Hr Hy Hc. destruct (reach_WInv h w Hok Hr) as [L HW]. exists L. split; [done|].
  pose proof (wi_sync _ _ _ _ HW Hy) as [Hg Hb Hphi Hp]. pose proof (gi_next _ _ _ _ Hg) as Hn. unfold caught_up in Hc.
  destruct Hp as [[Hl Ha]|(a & Ha & Ho)].
  - rewrite take_ge in Ha by lia. exact Ha.
  - injection Ho as Hl0 Ht. rewrite Ht. destruct L; [apply agree_empty|simpl in Hn; lia].
Qed.
Lemma drained_caught_up h w : setup_ok wc h -> wreach wc h w -> young_proxy wc h -> drained w -> caught_up w.
Proof.
  intros Hok Hr Hy (k & Hph & Hw). destruct (reach_WInv h w Hok Hr) as [L HW].
  pose proof (wi_sync _ _ _ _ HW Hy) as [Hg Hb Hphi Hp]. destruct Hp as [[Hl Ha]|(a & Ha & Ho)]; [|congruence].
  unfold phinv in Hphi. rewrite Hph, Hw in Hphi. destruct Hphi as [_ Hws].
  simpl in Hws. pose proof (f_equal length Hws) as Hlen. rewrite drop_length, numbered_length in Hlen. simpl in Hlen.
  unfold caught_up. rewrite (gi_next _ _ _ _ Hg). lia.
Qed.
Lemma connect_spec w dial cs : (5 <= wc_bufsize wc)%nat -> exists f, connect wc w dial cs = OTls (Some f) /\
  (forall a, (exists w', f = FSpliced a w') <-> exists c, names_cluster (wc_bufsize wc) (wc_hello wc) (concat cs) c /\
     dget c (t_sni (p_tables (s_px (w_sys w)))) = Some a /\ a <> [] /\ dial a = true) /\
  ((exists w', f = FHttp w') <-> wc_shared wc = true /\ concat cs <> [] /\ forall c, ~ names_cluster (wc_bufsize wc) (wc_hello wc) (concat cs) c).
Proof.
  intros Hb. destruct (handle_spec _ Hb (wc_hello wc) (wc_shared wc) (t_sni (p_tables (s_px (w_sys w)))) dial cs) as (f & E & _ & H1 & H2).
  exists f. split; [|done]. unfold connect. cbn [wstep snd]. by rewrite E.
Qed.
Lemma running_row h w n c : setup_ok wc h -> wreach wc h w -> idle (w_gw w) -> runs_on w n c ->
  Gateway_Model.routes (w_gw w) !! (RSNI, n) = Some (r_sched (c_row c)) /\ r_sched (c_row c) <> [] /\
  Gateway_Model.routes (w_gw w) !! (RPATH, n) = (if decide (r_dash (c_row c) = []) then None else Some (r_dash (c_row c))) /\
  exists m, reported h n m /\ m_sched m = r_sched (c_row c) /\ m_dash m = r_dash (c_row c).
Proof.
  intros Hok Hr [Hq Hb] (Hc & Hst & Ht). destruct (reach_WInv h w Hok Hr) as [L HW]. pose proof (proj1 (wi_g _ _ _ _ HW)) as HI.
  pose proof (g_cok _ _ _ _ HI n c Hc) as Hk.
  assert (HD : forall x, ~ Dof ∅ (w_gw w) x).
  { intros x [Hx|Hx]%(Dof_put _ _ _ (wreach_timers _ _ Hr)); [|set_solver]. destruct (decide (x ∈ processing (q (w_gw w)))) as [Hpr|Hpr].
    - apply (g_proc _ _ _ _ HI) in Hpr as [(k & p & Hk' & _)|Hk']; [|done]. rewrite Hb, lookup_empty in Hk'. done.
    - assert (Hin : x ∈ queue (q (w_gw w))) by (apply (qo_line _ (g_q _ _ _ _ HI)); done). rewrite Hq in Hin. by apply elem_of_nil in Hin. }
  assert (Hpx : c_proxied c = true).
  { destruct (c_proxied c) eqn:E; [done|]. exfalso. eapply HD. by apply (o_proxy _ _ _ _ _ _ Hk). }
  assert (Hlive : live_route (c_status c) = true) by (by rewrite Hst).
  pose proof (ro_sched _ (k_row _ _ _ _ _ _ Hk) Hst) as Hs.
  split; [rewrite (k_sni _ _ _ _ _ _ Hk), Hpx, Hlive by (left; congruence); done|]. split; [done|].
  split; [rewrite (k_path _ _ _ _ _ _ Hk), Hpx, Hlive by (left; congruence); simpl; destruct (r_dash (c_row c)); done|].
  destruct (wi_rows _ _ _ _ HW n c Hc) as [E|(m & Hm & E)]; unfold adr in E; injection E as E1 E2 E3; [congruence|]. exists m. done.
Qed.

Lemma running_served h w n c dial cs : setup_ok wc h -> wreach wc h w -> young_proxy wc h -> caught_up w -> idle (w_gw w) -> runs_on w n c ->
  asks_for wc cs n -> let a := trim_tls (r_sched (c_row c)) in a <> [] -> dial a = true ->
  (exists w', connect wc w dial cs = OTls (Some (FSpliced a w'))) /\ exists m, reported h n m /\ m_sched m = r_sched (c_row c).
Proof.
  intros Hok Hr Hy Hc Hi Hrun Hask a Ha Hd. destruct (running_row h w n c Hok Hr Hi Hrun) as (H1 & H2 & _ & (m & Hm & Em & _)).
  split; [|by exists m]. destruct (in_sync_tables h w Hok Hr Hy Hc) as (L & HW & [Hag _]).
  destruct Hok as (_ & _ & _ & Hb & _). destruct (connect_spec w dial cs Hb) as (f & -> & Hf & _).
  destruct (proj2 (Hf a)) as [w' ->]; [|by exists w'].
  exists (nm n). split; [done|]. split; [|done]. apply Hag. exists (r_sched (c_row c)). split; [|done].
  apply (wi_tab _ _ _ _ HW). right. exists n. by left.
Qed.
Lemma live_objs h w k n a L : WInv h w L -> Gateway_Model.routes (w_gw w) !! (k, n) = Some a -> ~ is_gone w n.
Proof.
  intros HW Hk Hgone. pose proof (proj1 (wi_g _ _ _ _ HW)) as HI. destruct (g_routes _ _ _ _ HI k n a Hk) as [c Hc].
  pose proof (g_cok _ _ _ _ HI n c Hc) as Hok. destruct (Hgone c Hc) as [G1 G2].
  assert (El : live_route (c_status c) = false) by (unfold live_route; rewrite !bool_decide_eq_false_2 by done; done).
  destruct k; [rewrite (k_sni _ _ _ _ _ _ Hok) in Hk by eauto|rewrite (k_path _ _ _ _ _ _ Hok) in Hk by eauto]; rewrite El, andb_false_r in Hk; done.
Qed.
Lemma gone_closed h w n dial cs : setup_ok wc h -> wreach wc h w -> young_proxy wc h -> caught_up w -> is_gone w n -> asks_for wc cs n ->
  connect wc w dial cs = OTls (Some FClosed).
Proof.
  intros Hok Hr Hy Hc Hg Hask. destruct (in_sync_tables h w Hok Hr Hy Hc) as (L & HW & [Hag _]).
  destruct Hok as (Hn & _ & _ & Hb & _). destruct (connect_spec w dial cs Hb) as (f & -> & Hf & Hh).
  destruct f as [|w'|a w']; [done| |].
  - destruct (proj1 Hh) as (_ & _ & H); [by eexists|]. by destruct (H _ Hask).
  - destruct (proj1 (Hf a)) as (c & Hc' & Hd & _); [by eexists|]. rewrite (names_fun _ _ _ Hc' Hask) in Hd.
    apply Hag in Hd as (tgt & Ht & _). apply (wi_tab _ _ _ _ HW) in Ht as [[E _]|(n' & [[E Ht]|[E _]])]; try done.
    injection E as E. apply Hn in E as <-. exfalso. by eapply live_objs.
Qed.

(** requests *)
Lemma request_spec h w req L : WInv h w L -> agree' parse (tab L) (p_tables (s_px (w_sys w))) ->
  names_good wc -> prefix_good wc ->
  exists T : list bytes -> option goURL,
  (forall k u, T k = Some u <-> exists p tgt, tab L (PATH, p) = Some tgt /\ route_of p = k /\ leads_to parse tgt u) /\
  exists r, request wc w req = OHttp r /\
  ((r = Some NotFound /\ forall k, k `prefix_of` asked req -> T k = None) \/ exists k u, longest_match T (asked req) k u /\ goes_to r u).
Proof.
  intros HW [_ (ro & Ero & _ & _ & Hag)] Hn Hp.
  destruct (proj2 (sp_t _ _ _ (wi_past _ _ _ _ HW))) as (ops & Eops & Hops). destruct (run_finite_map ops) as (ro' & Ero' & Htb).
  assert (ro' = ro) as -> by congruence. exists (table ops). split.
  - intros k u. rewrite <- Htb, <- Hag. by rewrite lookup_route_node.
  - destruct (serve_spec ops ro req Ero') as (out & Es & Hout). exists (Some out). split.
    { unfold request. cbn [wstep snd]. rewrite Ero. simpl. by rewrite Es. }
    destruct out as [req'|]; [right|left; done].
    destruct Hout as (k & u & lead & sep & rest & Hlm & _ & _ & _ & E1 & E2 & E3 & _). exists k, u. split; [done|]. exists req'. done.
Qed.
Lemma tab_path h w L p tgt : WInv h w L -> tab L (PATH, p) = Some tgt ->
  (p = prefix ++ b_ "/" /\ tgt = wc_url wc) \/ exists n, p = prefix ++ path_of wc n /\ Gateway_Model.routes (w_gw w) !! (RPATH, n) = Some tgt.
Proof.
  intros HW H. apply (wi_tab _ _ _ _ HW) in H as [[E ->]|(n & [[E _]|[E H]])]; [left| |right]; injection E as E; try done. by exists n.
Qed.
Lemma dashboard_served h w n c req u : setup_ok wc h -> wreach wc h w -> young_proxy wc h -> caught_up w -> idle (w_gw w) -> runs_on w n c ->
  cluster_route wc n `prefix_of` asked req -> leads_to parse (r_dash (c_row c)) u ->
  (exists r, request wc w req = OHttp r /\ goes_to r u) /\ exists m, reported h n m /\ m_dash m = r_dash (c_row c).
Proof.
  intros Hok Hr Hy Hc Hi Hrun Hpre Hu. destruct (running_row h w n c Hok Hr Hi Hrun) as (_ & _ & H3 & (m & Hm & _ & Em)).
  split; [|by exists m]. destruct (in_sync_tables h w Hok Hr Hy Hc) as (L & HW & Hag).
  destruct Hok as (Hn & Hp & _). destruct (request_spec h w req L HW Hag Hn Hp) as (T & HT & r & -> & Hout). exists r. split; [done|].
  rewrite decide_False in H3 by (by destruct Hu).
  assert (Hk : T (cluster_route wc n) = Some u).
  { apply HT. exists (prefix ++ path_of wc n), (r_dash (c_row c)). split; [|split; [by apply (croute_is wc n)|done]]. apply (wi_tab _ _ _ _ HW). right. exists n. by right. }
  destruct Hout as [[_ Hno]|(k & u' & (Hk' & Hpre' & Hlong) & Hgo)]; [rewrite (Hno _ Hpre) in Hk; done|].
  assert (k = cluster_route wc n) as ->; [|congruence].
  pose proof (Hlong _ _ Hk Hpre) as Hlen.
  apply HT in Hk' as (p & tgt & Ht & Ep & _). apply (tab_path _ _ _ _ _ HW) in Ht as [[-> _]|(n' & -> & _)].
  - exfalso. rewrite gateway_route_eq in Ep by done. subst k. unfold cluster_route in Hlen; rewrite app_length in Hlen. simpl in Hlen. lia.
  - subst k. change (route_of (prefix ++ path_of wc n')) with (croute wc n') in *. rewrite (croute_is wc n') in * by done.
    destruct Hpre as [r1 E1], Hpre' as [r2 E2]. rewrite E1 in E2. symmetry. apply (app_inj_1 _ _ r1 r2); [|done].
    unfold cluster_route. rewrite !app_length. done.
Qed.
Lemma gateway_served h w req u : setup_ok wc h -> wreach wc h w -> young_proxy wc h -> caught_up w ->
  gateway_route wc `prefix_of` asked req -> leads_to parse (wc_url wc) u ->
  (forall n, cluster_route wc n `prefix_of` asked req -> is_gone w n) ->
  exists r, request wc w req = OHttp r /\ goes_to r u.
Proof.
  intros Hok Hr Hy Hc Hpre Hu Hgone. destruct (in_sync_tables h w Hok Hr Hy Hc) as (L & HW & Hag).
  destruct Hok as (Hn & Hp & _). destruct (request_spec h w req L HW Hag Hn Hp) as (T & HT & r & -> & Hout). exists r. split; [done|].
  assert (Hk : T (gateway_route wc) = Some u).
  { apply HT. exists (prefix ++ b_ "/"), (wc_url wc). split; [apply (wi_tab _ _ _ _ HW); by left|]. split; [by apply gateway_route_eq|done]. }
  destruct Hout as [[_ Hno]|(k & u' & (Hk' & Hpre' & Hlong) & Hgo)]; [rewrite (Hno _ Hpre) in Hk; done|].
  pose proof Hk' as Hk2. apply HT in Hk2 as (p & tgt & Ht & Ep & _). apply (tab_path _ _ _ _ _ HW) in Ht as [[-> _]|(n' & -> & Hrt)].
  - rewrite gateway_route_eq in Ep by done. subst k. congruence.
  - exfalso. subst k. eapply live_objs; [exact HW|exact Hrt|]. apply Hgone. by rewrite <- (croute_is wc n').
Qed.
Lemma outside_refused h w req : setup_ok wc h -> wreach wc h w -> ~ gateway_route wc `prefix_of` asked req -> request wc w req = OHttp (Some NotFound).
Proof.
  intros Hok Hr Hno. destruct (reach_WInv h w Hok Hr) as [L HW]. destruct Hok as (Hn & Hp & _).
  assert (Hx : exists r, request wc w req = OHttp r) by (by eexists). destruct Hx as [r Er]. rewrite Er. f_equal.
  destruct (proj2 (sp_t _ _ _ (wi_past _ _ _ _ HW))) as (ops & Eops & Hops). destruct (run_finite_map ops) as (ro & Ero & _).
  unfold request in Er. cbn [wstep snd] in Er. rewrite Eops, Ero in Er. simpl in Er. injection Er as <-.
  destruct (serve_spec ops ro req Ero) as (out & Es & Hout). rewrite Es. destruct out as [req'|]; [|done]. exfalso. apply Hno.
  destruct Hout as (k & u & lead & sep & rest & (Hk & Hpre & _) & _).
  assert (Hin : exists p, OPut p u ∈ ops /\ route_of p = k).
  { clear -Hk. revert k u Hk. induction ops as [|o ops IH] using rev_ind; intros k u Hk; [done|]. unfold table in Hk. rewrite fold_left_app in Hk. simpl in Hk.
    destruct o as [p v|p]; simpl in Hk.
    - case_decide as Hd; [injection Hk as <-; exists p; split; [apply elem_of_app; right; left|done]|].
      destruct (IH k u Hk) as (p' & H1 & H2). exists p'. split; [apply elem_of_app; by left|done].
    - case_decide as Hd; [done|]. destruct (IH k u Hk) as (p' & H1 & H2). exists p'. split; [apply elem_of_app; by left|done]. }
  destruct Hin as (p & Hin & <-). apply Hops in Hin as (tgt & HP & Hld).
  destruct HP as [->|[(_ & -> & ->)|(n & m & Hm & [(E & _)|(_ & -> & ->)])]]; [by destruct Hld| |done|].
  - by rewrite gateway_route_eq in Hpre.
  - change (croute wc n `prefix_of` asked req) in Hpre. rewrite croute_eq in Hpre by done.
    etransitivity; [|exact Hpre]. by apply prefix_app_r.
Qed.
End proofs.
