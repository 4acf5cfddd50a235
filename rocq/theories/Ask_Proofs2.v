(** Proofs for C116 and C117: what a call that has returned has brought about. *)
From Coq Require Import ZArith Lia.
From stdpp Require Import prelude gmap.
From Verif Require Import Trace WorkQueue_Model Router_Model Gateway_Model Gateway_Spec Gateway_Spec3 Gateway_Inv Gateway_Hist Gateway_Proofs Gateway_Proofs3 Adapt_Model Adapt_Spec Adapt_Proofs Report_Model Report_Spec
  Fleet_Model Fleet_Spec Fleet_Gw Fleet_Proofs Fleet_Proofs2 Ask_Model Ask_Spec Ask_Proofs.
Open Scope Z_scope.

(** A call that is over stays so. *)
Lemma over_map f (cs : list call) (r : nat) c b : (forall c b, k_stage c = Over b -> k_stage (f c) = Over b) -> cs !! r = Some c -> k_stage c = Over b ->
  exists c', map f cs !! r = Some c' /\ k_stage c' = Over b.
Proof. intros Hf E H. exists (f c). rewrite list_lookup_fmap, E. split; [done|auto]. Qed.
Lemma reply_over n l c b : k_stage c = Over b -> k_stage (reply n l c) = Over b.
Proof. intros H. destruct (reply_spec n l c) as [->|(_ & E & _)]; [done|congruence]. Qed.
Lemma cut_over c b : k_stage c = Over b -> k_stage (cut c) = Over b.
Proof. intros H. unfold cut. by rewrite H. Qed.
Lemma serve_calls kc n e s s' o : serve kc n e s = (s', o) -> exists l, y_calls s' = map (reply n l) (y_calls s).
Proof. intros Hs. destruct (Adapt_Model.step (k_window kc) (adapter s n) e) as [a' ao] eqn:E. destruct (serve_does kc n e s s' o a' ao E Hs) as (_ & _ & _ & H & _). eauto. Qed.
Lemma over_insert (cs : list call) (r r0 : nat) c c0 c1 b : cs !! r = Some c -> k_stage c = Over b -> cs !! r0 = Some c0 -> (forall b, k_stage c0 <> Over b) ->
  exists c', <[r0 := c1]> cs !! r = Some c' /\ k_stage c' = Over b.
Proof. intros E H E0 H0. exists c. split; [|done]. rewrite list_lookup_insert_ne; [done|]. intros ->. rewrite E in E0. injection E0 as ->. by apply (H0 b). Qed.
Lemma over_step kc s e s' o r c b : kstep kc s e = (s', o) -> y_calls s !! r = Some c -> k_stage c = Over b -> exists c', y_calls s' !! r = Some c' /\ k_stage c' = Over b.
Proof.
  intros Hs E H. assert (exists c', y_calls s !! r = Some c' /\ k_stage c' = Over b) as H0 by eauto.
  assert (forall n l cs, (exists c', cs !! r = Some c' /\ k_stage c' = Over b) -> exists c', map (reply n l) cs !! r = Some c' /\ k_stage c' = Over b) as HR.
  { intros n l cs (c' & ? & ?). eapply over_map; eauto using reply_over. }
  destruct e as [e|n a|i|i|r0 ok|r0|n|n x sl|n]; cbn [kstep] in Hs.
  7-9: (apply serve_calls in Hs as [l ->]; by apply HR).
  - destruct (fleet_event e); [|by injection Hs as <- <-]. rewrite in_fleet_eq in Hs. injection Hs as <- <-. destruct (restarts e); [|done]. eapply over_map; eauto using cut_over.
  - destruct (lookup_cluster _ _); [|by injection Hs as <- <-]. destruct (_ && _); injection Hs as <- <-; [|done]. unfold send. cbn. exists c. split; [|done].
    assert (r < length (y_calls s))%nat by by eapply lookup_lt_Some. rewrite list_lookup_insert_ne by lia. by apply lookup_app_l_Some.
  - destruct (y_wire s !! i) as [p|]; [|by injection Hs as <- <-]. unfold comm in Hs. destruct (p_ask p).
    1,3: apply serve_calls in Hs as [l ->]; by apply HR.
    destruct (serve _ _ _ _) as [s1 o1] eqn:Es. injection Hs as <- <-. apply serve_calls in Es as [l Es]. cbn [set_calls y_calls]. rewrite Es. by apply HR, HR.
  - by injection Hs as <- <-.
  - destruct (y_calls s !! r0) as [c0|] eqn:E0; [|by injection Hs as <- <-]. destruct (k_stage c0) eqn:Est, ok; try (by injection Hs as <- <-).
    2: injection Hs as <- <-; eapply over_insert; eauto; congruence.
    all: destruct (decide _); [injection Hs as <- <-|rewrite in_fleet_eq in Hs; injection Hs as <- <-]; eapply over_insert; eauto; congruence.
  - destruct (y_calls s !! r0) as [c0|] eqn:E0; [|by injection Hs as <- <-]. destruct (k_stage c0) eqn:Est; try (by injection Hs as <- <-). injection Hs as <- <-. eapply over_insert; eauto; congruence.
Qed.
Lemma over_leads kc s h s' r c b : kleads kc s h s' -> y_calls s !! r = Some c -> k_stage c = Over b -> exists c', y_calls s' !! r = Some c' /\ k_stage c' = Over b.
Proof. intros Hx. revert c. induction Hx as [|s e o s1 h s2 Hs Hx IH]; intros c E H; [eauto|]. destruct (over_step _ _ _ _ _ _ _ _ Hs E H) as (c' & ? & ?). eauto. Qed.

Lemma own_leads kc n a r s h s' : Base s -> no_request n h -> kleads kc s h s' -> Own n a r s -> Own n a r s'.
Proof.
  intros HB Hn Hx. revert HB Hn. induction Hx as [|s e o s1 h s2 Hs Hx IH]; intros HB Hn HO; [done|]. apply IH.
  - by apply (step_Base _ _ _ _ _ Hs).
  - intros a0 o0 Hin. apply (Hn a0 o0). by right.
  - eapply own_step; eauto. intros x ->. apply (Hn x o). by left.
Qed.
(** The request is taken: nothing but it is there. *)
Lemma own_taken kc n a r s s' : answered s n -> nothing_left s n -> taken kc s n a r s' ->
  exists c, lookup_cluster n (f_gw (y_fleet s)) = Some c /\ model_status c = Some PRUNNING /\ Own n (bounded (r_max (c_row c)) a) r s' /\
    y_fleet s' = y_fleet s /\ adapter s' n = adapter s n.
Proof.
  intros Ha [Hl1 Hl2] Ht. unfold taken in Ht. cbn [kstep] in Ht. destruct (lookup_cluster n (f_gw (y_fleet s))) as [c|]; [|done]. exists c. split; [done|].
  destruct (bool_decide _ && _) eqn:Eb; [|done]. apply andb_true_iff in Eb as [Eb _]. apply bool_decide_eq_true in Eb. split; [done|]. injection Ht as <- <-. split; [|done].
  unfold send, set_calls. cbn. split; [|split].
  - intros p Hp Hn. apply elem_of_app in Hp as [Hp|Hp]; [by destruct (Hl1 p Hp)|]. by apply elem_of_list_singleton in Hp as ->.
  - change (wait_ok (bounded (r_max (c_row c)) a) (adapter s n)). unfold wait_ok. rewrite Hl2. split; [done|]. by destruct (bounded _ _).
  - cbn. rewrite insert_app_r_alt by lia. rewrite Nat.sub_diag. cbn. split.
    + eexists. split; [apply list_lookup_middle; done|]. split; [done|]. split; [done|]. by intros [?|?].
    + intros r' c' Hr Hc Hn. apply lookup_app_Some in Hc as [Hc|[Hle Hc]]; [|apply list_lookup_singleton_Some in Hc as [Hc _]; lia]. destruct (Ha r' c' Hc Hn) as [b ->]. eauto.
Qed.
Lemma carried_out kc h1 s1 n a r s2 h2 s : kreach kc h1 s1 -> answered s1 n -> nothing_left s1 n -> taken kc s1 n a r s2 -> kleads kc s2 h2 s -> no_request n h2 -> returned r h2 ->
  exists c, lookup_cluster n (f_gw (y_fleet s1)) = Some c /\ settled (bounded (r_max (c_row c)) a) (adapter s n).
Proof.
  intros Hx Ha Hl Ht Hx2 Hn (o & Hin & Ho). destruct (own_taken _ _ _ _ _ _ Ha Hl Ht) as (c & Hc & _ & HO & _). exists c. split; [done|].
  assert (Base s1) as HB1 by (apply (leads_Base kc (kinit kc) h1); [done|apply init_Base]). assert (Base s2) as HB2 by (apply (step_Base _ _ _ _ _ Ht HB1)).
  pose proof (own_leads _ _ _ _ _ _ _ HB2 Hn Hx2 HO) as (_ & _ & (c1 & E1 & _ & _ & Hcar) & _). apply Hcar.
  apply elem_of_list_split in Hin as (g1 & g2 & ->). apply exec_app in Hx2 as (s3 & _ & Hx3). inversion Hx3 as [|? ? ? s4 ? ? Hs Hx4]; subst.
  assert (exists c', y_calls s4 !! r = Some c' /\ k_stage c' = Over (Some true)) as (c' & E & H).
  { cbn [kstep] in Hs. destruct (y_calls s3 !! r) as [c0|] eqn:E0; [|by injection Hs as <- <-]. destruct (k_stage c0); injection Hs as <- <-; try done. exists (set_stage (Over (Some true)) c0). split; [|done]. cbn. apply list_lookup_insert. by eapply lookup_lt_Some. }
  destruct (over_leads _ _ _ _ _ _ _ Hx4 E H) as (c2 & E2 & H2). right. congruence.
Qed.
Lemma min_lim l k : (if l <? k then l else k) = Z.min l k.
Proof. destruct (Z.ltb_spec l k); lia. Qed.
Lemma scale_size kc h1 s1 n k r s2 h2 s : kreach kc h1 s1 -> answered s1 n -> nothing_left s1 n -> taken kc s1 n (KScale k) r s2 -> kleads kc s2 h2 s -> no_request n h2 -> returned r h2 ->
  exists c, lookup_cluster n (f_gw (y_fleet s1)) = Some c /\ size_wanted s n = at_most_limit c k /\ ad (adapter s n) = AOff.
Proof.
  intros Hx Ha Hl Ht Hx2 Hn Hr. destruct (carried_out _ _ _ _ _ _ _ _ _ Hx Ha Hl Ht Hx2 Hn Hr) as (c & Hc & H). exists c. split; [done|].
  assert (Base s) as [HB _].
  { apply (leads_Base kc (kinit kc) (h1 ++ (KAsk n (KScale k), KObs [] (KTaken r)) :: h2)); [|apply init_Base]. apply exec_app. exists s1. split; [done|]. econstructor; [exact Ht|done]. }
  unfold bounded, at_most_limit in *. rewrite <- HB. destruct (r_max (c_row c)); cbn [settled] in H; destruct H as [H1 H2]; rewrite ?H2; [by rewrite min_lim|done].
Qed.
Lemma leads_limit kc h1 s1 h s n c1 c : fids_ok (k_fleet kc) (fleet_part (h1 ++ h)) -> kreach kc h1 s1 -> kleads kc s1 h s ->
  lookup_cluster n (f_gw (y_fleet s1)) = Some c1 -> lookup_cluster n (f_gw (y_fleet s)) = Some c -> r_max (c_row c) = r_max (c_row c1).
Proof.
  intros Hid Hx Hx2 H1 H2. rewrite fpart_app in Hid. destruct (fids_app _ _ _ Hid) as [Hid1 Hid2]. pose proof (leads_fleet _ _ _ _ Hx) as Hf. pose proof (leads_fleet _ _ _ _ Hx2) as Hf2.
  destruct (parts _ _ _ Hf) as [HG _]. assert (freach (k_fleet kc) (fleet_part h1 ++ fleet_part h) (y_fleet s)) as Hf3 by (apply exec_app; exists (y_fleet s1); done).
  destruct (parts _ _ _ Hf3) as [HG3 _]. rewrite gw_app in HG3. apply reach_app in HG3 as (m & HGm & HL). rewrite (reach_same _ _ _ _ HGm HG) in HL.
  pose proof (reach_GInv _ _ _ Hid1 HG) as HGI. destruct (known_back _ _ _ _ n c Hid2 HGI HL) as (c0 & E0 & HLc); [|done|].
  - apply lookup_obj in H1 as [H1 _]. destruct HGI as [HI _]. by destruct (g_fresh _ _ _ _ HI n c1 H1).
  - rewrite H1 in E0. injection E0 as <-. by apply l_max in HLc.
Qed.

(** ** C117: the workers follow *)
Lemma scale_workers kc h1 s1 n k r s2 h2 s c : let h := h1 ++ (KAsk n (KScale k), KObs [] (KTaken r)) :: h2 in
  fids_ok (k_fleet kc) (fleet_part h) -> kreach kc h1 s1 -> answered s1 n -> nothing_left s1 n -> taken kc s1 n (KScale k) r s2 -> kleads kc s2 h2 s -> no_request n h2 -> returned r h2 ->
  in_order n (fleet_part h) -> up_to_date (fleet_part h) n -> on_air (y_fleet s) n c -> idle (f_gw (y_fleet s)) ->
  Z.of_nat (n_connected (y_fleet s) n) <= at_most_limit c k -> none_left (k_fleet kc) (fleet_part h) n c ->
  Z.of_nat (length (List.filter wanted (c_workers c))) = at_most_limit c k /\
  forall x, x ∈ c_workers c -> wanted x = true -> connected (y_fleet s) n (w_name x) \/ w_status x = SUBMITTED.
Proof.
  intros h Hid Hx Ha Hl Ht Hx2 Hn Hr Ho Hup Hon Hidle Hle Hleft.
  destruct (scale_size _ _ _ _ _ _ _ _ _ Hx Ha Hl Ht Hx2 Hn Hr) as (c1 & Hc1 & Hsz & _).
  assert (kleads kc s1 ((KAsk n (KScale k), KObs [] (KTaken r)) :: h2) s) as Hx3 by (econstructor; [exact Ht|done]).
  assert (kreach kc h s) as Hx4 by (apply exec_app; exists s1; done).
  assert (r_max (c_row c) = r_max (c_row c1)) as Em by (destruct Hon as [Hlk _]; exact (leads_limit _ _ _ _ _ _ _ _ Hid Hx Hx3 Hc1 Hlk)).
  assert (asked_for (y_fleet s) n c = at_most_limit c k) as Eask.
  { unfold size_wanted in Hsz. unfold asked_for. rewrite Hsz. unfold at_most_limit. rewrite Em. destruct (r_max (c_row c1)); lia. }
  pose proof (leads_fleet _ _ _ _ Hx4) as Hf. rewrite <- Eask in *.
  destruct (size_right _ _ _ _ _ Hid Hf Ho Hup Hon Hidle Hle Hleft) as [H1 H2]. done.
Qed.

(** ** Adaptive scaling *)
Lemma adapt_bounds kc h1 s1 n mn mx r s2 h2 s : kreach kc h1 s1 -> answered s1 n -> nothing_left s1 n -> taken kc s1 n (KAdapt mn mx) r s2 -> kleads kc s2 h2 s -> no_request n h2 -> returned r h2 ->
  exists c, lookup_cluster n (f_gw (y_fleet s1)) = Some c /\ adapting s n /\ bounds s n = with_limit c mn mx.
Proof.
  intros Hx Ha Hl Ht Hx2 Hn Hr. destruct (carried_out _ _ _ _ _ _ _ _ _ Hx Ha Hl Ht Hx2 Hn Hr) as (c & Hc & H). exists c. split; [done|].
  unfold bounded, with_limit, bounds, adapting in *. destruct (r_max (c_row c)) as [l|]; [|by destruct H as (? & -> & ->)].
  destruct (l <? default l mx) eqn:E1, (l <? default 0 mn) eqn:E2; cbn [orb settled] in H; destruct H as (H1 & H2 & H3); (split; [done|]); rewrite H2, H3; try done.
  apply Z.ltb_ge in E1, E2. by rewrite !Z.min_r.
Qed.
Lemma adapt_off kc h1 s1 n r s2 h2 s : kreach kc h1 s1 -> answered s1 n -> nothing_left s1 n -> taken kc s1 n KOff r s2 -> kleads kc s2 h2 s -> no_request n h2 -> returned r h2 ->
  ad (adapter s n) = AOff.
Proof.
  intros Hx Ha Hl Ht Hx2 Hn Hr. destruct (carried_out _ _ _ _ _ _ _ _ _ Hx Ha Hl Ht Hx2 Hn Hr) as (c & Hc & H). unfold bounded in H. by destruct (r_max (c_row c)).
Qed.

(** ** C118: never over the limit *)
Definition under (l : Z) (a : ask) : Prop := match a with KScale k => k <= l | KAdapt _ mx => exists m, mx = Some m /\ m <= l | KOff => True end.
Definition Alim (l : Z) (x : Adapt_Model.state) : Prop :=
  Adapt_Model.count x <= l /\ Forall (fun t => t <= l) (window x) /\ Forall (fun y => match snd y with Some k => k <= l | None => True end) (waiting x) /\
  (ad x <> AOff -> exists m, maximum x = Some m /\ m <= l).
Lemma bounded_under l a : under l (bounded (Some l) a).
Proof.
  destruct a as [k|mn mx|]; cbn; [destruct (Z.ltb_spec l k); lia| |done]. destruct (Z.ltb_spec l (default l mx)); cbn; [eexists; split; [done|lia]|].
  destruct (Z.ltb_spec l (default 0 mn)); eexists; (split; [done|]); lia.
Qed.
Lemma sizes_le l xs c : c <= l -> Forall (fun y : nat * option Z => match snd y with Some k => k <= l | None => True end) xs -> fold_left set_size (map snd xs) c <= l.
Proof. intros Hc Hf. revert c Hc. induction Hf as [|[y [k|]] xs Hy Hf IH]; intros c Hc; cbn; [done|by apply IH|by apply IH]. Qed.
Lemma maxl_le l xs m : Forall (fun t => t <= l) xs -> maxl xs = Some m -> m <= l.
Proof.
  destruct xs as [|x xs]; [done|]. intros [Hx Hf]%Forall_cons [= <-]. revert x Hx. induction Hf as [|y xs Hy Hf IH]; intros x Hx; cbn; [done|]. apply IH. lia.
Qed.
Lemma alim_step w l st e st' o : (forall x a, e = ask_event x a -> under l a) -> Alim l st -> Adapt_Model.step w st e = (st', o) -> Alim l st'.
Proof.
  intros He (H1 & H2 & H3 & H4) Hs. destruct e as [mn mx|r|r k| |x sl|]; cbn [Adapt_Model.step] in Hs.
  - destruct (He 0%nat (KAdapt mn mx) eq_refl) as (m & -> & Hm). destruct (ad st) eqn:Ea; injection Hs as <- <-; unfold Alim; cbn; eauto 10.
  - unfold off in Hs. destruct (ad st) eqn:Ea; injection Hs as <- <-; unfold Alim; cbn; (do 2 (split; [done|])); (split; [rewrite ?Forall_app, ?Forall_singleton; auto|]); first [done|intros _; by apply H4].
  - pose proof (He r (KScale k) eq_refl) as Hk. unfold off in Hs. destruct (ad st) eqn:Ea; injection Hs as <- <-; unfold Alim; cbn; (do 2 (split; [done|])); (split; [rewrite ?Forall_app, ?Forall_singleton; auto|]); first [done|intros _; by apply H4].
  - destruct (ad st) eqn:Ea; try (injection Hs as <- <-; unfold Alim; rewrite Ea; done). unfold ended in Hs. injection Hs as <- <-. unfold Alim. cbn. split; [by apply sizes_le|]. done.
  - destruct (ad st) eqn:Ea; try (injection Hs as <- <-; unfold Alim; rewrite Ea; done). unfold turn in Hs. destruct x as [x|]; injection Hs as <- <-; [|unfold Alim; rewrite Ea; done].
    destruct H4 as (m & Em & Hm); [done|]. assert (clamp st x <= l) as Ht by (unfold clamp; rewrite Em; lia).
    assert (Forall (fun t => t <= l) (append w (window st) (clamp st x))) as Hw by (unfold append; apply Forall_drop, Forall_app; split; [done|by apply Forall_singleton]).
    unfold Alim. cbn. split; [|eauto 10]. unfold decide_size. destruct (_ <? _); [done|]. destruct (_ <? _); [|done]. destruct (maxl _) as [y|] eqn:Ey; [|done]. destruct (_ <? _); [|done]. by apply (maxl_le l) in Ey.
  - destruct (ad st) eqn:Ea; injection Hs as <- <-; unfold Alim; cbn; rewrite ?Ea; (do 3 (split; [done|])); first [done|intros _; by apply H4].
Qed.
Definition Lim (n : nat) (l : Z) (s : sys) : Prop :=
  (forall p, p ∈ y_wire s -> p_cluster p = n -> under l (p_ask p)) /\ Alim l (adapter s n) /\ (forall r c, y_calls s !! r = Some c -> k_cluster c = n -> under l (k_ask c)).
Definition same_asks (cs cs' : list call) : Prop := map (fun c => (k_cluster c, k_ask c)) cs' = map (fun c => (k_cluster c, k_ask c)) cs.
Lemma same_under n l cs cs' : same_asks cs cs' -> (forall (r : nat) c, cs !! r = Some c -> k_cluster c = n -> under l (k_ask c)) -> forall (r : nat) c, cs' !! r = Some c -> k_cluster c = n -> under l (k_ask c).
Proof.
  intros Hs H r c E En. assert (map (fun c => (k_cluster c, k_ask c)) cs' !! r = Some (n, k_ask c)) as E1 by (rewrite list_lookup_fmap, E; cbn; by rewrite En).
  rewrite Hs, list_lookup_fmap in E1. destruct (cs !! r) as [c0|] eqn:E0; [|done]. injection E1 as E1 E2. rewrite <- E2. by apply (H r).
Qed.
Lemma same_map f cs : (forall c, k_cluster (f c) = k_cluster c /\ k_ask (f c) = k_ask c) -> same_asks cs (map f cs).
Proof. intros H. unfold same_asks. rewrite map_map. apply map_ext. intros c. by destruct (H c) as [-> ->]. Qed.
Lemma same_reply n l cs : same_asks cs (map (reply n l) cs).
Proof. apply same_map. intros c. destruct (reply_spec n l c) as [->|(-> & _)]; done. Qed.
Lemma same_set cs (r : nat) c c' : cs !! r = Some c -> k_cluster c' = k_cluster c -> k_ask c' = k_ask c -> same_asks cs (<[r := c']> cs).
Proof. intros E E1 E2. unfold same_asks. 
  change ((fun c => (k_cluster c, k_ask c)) <$> <[r := c']> cs = (fun c => (k_cluster c, k_ask c)) <$> cs).
  rewrite list_fmap_insert. apply list_insert_id. rewrite list_lookup_fmap, E. cbn. by rewrite E1, E2. Qed.
Lemma elem_delete {A} (i : nat) (x : A) (l : list A) : x ∈ delete i l -> x ∈ l.
Proof. rewrite delete_take_drop. intros [H|H]%elem_of_app; apply elem_of_list_lookup in H as [j H]; [apply lookup_take_Some in H as [H _]|rewrite lookup_drop in H]; by eapply elem_of_list_lookup_2. Qed.
Lemma serve_lim kc n l m e s s' o : (m = n -> forall x a, e = ask_event x a -> under l a) -> serve kc m e s = (s', o) -> Lim n l s -> Lim n l s'.
Proof.
  intros He Hs (H1 & H2 & H3). destruct (Adapt_Model.step (k_window kc) (adapter s m) e) as [a' ao] eqn:Ea. destruct (serve_does _ _ _ _ _ _ _ _ Ea Hs) as (Ew & _ & _ & Ec & Ead & _).
  split; [by rewrite Ew|]. split.
  - rewrite Ead. case_decide as Em; [|done]. subst m. eapply alim_step; eauto.
  - rewrite Ec. eapply same_under; [apply same_reply|done].
Qed.
Lemma lim_same n l s s' : y_wire s' = y_wire s -> y_adapt s' = y_adapt s -> same_asks (y_calls s) (y_calls s') -> Lim n l s -> Lim n l s'.
Proof. intros E1 E2 E3 (H1 & H2 & H3). split; [by rewrite E1|]. split; [unfold adapter; by rewrite E2|]. by eapply same_under. Qed.
Lemma lim_step kc n l s e s' o : (forall c, lookup_cluster n (f_gw (y_fleet s)) = Some c -> r_max (c_row c) = Some l) -> kstep kc s e = (s', o) -> Lim n l s -> Lim n l s'.
Proof.
  intros Hm Hs HL. destruct e as [e|m a|i|i|r ok|r|m|m x sl|m]; cbn [kstep] in Hs.
  7-9: (eapply serve_lim; [|exact Hs|exact HL]; intros _ x0 [? | ? ? |]; done).
  - destruct (fleet_event e); [|by injection Hs as <- <-]. rewrite in_fleet_eq in Hs. injection Hs as <- <-. destruct (restarts e); (eapply lim_same; [..|exact HL]; [done|done|]); cbn.
    + apply same_map. intros c. unfold cut. by destruct (k_stage c).
    + done.
  - destruct (lookup_cluster m (f_gw (y_fleet s))) as [c|] eqn:El; [|by injection Hs as <- <-]. destruct (_ && _); injection Hs as <- <-; [|done]. destruct HL as (H1 & H2 & H3).
    assert (m = n -> under l (bounded (r_max (c_row c)) a)) as Hu. { intros ->. rewrite (Hm c El). apply bounded_under. }
    unfold send, set_calls. cbn. split; [|split].
    + intros p Hp En. apply elem_of_app in Hp as [Hp|Hp]; [by apply H1|]. apply elem_of_list_singleton in Hp as ->. cbn in *. auto.
    + exact H2.
    + intros r c' E En. cbn in E. rewrite insert_app_r_alt, Nat.sub_diag in E by lia. apply lookup_app_Some in E as [E|[_ E]]; [by apply (H3 r)|].
      apply list_lookup_singleton_Some in E as [_ <-]. cbn in *. auto.
  - destruct (y_wire s !! i) as [p|] eqn:Ei; [|by injection Hs as <- <-]. assert (p_cluster p = n -> under l (p_ask p)) as Hu by (intros; apply HL; [by eapply elem_of_list_lookup_2|done]).
    assert (Lim n l (set_wire (delete i (y_wire s)) s)) as HL2.
    { destruct HL as (H1 & H2 & H3). split; [|done]. intros p0 Hp. apply H1. by apply (elem_delete i). }
    unfold comm in Hs. destruct (p_ask p) as [k|mn mx|] eqn:Ep.
    + eapply serve_lim; [|exact Hs|exact HL2]. intros E x [k0| |] [= _ <-]. auto.
    + destruct (serve _ _ _ _) as [s1 o1] eqn:Es. injection Hs as <- <-. eapply lim_same; [..|eapply serve_lim; [|exact Es|exact HL2]]; [done|done|apply same_reply|]. intros E x [|mn0 mx0|] [= <- <-]. auto.
    + eapply serve_lim; [|exact Hs|exact HL2]. intros E x [k0| |] [=]. done.
  - injection Hs as <- <-. destruct HL as (H1 & H2 & H3). split; [|done]. intros p0 Hp. apply H1. by apply (elem_delete i).
  - destruct (y_calls s !! r) as [c0|] eqn:E0; [|by injection Hs as <- <-]. destruct (k_stage c0) eqn:Est, ok; try (by injection Hs as <- <-).
    2: injection Hs as <- <-; eapply lim_same; [..|exact HL]; [done|done|by eapply same_set].
    all: destruct (decide _); [injection Hs as <- <-|rewrite in_fleet_eq in Hs; injection Hs as <- <-]; eapply lim_same; [..|exact HL| | | |exact HL]; try done; by eapply same_set.
  - destruct (y_calls s !! r) as [c0|] eqn:E0; [|by injection Hs as <- <-]. destruct (k_stage c0) eqn:Est; try (by injection Hs as <- <-). injection Hs as <- <-. destruct HL as (H1 & H2 & H3). unfold send. cbn. split; [|split; [done|]].
    + intros p Hp En. apply elem_of_app in Hp as [Hp|Hp]; [by apply H1|]. apply elem_of_list_singleton in Hp as ->. cbn in *. by apply (H3 r).
    + cbn. eapply same_under; [by eapply same_set|done].
Qed.
Lemma lim_reach kc n l h s : 0 <= l -> (forall h1 h2 s1 c, h = h1 ++ h2 -> kreach kc h1 s1 -> kleads kc s1 h2 s -> lookup_cluster n (f_gw (y_fleet s1)) = Some c -> r_max (c_row c) = Some l) -> kreach kc h s -> Lim n l s.
Proof.
  intros Hl Hall Hx. revert Hall. unfold kreach in Hx. pattern h, s. revert h s Hx. apply (exec_ind_r (kstep kc) (kinit kc)).
  - intros _. split; [intros p Hp; by apply elem_of_nil in Hp|]. split; [|done]. unfold adapter. cbn. rewrite lookup_empty. cbn. unfold Alim. cbn. split; [done|]. split; [done|]. split; [done|]. done.
  - intros h s e o s' Hx IH Hs Hall. eapply lim_step; [|exact Hs|].
    + intros c Hc. apply (Hall h [(e, o)] s c); [done|done| |done]. econstructor; [exact Hs|constructor].
    + apply IH. intros h1 h2 s1 c -> Hx1 Hx2. apply (Hall h1 (h2 ++ [(e, o)]) s1); [by rewrite app_assoc|done|]. apply exec_app. exists s. split; [done|]. econstructor; [exact Hs|constructor].
Qed.
Lemma limit_kept kc h s n c l : fids_ok (k_fleet kc) (fleet_part h) -> kreach kc h s -> lookup_cluster n (f_gw (y_fleet s)) = Some c -> r_max (c_row c) = Some l -> 0 <= l -> size_wanted s n <= l.
Proof.
  intros Hid Hx Hc Hm Hl. assert (Lim n l s) as (_ & [H _] & _).
  { apply (lim_reach kc n l h); [done| |done]. intros h1 h2 s1 c1 -> Hx1 Hx2 Hc1. rewrite <- Hm. symmetry. exact (leads_limit _ _ _ _ _ _ _ _ Hid Hx1 Hx2 Hc1 Hc). }
  assert (Base s) as [HB _] by (apply (leads_Base kc (kinit kc) h); [done|apply init_Base]). by rewrite <- HB.
Qed.

(** ** Sizes chosen by the adaptive loop *)
Lemma lift_step kc n a r (P : Adapt_Model.state -> Prop) s e s' o :
  (forall x y z w, Aok x -> wait_ok a x -> inner y \/ (exists i, y = ask_event i a) -> Adapt_Model.step (k_window kc) x y = (z, w) -> P x -> P z) ->
  Base s -> (forall x, e <> KAsk n x) -> kstep kc s e = (s', o) -> Own n a r s -> P (adapter s n) -> P (adapter s' n).
Proof.
  intros HP [_ HA] He Hs (HW & Hw & _) H.
  assert (forall m e s0 s' o, adapter s0 n = adapter s n -> (m = n -> inner e \/ (exists i, e = ask_event i a)) -> serve kc m e s0 = (s', o) -> P (adapter s' n)) as HS.
  { intros m y s0 s3 o0 E0 Hy Hs0. destruct (Adapt_Model.step (k_window kc) (adapter s0 m) y) as [a' ao] eqn:Ea. destruct (serve_does _ _ _ _ _ _ _ _ Ea Hs0) as (_ & _ & _ & _ & Ead & _).
    rewrite Ead. case_decide as Em; [|by rewrite E0]. subst m. rewrite E0 in Ea. eapply HP; eauto. }
  destruct e as [e|m x|i|i|r0 ok|r0|m|m x sl|m]; cbn [kstep] in Hs.
  7-9: (eapply HS; [reflexivity| |exact Hs]; intros _; by left).
  - destruct (fleet_event e); [|by injection Hs as <- <-]. rewrite in_fleet_eq in Hs. injection Hs as <- <-. by destruct (restarts e).
  - destruct (lookup_cluster _ _); [|by injection Hs as <- <-]. destruct (_ && _); injection Hs as <- <-; done.
  - destruct (y_wire s !! i) as [p|] eqn:Ei; [|by injection Hs as <- <-]. assert (p_cluster p = n -> p_ask p = a) as Hu by (intros; apply HW; [by eapply elem_of_list_lookup_2|done]).
    unfold comm in Hs. destruct (p_ask p) as [k|mn mx|] eqn:Ep.
    + eapply HS; [|  |exact Hs]; [done|]. intros E. rewrite <- (Hu E). right. eexists. reflexivity.
    + destruct (serve _ _ _ _) as [s3 o3] eqn:Es. injection Hs as <- <-. change (P (adapter s3 n)). eapply HS; [| |exact Es]; [done|]. intros E. rewrite <- (Hu E). right. exists 0%nat. reflexivity.
    + eapply HS; [|  |exact Hs]; [done|]. intros E. rewrite <- (Hu E). right. eexists. reflexivity.
  - by injection Hs as <- <-.
  - destruct (y_calls s !! r0) as [c0|] eqn:E0; [|by injection Hs as <- <-]. destruct (k_stage c0) eqn:Est, ok; try (by injection Hs as <- <-).
    all: destruct (decide _); [injection Hs as <- <-|rewrite in_fleet_eq in Hs; injection Hs as <- <-]; done.
  - destruct (y_calls s !! r0) as [c0|] eqn:E0; [|by injection Hs as <- <-]. destruct (k_stage c0) eqn:Est; by injection Hs as <- <-.
Qed.
Lemma lift_leads kc n a r (P : Adapt_Model.state -> Prop) s h s' :
  (forall x y z w, Aok x -> wait_ok a x -> inner y \/ (exists i, y = ask_event i a) -> Adapt_Model.step (k_window kc) x y = (z, w) -> P x -> P z) ->
  Base s -> no_request n h -> kleads kc s h s' -> Own n a r s -> P (adapter s n) -> P (adapter s' n).
Proof.
  intros HP HB Hn Hx. revert HB Hn. induction Hx as [|s e o s1 h s2 Hs Hx IH]; intros HB Hn HO H; [done|].
  assert (forall x, e <> KAsk n x) as He by (intros x ->; apply (Hn x o); by left).
  apply IH; [by apply (step_Base _ _ _ _ _ Hs)|intros a0 o0 Hin; apply (Hn a0 o0); by right|by eapply own_step|by eapply lift_step].
Qed.
Definition Ready (mn mx : option Z) (x : Adapt_Model.state) : Prop := ad x = AOff \/ settled (KAdapt mn mx) x /\ Forall (within mn mx) (window x).
Definition Turned (mn mx : option Z) (x : Adapt_Model.state) : Prop := settled (KAdapt mn mx) x /\ Forall (within mn mx) (window x) /\ within mn mx (Adapt_Model.count x).
Lemma turn_in w (H0 : (w <> 0)%nat) mn mx x t sl z o : sensible mn mx -> settled (KAdapt mn mx) x -> Forall (within mn mx) (window x) -> ad x = ASleep -> Adapt_Model.step w x (ETick (Some t) sl) = (z, o) -> Turned mn mx z.
Proof.
  intros Hb [Ha [E1 E2]] Hf Ea Hs. assert (exists t', o = OTarget t') as [t' ->] by (cbn [Adapt_Model.step] in Hs; rewrite Ea in Hs; unfold turn in Hs; injection Hs as <- <-; eauto).
  destruct (within_run w H0 mn mx [(ETick (Some t) sl, OTarget t')] Hb) with (s := x) (s' := z) as (I1 & I2 & I3 & I4 & I5 & I6); try done.
  { apply Forall_singleton. cbn. tauto. } { econstructor; [exact Hs|constructor]. }
  cbn [turns] in *. assert (Forall (within mn mx) (window z)) as Hz.
  { rewrite I4. apply Forall_forall. intros y Hy. apply lastn_sub in Hy. revert y Hy. apply Forall_forall. by apply Forall_app. }
  split; [done|]. split; [done|]. by apply I6.
Qed.
Lemma ready_step w (H0 : (w <> 0)%nat) mn mx x y z o : sensible mn mx -> Aok x -> wait_ok (KAdapt mn mx) x -> inner y \/ (exists i, y = ask_event i (KAdapt mn mx)) -> Adapt_Model.step w x y = (z, o) ->
  (Ready mn mx x -> Ready mn mx z) /\ (Turned mn mx x -> Turned mn mx z).
Proof.
  intros Hb HA HW Hy Hs. destruct Hy as [Hi|[i ->]].
  - destruct (settle_inner _ _ _ _ _ _ Hi HA HW Hs) as (_ & Hset & _).
    assert (settled (KAdapt mn mx) x -> Forall (within mn mx) (window x) -> Turned mn mx z \/ window z = window x /\ Adapt_Model.count z = Adapt_Model.count x) as Hd.
    { intros Hse Hf. destruct y as [| | | |t sl|]; try done.
      - right. cbn [Adapt_Model.step] in Hs. destruct (ad x) eqn:Ea; try (by injection Hs as <- <-). destruct Hse as [Hse _]. rewrite Ea in Hse. by destruct Hse.
      - destruct t as [t|]; [|right; cbn [Adapt_Model.step] in Hs; destruct (ad x); by injection Hs as <- <-]. destruct (ad x) eqn:Ea.
        2: left; by eapply turn_in. all: right; cbn [Adapt_Model.step] in Hs; rewrite Ea in Hs; by injection Hs as <- <-.
      - right. cbn [Adapt_Model.step] in Hs. destruct (ad x); by injection Hs as <- <-. }
    split.
    + intros [Ha|[Hse Hf]].
      * left. destruct y as [| | | |t sl|]; try done; cbn [Adapt_Model.step] in Hs; rewrite Ha in Hs; by injection Hs as <- <-.
      * right. destruct (Hd Hse Hf) as [(? & ? & _)|[-> _]]; [done|]. auto.
    + intros (Hse & Hf & Hc). destruct (Hd Hse Hf) as [?|[Ew Ec]]; [done|]. unfold Turned. rewrite Ew, Ec. auto.
  - cbn [ask_event Adapt_Model.step] in Hs. destruct HA as [HA1 HA2], HW as [_ HW]. unfold Ready, Turned, settled. destruct (ad x) eqn:Ea; injection Hs as <- <-; cbn; rewrite ?Ea.
    + split; [intros _; right; split; [auto|done]|]. by intros [[[?|?] _] _].
    + split; [|by intros (? & ? & ?); auto]. intros [?|[? ?]]; [done|]. right. split; [|done]. auto.
    + split; [|by intros (? & ? & ?); auto]. intros [?|[? ?]]; [done|]. right. split; [|done]. auto.
    + exfalso. by apply HA2.
Qed.
Lemma adapt_size kc h1 s1 n mn mx r s2 h2 s3 x sl s4 o h3 s :
  k_window kc <> 0%nat -> kreach kc h1 s1 -> answered s1 n -> nothing_left s1 n -> ad (adapter s1 n) = AOff -> taken kc s1 n (KAdapt mn mx) r s2 ->
  kleads kc s2 h2 s3 -> ad (adapter s3 n) = ASleep -> kstep kc s3 (KTick n (Some x) sl) = (s4, o) -> kleads kc s4 h3 s -> no_request n (h2 ++ h3) ->
  exists c, lookup_cluster n (f_gw (y_fleet s1)) = Some c /\ let b := with_limit c mn mx in sensible (fst b) (snd b) -> within (fst b) (snd b) (size_wanted s n).
Proof.
  intros H0 Hx Ha Hl Hoff Ht Hx2 Hsl Hs Hx3 Hn. destruct (own_taken _ _ _ _ _ _ Ha Hl Ht) as (c & Hc & _ & HO & _ & Ead). exists c. split; [done|].
  assert (exists mn' mx', bounded (r_max (c_row c)) (KAdapt mn mx) = KAdapt mn' mx' /\ with_limit c mn mx = (mn', mx')) as (mn' & mx' & Eb & Ew).
  { unfold bounded, with_limit. destruct (r_max (c_row c)) as [l|]; [|eauto]. destruct (l <? default l mx) eqn:E1, (l <? default 0 mn) eqn:E2; cbn [orb]; eauto. apply Z.ltb_ge in E1, E2. rewrite !Z.min_r by done. eauto. }
  rewrite Ew. cbn. intros Hb. rewrite Eb in HO. assert (Base s1) as HB1 by (apply (leads_Base kc (kinit kc) h1); [done|apply init_Base]). assert (Base s2) as HB2 by (apply (step_Base _ _ _ _ _ Ht HB1)).
  assert (no_request n h2) as Hn2 by (intros a0 o0 Hin; apply (Hn a0 o0); apply elem_of_app; by left). assert (no_request n h3) as Hn3 by (intros a0 o0 Hin; apply (Hn a0 o0); apply elem_of_app; by right).
  assert (Base s3) as HB3 by (by apply (leads_Base _ _ _ _ Hx2)). assert (Base s4) as HB4 by (by apply (step_Base _ _ _ _ _ Hs)).
  pose proof (own_leads _ _ _ _ _ _ _ HB2 Hn2 Hx2 HO) as HO3.
  assert (Own n (KAdapt mn' mx') r s4) as HO4 by (eapply own_step; [exact HB3| |exact Hs|done]; done).
  assert (Ready mn' mx' (adapter s3 n)) as HR.
  { eapply (lift_leads kc n (KAdapt mn' mx') r (Ready mn' mx') s2 h2); [|done..|]; [|left; by rewrite Ead]. intros y z u v I1 I2 I3 I4. by destruct (ready_step _ H0 _ _ _ _ _ _ Hb I1 I2 I3 I4). }
  assert (Turned mn' mx' (adapter s4 n)) as HT.
  { cbn [kstep] in Hs. destruct (Adapt_Model.step (k_window kc) (adapter s3 n) (ETick (Some x) sl)) as [a' ao] eqn:Ea. destruct (serve_does _ _ _ _ _ _ _ _ Ea Hs) as (_ & _ & _ & _ & Ea4 & _).
    rewrite Ea4, decide_True by done. destruct HR as [HR|[HR1 HR2]]; [congruence|]. by eapply turn_in. }
  assert (Turned mn' mx' (adapter s n)) as (_ & _ & HT').
  { eapply (lift_leads kc n (KAdapt mn' mx') r (Turned mn' mx') s4 h3); [|done..]. intros y z u v I1 I2 I3 I4. by destruct (ready_step _ H0 _ _ _ _ _ _ Hb I1 I2 I3 I4). }
  assert (Base s) as [HB _] by (by apply (leads_Base _ _ _ _ Hx3)). by rewrite <- HB.
Qed.
