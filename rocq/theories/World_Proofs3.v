From Coq Require Import Ascii String ZArith Lia.
From stdpp Require Import prelude gmap.
From Verif Require Import Trace Router_Model Router_Spec Router_Proofs ProxyLog_Model ProxyLog_Spec ProxyLog_Proofs
  Sni_Model Sni_Spec Sni_Proofs WorkQueue_Model Gateway_Model Gateway_Spec Gateway_Inv Gateway_Steps4 Gateway_Sync Gateway_Restart Gateway_Hist
  World_Gw World_Model World_Spec World_Net World_Proofs World_Proofs2.
Open Scope Z_scope.

Section proofs.
Context (wc : wcfg).
Notation cf := (wc_gw wc). Notation prefix := (wc_prefix wc). Notation mx := (wc_max wc). Notation parse := (wc_parse wc). Notation nm := (wc_name wc).
Notation hist := (list (wevent * wobs)).
Notation rt := (rt wc). Notation src := (src wc). Notation nsrc := (nsrc wc). Notation past := (past wc).

(** ** one step of the gateway and its calls *)
Inductive ccase (s s' : gw) (cs : list ProxyLog_Model.event) : Prop :=
| cc_none : cs = [] -> routes s' = routes s -> ccase s s' cs
| cc_add n c : cs = add_calls wc n c -> objs s' !! n = Some c -> c_proxied c = true ->
    routes s' = with_routes n (r_sched (c_row c)) (r_dash (c_row c)) (routes s) -> ccase s s' cs
| cc_remove n : cs = remove_calls wc n -> routes s' = delete (RSNI, n) (delete (RPATH, n) (routes s)) -> ccase s s' cs.

Lemma stop_routes k o now s n : o = Ends \/ o = Raises -> busy s !! k = Some (InStopCluster n) ->
  routes (Gateway_Model.step cf s (EBackend k o now)).1 = delete (RSNI, n) (delete (RPATH, n) (routes s)).
Proof.
  intros Ho Hk. cbn [Gateway_Model.step]. unfold resume. rewrite Hk.
  assert (E : view (finish (n, None) (cluster_stopped n now (remove_routes n (release k s)))) = view (remove_routes n (release k s))).
  { by rewrite view_finish, view_stopped. }
  injection E as _ E. destruct Ho as [-> | ->]; exact E.
Qed.
Lemma step_ccase s e : crash e = false -> ccase s (Gateway_Model.step cf s e).1 (calls wc e s (Gateway_Model.step cf s e).1).
Proof.
  intros He. pose proof (step_vcase cf s e He) as HV.
  assert (Hb : forall k o now n, e = EBackend k o now -> o = Ends \/ o = Raises -> busy s !! k = Some (InStopCluster n) ->
    ccase s (Gateway_Model.step cf s e).1 (calls wc e s (Gateway_Model.step cf s e).1)).
  { intros k o now n -> Ho Hk. apply (cc_remove _ _ _ n); [|by apply stop_routes]. unfold calls. rewrite Hk. by destruct Ho as [-> | ->]. }
  destruct HV as [H|user info m now Ee H H'|n0 m now c0 Ee Hc0 Hst Ht H H'|n c Ee Hc Hp H H'|k o now n Ee Ho Hk H H'].
  - injection H as H H'. unfold calls in *. pose proof (newly_same _ _ H) as Hn.
    destruct e as [| | | | | | | | |k now|k now|k o now| | |]; try (by apply cc_none); try (apply cc_none; [by rewrite Hn|done]).
    destruct o; try (by apply cc_none); destruct (busy s !! k) as [[]|] eqn:Hk; try (by apply cc_none); eapply Hb; eauto.
  - apply cc_none; [by subst e|done].
  - apply cc_none; [by subst e|done].
  - destruct (newly_one _ _ _ _ Hc Hp H) as (c' & Hn & Ea & Hc' & Hp'). apply (cc_add _ _ _ n c'); [|done|done|].
    + destruct Ee as (k & now & [Ee|Ee]); unfold calls; rewrite Ee in *; rewrite Hn; simpl; by rewrite app_nil_r.
    + unfold adr in Ea. injection Ea as _ E2 E3. rewrite E2, E3. done.
  - eapply Hb; eauto.
Qed.
Lemma step_rows s e n c' : crash e = false -> objs (Gateway_Model.step cf s e).1 !! n = Some c' ->
  adr c' = ([], [], []) \/ (exists c, objs s !! n = Some c /\ adr c' = adr c) \/
  exists m now, e = EHeartbeat n m now /\ adr c' = (m_api m, m_sched m, m_dash m).
Proof.
  intros He Hc'. pose proof (step_vcase cf s e He) as HV. set (s' := (Gateway_Model.step cf s e).1) in *.
  assert (Hsame : face s' !! n = face s !! n -> exists c, objs s !! n = Some c /\ adr c' = adr c).
  { intros E. destruct (face_inv s' s n c') as (c & Hc & E2); [done|done|]. exists c. split; [done|]. injection E2 as E3 E4 E5 _. unfold adr. congruence. }
  assert (Hf : face s' !! n = Some (fc c')) by (rewrite face_lookup, Hc'; done).
  destruct HV as [H|user info m now Ee H H'|n0 m now c0 Ee Hc0 Hst Ht H H'|n0 c Ee Hc Hp H H'|k o now n0 Ee Ho Hk H H'].
  - right. left. apply Hsame. injection H as H _. by rewrite H.
  - destruct (decide (uuid s = n)) as [E|Hn].
    + left. rewrite H, E, lookup_insert in Hf. injection Hf as E1 E2 E3 _. unfold adr. congruence.
    + right. left. apply Hsame. by rewrite H, lookup_insert_ne.
  - destruct (decide (n0 = n)) as [E|Hn].
    + right. right. exists m, now. rewrite H, E, lookup_insert in Hf. injection Hf as E1 E2 E3 _. subst n0. split; [done|]. unfold adr. congruence.
    + right. left. apply Hsame. by rewrite H, lookup_insert_ne.
  - destruct (decide (n0 = n)) as [E|Hn].
    + right. left. exists c. subst n0. split; [done|]. rewrite H, lookup_insert in Hf. injection Hf as E1 E2 E3 _. unfold adr. congruence.
    + right. left. apply Hsame. by rewrite H, lookup_insert_ne.
  - right. left. apply Hsame. by rewrite H.
Qed.

(** ** the table *)
Lemma rt_insert_sni R n t key a : names_good wc -> rt (<[(RSNI, n) := t]> R) key a <-> if decide (key = (SNI, nm n)) then a = t else rt R key a.
Proof.
  intros Hn. unfold World_Proofs2.rt. split.
  - intros [[-> ->]|(n' & [[-> H]|[-> H]])].
    + rewrite decide_False by done. by left.
    + destruct (decide (n' = n)) as [->|Hne].
      * rewrite lookup_insert in H. rewrite decide_True by done. congruence.
      * rewrite lookup_insert_ne in H by congruence. rewrite decide_False; [right; exists n'; auto|]. intros [= E]. apply Hn in E. done.
    + rewrite decide_False by done. rewrite lookup_insert_ne in H by done. right. exists n'. auto.
  - destruct (decide (key = (SNI, nm n))) as [->|Hk].
    + intros ->. right. exists n. left. by rewrite lookup_insert.
    + intros [[-> ->]|(n' & [[-> H]|[-> H]])]; [by left| |]; right; exists n'.
      * left. rewrite lookup_insert_ne; [done|]. congruence.
      * right. by rewrite lookup_insert_ne.
Qed.
Lemma rt_insert_path R n t key a : names_good wc ->
  rt (<[(RPATH, n) := t]> R) key a <-> if decide (key = (PATH, prefix ++ path_of wc n)) then a = t else rt R key a.
Proof.
  intros Hn. unfold World_Proofs2.rt. split.
  - intros [[-> ->]|(n' & [[-> H]|[-> H]])].
    + rewrite decide_False; [by left|]. intros [= E]. by apply path_not_root in E.
    + rewrite decide_False by done. rewrite lookup_insert_ne in H by done. right. exists n'. auto.
    + destruct (decide (n' = n)) as [->|Hne].
      * rewrite lookup_insert in H. rewrite decide_True by done. congruence.
      * rewrite lookup_insert_ne in H by congruence. rewrite decide_False; [right; exists n'; auto|]. intros E. injection E as E. apply path_inj in E; done.
  - destruct (decide (key = (PATH, prefix ++ path_of wc n))) as [->|Hk].
    + intros ->. right. exists n. right. by rewrite lookup_insert.
    + intros [[-> ->]|(n' & [[-> H]|[-> H]])]; [by left| |]; right; exists n'.
      * left. by rewrite lookup_insert_ne.
      * right. rewrite lookup_insert_ne; [done|]. congruence.
Qed.
Lemma rt_delete_sni R n key a : names_good wc -> rt (delete (RSNI, n) R) key a <-> if decide (key = (SNI, nm n)) then False else rt R key a.
Proof.
  intros Hn. unfold World_Proofs2.rt. split.
  - intros [[-> ->]|(n' & [[-> H]|[-> H]])].
    + rewrite decide_False by done. by left.
    + destruct (decide (n' = n)) as [->|Hne]; [by rewrite lookup_delete in H|].
      rewrite lookup_delete_ne in H by congruence. rewrite decide_False; [right; exists n'; auto|]. intros [= E]. apply Hn in E. done.
    + rewrite decide_False by done. rewrite lookup_delete_ne in H by done. right. exists n'. auto.
  - destruct (decide (key = (SNI, nm n))) as [->|Hk]; [done|].
    intros [[-> ->]|(n' & [[-> H]|[-> H]])]; [by left| |]; right; exists n'.
    + left. rewrite lookup_delete_ne; [done|]. congruence.
    + right. by rewrite lookup_delete_ne.
Qed.
Lemma rt_delete_path R n key a : names_good wc ->
  rt (delete (RPATH, n) R) key a <-> if decide (key = (PATH, prefix ++ path_of wc n)) then False else rt R key a.
Proof.
  intros Hn. unfold World_Proofs2.rt. split.
  - intros [[-> ->]|(n' & [[-> H]|[-> H]])].
    + rewrite decide_False; [by left|]. intros [= E]. by apply path_not_root in E.
    + rewrite decide_False by done. rewrite lookup_delete_ne in H by done. right. exists n'. auto.
    + destruct (decide (n' = n)) as [->|Hne]; [by rewrite lookup_delete in H|].
      rewrite lookup_delete_ne in H by congruence. rewrite decide_False; [right; exists n'; auto|]. intros E. injection E as E. apply path_inj in E; done.
  - destruct (decide (key = (PATH, prefix ++ path_of wc n))) as [->|Hk]; [done|].
    intros [[-> ->]|(n' & [[-> H]|[-> H]])]; [by left| |]; right; exists n'.
    + left. by rewrite lookup_delete_ne.
    + right. rewrite lookup_delete_ne; [done|]. congruence.
Qed.

Definition same_table (L : list change) (R : gmap (rkind * nat) bytes) : Prop := forall key a, tab L key = Some a <-> rt R key a.
Lemma table_calls s s' cs L : names_good wc -> ccase s s' cs -> same_table L (routes s) -> same_table (grow prefix L cs) (routes s').
Proof.
  intros Hn HC HT. destruct HC as [-> ->|n c -> _ _ ->|n -> ->]; [done| |].
  - unfold add_calls, with_routes. intros key a. set (L1 := grow prefix L (if decide (r_dash (c_row c) = []) then [] else [SAdd PATH (path_of wc n) (r_dash (c_row c))])).
    assert (H1 : same_table L1 (match r_dash (c_row c) with [] => routes s | d => <[(RPATH, n) := d]> (routes s) end)).
    { unfold L1. destruct (r_dash (c_row c)) as [|x l]; [done|]. rewrite decide_False by done. intros key' a'.
      unfold grow. cbn [fold_left]. rewrite tab_add, rt_insert_path by done. cbn [reg]. case_decide; [|apply HT]. split; [by intros [= ->]|by intros ->]. }
    unfold grow. rewrite fold_left_app. fold (grow prefix). unfold grow in L1. fold L1. cbn [fold_left]. rewrite tab_add, rt_insert_sni by done. cbn [reg].
    case_decide; [|clearbody L1; specialize (H1 key a); destruct (r_dash (c_row c)); exact H1]. split; [by intros [= ->]|by intros ->].
  - unfold remove_calls, grow. cbn [fold_left]. intros key a. rewrite tab_remove, rt_delete_sni by done. cbn [reg]. case_decide; [done|].
    rewrite tab_remove, rt_delete_path by done. cbn [reg]. case_decide; [done|]. apply HT.
Qed.
Lemma calls_are_calls s s' cs e : ccase s s' cs -> e ∈ cs -> is_call e = true.
Proof.
  intros [-> _|n c -> _ _ _|n -> _]; [by intros H%elem_of_nil| |].
  - unfold add_calls. destruct (decide _); simpl; rewrite ?elem_of_cons; intros H; destruct_or?; subst; try done; by apply elem_of_nil in H.
  - unfold remove_calls. rewrite !elem_of_cons. intros H; destruct_or?; subst; try done. by apply elem_of_nil in H.
Qed.
Lemma calls_add s s' cs k x t : ccase s s' cs -> SAdd k x t ∈ cs -> src s' k (reg prefix k x) t.
Proof.
  intros HC Hin. destruct HC as [-> _|n c -> Hc Hp _|n -> _]; [by apply elem_of_nil in Hin| |].
  - right. exists n, c. split; [done|]. split; [done|]. unfold add_calls in Hin. apply elem_of_app in Hin as [Hin|Hin%elem_of_list_singleton].
    + destruct (decide _); [by apply elem_of_nil in Hin|]. apply elem_of_list_singleton in Hin. injection Hin as -> -> ->. right. done.
    + injection Hin as -> -> ->. left. done.
  - unfold remove_calls in Hin. rewrite !elem_of_cons in Hin. destruct_or?; try done. by apply elem_of_nil in Hin.
Qed.
Lemma src_nsrc s k x t : src s k x t -> nsrc k x.
Proof. intros [(-> & -> & _)|(n & c & _ & _ & [(-> & -> & _)|(-> & -> & _)])]; [by left| |]; right; exists n; auto. Qed.
Lemma calls_remove s s' cs k x : ccase s s' cs -> SRemove k x ∈ cs -> nsrc k (reg prefix k x).
Proof.
  intros HC Hin. destruct HC as [-> _|n c -> Hc Hp _|n -> _]; [by apply elem_of_nil in Hin| |].
  - unfold add_calls in Hin. apply elem_of_app in Hin as [Hin|Hin%elem_of_list_singleton]; [|done].
    destruct (decide _); [by apply elem_of_nil in Hin|]. by apply elem_of_list_singleton in Hin.
  - right. exists n. unfold remove_calls in Hin. apply elem_of_cons in Hin as [E|E%elem_of_list_singleton]; injection E as -> ->; auto.
Qed.
Lemma calls_log s s' cs L : ccase s s' cs -> (forall c, c ∈ L -> nsrc (rt_kind c.2) (rt_name c.2)) ->
  (forall k x t, (TPut, Route k x t) ∈ L -> src s' k x t) ->
  (forall c, c ∈ grow prefix L cs -> nsrc (rt_kind c.2) (rt_name c.2)) /\ (forall k x t, (TPut, Route k x t) ∈ grow prefix L cs -> src s' k x t).
Proof.
  intros HC H1 H2. split.
  - intros c [Hc|[(k & n & t & H & ->)|(k & n & H & ->)]]%grow_mem; simpl; [auto|eapply src_nsrc, calls_add; eauto|eapply calls_remove; eauto].
  - intros k x t [Hc|[(k' & n & t' & H & E)|(k' & n & H & E)]]%grow_mem; [auto| |done]. injection E as -> -> ->. eapply calls_add; eauto.
Qed.

(** ** the invariant *)
Definition rows_ok (h : hist) (s : gw) : Prop := forall n c, objs s !! n = Some c ->
  adr c = ([], [], []) \/ exists m, reported h n m /\ adr c = (m_api m, m_sched m, m_dash m).
Record WInv (h : hist) (w : world) (L : list change) : Prop := {
  wi_g : GInv cf (w_gw w);
  wi_l : ginv prefix mx L (s_gw (w_sys w));
  wi_names : forall c, c ∈ L -> nsrc (rt_kind c.2) (rt_name c.2);
  wi_src : forall k x t, (TPut, Route k x t) ∈ L -> src (w_gw w) k x t;
  wi_tab : same_table L (routes (w_gw w));
  wi_rows : rows_ok h (w_gw w);
  wi_past : sP parse (past h) (w_sys w);
  wi_sync : young_proxy wc h -> sinv parse prefix mx 0 (0, empty_tables) L (w_sys w) }.

Lemma reported_app h h' n m : reported h n m -> reported (h ++ h') n m.
Proof. intros (now & o & H). exists now, o. apply elem_of_app. by left. Qed.
Lemma past_app h h' k x t : past h k x t -> past (h ++ h') k x t.
Proof. intros [H|[H|(n & m & H & H')]]; [by left|right; by left|]. right. right. exists n, m. split; [by apply reported_app|done]. Qed.
Lemma rows_app h h' s : rows_ok h s -> rows_ok (h ++ h') s.
Proof. intros H n c Hc. destruct (H n c Hc) as [E|(m & Hm & E)]; [by left|]. right. exists m. split; [by apply reported_app|done]. Qed.
Lemma src_past h s k x t : rows_ok h s -> src s k x t -> past h k x t.
Proof.
  intros Hr [H|(n & c & Hc & _ & H)]; [right; by left|]. destruct (Hr n c Hc) as [E|(m & Hm & E)]; unfold adr in E; injection E as E1 E2 E3.
  - left. destruct H as [(_ & _ & ->)|(_ & _ & ->)]; done.
  - right. right. exists n, m. split; [done|]. rewrite <- E2, <- E3. done.
Qed.
Lemma young_keep h e o : young_proxy wc (h ++ [(e, o)]) -> e <> WProxyStart -> young_proxy wc h.
Proof.
  intros Hy Hne He h1 now o' h2 ->. specialize (Hy He h1 now o' (h2 ++ [(e, o)])). rewrite <- app_assoc in Hy. specialize (Hy eq_refl).
  apply elem_of_app in Hy as [Hy|Hy%elem_of_list_singleton]; [done|]. injection Hy as <- _. done.
Qed.
Lemma young_restart h now o : young_proxy wc (h ++ [(WGateway (ERestart now), o)]) -> wc_external wc = false.
Proof.
  intros Hy. destruct (wc_external wc) eqn:E; [|done]. specialize (Hy E h now o [] eq_refl). by apply elem_of_nil in Hy.
Qed.

Lemma new_sinv L g : ginv prefix mx L g -> sinv parse prefix mx 0 (0, empty_tables) L (Sys g pinit).
Proof.
  intros H. constructor; simpl; [done|lia|done|]. left. split; simpl; [lia|]. change (tab (take (Z.to_nat 0) L)) with (tab []). apply agree_empty.
Qed.
Definition L0 : list change := [(TPut, Route PATH (prefix ++ b_ "/") (wc_url wc))].
Lemma L0_eq : L0 = change_of prefix [] (setup_call wc). Proof. done. Qed.
Lemma setup_sinv w : 0 <= mx -> sinv parse prefix mx 0 (0, empty_tables) L0 (ProxyLog_Model.step parse (Sys (ginit prefix mx w) pinit) (setup_call wc)).
Proof.
  intros Hmx. rewrite L0_eq. apply step_sinv; [done|apply new_sinv, ginv_init| |done].
  split; [|split]; [by intros c H%elem_of_nil|by intros ?? H%elem_of_nil|by intros ???? H%elem_of_nil].
Qed.
Lemma L0_table : same_table L0 ∅.
Proof.
  intros key a. rewrite L0_eq. unfold setup_call. rewrite tab_add. cbn [reg]. unfold World_Proofs2.rt. destruct (decide _) as [->|Hk].
  - split; [intros [= ->]; by left|]. intros [[_ ->]|(n & [[E _]|[_ E]])]; [done|done|by rewrite lookup_empty in E].
  - split; [done|]. intros [[-> _]|(n & [[_ E]|[_ E]])]; [done| |]; by rewrite lookup_empty in E.
Qed.
Lemma L0_src s k x t : (TPut, Route k x t) ∈ L0 -> src s k x t.
Proof. intros H%elem_of_list_singleton. injection H as -> -> ->. by left. Qed.
Lemma L0_names c : c ∈ L0 -> nsrc (rt_kind c.2) (rt_name c.2).
Proof. intros ->%elem_of_list_singleton. by left. Qed.
Lemma restart_routes now s : routes (restart cf now s) = ∅.
Proof.
  unfold restart. cbv zeta.
  match goal with |- routes (qputs ?l ?t) = _ => pose proof (view_puts l t) as E end. injection E as _ E. by rewrite E.
Qed.
End proofs.
