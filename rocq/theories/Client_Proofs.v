(** Proofs for C58. *)
From stdpp Require Import base list.
From Verif Require Import Trace Client_Model Client_Spec.

Section C.
Context (soc asyn : bool) (given : option name).
Notation stp := (step soc asyn).
Notation ini := (init given).

Record Inv (h : history) (s : state) : Prop := {
  i_name : forall n, cname s = Some n -> its_cluster given s n;
  i_given : given <> None -> cname s = given /\ created s = None /\ st s <> SSubmitting;
  i_done : forall i sd n, calls s !! i = Some (CDone sd) -> default soc sd = true -> cname s = Some n -> asked h n;
  i_sp : forall i sd, calls s !! i = Some (CDone sd) -> sp s = TDone;
  i_st : sp s <> TNone -> st s <> SSubmitting /\ st s <> SWaiting;
  i_asked : forall n, asked h n -> its_cluster given s n /\ exists i sd, calls s !! i = Some (CDone sd) /\ default soc sd = true;
  i_cut : forall n, created s = Some n -> cname s <> Some n -> st s = SSubmitting \/ cut soc asyn given h }.
Lemma asked_snoc h e o n : asked (h ++ [(e, o)]) n <-> asked h n \/ o = OStop n.
Proof.
  unfold asked. setoid_rewrite elem_of_app. setoid_rewrite elem_of_list_singleton. split; [intros (e' & [?|[= _ ?]]); eauto|intros [(e' & ?)| ->]; eauto].
Qed.
Lemma cut_snoc h e o : cut soc asyn given h -> cut soc asyn given (h ++ [(e, o)]).
Proof. intros (h1 & e1 & o1 & h2 & s1 & -> & H). exists h1, e1, o1, (h2 ++ [(e, o)]), s1. by rewrite <- app_assoc. Qed.
Lemma inv_quiet h s e s' : exec stp ini h s -> Inv h s -> (forall i sd, calls s' !! i = Some (CDone sd) <-> calls s !! i = Some (CDone sd)) -> cname s' = cname s -> created s' = created s ->
  (sp s = TDone -> sp s' = TDone) -> (sp s' <> TNone -> st s' <> SSubmitting /\ st s' <> SWaiting) -> (given <> None -> st s' <> SSubmitting) ->
  (st s = SSubmitting -> st s' = SSubmitting \/ e = EFailed \/ exists sd, e = EClose sd) -> Inv (h ++ [(e, ONone)]) s'.
Proof.
  intros Hx [H1 H2 H3 H4 H5 H6 H7] Hc Hn Hcr Hsp Hst Hg Hcut.
  assert (Hits : forall n, its_cluster given s' n <-> its_cluster given s n) by (intros n; unfold its_cluster; by rewrite Hcr).
  constructor.
  - intros n. rewrite Hn, Hits. apply H1.
  - intros G. destruct (H2 G) as (? & ? & ?). rewrite Hn, Hcr. auto.
  - intros i sd n Hi Hd Hnm. rewrite Hc in Hi. rewrite Hn in Hnm. apply asked_snoc. left. by eapply H3.
  - intros i sd Hi. rewrite Hc in Hi. apply Hsp. by eapply H4.
  - done.
  - intros n [Ha|Ha]%asked_snoc; [|done]. rewrite Hits. destruct (H6 n Ha) as (? & i & sd & Hi & Hd). split; [done|]. exists i, sd. by rewrite Hc.
  - intros n. rewrite Hcr, Hn. intros E1 E2. destruct (H7 n E1 E2) as [E|E]; [|right; by apply cut_snoc]. destruct (Hcut E) as [?|Hce]; [by left|]. right.
    exists h, e, ONone, [], s. done.
Qed.
Lemma done_app l l2 i sd : Forall (fun c => forall sd, c <> CDone sd) l2 -> (l ++ l2) !! i = Some (CDone sd) <-> l !! i = Some (CDone sd).
Proof.
  intros Hf. split; [|apply lookup_app_l_Some]. intros [?|[_ Hi]]%lookup_app_Some; [done|]. rewrite Forall_lookup in Hf. by destruct (Hf _ _ Hi sd).
Qed.
Lemma waits_not_done k sd : Forall (fun c => forall sd, c <> CDone sd) (replicate k (CWait sd)).
Proof. apply Forall_replicate. done. Qed.
Lemma end_start_props s : cname (end_start s) = cname s /\ created (end_start s) = created s /\ st (end_start s) = SEnded /\ (sp s <> TNone -> sp (end_start s) = sp s) /\
  (forall i sd, calls (end_start s) !! i = Some (CDone sd) <-> calls s !! i = Some (CDone sd)).
Proof. unfold end_start; cbn. split_and!; try done; [by destruct (sp s)|]. intros i sd. apply done_app, waits_not_done. Qed.
Lemma begin_stop_props s : (sp s <> TNone -> st s <> SSubmitting /\ st s <> SWaiting) -> cname (begin_stop s) = cname s /\ created (begin_stop s) = created s /\ sp (begin_stop s) <> TNone /\ (sp s = TDone -> sp (begin_stop s) = TDone) /\
  st (begin_stop s) <> SSubmitting /\ st (begin_stop s) <> SWaiting /\ (forall i sd, calls (begin_stop s) !! i = Some (CDone sd) <-> calls s !! i = Some (CDone sd)).
Proof.
  intros H. unfold begin_stop. destruct (sp s) eqn:Es; [|destruct H as [? ?]; [done|]; split_and!; congruence || done..].
  set (s1 := State _ _ _ _ TClosing _). destruct (end_start_props s1) as (E1 & E2 & E3 & E4 & E5).
  destruct (st s) eqn:Et; rewrite ?E1, ?E2, ?E3; try (rewrite E4 by done); split_and!; try done; by rewrite Et.
Qed.
Lemma upd_not_done (l : list call) i j c c0 sd : l !! i = Some c0 -> (forall x, c0 <> CDone x) -> (forall x, c <> CDone x) -> <[i := c]> l !! j = Some (CDone sd) <-> l !! j = Some (CDone sd).
Proof.
  intros Hi H0 H1. destruct (decide (j = i)) as [->|Hne]; [|by rewrite list_lookup_insert_ne]. rewrite list_lookup_insert by (by eapply lookup_lt_Some). rewrite Hi. split; intros [= E]; [by destruct (H1 sd)|by destruct (H0 sd)].
Qed.
Lemma inv_all h s : exec stp ini h s -> Inv h s.
Proof.
  revert h s. cut (forall h s, exec stp ini h s -> exec stp ini h s /\ Inv h s); [intros H h s Hx; by apply H|].
  apply (exec_ind_r stp ini (fun h s => exec stp ini h s /\ Inv h s)).
  - split; [constructor|]. constructor; cbn; try done.
    + intros n ->. by left.
    + intros n (e & H). by apply elem_of_nil in H.
  - intros h s e o s' _ [Hx HI] Hs. split; [apply exec_app; exists s; split; [done|]; econstructor; [done|constructor]|]. pose proof HI as [H1 H2 H3 H4 H5 H6 H7].
    assert (Hid : forall e, Inv (h ++ [(e, ONone)]) s) by (intros e'; apply (inv_quiet h s); try done; [intros G; by apply H2|by left]).
    destruct e as [|n| | | |sd| |i|i]; cbn [step] in Hs.
    + destruct (st s) eqn:Et.
      * destruct (sp s) eqn:Es; injection Hs as <- <-.
        -- apply (inv_quiet h s); cbn; try done; try congruence. intros G. destruct (H2 G) as (E & _). destruct (cname s); congruence.
        -- apply (inv_quiet h s); cbn; try done; congruence.
        -- apply (inv_quiet h s); cbn; try done; congruence.
        -- apply (inv_quiet h s); cbn; try done; congruence.
      * injection Hs as <- <-. apply (inv_quiet h s); cbn; try done; rewrite ?Et; try done; intros G; first [by apply H5 in G as [? _]|by apply H2 in G as (_ & _ & ?)|by left].
      * injection Hs as <- <-. apply (inv_quiet h s); cbn; try done; rewrite ?Et; try done; intros G; first [by apply H5 in G as [_ ?]|by apply H2 in G as (_ & _ & ?)|by left].
      * injection Hs as <- <-. apply Hid.
      * injection Hs as <- <-. set (s1 := State _ _ SEnded _ _ _). destruct (begin_stop_props s1) as (E1 & E2 & E3 & E4 & E5 & E6 & E7); [done|].
        apply (inv_quiet h s); rewrite ?E1, ?E2; try done; [|congruence]. intros i sd. rewrite E7. cbn. apply done_app. by repeat constructor.
    + destruct (st s) eqn:Et; try (injection Hs as <- <-; apply Hid). destruct (created s) eqn:Ec; [injection Hs as <- <-; apply Hid|]. injection Hs as <- <-.
      assert (Hnn : cname s = None). { destruct (cname s) as [m|] eqn:Em; [|done]. destruct (H1 m eq_refl) as [G|G]; [|congruence]. assert (G2 : given <> None) by congruence. by destruct (H2 G2) as (_ & _ & ?). }
      assert (Hgn : given = None) by (destruct given eqn:Eg; [destruct H2 as (_ & _ & ?); done|done]).
      constructor; cbn.
      * intros m. congruence.
      * done.
      * intros i sd m Hi. congruence.
      * apply H4.
      * apply H5.
      * intros m [Ha|Ha]%asked_snoc; [|done]. destruct (H6 m Ha) as ([?|?] & Hr); [congruence|congruence].
      * by left.
    + destruct (st s) eqn:Et; try (injection Hs as <- <-; apply Hid). destruct (created s) as [n|] eqn:Ec; [|injection Hs as <- <-; apply Hid]. injection Hs as <- <-.
      assert (Hgn : given = None) by (destruct given eqn:Eg; [destruct H2 as (_ & _ & ?); done|done]).
      assert (Hsp : sp s = TNone) by (destruct (sp s) eqn:Es; [done|destruct H5 as [? _]; done..]).
      constructor; cbn.
      * intros m [= <-]. by right.
      * done.
      * intros i sd m Hi. apply H4 in Hi. congruence.
      * apply H4.
      * congruence.
      * intros m [Ha|Ha]%asked_snoc; [|done]. destruct (H6 m Ha) as (_ & i & sd & Hi & _). apply H4 in Hi. congruence.
      * intros m [= <-] ?. done.
    + destruct (st s) eqn:Et; try (injection Hs as <- <-; apply Hid). injection Hs as <- <-. apply (inv_quiet h s); cbn; try done. congruence.
    + assert (G : Inv (h ++ [(EFailed, ONone)]) (end_start s)).
      { destruct (end_start_props s) as (E1 & E2 & E3 & E4 & E5). apply (inv_quiet h s); rewrite ?E1, ?E2, ?E3; try done; [|auto]. intros E. rewrite E4; congruence. }
      destruct (st s) eqn:Et; injection Hs as <- <-; (apply Hid || exact G).
    + assert (G : Inv (h ++ [(EClose sd, ONone)]) (let s' := begin_stop s in State (cname s') (created s') (st s') (starters s') (sp s') (calls s' ++ [CWait sd]))).
      { destruct (begin_stop_props s H5) as (E1 & E2 & E3 & E4 & E5 & E6 & E7). apply (inv_quiet h s); cbn; rewrite ?E1, ?E2; try done; [|right; right; by exists sd]. intros i sd'. rewrite <- E7. apply done_app. by repeat constructor. }
      destruct asyn; [injection Hs as <- <-; exact G|]. destruct (sp s) eqn:Es; injection Hs as <- <-; (exact G || apply Hid).
    + destruct (sp s) eqn:Es; injection Hs as <- <-; try apply Hid. apply (inv_quiet h s); cbn; try done; intros G; first [by apply H5|by apply H2|by left].
    + destruct (calls s !! i) as [[sd|sd|sd]|] eqn:Ei; try (injection Hs as <- <-; apply Hid). destruct (sp s) eqn:Es; try (injection Hs as <- <-; apply Hid).
      * injection Hs as <- <-. assert (Hl : (i < length (calls s))%nat) by (by eapply lookup_lt_Some).
        assert (Hothers : forall j sd', <[i:=CDone sd]> (calls s) !! j = Some (CDone sd') -> (j = i /\ sd' = sd) \/ calls s !! j = Some (CDone sd')).
        { intros j sd'. destruct (decide (j = i)) as [->|Hne]; [rewrite list_lookup_insert by done; intros [= <-]; by left|]. rewrite list_lookup_insert_ne by done. by right. }
        constructor; cbn.
        -- done.
        -- done.
        -- intros j sd' n Hj Hd Hn. apply asked_snoc. destruct (Hothers j sd' Hj) as [[-> ->]|Hj2]; [|left; by eapply H3]. right. by rewrite Hd, Hn.
        -- done.
        -- done.
        -- intros n [Ha|Ha]%asked_snoc.
           ++ destruct (H6 n Ha) as (? & j & sd' & Hj & Hd). split; [done|]. exists j, sd'. split; [|done]. rewrite list_lookup_insert_ne; [done|]. intros ->. congruence.
           ++ destruct (default soc sd) eqn:Ed; [|done]. destruct (cname s) as [m|] eqn:Em; [|done]. injection Ha as ->. split; [by apply H1|]. exists i, sd. by rewrite list_lookup_insert.
        -- intros n E1 E2. destruct (H7 n E1 E2) as [?|?]; [by left|right; by apply cut_snoc].
      * injection Hs as <- <-. apply (inv_quiet h s); cbn; try done; first [intros j sd'; by eapply upd_not_done|congruence|intros G; first [by apply H5|by apply H2|by left]].
    + destruct (calls s !! i) as [[sd|sd|sd]|] eqn:Ei; try (injection Hs as <- <-; apply Hid). injection Hs as <- <-.
      apply (inv_quiet h s); cbn; try done; first [intros j sd'; by eapply upd_not_done|by intros ->|intros G; first [by apply H2|by left|apply H5; by destruct (sp s)]].
Qed.
End C.
