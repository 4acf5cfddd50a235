(** Whatever the proxy serves was once added by the gateway. *)
From Coq Require Import Ascii String ZArith Lia.
From stdpp Require Import prelude gmap.
From Verif Require Import Trace Router_Model Router_Spec Router_Proofs ProxyLog_Model ProxyLog_Spec ProxyLog_Proofs.
Open Scope Z_scope.

Section net.
Context (parse : bytes -> option goURL) (P : kind -> bytes -> bytes -> Prop).
Notation step := (ProxyLog_Model.step parse).
Notation runs := (ProxyLog_Model.runs parse).

Definition rP (r : route) : Prop := P (rt_kind r) (rt_name r) (rt_target r).
Definition evP (e : gevent) : Prop := ev_type e = TPut -> rP (ev_route e).
Record gP (g : gateway) : Prop := {
  gp_routes : forall k n t, ((k, n), t) ∈ g_routes g -> P k n t;
  gp_events : forall e, e ∈ g_events g -> evP e;
  gp_watch : forall w q e, g_watch g !! w = Some q -> e ∈ concat q -> evP e }.
Definition tP (t : tables) : Prop :=
  (forall n a, dget n (t_sni t) = Some a -> exists tgt, P SNI n tgt /\ tgt <> [] /\ a = trim_tls tgt) /\
  exists ops, t_router t = apply_ops NewRouter ops /\ forall p u, OPut p u ∈ ops -> exists tgt, P PATH p tgt /\ leads_to parse tgt u.
Definition phP (p : phase) : Prop :=
  match p with
  | Fetching (Some (rs, _)) => forall r, r ∈ rs -> rP r
  | Watching _ str => forall e, e ∈ concat str -> evP e
  | _ => True
  end.
Record sP (s : sys) : Prop := { sp_g : gP (s_gw s); sp_ph : phP (p_phase (s_px s)); sp_t : tP (p_tables (s_px s)) }.

Lemma pyslice_in {A} (l : list A) i x : x ∈ pyslice l i -> x ∈ l.
Proof. unfold pyslice. destruct (0 <=? i); intros H; [rewrite <- (take_drop (Z.to_nat i) l)|rewrite <- (take_drop (length l - Z.to_nat (- i)) l)]; apply elem_of_app; auto. Qed.
Lemma gP_append t r g d : gP g -> (t = TPut -> rP r) -> (forall k n v, ((k, n), v) ∈ d -> P k n v) ->
  gP (append_event t r (ProxyLog_Model.set_routes d g)).
Proof.
  intros [H1 H2 H3] Hr Hd. unfold append_event. cbn [g_max g_events g_routes g_next g_watch ProxyLog_Model.set_routes g_prefix g_wnext g_offset].
  assert (He : evP (Ev (g_next g) t r)) by (exact Hr).
  destruct (_ <=? _); constructor; cbn [g_routes g_events g_watch]; auto.
  - intros e [H%pyslice_in|H%elem_of_list_singleton]%elem_of_app; [auto|by subst].
  - intros w q e. rewrite lookup_fmap. destruct (g_watch g !! w) as [q0|] eqn:E; [|done]. intros [= <-].
    rewrite concat_app. intros [H|H]%elem_of_app; [eauto|]. simpl in H. apply elem_of_list_singleton in H. by subst.
  - intros e [H|H%elem_of_list_singleton]%elem_of_app; [auto|by subst].
  - intros w q e. rewrite lookup_fmap. destruct (g_watch g !! w) as [q0|] eqn:E; [|done]. intros [= <-].
    rewrite concat_app. intros [H|H]%elem_of_app; [eauto|]. simpl in H. apply elem_of_list_singleton in H. by subst.
Qed.
Lemma dset_in {K V} `{EqDecision K} (k : K) (v : V) d x : x ∈ dset k v d -> x = (k, v) \/ x ∈ d.
Proof.
  induction d as [|[k0 v0] d IH]; simpl; [rewrite elem_of_list_singleton; auto|].
  case_decide; rewrite !elem_of_cons; [subst; tauto|]. intros [->|Hx]; [auto|]. destruct (IH Hx); auto.
Qed.
Lemma ddel_in {K V} `{EqDecision K} (k : K) (d : list (K * V)) x : x ∈ ddel k d -> x ∈ d.
Proof. induction d as [|[k0 v0] d IH]; simpl; [done|]. case_decide; rewrite !elem_of_cons; tauto. Qed.
Lemma gstep_P g c : gP g -> (forall k n t, c = GAdd k n t -> P k (full g k n) t) -> gP (gstep g c).1 /\
  match (gstep g c).2 with
  | OTable rs _ => forall r, r ∈ rs -> rP r
  | OWrote _ evs => forall e, e ∈ evs -> evP e
  | _ => True
  end.
Proof.
  intros HG Hc. pose proof HG as [H1 H2 H3]. destruct c as [k n t|k n| |n|w|w]; simpl.
  - split; [|done]. unfold add_route. apply gP_append; [done|by intros _; apply Hc|].
    intros k' n' v [H|H]%dset_in; [injection H as -> -> ->; by apply Hc|auto].
  - split; [|done]. unfold remove_route. destruct (dget _ _); [|done]. apply gP_append; [done|done|]. intros k' n' v H%ddel_in. auto.
  - split; [done|]. intros r ([[k n] t] & -> & H)%elem_of_list_fmap. apply H1. done.
  - unfold events_after. destruct (0 <=? _); [|done]. split; [|done]. simpl. constructor; simpl; auto. intros w q e.
    destruct (decide (w = g_wnext g)) as [->|Hw]; [rewrite lookup_insert|rewrite lookup_insert_ne by done; eauto]. intros [= <-].
    destruct (pyslice _ _) as [|e0 l] eqn:E; [by intros H%elem_of_nil|]. simpl. rewrite app_nil_r, <- E. intros H%pyslice_in. auto.
  - destruct (g_watch g !! w) as [[|evs q]|] eqn:E; simpl; try done. split.
    + constructor; simpl; auto. intros w' q' e. destruct (decide (w' = w)) as [->|Hw].
      * rewrite lookup_insert. intros [= <-] H. eapply H3; [exact E|]. simpl. apply elem_of_app. auto.
      * rewrite lookup_insert_ne by done. eauto.
    + intros e H. eapply H3; [exact E|]. simpl. apply elem_of_app. auto.
  - split; [|done]. constructor; simpl; auto. intros w' q' e. destruct (decide (w' = w)) as [->|Hw]; [by rewrite lookup_delete|].
    rewrite lookup_delete_ne by done. eauto.
Qed.

Lemma tP_empty : tP empty_tables.
Proof. split; [done|]. exists []. split; [done|]. by intros p u H%elem_of_nil. Qed.
Lemma apply_ops_snoc {U} (r : router U) ops o : apply_ops r (ops ++ [o]) = (apply_ops r ops ≫= fun r => apply_op r o).
Proof. revert r. induction ops as [|o' ops IH]; intros r; simpl; [destruct (apply_op r o); done|]. destruct (apply_op r o'); simpl; [apply IH|done]. Qed.
Lemma event_tP t e : tP t -> evP e -> tP (apply_event parse t e).
Proof.
  intros [Hs (ops & Ho & Hp)] He. unfold apply_event, evP in *. destruct e as [i ty [k n tgt]]. cbn [ev_type ev_route] in *.
  unfold rP in He. cbn [rt_kind rt_name rt_target] in He. destruct ty.
  - specialize (He eq_refl). unfold putRoute. cbn [rt_kind rt_name]. destruct k.
    + destruct (validate_sni (Route SNI n tgt)) as [v|] eqn:Ev; [|by split; eauto]. split; [|by exists ops].
      intros n' a. cbn [t_sni]. rewrite dget_dset. case_decide as Hn; [|by apply Hs]. intros [= <-]. subst n'.
      unfold validate_sni in Ev. destruct (validate_name _); [|done]. cbn [rt_target] in Ev. destruct (decide (tgt = [])); [done|]. injection Ev as <-. eauto.
    + destruct (validate_path parse (Route PATH n tgt)) as [u|] eqn:Ev; [|by split; eauto]. split; [done|]. cbn [t_router].
      exists (ops ++ [OPut n u]). split; [rewrite apply_ops_snoc, <- Ho; done|].
      intros p u' [H|H%elem_of_list_singleton]%elem_of_app; [auto|]. injection H as -> ->. exists tgt. split; [done|].
      unfold validate_path in Ev. destruct (validate_name _); [|done]. cbn [rt_target] in Ev. destruct (decide (tgt = [])); [done|].
      destruct (parse tgt) as [u0|] eqn:Epar; [|done]. simpl in Ev. case_decide; [|done]. injection Ev as <-. split; auto.
  - unfold deleteRoute. destruct (validate_name _); [|by split; eauto]. cbn [rt_kind rt_name]. destruct k.
    + split; [|by exists ops]. intros n' a. cbn [t_sni]. rewrite dget_ddel. case_decide; [done|]. apply Hs.
    + split; [done|]. exists (ops ++ [ODelete n]). cbn [t_router]. split; [rewrite apply_ops_snoc, <- Ho; done|].
      intros p u' [H|H%elem_of_list_singleton]%elem_of_app; [auto|done].
Qed.
Lemma events_tP es t : tP t -> (forall e, e ∈ es -> evP e) -> tP (UpdateFromEvents parse es t).
Proof.
  revert t. induction es as [|e es IH]; intros t Ht He; simpl; [done|]. apply IH.
  - apply event_tP; [done|]. apply He. left.
  - intros e' H. apply He. by right.
Qed.
Lemma routes_tP rs : (forall r, r ∈ rs -> rP r) -> tP (UpdateFromRoutes parse rs).
Proof.
  intros H. rewrite update_routes_events. apply events_tP; [apply tP_empty|]. intros e He. unfold numbered in He.
  apply elem_of_lookup_imap in He as (i & [ty r] & -> & Hl). intros _. simpl. apply elem_of_list_lookup_2 in Hl.
  apply elem_of_list_fmap in Hl as (r' & E & Hr). injection E as -> ->. auto.
Qed.

Lemma step_P s e : sP s -> (forall k n t, e = SAdd k n t -> P k (full (s_gw s) k n) t) -> sP (step s e).
Proof.
  intros HS He. pose proof HS as [Hg Hp Ht].
  assert (Hc : forall c, (forall k n t, c = GAdd k n t -> P k (full (s_gw s) k n) t) -> gP (gstep (s_gw s) c).1) by (intros; by apply gstep_P).
  destruct e as [k n t|k n| |n|w|w| | | | | | | |]; unfold ProxyLog_Model.step.
  - constructor; [|done|done]. simpl. apply (Hc (GAdd k n t)). intros k' n' t' [= -> -> ->]. by apply He.
  - constructor; [|done|done]. apply (Hc (GRemove k n)). done.
  - constructor; [|done|done]. constructor; simpl.
    + by intros ??? H%elem_of_nil.
    + by intros ? H%elem_of_nil.
    + intros ???. by rewrite lookup_empty.
  - constructor; [|done|done]. apply (Hc (GWatch n)). done.
  - destruct (gstep_P (s_gw s) (GWrite w) Hg ltac:(done)) as [H1 H2]. destruct (gstep (s_gw s) (GWrite w)) as [g' o]. cbn [fst snd] in *.
    destruct o as [| | | |w' evs]; try (constructor; done).
    destruct (p_phase (s_px s)) as [a| |w0 str] eqn:Eph; try (constructor; simpl; rewrite ?Eph; done).
    destruct (decide (w = w0)); [|constructor; simpl; rewrite ?Eph; done]. constructor; simpl; [done| |done].
    intros e0. rewrite concat_app. intros [H|H]%elem_of_app; [by apply Hp|]. simpl in H. rewrite app_nil_r in H. auto.
  - constructor; [|done|done]. apply (Hc (GDrop w)). done.
  - destruct (gstep_P (s_gw s) GTable Hg ltac:(done)) as [H1 H2]. destruct (gstep (s_gw s) GTable) as [g' o]. cbn [fst snd] in *.
    destruct (p_phase (s_px s)) as [[a|]| |w0 str] eqn:Eph; try done. destruct o; try done; constructor; simpl; done.
  - destruct (p_phase (s_px s)) as [[[rs id]|]| |w0 str] eqn:Eph; try done. constructor; simpl; [done|done|]. apply routes_tP. done.
  - destruct (p_phase (s_px s)) as [a| |w0 str] eqn:Eph; try done; constructor; done.
  - destruct (p_phase (s_px s)) as [a| |w0 str] eqn:Eph; try done.
    destruct (gstep_P (s_gw s) (GWatch (p_last (s_px s))) Hg ltac:(done)) as [H1 H2]. destruct (gstep (s_gw s) _) as [g' o]. cbn [fst snd] in *.
    destruct o; constructor; simpl; try done. by intros e H%elem_of_nil.
  - destruct (p_phase (s_px s)) as [a| |w0 str] eqn:Eph; try done; constructor; done.
  - destruct (p_phase (s_px s)) as [a| |w0 [|evs str]] eqn:Eph; try done. cbn [phP concat] in Hp.
    destruct (last evs) as [e|]; constructor; simpl; try done; try (intros e' H; apply Hp, elem_of_app; auto; fail).
    apply events_tP; [done|]. intros e' H. apply Hp, elem_of_app. auto.
  - destruct (p_phase (s_px s)) as [a| |w0 str] eqn:Eph; try done; constructor; done.
  - destruct (p_phase (s_px s)) as [a| |w0 str] eqn:Eph; try done; constructor; done.
Qed.
Lemma new_P g : gP g -> sP (Sys g pinit).
Proof. intros H. constructor; [done|done|apply tP_empty]. Qed.
End net.
Lemma sP_mono parse (P Q : kind -> bytes -> bytes -> Prop) s : (forall k n t, P k n t -> Q k n t) -> sP parse P s -> sP parse Q s.
Proof.
  intros HPQ [[G1 G2 G3] Hp [T1 (ops & T2 & T3)]].
  assert (He : forall e, evP P e -> evP Q e) by (intros e H Ht; by apply HPQ, H).
  constructor.
  - constructor; eauto.
  - destruct (p_phase (s_px s)) as [[[rs id]|]| |w0 str]; simpl in *; try done; [intros r H; by apply HPQ, Hp|eauto].
  - split; [intros n a H; apply T1 in H as (tgt & ? & ?); eauto|]. exists ops. split; [done|].
    intros p u H. apply T3 in H as (tgt & ? & ?). eauto.
Qed.
