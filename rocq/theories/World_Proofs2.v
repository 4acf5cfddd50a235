From Coq Require Import Ascii String ZArith Lia.
From stdpp Require Import prelude gmap.
From Verif Require Import Trace Router_Model Router_Spec Router_Proofs ProxyLog_Model ProxyLog_Spec ProxyLog_Proofs
  Sni_Model Sni_Spec Sni_Proofs WorkQueue_Model Gateway_Model Gateway_Spec Gateway_Inv Gateway_Steps4 Gateway_Sync Gateway_Restart Gateway_Hist
  World_Gw World_Model World_Spec World_Net World_Proofs.
Open Scope Z_scope.

(** ** paths *)
Lemma split_app a b : split_slash (a ++ slash :: b) = split_slash a ++ split_slash b.
Proof.
  induction a as [|c a IH].
  - done.
  - rewrite <- app_comm_cons. cbn [split_slash]. rewrite IH. destruct (decide (c = slash)); [done|].
    pose proof (split_nonempty a) as Hn. destruct (split_slash a); [done|]. done.
Qed.
Lemma split_plain s : slash ∉ s -> split_slash s = [s].
Proof.
  induction s as [|c s IH]; intros Hs; [done|]. simpl. apply not_elem_of_cons in Hs as [Hc Hs]. rewrite decide_False by done. by rewrite IH.
Qed.
Lemma strip_trail_last p : last p <> Some slash -> strip_trail p = p.
Proof.
  destruct p as [|c p _] using rev_ind; [done|]. rewrite last_snoc. intros H. rewrite strip_trail_snoc. rewrite decide_False; [done|]. by intros ->.
Qed.

Section proofs.
Context (wc : wcfg).
Notation cf := (wc_gw wc). Notation prefix := (wc_prefix wc). Notation mx := (wc_max wc). Notation parse := (wc_parse wc). Notation nm := (wc_name wc).
Notation hist := (list (wevent * wobs)).

Lemma cluster_strip n : names_good wc -> prefix_good wc -> strip (prefix ++ path_of wc n) = tail (prefix ++ path_of wc n).
Proof.
  intros [_ Hn] Hp. destruct (Hn n) as [Hne Hs].
  assert (E : strip_lead (prefix ++ path_of wc n) = tail (prefix ++ path_of wc n)).
  { destruct Hp as [->|[Hh _]]; [done|]. destruct prefix as [|c p]; [done|]. simpl in Hh. injection Hh as ->. done. }
  unfold strip. rewrite E. apply strip_trail_last. destruct (nm n) as [|c l _] eqn:En using rev_ind; [done|].
  assert (Hc : c <> slash) by (intros ->; apply Hs, elem_of_app; right; left).
  assert (Ht : exists p, tail (prefix ++ path_of wc n) = p ++ [c]).
  { unfold path_of. rewrite En. destruct prefix as [|c0 p].
    - exists (tail (b_ "/clusters/") ++ l). by rewrite <- app_assoc.
    - exists (p ++ b_ "/clusters/" ++ l). cbn [tail app]. by rewrite <- !app_assoc. }
  destruct Ht as [p ->]. rewrite last_snoc. congruence.
Qed.
Lemma gateway_strip : prefix_good wc -> strip (prefix ++ b_ "/") = tail prefix /\ strip prefix = tail prefix.
Proof.
  intros [->|[Hh Hl]]; [done|]. destruct prefix as [|c p]; [done|]. simpl in Hh. injection Hh as ->.
  assert (Hp : strip_trail p = p).
  { apply strip_trail_last. destruct p; [done|]. done. }
  split.
  - unfold strip. change ((slash :: p) ++ b_ "/") with (slash :: (p ++ [slash])). unfold strip_lead at 1. rewrite decide_True by done.
    rewrite strip_trail_snoc. by rewrite decide_True.
  - unfold strip, strip_lead. rewrite decide_True by done. done.
Qed.
Lemma gateway_route_eq : prefix_good wc -> route_of (prefix ++ b_ "/") = gateway_route wc.
Proof. intros Hp. apply route_of_inj. destruct (gateway_strip Hp) as [-> ->]. done. Qed.
Definition croute (n : nat) : list bytes := route_of (prefix ++ path_of wc n).
Lemma croute_eq n : names_good wc -> prefix_good wc -> croute n = gateway_route wc ++ [b_ "clusters"; nm n].
Proof.
  intros Hn Hp. unfold croute, gateway_route, route_of. rewrite cluster_strip by done. rewrite (proj2 (gateway_strip Hp)).
  destruct (proj2 Hn n) as [Hne Hs]. assert (E : split_slash (b_ "clusters/" ++ nm n) = [b_ "clusters"; nm n]).
  { change (b_ "clusters/" ++ nm n) with (b_ "clusters" ++ slash :: nm n). rewrite split_app, (split_plain (nm n)) by done.
    change (split_slash (b_ "clusters")) with [b_ "clusters"]. done. }
  destruct Hp as [->|[Hh Hl]].
  - change (tail ([] ++ path_of wc n)) with (b_ "clusters/" ++ nm n). rewrite decide_False by done. rewrite decide_True by done. done.
  - destruct prefix as [|c p]; [done|]. simpl in Hh. injection Hh as ->. cbn [tail app]. unfold path_of.
    assert (Hpn : p <> []) by (intros ->; done).
    rewrite (decide_False (P := p = [])) by done. rewrite decide_False by (destruct p; done).
    change (p ++ b_ "/clusters/" ++ nm n) with (p ++ slash :: (b_ "clusters/" ++ nm n)). rewrite split_app, E. done.
Qed.
Lemma croute_is n : names_good wc -> prefix_good wc -> croute n = cluster_route wc n.
Proof. exact (croute_eq n). Qed.
Lemma croute_inj n n' : names_good wc -> prefix_good wc -> croute n = croute n' -> n = n'.
Proof.
  intros Hn Hp. rewrite !croute_eq by done. intros H%app_inv_head. injection H as H. by apply Hn.
Qed.
Lemma gateway_not_cluster n : names_good wc -> prefix_good wc -> gateway_route wc <> croute n.
Proof. intros Hn Hp. rewrite croute_eq by done. intros H%(f_equal length). rewrite app_length in H. simpl in H. lia. Qed.

(** ** what is in the log *)
Definition nsrc (k : kind) (x : bytes) : Prop :=
  (k = PATH /\ x = prefix ++ b_ "/") \/ exists n, (k = SNI /\ x = nm n) \/ (k = PATH /\ x = prefix ++ path_of wc n).
Definition src (s : gw) (k : kind) (x t : bytes) : Prop :=
  (k = PATH /\ x = prefix ++ b_ "/" /\ t = wc_url wc) \/
  exists n c, objs s !! n = Some c /\ c_proxied c = true /\
    ((k = SNI /\ x = nm n /\ t = r_sched (c_row c)) \/ (k = PATH /\ x = prefix ++ path_of wc n /\ t = r_dash (c_row c))).
Definition rt (R : gmap (rkind * nat) bytes) (key : kind * bytes) (a : bytes) : Prop :=
  (key = (PATH, prefix ++ b_ "/") /\ a = wc_url wc) \/
  exists n, (key = (SNI, nm n) /\ R !! (RSNI, n) = Some a) \/ (key = (PATH, prefix ++ path_of wc n) /\ R !! (RPATH, n) = Some a).
Definition past (h : hist) (k : kind) (x t : bytes) : Prop :=
  t = [] \/ (k = PATH /\ x = prefix ++ b_ "/" /\ t = wc_url wc) \/
  exists n m, reported h n m /\ ((k = SNI /\ x = nm n /\ t = m_sched m) \/ (k = PATH /\ x = prefix ++ path_of wc n /\ t = m_dash m)).

Lemma path_inj n n' : names_good wc -> prefix ++ path_of wc n = prefix ++ path_of wc n' -> n = n'.
Proof. intros Hn H%app_inv_head. unfold path_of in H. apply app_inv_head in H. by apply Hn. Qed.
Lemma path_not_root n : prefix ++ b_ "/" <> prefix ++ path_of wc n.
Proof. intros H%app_inv_head. done. Qed.

Lemma log_ok s L : names_good wc -> prefix_good wc -> (forall c, c ∈ L -> nsrc (rt_kind c.2) (rt_name c.2)) ->
  (forall k x t, (TPut, Route k x t) ∈ L -> src s k x t) -> okL parse L.
Proof.
  intros Hn Hp H1 H2. split; [|split].
  - intros c Hc. destruct (H1 c Hc) as [[_ ->]|(n & [[_ ->]|[_ ->]])].
    + intros E%app_eq_nil. destruct E. done.
    + apply (proj2 Hn n).
    + intros E%app_eq_nil. destruct E. done.
  - intros c1 c2 Hc1 Hc2 K1 K2 E.
    destruct (H1 c1 Hc1) as [[_ E1]|(n & [[? _]|[_ E1]])]; [|congruence|]; destruct (H1 c2 Hc2) as [[_ E2]|(n' & [[? _]|[_ E2]])]; try congruence;
      rewrite E1, E2 in *; [exfalso|exfalso|].
    + eapply gateway_not_cluster; [done|done|]. rewrite <- gateway_route_eq by done. exact E.
    + eapply gateway_not_cluster; [done|done|]. rewrite <- gateway_route_eq by done. symmetry. exact E.
    + apply (croute_inj n n') in E; [|done|done]. by subst.
  - intros k x t1 t2 Hx1 Hx2. enough (t1 = t2) as -> by done. apply H2 in Hx1, Hx2.
    destruct Hx1 as [(K1 & E1 & ->)|(n & c & Hc & _ & [(K1 & E1 & ->)|(K1 & E1 & ->)])];
    destruct Hx2 as [(K2 & E2 & ->)|(n' & c' & Hc' & _ & [(K2 & E2 & ->)|(K2 & E2 & ->)])]; subst; try done.
    + by apply path_not_root in E2.
    + apply Hn in E2 as <-. congruence.
    + symmetry in E2. by apply path_not_root in E2.
    + apply path_inj in E2 as <-; [|done]. congruence.
Qed.
End proofs.
