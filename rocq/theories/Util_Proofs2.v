(** Proofs for C47: the LRU cache. *)
From Coq Require Import Ascii ZArith QArith Lia.
From stdpp Require Import prelude.
From Verif Require Import Trace Router_Model ProxyLog_Model ProxyLog_Proofs Json_Model Options_Proofs Util_Model Util_Spec.
Local Open Scope nat_scope.

Section lru.
Context {K V : Type} `{EqDecision K} (max_size : nat).
Implicit Types h : list (lev K V * lout K V).
Notation step := (lru_step (K := K) (V := V) max_size).

Definition reached h (c : cache K V) : Prop := exec step [] h c.

Lemma dget_split k (c : cache K V) : NoDup (map fst c) -> forall v, dget k c = Some v <-> (k, v) ∈ c.
Proof.
  intros Hn v. split; [apply dget_in|]. induction c as [|[k0 v0] c IH]; cbn [dget]; intros Hin; [by apply elem_of_nil in Hin|].
  cbn in Hn. apply NoDup_cons in Hn as [Hx Hn]. apply elem_of_cons in Hin as [[= -> ->]|Hin]; [by rewrite decide_True|].
  rewrite decide_False; [auto|]. intros ->. apply Hx. apply elem_of_list_fmap. by exists (k0, v).
Qed.
Lemma dset_absent k v (c : cache K V) : dget k c = None -> dset k v c = c ++ [(k, v)].
Proof.
  induction c as [|[k0 v0] c IH]; cbn [dget dset]; [done|]. destruct (decide (k = k0)); [done|]. intros H. rewrite (IH H). done.
Qed.
Lemma dset_present_keys k v (c : cache K V) w : dget k c = Some w -> map fst (dset k v c) = map fst c.
Proof.
  induction c as [|[k0 v0] c IH]; cbn [dget dset]; [done|]. destruct (decide (k = k0)) as [->|]; [done|]. intros H. cbn. by rewrite (IH H).
Qed.
Lemma ddel_keys_eq k (c : cache K V) : map fst (ddel k c) = List.filter (fun x => bool_decide (x <> k)) (map fst c).
Proof.
  induction c as [|[k0 v0] c IH]; [done|]. cbn [ddel map fst List.filter]. destruct (decide (k = k0)) as [->|Hne].
  - rewrite bool_decide_false by tauto. exact IH.
  - rewrite bool_decide_true by congruence. cbn [map fst]. by rewrite IH.
Qed.
Lemma ddel_app_keys k (c : cache K V) x : x ∈ map fst (ddel k c) <-> x ∈ map fst c /\ x <> k.
Proof. rewrite ddel_keys_eq, !elem_of_list_In, filter_In, bool_decide_eq_true. done. Qed.

Lemma ddel_length k (c : cache K V) : length (ddel k c) <= length c.
Proof. induction c as [|[k0 v0] c IH]; cbn [ddel]; [done|]. case_decide; cbn; lia. Qed.
Lemma ddel_shorter k v (c : cache K V) : (k, v) ∈ c -> length (ddel k c) < length c.
Proof.
  induction c as [|[k0 v0] c IH]; intros Hin; [by apply elem_of_nil in Hin|]. cbn [ddel]. pose proof (ddel_length k c).
  case_decide as Hd; [cbn; lia|]. apply elem_of_cons in Hin as [[= -> ->]|Hin]; [done|]. specialize (IH Hin). cbn. lia.
Qed.
Lemma ddel_in k (c : cache K V) x : x ∈ ddel k c <-> x ∈ c /\ fst x <> k.
Proof.
  induction c as [|[k0 v0] c IH]; cbn [ddel]; [split; [intros H; by apply elem_of_nil in H|intros [H _]; by apply elem_of_nil in H]|]. case_decide as Hd; rewrite ?elem_of_cons, IH.
  - subst k0. split; [tauto|]. intros [[-> |?] ?]; [done|tauto].
  - split; [|tauto]. intros [-> |[? ?]]; [cbn; split; [by left|congruence]|tauto].
Qed.
Lemma filter_order k (l : list K) q1 a q2 b q3 : List.filter (fun x => bool_decide (x <> k)) l = q1 ++ a :: q2 ++ b :: q3 ->
  exists r1 r2 r3, l = r1 ++ a :: r2 ++ b :: r3.
Proof.
  revert q1. induction l as [|x l IHl]; intros q1 Eq; [by destruct q1|]. cbn [List.filter] in Eq. destruct (bool_decide (x <> k)).
  - destruct q1 as [|y q1].
    + injection Eq as -> Eq. assert (Hb : In b l).
      { assert (Hb : In b (List.filter (fun x => bool_decide (x <> k)) l)) by (rewrite Eq; apply in_app_iff; right; by left). apply filter_In in Hb. tauto. }
      apply in_split in Hb as (r2 & r3 & ->). by exists [], r2, r3.
    + injection Eq as -> Eq. destruct (IHl q1 Eq) as (r1 & r2 & r3 & ->). by exists (y :: r1), r2, r3.
  - destruct (IHl q1 Eq) as (r1 & r2 & r3 & ->). by exists (x :: r1), r2, r3.
Qed.

Definition kept (c : cache K V) : Prop := NoDup (map fst c) /\ length c <= max_size.
Lemma step_kept c e c' o : step c e = (c', o) -> kept c -> kept c'.
Proof.
  intros Hs [Hn Hl]. destruct e as [k|k v|k]; cbn [lru_step] in Hs.
  - unfold lru_get in Hs. destruct (dget k c) as [v|] eqn:E; injection Hs as <- <-; [|done].
    split.
    + rewrite map_app. apply NoDup_app. split; [by apply ddel_nodup|]. split; [|apply NoDup_singleton].
      intros x Hx Hk. apply elem_of_list_singleton in Hk. cbn in Hk. subst x. apply ddel_app_keys in Hx. tauto.
    + rewrite app_length. cbn. pose proof (proj1 (dget_split k c Hn v) E) as Hin.
      assert (length (ddel k c) < length c) by (eapply ddel_shorter; eauto). lia.
  - unfold lru_put in Hs. pose proof (dset_nodup k v c Hn) as Hn'.
    assert (Hlen : length (dset k v c) <= S (length c)).
    { clear. induction c as [|[k0 v0] c IH]; cbn [dset]; [cbn; lia|]. case_decide; cbn; lia. }
    case_decide as Hd; injection Hs as <- <-.
    + destruct (dset k v c) as [|x d] eqn:E; [cbn in Hd; lia|]. cbn [tail] in *. cbn in Hn', Hlen. apply NoDup_cons in Hn' as [_ ?]. split; [done|]. lia.
    + split; [done|]. lia.
  - injection Hs as <- <-. split; [by apply ddel_nodup|]. unfold lru_discard.
    pose proof (ddel_length k c). unfold cache in *. lia.
Qed.
Lemma reached_kept h c : reached h c -> kept c.
Proof.
  revert h c. apply (exec_ind_r step [] (fun h c => kept c)).
  - split; [apply NoDup_nil_2|cbn; lia].
  - intros h c e o c' _ Hk Hs. by eapply step_kept.
Qed.

(** The cache holds exactly what the history says. *)
Lemma holds_snoc h e o k v : holds (h ++ [(e, o)]) k v <->
  (e = Put k v /\ ~ evicts (e, o) k) \/ (holds h k v /\ ~ evicts (e, o) k /\ e <> Discard k /\ forall v', e <> Put k v').
Proof.
  split.
  - intros (h1 & o1 & h2 & E & Hne & Hall). destruct h2 as [|eo h2 _] using rev_ind.
    + apply app_inj_tail in E as [-> [= -> ->]]. left. done.
    + rewrite app_comm_cons, app_assoc in E. apply app_inj_tail in E as [-> <-]. right. split.
      * exists h1, o1, h2. split; [done|]. split; [done|]. intros eo Hin. apply Hall. apply elem_of_app. by left.
      * destruct (Hall (e, o)) as (? & ? & ?); [apply elem_of_app; right; by apply elem_of_list_singleton|]. done.
  - intros [[-> Hne]|((h1 & o1 & h2 & -> & Hne & Hall) & H1 & H2 & H3)].
    + exists h, o, []. split; [done|]. split; [done|]. intros eo Hin. by apply elem_of_nil in Hin.
    + exists h1, o1, (h2 ++ [(e, o)]). split; [by rewrite <- app_assoc|]. split; [done|]. intros eo Hin.
      apply elem_of_app in Hin as [Hin|Hin%elem_of_list_singleton]; [auto|]. subst eo. done.
Qed.
Lemma holds_nil k (v : V) : ~ holds (K := K) [] k v.
Proof. intros (h1 & ? & ? & E & _). by destruct h1. Qed.
Lemma holds_iff h c k v : reached h c -> holds h k v <-> dget k c = Some v.
Proof.
  intros Hr. revert k v. revert h c Hr. apply (exec_ind_r step [] (fun h c => forall k v, holds h k v <-> dget k c = Some v)).
  { intros k v. split; [intros H; by apply holds_nil in H|done]. }
  intros h c e o c' Hx IH Hs k v. rewrite holds_snoc, IH.
  pose proof (reached_kept _ _ Hx) as [Hn _].
  destruct e as [k0|k0 v0|k0]; cbn [lru_step] in Hs.
  - assert (Ho : ~ evicts (Get k0, o) k) by (unfold lru_get in Hs; destruct (dget k0 c); injection Hs as _ <-; done).
    assert (Hc : dget k c' = dget k c).
    { unfold lru_get in Hs. destruct (dget k0 c) as [w|] eqn:E; injection Hs as <- _; [|done].
      assert (Hn' : NoDup (map fst (ddel k0 c ++ [(k0, w)]))).
      { rewrite map_app. apply NoDup_app. split; [by apply ddel_nodup|]. split; [|apply NoDup_singleton].
        intros x Hx' Hk. apply elem_of_list_singleton in Hk. cbn in Hk. subst x. apply ddel_app_keys in Hx'. tauto. }
      apply option_eq. intros u. rewrite (dget_split k _ Hn'), (dget_split k _ Hn). rewrite elem_of_app, elem_of_list_singleton.
      rewrite ddel_in. cbn. apply (dget_split k0 _ Hn) in E as Hin.
      split; [intros [[? _]|[= -> ->]]; done|]. intros Hu. destruct (decide (k = k0)) as [->|]; [|by left].
      right. apply (dget_split k0 _ Hn) in Hu. congruence. }
    rewrite Hc. split; [intros [[? _]|(? & _)]; done|]. intros ?. right. done.
  - unfold lru_put in Hs. pose proof (dset_nodup k0 v0 c Hn) as Hn'.
    assert (Hg : forall k, dget k (dset k0 v0 c) = if decide (k = k0) then Some v0 else dget k c).
    { intros k1. rewrite dget_dset. done. }
    case_decide as Hd; injection Hs as <- <-.
    + destruct (dset k0 v0 c) as [|[e ve] d] eqn:E; [cbn in Hd; lia|]. cbn [tail head fmap option_fmap option_map fst]. unfold evicts. cbn [snd].
      assert (Hd2 : dget k d = if decide (k = e) then None else dget k (dset k0 v0 c)).
      { rewrite E. cbn [dget]. case_decide as Hk; [|done]. subst k. destruct (dget e d) as [u|] eqn:Eu; [|done]. exfalso.
        apply dget_in in Eu. cbn in Hn'. apply NoDup_cons in Hn' as [Hx' _]. apply Hx'. apply elem_of_list_fmap. by exists (e, u). }
      rewrite Hd2, E, Hg. case_decide as He.
      * subst k. split; [|done]. intros [[_ Hne]|(_ & Hne & _)]; by destruct Hne.
      * assert (Hne : OPut (V := V) (Some e) <> OPut (Some k)) by congruence.
        case_decide as Hk; [subst k0|]; split.
        -- intros [[[= ->] _]|(_ & _ & _ & Hp)]; [done|]. by destruct (Hp v0).
        -- intros [= ->]. by left.
        -- intros [[[= -> ->] _]|(? & _)]; done.
        -- intros ?. right. split; [done|]. split; [done|]. split; [done|]. intros v' [= ? _]. congruence.
    + unfold evicts. cbn [snd]. rewrite Hg. case_decide as Hk; [subst k0|]; split.
      * intros [[[= ->] _]|(_ & _ & _ & Hp)]; [done|]. by destruct (Hp v0).
      * intros [= ->]. by left.
      * intros [[[= -> ->] _]|(? & _)]; done.
      * intros ?. right. split; [done|]. split; [done|]. split; [done|]. intros v' [= ? _]. congruence.
  - injection Hs as <- <-. unfold lru_discard. rewrite dget_ddel. unfold evicts. cbn [snd]. case_decide as Hk.
    + subst k0. split; [|done]. intros [[? _]|(_ & _ & ? & _)]; done.
    + split; [intros [[? _]|(? & _)]; done|]. intros ?. right. split; [done|]. split; [done|]. split; [|done]. intros [= ?]. congruence.
Qed.
Lemma get_returns h k o c : reached (h ++ [(Get k, o)]) c -> exists r, o = OGet r /\ forall v, r = Some v <-> holds h k v.
Proof.
  intros Hr. apply exec_snoc_inv in Hr as (m & Hm & Hs). cbn [lru_step] in Hs. unfold lru_get in Hs.
  exists (dget k m). split; [destruct (dget k m); by injection Hs as _ <-|]. intros v. by rewrite (holds_iff _ _ _ _ Hm).
Qed.
(** The entries held are never more than the maximum. *)
Lemma bounded h c ks : reached h c -> NoDup ks -> (forall k, k ∈ ks -> exists v, holds h k v) -> length ks <= max_size.
Proof.
  intros Hr Hn Hk. destruct (reached_kept _ _ Hr) as [_ Hl].
  assert (Hs : ks ⊆ map fst c).
  { intros k Hin. destruct (Hk k Hin) as [v Hv]. apply (holds_iff _ _ _ _ Hr), dget_in in Hv. apply elem_of_list_fmap. by exists (k, v). }
  pose proof (submseteq_length _ _ (NoDup_submseteq _ _ Hn Hs)) as H. rewrite map_length in H. unfold cache in *. lia.
Qed.

(** Order. *)
Lemma used_later_snoc h e o k k' : used_later h k k' -> ~ uses h (e, o) k -> used_later (h ++ [(e, o)]) k k'.
Proof.
  intros (h1 & eo & h2 & -> & H1 & H2 & H3) Hn. exists h1, eo, (h2 ++ [(e, o)]). split; [by rewrite <- app_assoc|]. split; [done|]. split; [done|].
  intros h2a eo' h2b E. destruct h2b as [|x h2b _] using rev_ind.
  - apply app_inj_tail in E as [-> <-]. done.
  - rewrite app_comm_cons, app_assoc in E. apply app_inj_tail in E as [-> _]. by eapply H3.
Qed.
Lemma used_now h e o k k' : uses h (e, o) k' -> ~ uses h (e, o) k -> used_later (h ++ [(e, o)]) k k'.
Proof. intros H1 H2. exists h, (e, o), []. split; [done|]. split; [done|]. split; [done|]. intros h2a ? ? E. by destruct h2a. Qed.
Definition in_order h (c : cache K V) : Prop :=
  forall c1 a c2 b c3, c = c1 ++ a :: c2 ++ b :: c3 -> used_later h (fst a) (fst b).
Lemma in_order_keys h (c : cache K V) : in_order h c <-> forall k1 a k2 b k3, map fst c = k1 ++ a :: k2 ++ b :: k3 -> used_later h a b.
Proof.
  split.
  - intros H k1 a k2 b k3 E. apply map_eq_app in E as (c1 & r1 & -> & <- & E). apply map_eq_cons in E as ([a' va] & r2 & -> & <- & E).
    apply map_eq_app in E as (c2 & r3 & -> & <- & E). apply map_eq_cons in E as ([b' vb] & c3 & -> & <- & <-). cbn. by eapply (H c1 (a', va) c2 (b', vb) c3).
  - intros H c1 a c2 b c3 ->. eapply (H (map fst c1) (fst a) (map fst c2) (fst b) (map fst c3)). rewrite map_app. cbn. rewrite map_app. done.
Qed.
Lemma uses_get h k o k' : uses h (Get k, o) k' -> k' = k.
Proof. destruct o as [[v|]| |]; cbn; done. Qed.
Lemma uses_put h k v o k' : uses h (Put k v, o) k' -> k' = k /\ forall w, ~ holds h k w.
Proof. cbn. intros [-> H]. done. Qed.
Lemma order_inv h c : reached h c -> in_order h c.
Proof.
  revert h c. apply (exec_ind_r step [] in_order).
  { intros c1 a c2 b c3 E. by destruct c1. }
  intros h c e o c' Hx IH Hs. pose proof (proj1 (in_order_keys _ _) IH) as IH'. clear IH. rename IH' into IH. apply (proj2 (in_order_keys _ _)).
  pose proof (reached_kept _ _ Hx) as [Hn _].
  assert (Hheld : forall w, w ∈ map fst c -> exists v, holds h w v).
  { intros w Hw. apply elem_of_list_fmap in Hw as ([w' v] & -> & Hin). exists v.
    apply (holds_iff _ _ _ _ Hx). by apply dget_split. }
  destruct e as [k|k v|k]; cbn [lru_step] in Hs.
  - unfold lru_get in Hs. destruct (dget k c) as [v|] eqn:E; injection Hs as <- <-.
    + intros k1 a k2 b k3 Ek. rewrite map_app in Ek. cbn [map fst] in Ek.
      assert (Hu : uses h (Get k, OGet (Some v)) k) by done.
      assert (Hord : forall q1 a q2 b q3, map fst (ddel k c) = q1 ++ a :: q2 ++ b :: q3 -> used_later h a b).
      { intros q1 a' q2 b' q3 Eq. rewrite ddel_keys_eq in Eq. apply filter_order in Eq as (r1 & r2 & r3 & Er). by eapply IH. }
      destruct k3 as [|z k3 _] using rev_ind.
      * rewrite app_comm_cons, app_assoc in Ek. apply app_inj_tail in Ek as [Ek <-].
        apply used_now; [done|]. intros Ha%uses_get. subst a. assert (k ∈ map fst (ddel k c)) as Hk by (rewrite Ek; apply elem_of_app; right; left).
        apply ddel_app_keys in Hk. tauto.
      * rewrite app_comm_cons, app_assoc, app_comm_cons, app_assoc in Ek. apply app_inj_tail in Ek as [Ek _].
        rewrite <- app_assoc in Ek. cbn [app] in Ek. 
        apply used_later_snoc; [by eapply Hord|]. intros Ha%uses_get. subst a. assert (k ∈ map fst (ddel k c)) as Hk by (rewrite Ek; apply elem_of_app; right; left).
        apply ddel_app_keys in Hk. tauto.
    + intros k1 a k2 b k3 Ek. apply used_later_snoc; [by eapply IH|]. cbn. tauto.
  - (* the dict after the assignment is in order, and so is its tail *)
    assert (HD : forall k1 a k2 b k3, map fst (dset k v c) = k1 ++ a :: k2 ++ b :: k3 -> used_later (h ++ [(Put k v, o)]) a b).
    { intros k1 a k2 b k3 Ek. destruct (dget k c) as [w|] eqn:E.
      - rewrite (dset_present_keys k v c w E) in Ek. apply used_later_snoc; [by eapply IH|].
        intros [-> Hno]%uses_put. apply (Hno w). by apply (holds_iff _ _ _ _ Hx).
      - rewrite (dset_absent k v c E), map_app in Ek. cbn [map fst] in Ek.
        assert (Hnot : forall a, a ∈ map fst c -> ~ uses h (Put k v, o) a).
        { intros a' Ha [-> Hno]%uses_put. destruct (Hheld _ Ha) as [w Hw]. by apply (Hno w). }
        destruct k3 as [|z k3 _] using rev_ind.
        + rewrite app_comm_cons, app_assoc in Ek. apply app_inj_tail in Ek as [Ek <-]. apply used_now.
          * cbn. split; [done|]. intros w Hw%(holds_iff _ _ _ _ Hx). congruence.
          * apply Hnot. rewrite Ek. apply elem_of_app; right; left.
        + rewrite app_comm_cons, app_assoc, app_comm_cons, app_assoc in Ek. apply app_inj_tail in Ek as [Ek _].
          rewrite <- app_assoc in Ek. cbn [app] in Ek. apply used_later_snoc; [by eapply IH|]. apply Hnot. rewrite Ek. apply elem_of_app; right; left. }
    unfold lru_put in Hs. case_decide as Hd; injection Hs as <- <-; [|done].
    intros k1 a k2 b k3 Ek. destruct (dset k v c) as [|[x vx] d]; [cbn in Hd; lia|]. cbn [tail] in Ek. cbn [map] in HD.
    eapply (HD (x :: k1)). cbn. by rewrite Ek.
  - injection Hs as <- <-. intros k1 a k2 b k3 Ek. apply used_later_snoc; [|cbn; tauto]. unfold lru_discard in Ek. rewrite ddel_keys_eq in Ek.
    apply filter_order in Ek as (r1 & r2 & r3 & Er). by eapply IH.
Qed.
(** Evictions. *)
Lemma eviction h k v e c : reached (h ++ [(Put k v, OPut (Some e))]) c ->
  (forall w, ~ holds h k w) /\
  (exists ks, NoDup ks /\ length ks = max_size /\ forall x, x ∈ ks <-> exists w, holds h x w) /\
  (e = k -> max_size = 0) /\
  forall x, x <> e -> (exists w, holds h x w) \/ x = k -> used_later (h ++ [(Put k v, OPut (Some e))]) e x.
Proof.
  intros Hr. pose proof Hr as Hr0. apply exec_snoc_inv in Hr0 as (m & Hm & Hs). pose proof (reached_kept _ _ Hm) as [Hn Hl].
  cbn [lru_step] in Hs. unfold lru_put in Hs. case_decide as Hd; [|by injection Hs]. 
  destruct (dget k m) as [w|] eqn:E.
  { exfalso. pose proof (dset_present_keys k v m w E) as Hk. assert (length (dset k v m) = length m); [|unfold cache in *; lia].
    rewrite <- (map_length fst), Hk. by rewrite map_length. }
  rewrite (dset_absent k v m E) in *. injection Hs as <- He.
  assert (Hlm : length m = max_size). { rewrite app_length in Hd. cbn in Hd. unfold cache in *. lia. }
  assert (Hh : forall x, x ∈ map fst m <-> exists w, holds h x w).
  { intros x. split.
    - intros ([x' w] & -> & Hin)%elem_of_list_fmap. exists w. apply (holds_iff _ _ _ _ Hm). by apply dget_split.
    - intros [w Hw%(holds_iff _ _ _ _ Hm)%dget_in]. apply elem_of_list_fmap. by exists (x, w). }
  split; [intros w Hw%(holds_iff _ _ _ _ Hm); congruence|].
  split; [exists (map fst m); rewrite map_length; done|].
  split.
  { intros ->. destruct m as [|[e0 v0] m]; [done|]. cbn in He. injection He as ->. cbn [dget] in E. by rewrite decide_True in E. }
  intros x Hxe Hx.
  (* the order of the dict before the pop *)
  pose proof (order_inv _ _ Hm) as Ho.
  destruct m as [|[e0 v0] m].
  { cbn in He. injection He as ->. destruct Hx as [Hx|Hx]; [|done]. apply Hh in Hx. by apply elem_of_nil in Hx. }
  cbn in He. injection He as ->.
  assert (Hne : ~ uses h (Put k v, OPut (Some e)) e).
  { intros [-> _]%uses_put. cbn [dget] in E. by rewrite decide_True in E. }
  destruct Hx as [Hx| ->].
  - apply used_later_snoc; [|done]. apply Hh in Hx. cbn in Hx. apply elem_of_cons in Hx as [?|Hx]; [done|].
    apply elem_of_list_fmap in Hx as ([x' w] & -> & Hin). apply elem_of_list_split in Hin as (c2 & c3 & ->).
    apply (Ho [] (e, v0) c2 (x', w) c3). done.
  - apply used_now; [|done]. cbn. split; [done|]. intros w Hw%(holds_iff _ _ _ _ Hm). congruence.
Qed.
End lru.
