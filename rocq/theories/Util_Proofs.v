(** Proofs for C46: the rate limiter. *)
From Coq Require Import Ascii ZArith QArith Qminmax Lqa Lia.
From stdpp Require Import prelude.
From Verif Require Import Trace Router_Model ProxyLog_Model Json_Model Util_Model Util_Spec.

Section limiter.
Local Open Scope Q_scope.
Context (rate burst : Q) (Hrate : 0 < rate) (Hburst : 1 <= burst).
Notation acquire := (acquire rate burst).

Lemma mul_max_elapsed : max_elapsed rate burst * rate == burst.
Proof. unfold max_elapsed. field. lra. Qed.
Lemma Qmin_cases (x y : Q) : (Qmin x y == x /\ x <= y) \/ (Qmin x y == y /\ y <= x).
Proof. destruct (Qlt_le_dec x y) as [H|H]; [left|right]; split; try lra; [apply Q.min_l|apply Q.min_r]; lra. Qed.

(** One call: the pass time times the rate. *)
Lemma acquire_spec l now l' p : acquire l now = (l', p) -> l_last l <= now ->
  l_last l' = now /\ l_tokens l' <= l_tokens l + rate * (now - l_last l) - 1 /\ l_tokens l' <= burst - 1 /\
  now <= p /\ ((0 <= l_tokens l' /\ p == now) \/ (l_tokens l' < 0 /\ rate * p == rate * now - l_tokens l')).
Proof.
  unfold Util_Model.acquire. intros [= <- <-] Hle. cbn [l_last l_tokens]. split; [done|].
  set (e := Qmin (now - l_last l) (max_elapsed rate burst)).
  assert (He : rate * e <= rate * (now - l_last l)).
  { unfold e. rewrite (Qmult_comm rate), (Qmult_comm rate). apply Qmult_le_compat_r; [apply Q.le_min_l|lra]. }
  set (t := Qmin (l_tokens l + e * rate) burst).
  assert (Ht1 : t <= l_tokens l + e * rate) by apply Q.le_min_l. assert (Ht2 : t <= burst) by apply Q.le_min_r.
  split; [lra|]. split; [lra|].
  destruct (Qlt_le_dec (t - 1) 0) as [Hn|Hp].
  - assert (Hd : 0 <= - (t - 1) / rate). { apply Qle_shift_div_l; lra. }
    split; [lra|]. right. split; [done|]. field. lra.
  - split; [lra|]. left. split; [done|lra].
Qed.
Lemma run_tokens l h l' : exec acquire l h l' -> arrivals (l_last l) h ->
  l_last l <= l_last l' /\ l_tokens l' <= l_tokens l + rate * (l_last l' - l_last l) - count_Q (length h).
Proof.
  induction 1 as [l|l now p l1 h l' Hs _ IH]; [intros _; change (count_Q (length [])) with 0; split; lra|].
  cbn [arrivals]. intros [Hle Ha]. destruct (acquire_spec _ _ _ _ Hs Hle) as (El & Ht & _). rewrite <- El in Ha.
  destruct (IH Ha) as [H1 H2]. unfold count_Q in *. cbn [length]. rewrite Nat2Z.inj_succ, <- Z.add_1_l, inject_Z_plus.
  change (inject_Z 1) with 1. rewrite El in *. split; [lra|]. lra.
Qed.
Lemma arrivals_app t h1 h2 : arrivals t (h1 ++ h2) -> arrivals t h1.
Proof. revert t. induction h1 as [|[n p] h1 IH]; intros t; cbn; [done|]. intros [? ?]. split; [done|]. by apply IH. Qed.
Lemma exec_last l h l' : exec acquire l h l' -> arrivals (l_last l) h -> forall h2, arrivals (l_last l) (h ++ h2) -> arrivals (l_last l') h2.
Proof.
  induction 1 as [l|l now p l1 h l' Hs _ IH]; [done|]. cbn [arrivals app]. intros [Hle Ha] h2 [_ Ha2].
  destruct (acquire_spec _ _ _ _ Hs Hle) as (El & _). rewrite <- El in *. auto.
Qed.
(** Two calls of a history, with what is between them. *)
Lemma two_calls t0 h1 ni pi h2 nj pj h3 : limited rate burst t0 (h1 ++ (ni, pi) :: h2 ++ (nj, pj) :: h3) ->
  pi <= pj /\ count_Q (length h2 + 2) <= burst + rate * (pj - pi).
Proof.
  intros [[l Hx] Ha]. change t0 with (l_last (limiter_init burst t0)) in Ha.
  apply exec_app in Hx as (li & H1 & Hx). pose proof (exec_last _ _ _ H1 (arrivals_app _ _ _ Ha) _ Ha) as Hai.
  inversion Hx as [|? ? ? li1 ? ? Hsi Hx2]; subst. cbn [arrivals] in Hai. destruct Hai as [Hlei Hai].
  destruct (acquire_spec _ _ _ _ Hsi Hlei) as (Eli & _ & Hbi & Hpi & Hci). rewrite <- Eli in Hai.
  apply exec_app in Hx2 as (lj & H2 & Hx2). pose proof (arrivals_app _ _ _ Hai) as Ha2. pose proof (exec_last _ _ _ H2 Ha2 _ Hai) as Haj.
  destruct (run_tokens _ _ _ H2 Ha2) as [Hl Ht].
  inversion Hx2 as [|? ? ? lj1 ? ? Hsj _]; subst. cbn [arrivals] in Haj. destruct Haj as [Hlej _].
  destruct (acquire_spec _ _ _ _ Hsj Hlej) as (Elj & Htj & Hbj & Hpj & Hcj).
  assert (Hc : count_Q (length h2 + 2) == count_Q (length h2) + 2).
  { unfold count_Q. rewrite Nat2Z.inj_add, inject_Z_plus. done. }
  assert (Hc0 : 0 <= count_Q (length h2)).
  { unfold count_Q. change 0 with (inject_Z 0). rewrite <- Zle_Qle. lia. }
  assert (HR : rate * pi <= rate * pj /\ count_Q (length h2 + 2) <= burst + rate * (pj - pi)).
  { assert (Hm : rate * l_last li1 <= rate * nj) by (rewrite !(Qmult_comm rate); apply Qmult_le_compat_r; lra).
    assert (Hi : 0 <= l_tokens li1 /\ rate * pi == rate * l_last li1 \/ l_tokens li1 < 0 /\ rate * pi == rate * l_last li1 - l_tokens li1).
    { destruct Hci as [[? E]|?]; [left; split; [done|by rewrite E]|by right]. }
    assert (Hj : 0 <= l_tokens lj1 /\ rate * pj == rate * nj \/ l_tokens lj1 < 0 /\ rate * pj == rate * nj - l_tokens lj1).
    { destruct Hcj as [[? E]|?]; [left; split; [done|by rewrite E]|by right]. }
    clear Hci Hcj. rewrite Hc. destruct Hi as [[? Ei]|[? Ei]], Hj as [[? Ej]|[? Ej]]; split; lra. }
  destruct HR as [HR1 HR2]. split; [|done]. rewrite <- (Qmult_le_l _ _ rate); done.
Qed.
Lemma filter_span {A} (P : A -> bool) l : List.filter P l = [] \/
  (exists x, P x = true /\ length (List.filter P l) = 1%nat) \/
  exists h1 x h2 y h3, l = h1 ++ x :: h2 ++ y :: h3 /\ P x = true /\ P y = true /\ (length (List.filter P l) <= length h2 + 2)%nat.
Proof.
  induction l as [|z l IH]; [by left|]. cbn [List.filter]. destruct (P z) eqn:Hz.
  - right. destruct IH as [E|[(x & Hx & E)|(h1 & x & h2 & y & h3 & -> & Hx & Hy & Hl)]].
    + left. exists z. rewrite E. done.
    + right. assert (exists h2 y h3, l = h2 ++ y :: h3 /\ P y = true) as (h2 & y & h3 & -> & Hy).
      { destruct (List.filter P l) as [|w fl] eqn:F; [done|]. assert (Hin : In w (List.filter P l)) by (rewrite F; by left).
        apply filter_In in Hin as [Hin Hw]. apply in_split in Hin as (h2 & h3 & ->). eauto. }
      exists [], z, h2, y, h3. split; [done|]. split; [done|]. split; [done|]. cbn. lia.
    + right. exists [], z, (h1 ++ x :: h2), y, h3. split; [by rewrite <- app_assoc|]. split; [done|]. split; [done|].
      cbn. rewrite app_length. cbn. lia.
  - destruct IH as [E|[E|(h1 & x & h2 & y & h3 & -> & Hx & Hy & Hl)]]; [by left|by right; left|].
    right; right. exists (z :: h1), x, h2, y, h3. done.
Qed.
Lemma window_bound t0 h s t : limited rate burst t0 h -> 0 <= t ->
  count_Q (length (List.filter (in_window s t) h)) <= burst + rate * t.
Proof.
  intros Hl Ht. assert (Hrt : 0 <= rate * t) by (apply Qmult_le_0_compat; lra).
  destruct (filter_span (in_window s t) h) as [->|[(x & _ & ->)|(h1 & [ni pi] & h2 & [nj pj] & h3 & -> & Hx & Hy & Hc)]].
  - change (count_Q (length [])) with 0. lra.
  - change (count_Q 1) with 1. lra.
  - destruct (two_calls _ _ _ _ _ _ _ _ Hl) as [_ H2]. unfold in_window in Hx, Hy. cbn [snd] in *.
    apply andb_true_iff in Hx as [Hx%Qle_bool_iff _], Hy as [_ Hy%Qle_bool_iff].
    assert (count_Q (length (List.filter (in_window s t) (h1 ++ (ni, pi) :: h2 ++ (nj, pj) :: h3))) <= count_Q (length h2 + 2)).
    { unfold count_Q. rewrite <- Zle_Qle. lia. }
    assert (rate * (pj - pi) <= rate * t); [|lra]. rewrite !(Qmult_comm rate). apply Qmult_le_compat_r; lra.
Qed.

(** Tightness. *)
Definition since_full (h : list (Q * Q)) (l : limiter) : Prop :=
  h = [] /\ l_tokens l == burst \/
  exists h1 ni pi h2, h = h1 ++ (ni, pi) :: h2 /\ pi == ni /\ l_tokens l == burst - count_Q (length h2 + 1) + rate * (l_last l - ni).
Lemma since_full_inv t0 h l : exec acquire (limiter_init burst t0) h l -> arrivals t0 h -> no_long_gap rate burst h ->
  since_full h l /\ (h <> [] -> exists h' p, h = h' ++ [(l_last l, p)] /\ (p <= l_last l <-> 0 <= l_tokens l)).
Proof.
  revert h l. apply (exec_ind_r acquire (limiter_init burst t0) (fun h l => arrivals t0 h -> no_long_gap rate burst h ->
    since_full h l /\ (h <> [] -> exists h' p, h = h' ++ [(l_last l, p)] /\ (p <= l_last l <-> 0 <= l_tokens l)))).
  { intros _ _. split; [|done]. left. split; [done|]. cbn. lra. }
  intros h l now p l' Hx IH Hs Ha Hg.
  assert (Hle : l_last l <= now).
  { pose proof (exec_last _ _ _ Hx (arrivals_app _ _ _ Ha) _ Ha) as H. by destruct H. }
  destruct (acquire_spec _ _ _ _ Hs Hle) as (El & Ht & Hb & Hp & Hc).
  split; cycle 1.
  { intros _. exists h, p. rewrite El. split; [done|]. destruct Hc as [[? E]|[? E]]; [split; intros; lra|].
    split; [|lra]. intros Hpn. assert (rate * p <= rate * now); [|lra]. rewrite !(Qmult_comm rate). apply Qmult_le_compat_r; lra. }
  assert (Hg' : no_long_gap rate burst h).
  { intros h1 n1 p1 n2 p2 h2 ->. apply (Hg h1 n1 p1 n2 p2 (h2 ++ [(now, p)])). by rewrite <- app_assoc. }
  destruct (IH (arrivals_app _ _ _ Ha) Hg') as [Hsf Hlast]. clear IH.
  (* either full again, or all of the elapsed time counted *)
  assert (HD : l_tokens l' == burst - 1 \/ (l_tokens l' == l_tokens l + rate * (now - l_last l) - 1)).
  { unfold Util_Model.acquire in Hs. injection Hs as <- _. cbn [l_tokens].
    set (e := Qmin (now - l_last l) (max_elapsed rate burst)).
    destruct (Qmin_cases (l_tokens l + e * rate) burst) as [[E1 H1]|[E1 H1]]; rewrite E1; [|left; lra].
    destruct (Qmin_cases (now - l_last l) (max_elapsed rate burst)) as [[E2 H2]|[E2 H2]]; fold e in E2; rewrite E2 in *; [right; lra|].
    rewrite mul_max_elapsed in *.
    assert (Hcase : 0 <= l_tokens l \/ now - l_last l <= burst / rate).
    { destruct h as [|eo h0] eqn:Eh; [left; destruct Hsf as [[_ E]|(? & ? & ? & ? & E & _)]; [rewrite E; lra|by destruct x]|].
      destruct Hlast as (h' & p' & E & Hiff); [done|]. rewrite E in Hg.
      destruct (Hg h' (l_last l) p' now p []) as [H|H]; [by rewrite <- app_assoc|left; by apply Hiff|by right]. }
    destruct Hcase as [H|H]; [left; lra|]. right. unfold max_elapsed in H2.
    assert (E3 : now - l_last l == burst / rate) by lra. rewrite E3.
    assert (rate * (burst / rate) == burst) by (field; lra). lra. }
  right. destruct HD as [E|E].
  - exists h, now, p, []. split; [done|]. split; [destruct Hc as [[_ ?]|[? _]]; lra|]. rewrite E, El. change (count_Q (length [] + 1)) with 1. ring.
  - destruct Hsf as [[-> Ef]|(h1 & ni & pi & h2 & -> & Epi & Ef)].
    + exists [], now, p, []. split; [done|]. assert (El' : l_tokens l' == burst - 1).
      { apply Qle_antisym; [done|]. rewrite E, Ef. assert (0 <= rate * (now - l_last l)) by (apply Qmult_le_0_compat; lra). lra. }
      split; [destruct Hc as [[_ ?]|[? _]]; lra|]. rewrite El', El. change (count_Q (length [] + 1)) with 1. ring.
    + exists h1, ni, pi, (h2 ++ [(now, p)]). split; [by rewrite <- app_assoc|]. split; [done|]. rewrite E, Ef, El.
      rewrite app_length. cbn [length]. unfold count_Q. rewrite !Nat2Z.inj_add, !inject_Z_plus. change (inject_Z (Z.of_nat 1)) with 1. ring.
Qed.
Lemma delay_needed t0 h n p : limited rate burst t0 (h ++ [(n, p)]) -> no_long_gap rate burst (h ++ [(n, p)]) -> n < p ->
  exists h1 ni pi h2, h = h1 ++ (ni, pi) :: h2 /\ count_Q (length h2 + 2) == burst + rate * (p - pi).
Proof.
  intros [[l Hx] Ha] Hg Hnp. destruct (since_full_inv _ _ _ Hx Ha Hg) as [Hsf Hl].
  pose proof Hx as Hx0. apply exec_snoc_inv in Hx0 as (lm & Hm & Hs).
  assert (Hle : l_last lm <= n).
  { pose proof (exec_last _ _ _ Hm (arrivals_app _ _ _ Ha) _ Ha) as H. by destruct H. }
  destruct (acquire_spec _ _ _ _ Hs Hle) as (El & Ht & Hb & Hp & Hc).
  destruct Hc as [[? ?]|[Hneg Hrp]]; [lra|].
  destruct Hsf as [[E _]|(h1 & ni & pi & h2 & E & Epi & Ef)]; [by destruct h|].
  destruct h2 as [|eo h2 _] using rev_ind.
  - apply app_inj_tail in E as [-> [= <- <-]]. lra.
  - rewrite app_comm_cons, app_assoc in E. apply app_inj_tail in E as [-> <-]. exists h1, ni, pi, h2. split; [done|].
    rewrite app_length in Ef. cbn [length] in Ef. replace (length h2 + 1 + 1)%nat with (length h2 + 2)%nat in Ef by lia. rewrite El in Ef. rewrite Epi. lra.
Qed.
Lemma passes_after t0 h n p : limited rate burst t0 (h ++ [(n, p)]) -> n <= p.
Proof.
  intros [[l Hx] Ha]. pose proof Hx as Hx0. apply exec_snoc_inv in Hx0 as (lm & Hm & Hs).
  assert (Hle : l_last lm <= n).
  { pose proof (exec_last _ _ _ Hm (arrivals_app _ _ _ Ha) _ Ha) as H. by destruct H. }
  by destruct (acquire_spec _ _ _ _ Hs Hle) as (_ & _ & _ & ? & _).
Qed.
End limiter.
