(** Proofs for C144. *)
From Coq Require Import ZArith Lia Ascii.
From stdpp Require Import list.
From Verif Require Import Stamp_Model Stamp_Spec.
Open Scope Z_scope.

(** * The calendar *)
Lemma is_leap_spec y : is_leap y = true <-> leap y.
Proof.
  unfold is_leap, leap. rewrite andb_true_iff, orb_true_iff, negb_true_iff, !Z.eqb_eq, Z.eqb_neq.
  rewrite <- (Z.mod_divide y 4), <- (Z.mod_divide y 100), <- (Z.mod_divide y 400) by lia. tauto.
Qed.
Lemma leap_year y : days_before_year (y + 1) = days_before_year y + 365 + (if is_leap y then 1 else 0).
Proof.
  unfold days_before_year, is_leap. replace (y + 1 - 1) with y by lia.
  destruct (Z.eqb_spec (y mod 4) 0), (Z.eqb_spec (y mod 100) 0), (Z.eqb_spec (y mod 400) 0); cbn [andb orb negb]; Z.to_euclidean_division_equations; lia.
Qed.
Definition good (a : Z * Z * Z) : Prop := let '(y, m, d) := a in 1 <= m <= 12 /\ 1 <= d <= days_in_month y m.
Definition ord (a : Z * Z * Z) : Z := let '(y, m, d) := a in ymd2ord y m d.
Lemma month_cases m : 1 <= m <= 12 -> m = 1 \/ m = 2 \/ m = 3 \/ m = 4 \/ m = 5 \/ m = 6 \/ m = 7 \/ m = 8 \/ m = 9 \/ m = 10 \/ m = 11 \/ m = 12.
Proof. lia. Qed.
Lemma lasts_days y m n : lasts y m n -> 1 <= m <= 12 /\ days_in_month y m = n.
Proof.
  intros H. destruct H as [m H|m H|H|H].
  - repeat (apply elem_of_cons in H as [->|H]; [split; [lia|reflexivity]|]). by apply elem_of_nil in H.
  - repeat (apply elem_of_cons in H as [->|H]; [split; [lia|reflexivity]|]). by apply elem_of_nil in H.
  - split; [lia|]. unfold days_in_month. destruct (is_leap y) eqn:E; [|reflexivity]. by apply is_leap_spec in E.
  - split; [lia|]. unfold days_in_month. apply is_leap_spec in H. by rewrite H.
Qed.
Lemma days_lasts y m : 1 <= m <= 12 -> lasts y m (days_in_month y m).
Proof.
  intros Hm. apply month_cases in Hm as [->|[->|[->|[->|[->|[->|[->|[->|[->|[->|[->| ->]]]]]]]]]]]; try (apply thirty_one; apply (bool_decide_unpack _); exact I); try (apply thirty; apply (bool_decide_unpack _); exact I).
  unfold days_in_month. cbn. destruct (is_leap y) eqn:E; [apply february_leap; by apply is_leap_spec|apply february; intros H%is_leap_spec; congruence].
Qed.
Lemma before_next y m : 1 <= m < 12 -> days_before_month y (m + 1) = days_before_month y m + days_in_month y m.
Proof.
  intros Hm. assert (m = 1 \/ m = 2 \/ m = 3 \/ m = 4 \/ m = 5 \/ m = 6 \/ m = 7 \/ m = 8 \/ m = 9 \/ m = 10 \/ m = 11) as H by lia.
  unfold days_before_month, days_in_month. destruct H as [->|[->|[->|[->|[->|[->|[->|[->|[->|[->| ->]]]]]]]]]]; generalize (is_leap y); intros []; reflexivity.
Qed.
Lemma before_12 y : days_before_month y 12 = 334 + (if is_leap y then 1 else 0).
Proof. unfold days_before_month. cbn. by destruct (is_leap y). Qed.
Lemma month_pos y m : 1 <= m <= 12 -> 28 <= days_in_month y m <= 31.
Proof. intros Hm. unfold days_in_month. apply month_cases in Hm as [->|[->|[->|[->|[->|[->|[->|[->|[->|[->|[->| ->]]]]]]]]]]]; generalize (is_leap y); intros []; vm_compute; split; congruence. Qed.
Lemma tomorrow_ord a b : tomorrow a b -> good a -> good b /\ ord b = ord a + 1.
Proof.
  intros H Hg. destruct H as [y m d n Hl Hd|y m n Hl Hm|y].
  - apply lasts_days in Hl as [Hm Hn]. cbn [good ord fst snd] in *. split; [lia|]. unfold ymd2ord. lia.
  - apply lasts_days in Hl as [Hm' Hn]. cbn [good ord fst snd] in *. pose proof (month_pos y (m + 1) ltac:(lia)). split; [lia|]. unfold ymd2ord. rewrite before_next by lia. lia.
  - cbn [good ord fst snd] in *. pose proof (month_pos (y + 1) 1 ltac:(lia)). split; [lia|]. unfold ymd2ord. rewrite leap_year, before_12. change (days_before_month (y + 1) 1) with (0 + 0). lia.
Qed.
Lemma tomorrow_total a : good a -> exists b, tomorrow a b.
Proof.
  destruct a as [[y m] d]. cbn. intros [Hm Hd]. pose proof (days_lasts y m Hm) as Hl. destruct (decide (d < days_in_month y m)); [eexists; by eapply same_month|].
  assert (d = days_in_month y m) as -> by lia. destruct (decide (m < 12)); [eexists; by eapply next_month|]. assert (m = 12) as -> by lia. change (days_in_month y 12) with 31. eexists. apply next_year.
Qed.
Lemma day_ord n a : day n a -> 0 <= n /\ good a /\ ord a = epoch + n /\ 1970 <= a.1.1.
Proof.
  induction 1 as [|n a b Hd (H1 & H2 & H3 & H4) Ht]; [split; [lia|]; split; [vm_compute; intuition congruence|]; split; [reflexivity|cbn; lia]|].
  destruct (tomorrow_ord _ _ Ht H2) as [G O]. split; [lia|]. split; [done|]. split; [lia|]. inversion Ht; subst; cbn [good ord fst snd] in *; lia.
Qed.
Lemma day_total n : 0 <= n -> exists a, day n a.
Proof.
  intros Hn. pattern n. apply natlike_ind; [eexists; apply first_day| |done]. intros k Hk [a Ha]. destruct (day_ord _ _ Ha) as (_ & G & _). destruct (tomorrow_total a G) as [b Hb]. exists b. unfold Z.succ. by eapply later_day.
Qed.
(** * Numbers of days *)
Lemma before_bounds y m : 1 <= m <= 12 -> 0 <= days_before_month y m /\ days_before_month y m + days_in_month y m <= 365 + (if is_leap y then 1 else 0).
Proof. intros Hm. unfold days_before_month, days_in_month. apply month_cases in Hm as [->|[->|[->|[->|[->|[->|[->|[->|[->|[->|[->| ->]]]]]]]]]]]; generalize (is_leap y); intros []; vm_compute; split; congruence. Qed.
Lemma before_mono y m m' : 1 <= m -> m < m' <= 12 -> days_before_month y m + days_in_month y m <= days_before_month y m'.
Proof.
  intros Hm Hm'. assert (forall k, 0 <= k -> m + 1 + k <= 12 -> days_before_month y m + days_in_month y m <= days_before_month y (m + 1 + k)) as H.
  { intros k Hk. pattern k. apply natlike_ind; [|clear k Hk; intros k Hk IH|done]; intros Hb; [rewrite Z.add_0_r, before_next by lia; lia|]. replace (m + 1 + Z.succ k) with ((m + 1 + k) + 1) by lia. rewrite before_next by lia. pose proof (month_pos y (m + 1 + k) ltac:(lia)). specialize (IH ltac:(lia)). lia. }
  replace m' with (m + 1 + (m' - m - 1)) by lia. apply H; lia.
Qed.
Lemma year_mono y y' : y < y' -> days_before_year y + 365 + (if is_leap y then 1 else 0) <= days_before_year y'.
Proof.
  intros Hy. assert (forall k, 0 <= k -> days_before_year y + 365 + (if is_leap y then 1 else 0) <= days_before_year (y + 1 + k)) as H.
  { intros k Hk. pattern k. apply natlike_ind; [|clear k Hk; intros k Hk IH|done]; [rewrite Z.add_0_r, leap_year; lia|]. replace (y + 1 + Z.succ k) with ((y + 1 + k) + 1) by lia. rewrite leap_year. destruct (is_leap (y + 1 + k)); lia. }
  replace y' with (y + 1 + (y' - y - 1)) by lia. apply H. lia.
Qed.
Lemma ord_inj a b : good a -> good b -> ord a = ord b -> a = b.
Proof.
  destruct a as [[y m] d], b as [[y' m'] d']. cbn. unfold ymd2ord. intros [Hm Hd] [Hm' Hd'] E. pose proof (before_bounds y m Hm) as [B1 B2]. pose proof (before_bounds y' m' Hm') as [B3 B4].
  destruct (Z.lt_trichotomy y y') as [H|[<-|H]]; [pose proof (year_mono y y' H); lia| |pose proof (year_mono y' y H); lia].
  destruct (Z.lt_trichotomy m m') as [H|[<-|H]]; [pose proof (before_mono y m m' ltac:(lia) ltac:(lia)); lia| |pose proof (before_mono y m' m ltac:(lia) ltac:(lia)); lia]. f_equal. lia.
Qed.
(** _ord2ymd within a year: the 365 days after the first, by trying. *)
Definition within (leap : bool) (n : Z) : Z * Z :=
  let month := (n + 50) / 32 in
  let before := nth_month month_starts month + (if (2 <? month) && leap then 1 else 0) in
  if n <? before then (month - 1, n - (before - (nth_month month_days (month - 1) + (if (month - 1 =? 2) && leap then 1 else 0))) + 1)
  else (month, n - before + 1).
Definition right (leap : bool) (n : Z) : bool :=
  let '(m, d) := within leap n in
  (1 <=? m) && (m <=? 12) && (1 <=? d) && (d <=? (if (m =? 2) && leap then 29 else nth_month month_days m)) &&
  (nth_month month_starts m + (if (2 <? m) && leap then 1 else 0) + d =? n + 1).
Fixpoint all_right (leap : bool) (k : nat) (n : Z) : bool := match k with O => true | S k => right leap n && all_right leap k (n + 1) end.
Lemma all_right_spec leap k : forall n i, all_right leap k n = true -> n <= i < n + Z.of_nat k -> right leap i = true.
Proof.
  induction k as [|k IH]; intros n i H Hi; [lia|]. cbn [all_right] in H. apply andb_true_iff in H as [H1 H2]. destruct (decide (i = n)) as [->|]; [done|]. apply (IH (n + 1)); [done|lia].
Qed.
Lemma year_right leap : all_right leap (Z.to_nat 365) 0 = true.
Proof. destruct leap; vm_compute; reflexivity. Qed.
Lemma year_start a b c e : 0 <= b <= 3 -> 0 <= c <= 24 -> 0 <= e <= 3 -> days_before_year (a * 400 + 1 + b * 100 + c * 4 + e) = a * 146097 + b * 36524 + c * 1461 + e * 365.
Proof.
  intros Hb Hc He. unfold days_before_year. replace (a * 400 + 1 + b * 100 + c * 4 + e - 1) with (a * 400 + b * 100 + c * 4 + e) by lia.
  replace ((a * 400 + b * 100 + c * 4 + e) / 4) with (a * 100 + b * 25 + c) by (apply Z.div_unique with e; lia).
  replace ((a * 400 + b * 100 + c * 4 + e) / 100) with (a * 4 + b) by (apply Z.div_unique with (c * 4 + e); lia).
  replace ((a * 400 + b * 100 + c * 4 + e) / 400) with a by (apply Z.div_unique with (b * 100 + c * 4 + e); lia). lia.
Qed.
Lemma year_leap a b c e : 0 <= b <= 3 -> 0 <= c <= 24 -> 0 <= e <= 3 -> is_leap (a * 400 + 1 + b * 100 + c * 4 + e) = (e =? 3) && (negb (c =? 24) || (b =? 3)).
Proof.
  intros Hb Hc He. apply eq_true_iff_eq. rewrite is_leap_spec. unfold leap. rewrite andb_true_iff, orb_true_iff, negb_true_iff, Z.eqb_neq, !Z.eqb_eq.
  split.
  - intros [[k4 H4] H]. assert (e = 3) by lia. split; [done|]. destruct (decide (c = 24)); [right|by left]. destruct H as [H|[k H]]; [exfalso; apply H; exists (a * 4 + b + 1); lia|lia].
  - intros [-> H]. split; [exists (a * 100 + b * 25 + c + 1); lia|]. destruct H as [H| ->]; [left; intros [k Hk]; lia|]. destruct (decide (c = 24)) as [->|]; [right; exists (a + 1); lia|left; intros [k Hk]; lia].
Qed.
Lemma ord2ymd_right n : good (ord2ymd n) /\ ord (ord2ymd n) = n.
Proof.
  unfold ord2ymd. cbv zeta.
  pose proof (Z.div_mod (n - 1) 146097 ltac:(lia)) as E1. pose proof (Z.mod_pos_bound (n - 1) 146097 ltac:(lia)) as B1. set (a := (n - 1) / 146097) in *. set (n1 := (n - 1) mod 146097) in *.
  pose proof (Z.div_mod n1 36524 ltac:(lia)) as E2. pose proof (Z.mod_pos_bound n1 36524 ltac:(lia)) as B2. set (b := n1 / 36524) in *. set (n2 := n1 mod 36524) in *.
  pose proof (Z.div_mod n2 1461 ltac:(lia)) as E3. pose proof (Z.mod_pos_bound n2 1461 ltac:(lia)) as B3. set (c := n2 / 1461) in *. set (n3 := n2 mod 1461) in *.
  pose proof (Z.div_mod n3 365 ltac:(lia)) as E4. pose proof (Z.mod_pos_bound n3 365 ltac:(lia)) as B4. set (e := n3 / 365) in *. set (r := n3 mod 365) in *.
  clearbody a n1 b n2 c n3 e r. assert (0 <= b <= 4) by lia. assert (0 <= c <= 24) by lia. assert (0 <= e <= 4) by lia.
  destruct ((e =? 4) || (b =? 4)) eqn:Last.
  - assert (exists a' b' c', a * 400 + 1 + b * 100 + c * 4 + e - 1 = a' * 400 + 1 + b' * 100 + c' * 4 + 3 /\ 0 <= b' <= 3 /\ 0 <= c' <= 24 /\ (c' <> 24 \/ b' = 3) /\ n = a' * 146097 + b' * 36524 + c' * 1461 + 3 * 365 + 366) as (a' & b' & c' & -> & Hb & Hc & Hl & Hn).
    { destruct (decide (b = 4)) as [->|Hb]; [exists a, 3, 24; lia|]. apply orb_true_iff in Last as [He%Z.eqb_eq|He%Z.eqb_eq]; [|done]. exists a, b, c. lia. }
    cbn [good ord]. unfold ymd2ord. rewrite year_start, before_12, year_leap by lia. change (days_in_month _ 12) with 31.
    replace ((3 =? 3) && (negb (c' =? 24) || (b' =? 3))) with true; [lia|]. symmetry. cbn [andb Z.eqb]. apply andb_true_iff. split; [done|]. apply orb_true_iff. destruct Hl as [Hl| ->]; [left; apply negb_true_iff; by apply Z.eqb_neq|by right].
  - apply orb_false_iff in Last as [He%Z.eqb_neq Hb%Z.eqb_neq]. rewrite <- (year_leap a b c e) by lia. pose proof (year_start a b c e ltac:(lia) ltac:(lia) ltac:(lia)) as Y. set (y := a * 400 + 1 + b * 100 + c * 4 + e) in *.
    pose proof (all_right_spec (is_leap y) _ 0 r (year_right _) ltac:(lia)) as R. unfold right in R.
    match goal with |- good ?x /\ _ => assert (x = let '(m, d) := within (is_leap y) r in (y, m, d)) as -> by (unfold within; destruct (_ <? _); reflexivity) end.
    destruct (within (is_leap y) r) as [m d].
    apply andb_true_iff in R as [[[[R1 R2]%andb_true_iff R3]%andb_true_iff R4]%andb_true_iff R5]. apply Z.leb_le in R1, R2, R3, R4. apply Z.eqb_eq in R5. cbn [good ord]. unfold ymd2ord, days_in_month, days_before_month. rewrite Y. lia.
Qed.
Lemma day_unique n a : day n a -> ord2ymd (epoch + n) = a.
Proof. intros (_ & G & O & _)%day_ord. destruct (ord2ymd_right (epoch + n)) as [G' O']. apply ord_inj; [done..|]. lia. Qed.

(** * Text *)
Lemma value_digit d c : digits !! d = Some c -> value c = Some (Z.of_nat d).
Proof. intros H. do 10 (destruct d as [|d]; [injection H as <-; reflexivity|]). discriminate H. Qed.
Lemma number_app l1 l2 n : forall acc, number acc l1 = Some n -> number acc (l1 ++ l2) = number n l2.
Proof. induction l1 as [|c l1 IH]; intros acc H; cbn in *; [by injection H as ->|]. destruct (value c); [by apply IH|done]. Qed.
Lemma decimal_number l n : decimal l n -> number 0 l = Some n.
Proof. induction 1 as [|l n c d Hl IH Hd]; [done|]. erewrite number_app by done. cbn [number]. by rewrite (value_digit _ _ Hd). Qed.
Lemma decimal_bound l n : decimal l n -> 0 <= n < 10 ^ Z.of_nat (length l).
Proof.
  induction 1 as [|l n c d Hl IH Hd]; [cbn; lia|]. apply lookup_lt_Some in Hd. cbn in Hd. rewrite app_length, Nat2Z.inj_add. change (Z.of_nat (length [c])) with 1. rewrite Z.pow_add_r by lia. lia.
Qed.
Lemma decimal_bound_4 l n : decimal l n -> length l = 4%nat -> n <= 9999.
Proof. intros H%decimal_bound L. rewrite L in H. change (10 ^ Z.of_nat 4) with 10000 in H. lia. Qed.
Lemma digit_ok d : 0 <= d <= 9 -> digits !! Z.to_nat d = Some (digit d).
Proof. intros Hd. assert (d = 0 \/ d = 1 \/ d = 2 \/ d = 3 \/ d = 4 \/ d = 5 \/ d = 6 \/ d = 7 \/ d = 8 \/ d = 9) as H by lia. by destruct H as [->|[->|[->|[->|[->|[->|[->|[->|[->| ->]]]]]]]]]. Qed.
Lemma decimal_snoc l n d : decimal l n -> 0 <= d <= 9 -> decimal (l ++ [digit d]) (10 * n + d).
Proof. intros Hl Hd. pose proof (one_more l n _ (Z.to_nat d) Hl (digit_ok d Hd)) as H. by rewrite Z2Nat.id in H by lia. Qed.
Lemma decimal_two l k n : decimal l k -> 0 <= n <= 99 -> decimal (l ++ two n) (100 * k + n).
Proof.
  intros Hl Hn. unfold two. replace (l ++ [digit (n / 10); digit (n mod 10)]) with ((l ++ [digit (n / 10)]) ++ [digit (n mod 10)]) by (by rewrite <- app_assoc).
  pose proof (Z.div_mod n 10 ltac:(lia)). pose proof (Z.mod_pos_bound n 10 ltac:(lia)). assert (0 <= n / 10 <= 9) by lia. replace (100 * k + n) with (10 * (10 * k + n / 10) + n mod 10) by lia.
  apply decimal_snoc; [|lia]. by apply decimal_snoc.
Qed.
Lemma two_decimal n : 0 <= n <= 99 -> decimal (two n) n.
Proof. intros Hn. pose proof (decimal_two [] 0 n no_digits Hn) as H. by rewrite Z.mul_0_r in H. Qed.
Lemma four_decimal n : 0 <= n <= 9999 -> decimal (four n) n.
Proof.
  intros Hn. unfold four. pose proof (Z.div_mod n 100 ltac:(lia)). pose proof (Z.mod_pos_bound n 100 ltac:(lia)). assert (0 <= n / 100 <= 99) by lia.
  pose proof (decimal_two (two (n / 100)) (n / 100) (n mod 100) (two_decimal (n / 100) ltac:(lia)) ltac:(lia)) as Hd. replace n with (100 * (n / 100) + n mod 100) at 3 by lia. done.
Qed.
Lemma text_stamp y m d hh mm ss : 0 <= y <= 9999 -> 0 <= m <= 99 -> 0 <= d <= 99 -> 0 <= hh <= 99 -> 0 <= mm <= 99 -> 0 <= ss <= 99 -> stamp (text y m d hh mm ss) y m d hh mm ss.
Proof.
  intros. exists (four y), (two m), (two d), (two hh), (two mm), (two ss). split; [done|]. split; [done|]. split; [by apply four_decimal|]. repeat (split; [by apply two_decimal|]). by apply two_decimal.
Qed.
Lemma stamp_fromiso ts y m d hh mm ss : stamp ts y m d hh mm ss -> fromiso (removelast ts) = if valid y m d hh mm ss then Some (seconds y m d hh mm ss) else None.
Proof.
  intros (ly & lm & ld & lh & ln & ls & -> & (L1 & L2 & L3 & L4 & L5 & L6) & D1 & D2 & D3 & D4 & D5 & D6). apply decimal_number in D1, D2, D3, D4, D5, D6.
  destruct ly as [|y1 [|y2 [|y3 [|y4 [|]]]]]; try discriminate L1. destruct lm as [|m1 [|m2 [|]]]; try discriminate L2. destruct ld as [|d1 [|d2 [|]]]; try discriminate L3.
  destruct lh as [|h1 [|h2 [|]]]; try discriminate L4. destruct ln as [|n1 [|n2 [|]]]; try discriminate L5. destruct ls as [|c1 [|c2 [|]]]; try discriminate L6.
  cbn [app removelast]. unfold fromiso. rewrite !Ascii.eqb_refl. cbn [andb]. by rewrite D1, D2, D3, D4, D5, D6.
Qed.
Lemma valid_day n y m d hh mm ss : day n (y, m, d) -> y <= 9999 -> clock hh mm ss -> valid y m d hh mm ss = true.
Proof.
  intros (H1 & [H2 H3] & _ & H4)%day_ord Hy (C1 & C2 & C3). cbn in H4. unfold valid. repeat (apply andb_true_iff; split); apply Z.leb_le; lia.
Qed.
Lemma reads ts n y m d hh mm ss : stamp ts y m d hh mm ss -> day n (y, m, d) -> y <= 9999 -> clock hh mm ss -> parse_k8s_timestamp ts = Some (1000 * (86400 * n + 3600 * hh + 60 * mm + ss)).
Proof.
  intros Hs Hd Hy Hc. unfold parse_k8s_timestamp. rewrite (stamp_fromiso _ _ _ _ _ _ _ Hs), (valid_day _ _ _ _ _ _ _ Hd Hy Hc). cbn [option_map]. f_equal. unfold seconds. apply day_ord in Hd as (_ & _ & O & _). cbn [ord] in O. rewrite O. lia.
Qed.
Lemma year_bound n a : day n a -> n < 2932897 -> a.1.1 <= 9999.
Proof.
  intros (_ & G & O & _)%day_ord Hn. destruct a as [[y m] d]. cbn in *. destruct (decide (y <= 9999)); [done|]. unfold ymd2ord, epoch in O. pose proof (before_bounds y m (proj1 G)) as [B _].
  assert (3652059 <= days_before_year y); [|lia]. destruct (decide (y = 10000)) as [->|]; [vm_compute; congruence|]. pose proof (year_mono 10000 y ltac:(lia)) as Y. change (days_before_year 10000) with 3652059 in Y. destruct (is_leap 10000); lia.
Qed.
Lemma written now : 0 <= now < 253402300800000 -> exists y m d, day (now / 86400000) (y, m, d) /\ y <= 9999 /\
  clock (now / 3600000 mod 24) (now / 60000 mod 60) (now / 1000 mod 60) /\ stamp (k8s_timestamp now) y m d (now / 3600000 mod 24) (now / 60000 mod 60) (now / 1000 mod 60).
Proof.
  intros Hn. assert (now / 1000 / 86400 = now / 86400000) as E1 by (rewrite Z.div_div by lia; done). destruct (day_total (now / 86400000)) as [[[y m] d] Hd]; [apply Z.div_pos; lia|].
  assert (now / 86400000 < 2932897) as Hlt by (apply Z.div_lt_upper_bound; lia). pose proof (year_bound _ _ Hd Hlt) as Hy. cbn in Hy. exists y, m, d. split; [done|]. split; [done|].
  split; [unfold clock; repeat split; apply Z.mod_pos_bound; lia|]. unfold k8s_timestamp, date_of. rewrite E1, (day_unique _ _ Hd). pose proof (day_ord _ _ Hd) as (_ & [G1 G2] & _ & G3). cbn in G3. pose proof (month_pos y m G1) as Hmp.
  replace (now / 3600000 mod 24) with (now / 1000 mod 86400 / 3600) by (Z.to_euclidean_division_equations; lia). replace (now / 60000 mod 60) with (now / 1000 mod 86400 / 60 mod 60) by (Z.to_euclidean_division_equations; lia).
  replace (now / 1000 mod 60) with (now / 1000 mod 86400 mod 60) by (Z.to_euclidean_division_equations; lia). pose proof (Z.mod_pos_bound (now / 1000) 86400 ltac:(lia)) as B. set (s := now / 1000 mod 86400) in *.
  assert (0 <= s / 3600 <= 23) by (Z.to_euclidean_division_equations; lia). pose proof (Z.mod_pos_bound (s / 60) 60 ltac:(lia)). pose proof (Z.mod_pos_bound s 60 ltac:(lia)). apply text_stamp; lia.
Qed.
Lemma roundtrip now : 0 <= now < 253402300800000 -> parse_k8s_timestamp (k8s_timestamp now) = Some (now - now mod 1000).
Proof.
  intros Hn. destruct (written now Hn) as (y & m & d & Hd & Hy & Hc & Hs). rewrite (reads _ _ _ _ _ _ _ _ Hs Hd Hy Hc). f_equal. Z.to_euclidean_division_equations; lia.
Qed.
Lemma refused ts y m d hh mm ss : stamp ts y m d hh mm ss -> ~ (exists n, lasts y m n /\ 1 <= d <= n) \/ ~ clock hh mm ss -> parse_k8s_timestamp ts = None.
Proof.
  intros Hs Hb. unfold parse_k8s_timestamp. rewrite (stamp_fromiso _ _ _ _ _ _ _ Hs). destruct (valid y m d hh mm ss) eqn:V; [exfalso|done]. unfold valid in V. repeat (apply andb_true_iff in V as [V ?]).
  repeat match goal with H : (_ <=? _) = true |- _ => apply Z.leb_le in H end. destruct Hb as [Hb|Hb]; apply Hb; [exists (days_in_month y m); split; [apply days_lasts; lia|lia]|unfold clock; lia].
Qed.
