(** Proofs for C44, C45 and C66. *)
From Coq Require Import Ascii ZArith QArith Qround Lqa Lia.
From stdpp Require Import prelude.
From Verif Require Import Config_Model Config_Spec.
Local Open Scope Z_scope.

(** C44. *)
Lemma floor_le (q : Q) n : n <= Qfloor q <-> (inject_Z n <= q)%Q.
Proof.
  split.
  - intros H. apply Qle_trans with (inject_Z (Qfloor q)); [by rewrite <- Zle_Qle|apply Qfloor_le].
  - intros H. apply Z.lt_succ_r. rewrite Zlt_Qlt. eapply Qle_lt_trans; [exact H|]. unfold Z.succ. apply Qlt_floor.
Qed.
Lemma mem_room m s w n : 0 < w -> n <= (m - s) / w <-> s + n * w <= m.
Proof.
  intros Hw. split; intros H.
  - pose proof (Z.mul_div_le (m - s) w Hw). nia.
  - apply Z.div_le_lower_bound; [done|]. lia.
Qed.
Lemma core_room (c s w : Q) n : (0 < w)%Q -> n <= Qfloor ((c - s) / w) <-> (s + inject_Z n * w <= c)%Q.
Proof.
  intros Hw. rewrite floor_le. split; intros H.
  - apply (Qmult_le_compat_r _ _ w) in H; [|lra]. setoid_replace ((c - s) / w * w)%Q with (c - s)%Q in H by (field; lra). lra.
  - apply Qle_shift_div_l; [done|]. lra.
Qed.
(** The largest integer that keeps within the limits, not bounded by 0. *)
Definition raw (s : sizes) : option Z :=
  match max_mem s, max_cores s with
  | None, None => None
  | Some m, None => Some ((m - sched_mem s) / worker_mem s)
  | None, Some c => Some (Qfloor ((c - sched_cores s) / worker_cores s))
  | Some m, Some c => Some (Z.min ((m - sched_mem s) / worker_mem s) (Qfloor ((c - sched_cores s) / worker_cores s)))
  end.
Lemma worker_limit_raw s : worker_limit s = Z.max 0 <$> raw s.
Proof.
  unfold worker_limit, raw. destruct (max_mem s) as [m|], (max_cores s) as [c|]; cbn [pymin fmap option_fmap option_map]; try done.
  do 2 f_equal. set (x := _ / _). set (y := Qfloor _). destruct (Z.ltb_spec x y); lia.
Qed.
Lemma raw_spec s r : 0 < worker_mem s -> (0 < worker_cores s)%Q -> raw s = Some r -> forall n, 0 <= n -> n <= r <-> fits s n.
Proof.
  intros Hm Hc Hr n Hn. unfold raw in Hr. unfold fits.
  destruct (max_mem s) as [m|], (max_cores s) as [c|]; try done; apply (inj Some) in Hr as <-.
  - rewrite Z.min_glb_iff, (core_room c _ _ n Hc), (mem_room m _ _ n Hm). split.
    + intros [H1 H2]. split; [done|]. split; [by intros ? [= <-]|by intros ? [= <-]].
    + intros (_ & H1 & H2). auto.
  - rewrite (mem_room m _ _ n Hm). split; [intros H1; split; [done|]; split; [by intros ? [= <-]|done]|]. intros (_ & H1 & _). auto.
  - rewrite (core_room c _ _ n Hc). split; [intros H1; split; [done|]; split; [done|by intros ? [= <-]]|]. intros (_ & _ & H1). auto.
Qed.
Lemma limit_largest s n : 0 < worker_mem s -> (0 < worker_cores s)%Q ->
  worker_limit s = Some n <-> limited s /\ ((fits s n /\ forall m, fits s m -> m <= n) \/ (n = 0 /\ ~ fits s 0)).
Proof.
  intros Hm Hc. rewrite worker_limit_raw. destruct (raw s) as [r|] eqn:Hr; cbn [fmap option_fmap option_map].
  - pose proof (raw_spec s r Hm Hc Hr) as Hs.
    assert (Hl : limited s). { unfold raw in Hr. unfold limited. destruct (max_mem s), (max_cores s); try done; [by left..|by right]. }
    split.
    + intros [= <-]. split; [done|]. destruct (Z_le_gt_dec 0 r).
      * left. rewrite Z.max_r by lia. split; [apply Hs; lia|]. intros m Hf. apply Hs in Hf as ?; [lia|apply Hf].
      * right. rewrite Z.max_l by lia. split; [done|]. intros Hf%Hs; lia.
    + intros [_ [[Hf Hmax]|[-> Hnf]]].
      * assert (0 <= n) by apply Hf. apply Hs in Hf as Hn; [|done]. f_equal. assert (Hr' : fits s r) by (apply Hs; lia). apply Hmax in Hr'. lia.
      * f_equal. destruct (Z_le_gt_dec 0 r); [|lia]. destruct Hnf. apply Hs; lia.
  - split; [done|]. intros [Hl _]. unfold raw in Hr. unfold limited in Hl. destruct (max_mem s), (max_cores s); try done. naive_solver.
Qed.
Lemma limit_none s : worker_limit s = None <-> ~ limited s.
Proof.
  rewrite worker_limit_raw. unfold raw, limited. destruct (max_mem s), (max_cores s); cbn; split; try done; intros H; try (exfalso; apply H; (by left) || by right).
  intros [?|?]; done.
Qed.
Lemma limit_nonneg s n : worker_limit s = Some n -> 0 <= n.
Proof. rewrite worker_limit_raw. destruct (raw s); [|done]. intros [= <-]. lia. Qed.

(** C66. *)
Lemma validate_max_within s n : forall lim, worker_limit s = Some lim -> exists m, validate_max s n = Some m /\ m <= lim.
Proof.
  intros lim Hl. unfold validate_max. rewrite Hl. destruct n as [n|]; eexists; (split; [done|]); [|lia].
  destruct (Z.ltb_spec lim n); lia.
Qed.
Lemma foldl_assign_max xs c : forallb (fun x => negb (is_max x)) xs = true -> c_max (foldl assign c xs) = c_max c.
Proof.
  revert c. induction xs as [|x xs IH]; intros c; [done|]. cbn [forallb foldl]. intros [Hx Hxs]%andb_true_iff. rewrite (IH _ Hxs). by destruct x.
Qed.
Lemma foldl_assign_sizes xs c : forallb is_max xs = true -> c_sizes (foldl assign c xs) = c_sizes c.
Proof.
  revert c. induction xs as [|x xs IH]; intros c; [done|]. cbn [forallb foldl]. intros [Hx Hxs]%andb_true_iff. rewrite (IH _ Hxs). by destruct x.
Qed.
Lemma cross_sizes x c c' : cross x c = Some c' -> c_sizes c' = c_sizes c.
Proof. destruct x; cbn [cross]; repeat case_match; try done; by intros [= <-]. Qed.
Lemma crosses_sizes xs c c' : crosses xs c = Some c' -> c_sizes c' = c_sizes c.
Proof.
  revert c. induction xs as [|x xs IH]; intros c; cbn [crosses]; [by intros [= <-]|]. destruct (cross x c) as [c1|] eqn:E; [|done].
  cbn [mbind option_bind]. intros H. rewrite (IH _ H). by eapply cross_sizes.
Qed.
Lemma cross_max x c c' : is_max x = false -> cross x c = Some c' -> c_max c' = c_max c.
Proof. destruct x; cbn [cross is_max]; repeat case_match; try done; intros _ [= <-]; done. Qed.
Lemma crosses_no_max xs c c' : forallb (fun x => negb (is_max x)) xs = true -> crosses xs c = Some c' -> c_max c' = c_max c.
Proof.
  revert c. induction xs as [|x xs IH]; intros c; cbn [crosses forallb]; [by intros _ [= <-]|]. intros [Hx Hxs]%andb_true_iff.
  destruct (cross x c) as [c1|] eqn:E; [|done]. cbn [mbind option_bind]. intros H. rewrite (IH _ Hxs H). eapply cross_max; [|exact E]. by destruct (is_max x).
Qed.
Lemma cross_within x c c' : is_max x = true -> cross x c = Some c' -> within c'.
Proof.
  destruct x; try done. intros _. cbn [cross]. destruct (c_max c) as [m|] eqn:E; intros [= <-]; intros lim Hl.
  - unfold max_workers. cbn [c_max c_sizes] in *. by apply validate_max_within.
  - unfold max_workers. rewrite E, Hl. exists lim. split; [done|lia].
Qed.
Lemma cross_keeps_within x c c' : within c -> cross x c = Some c' -> within c'.
Proof.
  intros Hw Hc. destruct (is_max x) eqn:E; [by eapply cross_within|]. pose proof (cross_sizes _ _ _ Hc) as Hs. pose proof (cross_max _ _ _ E Hc) as Hm.
  intros lim Hl. unfold max_workers. rewrite Hs in *. rewrite Hm. by apply Hw.
Qed.
Lemma crosses_keep_within xs c c' : within c -> crosses xs c = Some c' -> within c'.
Proof.
  revert c. induction xs as [|x xs IH]; intros c Hw; cbn [crosses]; [by intros [= <-]|]. destruct (cross x c) as [c1|] eqn:E; [|done].
  cbn [mbind option_bind]. apply IH. by eapply cross_keeps_within.
Qed.
Lemma crosses_within xs c c' : existsb is_max xs = true -> crosses xs c = Some c' -> within c'.
Proof.
  revert c. induction xs as [|x xs IH]; intros c; cbn [crosses existsb]; [done|]. destruct (cross x c) as [c1|] eqn:E; [|done].
  cbn [mbind option_bind]. destruct (is_max x) eqn:Hx; cbn [orb]; [|apply IH]. intros _. apply crosses_keep_within. by eapply cross_within.
Qed.
Lemma unset_within c : c_max c = None -> within c.
Proof. intros H lim Hl. unfold max_workers. rewrite H, Hl. exists lim. split; [done|lia]. Qed.
Lemma no_common_nothing (kw conf : list setting) : forallb (fun x => negb (existsb (same_trait x) conf)) kw = true ->
  forall changed, (forall y, In y changed -> In y conf) -> List.filter (fun x => existsb (same_trait x) changed) kw = [].
Proof.
  intros H changed Hsub. induction kw as [|x kw IH]; [done|]. cbn [forallb List.filter] in *. apply andb_true_iff in H as [Hx H].
  destruct (existsb (same_trait x) changed) eqn:E; [|auto]. exfalso. apply existsb_exists in E as (y & Hy & Hs).
  apply negb_true_iff in Hx. rewrite <- not_true_iff_false in Hx. apply Hx. apply existsb_exists. eauto.
Qed.
(** Nobody sets the maximum. *)
Lemma default_exact kw conf c : forallb (fun x => negb (is_max x)) (kw ++ conf) = true -> build kw conf = Some c ->
  max_workers c = worker_limit (c_sizes c).
Proof.
  rewrite forallb_app. intros [Hk Hc]%andb_true_iff. unfold build, held. destruct (crosses kw _) as [c1|] eqn:E1; [|done]. cbn [mbind option_bind].
  destruct (crosses _ (foldl assign c1 conf)) as [c2|] eqn:E2; [|done]. cbn [mbind option_bind]. intros E3.
  assert (H1 : c_max c1 = None). { rewrite (crosses_no_max _ _ _ Hk E1), (foldl_assign_max _ _ Hk). done. }
  assert (H2 : c_max c2 = None).
  { rewrite (crosses_no_max (List.filter (changes c1) conf) (foldl assign c1 conf) c2); [by rewrite (foldl_assign_max _ _ Hc)| |done].
    apply forallb_forall. intros x [Hin _]%filter_In. rewrite forallb_forall in Hc. auto. }
  assert (H3 : c_max c = None).
  { set (l := List.filter _ kw) in E3. assert (Hl : forallb (fun x => negb (is_max x)) l = true).
    { apply forallb_forall. intros x [Hin _]%filter_In. rewrite forallb_forall in Hk. auto. }
    clearbody l. clear -Hl H2 E3. revert c2 H2 E3. induction l as [|x l IH]; intros c2 H2; cbn [one_by_one]; [by intros [= <-]|].
    cbn [forallb] in Hl. apply andb_true_iff in Hl as [Hx Hl]. destruct (cross x (assign c2 x)) as [c3|] eqn:E; [|done]. cbn [mbind option_bind].
    apply (IH Hl). rewrite (cross_max x _ _ (proj1 (negb_true_iff _) Hx) E). by destruct x. }
  unfold max_workers. by rewrite H3.
Qed.
Lemma once_max conf : once conf -> forall l1 n l2, conf = l1 ++ MaxWorkers n :: l2 -> forallb (fun x => negb (is_max x)) l2 = true.
Proof.
  intros Ho l1 n l2 ->. apply forallb_forall. intros y (l3 & l4 & ->)%in_split. apply negb_true_iff.
  specialize (Ho l1 (MaxWorkers n) l3 y l4 eq_refl). by destruct y.
Qed.
(** Only the operator sets the maximum, and nothing is set twice. *)
Lemma operator_within kw conf c : forallb (fun x => negb (is_max x)) kw = true ->
  forallb (fun x => negb (existsb (same_trait x) conf)) kw = true ->
  once conf -> build kw conf = Some c -> within c.
Proof.
  intros Hk Hd Hone0. pose proof (once_max _ Hone0) as Hone. unfold build, held. destruct (crosses kw _) as [c1|] eqn:E1; [|done]. cbn [mbind option_bind].
  destruct (crosses _ (foldl assign c1 conf)) as [c2|] eqn:E2; [|done]. cbn [mbind option_bind].
  rewrite (no_common_nothing kw conf Hd) by (intros y [? _]%filter_In; done). cbn [one_by_one]. intros [= ->].
  assert (H1 : c_max c1 = None). { rewrite (crosses_no_max _ _ _ Hk E1), (foldl_assign_max _ _ Hk). done. }
  destruct (existsb is_max (List.filter (changes c1) conf)) eqn:Hch; [by eapply crosses_within|].
  (* not changed: unset, or set to 0 *)
  assert (H2 : c_max c = c_max (foldl assign c1 conf)).
  { eapply crosses_no_max; [|exact E2]. apply forallb_forall. intros x Hx. rewrite <- not_true_iff_false in Hch. apply negb_true_iff, not_true_iff_false.
    intros Hm. apply Hch. apply existsb_exists. eauto. }
  destruct (forallb (fun x => negb (is_max x)) conf) eqn:Hc.
  { apply unset_within. by rewrite H2, (foldl_assign_max _ _ Hc). }
  assert (exists l1 n l2, conf = l1 ++ MaxWorkers n :: l2) as (l1 & n & l2 & ->).
  { clear -Hc. induction conf as [|x conf IH]; [done|]. cbn [forallb] in Hc. destruct (is_max x) eqn:Hx.
    - destruct x; try done. by exists [], n, conf.
    - cbn in Hc. destruct (IH Hc) as (l1 & n & l2 & ->). by exists (x :: l1), n, l2. }
  pose proof (Hone l1 n l2 eq_refl) as Hone'.
  assert (Hn : n = Some 0).
  { rewrite <- not_true_iff_false in Hch. destruct (decide (n = Some 0)) as [|Hne]; [done|]. exfalso. apply Hch. apply existsb_exists.
    exists (MaxWorkers n). split; [|done]. apply filter_In. split; [apply in_app_iff; right; by left|]. cbn [changes]. rewrite H1. by rewrite bool_decide_false. }
  subst n. rewrite foldl_app in H2. cbn [foldl] in H2. rewrite (foldl_assign_max l2 _ Hone') in H2. cbn [assign c_max] in H2.
  intros lim Hl. unfold max_workers. rewrite H2. exists 0. split; [done|]. by eapply limit_nonneg.
Qed.
(** The operator sets no sizes. *)
Lemma user_within kw conf c : forallb is_max conf = true ->
  once conf -> build kw conf = Some c -> within c.
Proof.
  intros Hc Hone0. pose proof (once_max _ Hone0) as Hone. unfold build, held. destruct (crosses kw _) as [c1|] eqn:E1; [|done]. cbn [mbind option_bind].
  destruct (crosses _ (foldl assign c1 conf)) as [c2|] eqn:E2; [|done]. cbn [mbind option_bind].
  assert (W1 : within c1).
  { destruct (existsb is_max kw) eqn:Hk; [by eapply crosses_within|]. apply unset_within.
    assert (Hk' : forallb (fun x => negb (is_max x)) kw = true).
    { apply forallb_forall. intros x Hx. apply negb_true_iff, not_true_iff_false. intros Hm. rewrite <- not_true_iff_false in Hk. apply Hk. apply existsb_exists. eauto. }
    rewrite (crosses_no_max _ _ _ Hk' E1), (foldl_assign_max _ _ Hk'). done. }
  assert (W2 : within c2).
  { destruct conf as [|x conf].
    - cbn in E2. injection E2 as <-. done.
    - destruct x; try done. assert (conf = []) as ->.
      { pose proof (Hone [] n conf eq_refl) as Hone'. cbn [forallb] in Hc. apply andb_true_iff in Hc as [_ Hc]. destruct conf as [|y conf]; [done|].
        cbn [forallb] in *. apply andb_true_iff in Hc as [Hy _], Hone' as [Hy' _]. by rewrite Hy in Hy'. }
      cbn [List.filter foldl] in E2. destruct (changes c1 (MaxWorkers n)) eqn:Hch.
      + eapply crosses_within; [|exact E2]. done.
      + cbn [crosses] in E2. injection E2 as <-. cbn [changes] in Hch. apply negb_false_iff, bool_decide_eq_true in Hch.
        intros lim Hl. unfold max_workers. cbn [assign c_max c_sizes] in *. destruct (c_max c1) as [m|] eqn:Em; subst n.
        * destruct (W1 lim Hl) as (k & Hk & ?). unfold max_workers in Hk. rewrite Em in Hk. eauto.
        * exists 0. split; [done|]. by eapply limit_nonneg. }
  set (l := List.filter _ kw).
  assert (Hl : forallb is_max l = true).
  { apply forallb_forall. intros x [_ Hx]%filter_In. apply existsb_exists in Hx as (y & Hy & Hs). apply filter_In in Hy as [Hy _].
    rewrite forallb_forall in Hc. specialize (Hc y Hy). destruct x, y; done. }
  clearbody l. clear -Hl W2. revert c2 W2. induction l as [|x l IH]; intros c2 W2; cbn [one_by_one]; [by intros [= <-]|].
  cbn [forallb] in Hl. apply andb_true_iff in Hl as [Hx Hl]. destruct (cross x (assign c2 x)) as [c3|] eqn:E; [|done]. cbn [mbind option_bind].
  apply (IH Hl). by eapply cross_within.
Qed.

(** C45. *)
Lemma to_double_exact n : 0 <= n <= 2 ^ 53 -> to_double n = n.
Proof.
  intros Hn. unfold to_double. destruct (Z.leb_spec (Z.log2 n - 52) 0); [done|].
  destruct (Z.eq_dec n (2 ^ 53)) as [->|Hne]; [vm_compute; done|].
  assert (Z.log2 n < 53); [|lia]. destruct (Z.eq_dec n 0) as [->|]; [vm_compute; done|]. apply Z.log2_lt_pow2; lia.
Qed.
Lemma ceil_bounds n k : 0 <= k -> 0 <= n <= 2 ^ 53 -> n <= ceil_div n k * 2 ^ k < n + 2 ^ k.
Proof.
  intros Hk Hn. unfold ceil_div. rewrite to_double_exact by done. assert (0 < 2 ^ k) by (apply Z.pow_pos_nonneg; lia).
  pose proof (Z.div_mod (- n) (2 ^ k) ltac:(lia)). pose proof (Z.mod_pos_bound (- n) (2 ^ k) ltac:(lia)). nia.
Qed.
Lemma denotes_unit n k u : 2 ^ k = bytes_of u -> denotes (ceil_div n k, u) = ceil_div n k * 2 ^ k.
Proof. intros E. unfold denotes. cbn [fst snd]. by rewrite E. Qed.
Lemma pbs_exact n : 0 <= n <= 2 ^ 53 -> n <= denotes (pbs_memory n) /\ 10 * denotes (pbs_memory n) <= 11 * n.
Proof.
  intros Hn. unfold pbs_memory.
  destruct (Z.leb_spec (10 * 2 ^ 30) n); [rewrite (denotes_unit n 30 Giga eq_refl); pose proof (ceil_bounds n 30 ltac:(lia) Hn); lia|].
  destruct (Z.leb_spec (10 * 2 ^ 20) n); [rewrite (denotes_unit n 20 Mega eq_refl); pose proof (ceil_bounds n 20 ltac:(lia) Hn); lia|].
  destruct (Z.leb_spec (10 * 2 ^ 10) n); [rewrite (denotes_unit n 10 Kilo eq_refl); pose proof (ceil_bounds n 10 ltac:(lia) Hn); lia|].
  unfold denotes. cbn. lia.
Qed.
Lemma slurm_exact n : 10 * 1024 <= n <= 2 ^ 53 -> n <= denotes (slurm_memory n) /\ 10 * denotes (slurm_memory n) <= 11 * n.
Proof.
  intros Hn. destruct (pbs_exact n ltac:(lia)) as [H1 H2]. unfold slurm_memory, pbs_memory in *.
  destruct (Z.leb_spec (10 * 2 ^ 30) n); [done|]. destruct (Z.leb_spec (10 * 2 ^ 20) n); [done|]. destruct (Z.leb_spec (10 * 2 ^ 10) n); [done|]. lia.
Qed.
Lemma round_near n d : 0 < d -> - d <= 2 * (round_half_even n d * d - n) <= d.
Proof.
  intros Hd. unfold round_half_even. pose proof (Z.div_mod n d ltac:(lia)). pose proof (Z.mod_pos_bound n d Hd).
  destruct (Z.ltb_spec (2 * (n mod d)) d); [nia|]. destruct (Z.ltb_spec d (2 * (n mod d))); [nia|]. destruct (Z.even (n / d)); nia.
Qed.
Lemma to_double_near n : 0 < n -> - n <= 2 ^ 53 * (to_double n - n) <= n.
Proof.
  intros Hn. unfold to_double. destruct (Z.leb_spec (Z.log2 n - 52) 0); [lia|].
  set (e := Z.log2 n - 52) in *. pose proof (round_near n (2 ^ e) ltac:(apply Z.pow_pos_nonneg; lia)) as Hr.
  assert (2 ^ 52 * 2 ^ e <= n).
  { rewrite <- Z.pow_add_r by lia. replace (52 + e) with (Z.log2 n) by lia. by apply Z.log2_spec. }
  replace (2 ^ 53) with (2 * 2 ^ 52) by done. nia.
Qed.
(** Of any size: short by at most one part in 2^53. *)
Lemma pbs_near n : 0 <= n -> (2 ^ 53 - 1) * n <= 2 ^ 53 * denotes (pbs_memory n).
Proof.
  intros Hn.
  assert (HC : forall k, 0 <= k -> 0 < n -> (2 ^ 53 - 1) * n <= 2 ^ 53 * (ceil_div n k * 2 ^ k)).
  { intros k Hk Hp. unfold ceil_div. pose proof (to_double_near n Hp). assert (0 < 2 ^ k) by (apply Z.pow_pos_nonneg; lia).
    pose proof (Z.div_mod (- to_double n) (2 ^ k) ltac:(lia)). pose proof (Z.mod_pos_bound (- to_double n) (2 ^ k) ltac:(lia)).
    assert (to_double n <= - (- to_double n / 2 ^ k) * 2 ^ k) by nia. lia. }
  unfold pbs_memory.
  destruct (Z.leb_spec (10 * 2 ^ 30) n); [rewrite (denotes_unit n 30 Giga eq_refl); apply HC; lia|].
  destruct (Z.leb_spec (10 * 2 ^ 20) n); [rewrite (denotes_unit n 20 Mega eq_refl); apply HC; lia|].
  destruct (Z.leb_spec (10 * 2 ^ 10) n); [rewrite (denotes_unit n 10 Kilo eq_refl); apply HC; lia|].
  unfold denotes. cbn [fst snd bytes_of]. lia.
Qed.
(** Reading a limit. *)
Lemma trunc_spec q : (0 <= q)%Q -> (inject_Z (trunc q) <= q < inject_Z (trunc q + 1))%Q.
Proof.
  intros Hq. unfold trunc. destruct (Qle_bool 0 q) eqn:E; [|apply Qle_bool_iff in Hq; congruence]. split; [apply Qfloor_le|apply Qlt_floor].
Qed.
Lemma memory_limit_spec x u m : (0 <= x)%Q -> memory_limit (Str (Some x) u) = Some m ->
  exists f, (u = "K"%char /\ f = 1024 \/ u = "M"%char /\ f = 1024 ^ 2 \/ u = "G"%char /\ f = 1024 ^ 3 \/ u = "T"%char /\ f = 1024 ^ 4) /\
    (inject_Z m <= x * inject_Z f < inject_Z (m + 1))%Q.
Proof.
  intros Hx. cbn [memory_limit mbind option_bind]. unfold unit_of.
  assert (HT : forall f, 0 <= f -> (inject_Z (trunc (x * inject_Z f)) <= x * inject_Z f < inject_Z (trunc (x * inject_Z f) + 1))%Q).
  { intros f Hf. apply trunc_spec. apply Qmult_le_0_compat; [done|]. change 0%Q with (inject_Z 0). by rewrite <- Zle_Qle. }
  destruct (Ascii.eqb_spec u "K"); [intros [= <-]; exists (2 ^ 10); split; [auto|by apply HT]|].
  destruct (Ascii.eqb_spec u "M"); [intros [= <-]; exists (2 ^ 20); split; [auto|by apply HT]|].
  destruct (Ascii.eqb_spec u "G"); [intros [= <-]; exists (2 ^ 30); split; [auto|by apply HT]|].
  destruct (Ascii.eqb_spec u "T"); [intros [= <-]; exists (2 ^ 40); split; [auto 10|by apply HT]|]. done.
Qed.

(** * The scheduler fits: what _validate_scheduler_memory and its siblings promise. *)
Definition room (s : sizes) : Prop := (forall m, max_mem s = Some m -> sched_mem s <= m) /\ (forall c, max_cores s = Some c -> (sched_cores s <= c)%Q).
Definition of_mem (x : setting) : bool := match x with SchedMem _ | MaxMem _ => true | _ => false end.
Definition of_cores (x : setting) : bool := match x with SchedCores _ | MaxCores _ => true | _ => false end.
Lemma mem_ok_room s : sched_mem_ok s = true <-> forall m, max_mem s = Some m -> sched_mem s <= m.
Proof.
  unfold sched_mem_ok. destruct (max_mem s) as [m|]; [|split; done]. rewrite negb_true_iff, Z.ltb_ge. split; [by intros H m' [= <-]|auto].
Qed.
Lemma cores_ok_room s : sched_cores_ok s = true <-> forall c, max_cores s = Some c -> (sched_cores s <= c)%Q.
Proof.
  unfold sched_cores_ok, Qgtb. destruct (max_cores s) as [m|]; [|split; done]. rewrite negb_involutive, Qle_bool_iff. split; [by intros H m' [= <-]|auto].
Qed.
Lemma crosses_mem xs c c' : crosses xs c = Some c' -> existsb of_mem xs = true -> sched_mem_ok (c_sizes c) = true.
Proof.
  revert c. induction xs as [|x xs IH]; intros c; cbn [crosses existsb]; [done|]. destruct (cross x c) as [c1|] eqn:E; [|done]. cbn [mbind option_bind]. intros H [Hx|Hx]%orb_true_iff.
  - destruct x; try done; cbn in E; by destruct (sched_mem_ok _).
  - rewrite <- (cross_sizes _ _ _ E). by apply IH.
Qed.
Lemma crosses_cores xs c c' : crosses xs c = Some c' -> existsb of_cores xs = true -> sched_cores_ok (c_sizes c) = true.
Proof.
  revert c. induction xs as [|x xs IH]; intros c; cbn [crosses existsb]; [done|]. destruct (cross x c) as [c1|] eqn:E; [|done]. cbn [mbind option_bind]. intros H [Hx|Hx]%orb_true_iff.
  - destruct x; try done; cbn in E; by destruct (sched_cores_ok _).
  - rewrite <- (cross_sizes _ _ _ E). by apply IH.
Qed.
Definition same_mem (s t : sizes) : Prop := sched_mem s = sched_mem t /\ max_mem s = max_mem t.
Definition same_cores (s t : sizes) : Prop := (sched_cores s == sched_cores t)%Q /\
  match max_cores s, max_cores t with Some a, Some b => (a == b)%Q | None, None => True | _, _ => False end.
Lemma same_cores_room s t : same_cores s t -> (forall c, max_cores t = Some c -> (sched_cores t <= c)%Q) -> forall c, max_cores s = Some c -> (sched_cores s <= c)%Q.
Proof. intros [H1 H2] H c E. rewrite E in H2. destruct (max_cores t) as [d|]; [|done]. rewrite H1, H2. by apply H. Qed.
Lemma filter_none (c1 : config) (p : setting -> bool) conf : existsb p (List.filter (changes c1) conf) = false -> forall x, In x conf -> p x = true -> changes c1 x = false.
Proof.
  intros H x Hin Hp. destruct (changes c1 x) eqn:E; [|done]. rewrite <- not_true_iff_false in H. exfalso. apply H. apply existsb_exists. exists x. split; [|done]. apply filter_In. done.
Qed.
Lemma assigned_mem c1 conf c : (forall x, In x conf -> of_mem x = true -> changes c1 x = false) -> same_mem (c_sizes c) (c_sizes c1) -> same_mem (c_sizes (foldl assign c conf)) (c_sizes c1).
Proof.
  revert c. induction conf as [|x conf IH]; intros c H Hs; [done|]. cbn [foldl]. apply IH; [intros y Hy; apply H; by right|]. destruct Hs as [H1 H2]. specialize (H x (or_introl eq_refl)).
  destruct x; cbn in *; try (split; done).
  - split; [|done]. cbn. specialize (H eq_refl). apply negb_false_iff, Z.eqb_eq in H. done.
  - split; [done|]. cbn. specialize (H eq_refl). apply negb_false_iff, bool_decide_eq_true in H. done.
Qed.
Lemma assigned_cores c1 conf c : (forall x, In x conf -> of_cores x = true -> changes c1 x = false) -> same_cores (c_sizes c) (c_sizes c1) -> same_cores (c_sizes (foldl assign c conf)) (c_sizes c1).
Proof.
  revert c. induction conf as [|x conf IH]; intros c H Hs; [done|]. cbn [foldl]. apply IH; [intros y Hy; apply H; by right|]. destruct Hs as [H1 H2]. specialize (H x (or_introl eq_refl)).
  destruct x as [| |q|q| |q|]; cbn in *; try (split; done).
  - split; [|done]. cbn. specialize (H eq_refl). apply negb_false_iff, Qeq_bool_iff in H. done.
  - split; [done|]. cbn. specialize (H eq_refl). destruct q as [q|]; destruct (max_cores (c_sizes c1)) as [q'|]; try done. by apply negb_false_iff, Qeq_bool_iff in H.
Qed.
Lemma same_cores_refl s : same_cores s s.
Proof. split; [reflexivity|]. by destruct (max_cores s). Qed.
Lemma held_mem xs changed c1 c2 : held xs changed c1 = Some c2 -> (forall x, In x xs -> of_mem x = true -> In x changed \/ changes c1 x = false) ->
  sched_mem_ok (c_sizes c1) = true -> sched_mem_ok (c_sizes c2) = true.
Proof.
  unfold held. intros E H H1. rewrite (crosses_sizes _ _ _ E). destruct (existsb of_mem changed) eqn:Ex; [by eapply crosses_mem|].
  destruct (assigned_mem c1 xs c1) as [S1 S2]; [|done|].
  - intros x Hin Hx. destruct (H x Hin Hx) as [Hc|]; [|done]. rewrite <- not_true_iff_false, existsb_exists in Ex. exfalso. eauto.
  - unfold sched_mem_ok in *. by rewrite S1, S2.
Qed.
Lemma held_cores xs changed c1 c2 : held xs changed c1 = Some c2 -> (forall x, In x xs -> of_cores x = true -> In x changed \/ changes c1 x = false) ->
  sched_cores_ok (c_sizes c1) = true -> sched_cores_ok (c_sizes c2) = true.
Proof.
  unfold held. intros E H H1. rewrite (crosses_sizes _ _ _ E). destruct (existsb of_cores changed) eqn:Ex; [by eapply crosses_cores|].
  apply cores_ok_room. eapply same_cores_room; [apply (assigned_cores c1 xs c1); [|apply same_cores_refl]|by apply cores_ok_room].
  intros x Hin Hx. destruct (H x Hin Hx) as [Hc|]; [|done]. rewrite <- not_true_iff_false, existsb_exists in Ex. exfalso. eauto.
Qed.
Lemma one_by_one_ok xs c c' : one_by_one xs c = Some c' -> sched_mem_ok (c_sizes c) = true -> sched_cores_ok (c_sizes c) = true ->
  sched_mem_ok (c_sizes c') = true /\ sched_cores_ok (c_sizes c') = true.
Proof.
  revert c. induction xs as [|x xs IH]; intros c; cbn [one_by_one]; [by intros [= <-]|]. destruct (cross x (assign c x)) as [c1|] eqn:E; [|done]. cbn [mbind option_bind]. intros H H1 H2.
  apply (IH c1 H); rewrite (cross_sizes _ _ _ E); destruct x; cbn [cross] in E;
    try match type of E with (if ?b then _ else _) = _ => destruct b eqn:Eb; [|done] end; done.
Qed.
Lemma scheduler_room kw conf c : build kw conf = Some c -> room (c_sizes c).
Proof.
  unfold build. destruct (held kw kw class_defaults) as [c1|] eqn:E1; [|done]. cbn [mbind option_bind]. destruct (held conf _ c1) as [c2|] eqn:E2; [|done]. cbn [mbind option_bind]. intros E3.
  assert (H1 : sched_mem_ok (c_sizes c1) = true /\ sched_cores_ok (c_sizes c1) = true).
  { split; [eapply held_mem|eapply held_cores]; [exact E1|by left|done|exact E1|by left|done]. }
  assert (H2 : sched_mem_ok (c_sizes c2) = true /\ sched_cores_ok (c_sizes c2) = true).
  { assert (Hf : forall x, In x conf -> In x (List.filter (changes c1) conf) \/ changes c1 x = false) by (intros x Hx; destruct (changes c1 x) eqn:E; [left; by apply filter_In|by right]).
    split; [eapply held_mem|eapply held_cores]; [exact E2|auto|apply H1|exact E2|auto|apply H1]. }
  destruct (one_by_one_ok _ _ _ E3 (proj1 H2) (proj2 H2)) as [H3 H4]. split; [by apply mem_ok_room|by apply cores_ok_room].
Qed.
