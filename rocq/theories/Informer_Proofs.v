(** Proofs for C53. *)
From Coq Require Import Lia.
From stdpp Require Import gmap.
From Verif Require Import Trace Informer_Model Informer_Spec.

Lemma objects_app l1 l2 : objects (l1 ++ l2) = foldl apply (objects l1) l2.
Proof. unfold objects. by rewrite foldl_app. Qed.
Lemma objects_iff l k v : objects l !! k = Some v <-> exists l1 l2, l = l1 ++ Put k v :: l2 /\ Forall (fun c => ~ names k c) l2.
Proof.
  induction l as [|c l IH] using rev_ind.
  - split; [done|]. intros (l1 & l2 & E & _). by destruct l1.
  - rewrite objects_app. cbn [foldl]. split.
    + intros H. destruct c as [k' v'|k'|]; cbn [apply] in H.
      * destruct (decide (k' = k)) as [->|Hne]; [rewrite lookup_insert in H; injection H as ->; by exists l, []|].
        rewrite lookup_insert_ne in H by done. apply IH in H as (l1 & l2 & -> & Hf). exists l1, (l2 ++ [Put k' v']). rewrite <- app_assoc. split; [done|]. apply Forall_app; split; [done|]. by constructor.
      * destruct (decide (k' = k)) as [->|Hne]; [by rewrite lookup_delete in H|].
        rewrite lookup_delete_ne in H by done. apply IH in H as (l1 & l2 & -> & Hf). exists l1, (l2 ++ [Gone k']). rewrite <- app_assoc. split; [done|]. apply Forall_app; split; [done|]. by constructor.
      * apply IH in H as (l1 & l2 & -> & Hf). exists l1, (l2 ++ [Other]). rewrite <- app_assoc. split; [done|]. apply Forall_app; split; [done|]. constructor; [tauto|done].
    + intros (l1 & l2 & E & Hf). destruct l2 as [|c2 l2 _] using rev_ind.
      * apply app_inj_tail in E as [-> ->]. cbn. by rewrite lookup_insert.
      * rewrite app_comm_cons, app_assoc in E. apply app_inj_tail in E as [-> ->]. apply Forall_app in Hf as [Hf Hc]. apply Forall_cons in Hc as [Hc _].
        assert (H : objects (l1 ++ Put k v :: l2) !! k = Some v) by (apply IH; eauto). destruct c2; cbn [apply names] in *; [rewrite lookup_insert_ne by done|rewrite lookup_delete_ne by done|]; done.
Qed.

(** What the handlers know after a list of calls. *)
Definition learn (m : gmap key content) (o : obs) : gmap key content := match o with OUpd k v _ _ => <[k := v]> m | ODel k _ _ => delete k m end.
Definition honest (m : gmap key content) (o : obs) : Prop := match o with OUpd k v old _ => old = m !! k | ODel k v _ => m !! k = Some v end.
Fixpoint honest_all (m : gmap key content) (os : list obs) : Prop := match os with [] => True | o :: os => honest m o /\ honest_all (learn m o) os end.
Lemma honest_app m o1 o2 : honest_all m (o1 ++ o2) <-> honest_all m o1 /\ honest_all (foldl learn m o1) o2.
Proof. revert m; induction o1 as [|o o1 IH]; intros m; cbn; [tauto|]. rewrite IH. tauto. Qed.
Lemma learn_iff os k v : foldl learn ∅ os !! k = Some v <-> last_told os k v.
Proof.
  induction os as [|o os IH] using rev_ind.
  - split; [done|]. intros (? & ? & ? & ? & E & _). by destruct x.
  - rewrite foldl_app. cbn [foldl]. split.
    + intros H. destruct o as [k' v' old r|k' v' r]; cbn [learn] in H.
      * destruct (decide (k' = k)) as [->|Hne]; [rewrite lookup_insert in H; injection H as ->; by exists os, old, r, []|].
        rewrite lookup_insert_ne in H by done. apply IH in H as (o1 & old' & r' & o2 & -> & Hf). exists o1, old', r', (o2 ++ [OUpd k' v' old r]). rewrite <- app_assoc. split; [done|]. apply Forall_app; split; [done|]. by constructor.
      * destruct (decide (k' = k)) as [->|Hne]; [by rewrite lookup_delete in H|].
        rewrite lookup_delete_ne in H by done. apply IH in H as (o1 & old' & r' & o2 & -> & Hf). exists o1, old', r', (o2 ++ [ODel k' v' r]). rewrite <- app_assoc. split; [done|]. apply Forall_app; split; [done|]. by constructor.
    + intros (o1 & old' & r' & o2 & E & Hf). destruct o2 as [|c2 o2 _] using rev_ind.
      * apply app_inj_tail in E as [-> ->]. cbn. by rewrite lookup_insert.
      * rewrite app_comm_cons, app_assoc in E. apply app_inj_tail in E as [-> ->]. apply Forall_app in Hf as [Hf Hc]. apply Forall_cons in Hc as [Hc _].
        assert (H : foldl learn ∅ (o1 ++ OUpd k v old' r' :: o2) !! k = Some v) by (apply IH; repeat eexists; eauto). destruct c2; cbn [learn about] in *; [rewrite lookup_insert_ne by done|rewrite lookup_delete_ne by done]; done.
Qed.

(** The calls of handle_initial. *)
Lemma dels_out bad dels c o m0 : foldl learn m0 o = c -> honest_all m0 o -> let r := foldl (del1 bad) (c, o) dels in
  foldl learn m0 (snd r) = fst r /\ honest_all m0 (snd r) /\ (forall k, fst r !! k = if decide (k ∈ dels) then None else c !! k).
Proof.
  revert c o; induction dels as [|k dels IH]; intros c o Hl Hh; cbn [foldl].
  - cbn. split_and!; [done|done|]. intros k. by rewrite decide_False by apply not_elem_of_nil.
  - destruct (del1 bad (c, o) k) as [c1 o1] eqn:E. unfold del1 in E; cbn [fst snd] in E. destruct (c !! k) as [v|] eqn:Ek.
    + injection E as <- <-. destruct (IH (delete k c) (o ++ [ODel k v (bool_decide (k ∈ bad))])) as (H1 & H2 & H3).
      * rewrite foldl_app, Hl. done.
      * apply honest_app. split; [done|]. rewrite Hl. cbn. done.
      * split_and!; [done|done|]. intros k2. rewrite H3. destruct (decide (k2 ∈ dels)); [rewrite decide_True by (by right); done|].
        destruct (decide (k2 = k)) as [->|]; [rewrite lookup_delete, decide_True by left; done|]. rewrite lookup_delete_ne by done. rewrite decide_False; [done|]. by rewrite elem_of_cons; intros [?|?].
    + injection E as <- <-. destruct (IH c o Hl Hh) as (H1 & H2 & H3). split_and!; [done|done|]. intros k2. rewrite H3.
      destruct (decide (k2 ∈ dels)); [rewrite decide_True by (by right); done|]. destruct (decide (k2 = k)) as [->|]; [rewrite decide_True by left; done|]. rewrite decide_False; [done|]. by rewrite elem_of_cons; intros [?|?].
Qed.
Lemma upds_out bad items c o m0 : foldl learn m0 o = c -> honest_all m0 o -> NoDup items.*1 -> let r := foldl (upd1 bad) (c, o) items in
  foldl learn m0 (snd r) = fst r /\ honest_all m0 (snd r) /\ fst r = list_to_map items ∪ c.
Proof.
  revert c o; induction items as [|[k v] items IH]; intros c o Hl Hh Hn; cbn [foldl].
  - cbn. split_and!; [done|done|]. by rewrite (left_id_L ∅ (∪)).
  - cbn in Hn. apply NoDup_cons in Hn as [Hk Hn]. destruct (IH (<[k:=v]> c) (o ++ [OUpd k v (c !! k) (bool_decide (k ∈ bad))])) as (H1 & H2 & H3); [rewrite foldl_app, Hl; done| |done|].
    + apply honest_app. split; [done|]. rewrite Hl. done.
    + split_and!; [done|done|]. etrans; [exact H3|]. cbn. rewrite <- insert_union_l. rewrite insert_union_r; [done|]. by apply not_elem_of_list_to_map.
Qed.
Lemma initial_out c dels items bad m : lists dels items c m = true ->
  let r := handle_initial c dels items bad in fst r = m /\ foldl learn c (snd r) = m /\ honest_all c (snd r).
Proof.
  unfold lists. rewrite !andb_true_iff, !bool_decide_eq_true. intros (((Hn & Hd) & Hi) & Hm). cbn. unfold handle_initial.
  destruct (dels_out bad dels c [] c eq_refl I) as (H1 & H2 & H3). destruct (foldl (del1 bad) (c, []) dels) as [c1 o1]. cbn [fst snd] in *.
  destruct (upds_out bad items c1 o1 c H1 H2 Hi) as (H4 & H5 & H6). destruct (foldl (upd1 bad) (c1, o1) items) as [c2 o2]. cbn [fst snd] in *.
  rewrite Hm in H6. assert (c2 = m) as ->; [|done]. rewrite H6. clear H4 H6. apply map_eq. intros k. rewrite lookup_union, H3. destruct (m !! k) as [v|] eqn:Ek; [by destruct (if decide _ then _ else _)|].
  rewrite (left_id None _). destruct (decide (k ∈ dels)) as [|Hnk]; [done|]. destruct (c !! k) eqn:Ec; [|done]. exfalso. apply Hnk.
  assert (H : k ∈ (list_to_set dels : gset key)); [|by rewrite elem_of_list_to_set in H]. rewrite Hd. apply elem_of_difference. rewrite !elem_of_dom, Ek, Ec. split; [eauto|]. by intros [? ?].
Qed.

Lemma next_out l n c n' : next l n = Some (c, n') -> exists m, n' = S (n + m) /\ take m l = replicate m Other /\ l !! m = Some c /\ c <> Other.
Proof.
  revert n; induction l as [|x l IH]; intros n; cbn; [done|]. destruct x.
  - intros [= <- <-]. exists 0. repeat split; [lia|done].
  - intros [= <- <-]. exists 0. repeat split; [lia|done].
  - intros H. destruct (IH _ H) as (m & -> & Ht & Hl & Hc). exists (S m). cbn. rewrite Ht. repeat split; [lia|done..].
Qed.
Lemma next_none l n : next l n = None -> foldl apply (∅ : gmap key content) l = ∅ /\ forall m, foldl apply m l = m.
Proof. revert n; induction l as [|x l IH]; intros n; cbn; [done|]. destruct x; try done. intros H. apply (IH _ H). Qed.
Lemma others m k : foldl apply m (replicate k Other) = m.
Proof. induction k; cbn; done. Qed.

(** The invariant. *)
Definition Inv (h : history) (s : state) : Prop :=
  ver s <= length (log s) /\ cache s = objects (take (ver s) (log s)) /\ foldl learn ∅ (obs_of h) = cache s /\ honest_all ∅ (obs_of h) /\
  (md s = Watching -> initialized s = true) /\ match md s with Listing since => ver s <= since <= length (log s) | Watching => True end.
Lemma watch_step s bad c n : ver s <= length (log s) -> cache s = objects (take (ver s) (log s)) -> next (drop (ver s) (log s)) (ver s) = Some (c, n) ->
  (forall k, c = Gone k -> is_Some (objects (take (n - 1) (log s)) !! k)) ->
  ver s < n <= length (log s) /\ let r := handle (cache s) (objects (take (n - 1) (log s))) c bad in
  fst r = objects (take n (log s)) /\ foldl learn (cache s) (snd r) = fst r /\ honest_all (cache s) (snd r).
Proof.
  intros Hv Hc Hn Hg. destruct (next_out _ _ _ _ Hn) as (m & -> & Ht & Hl & Ho). rewrite lookup_drop in Hl. pose proof (lookup_lt_Some _ _ _ Hl). split; [lia|]. cbn zeta.
  replace (S (ver s + m) - 1) with (ver s + m) in * by lia.
  assert (E1 : objects (take (ver s + m) (log s)) = cache s).
  { rewrite Hc. rewrite <- (take_drop (ver s) (take (ver s + m) (log s))). rewrite take_take, Nat.min_l by lia. rewrite skipn_firstn_comm. replace (ver s + m - ver s) with m by lia. rewrite Ht, objects_app. apply others. }
  rewrite (take_S_r _ _ _ Hl), objects_app, E1. cbn [foldl]. destruct c as [k v|k|]; [| |done].
  - cbn. done.
  - destruct (Hg k eq_refl) as [v Hv']. rewrite E1 in Hv'. cbn. by rewrite Hv'.
Qed.

(** Deletions in the log are of objects that exist. *)
Definition sound (l : list change) : Prop := forall n k, l !! n = Some (Gone k) -> is_Some (objects (take n l) !! k).
Lemma sound_step s e s' o : step s e = (s', o) -> sound (log s) -> sound (log s').
Proof.
  intros Hs Hl. destruct e; cbn [step] in Hs.
  - assert (Hc : s' = s \/ (log s' = log s ++ [c] /\ forall k, c = Gone k -> is_Some (objects (log s) !! k))).
    { destruct c as [k v|k|]; [| destruct (decide _)|]; injection Hs as <- <-; eauto; right; split; try done. intros k2 [= <-]. done. }
    destruct Hc as [->|[-> Hc]]; [done|]. intros n k H. apply lookup_app_Some in H as [H|[Hge H]].
    + pose proof (lookup_lt_Some _ _ _ H). rewrite take_app_le by lia. by apply Hl.
    + destruct (n - length (log s)) as [|?] eqn:E; [|done]. cbn in H. injection H as ->. rewrite take_app_alt by lia. by apply Hc.
  - destruct (md s); [|by injection Hs as <- <-]. destruct (decide _); [|by injection Hs as <- <-]. destruct (lists _ _ _ _); [|by injection Hs as <- <-]. destruct (handle_initial _ _ _ _). by injection Hs as <- <-.
  - destruct (md s); by injection Hs as <- <-.
  - destruct (md s); [by injection Hs as <- <-|]. destruct (next _ _) as [[c n]|]; [|by injection Hs as <- <-]. destruct (handle _ _ _ _). by injection Hs as <- <-.
  - by injection Hs as <- <-.
  - destruct (md s); by injection Hs as <- <-.
Qed.

Lemma obs_snoc (h : history) e o : obs_of (h ++ [(e, o)]) = obs_of h ++ o.
Proof. unfold obs_of. by rewrite map_app, concat_app; cbn; rewrite app_nil_r. Qed.
Lemma objects_take_app l c n : n <= length l -> objects (take n (l ++ [c])) = objects (take n l).
Proof. intros. by rewrite take_app_le. Qed.
Lemma inv_step h s e s' o : step s e = (s', o) -> sound (log s) -> Inv h s -> Inv (h ++ [(e, o)]) s' /\ ver s <= ver s'.
Proof.
  intros Hs Hso (Hv & Hc & Hl & Hh & Hw & Hm). unfold Inv. rewrite obs_snoc, foldl_app, honest_app, Hl.
  assert (Hid : s' = s -> o = [] -> (ver s' <= length (log s') /\ cache s' = objects (take (ver s') (log s')) /\ foldl learn (cache s) o = cache s' /\ (honest_all ∅ (obs_of h) /\ honest_all (cache s) o) /\ (md s' = Watching -> initialized s' = true) /\ match md s' with Listing since => ver s' <= since <= length (log s') | Watching => True end) /\ ver s <= ver s').
  { intros -> ->. cbn. split_and!; try done. }
  destruct e; cbn [step] in Hs.
  - assert (Hcc : (s' = s /\ o = []) \/ (s' = State (log s ++ [c]) (cache s) (md s) (ver s) (initialized s) /\ o = [])).
    { destruct c as [k v|k|]; [| destruct (decide _)|]; injection Hs as <- <-; eauto. }
    destruct Hcc as [[? ?]|[-> ->]]; [by apply Hid|]. cbn [ver log cache md initialized foldl]. rewrite app_length; cbn [length]. rewrite objects_take_app by done. cbn. split_and!; try done; try lia. destruct (md s); [lia|done].
  - destruct (md s) as [since|] eqn:Em; [|injection Hs as <- <-; by apply Hid; rewrite ?Em]. destruct (decide _) as [Hd|]; [|injection Hs as <- <-; by apply Hid]. destruct (lists _ _ _ _) eqn:El; [|injection Hs as <- <-; by apply Hid].
    destruct (initial_out _ _ _ bad _ El) as (H1 & H2 & H3). destruct (handle_initial _ _ _ _) as [c1 o1]. injection Hs as <- <-. cbn [fst snd ver log cache md initialized] in *. subst c1. split_and!; try done; lia.
  - destruct (md s) as [since|] eqn:Em; injection Hs as <- <-; [|by apply Hid]. cbn. split_and!; try done; lia.
  - destruct (md s) as [since|] eqn:Em; [injection Hs as <- <-; by apply Hid|]. destruct (next _ _) as [[c n]|] eqn:En; [|injection Hs as <- <-; by apply Hid].
    destruct (watch_step s bad c n Hv Hc En) as (Hlt & H1 & H2 & H3).
    { intros k ->. destruct (next_out _ _ _ _ En) as (m & -> & Ht & Hlk & Ho). rewrite lookup_drop in Hlk. replace (S (ver s + m) - 1) with (ver s + m) by lia. by apply Hso. }
    destruct (handle _ _ _ _) as [m1 o1]. injection Hs as <- <-. cbn [fst snd ver log cache md initialized] in *. split_and!; try done; try lia; tauto.
  - injection Hs as <- <-. by apply Hid.
  - destruct (md s) as [since|] eqn:Em; injection Hs as <- <-; [by apply Hid|]. cbn. split_and!; try done; lia.
Qed.
Lemma inv_all h s : exec step init h s -> sound (log s) /\ Inv h s.
Proof.
  revert h s. apply (exec_ind_r step init (fun h s => sound (log s) /\ Inv h s)).
  - split; [intros n k; cbn; by rewrite lookup_nil|]. unfold Inv; cbn. split_and!; try done; lia.
  - intros h s e s' o _ [Hso HI] Hs. split; [by eapply sound_step|]. by eapply inv_step.
Qed.
