(** Proofs for C48: merging JSON objects. *)
From Coq Require Import Ascii ZArith QArith Lia.
From stdpp Require Import prelude.
From Verif Require Import Trace Router_Model ProxyLog_Model ProxyLog_Proofs Json_Model Util_Model Util_Spec.
Local Open Scope nat_scope.

Notation obj := (list (bytes * json)).

Lemma merge_val_obj (b a : obj) : merge_val (JObj b) (JObj a) = JObj (merge b a).
Proof. reflexivity. Qed.
Lemma combine_val v x : Some (merge_val v x) = combined (Some x) (Some v).
Proof. destruct v, x; done. Qed.
Lemma merge_get (b a : obj) k : NoDup (map fst b) -> dget k (merge b a) = combined (dget k a) (dget k b).
Proof.
  revert a. induction b as [|[key v] b IH]; intros a Hn; [cbn [merge dget]; by destruct (dget k a) as [[]|]|].
  cbn [map fst] in Hn. apply NoDup_cons in Hn as [Hx Hn]. cbn [merge dget]. rewrite (IH _ Hn).
  assert (Ha : dget k (match dget key a with Some x => dset key (merge_val v x) a | None => dset key v a end) =
    if decide (k = key) then combined (dget key a) (Some v) else dget k a).
  { destruct (dget key a) as [x|]; rewrite dget_dset; case_decide; try done. apply combine_val. }
  rewrite Ha. case_decide as Hk; [subst key|done].
  assert (dget k b = None) as ->; [|by destruct (combined _ _) as [[]|]].
  destruct (dget k b) as [w|] eqn:E; [|done]. exfalso. apply Hx. apply elem_of_list_fmap. exists (k, w). split; [done|]. by apply dget_in.
Qed.
Lemma dset_new_keys {V} (k : bytes) (v : V) d : map fst (dset k v d) = if bool_decide (k ∈ map fst d) then map fst d else map fst d ++ [k].
Proof.
  induction d as [|[k0 v0] d IH]; [done|]. cbn [dset map fst]. destruct (decide (k = k0)) as [->|Hne].
  - rewrite bool_decide_true by left. done.
  - cbn [map fst]. rewrite IH. destruct (decide (k ∈ map fst d)) as [Hi|Hi].
    + rewrite !bool_decide_true; [done|by right|done].
    + rewrite !bool_decide_false; [done| |done]. intros [?|?]%elem_of_cons; done.
Qed.
Lemma merge_keys (b a : obj) : NoDup (map fst b) ->
  map fst (merge b a) = map fst a ++ List.filter (fun k => negb (bool_decide (k ∈ map fst a))) (map fst b).
Proof.
  revert a. induction b as [|[key v] b IH]; intros a Hn; [by rewrite app_nil_r|].
  cbn [map fst] in Hn. apply NoDup_cons in Hn as [Hx Hn]. cbn [merge map fst List.filter].
  set (a' := match dget key a with Some x => dset key (merge_val v x) a | None => dset key v a end).
  assert (Hk : map fst a' = if bool_decide (key ∈ map fst a) then map fst a else map fst a ++ [key]).
  { unfold a'. destruct (dget key a); apply dset_new_keys. }
  rewrite (IH a' Hn). destruct (decide (key ∈ map fst a)) as [Hi|Hi].
  - rewrite bool_decide_true in Hk by done. rewrite Hk. rewrite (bool_decide_true (key ∈ map fst a)) by done. done.
  - rewrite bool_decide_false in Hk by done. rewrite Hk, (bool_decide_false (key ∈ map fst a)) by done. cbn [negb].
    rewrite <- app_assoc. cbn [app]. do 2 f_equal. apply filter_ext_in. intros x Hin%elem_of_list_In. f_equal.
    apply bool_decide_ext. rewrite elem_of_app, elem_of_list_singleton. split; [|by left]. intros [?| ->]; done.
Qed.

Lemma wf_obj (o : obj) : wf (JObj o) -> NoDup (map fst o) /\ forall k v, (k, v) ∈ o -> wf v.
Proof.
  cbn [wf]. intros [Hn Ha]. split; [done|]. clear Hn. induction o as [|[k0 v0] o IH]; intros k v Hin; [by apply elem_of_nil in Hin|].
  destruct Ha as [H0 Ha]. apply elem_of_cons in Hin as [[= -> ->]|Hin]; [done|]. by apply (IH Ha k v).
Qed.
Lemma wf_get (o : obj) k v : wf (JObj o) -> dget k o = Some v -> wf v.
Proof. intros [_ H]%wf_obj E%dget_in. eauto. Qed.
Lemma silent_part p b : silent p b -> part p b = None.
Proof.
  revert b. induction p as [|k p IH]; intros b; [done|]. cbn [silent part]. destruct b as [| | | | | |o]; try done.
  destruct (dget k o) as [v|]; [|done]. cbn [mbind option_bind]. apply IH.
Qed.
Lemma silent_kept p b a : wf b -> silent p b -> part p (merge_val b a) = part p a.
Proof.
  revert b a. induction p as [|k p IH]; intros b a Hw; [done|]. intros Hs. pose proof (silent_part (k :: p) b Hs) as Hp.
  cbn [silent] in Hs. destruct b as [| | | | | |ob]; try done. destruct a as [| | | | | |oa]; try (cbn [merge_val]; by rewrite Hp).
  rewrite merge_val_obj. cbn [part]. rewrite merge_get by (by apply wf_obj). destruct (dget k ob) as [v|] eqn:E; [|by destruct (dget k oa) as [[]|]].
  destruct (dget k oa) as [x|].
  - rewrite <- combine_val. cbn [mbind option_bind]. apply IH; [by eapply wf_get|done].
  - cbn [combined mbind option_bind]. by apply silent_part.
Qed.
Lemma part_combined p b a v : wf b -> part p b = Some v -> part p (merge_val b a) = combined (part p a) (Some v).
Proof.
  revert b a. induction p as [|k p IH]; intros b a Hw; cbn [part].
  { intros [= <-]. apply combine_val. }
  destruct b as [| | | | | |ob]; try done. destruct (dget k ob) as [w|] eqn:E; [|done]. cbn [mbind option_bind]. intros Hp.
  destruct a as [| | | | | |oa]; try (cbn [merge_val combined]; rewrite E; exact Hp).
  rewrite merge_val_obj. rewrite merge_get by (by apply wf_obj). rewrite E. destruct (dget k oa) as [x|].
  - rewrite <- combine_val. cbn [mbind option_bind]. apply IH; [by eapply wf_get|done].
  - cbn [combined mbind option_bind]. exact Hp.
Qed.

(** * The heap. *)
Definition hloop (rec : heap -> nat -> nat -> option (heap * nat)) (r : nat) :=
  fix loop (items : list (bytes * hval)) (h : heap) : option heap :=
    match items with
    | [] => Some h
    | (key, b_val) :: items' =>
        h' ← (match hget h r key with
              | Some a_val =>
                  match as_dict h a_val, as_dict h b_val with
                  | Some (x, _), Some (y, _) => '(h1, m) ← rec h x y; Some (hset h1 r key (Ref m))
                  | _, _ =>
                      match as_list h a_val, as_list h b_val with
                      | Some la, Some lb => Some (hset (h ++ [HList (la ++ lb)]) r key (Ref (length h)))
                      | _, _ => Some (hset h r key b_val)
                      end
                  end
              | None => Some (hset h r key b_val)
              end);
        loop items' h'
    end.
Lemma hmerge_S n h a b : hmerge (S n) h a b =
  match h !! a, h !! b with
  | Some (HDict da), Some (HDict db) =>
      match db with [] => Some (h, a) | _ => h' ← hloop (hmerge n) (length h) db (h ++ [HDict da]); Some (h', length h) end
  | _, _ => None
  end.
Proof. reflexivity. Qed.
Lemma hset_prefix (h0 h : heap) r k v : h0 `prefix_of` h -> length h0 <= r -> h0 `prefix_of` hset h r k v.
Proof.
  intros [e ->] Hr. unfold hset. destruct (_ !! r) as [[d|]|]; [|by apply prefix_app_r..].
  exists (<[r - length h0 := HDict (dset k v d)]> e). apply insert_app_r_alt. done.
Qed.
Lemma hmerge_keeps n h a b h' r : hmerge n h a b = Some (h', r) -> h `prefix_of` h'.
Proof.
  revert h a b h' r. induction n as [|n IH]; intros h a b h' r; [done|]. rewrite hmerge_S.
  destruct (h !! a) as [[da|]|]; try done. destruct (h !! b) as [[db|]|]; try done.
  assert (HL : forall items h1 h2, h `prefix_of` h1 -> hloop (hmerge n) (length h) items h1 = Some h2 -> h `prefix_of` h2).
  { induction items as [|[key bv] items IHi]; intros h1 h2 Hp; cbn [hloop]; [by intros [= <-]|].
    intros Hl. destruct (hget h1 (length h) key) as [av|].
    - destruct (as_dict h1 av) as [[x dx]|], (as_dict h1 bv) as [[y dy]|].
      1: { destruct (hmerge n h1 x y) as [[h3 m]|] eqn:E; [|done]. cbn [mbind option_bind] in Hl. eapply IHi; [|exact Hl].
           apply hset_prefix; [|done]. etrans; [exact Hp|]. by eapply IH. }
      all: destruct (as_list h1 av) as [la|], (as_list h1 bv) as [lb|]; cbn [mbind option_bind] in Hl; eapply IHi; try exact Hl;
        apply hset_prefix; try done; etrans; [exact Hp|by apply prefix_app_r].
    - cbn [mbind option_bind] in Hl. eapply IHi; [|exact Hl]. by apply hset_prefix. }
  destruct db as [|it db]; [by intros [= <- <-]|].
  destruct (hloop _ _ _ _) as [h2|] eqn:E; [|done]. cbn [mbind option_bind]. intros [= <- <-]. eapply HL; [|exact E]. by apply prefix_app_r.
Qed.

Scheme reads_mind := Minimality for reads Sort Prop
  with reads_d_mind := Minimality for reads_d Sort Prop
  with reads_l_mind := Minimality for reads_l Sort Prop.
Combined Scheme reads_all from reads_mind, reads_d_mind, reads_l_mind.
Lemma reads_ext A h A' h' : (forall a o, ~ A a -> h !! a = Some o -> ~ A' a /\ h' !! a = Some o) ->
  (forall v j, reads A h v j -> reads A' h' v j) /\ (forall d o, reads_d A h d o -> reads_d A' h' d o) /\ (forall l js, reads_l A h l js -> reads_l A' h' l js).
Proof.
  intros H. apply reads_all; intros; try (constructor; done).
  - destruct (H a _ H0 H1). econstructor; eauto.
  - destruct (H a _ H0 H1). econstructor; eauto.
Qed.
Lemma reads_d_get A h d o k : reads_d A h d o ->
  match dget k d, dget k o with Some v, Some j => reads A h v j | None, None => True | _, _ => False end.
Proof. induction 1 as [|k0 v j d o Hv _ IH]; [done|]. cbn [dget]. by case_decide. Qed.
Lemma reads_d_set A h d o k v j : reads_d A h d o -> reads A h v j -> reads_d A h (dset k v d) (dset k j o).
Proof.
  intros Hd Hv. induction Hd as [|k0 v0 j0 d o H0 Hd IH]; cbn [dset]; [by repeat constructor|]. case_decide; by constructor.
Qed.
Lemma reads_l_app A h l1 l2 j1 j2 : reads_l A h l1 j1 -> reads_l A h l2 j2 -> reads_l A h (l1 ++ l2) (j1 ++ j2).
Proof. intros H. induction H; cbn; [done|]. intros ?. constructor; auto. Qed.
Lemma reads_shape A h v j : reads A h v j ->
  match j with
  | JObj o => exists a d, v = Ref a /\ ~ A a /\ h !! a = Some (HDict d) /\ reads_d A h d o /\ as_dict h v = Some (a, d) /\ as_list h v = None
  | JList js => exists a l, v = Ref a /\ ~ A a /\ h !! a = Some (HList l) /\ reads_l A h l js /\ as_dict h v = None /\ as_list h v = Some l
  | _ => as_dict h v = None /\ as_list h v = None
  end.
Proof.
  intros H. destruct H as [j Hj|a d o Ha Hl Hd|a l js Ha Hl Hd].
  - by destruct j.
  - exists a, d. unfold as_dict, as_list. rewrite Hl. done.
  - exists a, l. unfold as_dict, as_list. rewrite Hl. done.
Qed.
Fixpoint depth (j : json) : nat :=
  match j with
  | JObj o => S ((fix go (o : list (bytes * json)) : nat := match o with [] => 0 | kv :: o' => depth (snd kv) `max` go o' end) o)
  | _ => 0
  end.
Lemma depth_obj (o : obj) n : depth (JObj o) <= S n -> forall k v, (k, v) ∈ o -> depth v <= n.
Proof.
  cbn [depth]. intros H%le_S_n. revert H. induction o as [|[k0 v0] o IH]; cbn [snd]; intros H k v Hin; [by apply elem_of_nil in Hin|].
  apply elem_of_cons in Hin as [[= -> ->]|Hin]; [lia|]. eapply IH; [|exact Hin]. lia.
Qed.
Lemma hget_dict h r d k : h !! r = Some (HDict d) -> hget h r k = dget k d.
Proof. unfold hget. by intros ->. Qed.
Lemma hset_dict h r d k v : h !! r = Some (HDict d) -> hset h r k v = <[r := HDict (dset k v d)]> h.
Proof. unfold hset. by intros ->. Qed.
Definition plus_addr (A : nat -> Prop) (r x : nat) : Prop := A x \/ x = r.
Lemma hmerge_reads n : forall ob, depth (JObj ob) <= n -> forall (A : nat -> Prop) (h : heap) a oa b, (forall x, A x -> x < length h) ->
  reads A h (Ref a) (JObj oa) -> reads A h (Ref b) (JObj ob) ->
  exists h' r, hmerge n h a b = Some (h', r) /\ reads A h' (Ref r) (JObj (merge ob oa)).
Proof.
  induction n as [|n IH]; intros ob Hd A h a oa b HA Ha Hb; [cbn in Hd; lia|].
  rewrite hmerge_S. pose proof (reads_shape _ _ _ _ Ha) as (a' & da & [= <-] & HAa & Hla & Hda & _).
  pose proof (reads_shape _ _ _ _ Hb) as (b' & db & [= <-] & HAb & Hlb & Hdb & _). rewrite Hla, Hlb.
  destruct db as [|it db].
  { inversion Hdb; subst. exists h, a. split; [done|]. exact Ha. }
  set (r := length h). set (A' := plus_addr A r).
  assert (HX : forall a0 o0, ~ A a0 -> h !! a0 = Some o0 -> ~ A' a0 /\ (h ++ [HDict da]) !! a0 = Some o0).
  { intros a0 o0 HAa0 Hl0. pose proof (lookup_lt_Some _ _ _ Hl0). split; [intros [?| ->]; [done|unfold r in *; lia]|]. by apply lookup_app_l_Some. }
  assert (HL : forall items oi, (forall k v, (k, v) ∈ oi -> depth v <= n) -> forall hc d cur, h `prefix_of` hc -> hc !! r = Some (HDict d) ->
    reads_d A' hc d cur -> reads_d A' hc items oi ->
    exists h', hloop (hmerge n) r items hc = Some h' /\ exists d', h' !! r = Some (HDict d') /\ reads_d A' h' d' (merge oi cur)).
  { clear Hdb Hda Hlb Hla Ha Hb Hd HAa HAb. induction items as [|[key bv] items IHi]; intros oi Hdep hc d cur Hpre Hr Hcur Hit.
    { inversion Hit; subst. exists hc. split; [done|]. exists d. done. }
    inversion Hit as [|? ? jb ? oi' Hbv Hit']; subst. cbn [merge hloop]. rewrite (hget_dict _ _ _ _ Hr).
    pose proof (reads_d_get _ _ _ _ key Hcur) as Hget.
    assert (Hrl : r < length hc) by (by apply lookup_lt_Some in Hr).
    assert (HA' : forall x, A' x -> x < length hc).
    { intros x [Hx| ->]; [|done]. apply HA in Hx. unfold r in *. lia. }
    assert (Hdep' : forall k v, (k, v) ∈ oi' -> depth v <= n) by (intros k v Hin; apply (Hdep k v); by right).
    (* going on after an assignment that extends the heap outside r *)
    assert (HG : forall h1 v j, hc `prefix_of` h1 -> reads A' h1 v j ->
      exists h', hloop (hmerge n) r items (hset h1 r key v) = Some h' /\ exists d', h' !! r = Some (HDict d') /\ reads_d A' h' d' (merge oi' (dset key j cur))).
    { intros h1 v j [e ->] Hv.
      assert (Hr1 : (hc ++ e) !! r = Some (HDict d)) by (by apply lookup_app_l_Some).
      rewrite (hset_dict _ _ _ _ _ Hr1).
      assert (HE : forall a0 o0, ~ A' a0 -> (hc ++ e) !! a0 = Some o0 -> ~ A' a0 /\ <[r := HDict (dset key v d)]> (hc ++ e) !! a0 = Some o0).
      { intros a0 o0 HAa0 Hl0. split; [done|]. rewrite list_lookup_insert_ne; [done|]. intros <-. apply HAa0. by right. }
      assert (HE2 : forall a0 o0, ~ A' a0 -> hc !! a0 = Some o0 -> ~ A' a0 /\ <[r := HDict (dset key v d)]> (hc ++ e) !! a0 = Some o0).
      { intros a0 o0 HAa0 Hl0. apply HE; [done|]. by apply lookup_app_l_Some. }
      apply (IHi oi' Hdep' _ (dset key v d)).
      - destruct Hpre as [e0 ->]. exists (<[r - length h := HDict (dset key v d)]> (e0 ++ e)). rewrite <- app_assoc. apply insert_app_r_alt. unfold r. done.
      - apply list_lookup_insert. rewrite app_length. lia.
      - apply reads_d_set; [by eapply (reads_ext _ _ _ _ HE2)|by eapply (reads_ext _ _ _ _ HE)].
      - by eapply (reads_ext _ _ _ _ HE2). }
    destruct (dget key d) as [av|], (dget key cur) as [x|]; try done; cycle 1.
    { cbn [mbind option_bind]. by apply HG. }
    pose proof (reads_shape _ _ _ _ Hget) as Sx. pose proof (reads_shape _ _ _ _ Hbv) as Sb.
    assert (Hdb : depth jb <= n) by (apply (Hdep key jb); left).
    destruct jb as [| | | | |lb|ob'].
    7: { destruct Sb as (y & dy & -> & HAy & Hly & Hdy & -> & ->).
      destruct x as [| | | | |lx|ox]; try (destruct Sx as [-> ->]; cbn [mbind option_bind]; by apply HG).
      - destruct Sx as (x & lx' & -> & HAx & Hlx & Hrx & -> & ->). cbn [mbind option_bind]. by apply HG.
      - destruct Sx as (x & dx & -> & HAx & Hlx & Hrx & -> & _).
        destruct (IH ob' Hdb A' hc x ox y HA' Hget Hbv) as (h1 & m & Hm & Hrm). rewrite Hm. cbn [mbind option_bind]. rewrite merge_val_obj.
        apply HG; [by eapply hmerge_keeps|done]. }
    6: { destruct Sb as (y & lb' & -> & HAy & Hly & Hry & -> & ->).
      destruct x as [| | | | |lx|ox]; try (destruct Sx as [-> ->]; cbn [mbind option_bind]; by apply HG).
      - destruct Sx as (x & lx' & -> & HAx & Hlx & Hrx & -> & ->). cbn [mbind option_bind merge_val]. apply HG; [by apply prefix_app_r|].
        assert (HE : forall a0 o0, ~ A' a0 -> hc !! a0 = Some o0 -> ~ A' a0 /\ (hc ++ [HList (lx' ++ lb')]) !! a0 = Some o0).
        { intros a0 o0 ? ?. split; [done|]. by apply lookup_app_l_Some. }
        apply (R_list _ _ _ (lx' ++ lb')).
        + intros Hx%HA'. lia.
        + by apply list_lookup_middle.
        + eapply (reads_ext _ _ _ _ HE). by apply reads_l_app.
      - destruct Sx as (x & dx & -> & HAx & Hlx & Hrx & -> & ->). cbn [mbind option_bind]. by apply HG. }
    all: destruct Sb as [-> ->]; destruct (as_dict hc av) as [[? ?]|]; destruct (as_list hc av); cbn [mbind option_bind merge_val]; by apply HG. }
  destruct (HL (it :: db) ob (depth_obj ob n Hd) (h ++ [HDict da]) da oa) as (h' & Hh' & d' & Hr' & Hrd).
  - by apply prefix_app_r.
  - by apply list_lookup_middle.
  - by eapply (reads_ext _ _ _ _ HX).
  - by eapply (reads_ext _ _ _ _ HX).
  - rewrite Hh'. cbn [mbind option_bind]. exists h', r. split; [done|]. apply (R_dict _ _ _ d').
    + intros Hx%HA. unfold r in *. lia.
    + done.
    + assert (HE : forall a0 o0, ~ A' a0 -> h' !! a0 = Some o0 -> ~ A a0 /\ h' !! a0 = Some o0).
      { intros a0 o0 Hna ?. split; [|done]. intros ?. apply Hna. by left. }
      by eapply (reads_ext _ _ _ _ HE).
Qed.
(** What is kept: an object read before is read the same afterwards. *)
Lemma inputs_unchanged n h a b h' r v j : hmerge n h a b = Some (h', r) -> reads (fun _ => False) h v j -> reads (fun _ => False) h' v j.
Proof.
  intros Hm Hr. pose proof (hmerge_keeps _ _ _ _ _ _ Hm) as [e ->].
  eapply (reads_ext (fun _ => False) h (fun _ => False) (h ++ e)); [|exact Hr]. intros a0 o0 _ Hl. split; [tauto|]. by apply lookup_app_l_Some.
Qed.
Lemma merge_objects h a oa b ob : reads (fun _ => False) h (Ref a) (JObj oa) -> reads (fun _ => False) h (Ref b) (JObj ob) ->
  exists n h' r, hmerge n h a b = Some (h', r) /\ reads (fun _ => False) h' (Ref r) (JObj (merge ob oa)).
Proof.
  intros Ha Hb. destruct (hmerge_reads (depth (JObj ob)) ob (le_n _) (fun _ => False) h a oa b) as (h' & r & Hm & Hr); [done..|]. eauto.
Qed.
