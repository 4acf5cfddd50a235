(** Proofs about the options of a new cluster. *)
From Coq Require Import Ascii String ZArith.
From stdpp Require Import prelude.
From Verif Require Import Router_Model ProxyLog_Model Json_Model Template_Model Options_Model Options_Spec Options_Proofs Choose_Model.

Lemma dget_dset' {A} (k k' : bytes) (v : A) d : dget k (dset k' v d) = if decide (k = k') then Some v else dget k d.
Proof.
  induction d as [|[k0 v0] d IH]; cbn [dset dget]; [done|].
  destruct (decide (k' = k0)) as [->|Hne]; cbn [dget]; [by destruct (decide (k = k0))|].
  rewrite IH. destruct (decide (k = k0)) as [->|]; [by rewrite decide_False|done].
Qed.
Lemma dget_none {A} (k : bytes) (d : list (bytes * A)) : dget k d = None <-> k ∉ map fst d.
Proof. rewrite <- dget_some_in. rewrite eq_None_not_Some. done. Qed.
Lemma dget_update k d kw : NoDup (map fst kw) -> dget k (update d kw) = match dget k kw with Some x => Some x | None => dget k d end.
Proof.
  unfold update. revert d. induction kw as [|[k0 x0] kw IH]; intros d Hn; [done|]. cbn [foldl fst snd dget].
  cbn in Hn. apply NoDup_cons in Hn as [Hx Hn]. rewrite IH by done. rewrite dget_dset'.
  destruct (decide (k = k0)) as [->|]; [|done]. apply dget_none in Hx. by rewrite Hx.
Qed.
Lemma update_keys k d kw : NoDup (map fst kw) -> k ∈ map fst (update d kw) <-> k ∈ map fst kw \/ k ∈ map fst d.
Proof.
  intros Hn. rewrite <- !dget_some_in, dget_update by done. destruct (dget k kw) as [x|]; split; eauto.
  intros [[? [=]]|H]; done.
Qed.

Section choose.
Context (float_of : Z -> option fl) {V : Type}.
Notation validate := (validate float_of).
Lemma parse_ext (fs : list (field V)) r r' : NoDup (names fs) ->
  ((forall k, k ∈ map fst r -> k ∈ names fs) <-> (forall k, k ∈ map fst r' -> k ∈ names fs)) ->
  (forall f, f ∈ fs -> validate (f_kind f) (given f r) = validate (f_kind f) (given f r')) ->
  parse_options float_of fs (JObj r) = parse_options float_of fs (JObj r').
Proof.
  intros Hn Hk Hv. apply option_eq. intros res. rewrite !parse_unfold by done. rewrite Hk.
  assert (mapM (entry float_of r) fs = mapM (entry float_of r') fs) as ->; [|done].
  clear Hn Hk. induction fs as [|f fs IH]; [done|]. cbn [mapM].
  assert (entry float_of r f = entry float_of r' f) as ->.
  { unfold entry. specialize (Hv f ltac:(left)). unfold given in Hv. destruct (dget (f_name f) r), (dget (f_name f) r'); cbn in *; first [done | by rewrite Hv]. }
  rewrite IH; [done|]. intros g Hg. apply Hv. by right.
Qed.
Lemma as_request_dset k c (o : coptions) : as_request (dset k c o) = dset k (cf_value c) (as_request o).
Proof.
  unfold as_request. induction o as [|[k0 c0] o IH]; [done|]. cbn [dset map fst snd].
  destruct (decide (k = k0)); [done|]. cbn [map fst snd]. by rewrite IH.
Qed.
Lemma as_request_keys (fs : list (field V)) o : Forall2 (mirrors float_of) fs o -> map fst (as_request o) = names fs.
Proof. intros H. unfold as_request. rewrite map_map. cbn. by rewrite <- (mirrors_keys _ _ _ H). Qed.
(** What is held is a value the server keeps. *)
Lemma held (fs : list (field V)) o f : NoDup (names fs) -> Forall2 (mirrors float_of) fs o -> f ∈ fs ->
  exists v, dget (f_name f) (as_request o) = Some v /\ validate (f_kind f) v = Some v.
Proof.
  intros Hn H Hf. destruct (Forall2_elem_of_l _ _ _ _ H Hf) as ([k c] & Hin & H1 & H2 & H3 & H4). cbn [fst snd] in *. subst k.
  exists (cf_value c). split; [|done]. apply dget_nodup_in; [by rewrite (as_request_keys fs)|].
  unfold as_request. apply elem_of_list_fmap. by exists (f_name f, c).
Qed.
Lemma oset_step (fs : list (field V)) o k x : NoDup (names fs) -> Forall2 (mirrors float_of) fs o ->
  match oset float_of k x o with
  | Some o1 => Forall2 (mirrors float_of) fs o1 /\ exists f v, f ∈ fs /\ f_name f = k /\ validate (f_kind f) x = Some v /\ as_request o1 = dset k v (as_request o)
  | None => k ∉ names fs \/ exists f, f ∈ fs /\ f_name f = k /\ validate (f_kind f) x = None
  end.
Proof.
  intros Hn H. pose proof (osets_mirrors float_of fs [(k, x)] o Hn H) as Hm. cbn [osets] in Hm. revert Hm. unfold oset.
  destruct (dget k o) as [c|] eqn:Hg; cbn [mbind option_bind].
  - destruct (mirrors_get _ _ _ _ _ H Hg) as (f & Hf & Hk & _ & H2 & H3 & H4). cbn [fst snd] in *. rewrite H3.
    destruct (validate (f_kind f) x) as [v|] eqn:Hv; cbn [mbind option_bind].
    + cbn. intros Hm. split; [done|]. exists f, v. split_and!; try done. by rewrite as_request_dset.
    + intros _. right. by exists f.
  - intros _. left. rewrite <- (mirrors_keys _ _ _ H). by apply dget_none.
Qed.
Lemma oupdate_spec (fs : list (field V)) l o : NoDup (names fs) -> Forall2 (mirrors float_of) fs o -> NoDup (map fst l) ->
  match oupdate float_of l o with
  | Some o1 => Forall2 (mirrors float_of) fs o1 /\ (forall k, k ∈ map fst l -> k ∈ names fs) /\
      forall f, f ∈ fs -> dget (f_name f) (as_request o1) = match dget (f_name f) l with Some x => validate (f_kind f) x | None => dget (f_name f) (as_request o) end
  | None => exists k x, dget k l = Some x /\ (k ∉ names fs \/ exists f, f ∈ fs /\ f_name f = k /\ validate (f_kind f) x = None)
  end.
Proof.
  intros Hn. revert o. induction l as [|[k x] l IH]; intros o H Hl.
  { cbn [oupdate]. split; [done|]. split; [|done]. intros k Hk. by apply elem_of_nil in Hk. }
  cbn in Hl. apply NoDup_cons in Hl as [Hx Hl]. cbn [oupdate].
  pose proof (oset_step fs o k x Hn H) as Hs. destruct (oset float_of k x o) as [o1|]; cbn [mbind option_bind].
  - destruct Hs as (Hm & f & v & Hf & Hfk & Hv & Ha). specialize (IH o1 Hm Hl). destruct (oupdate float_of l o1) as [o2|].
    + destruct IH as (Hm2 & Hk2 & Hg2). split; [done|]. split.
      { cbn. intros k' [->|Hk']%elem_of_cons; [|auto]. rewrite <- Hfk. unfold names. apply elem_of_list_fmap. eauto. }
      intros g Hg. rewrite (Hg2 g Hg), Ha. cbn [dget]. rewrite dget_dset'. destruct (decide (f_name g = k)) as [E|]; [|done].
      assert (g = f) as -> by (eapply names_unique; eauto; congruence). rewrite E. apply dget_none in Hx. rewrite Hx. done.
    + destruct IH as (k' & x' & Hd & Hor). exists k', x'. split; [|done]. cbn [dget]. rewrite decide_False; [done|].
      intros ->. apply dget_none in Hx. congruence.
  - exists k, x. split; [|done]. cbn [dget]. by rewrite decide_True.
Qed.

(** A fresh Options object holds the server's defaults. *)
Lemma client_default (fs : list (field V)) o f : NoDup (names fs) -> Forall (declared float_of) fs ->
  options_from_spec float_of (get_specification fs) = Some o -> f ∈ fs ->
  dget (f_name f) (as_request o) = validate (f_kind f) (f_default f).
Proof.
  intros Hn Hd Ho Hin. unfold options_from_spec, get_specification in Ho.
  assert (exists cs, mapM (from_spec float_of) (map json_spec fs) = Some cs /\ Forall2 (fun (f : field V) c => cf_name c = f_name f /\ validate (f_kind f) (f_default f) = Some (cf_value c)) fs cs) as (cs & Hm & Hf).
  { clear Hn Ho Hin. induction fs as [|g fs IH]; [exists []; by split|]. apply Forall_cons in Hd as [Hf Hd]. destruct (IH Hd) as (cs & Hm & Hall).
    destruct (spec_agrees float_of g Hf) as (c & Hc & Hname & Hv & Hagr). exists (c :: cs). cbn [map mapM]. rewrite Hc. cbn [mbind option_bind]. rewrite Hm. split; [done|].
    by constructor. }
  rewrite Hm in Ho. cbn [mbind option_bind] in Ho. injection Ho as <-.
  assert (Hk : map fst (map (fun c => (cf_name c, c)) cs) = names fs).
  { unfold names. clear -Hf. induction Hf as [|g c fs cs (H & _) _ IH]; [done|]. cbn in *. by rewrite H, IH. }
  assert (HF : forall l d, foldl (fun d c => dset (cf_name c) c d) d l = foldl (fun d kv => dset (fst kv) (snd kv) d) d (map (fun c => (cf_name c, c)) l)).
  { induction l as [|c l IH]; intros d; [done|]. cbn [foldl map fst snd]. apply IH. }
  rewrite HF, foldl_dset; cbn [app]; [|by rewrite Hk].
  destruct (Forall2_elem_of_l _ _ _ _ Hf Hin) as (c & Hc & Hname & Hv). rewrite Hv. apply dget_nodup_in.
  - unfold as_request. rewrite map_map. cbn. rewrite map_map in *. cbn in *. by rewrite Hk.
  - unfold as_request. apply elem_of_list_fmap. exists (f_name f, c). split; [done|]. apply elem_of_list_fmap. exists c. by rewrite Hname.
Qed.

(** The value of a field, in the order in which the sources count. *)
Lemma submit_spec (fs : list (field V)) base kw res : NoDup (names fs) -> NoDup (map fst kw) ->
  parse_options float_of fs (JObj (update base kw)) = Some res <->
  (forall k, k ∈ map fst kw \/ k ∈ map fst base -> k ∈ names fs) /\ map fst res = names fs /\
  forall f, f ∈ fs -> exists v, dget (f_name f) res = Some v /\ fits (f_kind f) v /\
    normal float_of (f_kind f) (match dget (f_name f) kw with Some x => x | None => match dget (f_name f) base with Some x => x | None => f_default f end end) v.
Proof.
  intros Hn Hkw. rewrite parse_iff by done. split.
  - intros (r & [= <-] & Hk & Hm & Hv). split; [intros k Hin; apply Hk; by apply update_keys|]. split; [done|].
    intros f Hf. destruct (Hv f Hf) as (v & H1 & H2 & H3). exists v. split_and!; [done..|]. unfold given in H3. rewrite dget_update in H3 by done.
    by destruct (dget (f_name f) kw).
  - intros (Hk & Hm & Hv). exists (update base kw). split; [done|]. split; [intros k Hin%update_keys; auto|]. split; [done|].
    intros f Hf. destruct (Hv f Hf) as (v & H1 & H2 & H3). exists v. split_and!; [done..|]. unfold given. rewrite dget_update by done.
    by destruct (dget (f_name f) kw).
Qed.

(** Options made from the local configuration count as the configuration itself. *)
Lemma local_same (fs : list (field V)) o o1 l kw : NoDup (names fs) -> Forall (declared float_of) fs -> NoDup (map fst l) -> NoDup (map fst kw) ->
  options_from_spec float_of (get_specification fs) = Some o -> oupdate float_of l o = Some o1 ->
  parse_options float_of fs (JObj (update (as_request o1) kw)) = parse_options float_of fs (JObj (update l kw)).
Proof.
  intros Hn Hd Hl Hkw Ho Hu. destruct (options_built float_of fs Hn Hd) as (o' & Ho' & Hm). rewrite Ho in Ho'. injection Ho' as <-.
  pose proof (oupdate_spec fs l o Hn Hm Hl) as Hs. rewrite Hu in Hs. destruct Hs as (Hm1 & Hk1 & Hg1).
  apply parse_ext; [done| |].
  - setoid_rewrite update_keys; [|done..]. rewrite (as_request_keys fs o1 Hm1). split; intros H k [?|?]; auto.
  - intros f Hf. unfold given. rewrite !dget_update by done. destruct (dget (f_name f) kw) as [y|]; [done|].
    destruct (held fs o1 f Hn Hm1 Hf) as (v & Hv & Hvv). rewrite Hv, Hvv. rewrite (Hg1 f Hf) in Hv.
    destruct (dget (f_name f) l) as [x|]; [done|].
    pose proof (client_default fs o f Hn Hd Ho Hf) as Hc. congruence.
Qed.
(** cluster_options() raises exactly for configurations the server would refuse. *)
Lemma local_refused (fs : list (field V)) o l : NoDup (names fs) -> Forall (declared float_of) fs -> NoDup (map fst l) ->
  options_from_spec float_of (get_specification fs) = Some o ->
  oupdate float_of l o = None <-> parse_options float_of fs (JObj l) = None.
Proof.
  intros Hn Hd Hl Ho. split; intros H.
  - destruct (options_built float_of fs Hn Hd) as (o' & Ho' & Hm). rewrite Ho in Ho'. injection Ho' as <-.
    pose proof (oupdate_spec fs l o Hn Hm Hl) as Hs. rewrite H in Hs. destruct Hs as (k & x & Hk & Hor).
    destruct (parse_options float_of fs (JObj l)) as [res|] eqn:Hp; [exfalso|done].
    apply (parse_iff _ _ _ _ Hn) in Hp as (r & [= <-] & Hkeys & _ & Hv). destruct Hor as [Hor|(f & Hf & <- & Hbad)].
    + apply Hor, Hkeys, dget_some_in. eauto.
    + destruct (Hv f Hf) as (v & _ & H1 & H2). unfold given in H2. rewrite Hk in H2.
      assert (validate (f_kind f) x = Some v) by (by apply validate_spec). congruence.
  - destruct (oupdate float_of l o) as [o1|] eqn:Hu; [exfalso|done].
    pose proof (local_same fs o o1 l [] Hn Hd Hl ltac:(by apply NoDup_nil) Ho Hu) as Hs. unfold update in Hs. cbn [foldl] in Hs. rewrite H in Hs.
    destruct (options_built float_of fs Hn Hd) as (o' & Ho' & Hm). rewrite Ho in Ho'. injection Ho' as <-.
    pose proof (oupdate_spec fs l o Hn Hm Hl) as Hs2. rewrite Hu in Hs2. destruct Hs2 as (Hm1 & _).
    pose proof (request_kept float_of fs o1 Hn Hm1). congruence.
Qed.
End choose.
