(** Proofs for C40-C43. *)
From Coq Require Import Ascii String ZArith QArith Qcanon Lia.
From stdpp Require Import prelude.
From Verif Require Import Router_Model ProxyLog_Model ProxyLog_Proofs Json_Model Json_Proofs Options_Model Options_Spec.
Local Open Scope Z_scope.

Lemma nan_dec (f : fl) : {f = NaN} + {f <> NaN}.
Proof. destruct f; (by left) || by right. Qed.
Lemma le_fl_spec a b : a <> NaN -> b <> NaN -> fltb b a = false <-> le_fl a b.
Proof.
  intros Ha Hb. destruct a as [| | |p], b as [| | |q]; try done. cbn [le_fl].
  rewrite <- not_true_iff_false, fin_lt. split; [apply Qcnot_lt_le|apply Qcle_not_lt].
Qed.
Lemma check_int_spec mn mx z : check_int mn mx z = true <-> (forall m, mn = Some m -> m <= z) /\ (forall m, mx = Some m -> z <= m).
Proof.
  unfold check_int. rewrite andb_true_iff. split.
  - intros [H1 H2]. split; intros m ->; [apply negb_true_iff, Z.ltb_ge in H1|apply negb_true_iff, Z.ltb_ge in H2]; lia.
  - intros [H1 H2]. split; [destruct mn as [m|]|destruct mx as [m|]]; try done; apply negb_true_iff, Z.ltb_ge; eauto.
Qed.
Lemma check_float_spec mn mx f : check_float mn mx f = true <->
  (forall m, mn = Some m -> m = NaN \/ f = NaN \/ le_fl m f) /\ (forall m, mx = Some m -> m = NaN \/ f = NaN \/ le_fl f m).
Proof.
  assert (HC : forall a b, negb (fltb b a) = true <-> (a = NaN \/ b = NaN \/ le_fl a b)).
  { intros a b. rewrite negb_true_iff. destruct (nan_dec a) as [->|Ha].
    { split; [auto|]. intros _. by destruct b. }
    destruct (nan_dec b) as [->|Hb]; [split; [auto|done]|]. rewrite (le_fl_spec a b Ha Hb). tauto. }
  unfold check_float. rewrite andb_true_iff. split.
  - intros [H1 H2]. split; intros m ->; [by apply HC|]. apply HC in H2. tauto.
  - intros [H1 H2]. split; [destruct mn as [m|]; [|done]; by apply HC, H1|destruct mx as [m|]; [|done]]. apply HC. specialize (H2 m eq_refl). tauto.
Qed.

Lemma Forall2_elem_of_l {A B} (P : A -> B -> Prop) l k x : Forall2 P l k -> x ∈ l -> exists y, y ∈ k /\ P x y.
Proof.
  induction 1 as [|a b l k H _ IH]; intros Hx; [by apply elem_of_nil in Hx|].
  apply elem_of_cons in Hx as [->|Hx]; [exists b; split; [left|done]|]. destruct (IH Hx) as (y & ? & ?). exists y. split; [by right|done].
Qed.
Lemma Forall2_elem_of_r {A B} (P : A -> B -> Prop) l k y : Forall2 P l k -> y ∈ k -> exists x, x ∈ l /\ P x y.
Proof.
  induction 1 as [|a b l k H _ IH]; intros Hx; [by apply elem_of_nil in Hx|].
  apply elem_of_cons in Hx as [->|Hx]; [exists a; split; [left|done]|]. destruct (IH Hx) as (x & ? & ?). exists x. split; [by right|done].
Qed.

Section proofs.
Context (float_of : Z -> option fl) {V : Type} (J : json -> V).
Notation validate := (@validate float_of V).

Lemma dget_some_in {A} (k : bytes) (d : list (bytes * A)) : is_Some (dget k d) <-> k ∈ map fst d.
Proof.
  split.
  - intros [v Hv%dget_in]. apply elem_of_list_fmap. by exists (k, v).
  - induction d as [|[k0 v0] d IH]; cbn [map fst dget]; intros Hin; [by apply elem_of_nil in Hin|].
    destruct (decide (k = k0)); [eauto|]. apply elem_of_cons in Hin as [?|?]; [done|auto].
Qed.
Lemma dget_nodup_in {A} (k : bytes) (v : A) (d : list (bytes * A)) : NoDup (map fst d) -> (k, v) ∈ d -> dget k d = Some v.
Proof.
  induction d as [|[k0 v0] d IH]; cbn [map fst dget]; intros Hn Hin; [by apply elem_of_nil in Hin|].
  apply NoDup_cons in Hn as [Hx Hn]. apply elem_of_cons in Hin as [[= -> ->]|Hin]; [by rewrite decide_True|].
  rewrite decide_False; [auto|]. intros ->. apply Hx. apply elem_of_list_fmap. by exists (k0, v).
Qed.

Lemma validate_spec k x v : validate k x = Some v <-> fits k v /\ normal float_of k x v.
Proof.
  destruct k as [| |mn mx|mn mx|opts|]; cbn [Options_Model.validate normal].
  - split; [destruct x; try done; intros [= <-]; split; [constructor|done]|].
    intros [Hf ->]. by inversion Hf.
  - split; [destruct x; try done; intros [= <-]; split; [constructor|done]|].
    intros [Hf ->]. by inversion Hf.
  - split.
    + destruct (int_of x) as [z|] eqn:Hz; cbn [mbind option_bind]; [|done]. destruct (check_int mn mx z) eqn:Hc; [|done].
      intros [= <-]. apply check_int_spec in Hc as [? ?]. split; [econstructor; eauto|done].
    + intros [Hf ->]. inversion Hf as [| |? ? ? z Hz H1 H2| | |]; subst. rewrite Hz. cbn [mbind option_bind]. by rewrite (proj2 (check_int_spec mn mx z)).
  - split.
    + destruct (to_float float_of x) as [f|] eqn:Hz; cbn [mbind option_bind]; [|done]. destruct (check_float mn mx f) eqn:Hc; [|done].
      intros [= <-]. apply check_float_spec in Hc as [? ?]. split; [constructor; eauto|].
      destruct x; cbn in Hz; try done; try (injection Hz as ->; by left); right; eauto 10.
    + intros [Hf Hn]. inversion Hf as [| | |? ? f Hl Hh| |]; subst.
      assert (Ht : to_float float_of x = Some f).
      { destruct Hn as [<-|(z & g & Hz & Hg & [= ->])]; [done|]. unfold to_float. destruct x; try done; cbn in Hz; injection Hz as <-; cbn; done. }
      rewrite Ht. cbn [mbind option_bind]. by rewrite (proj2 (check_float_spec mn mx f)).
  - split.
    + destruct x; try done. destruct (dget s opts) as [w|] eqn:E; [|done]. intros [= <-]. split; [|done]. econstructor. by apply dget_in.
    + intros [Hf ->]. inversion Hf as [| | | |? s w Hin|]; subst.
      destruct (proj2 (dget_some_in s opts)) as [w' ->]; [|done]. apply elem_of_list_fmap. by exists (s, w).
  - split; [destruct x; try done; intros [= <-]; split; [constructor|done]|].
    intros [Hf ->]. by inversion Hf.
Qed.
Lemma validate_idem k x v : validate k x = Some v -> validate k v = Some v.
Proof.
  intros [Hf Hn]%validate_spec. apply validate_spec. split; [done|]. destruct k; cbn in *; auto.
Qed.

(** * Dict comprehensions over distinct keys. *)
Lemma foldl_dset {A} (vs d : list (bytes * A)) : NoDup (map fst (d ++ vs)) ->
  foldl (fun d kv => dset (fst kv) (snd kv) d) d vs = d ++ vs.
Proof.
  revert d. induction vs as [|[k v] vs IH]; intros d Hn; cbn [foldl fst snd]; [by rewrite app_nil_r|].
  assert (dset k v d = d ++ [(k, v)]) as ->.
  { assert (Hk : k ∉ map fst d).
    { rewrite map_app in Hn. apply NoDup_app in Hn as (_ & Hx & _). intros Hi. apply (Hx k Hi). left. }
    clear -Hk. induction d as [|[k0 v0] d IH]; [done|]. cbn [dset app]. cbn [map fst] in Hk.
    rewrite decide_False by (intros ->; apply Hk; left). rewrite IH; [done|]. intros Hi. apply Hk. by right. }
  rewrite IH; rewrite <- app_assoc; done.
Qed.

Definition entry (r : list (bytes * json)) (f : field V) : option (bytes * json) :=
  v ← validate (f_kind f) (default (f_default f) (dget (f_name f) r)); Some (f_name f, v).
Lemma mapM_keys {A} (g : field V -> option (bytes * A)) (key : field V -> bytes) fs vs :
  (forall f kv, g f = Some kv -> fst kv = key f) -> mapM g fs = Some vs -> map fst vs = map key fs.
Proof.
  intros Hg H%mapM_Some. induction H as [|f kv fs vs Hf _ IH]; [done|]. cbn [map]. by rewrite IH, (Hg _ _ Hf).
Qed.
Lemma entry_key r f kv : entry r f = Some kv -> fst kv = f_name f.
Proof. unfold entry. destruct (validate _ _); [|done]. by intros [= <-]. Qed.
Lemma parse_unfold fs r res : NoDup (names fs) -> parse_options float_of fs (JObj r) = Some res <->
  (forall k, k ∈ map fst r -> k ∈ names fs) /\ mapM (entry r) fs = Some res.
Proof.
  intros Hn. unfold parse_options. fold (entry r).
  assert (HF : forallb (fun k => bool_decide (k ∈ map f_name fs)) (map fst r) = true <-> forall k, k ∈ map fst r -> k ∈ names fs).
  { rewrite forallb_forall. split.
    - intros H k Hk. apply elem_of_list_In in Hk. specialize (H k Hk). by apply bool_decide_eq_true in H.
    - intros H k Hk. apply bool_decide_eq_true. apply H. by apply elem_of_list_In. }
  destruct (forallb _ _); [|split; [done|intros [H _]; by apply HF in H]].
  rewrite <- HF. destruct (mapM (entry r) fs) as [vs|] eqn:Hm; cbn [mbind option_bind].
  - rewrite foldl_dset.
    + cbn [app]. split; [intros [= <-]; done|intros [_ [= <-]]; done].
    + cbn [app]. rewrite (mapM_keys _ f_name _ _ (entry_key r) Hm). exact Hn.
  - split; [done|by intros [_ ?]].
Qed.
Lemma names_unique (fs : list (field V)) (f g : field V) : NoDup (names fs) -> f ∈ fs -> g ∈ fs -> f_name f = f_name g -> f = g.
Proof.
  unfold names. induction fs as [|h fs IH]; intros Hn Hf Hg He; [by apply elem_of_nil in Hf|].
  cbn in Hn. apply NoDup_cons in Hn as [Hx Hn].
  apply elem_of_cons in Hf as [->|Hf]; apply elem_of_cons in Hg as [->|Hg]; [done| | |auto]; exfalso; apply Hx.
  - rewrite He. apply elem_of_list_fmap. eauto.
  - rewrite <- He. apply elem_of_list_fmap. eauto.
Qed.
Lemma dget_entries r (fs : list (field V)) res (f : field V) : NoDup (names fs) -> mapM (entry r) fs = Some res -> f ∈ fs ->
  exists v, dget (f_name f) res = Some v /\ validate (f_kind f) (given f r) = Some v.
Proof.
  intros Hn Hm Hf.
  assert (exists v, (f_name f, v) ∈ res /\ validate (f_kind f) (given f r) = Some v) as (v & Hin & Hv).
  { apply mapM_Some in Hm. destruct (Forall2_elem_of_l _ _ _ _ Hm Hf) as ([k v] & Hin & He). unfold entry in He.
    unfold given. destruct (dget (f_name f) r) as [x|]; cbn [from_option default] in He; unfold Datatypes.id in He.
    - destruct (validate _ x) as [v'|] eqn:Hv; [|done]. cbn in He. injection He as <- <-. eauto.
    - destruct (validate _ _) as [v'|] eqn:Hv; [|done]. cbn in He. injection He as <- <-. eauto. }
  exists v. split; [|done]. apply dget_nodup_in; [|done]. rewrite (mapM_keys _ f_name _ _ (entry_key r) Hm). exact Hn.
Qed.

(** C40. *)
Lemma parse_iff (fs : list (field V)) j res : NoDup (names fs) -> parse_options float_of fs j = Some res <->
  exists r, j = JObj r /\ (forall k, k ∈ map fst r -> k ∈ names fs) /\ map fst res = names fs /\
    forall f, f ∈ fs -> exists v, dget (f_name f) res = Some v /\ fits (f_kind f) v /\ normal float_of (f_kind f) (given f r) v.
Proof.
  intros Hn. split.
  - intros Hp. destruct j as [| | | | | |r]; try done. apply (parse_unfold fs r res Hn) in Hp as [Hk Hm].
    exists r. split; [done|]. split; [done|]. split; [exact (mapM_keys _ f_name _ _ (entry_key r) Hm)|].
    intros f Hf. destruct (dget_entries _ _ _ _ Hn Hm Hf) as (v & Hg & Hv). exists v. split; [done|]. by apply validate_spec.
  - intros (r & -> & Hk & Hkeys & Hv). apply (parse_unfold fs r res Hn). split; [done|]. apply mapM_Some.
    assert (Hall : forall f, f ∈ fs -> exists v, dget (f_name f) res = Some v /\ entry r f = Some (f_name f, v)).
    { intros f Hf. destruct (Hv f Hf) as (v & Hg & Hfit). exists v. split; [done|]. apply validate_spec in Hfit.
      unfold entry. unfold given in Hfit. destruct (dget (f_name f) r); cbn [from_option default]; unfold Datatypes.id; rewrite Hfit; done. }
    clear Hv Hk. revert res Hkeys Hall. unfold names in *. induction fs as [|f fs IH]; intros res Hkeys Hall.
    + destruct res; [constructor|done].
    + destruct res as [|[k v] res]; [done|]. cbn in Hkeys. injection Hkeys as -> Hkeys.
      destruct (Hall f (elem_of_list_here _ _)) as (v' & Hg & He). cbn [dget] in Hg. rewrite decide_True in Hg by done. injection Hg as <-.
      constructor; [done|]. cbn in Hn. apply NoDup_cons in Hn as [Hx Hn]. apply IH; [done..|].
      intros g Hg. destruct (Hall g) as (w & Hgw & Hew); [by right|]. exists w. split; [|done].
      cbn [dget] in Hgw. rewrite decide_False in Hgw; [done|]. intros E. apply Hx. rewrite <- E. apply elem_of_list_fmap. eauto.
Qed.
Lemma declared_default (f : field V) : declared float_of f -> exists v, validate (f_kind f) (f_default f) = Some v.
Proof.
  intros (name & target & d & Hm).
  assert (HC : forall n t x k, checked float_of n t x k = Some f -> exists v, validate (f_kind f) (f_default f) = Some v).
  { intros n t x k. unfold checked. destruct (validate k x) eqn:E; [|done]. cbn. intros [= <-]. cbn. eauto. }
  unfold make in Hm. destruct d as [x|x|x mn mx|x mn mx|opts x|x]; try exact (HC _ _ _ _ Hm).
  - destruct (int_bounds _ _) as [[? ?]|]; [|done]. cbn [mbind option_bind] in Hm. exact (HC _ _ _ _ Hm).
  - destruct (float_bounds _ _ _) as [[? ?]|]; [|done]. cbn [mbind option_bind] in Hm. exact (HC _ _ _ _ Hm).
  - destruct (options_map opts) as [|[? ?] ?]; [done|]. exact (HC _ _ _ _ Hm).
Qed.
Lemma parse_empty (fs : list (field V)) : NoDup (names fs) -> Forall (declared float_of) fs -> exists res, parse_options float_of fs (JObj []) = Some res /\
  forall f, f ∈ fs -> exists v, dget (f_name f) res = Some v /\ normal float_of (f_kind f) (f_default f) v.
Proof.
  intros Hn Hd. assert (exists res, mapM (entry []) fs = Some res) as [res Hm].
  { clear Hn. induction fs as [|f fs IH]; [by exists []|]. apply Forall_cons in Hd as [Hf Hd]. destruct (IH Hd) as [res Hm].
    destruct (declared_default f Hf) as [v Hv]. exists ((f_name f, v) :: res). cbn [mapM].
    assert (entry [] f = Some (f_name f, v)) as -> by (unfold entry; cbn [dget from_option]; by rewrite Hv). cbn [mbind option_bind]. rewrite Hm. done. }
  exists res. assert (Hp : parse_options float_of fs (JObj []) = Some res).
  { apply parse_unfold; [done|]. split; [|done]. intros k Hk. by apply elem_of_nil in Hk. }
  split; [done|]. intros f Hf. apply (parse_iff _ _ _ Hn) in Hp as (r & [= <-] & _ & _ & H). destruct (H f Hf) as (v & ? & _ & ?). exists v. split; [done|]. done.
Qed.
Lemma parse_again (fs : list (field V)) j res : NoDup (names fs) -> parse_options float_of fs j = Some res -> parse_options float_of fs (JObj res) = Some res.
Proof.
  intros Hn Hp. apply (parse_iff _ _ _ Hn) in Hp as (r & -> & Hk & Hkeys & Hv). apply (parse_iff _ _ _ Hn).
  exists res. split; [done|]. split; [by rewrite Hkeys|]. split; [done|]. intros f Hf. destruct (Hv f Hf) as (v & Hg & Hfit & Hnorm).
  exists v. split; [done|]. split; [done|]. unfold given. rewrite Hg. destruct (f_kind f); cbn; auto.
Qed.

(** C42. *)
Lemma int_in_bounds name target d mn mx f x v : make float_of name target (DInt (V := V) d mn mx) = Some f -> validate (f_kind f) x = Some v ->
  exists z, int_of v = Some z /\ (forall m, int_of mn = Some m -> m <= z) /\ (forall m, int_of mx = Some m -> z <= m).
Proof.
  unfold make. destruct (int_bounds mn mx) as [[a b]|] eqn:Hb; [|done]. cbn [mbind option_bind]. unfold checked.
  destruct (validate (KInt a b) d); [|done]. cbn. intros [= <-]. cbn [f_kind]. intros [Hf _]%validate_spec.
  inversion Hf as [| |? ? ? z Hz H1 H2| | |]; subst. exists z. split; [done|]. unfold int_bounds in Hb.
  split; intros m Hm.
  - destruct mn; try done; cbn in Hm; injection Hm as <-; cbn in Hb; (destruct mx; cbn in Hb; try done; repeat case_match; try done; injection Hb as <- <-; by apply H1).
  - destruct mx; try done; cbn in Hm; injection Hm as <-; (destruct mn; cbn in Hb; try done; repeat case_match; try done; injection Hb as <- <-; by apply H2).
Qed.
Lemma float_in_bounds name target d mn mx f x v : make float_of name target (DFloat (V := V) d mn mx) = Some f -> validate (f_kind f) x = Some v ->
  exists g, v = JFloat g /\ (g <> NaN -> (forall m, to_float float_of mn = Some m -> m <> NaN -> le_fl m g) /\ (forall m, to_float float_of mx = Some m -> m <> NaN -> le_fl g m)).
Proof.
  unfold make. destruct (float_bounds float_of mn mx) as [[a b]|] eqn:Hb; [|done]. cbn [mbind option_bind]. unfold checked.
  destruct (validate (KFloat a b) d); [|done]. cbn. intros [= <-]. cbn [f_kind]. intros [Hf _]%validate_spec.
  inversion Hf as [| | |? ? g H1 H2| |]; subst. exists g. split; [done|]. intros Hg. unfold float_bounds in Hb.
  destruct (match mn with JNull => Some None | _ => _ end) as [a'|] eqn:Ea; [|done]. cbn [mbind option_bind] in Hb.
  destruct (match mx with JNull => Some None | _ => _ end) as [b'|] eqn:Eb; [|done]. cbn [mbind option_bind] in Hb. injection Hb as -> ->.
  assert (Ha : forall m, to_float float_of mn = Some m -> a = Some m).
  { intros m Hm. destruct mn; try done; rewrite Hm in Ea; cbn in Ea; by injection Ea as <-. }
  assert (Hbb : forall m, to_float float_of mx = Some m -> b = Some m).
  { intros m Hm. destruct mx; try done; rewrite Hm in Eb; cbn [mbind option_bind] in Eb; (destruct (check_float a None m); [|done]); by injection Eb as <-. }
  split; intros m Hm Hnn.
  - destruct (H1 m (Ha m Hm)) as [?|[?|?]]; done.
  - destruct (H2 m (Hbb m Hm)) as [?|[?|?]]; done.
Qed.

(** C41. *)
Lemma int_bounds_again mn mx a b : int_bounds mn mx = Some (a, b) -> int_bounds (jopt JInt a) (jopt JInt b) = Some (a, b).
Proof.
  unfold int_bounds. intros H.
  destruct (match mn with JNull => Some None | _ => _ end) as [a'|]; [|done]. cbn [mbind option_bind] in H.
  assert (exists b', b = b' /\ a' = a /\ forall z, b' = Some z -> check_int a None z = true) as (b' & -> & -> & Hc).
  { destruct mx; cbn [int_of mbind option_bind] in H; try done; try (injection H as <- <-; by exists None);
      (match type of H with context [check_int ?a ?b ?c] => destruct (check_int a b c) eqn:E end; [|done]; cbn in H; injection H as <- <-; eexists; split; [done|]; split; [done|]; by intros ? [= <-]). }
  destruct a, b'; cbn [jopt int_of mbind option_bind]; try done; by rewrite (Hc _ eq_refl).
Qed.
Lemma float_bounds_again mn mx a b : float_bounds float_of mn mx = Some (a, b) -> float_bounds float_of (jopt JFloat a) (jopt JFloat b) = Some (a, b).
Proof.
  unfold float_bounds. intros H.
  destruct (match mn with JNull => Some None | _ => _ end) as [a'|]; [|done]. cbn [mbind option_bind] in H.
  assert (exists b', b = b' /\ a' = a /\ forall z, b' = Some z -> check_float a None z = true) as (b' & -> & -> & Hc).
  { destruct mx; try (injection H as <- <-; by exists None);
      (match type of H with context [to_float ?a ?b] => destruct (to_float a b) as [g|] end; [|done]; cbn [mbind option_bind] in H;
       destruct (check_float a' None g) eqn:E; [|done]; cbn in H; injection H as <- <-; eexists; split; [done|]; split; [done|]; by intros ? [= <-]). }
  destruct a, b'; cbn [jopt to_float mbind option_bind]; try done; by rewrite (Hc _ eq_refl).
Qed.
Lemma strings_map (l : list (bytes * V)) : strings (map (fun kv => JStr (fst kv)) l) = Some (map fst l).
Proof.
  unfold strings. induction l as [|[k v] l IH]; [done|]. cbn [map mapM]. rewrite IH. done.
Qed.
Lemma bool_decide_dget s (opts : list (bytes * V)) x : (if bool_decide (s ∈ map fst opts) then Some x else None) = match dget s opts with Some _ => Some (x : json) | None => None end.
Proof.
  destruct (dget s opts) as [v|] eqn:E.
  - rewrite bool_decide_true; [done|]. apply dget_some_in. eauto.
  - rewrite bool_decide_false; [done|]. intros H%dget_some_in. rewrite E in H. by destruct H.
Qed.
Lemma spec_agrees (f : field V) : declared float_of f -> exists c, from_spec float_of (json_spec f) = Some c /\ cf_name c = f_name f /\
  validate (f_kind f) (f_default f) = Some (cf_value c) /\ forall x, cvalidate float_of (cf_kind c) x = validate (f_kind f) x.
Proof.
  intros Hd. destruct (declared_default f Hd) as [v Hv]. destruct Hd as (name & target & d & Hm). unfold from_spec, json_spec.
  cbn [dget]. repeat (first [rewrite decide_True by done | rewrite decide_False by (vm_compute; done)]).
  unfold make in Hm.
  assert (HC : forall n t x k, checked float_of n t x k = Some f -> f_kind f = k).
  { intros n t x k. unfold checked. destruct (validate k x) eqn:E; [|done]. cbn. by intros [= <-]. }
  destruct d as [x|x|x mn mx|x mn mx|opts x|x].
  - apply HC in Hm. rewrite Hm in Hv |- *. vm_compute (type_spec _). cbn [dget]. rewrite decide_True by done. vm_compute (ddel _ _). rewrite decide_True by done.
    cbn [only forallb map]. unfold cchecked. cbn [Options_Model.validate cvalidate] in *. rewrite Hv. cbn. eexists. split; [done|]. done.
  - apply HC in Hm. rewrite Hm in Hv |- *. vm_compute (type_spec _). cbn [dget]. rewrite decide_True by done. vm_compute (ddel _ _).
    rewrite decide_False by (vm_compute; done). rewrite decide_True by done.
    cbn [only forallb map]. unfold cchecked. cbn [Options_Model.validate cvalidate] in *. rewrite Hv. cbn. eexists. split; [done|]. done.
  - destruct (int_bounds mn mx) as [[a b]|] eqn:Hb; [|done]. cbn [mbind option_bind] in Hm. apply HC in Hm. rewrite Hm in Hv |- *.
    cbn [type_spec dget]. rewrite decide_True by done.
    do 2 rewrite decide_False by (vm_compute; done). rewrite decide_True by done.
    change (ddel (b_ "type") _) with [(b_ "min", jopt JInt a); (b_ "max", jopt JInt b)].
    change (only _ _) with true. cbn iota.
    change (dget (b_ "min") _) with (Some (jopt JInt a)). change (dget (b_ "max") _) with (Some (jopt JInt b)). cbn [from_option default]. unfold Datatypes.id.
    rewrite (int_bounds_again mn mx a b Hb). cbn [mbind option_bind]. unfold cchecked. cbn [cvalidate]. cbn [Options_Model.validate] in *. rewrite Hv. cbn. eexists. split; [done|]. done.
  - destruct (float_bounds float_of mn mx) as [[a b]|] eqn:Hb; [|done]. cbn [mbind option_bind] in Hm. apply HC in Hm. rewrite Hm in Hv |- *.
    cbn [type_spec dget]. rewrite decide_True by done.
    do 3 rewrite decide_False by (vm_compute; done). rewrite decide_True by done.
    change (ddel (b_ "type") _) with [(b_ "min", jopt JFloat a); (b_ "max", jopt JFloat b)].
    change (only _ _) with true. cbn iota.
    change (dget (b_ "min") _) with (Some (jopt JFloat a)). change (dget (b_ "max") _) with (Some (jopt JFloat b)). cbn [from_option default]. unfold Datatypes.id.
    rewrite (float_bounds_again mn mx a b Hb). cbn [mbind option_bind]. unfold cchecked. cbn [cvalidate]. cbn [Options_Model.validate] in *. rewrite Hv. cbn. eexists. split; [done|]. done.
  - destruct (options_map opts) as [|[k0 v0] om] eqn:Hom; [done|]. apply HC in Hm. rewrite Hm in Hv |- *.
    cbn [type_spec dget]. rewrite decide_True by done.
    do 4 rewrite decide_False by (vm_compute; done). rewrite decide_True by done.
    set (L := map (fun kv => JStr (fst kv)) ((k0, v0) :: om)).
    change (ddel (b_ "type") _) with [(b_ "options", JList L)]. change (only _ _) with true. cbn iota.
    change (dget (b_ "options") _) with (Some (JList L)). cbn [from_option default]. unfold Datatypes.id.
    pose proof (strings_map ((k0, v0) :: om)) as Hs. fold L in Hs. unfold L at 1. cbn [map]. change (JStr (fst (k0, v0)) :: map (fun kv => JStr (fst kv)) om) with L.
    rewrite Hs. cbn [mbind option_bind].
    assert (Hcv : forall y, cvalidate float_of (CSelect (map fst ((k0, v0) :: om))) y = validate (KSelect ((k0, v0) :: om)) y).
    { intros y. cbn [cvalidate Options_Model.validate]. destruct y; try done. apply bool_decide_dget. }
    unfold cchecked. rewrite Hcv, Hv. cbn [mbind option_bind]. eexists. split; [done|]. split; [done|]. split; [done|]. exact Hcv.
  - apply HC in Hm. rewrite Hm in Hv |- *. vm_compute (type_spec _). cbn [dget]. rewrite decide_True by done. vm_compute (ddel _ _).
    do 5 rewrite decide_False by (vm_compute; done). rewrite decide_True by done.
    cbn [only forallb map]. unfold cchecked. cbn [Options_Model.validate cvalidate] in *. rewrite Hv. cbn. eexists. split; [done|]. done.
Qed.

(** The client's options follow the server's fields. *)
Definition mirrors (f : field V) (kc : bytes * cfield) : Prop :=
  fst kc = f_name f /\ cf_name (snd kc) = f_name f /\ (forall x, cvalidate float_of (cf_kind (snd kc)) x = validate (f_kind f) x) /\
  validate (f_kind f) (cf_value (snd kc)) = Some (cf_value (snd kc)).
Lemma mirrors_keys (fs : list (field V)) o : Forall2 mirrors fs o -> map fst o = names fs.
Proof. unfold names. induction 1 as [|f kc fs o (H & _) _ IH]; [done|]. cbn. by rewrite H, IH. Qed.
Lemma options_built (fs : list (field V)) : NoDup (names fs) -> Forall (declared float_of) fs -> exists o, options_from_spec float_of (get_specification fs) = Some o /\ Forall2 mirrors fs o.
Proof.
  intros Hn Hd. unfold options_from_spec, get_specification.
  assert (exists cs, mapM (from_spec float_of) (map json_spec fs) = Some cs /\ Forall2 (fun f c => mirrors f (cf_name c, c)) fs cs) as (cs & Hm & Hf).
  { clear Hn. induction fs as [|f fs IH]; [exists []; by split|]. apply Forall_cons in Hd as [Hf Hd]. destruct (IH Hd) as (cs & Hm & Hall).
    destruct (spec_agrees f Hf) as (c & Hc & Hname & Hv & Hagr). exists (c :: cs). cbn [map mapM]. rewrite Hc. cbn [mbind option_bind]. rewrite Hm. split; [done|].
    constructor; [|done]. split; [done|]. split; [done|]. split; [done|]. cbn. by eapply validate_idem. }
  rewrite Hm. cbn [mbind option_bind]. eexists. split; [reflexivity|].
  assert (HF : forall l d, foldl (fun d c => dset (cf_name c) c d) d l = foldl (fun d kv => dset (fst kv) (snd kv) d) d (map (fun c => (cf_name c, c)) l)).
  { induction l as [|c l IH]; intros d; [done|]. cbn [foldl map fst snd]. apply IH. }
  rewrite HF, foldl_dset; cbn [app].
  - clear Hm HF Hn Hd. induction Hf; constructor; auto.
  - assert (map fst (map (fun c => (cf_name c, c)) cs) = names fs) as ->; [|done].
    unfold names. clear -Hf. induction Hf as [|f c fs cs (H & _) _ IH]; [done|]. cbn in *. by rewrite H, IH.
Qed.
Lemma dset_mirrors (fs : list (field V)) o key c : NoDup (names fs) -> Forall2 mirrors fs o ->
  (forall f, f ∈ fs -> f_name f = key -> mirrors f (key, c)) -> is_Some (dget key o) -> Forall2 mirrors fs (dset key c o).
Proof.
  intros Hn H. revert Hn. induction H as [|f [k c0] fs o Hm Hall IH]; intros Hn Hc Hs; [by destruct Hs|].
  unfold names in Hn. cbn in Hn. apply NoDup_cons in Hn as [Hx Hn]. destruct Hm as (Hk & Hm). cbn in Hk. subst k. cbn [dset].
  destruct (decide (key = f_name f)) as [->|Hne].
  - constructor; [apply Hc; [left|done]|done].
  - constructor; [done|]. cbn [dget] in Hs. rewrite decide_False in Hs by done. apply IH; [done| |done]. intros g Hg. apply Hc. by right.
Qed.
Lemma mirrors_get (fs : list (field V)) o key c : Forall2 mirrors fs o -> dget key o = Some c -> exists f, f ∈ fs /\ f_name f = key /\ mirrors f (key, c).
Proof.
  intros H Hg. apply dget_in in Hg. destruct (Forall2_elem_of_r _ _ _ _ H Hg) as (f & Hf & Hm). exists f. split; [done|]. split; [|done]. destruct Hm as [E _]. cbn in E. congruence.
Qed.
Lemma osets_mirrors (fs : list (field V)) l o : NoDup (names fs) -> Forall2 mirrors fs o -> Forall2 mirrors fs (osets float_of l o).
Proof.
  intros Hn. revert o. induction l as [|[k x] l IH]; intros o H; [done|]. cbn [osets]. apply IH.
  unfold oset. destruct (dget k o) as [c|] eqn:Hg; cbn [mbind option_bind from_option default]; [|done].
  destruct (cvalidate float_of (cf_kind c) x) as [v|] eqn:Hv; cbn [mbind option_bind from_option default]; [|done].
  apply dset_mirrors; [done..| |eauto]. intros f Hf Hk. destruct (mirrors_get _ _ _ _ H Hg) as (g & Hgf & Hgk & Hm).
  assert (g = f) as -> by (eapply names_unique; eauto; congruence). destruct Hm as (H1 & H2 & H3 & H4). cbn [fst snd] in *.
  split; [done|]. cbn. split; [done|]. split; [done|]. rewrite H3 in Hv. by eapply validate_idem.
Qed.
Lemma request_kept (fs : list (field V)) o : NoDup (names fs) -> Forall2 mirrors fs o -> parse_options float_of fs (JObj (as_request o)) = Some (as_request o).
Proof.
  intros Hn H. assert (Hk : map fst (as_request o) = names fs).
  { unfold as_request. rewrite map_map. cbn. rewrite <- (mirrors_keys _ _ H). done. }
  apply (parse_iff _ _ _ Hn). exists (as_request o). split; [done|]. split; [by rewrite Hk|]. split; [done|].
  intros f Hf. destruct (Forall2_elem_of_l _ _ _ _ H Hf) as ([k c] & Hin & H1 & H2 & H3 & H4). cbn [fst snd] in *. subst k.
  assert (Hg : dget (f_name f) (as_request o) = Some (cf_value c)).
  { apply dget_nodup_in; [by rewrite Hk|]. unfold as_request. apply elem_of_list_fmap. by exists (f_name f, c). }
  exists (cf_value c). split; [done|]. unfold given. rewrite Hg. by apply validate_spec.
Qed.
Lemma client_server_agree (fs : list (field V)) : NoDup (names fs) -> Forall (declared float_of) fs ->
  exists o, options_from_spec float_of (get_specification fs) = Some o /\
  forall l, let req := as_request (osets float_of l o) in parse_options float_of fs (JObj req) = Some req /\ map fst req = names fs.
Proof.
  intros Hn Hd. destruct (options_built fs Hn Hd) as (o & Ho & Hm). exists o. split; [done|]. intros l req.
  pose proof (osets_mirrors fs l o Hn Hm) as H. split; [by apply request_kept|]. unfold req, as_request. rewrite map_map. cbn. rewrite <- (mirrors_keys _ _ H). done.
Qed.
(** An assignment the server would refuse is refused by the client, and one it
    would accept is stored as the server would store it. *)
Lemma client_set (fs : list (field V)) o l k x (f : field V) : NoDup (names fs) -> Forall (declared float_of) fs -> options_from_spec float_of (get_specification fs) = Some o ->
  f ∈ fs -> f_name f = k ->
  match oset float_of k x (osets float_of l o) with
  | Some o' => exists v, validate (f_kind f) x = Some v /\ dget k (as_request o') = Some v
  | None => validate (f_kind f) x = None
  end.
Proof.
  intros Hn Hd Ho Hf <-. destruct (options_built fs Hn Hd) as (o2 & Ho2 & Hm). rewrite Ho in Ho2. injection Ho2 as <-.
  pose proof (osets_mirrors fs l o Hn Hm) as H. set (o' := osets float_of l o) in *.
  destruct (Forall2_elem_of_l _ _ _ _ H Hf) as ([k c] & Hin & H1 & H2 & H3 & H4). cbn [fst snd] in *. subst k.
  assert (Hg : dget (f_name f) o' = Some c).
  { apply dget_nodup_in; [|done]. by rewrite (mirrors_keys _ _ H). }
  unfold oset. rewrite Hg. cbn [mbind option_bind]. rewrite H3. destruct (validate (f_kind f) x) as [v|]; cbn [mbind option_bind]; [|done].
  exists v. split; [done|].
  assert (HD : forall (d : coptions) key c', dget key (as_request (dset key c' d)) = Some (cf_value c')).
  { induction d as [|[k0 c0] d IH]; intros key c'; cbn [dset as_request map fst snd dget]; [by rewrite decide_True|].
    destruct (decide (key = k0)) as [->|Hne]; cbn [map fst snd dget]; [by rewrite decide_True|]. rewrite decide_False by done. apply IH. }
  apply HD.
Qed.

(** C43. *)
Lemma transform_means k v w : transform J k v = Some w <-> means J k v w.
Proof.
  destruct k as [| | | |opts|]; cbn [transform means]; try (split; [by intros [= <-]|by intros ->]).
  split; [destruct v; try done; eauto|]. by intros (s & -> & H).
Qed.
Definition tentry (opts : list (bytes * json)) (f : field V) : option (bytes * V) :=
  v ← transform J (f_kind f) (default (f_default f) (dget (f_name f) opts)); Some (f_target f, v).
Lemma tentry_key opts f kv : tentry opts f = Some kv -> fst kv = f_target f.
Proof. unfold tentry. destruct (transform _ _ _); [|done]. by intros [= <-]. Qed.
Lemma transform_total k v : fits k v -> exists w, transform J k v = Some w.
Proof.
  intros Hf. inversion Hf as [| | | |? s w Hin|]; subst; cbn [transform]; eauto.
  destruct (proj2 (dget_some_in s opts)) as [w' ->]; [|eauto]. apply elem_of_list_fmap. by exists (s, w).
Qed.
Lemma make_config_spec traits (dflt : bytes -> V) coerce ov conf : make_config traits dflt coerce ov = Some conf ->
  map fst conf = traits /\
  (NoDup traits -> forall k, k ∈ traits -> match dget k ov with
     | Some w => exists x, coerce k w = Some x /\ dget k conf = Some x
     | None => dget k conf = Some (dflt k)
     end).
Proof.
  intros Hc. unfold make_config in Hc. apply mapM_Some in Hc.
  assert (Hck : map fst conf = traits).
  { clear -Hc. induction Hc as [|t kv ts cs H _ IH]; [done|]. cbn. rewrite IH. f_equal.
    destruct (dget t ov) as [v|]; [destruct (coerce t v); [|done]|]; cbn in H; by injection H as <-. }
  split; [done|]. intros Hn k Hk. destruct (Forall2_elem_of_l _ _ _ _ Hc Hk) as ([t x] & Hin & He).
  destruct (dget k ov) as [w|].
  - destruct (coerce k w) as [x'|]; [|done]. cbn in He. injection He as <- <-. exists x'. split; [done|]. apply dget_nodup_in; [by rewrite Hck|done].
  - cbn in He. injection He as <- <-. apply dget_nodup_in; [by rewrite Hck|done].
Qed.
Lemma process_spec {U} traits dflt coerce (fs : list (field V)) (u : U) j opts conf :
  NoDup (names fs) -> NoDup (targets fs) -> NoDup traits ->
  process float_of J traits dflt coerce None fs u j = Some (opts, conf) ->
  parse_options float_of fs j = Some opts /\ map fst conf = traits /\
  (forall f, f ∈ fs -> f_target f ∈ traits -> exists v w x, dget (f_name f) opts = Some v /\ means J (f_kind f) v w /\
     coerce (f_target f) w = Some x /\ dget (f_target f) conf = Some x) /\
  (forall t, t ∈ traits -> t ∉ targets fs -> dget t conf = Some (dflt t)).
Proof.
  intros Hn Ht Htr. unfold process. destruct (parse_options float_of fs j) as [opts'|] eqn:Hp; [|done]. cbn [mbind option_bind].
  unfold get_configuration, transform_options. fold (tentry opts').
  destruct (mapM (tentry opts') fs) as [vs|] eqn:Hm; [|done]. cbn [mbind option_bind].
  assert (Hvk : map fst vs = targets fs) by exact (mapM_keys _ f_target _ _ (tentry_key opts') Hm).
  rewrite foldl_dset by (cbn [app]; by rewrite Hvk). cbn [app].
  destruct (make_config traits dflt coerce vs) as [conf'|] eqn:Hc; [|done]. cbn [mbind option_bind]. intros [= -> ->].
  split; [done|]. unfold make_config in Hc. apply mapM_Some in Hc.
  assert (Hck : map fst conf = traits).
  { clear -Hc. induction Hc as [|t kv ts cs H _ IH]; [done|]. cbn. rewrite IH. f_equal.
    destruct (dget t vs); [destruct (coerce t v); [|done]|]; cbn in H; by injection H as <-. }
  split; [done|]. split.
  - intros f Hf Hft. apply (parse_iff _ _ _ Hn) in Hp as (r & _ & _ & _ & Hv). destruct (Hv f Hf) as (v & Hg & _).
    apply mapM_Some in Hm. destruct (Forall2_elem_of_l _ _ _ _ Hm Hf) as ([k w] & Hin & He). unfold tentry in He. rewrite Hg in He.
    cbn [from_option default] in He. unfold Datatypes.id in He. destruct (transform J (f_kind f) v) as [w'|] eqn:Hw; [|done]. cbn in He. injection He as <- <-.
    assert (Hgv : dget (f_target f) vs = Some w') by (apply dget_nodup_in; [by rewrite Hvk|done]).
    destruct (Forall2_elem_of_l _ _ _ _ Hc Hft) as ([t x] & Hin' & He). rewrite Hgv in He. destruct (coerce (f_target f) w') as [x'|] eqn:Hco; [|done].
    cbn in He. injection He as <- <-. exists v, w', x'. split; [done|]. split; [by apply transform_means|]. split; [done|]. apply dget_nodup_in; [by rewrite Hck|done].
  - intros t Hin Hnt. destruct (Forall2_elem_of_l _ _ _ _ Hc Hin) as ([t' x] & Hin' & He).
    destruct (dget t vs) as [w|] eqn:Hg.
    + exfalso. apply Hnt. rewrite <- Hvk. apply dget_some_in. eauto.
    + cbn in He. injection He as <- <-. apply dget_nodup_in; [by rewrite Hck|done].
Qed.
(** With a handler the overrides are its result on the declared options. *)
Lemma process_handler {U} traits dflt coerce (fs : list (field V)) (u : U) (h : list (bytes * V) -> U -> option (list (bytes * V))) j opts conf :
  NoDup (names fs) -> NoDup (targets fs) ->
  process float_of J traits dflt coerce (Some h) fs u j = Some (opts, conf) ->
  parse_options float_of fs j = Some opts /\
  exists t ov, h t u = Some ov /\ map fst t = targets fs /\
    (forall f, f ∈ fs -> exists v w, dget (f_name f) opts = Some v /\ means J (f_kind f) v w /\ dget (f_target f) t = Some w) /\
    map fst conf = traits /\
    (NoDup traits -> forall k, k ∈ traits -> match dget k ov with
       | Some w => exists x, coerce k w = Some x /\ dget k conf = Some x
       | None => dget k conf = Some (dflt k)
       end).
Proof.
  intros Hn Ht. unfold process. destruct (parse_options float_of fs j) as [opts'|] eqn:Hp; [|done]. cbn [mbind option_bind].
  unfold get_configuration, transform_options. fold (tentry opts').
  destruct (mapM (tentry opts') fs) as [vs|] eqn:Hm; [|done]. cbn [mbind option_bind].
  assert (Hvk : map fst vs = targets fs) by exact (mapM_keys _ f_target _ _ (tentry_key opts') Hm).
  rewrite foldl_dset by (cbn [app]; by rewrite Hvk). cbn [app].
  destruct (h vs u) as [ov|] eqn:Hh; [|done]. cbn [mbind option_bind].
  destruct (make_config traits dflt coerce ov) as [conf'|] eqn:Hc; [|done]. cbn [mbind option_bind]. intros [= -> ->].
  split; [done|]. exists vs, ov. split; [done|]. split; [done|]. split; [|by apply make_config_spec].
  intros f Hf. apply (parse_iff _ _ _ Hn) in Hp as (r & _ & _ & _ & Hv). destruct (Hv f Hf) as (v & Hg & _).
  apply mapM_Some in Hm. destruct (Forall2_elem_of_l _ _ _ _ Hm Hf) as ([k w] & Hin & He). unfold tentry in He. rewrite Hg in He.
  cbn [from_option default] in He. unfold Datatypes.id in He. destruct (transform J (f_kind f) v) as [w'|] eqn:Hw; [|done]. cbn in He. injection He as <- <-.
  exists v, w'. split; [done|]. split; [by apply transform_means|]. apply dget_nodup_in; [by rewrite Hvk|done].
Qed.
Lemma undeclared_refused {U} traits dflt coerce handler (fs : list (field V)) (u : U) r k : k ∈ map fst r -> k ∉ names fs ->
  process float_of J traits dflt coerce handler fs u (JObj r) = None.
Proof.
  intros Hk Hn. unfold process, parse_options.
  destruct (forallb _ _) eqn:E; [|done]. exfalso. rewrite forallb_forall in E. specialize (E k).
  apply Hn. apply (bool_decide_eq_true (k ∈ map f_name fs)). apply E. by apply elem_of_list_In.
Qed.
(** Processing an accepted request fails only in the handler or in the
    configuration class. *)
Lemma transform_ok {U} (fs : list (field V)) j opts (u : U) : NoDup (names fs) -> parse_options float_of fs j = Some opts ->
  exists ov, get_configuration J None fs opts u = Some ov.
Proof.
  intros Hn Hp. unfold get_configuration, transform_options. fold (tentry opts).
  assert (exists vs, mapM (tentry opts) fs = Some vs) as [vs ->]; [|eauto].
  apply (parse_iff _ _ _ Hn) in Hp as (r & _ & _ & _ & Hv). clear Hn. induction fs as [|f fs IH]; [by exists []|].
  destruct IH as [vs Hvs]; [intros g Hg; apply Hv; by right|]. destruct (Hv f) as (v & Hg & Hf & _); [left|].
  destruct (transform_total _ _ Hf) as [w Hw]. exists ((f_target f, w) :: vs). cbn [mapM].
  assert (tentry opts f = Some (f_target f, w)) as -> by (unfold tentry; rewrite Hg; cbn [from_option]; unfold Datatypes.id; by rewrite Hw).
  cbn [mbind option_bind]. by rewrite Hvs.
Qed.

(** * The choices of a Select. *)
Lemma options_map_get (opts : list (bytes * V)) d s w : dget s (foldl (fun d kv => dset (fst kv) (snd kv) d) d opts) = Some w <->
  (exists l1 l2, opts = l1 ++ (s, w) :: l2 /\ s ∉ map fst l2) \/ (s ∉ map fst opts /\ dget s d = Some w).
Proof.
  revert d. induction opts as [|[k v] opts IH]; intros d; cbn [foldl map fst snd].
  { split; [intros H; right; split; [apply not_elem_of_nil|done]|]. intros [(l1 & l2 & H & _)|[_ H]]; [by destruct l1|done]. }
  rewrite IH, dget_dset, not_elem_of_cons. split.
  - intros [(l1 & l2 & -> & H)|[H1 H2]]; [left; by exists ((k, v) :: l1), l2|]. destruct (decide (s = k)) as [->|Hn]; [injection H2 as ->; left; by exists [], opts|by right].
  - intros [([|x l1] & l2 & E & H)|[[H1 H3] H2]].
    + injection E as -> -> ->. right. split; [done|]. by rewrite decide_True.
    + injection E as _ ->. left. by exists l1, l2.
    + right. split; [done|]. by rewrite decide_False.
Qed.
Lemma select_value name target opts d (f : field V) s w : make float_of name target (DSelect opts d) = Some f ->
  (validate (f_kind f) (JStr s) = Some (JStr s) /\ transform J (f_kind f) (JStr s) = Some w) <-> exists l1 l2, opts = l1 ++ (s, w) :: l2 /\ s ∉ map fst l2.
Proof.
  unfold make, checked. intros H. assert (Hk : f_kind f = KSelect (options_map opts)).
  { destruct (options_map opts) as [|[k0 v0] om]; [done|]. destruct (Options_Model.validate _ _ _); [|done]. by injection H as <-. }
  rewrite Hk. cbn [Options_Model.validate transform]. unfold options_map at 2. pose proof (options_map_get opts [] s w) as HG. cbn [dget] in HG.
  split.
  - intros [_ Hw]. apply HG in Hw as [?|[_ ?]]; done.
  - intros HX. assert (Hw : dget s (options_map opts) = Some w) by (apply HG; by left). rewrite Hw. split; [done|]. exact Hw.
Qed.
End proofs.
