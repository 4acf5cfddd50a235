(** Property C160: an Options object in use.  [fs] are the fields an operator
    declared, [o] the object the client builds from them, [us] whatever a program
    did with it before. *)
From Coq Require Import Ascii String ZArith QArith Qcanon.
From stdpp Require Import prelude.
From Verif Require Import Router_Model ProxyLog_Model Json_Model Options_Model Options_Spec Options_Proofs P_Options Choose_Model Choose_Proofs Access_Model Access_Proofs.

Definition ac_own (k : bytes) : bool := bool_decide (k ∈ [b_ "get"; b_ "keys"; b_ "items"; b_ "values"; b_ "pop"; b_ "popitem"; b_ "clear"; b_ "update"; b_ "setdefault"]).
Definition ac_uses : list use :=
  [SetAttr (b_ "cores") (JInt 4); SetItem (b_ "cores") (JInt 99); Pop (b_ "cores") None; Clear; SetDefault (b_ "size") JNull;
   Update [(b_ "image", JStr (b_ "mine")); (b_ "nothing", JNull); (b_ "debug", JBool true)]].

(** Whatever is done, the object has exactly the options the server offers, with
    values the server takes as they are. *)
Theorem C160_sound float_of own {V} (fs : list (field V)) o us : NoDup (names fs) -> Forall (declared float_of) fs ->
  options_from_spec float_of (get_specification fs) = Some o ->
  let now := performs float_of own us o in
  parse_options float_of fs (JObj (as_request now)) = Some (as_request now) /\
  perform float_of own Iter now = (now, Names (names fs)) /\ perform float_of own Len now = (now, Count (length fs)).
Proof.
  intros Hn Hd Ho now. destruct (performs_osets float_of own us o) as [l Hl]. destruct (options_built float_of fs Hn Hd) as (o' & Ho' & Hm0).
  rewrite Ho in Ho'. injection Ho' as <-. pose proof (osets_mirrors float_of fs l o Hn Hm0) as Hm. rewrite <- Hl in Hm. fold now in Hm.
  split; [by apply request_kept|]. cbn [perform]. rewrite (mirrors_keys _ _ _ Hm). split; [done|]. by rewrite (Forall2_length _ _ _ Hm).
Qed.
Example C160_sound_ex : exists o, options_from_spec ex_float (get_specification ex_fs) = Some o /\
  let now := performs ex_float ac_own ac_uses o in
  perform ex_float ac_own (GetItem (b_ "cores")) now = (now, Value (JInt 4)) /\ perform ex_float ac_own (GetAttr (b_ "image")) now = (now, Value (JStr (b_ "mine"))) /\
  perform ex_float ac_own (GetItem (b_ "debug")) now = (now, Value (JBool false)).
Proof. eexists. split; [by vm_compute|]. by vm_compute. Qed.

(** Setting an option, by key or by attribute, works exactly for the values the
    server accepts; the value read then is the one the server would use, and no
    other option changes. *)
Theorem C160_set float_of own {V} (fs : list (field V)) o us f x : NoDup (names fs) -> Forall (declared float_of) fs ->
  options_from_spec float_of (get_specification fs) = Some o -> f ∈ fs ->
  let now := performs float_of own us o in
  perform float_of own (SetAttr (f_name f) x) now = perform float_of own (SetItem (f_name f) x) now /\
  match validate float_of (f_kind f) x with
  | None => perform float_of own (SetItem (f_name f) x) now = (now, Invalid)
  | Some v => exists then_, perform float_of own (SetItem (f_name f) x) now = (then_, Nothing) /\
      snd (perform float_of own (GetItem (f_name f)) then_) = Value v /\
      forall k, k <> f_name f -> snd (perform float_of own (GetItem k) then_) = snd (perform float_of own (GetItem k) now)
  end.
Proof.
  intros Hn Hd Ho Hf now. destruct (performs_osets float_of own us o) as [l Hl]. destruct (options_built float_of fs Hn Hd) as (o' & Ho' & Hm0).
  rewrite Ho in Ho'. injection Ho' as <-. pose proof (osets_mirrors float_of fs l o Hn Hm0) as Hm. rewrite <- Hl in Hm. fold now in Hm.
  destruct (Forall2_elem_of_l _ _ _ _ Hm Hf) as ([k c] & Hin & H1 & H2 & H3 & H4). cbn [fst snd] in *. subst k.
  assert (Hg : dget (f_name f) now = Some c) by (apply dget_nodup_in; [by rewrite (mirrors_keys _ _ _ Hm)|done]).
  cbn [perform]. unfold set_field. rewrite Hg, H3. split; [done|]. destruct (validate float_of (f_kind f) x) as [v|]; [|done].
  eexists. split; [done|]. cbn [perform snd]. unfold get_field. split; [by rewrite dget_dset', decide_True|].
  intros k Hk. by rewrite dget_dset', decide_False.
Qed.
Example C160_set_ex : exists o f, options_from_spec ex_float (get_specification ex_fs) = Some o /\ f ∈ ex_fs /\ f_name f = b_ "mem" /\
  validate ex_float (f_kind f) (JInt 3) = Some (JFloat (of_Z 3)) /\ validate ex_float (f_kind f) (JInt 0) = None.
Proof. eexists _, _. split; [by vm_compute|]. split; [do 3 right; left|]. by vm_compute. Qed.

(** An option is read the same by attribute as by key, unless the class has an
    attribute of that name; reading changes nothing. *)
Theorem C160_read float_of own o k : own k = false ->
  fst (perform float_of own (GetAttr k) o) = o /\ fst (perform float_of own (GetItem k) o) = o /\
  match dget k (as_request o) with
  | Some v => snd (perform float_of own (GetAttr k) o) = Value v /\ snd (perform float_of own (GetItem k) o) = Value v
  | None => snd (perform float_of own (GetAttr k) o) = AttrErr /\ snd (perform float_of own (GetItem k) o) = KeyErr
  end.
Proof.
  intros Hk. cbn [perform fst snd]. rewrite Hk. split; [done|]. split; [done|]. unfold get_field.
  assert (dget k (as_request o) = cf_value <$> dget k o) as ->; [|by destruct (dget k o)].
  unfold as_request. induction o as [|[k0 c0] o IH]; [done|]. cbn [map fst snd dget]. by destruct (decide (k = k0)).
Qed.
Example C160_read_ex : ac_own (b_ "cores") = false. Proof. by vm_compute. Qed.

(** What raises changes nothing, except update; update does what comes before the
    first assignment that is refused, and nothing after it. *)
Theorem C160_raised float_of own o u : (forall l, u <> Update l) -> raised (snd (perform float_of own u o)) = true -> fst (perform float_of own u o) = o.
Proof. apply raised_same. Qed.
Theorem C160_update float_of own o l o' a : perform float_of own (Update l) o = (o', a) ->
  (raised a = false -> o' = performs float_of own (map (fun kx => SetItem (fst kx) (snd kx)) l) o) /\
  (raised a = true -> exists l1 k x l2, l = l1 ++ (k, x) :: l2 /\ o' = performs float_of own (map (fun kx => SetItem (fst kx) (snd kx)) l1) o /\
     raised (snd (perform float_of own (SetItem k x) o')) = true /\ perform float_of own (Update l1) o = (o', Nothing)).
Proof.
  assert (HP : forall l o, performs float_of own (map (fun kx => SetItem (fst kx) (snd kx)) l) o = osets float_of l o).
  { clear. induction l as [|[k x] l IH]; intros o; [done|]. cbn [map performs fst snd perform]. rewrite IH, set_field_osets by done. done. }
  cbn [perform]. intros Hu. pose proof (update_all_spec float_of l o) as H. rewrite Hu in H. destruct (oupdate float_of l o) as [o2|] eqn:E.
  - destruct H as [-> ->]. split; [|done]. intros _. rewrite HP. by apply oupdate_osets.
  - destruct H as (Ha & l1 & k & x & l2 & -> & H1 & H2). rewrite Ha. split; [done|]. intros _. exists l1, k, x, l2. split; [done|].
    rewrite HP. split; [by apply oupdate_osets|]. split.
    + pose proof (set_field_oset float_of KeyErr k x o' eq_refl) as Hs. rewrite H2 in Hs. by destruct Hs as (a' & -> & Ha').
    + pose proof (update_all_spec float_of l1 o) as Hs. rewrite H1 in Hs. destruct (update_all float_of l1 o) as [o3 a3]. by destruct Hs as [-> ->].
Qed.
Example C160_raised_ex : exists o, options_from_spec ex_float (get_specification ex_fs) = Some o /\
  snd (perform ex_float ac_own Clear o) = TypeErr /\ snd (perform ex_float ac_own (SetAttr (b_ "gpus") JNull) o) = AttrErr /\
  snd (perform ex_float ac_own (Update [(b_ "cores", JInt 2); (b_ "cores", JNull)]) o) = Invalid.
Proof. eexists. split; [by vm_compute|]. by vm_compute. Qed.

(** So update, when it raises, may have changed the object. *)
Theorem C160_update_refuted : exists (fs : list (field json)) o l, NoDup (names fs) /\ Forall (declared ex_float) fs /\
  options_from_spec ex_float (get_specification fs) = Some o /\
  raised (snd (perform ex_float ac_own (Update l) o)) = true /\ as_request (fst (perform ex_float ac_own (Update l) o)) <> as_request o.
Proof.
  exists ex_fs. eexists. exists [(b_ "cores", JInt 2); (b_ "gpus", JInt 1)]. split; [apply ex_nodup|]. split; [apply ex_declared|].
  split; [by vm_compute|]. by vm_compute.
Qed.
(** An option called values can be set, but not read, by attribute. *)
Theorem C160_attribute_refuted : exists (fs : list (field json)) o o', NoDup (names fs) /\ Forall (declared ex_float) fs /\
  options_from_spec ex_float (get_specification fs) = Some o /\
  perform ex_float ac_own (SetAttr (b_ "values") (JBool true)) o = (o', Nothing) /\
  snd (perform ex_float ac_own (GetItem (b_ "values")) o') = Value (JBool true) /\ snd (perform ex_float ac_own (GetAttr (b_ "values")) o') = Method.
Proof.
  exists (ex_make "values" (DBool (JBool false))). eexists _, _. split; [apply (bool_decide_unpack _); vm_compute; exact I|].
  split; [apply Forall_singleton; by exists (b_ "values"), None, (DBool (JBool false))|]. split; [by vm_compute|]. split; [by vm_compute|]. by vm_compute.
Qed.

Print Assumptions C160_sound.
Print Assumptions C160_set.
Print Assumptions C160_read.
Print Assumptions C160_raised.
Print Assumptions C160_update.
Print Assumptions C160_update_refuted.
Print Assumptions C160_attribute_refuted.
