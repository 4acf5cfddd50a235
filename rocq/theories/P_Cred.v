(** Properties C60 and C75: credentials in the database, and the keys they are encrypted
    with. *)
From Coq Require Import ZArith String Lia.
From stdpp Require Import base numbers list.
From Verif Require Import Cred_Model Cred_Spec Cred_Proofs.
Open Scope Z_scope.

(** What was stored for a cluster is read back unchanged, by a gateway that still has the
    key that was the first one at the time of writing. *)
Theorem C60_read_back : forall F mem k ks rs r1 r2 cert_der key_der token row, authenticated F -> binary cert_der -> binary key_der ->
  let '(cert, key) := new_keypair cert_der key_der in
  store F mem (k :: ks) r1 r2 cert key token = Some row -> k ∈ rs -> load F mem rs row = Some (cert, key, token).
Proof.
  intros F mem k ks rs r1 r2 cd kd token row HF Hc Hk. unfold new_keypair. intros Hs Hin.
  assert (Nc : no_sep (pem "CERTIFICATE" cd)) by (apply pem_no_sep; [apply (bool_decide_unpack _); vm_compute; exact I|done]).
  assert (Nk : no_sep (pem "PRIVATE KEY" kd)) by (apply pem_no_sep; [apply (bool_decide_unpack _); vm_compute; exact I|done]).
  revert Hs. generalize dependent (pem "CERTIFICATE" cd). generalize dependent (pem "PRIVATE KEY" kd). intros key Nk cert Nc Hs.
  unfold store, encrypt in Hs. unfold load, decrypt. destruct mem; injection Hs as <-; cbn [fst snd].
  - by rewrite split_cons, split_one.
  - rewrite !try_keys_ok by done. by rewrite split_cons, split_one.
Qed.
Print Assumptions C60_read_back.
(** Storing succeeds, with a key or in memory. *)
Theorem C60_stored : forall F mem keys r1 r2 cert key token, mem = true \/ keys <> [] -> exists row, store F mem keys r1 r2 cert key token = Some row.
Proof. intros F mem keys r1 r2 cert key token H. unfold store, encrypt. destruct mem; [by eexists|]. destruct keys; [by destruct H|by eexists]. Qed.
Print Assumptions C60_stored.
(** Without that key nothing is read, rather than something else. *)
Theorem C60_no_key : forall F k ks rs r1 r2 cert key token row, authenticated F -> store F false (k :: ks) r1 r2 cert key token = Some row -> k ∉ rs -> load F false rs row = None.
Proof.
  intros F k ks rs r1 r2 cert key token row HF Hs Hn. unfold store, encrypt in Hs. injection Hs as <-. unfold load, decrypt. cbn [fst snd]. by rewrite try_keys_none.
Qed.
Print Assumptions C60_no_key.
(** Some cipher meets the assumption (it only authenticates). *)
Definition tag_cipher : cipher := Cipher
  (fun k _ b => Z.of_nat (length k) :: k ++ b)
  (fun k t => match t with n :: t => if decide (n = Z.of_nat (length k) /\ take (length k) t = k) then Some (drop (length k) t) else None | [] => None end).
Lemma tag_cipher_ok : authenticated tag_cipher.
Proof.
  split.
  - intros k r b. cbn. rewrite take_app. rewrite decide_True by done. by rewrite drop_app.
  - intros k k' r b Hn. cbn. rewrite decide_False; [done|]. intros [El Et]. apply Hn. assert (length k = length k') as El' by lia. rewrite <- El' in Et. by rewrite take_app in Et.
Qed.
(** Key rotation: written with [8], read with [9; 8]. *)
Example C60_example : let '(cert, key) := new_keypair (map Z.of_nat (seq 0 100)) (map Z.of_nat (seq 50 200)) in
  exists row, store tag_cipher false [[8]; [7]] 1 2 cert key (s_ "abc") = Some row /\ load tag_cipher false [[9]; [8]] row = Some (cert, key, s_ "abc") /\ length cert = 193%nat.
Proof. eexists. split; [vm_compute; reflexivity|]. split; vm_compute; reflexivity. Qed.
(** The separator matters: credentials of another form would not be read back. *)
Example C60_separator : exists row, store tag_cipher false [[8]] 1 2 [59] [1] [2] = Some row /\ load tag_cipher false [[8]] row = None.
Proof. eexists. split; vm_compute; reflexivity. Qed.

(** A key may be given raw or in either base64 alphabet; all denote the same key. *)
Theorem C75_notation : forall x x' k, denotes x k -> denotes x' k -> exists y, normalize x = Some y /\ normalize x' = Some y.
Proof. intros x x' k H H'. exists (b64 true k). split; by apply normalize_notation. Qed.
Print Assumptions C75_notation.
(** Different keys stay different. *)
Theorem C75_distinct : forall x x' k k' y, denotes x k -> denotes x' k' -> normalize x = Some y -> normalize x' = Some y -> k = k'.
Proof.
  intros x x' k k' y H H' Hy Hy'. rewrite (normalize_notation x k H) in Hy. rewrite (normalize_notation x' k' H') in Hy'. injection Hy as <-. injection Hy' as E.
  apply (f_equal b64dec) in E. rewrite !b64dec_b64 in E by (by apply H || by apply H'). congruence.
Qed.
Print Assumptions C75_distinct.
(** Nothing but 32 bytes, or 43 characters of the alphabets and one =, is accepted. *)
Theorem C75_refused : forall x y, binary x -> normalize x = Some y -> (exists k, raw_key k /\ y = b64 true k) /\ (length x = 32%nat \/ exists l, x = l ++ [61] /\ length l = 43%nat /\ Forall letter l).
Proof.
  intros x y Hx H. destruct (normalize_some x y Hx H) as (k & Hk & -> & Hc). split; [by exists k|]. destruct Hc as [->|[Hl Hd]]; [left; apply Hk|right].
  destruct (dec_exact x 0 0 k) as (l & -> & Hf); [lia|done| | |].
  - destruct Hk as [_ ->]. done.
  - destruct Hk as [_ ->]. rewrite Hl. done.
  - exists l. split_and!; [done| |done]. rewrite app_length in Hl. cbn in Hl. lia.
Qed.
Print Assumptions C75_refused.
(** The keys in the environment variable, whatever blanks surround them, are the keys
    used; traitlets' second validation changes nothing. *)
Lemma b64_noblank url k : binary k -> Forall (fun c => blank c = false) (b64 url k) /\ no_sep (b64 url k).
Proof.
  intros H. pose proof (b64_chars url k H) as K. split.
  - eapply Forall_impl; [exact K|]. intros c Hc. unfold letter in Hc. unfold blank. apply orb_false_iff. rewrite Z.eqb_neq, andb_false_iff, !Z.leb_gt. lia.
  - intros Hi. rewrite Forall_forall in K. specialize (K _ Hi). unfold letter in K. lia.
Qed.
Lemma blanks_no_sep a : blanks a -> no_sep a.
Proof. intros H Hi. unfold blanks in H. rewrite Forall_forall in H. by specialize (H _ Hi). Qed.
Lemma split_joined l : l <> [] -> Forall (fun p => no_sep (fst (fst p)) /\ no_sep (snd (fst p)) /\ no_sep (snd p)) l -> split (joined l) = map (fun p => fst (fst p) ++ snd (fst p) ++ snd p) l.
Proof.
  intros Hn Hf. induction Hf as [|[[a k] b] l (H1 & H2 & H3) _ IH]; [done|]. cbn [fst snd] in *. assert (Hs : no_sep (a ++ k ++ b)) by (unfold no_sep in *; rewrite !not_elem_of_app; done).
  destruct l as [|p l]; [cbn [joined map fst snd]; by rewrite split_one|]. assert (E : joined ((a, k, b) :: p :: l) = (a ++ k ++ b) ++ 59 :: joined (p :: l)) by (cbn [joined]; by rewrite <- !app_assoc).
  rewrite E, split_cons by done. rewrite IH by done. done.
Qed.
Lemma validate_all mem xs ks : xs <> [] -> Forall2 (fun x k => normalize x = Some (b64 true k)) xs ks -> validate mem xs = Some (map (b64 true) ks).
Proof. intros Hn H. unfold validate. destruct xs; [done|]. apply mapM_Some. by apply Forall2_fmap_r. Qed.
Theorem C75_environment : forall mem (l : list (bytes * (bool * bytes) * bytes)), l <> [] ->
  Forall (fun p => let '(a, (_, k), b) := p in blanks a /\ raw_key k /\ blanks b) l ->
  env_keys mem (joined (map (fun p => let '(a, (url, k), b) := p in (a, b64 url k, b)) l)) = Some (map (fun p => let '(_, (_, k), _) := p in b64 true k) l).
Proof.
  intros mem l Hn Hf. unfold env_keys. rewrite split_joined.
  - rewrite !map_map. assert (E : map (fun p => strip (fst (fst (let '(a, (url, k), b) := p in (a, b64 url k, b))) ++ snd (fst (let '(a, (url, k), b) := p in (a, b64 url k, b))) ++ snd (let '(a, (url, k), b) := p in (a, b64 url k, b)))) l
                          = map (fun p => let '(_, (url, k), _) := p in b64 url k) l).
    { apply map_ext_in. intros [[a [url k]] b] Hi. apply elem_of_list_In in Hi. rewrite Forall_forall in Hf. destruct (Hf _ Hi) as (Ha & [Hk Hl] & Hb). cbn [fst snd]. apply strip_key; [done|done| |by apply b64_noblank].
      intros E. apply (f_equal length) in E. rewrite b64_length, Hl in E. done. }
    cbn [fst snd] in E |- *. rewrite E. clear E.
    assert (E : List.filter (fun k => match k with [] => false | _ => true end) (map (fun p : bytes * (bool * bytes) * bytes => let '(_, (url, k), _) := p in b64 url k) l) = map (fun p => let '(_, (url, k), _) := p in b64 url k) l).
    { clear Hn. induction Hf as [|[[a [url k]] b] l (Ha & [Hk Hl] & Hb) _ IH]; [done|]. cbn [map List.filter]. destruct (b64 url k) eqn:E; [|by rewrite IH]. apply (f_equal length) in E. rewrite b64_length, Hl in E. done. }
    rewrite E. clear E.
    assert (V : forall f : bytes * (bool * bytes) * bytes -> bool, validate mem (map (fun p => b64 (f p) (snd (snd (fst p)))) l) = Some (map (b64 true) (map (fun p => snd (snd (fst p))) l))).
    { intros f. apply validate_all; [by destruct l|]. apply Forall2_fmap_l, Forall2_fmap_r, Forall_Forall2_diag. eapply Forall_impl; [exact Hf|]. intros [[a [url k]] b] (Ha & Hk & Hb). cbn. apply normalize_notation. split; [done|]. destruct (f _); tauto. }
    assert (E1 : map (fun p : bytes * (bool * bytes) * bytes => let '(_, (url, k), _) := p in b64 url k) l = map (fun p => b64 (fst (snd (fst p))) (snd (snd (fst p)))) l) by (apply map_ext; by intros [[a [url k]] b]).
    rewrite E1, V, map_map. rewrite (V (fun _ => true)), map_map. f_equal. apply map_ext. by intros [[a [url k]] b].
  - by destruct l.
  - apply Forall_fmap. eapply Forall_impl; [exact Hf|]. intros [[a [url k]] b] (Ha & [Hk Hl] & Hb). cbn. split_and!; [by apply blanks_no_sep|by apply b64_noblank|by apply blanks_no_sep].
Qed.
Print Assumptions C75_environment.
(** A database outside of memory needs a key, and one that cannot be used is never passed
    over. *)
Theorem C75_required : forall keys, validate false keys = None <-> keys = [] \/ exists x, x ∈ keys /\ normalize x = None.
Proof.
  intros keys. unfold validate. destruct keys as [|x0 keys0]; [split; [by left|done]|]. set (keys := x0 :: keys0). split.
  - intros H. right. destruct (decide (Exists (fun x => normalize x = None) keys)) as [E|E]; [by apply Exists_exists in E|]. exfalso. apply not_Exists_Forall in E; [|intros x; apply _].
    destruct (mapM_is_Some_2 normalize keys) as [l Hl]; [|congruence]. eapply Forall_impl; [exact E|]. intros x Hx. by apply not_eq_None_Some.
  - intros [?|(x & Hi & Hx)]; [done|]. destruct (mapM normalize keys) as [l|] eqn:E; [|done]. exfalso. apply mapM_Some_1 in E. apply elem_of_list_lookup in Hi as (i & Hi).
    destruct (Forall2_lookup_l _ _ _ _ _ E Hi) as (y & _ & Hy). congruence.
Qed.
Print Assumptions C75_required.
Example C75_example : env_keys false (s_ " AAECAwQFBgcICQoLDA0ODxAREhMUFRYXGBkaGxwdHv8= ; ;/////////////////////////////////////////w8=") =
  Some [s_ "AAECAwQFBgcICQoLDA0ODxAREhMUFRYXGBkaGxwdHv8="; s_ "_________________________________________w8="] /\ env_keys false (s_ " ;") = None /\ env_keys false (s_ "secret") = None.
Proof. split_and!; vm_compute; reflexivity. Qed.
