(** Proofs for C105: text and messages. *)
From Coq Require Import Ascii String ZArith NArith Lia.
From stdpp Require Import prelude pretty.
From Verif Require Import Router_Model ProxyLog_Model Manifest_Model Addr_Model Addr_Proofs ProxyCmd_Proofs Wire_Model Wire_Spec.
Local Open Scope N_scope.

(** * Characters. *)
Lemma N_ascii c : c < 256 -> N_of_ascii (ascii_of_N c) = c.
Proof. apply N_ascii_embedding. Qed.
Lemma ascii_ne (a b : ascii) : N_of_ascii a <> N_of_ascii b -> a <> b.
Proof. by intros H ->. Qed.
Lemma small16 (P : N -> Prop) : P 0 -> P 1 -> P 2 -> P 3 -> P 4 -> P 5 -> P 6 -> P 7 -> P 8 -> P 9 -> P 10 -> P 11 -> P 12 -> P 13 -> P 14 -> P 15 -> forall d, d < 16 -> P d.
Proof.
  intros. assert (d = 0 \/ d = 1 \/ d = 2 \/ d = 3 \/ d = 4 \/ d = 5 \/ d = 6 \/ d = 7 \/ d = 8 \/ d = 9 \/ d = 10 \/ d = 11 \/ d = 12 \/ d = 13 \/ d = 14 \/ d = 15) as D by lia.
  repeat destruct D as [->|D]; try done. by subst.
Qed.
Lemma unhex_digit d : d < 16 -> unhex (hexdigit d) = Some d.
Proof. revert d. apply small16; vm_compute; done. Qed.
Lemma unhex_hex4 n : n < 65536 -> unhex4 (hexdigit (n / 4096 mod 16)) (hexdigit (n / 256 mod 16)) (hexdigit (n / 16 mod 16)) (hexdigit (n mod 16)) = Some n.
Proof.
  intros H. unfold unhex4. rewrite !unhex_digit by (apply N.mod_upper_bound; lia). f_equal.
  rewrite (N.mod_small (n / 4096)) by (apply N.div_lt_upper_bound; lia).
  pose proof (N.div_mod n 16 ltac:(lia)) as E1. pose proof (N.div_mod (n / 16) 16 ltac:(lia)) as E2. pose proof (N.div_mod (n / 256) 16 ltac:(lia)) as E3.
  rewrite !N.div_div in * by lia. change (16 * 16) with 256 in *. change (256 * 16) with 4096 in *. lia.
Qed.
Definition printable (c : ascii) : Prop := 32 <= N_of_ascii c <= 126.
Lemma hexdigit_printable d : d < 16 -> printable (hexdigit d).
Proof. revert d. unfold printable. apply small16; vm_compute; split; congruence. Qed.
Lemma esc_printable c : Forall printable (esc c).
Proof.
  assert (U : forall n, Forall printable (u4 n)).
  { intros n. unfold u4, hex4. repeat constructor; try (vm_compute; congruence); apply hexdigit_printable, N.mod_upper_bound; lia. }
  assert (T : forall e, printable e -> Forall printable [bs; e]) by (intros e He; constructor; [split; vm_compute; congruence|by constructor]).
  unfold esc. destruct (c =? 34); [apply T; split; vm_compute; congruence|]. destruct (c =? 92); [apply T; split; vm_compute; congruence|].
  destruct (c =? 10); [apply T; split; vm_compute; congruence|]. destruct (c =? 13); [apply T; split; vm_compute; congruence|].
  destruct (c =? 9); [apply T; split; vm_compute; congruence|]. destruct (c =? 12); [apply T; split; vm_compute; congruence|].
  destruct (c =? 8); [apply T; split; vm_compute; congruence|].
  destruct ((32 <=? c) && (c <=? 126)) eqn:E.
  { constructor; [|done]. unfold printable. apply andb_true_iff in E as [H6 H7]. apply N.leb_le in H6, H7. rewrite N_ascii by lia. lia. }
  destruct (c <? 65536); [apply U|]. apply Forall_app; split; apply U.
Qed.

(** * Strings. *)
Definition u16 (c : N) : text := if c <? 65536 then [c] else [55296 + (c - 65536) / 1024; 56320 + (c - 65536) mod 1024].
Definition app_to (t : text) (r : option (text * bytes)) : option (text * bytes) := match r with Some (t', s) => Some (t ++ t', s) | None => None end.
Lemma units_u4 n r : n < 65536 -> units (u4 n ++ r) = cons_to n (units r).
Proof.
  intros H. unfold u4, hex4. cbn [app units]. rewrite (decide_False (P := bs = dq)) by (vm_compute; congruence). rewrite !decide_True by done.
  by rewrite unhex_hex4.
Qed.
Lemma units_esc2 e n r : e <> "u"%char -> unesc e = Some n -> units ([bs; e] ++ r) = cons_to n (units r).
Proof. intros H1 H2. cbn [app units]. rewrite (decide_False (P := bs = dq)) by (vm_compute; congruence). rewrite decide_True by done. rewrite decide_False by done. by rewrite H2. Qed.
Lemma units_esc c r : c < 1114112 -> units (esc c ++ r) = app_to (u16 c) (units r).
Proof.
  intros Hc. unfold esc, u16.
  destruct (c =? 34) eqn:E1. { apply N.eqb_eq in E1 as ->. rewrite (units_esc2 dq 34); [by destruct (units r) as [[??]|]|vm_compute; congruence|done]. }
  destruct (c =? 92) eqn:E2. { apply N.eqb_eq in E2 as ->. rewrite (units_esc2 bs 92); [by destruct (units r) as [[??]|]|vm_compute; congruence|done]. }
  destruct (c =? 10) eqn:E3. { apply N.eqb_eq in E3 as ->. rewrite (units_esc2 "n"%char 10); [by destruct (units r) as [[??]|]|vm_compute; congruence|done]. }
  destruct (c =? 13) eqn:E4. { apply N.eqb_eq in E4 as ->. rewrite (units_esc2 "r"%char 13); [by destruct (units r) as [[??]|]|vm_compute; congruence|done]. }
  destruct (c =? 9) eqn:E5. { apply N.eqb_eq in E5 as ->. rewrite (units_esc2 "t"%char 9); [by destruct (units r) as [[??]|]|vm_compute; congruence|done]. }
  destruct (c =? 12) eqn:E6. { apply N.eqb_eq in E6 as ->. rewrite (units_esc2 "f"%char 12); [by destruct (units r) as [[??]|]|vm_compute; congruence|done]. }
  destruct (c =? 8) eqn:E7. { apply N.eqb_eq in E7 as ->. rewrite (units_esc2 "b"%char 8); [by destruct (units r) as [[??]|]|vm_compute; congruence|done]. }
  destruct ((32 <=? c) && (c <=? 126)) eqn:E8.
  { apply andb_true_iff in E8 as [H1 H2]. apply N.leb_le in H1, H2. apply N.eqb_neq in E1, E2. cbn [app units].
    rewrite (proj2 (N.ltb_lt c 65536)) by lia.
    rewrite decide_False by (apply ascii_ne; rewrite N_ascii by lia; done). rewrite decide_False by (apply ascii_ne; rewrite N_ascii by lia; done).
    rewrite N_ascii by lia. rewrite (proj2 (N.ltb_ge c 32)), (proj2 (N.leb_gt 128 c)) by lia. cbn [orb]. by destruct (units r) as [[??]|]. }
  destruct (c <? 65536) eqn:E9.
  { apply N.ltb_lt in E9. rewrite units_u4 by done. by destruct (units r) as [[??]|]. }
  apply N.ltb_ge in E9. rewrite <- app_assoc. rewrite units_u4, units_u4.
  - by destruct (units r) as [[??]|].
  - pose proof (N.mod_upper_bound (c - 65536) 1024). lia.
  - assert ((c - 65536) / 1024 < 1024) by (apply N.div_lt_upper_bound; lia). lia.
Qed.
Lemma units_dump s r : is_text s -> units (flat_map esc s ++ dq :: r) = Some (flat_map u16 s, r).
Proof.
  induction 1 as [|c s [Hc _] Hs IH]; cbn [flat_map].
  - cbn [app units]. by rewrite decide_True.
  - rewrite <- app_assoc, units_esc, IH by done. done.
Qed.
Lemma pair_up_text s : is_text s -> pair_up (flat_map u16 s) = s.
Proof.
  induction 1 as [|c s [Hc Hn] Hs IH]; [done|]. cbn [flat_map]. unfold u16 at 1. destruct (c <? 65536) eqn:E.
  - cbn [app]. assert (is_high c = false /\ is_low c = false) as [H1 H2].
    { unfold is_high, is_low. split; apply andb_false_iff.
      - destruct (decide (c < 55296)); [left; apply N.leb_gt; lia|right; apply N.ltb_ge; lia].
      - destruct (decide (c < 56320)); [left; apply N.leb_gt; lia|right; apply N.ltb_ge; lia]. }
    cbn [pair_up]. rewrite H1, H2. cbn [andb orb]. destruct (flat_map u16 s) as [|b l] eqn:El; [by rewrite <- IH|by rewrite IH].
  - apply N.ltb_ge in E. cbn [app pair_up].
    assert ((c - 65536) / 1024 < 1024) by (apply N.div_lt_upper_bound; lia). pose proof (N.mod_upper_bound (c - 65536) 1024 ltac:(lia)).
    pose proof (N.div_mod (c - 65536) 1024 ltac:(lia)) as D. set (x := (c - 65536) / 1024) in *. set (y := (c - 65536) mod 1024) in *. clearbody x y.
    assert (is_high (55296 + x) = true) as -> by (apply andb_true_iff; split; [apply N.leb_le|apply N.ltb_lt]; lia).
    assert (is_low (56320 + y) = true) as -> by (apply andb_true_iff; split; [apply N.leb_le|apply N.ltb_lt]; lia).
    cbn [andb]. rewrite IH. f_equal. lia.
Qed.
Lemma parse_dump s r : is_text s -> parse_str (flat_map esc s ++ dq :: r) = Some (s, r).
Proof. intros H. unfold parse_str. by rewrite units_dump, pair_up_text. Qed.

(** * Numbers. *)
Lemma pretty_head x : 0 < x -> forall s, exists c r, pretty_N_go x s = String c r /\ c <> "0"%char.
Proof.
  induction (N.lt_wf_0 x) as [x _ IH]. intros Hx s. rewrite pretty_N_go_step by done. destruct (decide (x < 10)) as [H|H].
  - rewrite N.div_small by done. rewrite pretty_N_go_0, N.mod_small by done. eexists _, _. split; [done|].
    assert (x = 1 \/ x = 2 \/ x = 3 \/ x = 4 \/ x = 5 \/ x = 6 \/ x = 7 \/ x = 8 \/ x = 9) as D by lia. repeat destruct D as [->|D]; try (vm_compute; congruence). subst. vm_compute. congruence.
  - apply IH; [apply N.div_lt; lia|apply N.div_str_pos; lia].
Qed.
Lemma dec_head z : (0 < z)%Z -> exists c r, dec z = c :: r /\ c <> "0"%char.
Proof.
  intros H. destruct z as [|p|p]; [lia| |lia]. unfold dec. change (pretty (Zpos p)) with (pretty (Npos p)). unfold pretty, pretty_N. rewrite decide_False by done.
  destruct (pretty_head (Npos p) ltac:(done) "") as (c & r & -> & Hc). by exists c, (list_ascii_of_string r).
Qed.
Lemma until_digits l r : forallb is_digit l = true -> match r with c :: _ => is_digit c = false | [] => True end -> digits_of (l ++ r) = (l, r).
Proof.
  intros Hl Hr. unfold digits_of. induction l as [|x l IH]; cbn [app until].
  - destruct r as [|c r]; cbn [until]; [done|]. by rewrite Hr.
  - cbn [forallb] in Hl. apply andb_true_iff in Hl as [H1 H2]. rewrite H1. cbn [negb]. by rewrite IH.
Qed.
(** What follows does not continue a number. *)
Definition ends (r : bytes) : Prop := match r with c :: _ => is_digit c = false | [] => True end.
Lemma parse_num_dec z r : ends r -> parse_num (dec z ++ r) = Some (z, r).
Proof.
  intros Hr. assert (P : forall z, (0 <= z)%Z -> parse_nat (dec z ++ r) = Some (z, r)).
  { intros z' Hz. destruct (decide (z' = 0%Z)) as [->|Hne].
    - cbn. done.
    - destruct (dec_head z' ltac:(lia)) as (c & l & E & Hc). destruct (dec_number z' Hz) as [Hn Hd]. rewrite E in *. cbn [app parse_nat]. rewrite decide_False by done.
      pose proof Hd as Hd'. cbn [forallb] in Hd'. apply andb_true_iff in Hd' as [Hx _]. rewrite Hx.
      change (c :: l ++ r) with ((c :: l) ++ r). rewrite until_digits by done. by rewrite Hn. }
  destruct z as [|p|p].
  - apply (P 0%Z). lia.
  - specialize (P (Zpos p) ltac:(lia)). destruct (dec (Zpos p)) as [|c l] eqn:E; [by apply dec_nonempty in E; [|lia]|]. cbn [app parse_num] in *.
    rewrite decide_False; [done|]. intros ->. assert (is_digit "-"%char = true) as X; [|by vm_compute in X]. apply (dec_digit (Zpos p)); [lia|]. rewrite E. left.
  - rewrite dec_neg. cbn [app parse_num]. rewrite decide_True by done. by rewrite P by lia.
Qed.

(** * Values. *)
Section json_ind.
  Context (P : json -> Prop) (H1 : P JNull) (H2 : forall b, P (JBool b)) (H3 : forall z, P (JNum z)) (H4 : forall s, P (JStr s))
    (H5 : forall l, Forall P l -> P (JArr l)) (H6 : forall l, Forall (fun kv => P (snd kv)) l -> P (JObj l)).
  Fixpoint json_all (v : json) : P v :=
    match v with
    | JNull => H1 | JBool b => H2 b | JNum z => H3 z | JStr s => H4 s
    | JArr l => H5 l ((fix go (l : list json) : Forall P l := match l with [] => Forall_nil_2 _ | v :: l' => Forall_cons_2 _ _ _ (json_all v) (go l') end) l)
    | JObj l => H6 l ((fix go (l : list (text * json)) : Forall (fun kv => P (snd kv)) l := match l with [] => Forall_nil_2 _ | kv :: l' => Forall_cons_2 (fun kv => P (snd kv)) _ _ (json_all (snd kv)) (go l') end) l)
    end.
End json_ind.
Fixpoint json_ok (v : json) : Prop :=
  match v with
  | JStr s => is_text s
  | JArr l => fold_right and True (map json_ok l)
  | JObj l => fold_right and True (map (fun kv => is_text (fst kv) /\ json_ok (snd kv)) l)
  | _ => True
  end.
Lemma join_printable sep l : Forall printable sep -> Forall (Forall printable) l -> Forall printable (join sep l).
Proof.
  intros Hs. induction 1 as [|x l Hx Hl IH]; [constructor|]. cbn [join]. destruct l as [|y l]; [done|]. apply Forall_app. split; [done|]. apply Forall_app. by split.
Qed.
Lemma str_printable s : Forall printable (dump_str s).
Proof.
  unfold dump_str. constructor; [split; vm_compute; congruence|]. apply Forall_app. split; [|constructor; [split; vm_compute; congruence|done]].
  induction s as [|c s IH]; [constructor|]. cbn [flat_map]. apply Forall_app. split; [apply esc_printable|done].
Qed.
Lemma digit_printable c : is_digit c = true -> printable c.
Proof. intros H%code_digit. unfold printable, code, nat_of_ascii in *. lia. Qed.
Ltac const_printable := apply Forall_forall; intros x Hx; repeat (apply elem_of_cons in Hx as [->|Hx]; [split; vm_compute; congruence|]); by apply elem_of_nil in Hx.
Lemma dumps_printable v : Forall printable (dumps v).
Proof.
  induction v as [|b|z|s|l IH|l IH] using json_all; cbn [dumps].
  - const_printable.
  - destruct b; const_printable.
  - assert (N : forall z, (0 <= z)%Z -> Forall printable (dec z)) by (intros x Hx; apply Forall_forall; intros c Hc; by apply digit_printable, (dec_digit x)).
    destruct z as [|p|p]; [by apply N|by apply N|]. rewrite dec_neg. constructor; [split; vm_compute; congruence|]. by apply N.
  - apply str_printable.
  - constructor; [split; vm_compute; congruence|]. apply Forall_app. split; [|const_printable]. apply join_printable; [const_printable|]. apply Forall_fmap. exact IH.
  - constructor; [split; vm_compute; congruence|]. apply Forall_app. split; [|const_printable]. apply join_printable; [const_printable|]. apply Forall_fmap.
    eapply Forall_impl; [exact IH|]. intros [k v] Hv. cbn [fst snd] in *. apply Forall_app. split; [apply str_printable|]. apply Forall_app. split; [const_printable|done].
Qed.
Lemma skip_first c s : is_ws c = false -> skip (c :: s) = c :: s.
Proof. intros H. cbn [skip]. by rewrite H. Qed.
Lemma skip_space s : skip (" "%char :: s) = skip s.
Proof. done. Qed.
(** The first character of a value. *)
Lemma dumps_head v : exists c l, dumps v = c :: l /\ is_ws c = false /\ c <> "]"%char /\ c <> "}"%char /\ (is_digit c = true \/ c ∈ b_ "nft-[{" \/ c = dq).
Proof.
  assert (D : forall c, is_digit c = true -> is_ws c = false /\ c <> "]"%char /\ c <> "}"%char).
  { intros c H%code_digit. unfold code, nat_of_ascii in H. split.
    - unfold is_ws. apply bool_decide_eq_false. intros [->|[->|[->| ->]]]; vm_compute in H; lia.
    - split; intros ->; vm_compute in H; lia. }
  destruct v as [|[]|z|s|l|l]; cbn [dumps].
  1-3: eexists _, _; split; [reflexivity|]; split; [done|]; split; [done|]; split; [done|]; right; left; apply (bool_decide_unpack _); vm_compute; done.
  - destruct (dec z) as [|c l] eqn:E. { exfalso. destruct z as [|p|p]; [done|by apply dec_nonempty in E|by rewrite dec_neg in E]. }
    exists c, l. split; [done|]. destruct (decide (0 <= z)%Z) as [Hz|Hz].
    + assert (is_digit c = true) as Hc by (apply (dec_digit z); [done|rewrite E; left]). destruct (D c Hc) as (H1 & H2 & H3). auto 6.
    + destruct z as [|p|p]; [lia|lia|]. rewrite dec_neg in E. injection E as <- _. split; [done|]. split; [done|]. split; [done|]. right. left. apply (bool_decide_unpack _). vm_compute. done.
  - eexists _, _. split; [reflexivity|]. split; [done|]. split; [done|]. split; [done|]. by right; right.
  - eexists _, _; split; [reflexivity|]; split; [done|]; split; [done|]; split; [done|]; right; left; apply (bool_decide_unpack _); vm_compute; done.
  - eexists _, _; split; [reflexivity|]; split; [done|]; split; [done|]; split; [done|]; right; left; apply (bool_decide_unpack _); vm_compute; done.
Qed.
Lemma skip_dumps v r : skip (dumps v ++ r) = dumps v ++ r.
Proof. destruct (dumps_head v) as (c & l & -> & H & _). cbn [app]. by apply skip_first. Qed.
Lemma value_space n s : value n (" "%char :: s) = value n s.
Proof. by destruct n. Qed.
Lemma elements_space n s : elements n (" "%char :: s) = elements n s.
Proof. destruct n; [done|]. cbn [elements]. by rewrite value_space. Qed.
Lemma members_space n s : members n (" "%char :: s) = members n s.
Proof. by destruct n. Qed.
Lemma lit_app w r : lit w (w ++ r) = Some r.
Proof. induction w as [|a w IH]; [done|]. cbn [app lit]. by rewrite decide_True. Qed.
Lemma value_num n c s : is_digit c = true \/ c = "-"%char -> value (S n) (c :: s) = match parse_num (c :: s) with Some (z, r') => Some (JNum z, r') | None => None end.
Proof.
  intros H. assert (W : is_ws c = false /\ c <> dq /\ c <> "{"%char /\ c <> "["%char /\ c <> "n"%char /\ c <> "t"%char /\ c <> "f"%char).
  { destruct H as [H| ->]; [|split_and!; vm_compute; congruence]. apply code_digit in H. unfold code, nat_of_ascii in H. split.
    - unfold is_ws. apply bool_decide_eq_false. intros [->|[->|[->| ->]]]; vm_compute in H; lia.
    - split_and!; intros ->; vm_compute in H; lia. }
  destruct W as (W1 & W2 & W3 & W4 & W5 & W6 & W7). cbn [value]. rewrite skip_first by done. by rewrite !decide_False.
Qed.
Definition member_text (kv : text * json) : bytes := dump_str (fst kv) ++ b_ ": " ++ dumps (snd kv).
Lemma value_dumps v : json_ok v -> forall n r, (2 * length (dumps v) <= n)%nat -> ends r -> value n (dumps v ++ r) = Some (v, r).
Proof.
  induction v as [|b|z|s|l IH|l IH] using json_all; intros Hok n r Hn Hr.
  - destruct n as [|n]; [cbn in Hn; lia|]. change (dumps JNull) with (b_ "null"). cbn [value]. change (b_ "null" ++ r) with ("n"%char :: (b_ "ull" ++ r)). rewrite skip_first by done.
    rewrite !(decide_False (P := "n"%char = _)) by (vm_compute; congruence). rewrite decide_True by done. by rewrite lit_app.
  - destruct n as [|n]; [destruct b; cbn in Hn; lia|]. destruct b.
    + change (dumps (JBool true) ++ r) with ("t"%char :: (b_ "rue" ++ r)). cbn [value]. rewrite skip_first by done.
      rewrite !(decide_False (P := "t"%char = _)) by (vm_compute; congruence). rewrite decide_True by done. by rewrite lit_app.
    + change (dumps (JBool false) ++ r) with ("f"%char :: (b_ "alse" ++ r)). cbn [value]. rewrite skip_first by done.
      rewrite !(decide_False (P := "f"%char = _)) by (vm_compute; congruence). rewrite decide_True by done. by rewrite lit_app.
  - cbn [dumps] in *. pose proof (parse_num_dec z r Hr) as P. destruct (dec z) as [|c l] eqn:E. { exfalso. destruct z as [|p|p]; [done|by apply dec_nonempty in E|by rewrite dec_neg in E]. }
    destruct n as [|n]; [cbn in Hn; lia|]. cbn [app] in *. rewrite value_num, P; [done|].
    destruct z as [|p|p]; [left; apply (dec_digit 0); [lia|rewrite E; left]|left; apply (dec_digit (Zpos p)); [lia|rewrite E; left]|right].
    rewrite dec_neg in E. by injection E as <- _.
  - destruct n as [|n]; [cbn in Hn; lia|]. cbn [dumps json_ok] in *. unfold dump_str. cbn [app value]. rewrite skip_first by done. rewrite decide_True by done.
    rewrite <- app_assoc. cbn [app]. by rewrite parse_dump.
  - destruct n as [|n]; [cbn in Hn; lia|]. cbn [dumps] in *. cbn [app value]. rewrite skip_first by done.
    rewrite !(decide_False (P := "["%char = _)) by (vm_compute; congruence). rewrite (decide_True (P := "["%char = "["%char)) by done. rewrite <- app_assoc.
    destruct l as [|v0 l0]; [done|].
    assert (E : forall l n, l <> [] -> Forall (fun v => json_ok v -> forall n r, (2 * length (dumps v) <= n)%nat -> ends r -> value n (dumps v ++ r) = Some (v, r)) l ->
      fold_right and True (map json_ok l) -> (2 * length (join (b_ ", ") (map dumps l)) + 1 <= n)%nat -> elements n (join (b_ ", ") (map dumps l) ++ b_ "]" ++ r) = Some (l, r)).
    { clear. induction l as [|v l IH]; [done|]. intros n _ HP Hok Hn. inversion_clear HP as [|? ? Hv HP']. cbn [map fold_right] in Hok. destruct Hok as [Ov Ol].
      destruct n as [|n]; [lia|]. cbn [elements]. destruct l as [|w l].
      - cbn [map join] in *. rewrite (Hv Ov n (b_ "]" ++ r)) by (lia || done). cbn [skip]. change (b_ "]" ++ r) with ("]"%char :: r). rewrite skip_first by done.
        rewrite decide_False by (vm_compute; congruence). by rewrite decide_True.
      - cbn [map] in *. change (join (b_ ", ") (dumps v :: dumps w :: map dumps l)) with (dumps v ++ b_ ", " ++ join (b_ ", ") (dumps w :: map dumps l)) in *.
        rewrite !app_length in Hn. change (length (b_ ", ")) with 2%nat in Hn.
        rewrite <- !app_assoc. rewrite (Hv Ov n) by (lia || done). specialize (IH n ltac:(done) HP' Ol). set (J := join (b_ ", ") (dumps w :: map dumps l)) in *. change (b_ ", ") with [","; " "]%char. cbn [app]. rewrite skip_first by done. rewrite decide_True by done.
        rewrite elements_space. rewrite IH; [done|lia]. }
    assert (J : exists c t, join (b_ ", ") (map dumps (v0 :: l0)) = c :: t /\ is_ws c = false /\ c <> "]"%char).
    { destruct (dumps_head v0) as (c & t & Hc & H1 & H2 & _). cbn [map join]. rewrite Hc. destruct (map dumps l0); [by exists c, t|]. eexists c, _. by split. }
    specialize (E (v0 :: l0) n ltac:(done) IH Hok).
    destruct J as (c & t & Hj & H1 & H2). rewrite Hj in *. cbn [app] in *. rewrite skip_first by done. rewrite decide_False by done. rewrite E; [done|].
    cbn [length] in Hn |- *. rewrite app_length in Hn. lia.
  - destruct n as [|n]; [cbn in Hn; lia|]. cbn [dumps] in *. cbn [app value]. rewrite skip_first by done.
    rewrite !(decide_False (P := "{"%char = dq)) by (vm_compute; congruence). rewrite (decide_True (P := "{"%char = "{"%char)) by done. rewrite <- app_assoc.
    destruct l as [|v0 l0]; [done|]. fold member_text in *. change (fun kv : text * json => dump_str (fst kv) ++ b_ ": " ++ dumps (snd kv)) with member_text in *.
    assert (E : forall l n, l <> [] -> Forall (fun kv => json_ok (snd kv) -> forall n r, (2 * length (dumps (snd kv)) <= n)%nat -> ends r -> value n (dumps (snd kv) ++ r) = Some (snd kv, r)) l ->
      fold_right and True (map (fun kv => is_text (fst kv) /\ json_ok (snd kv)) l) -> (2 * length (join (b_ ", ") (map member_text l)) + 1 <= n)%nat ->
      members n (join (b_ ", ") (map member_text l) ++ b_ "}" ++ r) = Some (l, r)).
    { clear. induction l as [|[k v] l IH]; [done|]. intros n _ HP Hok Hn. inversion_clear HP as [|? ? Hv HP']. cbn [map fold_right fst snd] in Hok. destruct Hok as [[Ok Ov] Ol]. cbn [snd] in Hv.
      destruct n as [|n]; [lia|].
      assert (M : forall x, ends x -> (2 * length (dumps v) <= n)%nat -> members (S n) (member_text (k, v) ++ x) =
        match skip x with c :: r' => if decide (c = ","%char) then match members n r' with Some (l, r'') => Some ((k, v) :: l, r'') | None => None end else if decide (c = "}"%char) then Some ([(k, v)], r') else None | [] => None end).
      { intros x Hx Hl. unfold member_text. cbn [fst snd]. unfold dump_str. rewrite <- !app_assoc. cbn [app members]. rewrite skip_first by done. rewrite decide_True by done.
        rewrite <- app_assoc. cbn [app]. rewrite parse_dump by done. change (b_ ": ") with [":"; " "]%char. cbn [app]. rewrite skip_first by done. rewrite decide_True by done. rewrite value_space. by rewrite Hv. }
      assert (L : (length (dumps v) <= length (member_text (k, v)))%nat) by (unfold member_text; rewrite !app_length; cbn [snd]; lia).
      destruct l as [|w l].
      - cbn [map join] in *. rewrite M by (done || lia). change (b_ "}" ++ r) with ("}"%char :: r). rewrite skip_first by done. rewrite decide_False by (vm_compute; congruence). by rewrite decide_True.
      - cbn [map] in *. change (join (b_ ", ") (member_text (k, v) :: member_text w :: map member_text l)) with (member_text (k, v) ++ b_ ", " ++ join (b_ ", ") (member_text w :: map member_text l)) in *.
        rewrite !app_length in Hn. change (length (b_ ", ")) with 2%nat in Hn. rewrite <- !app_assoc. rewrite M by (done || lia).
        specialize (IH n ltac:(done) HP' Ol). set (J := join (b_ ", ") (member_text w :: map member_text l)) in *.
        change (b_ ", ") with [","; " "]%char. cbn [app]. rewrite skip_first by done. rewrite decide_True by done. rewrite members_space. rewrite IH; [done|lia]. }
    assert (J : exists t, join (b_ ", ") (map member_text (v0 :: l0)) = dq :: t).
    { cbn [map join]. destruct (map member_text l0); by eexists. }
    specialize (E (v0 :: l0) n ltac:(done) IH Hok). destruct J as (t & Hj). rewrite Hj in *. cbn [app] in *. rewrite skip_first by done. rewrite decide_False by (vm_compute; congruence). rewrite E; [done|].
    cbn [length] in Hn |- *. rewrite app_length in Hn. lia.
Qed.
