(** Lemmas for P_Cred.v. *)
From Coq Require Import ZArith String Lia.
From stdpp Require Import base numbers list.
From Verif Require Import Cred_Model Cred_Spec.
Open Scope Z_scope.

Ltac cases := repeat match goal with
  | |- context [if ?b then _ else _] => let E := fresh "E" in destruct b eqn:E
  end; rewrite ?andb_true_iff, ?andb_false_iff, ?orb_true_iff, ?orb_false_iff, ?Z.leb_le, ?Z.leb_gt, ?Z.ltb_lt, ?Z.ltb_ge, ?Z.eqb_eq, ?Z.eqb_neq in *.
Ltac euclid := Z.to_euclidean_division_equations; lia.

Lemma digit_letter url v : 0 <= v < 64 -> letter (digit url v).
Proof. intros H. unfold digit, letter. destruct url; cases; lia. Qed.
Lemma value_digit url v : 0 <= v < 64 -> value (digit url v) = Some v.
Proof.
  intros H. unfold digit. destruct (v <? 26) eqn:E1; [|destruct (v <? 52) eqn:E2; [|destruct (v <? 62) eqn:E3; [|destruct (v =? 62) eqn:E4]]];
    rewrite ?Z.ltb_lt, ?Z.ltb_ge, ?Z.eqb_eq, ?Z.eqb_neq in *.
  - unfold value. cases; try (f_equal; lia); exfalso; lia.
  - unfold value. cases; try (f_equal; lia); exfalso; lia.
  - unfold value. cases; try (f_equal; lia); exfalso; lia.
  - subst. by destruct url.
  - assert (v = 63) as -> by lia. by destruct url.
Qed.
Lemma digit_pad url v : 0 <= v < 64 -> (digit url v =? 61) = false.
Proof. intros H. apply Z.eqb_neq. pose proof (digit_letter url v H) as K. unfold letter in K. lia. Qed.
Lemma value_range c v : value c = Some v -> 0 <= v < 64.
Proof. unfold value. intros H. repeat match type of H with context [if ?b then _ else _] => let E := fresh in destruct b eqn:E end; rewrite ?andb_true_iff, ?Z.leb_le in *; try discriminate H; injection H as <-; lia. Qed.

Lemma three_ind {A} (P : list A -> Prop) : P [] -> (forall a, P [a]) -> (forall a b, P [a; b]) -> (forall a b c l, P l -> P (a :: b :: c :: l)) -> forall l, P l.
Proof.
  intros H0 H1 H2 H3. assert (K : forall n l, (length l <= n)%nat -> P l); [|intros l; by apply (K (length l))].
  induction n as [|n IH]; intros l Hl; [by destruct l; [|cbn in Hl; lia]|]. destruct l as [|a [|b [|c l]]]; [done|done|done|]. apply H3, IH. cbn in Hl. lia.
Qed.
(** One step of the decoder on a digit. *)
Lemma dec_digit url q left pads v t : 0 <= v < 64 -> b64dec_from q left pads (digit url v :: t) =
  (if q =? 0 then b64dec_from 1 v 0 t
   else if q =? 1 then (cons (left * 4 + v / 16)) <$> b64dec_from 2 (v mod 16) 0 t
   else if q =? 2 then (cons (left * 16 + v / 4)) <$> b64dec_from 3 (v mod 4) 0 t
   else (cons (left * 64 + v)) <$> b64dec_from 0 0 0 t).
Proof. intros H. cbn [b64dec_from]. by rewrite digit_pad, value_digit by done. Qed.
Lemma dec_zero pads left t : b64dec_from 0 left pads t = b64dec_from 0 0 0 t.
Proof.
  revert pads left. induction t as [|c t IH]; intros pads left; [done|]. cbn [b64dec_from]. destruct (c =? 61); [cbn; by rewrite IH|]. destruct (value c); [done|]. apply IH.
Qed.
Lemma dec_pad2 left : b64dec_from 2 left 0 [61; 61] = Some [].
Proof. done. Qed.
Lemma dec_pad1 left : b64dec_from 3 left 0 [61] = Some [].
Proof. done. Qed.
Lemma b64dec_b64 url b : binary b -> b64dec (b64 url b) = Some b.
Proof.
  unfold b64dec, binary. induction b as [|a|a b|a b c l IH] using three_ind; intros H; rewrite ?Forall_cons_iff in H; unfold is_byte in H.
  - done.
  - destruct H as [Ha _]. cbn [b64]. rewrite dec_digit by euclid. cbn [Z.eqb]. rewrite dec_digit by euclid. cbn [Z.eqb Pos.eqb]. rewrite dec_pad2. cbn [fmap option_fmap option_map]. do 2 f_equal. euclid.
  - destruct H as (Ha & Hb & _). cbn [b64]. do 3 (rewrite dec_digit by euclid; cbn [Z.eqb Pos.eqb]). rewrite dec_pad1. cbn [fmap option_fmap option_map]. f_equal. f_equal; [euclid|]. f_equal. euclid.
  - destruct H as (Ha & Hb & Hc & Hl). cbn [b64]. do 4 (rewrite dec_digit by euclid; cbn [Z.eqb Pos.eqb]). rewrite IH by done. cbn [fmap option_fmap option_map]. f_equal. f_equal; [euclid|]. f_equal; [euclid|]. f_equal. euclid.
Qed.
Lemma b64_length url b : length (b64 url b) = (4 * ((length b + 2) / 3))%nat.
Proof.
  induction b as [|a|a b|a b c l IH] using three_ind; [done|done|done|]. cbn [b64 length]. rewrite IH. replace (S (S (S (length l))) + 2)%nat with (1 * 3 + (length l + 2))%nat by lia.
  rewrite Nat.div_add_l by lia. lia.
Qed.
Lemma b64_chars url b : binary b -> Forall (fun c => letter c \/ c = 61) (b64 url b).
Proof.
  unfold binary. induction b as [|a|a b|a b c l IH] using three_ind; intros H; rewrite ?Forall_cons_iff in H; unfold is_byte in H; cbn [b64].
  - constructor.
  - destruct H as [Ha _]. repeat (apply Forall_cons_iff; split; [first [by right | left; apply digit_letter; euclid]|]). constructor.
  - destruct H as (Ha & Hb & _). repeat (apply Forall_cons_iff; split; [first [by right | left; apply digit_letter; euclid]|]). constructor.
  - destruct H as (Ha & Hb & Hc & Hl). do 4 (apply Forall_cons_iff; split; [left; apply digit_letter; euclid|]). by apply IH.
Qed.
Lemma dec_binary t : forall q left pads b, (q = 0 \/ q = 1 /\ 0 <= left < 64 \/ q = 2 /\ 0 <= left < 16 \/ q = 3 /\ 0 <= left < 4) -> b64dec_from q left pads t = Some b -> binary b.
Proof.
  unfold binary, is_byte. induction t as [|c t IH]; intros q left pads b Hq H; cbn [b64dec_from] in H.
  - destruct (q =? 0); [|done]. injection H as <-. constructor.
  - destruct (c =? 61).
    { destruct (2 <=? q); [destruct (4 <=? q + (pads + 1)); [injection H as <-; constructor|]|]; by eapply IH. }
    destruct (value c) as [v|] eqn:Ev; [|by eapply IH]. apply value_range in Ev.
    destruct Hq as [->|[[-> Hl]|[[-> Hl]|[-> Hl]]]]; cbn [Z.eqb Pos.eqb] in H.
    + eapply IH; [|exact H]. lia.
    + destruct (b64dec_from 2 (v mod 16) 0 t) as [b'|] eqn:E; [|done]. cbn in H. injection H as <-. constructor; [euclid|]. eapply IH; [|exact E]. euclid.
    + destruct (b64dec_from 3 (v mod 4) 0 t) as [b'|] eqn:E; [|done]. cbn in H. injection H as <-. constructor; [euclid|]. eapply IH; [|exact E]. euclid.
    + destruct (b64dec_from 0 0 0 t) as [b'|] eqn:E; [|done]. cbn in H. injection H as <-. constructor; [euclid|]. eapply IH; [|exact E]. lia.
Qed.
(** How many characters the decoder needs: four for every three bytes begun. *)
Definition out (q : Z) : Z := if q =? 2 then 1 else if q =? 3 then 2 else 0.
Definition groups (n : Z) : Z := (n + 2) / 3.
Lemma dec_needs t : forall q left pads b, 0 <= q <= 3 -> 0 <= pads -> b64dec_from q left pads t = Some b -> 4 * groups (Z.of_nat (length b) + out q) <= Z.of_nat (length t) + q + pads.
Proof.
  unfold groups. induction t as [|c t IH]; intros q left pads b Hq Hp H; cbn [b64dec_from] in H.
  - destruct (q =? 0) eqn:E; [|done]. injection H as <-. apply Z.eqb_eq in E as ->. cbn [length]. change (out 0) with 0. euclid.
  - destruct (c =? 61).
    { destruct (2 <=? q) eqn:E2.
      - apply Z.leb_le in E2. destruct (4 <=? q + (pads + 1)) eqn:E4; [|apply IH in H; [|lia|lia]; cbn [length]; lia].
        injection H as <-. apply Z.leb_le in E4. assert (q = 2 \/ q = 3) as [-> | ->] by lia; cbn [length out Z.eqb Pos.eqb]; change (out 2) with 1; change (out 3) with 2; euclid.
      - apply IH in H; [|lia|lia]; cbn [length]; lia. }
    destruct (value c) as [v|]; [|apply IH in H; [|lia|lia]; cbn [length]; lia].
    assert (q = 0 \/ q = 1 \/ q = 2 \/ q = 3) as [->|[->|[->| ->]]] by lia; cbn [Z.eqb Pos.eqb] in H.
    + apply IH in H; [|lia|lia]. change (out 0) with 0. change (out 1) with 0 in H. cbn [length]. lia.
    + destruct (b64dec_from 2 (v mod 16) 0 t) as [b'|] eqn:E; [|done]. cbn in H. injection H as <-. apply IH in E; [|lia|lia]. change (out 1) with 0. change (out 2) with 1 in E. cbn [length]. euclid.
    + destruct (b64dec_from 3 (v mod 4) 0 t) as [b'|] eqn:E; [|done]. cbn in H. injection H as <-. apply IH in E; [|lia|lia]. change (out 2) with 1. change (out 3) with 2 in E. cbn [length]. euclid.
    + destruct (b64dec_from 0 0 0 t) as [b'|] eqn:E; [|done]. cbn in H. injection H as <-. apply IH in E; [|lia|lia]. change (out 3) with 2. change (out 0) with 0 in E. cbn [length]. euclid.
Qed.
Lemma value_letter c v : value c = Some v -> letter c.
Proof. unfold value, letter. intros H. repeat match type of H with context [if ?b then _ else _] => let E := fresh in destruct b eqn:E end; rewrite ?andb_true_iff, ?orb_true_iff, ?Z.leb_le, ?Z.eqb_eq in *; try discriminate H; lia. Qed.
(** A text with no character to spare, for a number of bytes that leaves one =. *)
Lemma dec_exact t : forall q left b, 0 <= q <= 3 -> b64dec_from q left 0 t = Some b -> (Z.of_nat (length b) + out q) mod 3 = 2 ->
  Z.of_nat (length t) + q = 4 * groups (Z.of_nat (length b) + out q) -> exists l, t = l ++ [61] /\ Forall letter l.
Proof.
  induction t as [|c t IH]; intros q left b Hq H Hm Hn; cbn [b64dec_from] in H.
  - destruct (q =? 0) eqn:E; [|done]. injection H as <-. apply Z.eqb_eq in E as ->. done.
  - cbn [length] in Hn. destruct (c =? 61) eqn:Ec.
    { apply Z.eqb_eq in Ec as ->. destruct (2 <=? q) eqn:E2.
      - apply Z.leb_le in E2. assert (q = 2 \/ q = 3) as [-> | ->] by lia.
        + change (4 <=? 2 + (0 + 1)) with false in H. cbn match in H. change (0 + 1) with 1 in H. destruct t as [|d t]; [done|]. cbn [b64dec_from] in H. cbn [length] in Hn. destruct (d =? 61).
          { change (2 <=? 2) with true in H. change (4 <=? 2 + (1 + 1)) with true in H. injection H as <-. change (out 2) with 1 in Hm. done. }
          exfalso. destruct (value d) as [v|].
          * cbn [Z.eqb Pos.eqb] in H. destruct (b64dec_from 3 (v mod 4) 0 t) as [b'|] eqn:E; [|done]. cbn in H. injection H as <-. apply dec_needs in E; [|lia|lia]. unfold groups in *. change (out 2) with 1 in *. change (out 3) with 2 in *. cbn [length] in *.
            replace (Z.of_nat (S (length b')) + 1) with (Z.of_nat (length b') + 2) in * by lia. lia.
          * apply dec_needs in H; [|lia|lia]. lia.
        + change (4 <=? 3 + (0 + 1)) with true in H. injection H as <-. change (out 3) with 2 in Hn. unfold groups in Hn. cbn in Hn. destruct t; [exists []; split; [done|by apply Forall_nil_2]|cbn [length] in Hn; euclid].
      - apply dec_needs in H; [|lia|lia]. lia. }
    destruct (value c) as [v|] eqn:Ev; [|apply dec_needs in H; [|lia|lia]; lia]. apply value_letter in Ev.
    assert (K : forall q' left' b', 0 <= q' <= 3 -> b64dec_from q' left' 0 t = Some b' -> (Z.of_nat (length b') + out q') mod 3 = 2 -> Z.of_nat (length t) + q' = 4 * groups (Z.of_nat (length b') + out q') -> exists l, c :: t = l ++ [61] /\ Forall letter l).
    { intros q' left' b' H1 H2 H3 H4. destruct (IH q' left' b' H1 H2 H3 H4) as (l & -> & Hl). exists (c :: l). split; [done|by constructor]. }
    assert (q = 0 \/ q = 1 \/ q = 2 \/ q = 3) as [->|[->|[->| ->]]] by lia; cbn [Z.eqb Pos.eqb] in H.
    + apply (K 1 v b); [lia|done| |]; change (out 1) with 0; change (out 0) with 0 in *; [done|lia].
    + destruct (b64dec_from 2 (v mod 16) 0 t) as [b'|] eqn:E; [|done]. cbn in H. injection H as <-. change (out 1) with 0 in *. cbn [length] in *. replace (Z.of_nat (S (length b')) + 0) with (Z.of_nat (length b') + 1) in * by lia.
      apply (K 2 (v mod 16) b'); [lia|done| |]; change (out 2) with 1; [done|lia].
    + destruct (b64dec_from 3 (v mod 4) 0 t) as [b'|] eqn:E; [|done]. cbn in H. injection H as <-. change (out 2) with 1 in *. cbn [length] in *. replace (Z.of_nat (S (length b')) + 1) with (Z.of_nat (length b') + 2) in * by lia.
      apply (K 3 (v mod 4) b'); [lia|done| |]; change (out 3) with 2; [done|lia].
    + destruct (b64dec_from 0 0 0 t) as [b'|] eqn:E; [|done]. cbn in H. injection H as <-. change (out 3) with 2 in *. cbn [length] in *. replace (Z.of_nat (S (length b')) + 2) with (Z.of_nat (length b') + 3) in * by lia. unfold groups in *.
      apply (K 0 0 b'); [lia|done| |]; change (out 0) with 0; unfold groups; euclid.
Qed.

(** Keys. *)
Lemma normalize_notation x k : denotes x k -> normalize x = Some (b64 true k).
Proof.
  intros [[Hb Hl] Hx]. unfold normalize. destruct Hx as [->|[-> | ->]].
  - rewrite Hl. cbn. by rewrite Hl.
  - rewrite b64_length, Hl. cbn [Nat.eqb]. replace (4 * ((32 + 2) / 3) =? 44)%nat with true by done. rewrite b64dec_b64, Hl by done. done.
  - rewrite b64_length, Hl. cbn [Nat.eqb]. replace (4 * ((32 + 2) / 3) =? 44)%nat with true by done. rewrite b64dec_b64, Hl by done. done.
Qed.
Lemma normalize_some x y : binary x -> normalize x = Some y -> exists k, raw_key k /\ y = b64 true k /\ (x = k \/ length x = 44%nat /\ b64dec x = Some k).
Proof.
  intros Hx. unfold normalize. destruct (length x =? 44)%nat eqn:E.
  - apply Nat.eqb_eq in E. destruct (b64dec x) as [k|] eqn:Ek; [|rewrite E; done]. destruct (length k =? 32)%nat eqn:El; [|done]. intros H. injection H as <-. apply Nat.eqb_eq in El.
    exists k. split_and!; [split; [|done]|done|by right]. apply (dec_binary x 0 0 0); [lia|done].
  - destruct (length x =? 32)%nat eqn:El; [|done]. intros H. injection H as <-. apply Nat.eqb_eq in El. exists x. split_and!; [by split|done|by left].
Qed.
Lemma normalize_idem x y : binary x -> normalize x = Some y -> normalize y = Some y.
Proof. intros Hx H. destruct (normalize_some x y Hx H) as (k & Hk & -> & _). apply normalize_notation. split; [done|]. by right; right. Qed.

(** Splitting. *)
Definition no_sep (t : bytes) : Prop := 59 ∉ t.
Lemma split_plain t : no_sep t -> forall acc r, split_at acc (t ++ r) = split_at (acc ++ t) r.
Proof.
  unfold no_sep. induction t as [|c t IH]; intros H acc r; cbn; [by rewrite app_nil_r|]. apply not_elem_of_cons in H as [Hc H]. rewrite (proj2 (Z.eqb_neq c 59)) by lia. rewrite IH by done. by rewrite <- app_assoc.
Qed.
Lemma split_cons t r : no_sep t -> split (t ++ 59 :: r) = t :: split r.
Proof. intros H. unfold split. rewrite split_plain by done. done. Qed.
Lemma split_one t : no_sep t -> split t = [t].
Proof. intros H. unfold split. rewrite <- (app_nil_r t) at 1. by rewrite split_plain. Qed.
Lemma lstrip_blanks a t : blanks a -> lstrip (a ++ t) = lstrip t.
Proof. induction 1 as [|c a Hc _ IH]; cbn; [done|]. by rewrite Hc. Qed.
Lemma lstrip_none c t : blank c = false -> lstrip (c :: t) = c :: t.
Proof. intros H. cbn. by rewrite H. Qed.
Lemma strip_key a k b : blanks a -> blanks b -> k <> [] -> Forall (fun c => blank c = false) k -> strip (a ++ k ++ b) = k.
Proof.
  intros Ha Hb Hn Hk. unfold strip. rewrite lstrip_blanks by done.
  assert (E1 : lstrip (k ++ b) = k ++ b) by (destruct k as [|c k]; [done|]; apply Forall_cons_iff in Hk as [Hc _]; by apply lstrip_none).
  rewrite E1, reverse_app, lstrip_blanks by (unfold blanks; by apply Forall_reverse).
  assert (E2 : lstrip (reverse k) = reverse k).
  { destruct (reverse k) as [|c r] eqn:E; [done|]. apply lstrip_none. apply Forall_reverse in Hk. rewrite E in Hk. by apply Forall_cons_iff in Hk as [? _]. }
  by rewrite E2, reverse_involutive.
Qed.

(** PEM. *)
Lemma wrap_chars (P : Z -> Prop) n t : P 10 -> Forall P t -> Forall P (wrap n t).
Proof.
  intros Hn H. revert n. induction H as [|c t Hc _ IH]; intros n; cbn [wrap].
  - repeat (destruct n as [|n]; [first [constructor; [done|constructor] | constructor]|]). constructor; [done|constructor].
  - destruct n as [|[|n]]; repeat (constructor; [done|]); apply IH.
Qed.
Lemma pem_no_sep label der : 59 ∉ s_ label -> binary der -> no_sep (pem label der).
Proof.
  intros Hl Hd. unfold no_sep, pem. rewrite !not_elem_of_app. split_and!.
  1,3,4,6,8,9: clear; apply (bool_decide_unpack _); vm_compute; exact I.
  1,3: exact Hl.
  intros H. assert (K : Forall (fun c => c <> 59) (wrap 64 (b64 false der))).
  { apply wrap_chars; [done|]. eapply List.Forall_impl; [|apply b64_chars; exact Hd]. intros c Hc. unfold letter in Hc. lia. }
  rewrite Forall_forall in K. by apply (K 59).
Qed.

(** The database. *)
Lemma try_keys_ok F k r b keys : authenticated F -> k ∈ keys -> try_keys F keys (enc F k r b) = Some b.
Proof.
  intros [H1 H2] Hk. induction keys as [|k' keys IH]; [by apply elem_of_nil in Hk|]. cbn. destruct (decide (k = k')) as [->|Hn]; [by rewrite H1|]. rewrite H2 by done.
  apply IH. apply elem_of_cons in Hk as [?|?]; done.
Qed.
Lemma try_keys_none F k r b keys : authenticated F -> k ∉ keys -> try_keys F keys (enc F k r b) = None.
Proof.
  intros [H1 H2] Hk. induction keys as [|k' keys IH]; [done|]. apply not_elem_of_cons in Hk as [Hn Hk]. cbn. rewrite H2 by done. by apply IH.
Qed.
