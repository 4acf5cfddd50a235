(** Proofs for C105: a stream that breaks off. *)
From Coq Require Import Ascii String ZArith NArith Lia.
From stdpp Require Import prelude.
From Verif Require Import Router_Model ProxyLog_Model Manifest_Model Addr_Model Addr_Proofs ProxyCmd_Proofs Wire_Model Wire_Spec Wire_Proofs.
Local Open Scope nat_scope.

(** More fuel does not change a result. *)
Lemma mono n : (forall s x, value n s = Some x -> value (S n) s = Some x) /\ (forall s x, elements n s = Some x -> elements (S n) s = Some x) /\
  (forall s x, members n s = Some x -> members (S n) s = Some x).
Proof.
  induction n as [|n (IHv & IHe & IHm)]; [done|]. split_and!; intros s x H.
  - remember (S n) as m eqn:Em. cbn [value]. subst m. cbn [value] in H. destruct (skip s) as [|c r]; [done|].
    destruct (decide (c = dq)); [done|]. destruct (decide (c = "{"%char)).
    { destruct (skip r) as [|c' r']; [done|]. destruct (decide (c' = "}"%char)); [done|]. destruct (members n r) as [y|] eqn:E; [|done]. by rewrite (IHm _ _ E). }
    destruct (decide (c = "["%char)); [|done].
    destruct (skip r) as [|c' r']; [done|]. destruct (decide (c' = "]"%char)); [done|]. destruct (elements n r) as [y|] eqn:E; [|done]. by rewrite (IHe _ _ E).
  - remember (S n) as m eqn:Em. cbn [elements]. subst m. cbn [elements] in H. destruct (value n s) as [[v r]|] eqn:E; [|done]. rewrite (IHv _ _ E).
    destruct (skip r) as [|c r']; [done|]. destruct (decide (c = ","%char)); [|done]. destruct (elements n r') as [y|] eqn:E2; [|done]. by rewrite (IHe _ _ E2).
  - remember (S n) as m eqn:Em. cbn [members]. subst m. cbn [members] in H. destruct (skip s) as [|c0 s1]; [done|]. destruct (decide (c0 = dq)); [|done].
    destruct (parse_str s1) as [[k s2]|]; [|done]. destruct (skip s2) as [|c1 s3]; [done|]. destruct (decide (c1 = ":"%char)); [|done].
    destruct (value n s3) as [[v r]|] eqn:E; [|done]. rewrite (IHv _ _ E). destruct (skip r) as [|c r']; [done|]. destruct (decide (c = ","%char)); [|done].
    destruct (members n r') as [y|] eqn:E2; [|done]. by rewrite (IHm _ _ E2).
Qed.
Lemma value_mono n k s x : value n s = Some x -> value (n + k) s = Some x.
Proof. induction k as [|k IH]; [by rewrite Nat.add_0_r|]. intros H. rewrite Nat.add_succ_r. by apply mono, IH. Qed.

(** More text behind a result does not change it, unless it continues a number. *)
Lemma units_more k : forall s t r x, length s <= k -> units s = Some (t, r) -> units (s ++ x) = Some (t, r ++ x).
Proof.
  induction k as [|k IH]; intros s t r x Hk H; (destruct s as [|c s1]; [done|]); [cbn in Hk; lia|]. cbn [length] in Hk. cbn [app units] in *.
  destruct (decide (c = dq)); [by injection H as <- <-|]. destruct (decide (c = bs)).
  - destruct s1 as [|h s2]; [done|]. cbn [length app] in *. destruct (decide (h = "u"%char)).
    + destruct s2 as [|x1 [|x2 [|x3 [|x4 s3]]]]; try done. cbn [length app] in *. destruct (unhex4 x1 x2 x3 x4); [|done]. destruct (units s3) as [[t' r']|] eqn:E; [|done].
      rewrite (IH s3 t' r' x) by (lia || done). cbn [cons_to] in *. by injection H as <- <-.
    + destruct (unesc h); [|done]. destruct (units s2) as [[t' r']|] eqn:E; [|done]. rewrite (IH s2 t' r' x) by (lia || done). cbn [cons_to] in *. by injection H as <- <-.
  - destruct ((N_of_ascii c <? 32)%N || (128 <=? N_of_ascii c)%N); [done|]. destruct (units s1) as [[t' r']|] eqn:E; [|done]. rewrite (IH s1 t' r' x) by (lia || done). cbn [cons_to] in *. by injection H as <- <-.
Qed.
Lemma parse_str_more s t r x : parse_str s = Some (t, r) -> parse_str (s ++ x) = Some (t, r ++ x).
Proof. unfold parse_str. destruct (units s) as [[u r']|] eqn:E; [|done]. intros [= <- <-]. by rewrite (units_more (length s) s u r' x). Qed.
Lemma skip_more s c r x : skip s = c :: r -> skip (s ++ x) = c :: r ++ x.
Proof. induction s as [|a s IH]; [done|]. cbn [skip app]. destruct (is_ws a); [done|]. by intros [= -> ->]. Qed.
Lemma lit_more w : forall s r x, lit w s = Some r -> lit w (s ++ x) = Some (r ++ x).
Proof. induction w as [|a w IH]; intros s r x H; [by injection H as ->|]. destruct s as [|b s]; [done|]. cbn [lit app] in *. destruct (decide (a = b)); [|done]. by apply IH. Qed.
Lemma until_more s ds r x : digits_of s = (ds, r) -> r <> [] -> digits_of (s ++ x) = (ds, r ++ x).
Proof.
  unfold digits_of. revert ds. induction s as [|a s IH]; intros ds H Hr; cbn [until app] in *; [by injection H as <- <-|].
  destruct (negb (is_digit a)); [by injection H as <- <-|]. destruct (until _ s) as [d r'] eqn:E. injection H as <- ->. by rewrite (IH d).
Qed.
Lemma parse_nat_more s z r x : parse_nat s = Some (z, r) -> r <> [] -> parse_nat (s ++ x) = Some (z, r ++ x).
Proof.
  destruct s as [|c s]; [done|]. cbn [parse_nat app]. destruct (decide (c = "0"%char)); [by intros [= <- <-]|]. destruct (is_digit c); [|done].
  destruct (digits_of (c :: s)) as [ds r'] eqn:E. intros [= <- <-] Hr. change (c :: s ++ x) with ((c :: s) ++ x). by rewrite (until_more _ _ _ x E).
Qed.
Lemma parse_num_more s z r x : parse_num s = Some (z, r) -> r <> [] -> parse_num (s ++ x) = Some (z, r ++ x).
Proof.
  destruct s as [|c s]; [done|]. cbn [parse_num app]. destruct (decide (c = "-"%char)).
  - destruct (parse_nat s) as [[z' r']|] eqn:E; [|done]. intros [= <- <-] Hr. by rewrite (parse_nat_more _ _ _ x E).
  - intros H Hr. by apply (parse_nat_more (c :: s)).
Qed.
Definition is_num (v : json) : Prop := match v with JNum _ => True | _ => False end.
Lemma more n : (forall s v r x, value n s = Some (v, r) -> (is_num v -> r <> []) -> value n (s ++ x) = Some (v, r ++ x)) /\
  (forall s l r x, elements n s = Some (l, r) -> elements n (s ++ x) = Some (l, r ++ x)) /\
  (forall s l r x, members n s = Some (l, r) -> members n (s ++ x) = Some (l, r ++ x)).
Proof.
  induction n as [|n (IHv & IHe & IHm)]; [done|]. split_and!.
  - intros s v r x H Hr. cbn [value] in *. destruct (skip s) as [|c s1] eqn:Es; [done|]. rewrite (skip_more _ _ _ x Es).
    destruct (decide (c = dq)). { destruct (parse_str s1) as [[t r']|] eqn:E; [|done]. injection H as <- <-. by rewrite (parse_str_more _ _ _ x E). }
    destruct (decide (c = "{"%char)).
    { destruct (skip s1) as [|c' s2] eqn:E1; [done|]. rewrite (skip_more _ _ _ x E1). destruct (decide (c' = "}"%char)); [by injection H as <- <-|].
      destruct (members n s1) as [[l r']|] eqn:E; [|done]. injection H as <- <-. by rewrite (IHm _ _ _ x E). }
    destruct (decide (c = "["%char)).
    { destruct (skip s1) as [|c' s2] eqn:E1; [done|]. rewrite (skip_more _ _ _ x E1). destruct (decide (c' = "]"%char)); [by injection H as <- <-|].
      destruct (elements n s1) as [[l r']|] eqn:E; [|done]. injection H as <- <-. by rewrite (IHe _ _ _ x E). }
    destruct (decide (c = "n"%char)). { destruct (lit (b_ "ull") s1) as [r'|] eqn:E; [|done]. injection H as <- <-. by rewrite (lit_more _ _ _ x E). }
    destruct (decide (c = "t"%char)). { destruct (lit (b_ "rue") s1) as [r'|] eqn:E; [|done]. injection H as <- <-. by rewrite (lit_more _ _ _ x E). }
    destruct (decide (c = "f"%char)). { destruct (lit (b_ "alse") s1) as [r'|] eqn:E; [|done]. injection H as <- <-. by rewrite (lit_more _ _ _ x E). }
    destruct (parse_num (c :: s1)) as [[z r']|] eqn:E; [|done]. injection H as <- <-. change (c :: s1 ++ x) with ((c :: s1) ++ x). rewrite (parse_num_more _ _ _ x E); [done|]. by apply Hr.
  - intros s l r x H. cbn [elements] in *. destruct (value n s) as [[v r1]|] eqn:E; [|done]. destruct (skip r1) as [|c r2] eqn:Es; [done|].
    rewrite (IHv _ _ _ x E) by (intros _ ->; done). rewrite (skip_more _ _ _ x Es). destruct (decide (c = ","%char)).
    + destruct (elements n r2) as [[l' r']|] eqn:E2; [|done]. injection H as <- <-. by rewrite (IHe _ _ _ x E2).
    + destruct (decide (c = "]"%char)); [|done]. by injection H as <- <-.
  - intros s l r x H. cbn [members] in *. destruct (skip s) as [|c0 s1] eqn:E0; [done|]. rewrite (skip_more _ _ _ x E0). destruct (decide (c0 = dq)); [|done].
    destruct (parse_str s1) as [[k s2]|] eqn:Ek; [|done]. rewrite (parse_str_more _ _ _ x Ek). destruct (skip s2) as [|c1 s3] eqn:E1; [done|]. rewrite (skip_more _ _ _ x E1). destruct (decide (c1 = ":"%char)); [|done].
    destruct (value n s3) as [[v r1]|] eqn:E; [|done]. destruct (skip r1) as [|c r2] eqn:Es; [done|].
    rewrite (IHv _ _ _ x E) by (intros _ ->; done). rewrite (skip_more _ _ _ x Es). destruct (decide (c = ","%char)).
    + destruct (members n r2) as [[l' r']|] eqn:E2; [|done]. injection H as <- <-. by rewrite (IHm _ _ _ x E2).
    + destruct (decide (c = "}"%char)); [|done]. by injection H as <- <-.
Qed.

(** Whole objects, and parts of them. *)
Lemma parse_dumps v : json_ok v -> parse_json (dumps v) = Some v.
Proof.
  intros H. unfold parse_json, fuel. pose proof (value_dumps v H (2 * length (dumps v) + 2) [] ltac:(lia) I) as E. rewrite app_nil_r in E. by rewrite E.
Qed.
Lemma part_fails l p q : json_ok (JObj l) -> dumps (JObj l) = p ++ q -> q <> [] -> parse_json p = None.
Proof.
  intros Hok E Hq. unfold parse_json. destruct (value (fuel p) p) as [[v r]|] eqn:Ev; [|done]. exfalso.
  assert (Hn : ~ is_num v).
  { destruct p as [|c p]; [done|]. cbn [dumps app] in E. assert (c = "{"%char) as -> by congruence. unfold fuel in Ev. rewrite Nat.add_comm in Ev. cbn [Nat.add value] in Ev. rewrite skip_first in Ev by done.
    rewrite !(decide_False (P := "{"%char = dq)) in Ev by (vm_compute; congruence). rewrite (decide_True (P := "{"%char = "{"%char)) in Ev by done.
    destruct (skip p) as [|c' r'] eqn:Es; [done|]. destruct (decide (c' = "}"%char)); [injection Ev as <- <-; intros []|]. destruct (members _ p) as [[l' r'']|]; [|done]. injection Ev as <- <-. intros []. }
  pose proof (proj1 (more _) _ _ _ q Ev ltac:(done)) as H1. rewrite <- E in H1.
  pose proof (value_dumps _ Hok (2 * length (dumps (JObj l)) + 2) [] ltac:(lia) I) as H2. rewrite app_nil_r in H2.
  assert (L : length (dumps (JObj l)) = length p + length q) by (by rewrite E, app_length).
  apply (value_mono _ (2 * length q)) in H1. unfold fuel in H1. replace (2 * length p + 2 + 2 * length q) with (2 * length (dumps (JObj l)) + 2) in H1 by lia.
  rewrite H1 in H2. injection H2 as _ H2. apply app_eq_nil in H2 as [_ H2]. done.
Qed.

(** Messages. *)
Lemma msg_ok evs : Forall is_event evs -> json_ok (msg_json evs).
Proof.
  assert (T : forall s, forallb (fun c => (c <? 128)%N) s = true -> is_text s).
  { intros s H. apply Forall_forall. intros c Hc. rewrite forallb_forall in H. apply elem_of_list_In, H, N.ltb_lt in Hc. lia. }
  intros H. cbn [msg_json json_ok map fold_right fst snd]. split; [|done]. split; [by apply T|]. induction H as [|e evs (H1 & H2 & H3) _ IH]; [done|]. cbn [map fold_right]. split; [|done].
  unfold event_json. cbn [json_ok map fold_right fst snd]. split_and!; try (by apply T); try done.
  - destruct (we_type e); by apply T.
  - destruct (we_route e) as [k n t]. cbn [w_name w_target] in *. unfold route_json. cbn [w_kind w_name w_target]. destruct k, t; cbn [json_ok map fold_right fst snd app]; split_and!; try (by apply T); done.
Qed.
Lemma seen evs : Forall is_event evs -> as_msg (msg_json evs) = Some (map as_seen evs).
Proof.
  intros H. cbn [msg_json as_msg field]. rewrite decide_True by (vm_compute; done). induction H as [|e evs (H1 & H2 & H3) _ IH]; [done|]. cbn [map mapM].
  assert (E : as_event (event_json e) = Some (as_seen e)).
  { destruct e as [i t [k n tg]]. unfold event_json, as_seen. cbn [we_id we_type we_route w_name w_target w_kind as_event] in *.
    assert (F1 : field (t_ "id") [(t_ "id", JNum i); (t_ "type", JStr match t with TPut => t_ "PUT" | TDelete => t_ "DELETE" end); (t_ "route", route_json (WRoute k n tg))] = JNum i) by done.
    assert (F2 : field (t_ "type") [(t_ "id", JNum i); (t_ "type", JStr match t with TPut => t_ "PUT" | TDelete => t_ "DELETE" end); (t_ "route", route_json (WRoute k n tg))] = JStr match t with TPut => t_ "PUT" | TDelete => t_ "DELETE" end) by done.
    assert (F3 : field (t_ "route") [(t_ "id", JNum i); (t_ "type", JStr match t with TPut => t_ "PUT" | TDelete => t_ "DELETE" end); (t_ "route", route_json (WRoute k n tg))] = route_json (WRoute k n tg)) by done.
    rewrite F1, F2, F3. cbn [as_u64 as_str]. rewrite (proj2 (Z.leb_le 0 i)), (proj2 (Z.ltb_lt i (2 ^ 64))) by lia. cbn [andb mbind option_bind].
    destruct k, tg; reflexivity. }
  rewrite E. cbn [mbind option_bind]. by rewrite IH.
Qed.
Lemma unmarshal_msg evs : Forall is_event evs -> unmarshal (dumps (msg_json evs)) = Some (map as_seen evs).
Proof. intros H. unfold unmarshal. rewrite parse_dumps by (by apply msg_ok). cbn [mbind option_bind]. by apply seen. Qed.
Lemma unmarshal_part evs p q : Forall is_event evs -> dumps (msg_json evs) = p ++ q -> q <> [] -> unmarshal p = None.
Proof. intros H E Hq. unfold unmarshal. by rewrite (part_fails _ p q (msg_ok evs H) E Hq). Qed.

(** Lines. *)
Lemma no_newline s : Forall printable s -> newline ∉ s /\ ascii_of_N 13 ∉ s.
Proof. intros H. rewrite Forall_forall in H. split; intros X%H; destruct X as [X _]; vm_compute in X; congruence. Qed.
Lemma until_newline_app s r : newline ∉ s -> until_newline (s ++ newline :: r) = (s, Some r).
Proof.
  induction s as [|c s IH]; intros H; cbn [app until_newline].
  - by rewrite decide_True.
  - rewrite decide_False by (intros ->; apply H; left). rewrite IH; [done|]. intros X. apply H. by right.
Qed.
Lemma until_newline_none s : newline ∉ s -> until_newline s = (s, None).
Proof.
  induction s as [|c s IH]; intros H; cbn [until_newline]; [done|]. rewrite decide_False by (intros ->; apply H; left). rewrite IH; [done|]. intros X. apply H. by right.
Qed.
Lemma drop_cr_id s : ascii_of_N 13 ∉ s -> drop_cr s = s.
Proof.
  intros H. unfold drop_cr. destruct (rev s) as [|c r] eqn:E; [done|]. rewrite decide_False; [done|]. intros ->. apply H. apply elem_of_list_In, in_rev. rewrite E. left. done.
Qed.
Lemma scan_line evs r : scan (line evs ++ r) = if length (dumps (msg_json evs)) <? max_token then Some (dumps (msg_json evs), r) else None.
Proof.
  destruct (no_newline _ (dumps_printable (msg_json evs))) as [H1 H2]. unfold scan, line. rewrite <- app_assoc. cbn [app]. rewrite until_newline_app by done.
  by rewrite drop_cr_id.
Qed.
Lemma scan_part evs p q : dumps (msg_json evs) = p ++ q -> scan p = match p with [] => None | _ => if length p <? max_token then Some (p, []) else None end.
Proof.
  intros E. pose proof (dumps_printable (msg_json evs)) as P. rewrite E in P. apply Forall_app in P as [P _]. destruct (no_newline _ P) as [H1 H2].
  unfold scan. rewrite until_newline_none by done. destruct p as [|c p]; [done|]. by rewrite drop_cr_id.
Qed.
Lemma short_iff evs : short evs <-> (length (dumps (msg_json evs)) <? max_token) = true.
Proof. unfold short, line, max_token. rewrite app_length. cbn [length]. rewrite Nat.ltb_lt. lia. Qed.

(** A stream of whole lines. *)
Lemma read_enough n msgs : Forall (Forall is_event) msgs -> Forall short msgs -> length msgs < n -> read_n n (concat (map line msgs)) = (map (map as_seen) msgs, NoError).
Proof.
  intros H. revert n. induction H as [|evs msgs He _ IH]; intros n Hs Hn; (destruct n as [|n]; [cbn in Hn; lia|]); [done|].
  inversion_clear Hs as [|? ? S1 S2]. cbn [map concat read_n]. rewrite scan_line. apply short_iff in S1. rewrite S1, unmarshal_msg by done. rewrite IH; [done|done|]. cbn [length] in Hn. lia.
Qed.
Lemma line_nonempty evs : 0 < length (line evs).
Proof. unfold line. rewrite app_length. cbn. lia. Qed.
Lemma lines_count msgs : length msgs <= length (concat (map line msgs)).
Proof. induction msgs as [|e msgs IH]; [done|]. cbn [map concat length]. rewrite app_length. pose proof (line_nonempty e). lia. Qed.
Lemma read_whole msgs : Forall (Forall is_event) msgs -> Forall short msgs -> read_all (concat (map line msgs)) = (map (map as_seen) msgs, NoError).
Proof. intros H1 H2. apply read_enough; [done|done|]. pose proof (lines_count msgs). lia. Qed.
(** A stream that breaks off anywhere. *)
Lemma prefix_split (a b p q : bytes) : a ++ b = p ++ q -> (exists r, p = a ++ r /\ b = r ++ q) \/ (exists r, a = p ++ r /\ r <> [] /\ q = r ++ b).
Proof.
  revert p. induction a as [|x a IH]; intros p H; cbn [app] in *; [left; by exists p|]. destruct p as [|y p]; cbn [app] in *; [right; exists (x :: a); subst; done|].
  injection H as -> H. destruct (IH p H) as [(r & -> & ->)|(r & -> & Hr & ->)]; [left; by exists r|right; by exists r].
Qed.
Lemma read_part n msgs : Forall (Forall is_event) msgs -> forall body rest, concat (map line msgs) = body ++ rest ->
  exists k e, read_n n body = (map (map as_seen) (take k msgs), e) /\
  (Forall short msgs -> length body < n -> forall w, w `prefix_of` msgs -> concat (map line w) `prefix_of` body -> w `prefix_of` take k msgs).
Proof.
  intros H. revert n. induction H as [|evs msgs He Hm IH]; intros n body rest E.
  - cbn in E. symmetry in E. apply app_eq_nil in E as [-> ->]. exists 0, NoError. split; [by destruct n|]. done.
  - destruct n as [|n]; [exists 0, NoError; split; [done|]; intros; lia|]. cbn [map concat] in E. destruct (prefix_split _ _ _ _ E) as [(r & -> & E')|(r & E' & Hr & _)].
    + cbn [read_n]. rewrite scan_line. destruct (_ <? max_token) eqn:Es.
      2: { exists 0, NoError. split; [done|]. intros S _. inversion_clear S as [|? ? S1 _]. apply short_iff in S1. congruence. }
      rewrite unmarshal_msg by done. destruct (IH n _ _ E') as (k & e & -> & Hk). exists (S k), e. split; [done|]. intros S Hn w Hw Hb. inversion_clear S as [|? ? _ S2].
      destruct w as [|x w]; [apply prefix_nil|]. pose proof (prefix_cons_inv_1 _ _ _ _ Hw) as ->. apply prefix_cons_inv_2 in Hw. cbn [take]. apply prefix_cons. apply Hk; [done| |done|].
      * rewrite app_length in Hn. pose proof (line_nonempty evs). lia.
      * cbn [map concat] in Hb. by apply prefix_app_inv in Hb.
    + (* the line broke off, at the latest before its newline *)
      assert (Z : forall w k, w `prefix_of` evs :: msgs -> concat (map line w) `prefix_of` body -> w `prefix_of` take k (evs :: msgs)).
      { intros w k Hw Hb. destruct w as [|x w]; [apply prefix_nil|]. exfalso. pose proof (prefix_cons_inv_1 _ _ _ _ Hw) as ->. apply prefix_length in Hb. cbn [map concat] in Hb.
        rewrite app_length in Hb. rewrite E', app_length in Hb. destruct r; [done|]. cbn [length] in Hb. lia. }
      unfold line in E'. assert (exists r', dumps (msg_json evs) = body ++ r' /\ r = r' ++ [newline]) as (r' & E2 & ->).
      { destruct (prefix_split _ _ _ _ E') as [(r1 & -> & E1)|(r1 & -> & _ & ->)]; [|by exists r1].
        destruct r1 as [|x r1]; cbn [app] in *; [exists []; by rewrite !app_nil_r|]. injection E1 as _ E1. symmetry in E1. by apply app_eq_nil in E1 as [_ ->]. }
      cbn [read_n]. rewrite (scan_part _ _ _ E2). destruct body as [|c body]; [exists 0, NoError; split; [done|]; intros _ _ w; apply Z|]. destruct (_ <? max_token); [|exists 0, NoError; split; [done|]; intros _ _ w; apply Z].
      destruct r' as [|y r'].
      * rewrite app_nil_r in E2. rewrite <- E2, unmarshal_msg by done. assert (read_n n [] = ([], NoError)) as -> by (by destruct n). exists 1, NoError. split; [done|]. rewrite E2. intros _ _ w. apply Z.
      * rewrite (unmarshal_part evs (c :: body) (y :: r') He E2) by done. exists 0, Failed. split; [done|]. intros _ _ w. apply Z.
Qed.
