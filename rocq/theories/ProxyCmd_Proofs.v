(** Proofs for C101-C104. *)
From Coq Require Import Ascii String ZArith Lia.
From stdpp Require Import prelude.
From Verif Require Import Router_Model ProxyLog_Model Launch_Model Manifest_Model Manifest_Proofs2 Addr_Model Addr_Proofs ProxyCmd_Model ProxyCmd_Spec.
Local Open Scope nat_scope.

(** * partition *)
Lemma partition_some c s a b : partition c s = Some (a, b) -> s = a ++ c :: b /\ c ∉ a.
Proof.
  revert a b. induction s as [|x s IH]; intros a b; cbn [partition]; [done|]. destruct (decide (x = c)) as [->|Hn].
  - intros [= <- <-]. split; [done|]. by intros ?%elem_of_nil.
  - destruct (partition c s) as [[a' b']|] eqn:E; [|done]. intros [= <- <-]. destruct (IH a' b' eq_refl) as [-> H]. split; [done|]. rewrite not_elem_of_cons. split; [congruence|done].
Qed.
(** * int and decimal numbers *)
Lemma code_digit c : is_digit c = true -> 48 <= code c <= 57.
Proof. unfold is_digit. intros [H1 H2]%andb_true_iff. apply Nat.leb_le in H1, H2. lia. Qed.
Lemma digit_not_space c : is_digit c = true -> is_space c = false.
Proof.
  intros H%code_digit. unfold is_space. apply orb_false_iff. split; apply andb_false_iff; right; apply Nat.leb_gt; lia.
Qed.
Lemma more_digits_number l acc : forallb is_digit l = true -> more_digits acc l = Some (number acc l).
Proof. revert acc. induction l as [|x l IH]; intros acc H; cbn [more_digits number]; [done|]. cbn [forallb] in H. apply andb_true_iff in H as [H1 H2]. rewrite H1. by apply IH. Qed.
Lemma unsigned_dec z : (0 <= z)%Z -> unsigned (dec z) = Some z.
Proof.
  intros H. destruct (dec_number z H) as [Hn Hd]. pose proof (dec_nonempty z H) as Hne. destruct (dec z) as [|x l]; [done|]. cbn [unsigned]. cbn [forallb] in Hd. apply andb_true_iff in Hd as [H1 H2].
  rewrite H1, more_digits_number by done. rewrite <- Hn. cbn [number]. f_equal.
Qed.
Lemma dec_neg p : dec (Zneg p) = "-"%char :: dec (Zpos p).
Proof. done. Qed.
Lemma lstrip_ws_id x l : is_space x = false -> lstrip_ws (x :: l) = x :: l.
Proof. intros H. cbn [lstrip_ws]. by rewrite H. Qed.
Lemma strip_ws_id s : (forall c, c ∈ s -> is_space c = false) -> strip_ws s = s.
Proof.
  intros H. assert (E : forall l, (forall c, c ∈ l -> is_space c = false) -> lstrip_ws l = l) by (intros [|x l] Hl; [done|]; apply lstrip_ws_id, Hl; left).
  unfold strip_ws. rewrite (E s H), E; [apply rev_involutive|]. intros c Hc. apply H. apply elem_of_list_In. rewrite in_rev. by apply elem_of_list_In.
Qed.
Lemma dec_digit z c : (0 <= z)%Z -> c ∈ dec z -> is_digit c = true.
Proof. intros H Hc. destruct (dec_number z H) as [_ D]. rewrite forallb_forall in D. apply D. by apply elem_of_list_In. Qed.
Lemma py_int_dec z : py_int (dec z) = Some z.
Proof.
  unfold py_int. destruct (decide (0 <= z)%Z) as [Hz|Hz].
  - rewrite strip_ws_id by (intros c Hc; by apply digit_not_space, (dec_digit z)).
    pose proof (unsigned_dec z Hz) as U. pose proof (dec_digit z) as D. destruct (dec z) as [|x l] eqn:E; [done|].
    assert (is_digit x = true) as Hx by (apply D; [done|left]). rewrite !decide_False; [done| |]; intros ->; done.
  - destruct z as [|p|p]; [lia|lia|]. rewrite dec_neg. rewrite strip_ws_id.
    + rewrite decide_True by done. rewrite unsigned_dec by lia. done.
    + intros c [->|Hc]%elem_of_cons; [done|]. apply digit_not_space, (dec_digit (Zpos p)); [lia|done].
Qed.
Lemma dec_no_colon z : colon ∉ dec z.
Proof.
  intros H. destruct z as [|p|p]; [|apply dec_digit in H; [done|lia]..|rewrite dec_neg in H; apply elem_of_cons in H as [H|H]; [done|apply dec_digit in H; [done|lia]]].
  apply dec_digit in H; [done|lia].
Qed.

(** * Addresses *)
Lemma normalize_inv r name free a b : normalize r name free a = Ok b ->
  exists host p n, a = host ++ colon :: p /\ colon ∉ host /\ colon ∉ p /\ py_int p = Some n /\ b = at_port (if r && any_host host then name else host) (if (n =? 0)%Z then free else n).
Proof.
  unfold normalize. destruct (partition colon a) as [[host p]|] eqn:E; [|done]. apply partition_some in E as [-> Hh]. destruct (bool_decide (colon ∈ p)) eqn:Ec; [done|].
  apply bool_decide_eq_false in Ec. destruct (py_int p) as [n|] eqn:En; [|done]. intros [= <-]. exists host, p, n. done.
Qed.
Lemma normalize_at r name free host n : colon ∉ host -> normalize r name free (at_port host n) = Ok (at_port (if r && any_host host then name else host) (if (n =? 0)%Z then free else n)).
Proof.
  intros H. unfold normalize, at_port. change (b_ ":" ++ dec n) with (colon :: dec n). rewrite partition_app by done. rewrite bool_decide_false by apply dec_no_colon. by rewrite py_int_dec.
Qed.
Lemma normalize_again name free name' free' a b : (free <> 0)%Z -> normalize false name free a = Ok b -> normalize false name' free' b = Ok b.
Proof.
  intros Hf H. destruct (normalize_inv _ _ _ _ _ H) as (host & p & n & -> & Hh & Hp & Hn & ->). cbn [andb]. rewrite normalize_at by done. cbn [andb]. f_equal. f_equal.
  destruct (n =? 0)%Z eqn:E; [apply Z.eqb_neq in Hf; by rewrite Hf|by rewrite E].
Qed.
Lemma two_colons r name free a x y : normalize r name free (a ++ b_ ":" ++ x ++ b_ ":" ++ y) = ValueError.
Proof.
  destruct (normalize _ _ _ _) as [b|] eqn:E; [|done]. exfalso. apply normalize_inv in E as (host & p & n & E & Hh & Hp & _).
  assert (E2 : partition colon (a ++ b_ ":" ++ x ++ b_ ":" ++ y) = Some (host, p)) by (rewrite E; by apply partition_app).
  revert host E E2 Hh. induction a as [|c a IH]; intros host E E2 Hh.
  - change (b_ ":" ++ x ++ b_ ":" ++ y) with (colon :: x ++ colon :: y) in E2. cbn [app partition] in E2. rewrite decide_True in E2 by done. injection E2 as <- <-. apply Hp, elem_of_app. right. left.
  - cbn [app partition] in E2. destruct (decide (c = colon)) as [->|Hc].
    + injection E2 as <- <-. apply Hp. apply elem_of_app. right. left.
    + destruct (partition colon (a ++ _)) as [[h' p']|] eqn:E3; [|done]. injection E2 as <- <-. apply not_elem_of_cons in Hh as [_ Hh]. apply (IH h'); [|done|done]. by apply partition_some in E3 as [-> _].
Qed.

(** * The command line *)
Lemma xorb_false a b : xorb a b = false -> a = b.
Proof. by destruct a, b. Qed.
Lemma parse_nil s : parse [] s = Some s. Proof. done. Qed.
Lemma parse_address v rest a t u l c ce k : parse (b_ "-address" :: v :: rest) (Settings a t u l c ce k) = parse rest (Settings v t u l c ce k).
Proof. reflexivity. Qed.
Lemma parse_tcp v rest a t u l c ce k : parse (b_ "-tcp-address" :: v :: rest) (Settings a t u l c ce k) = parse rest (Settings a v u l c ce k).
Proof. reflexivity. Qed.
Lemma parse_api v rest a t u l c ce k : parse (b_ "-api-url" :: v :: rest) (Settings a t u l c ce k) = parse rest (Settings a t v l c ce k).
Proof. reflexivity. Qed.
Lemma parse_lvl v rest a t u l c ce k : parse (b_ "-log-level" :: v :: rest) (Settings a t u l c ce k) = parse rest (Settings a t u v c ce k).
Proof. reflexivity. Qed.
Lemma parse_child rest a t u l c ce k : parse (b_ "-is-child-process" :: rest) (Settings a t u l c ce k) = parse rest (Settings a t u l true ce k).
Proof. reflexivity. Qed.
Lemma parse_cert v rest a t u l c ce k : parse (b_ "-tls-cert" :: v :: rest) (Settings a t u l c ce k) = parse rest (Settings a t u l c v k).
Proof. reflexivity. Qed.
Lemma parse_key v rest a t u l c ce k : parse (b_ "-tls-key" :: v :: rest) (Settings a t u l c ce k) = parse rest (Settings a t u l c ce v).
Proof. reflexivity. Qed.
Lemma parse_level_name l : parse_level (level_name l) = Some l.
Proof. by destruct l. Qed.
Lemma command_inv exe y c child cmd : start_command exe y c child = Ok cmd -> exists address tcp url,
  address_of y c = Ok address /\ tcp_of y c = Ok tcp /\ url_of y c = Ok url /\ non_empty (c_cert c) = non_empty (c_key c) /\
  cmd = exe :: b_ "-address" :: address :: b_ "-tcp-address" :: tcp :: b_ "-api-url" :: (url ++ b_ "/api/v1/routes") :: b_ "-log-level" :: level_name (c_level c)
        :: (if child then [b_ "-is-child-process"] else []) ++ (if non_empty (c_cert c) then [b_ "-tls-cert"; c_cert c; b_ "-tls-key"; c_key c] else []).
Proof.
  unfold start_command. destruct (address_of y c) as [address|]; [|done]. cbn [bind]. destruct (tcp_of y c) as [tcp|]; [|done]. cbn [bind]. destruct (url_of y c) as [url|]; [|done]. cbn [bind].
  destruct (xorb _ _) eqn:E; [done|]. apply xorb_false in E. intros [= <-]. exists address, tcp, url. split; [done|]. split; [done|]. split; [done|]. split; [done|].
  destruct (non_empty (c_cert c)), child; cbn [app]; by rewrite ?app_nil_r.
Qed.
Lemma non_empty_false s : non_empty s = false -> s = [].
Proof. by destruct s. Qed.
Lemma reaches exe y c child args url_ok : start_command exe y c child = Ok (exe :: args) -> token_of y c <> [] -> (forall u, url_of y c = Ok u -> url_ok (u ++ b_ "/api/v1/routes") = true) ->
  exists address tcp url, address_of y c = Ok address /\ tcp_of y c = Ok tcp /\ url_of y c = Ok url /\
    main url_ok args (token_of y c) = Runs (Settings address tcp (url ++ b_ "/api/v1/routes") (level_name (c_level c)) child (c_cert c) (c_key c)) (c_level c) (token_of y c).
Proof.
  intros H Ht Hu. apply command_inv in H as (address & tcp & url & Ha & Htc & Hurl & Hck & Hcmd). apply (f_equal (@tl _)) in Hcmd. cbn [tl] in Hcmd. rewrite Hcmd. clear Hcmd. exists address, tcp, url. split; [done|]. split; [done|]. split; [done|].
  specialize (Hu url Hurl). unfold main, defaults. rewrite parse_address, parse_tcp, parse_api, parse_lvl.
  assert (E : parse ((if child then [b_ "-is-child-process"] else []) ++ (if non_empty (c_cert c) then [b_ "-tls-cert"; c_cert c; b_ "-tls-key"; c_key c] else []))
    (Settings address tcp (url ++ b_ "/api/v1/routes") (level_name (c_level c)) false [] []) = Some (Settings address tcp (url ++ b_ "/api/v1/routes") (level_name (c_level c)) child (c_cert c) (c_key c))).
  { destruct child; cbn [app]; rewrite ?parse_child; destruct (non_empty (c_cert c)) eqn:Ec; rewrite ?parse_cert, ?parse_key, parse_nil; try done;
      symmetry in Hck; apply non_empty_false in Hck, Ec; by rewrite Hck, Ec. }
  rewrite E. cbn [s_level s_cert s_key s_api]. rewrite parse_level_name. destruct (token_of y c) as [|t0 t]; [done|]. rewrite Hck, xorb_nilpotent, Hu.
  replace (non_empty (url ++ b_ "/api/v1/routes")) with true; [done|]. by destruct url.
Qed.

(** * The token *)
Lemma ltrim_id x l : is_blank x = false -> ltrim (x :: l) = x :: l.
Proof. intros H. cbn [ltrim]. by rewrite H. Qed.
Lemma trim_token t x : is_blank x = false -> trim (b_ "token " ++ t ++ [x]) = b_ "token " ++ t ++ [x].
Proof.
  intros H. unfold trim. replace (ltrim (b_ "token " ++ t ++ [x])) with (b_ "token " ++ t ++ [x]) by done.
  rewrite app_assoc, rev_app_distr. cbn [rev app]. rewrite ltrim_id by done. cbn [rev]. by rewrite rev_involutive.
Qed.
Lemma printable_header c : 32 <= nat_of_ascii c <= 126 -> header_char c = true.
Proof. intros H. unfold header_char, code. apply andb_true_iff. split; [apply orb_true_iff; right; apply Nat.leb_le; lia|]. apply negb_true_iff, bool_decide_eq_false. lia. Qed.
Lemma own_token t : printable t -> t <> [] -> ~ ends_in_blank t -> proxy_header t = Some (b_ "token " ++ t).
Proof.
  intros Hp Hne Hb. destruct t as [|x t _] using rev_ind; [done|]. unfold proxy_header, send_header.
  assert (forallb header_char (b_ "token " ++ t ++ [x]) = true) as ->.
  { apply forallb_forall. intros c Hc. apply elem_of_list_In in Hc. apply elem_of_app in Hc as [Hc|Hc]; [|by apply printable_header, Hp].
    revert c Hc. apply Forall_forall. repeat constructor. }
  rewrite trim_token; [done|]. unfold is_blank. apply bool_decide_eq_false. intros [->|E].
  - apply Hb. by exists t.
  - assert (32 <= nat_of_ascii x <= 126) as Hx by (apply Hp, elem_of_app; right; left). unfold code in E. lia.
Qed.
Lemma check_token t h : check t h = Served <-> h = Some (b_ "token " ++ t).
Proof.
  split.
  - destruct h as [[|x h]|]; [done| |done]. unfold check. destruct (partition " " (x :: h)) as [[ty tok]|] eqn:E; [|done]. destruct (decide _) as [[-> ->]|]; [|done]. intros _.
    apply partition_some in E as [-> _]. done.
  - intros ->. unfold check. change (b_ "token " ++ t) with ("t"%char :: b_ "oken" ++ " "%char :: t). change ("t"%char :: b_ "oken" ++ " "%char :: t) with (b_ "token" ++ " "%char :: t) at 2.
    rewrite partition_app; [by rewrite decide_True|]. apply (bool_decide_unpack _). vm_compute. done.
Qed.
Lemma ltrim_length l : length (ltrim l) <= length l.
Proof. induction l as [|c l IH]; cbn [ltrim length]; [lia|]. destruct (is_blank c); cbn [length]; lia. Qed.
Lemma trim_shorter l c : is_blank c = true -> ltrim (l ++ [c]) = l ++ [c] -> length (trim (l ++ [c])) < length (l ++ [c]).
Proof.
  intros Hb E. unfold trim. rewrite E, rev_app_distr. change (rev [c] ++ rev l) with (c :: rev l). cbn [ltrim]. rewrite Hb, rev_length, app_length. cbn [length].
  pose proof (ltrim_length (rev l)) as HL. rewrite rev_length in HL. lia.
Qed.
Lemma bad_token t : ends_in_blank t \/ (exists c, c ∈ t /\ header_char c = false) -> match proxy_header t with Some h => check t (Some h) <> Served | None => True end.
Proof.
  intros Hb. unfold proxy_header, send_header. destruct (forallb _ _) eqn:Ef; [|done]. intros Hc0%check_token. assert (trim (b_ "token " ++ t) = b_ "token " ++ t) as Hc by congruence.
  clear Hc0. destruct Hb as [[s ->]|(c & Hc1 & Hc2)].
  - pose proof (trim_shorter (b_ "token " ++ s) " " eq_refl) as H. change [" "%char] with (b_ " ") in H. rewrite <- app_assoc in H. rewrite Hc in H. specialize (H eq_refl). lia.
  - rewrite forallb_forall in Ef. assert (header_char c = true); [|congruence]. apply Ef, elem_of_list_In, elem_of_app. by right.
Qed.
