From Coq Require Import Ascii String ZArith QArith.
From stdpp Require Import prelude.
From Verif Require Import Router_Model ProxyLog_Model Launch_Model Manifest_Model Manifest_Spec Manifest_Proofs2 Addr_Model Addr_Spec.
Local Open Scope nat_scope.

(** * Splitting. *)
Lemma partition_none c s : c ∉ s -> partition c s = None.
Proof.
  induction s as [|x s IH]; [done|]. intros H. apply not_elem_of_cons in H as [H1 H2]. cbn [partition].
  rewrite decide_False by congruence. by rewrite IH.
Qed.
Lemma partition_app c a b : c ∉ a -> partition c (a ++ c :: b) = Some (a, b).
Proof.
  induction a as [|x a IH]; intros H; cbn [app partition]; [by rewrite decide_True|].
  apply not_elem_of_cons in H as [H1 H2]. rewrite decide_False by congruence. by rewrite IH.
Qed.
Lemma rpartition_none c s : c ∉ s -> rpartition c s = None.
Proof. intros H. unfold rpartition. rewrite partition_none; [done|]. by rewrite <- elem_of_list_In, <- in_rev, elem_of_list_In || (rewrite elem_of_list_In, <- in_rev, <- elem_of_list_In). Qed.
Lemma rpartition_app c a b : c ∉ b -> rpartition c (a ++ c :: b) = Some (a, b).
Proof.
  intros H. unfold rpartition. rewrite rev_app_distr. cbn [rev]. rewrite <- app_assoc. cbn [app].
  rewrite partition_app; [by rewrite !rev_involutive|]. by rewrite elem_of_list_In, <- in_rev, <- elem_of_list_In.
Qed.
Lemma until_all stop a : Forall (fun c => stop c = false) a -> until stop a = (a, []).
Proof. induction a as [|x a IH]; [done|]. intros H. apply Forall_cons in H as [H1 H2]. cbn [until]. by rewrite H1, IH. Qed.
Lemma until_app stop a c b : Forall (fun c => stop c = false) a -> stop c = true -> until stop (a ++ c :: b) = (a, c :: b).
Proof.
  induction a as [|x a IH]; intros H Hc; cbn [app until]; [by rewrite Hc|]. apply Forall_cons in H as [H1 H2]. by rewrite H1, IH.
Qed.
Lemma until_tail stop a t : Forall (fun c => stop c = false) a -> (t = [] \/ exists c t', t = c :: t' /\ stop c = true) -> until stop (a ++ t) = (a, t).
Proof. intros H [->|(c & t' & -> & Hc)]; [rewrite app_nil_r; by apply until_all|by apply until_app]. Qed.

(** * Characters. *)
Lemma by_chars (l : bytes) (P : ascii -> bool) : forallb P l = true -> forall c, c ∈ l -> P c = true.
Proof. intros H c Hc. rewrite forallb_forall in H. apply H. by apply elem_of_list_In. Qed.
Lemma host_char_facts c : c ∈ host_chars ->
  c <> "@"%char /\ c <> "["%char /\ c <> "]"%char /\ c <> colon /\ c <> "%"%char /\ c <> slash /\ ends_netloc c = false /\ ends_path c = false.
Proof.
  intros H. pose proof (by_chars host_chars (fun c => bool_decide (c <> "@"%char /\ c <> "["%char /\ c <> "]"%char /\ c <> colon /\ c <> "%"%char /\ c <> slash /\ ends_netloc c = false /\ ends_path c = false))
    ltac:(vm_compute; done) c H) as E. by apply bool_decide_eq_true in E.
Qed.
Lemma plain_facts h c : plain_name h -> c ∈ h -> c <> "@"%char /\ c <> "["%char /\ c <> "]"%char /\ c <> colon /\ c <> "%"%char /\ c <> slash /\ ends_netloc c = false /\ ends_path c = false.
Proof. intros [_ H] Hc. rewrite Forall_forall in H. apply host_char_facts. by apply H. Qed.
Lemma scheme_facts s : scheme_ok s -> colon ∉ s /\ exists c s', s = c :: s' /\ is_alpha c = true /\ forallb is_scheme_char s = true.
Proof.
  intros [(c & s' & -> & Hc) H]. rewrite Forall_forall in H. split.
  - intros Hn. apply H in Hn. revert Hn. apply (bool_decide_unpack (_ ∉ _)). vm_compute. done.
  - exists c, s'. split; [done|]. split.
    + revert c Hc H. intros c Hc _. revert c Hc. apply by_chars. vm_compute. done.
    + apply forallb_forall. intros x Hx. apply elem_of_list_In, H in Hx. revert x Hx. apply by_chars. vm_compute. done.
Qed.

(** * Numbers. *)
Lemma digits_number l : forall acc v, digits acc l = Some v -> number acc l = v /\ forallb is_digit l = true.
Proof.
  induction l as [|x l IH]; intros acc v H; cbn [digits number forallb] in *; [by injection H as ->|].
  destruct ((48 <=? Z.of_nat (nat_of_ascii x))%Z && (Z.of_nat (nat_of_ascii x) <=? 57)%Z) eqn:E; [|done].
  apply andb_true_iff in E as [E1 E2]. apply Z.leb_le in E1, E2. destruct (IH _ _ H) as [H1 H2]. unfold code in *. rewrite H1, H2. split; [done|].
  unfold is_digit, code. rewrite (proj2 (Nat.leb_le _ _)) by lia. by rewrite (proj2 (Nat.leb_le _ _)) by lia.
Qed.
Lemma dec_number z : (0 <= z)%Z -> number 0 (dec z) = z /\ forallb is_digit (dec z) = true.
Proof. intros H. apply digits_number. by apply dec_digits. Qed.
Lemma dec_nonempty z : (0 <= z)%Z -> dec z <> [].
Proof.
  intros H E. pose proof (dec_digits z H) as D. rewrite E in D. cbn [digits] in D. injection D as <-. vm_compute in E. done.
Qed.
Lemma digit_facts c : is_digit c = true -> c ∈ host_chars.
Proof.
  intros H. unfold is_digit, code in H. apply andb_true_iff in H as [H1 H2]. apply Nat.leb_le in H1, H2.
  rewrite <- (ascii_nat_embedding c). remember (nat_of_ascii c) as n. clear Heqn c.
  assert (n = 48 \/ n = 49 \/ n = 50 \/ n = 51 \/ n = 52 \/ n = 53 \/ n = 54 \/ n = 55 \/ n = 56 \/ n = 57) as Hn by lia.
  repeat destruct Hn as [->|Hn]; try subst n; apply (bool_decide_unpack _); vm_compute; done.
Qed.
Lemma dec_plain z : (0 <= z)%Z -> plain_name (dec z).
Proof.
  intros H. split; [by apply dec_nonempty|]. apply Forall_forall. intros c Hc. apply digit_facts.
  destruct (dec_number z H) as [_ D]. rewrite forallb_forall in D. apply D. by apply elem_of_list_In.
Qed.

(** * Parsing addresses. *)
Lemma split_scheme_ok s rest : scheme_ok s -> split_scheme (s ++ colon :: rest) = (lower s, rest).
Proof.
  intros H. destruct (scheme_facts s H) as [H1 (c & s' & -> & H2 & H3)]. unfold split_scheme. rewrite partition_app by done.
  by rewrite H2, H3.
Qed.
Definition authority (user : option bytes) (host : bytes) (port : option Z) : bytes :=
  (match user with Some u => u ++ b_ "@" | None => [] end) ++ host ++ (match port with Some n => b_ ":" ++ dec n | None => [] end).
Definition hp (host : bytes) (port : option Z) : bytes := host ++ (match port with Some n => b_ ":" ++ dec n | None => [] end).
Definition optport_ok (p : option Z) : Prop := match p with Some n => port_ok n | None => True end.
Lemma hp_char host port c : plain_name host -> optport_ok port -> c ∈ hp host port -> c = colon \/ c ∈ host_chars.
Proof.
  intros [_ Hh] Hp H. rewrite Forall_forall in Hh. unfold hp in H. apply elem_of_app in H as [H|H]; [right; by apply Hh|].
  destruct port as [n|]; [|by apply elem_of_nil in H]. apply elem_of_app in H as [H|H].
  - left. by apply elem_of_list_singleton in H.
  - right. destruct (dec_plain n (proj1 Hp)) as [_ D]. rewrite Forall_forall in D. by apply D.
Qed.
Lemma hp_facts host port c : plain_name host -> optport_ok port -> c ∈ hp host port -> c <> "@"%char /\ c <> "["%char /\ c <> "]"%char /\ ends_netloc c = false.
Proof.
  intros Hh Hp H. destruct (hp_char _ _ _ Hh Hp H) as [->|Hc]; [split_and!; vm_compute; congruence|].
  destruct (host_char_facts c Hc) as (? & ? & ? & _ & _ & _ & ? & _). done.
Qed.
Lemma user_facts u c : user_ok (Some u) -> c ∈ u -> c <> "["%char /\ c <> "]"%char /\ ends_netloc c = false.
Proof.
  intros H Hc. cbn [user_ok] in H. rewrite Forall_forall in H. specialize (H c Hc). split_and!.
  - intros ->. apply H. apply (bool_decide_unpack _). vm_compute. done.
  - intros ->. apply H. apply (bool_decide_unpack _). vm_compute. done.
  - unfold ends_netloc. apply bool_decide_false. intros Hn. apply H. repeat (apply elem_of_cons in Hn as [->|Hn]; [apply (bool_decide_unpack _); vm_compute; done|]). by apply elem_of_nil in Hn.
Qed.
Lemma authority_facts user host port c : user_ok user -> plain_name host -> optport_ok port -> c ∈ authority user host port ->
  c <> "["%char /\ c <> "]"%char /\ ends_netloc c = false.
Proof.
  intros Hu Hh Hp H. unfold authority in H. apply elem_of_app in H as [H|H].
  - destruct user as [u|]; [|by apply elem_of_nil in H]. apply elem_of_app in H as [H|H]; [by eapply user_facts|].
    apply elem_of_list_singleton in H as ->. split_and!; vm_compute; congruence.
  - destruct (hp_facts _ _ _ Hh Hp H) as (_ & ? & ? & ?). done.
Qed.
Lemma tail_stops t : tail_ok t -> t = [] \/ exists c t', t = c :: t' /\ ends_netloc c = true.
Proof. intros [->|(c & t' & -> & Hc)]; [by left|right]. exists c, t'. split; [done|]. unfold ends_netloc. by apply bool_decide_true. Qed.
Lemma urlparse_web scheme user host port tail : scheme_ok scheme -> user_ok user -> plain_name host -> optport_ok port -> tail_ok tail ->
  urlparse (web_address scheme user host port tail) = Ok (Url (lower scheme) (authority user host port) (fst (until ends_path tail))).
Proof.
  intros Hs Hu Hh Hp Ht. unfold urlparse.
  replace (web_address scheme user host port tail) with (scheme ++ colon :: "/"%char :: "/"%char :: (authority user host port ++ tail)).
  2: { unfold web_address, authority. rewrite <- !app_assoc. done. }
  rewrite split_scheme_ok by done. rewrite until_tail; [| |by apply tail_stops].
  - rewrite !bool_decide_false; [done| |]; intros Hn; destruct (authority_facts _ _ _ _ Hu Hh Hp Hn) as (? & ? & _); congruence.
  - apply Forall_forall. intros c Hc. by destruct (authority_facts _ _ _ _ Hu Hh Hp Hc) as (_ & _ & ?).
Qed.
Lemma hostinfo_ok user host port : plain_name host -> optport_ok port ->
  hostinfo (authority user host port) = (host, match port with Some n => dec n | None => [] end).
Proof.
  intros Hh Hp. unfold hostinfo. assert (E : match rpartition "@" (authority user host port) with Some (_, h) => h | None => authority user host port end = hp host port).
  { assert (N : "@"%char ∉ hp host port) by (intros Hn; destruct (hp_facts _ _ _ Hh Hp Hn) as (? & _); congruence).
    destruct user as [u|].
    - assert (A : authority (Some u) host port = u ++ "@"%char :: hp host port) by (unfold authority; by rewrite <- app_assoc).
      rewrite A. by rewrite rpartition_app.
    - change (authority None host port) with (hp host port). by rewrite rpartition_none. }
  rewrite E, partition_none; [|intros Hn; destruct (hp_facts _ _ _ Hh Hp Hn) as (_ & ? & _); congruence].
  assert (N : colon ∉ host) by (intros Hn; destruct (plain_facts _ _ Hh Hn) as (_ & _ & _ & ? & _); congruence).
  unfold hp. destruct port as [n|].
  - change (b_ ":" ++ dec n) with (colon :: dec n). by rewrite partition_app.
  - rewrite app_nil_r. by rewrite partition_none.
Qed.
Lemma hostname_ok scheme user host port path : plain_name host -> optport_ok port ->
  hostname (Url scheme (authority user host port) path) = Some (lower host).
Proof.
  intros Hh Hp. unfold hostname. cbn [u_netloc]. rewrite hostinfo_ok by done. cbn [fst].
  destruct host as [|x host]; [by destruct Hh|].
  by rewrite partition_none by (intros Hn; destruct (plain_facts _ _ Hh Hn) as (_ & _ & _ & _ & ? & _); congruence).
Qed.
Lemma port_of_ok scheme user host port path : plain_name host -> optport_ok port -> Addr_Model.port (Url scheme (authority user host port) path) = Ok port.
Proof.
  intros Hh Hp. unfold Addr_Model.port. cbn [u_netloc]. rewrite hostinfo_ok by done. cbn [snd]. destruct port as [n|]; [|done].
  destruct (dec_number n (proj1 Hp)) as [D1 D2]. pose proof (dec_nonempty n (proj1 Hp)). destruct (dec n) as [|x l] eqn:E; [done|]. rewrite D2. cbn zeta. rewrite D1.
  rewrite (proj2 (Z.leb_le _ _)); [done|]. apply Hp.
Qed.

(** * Trailing slashes. *)
Lemma strip_l_app a b : head a <> Some slash -> a <> [] -> strip_l (a ++ b) = a ++ b.
Proof. destruct a as [|x a]; [done|]. cbn. intros H _. rewrite decide_False by congruence. done. Qed.
Lemma strip_l_rep n a : strip_l (replicate n slash ++ a) = strip_l a.
Proof. induction n as [|n IH]; [done|]. cbn [replicate app]. unfold strip_l in *. by rewrite decide_True. Qed.
Lemma last_rev_head {A} (l : list A) : head (rev l) = last l.
Proof.
  induction l as [|x l IH] using rev_ind; [done|]. rewrite rev_app_distr. cbn. by rewrite last_snoc.
Qed.
Lemma rev_rep {A} n (x : A) : rev (replicate n x) = replicate n x.
Proof. rewrite rev_alt, <- rev_alt. induction n as [|n IH]; [done|]. cbn [replicate rev]. rewrite IH. clear. induction n; [done|]. cbn [replicate app]. by rewrite IHn. Qed.
Lemma rstrip_slashes s n : last s <> Some slash -> rstrip (s ++ replicate n slash) = s.
Proof.
  intros H. unfold rstrip. rewrite rev_app_distr, rev_rep, strip_l_rep. destruct (decide (s = [])) as [->|Hn]; [done|].
  rewrite <- (app_nil_r (rev s)), strip_l_app, app_nil_r; [apply rev_involutive|by rewrite last_rev_head|].
  intros E. apply Hn. rewrite <- (rev_involutive s), E. done.
Qed.
Lemma rstrip_split s : exists n, s = rstrip s ++ replicate n slash /\ last (rstrip s) <> Some slash.
Proof.
  induction s as [|x s (n & E & L)] using rev_ind; [by exists 0|]. destruct (decide (x = slash)) as [->|Hx].
  - exists (S n). assert (R : rstrip (s ++ [slash]) = rstrip s).
    { rewrite E at 1. rewrite <- app_assoc. replace (replicate n slash ++ [slash]) with (replicate (S n) slash) by (rewrite <- replicate_S_end; done). by apply rstrip_slashes. }
    rewrite R. split; [|done]. rewrite E at 1. rewrite <- app_assoc. f_equal. by rewrite replicate_S_end.
  - exists 0. assert (R : rstrip (s ++ [x]) = s ++ [x]).
    { pose proof (rstrip_slashes (s ++ [x]) 0) as R. cbn [replicate] in R. rewrite app_nil_r in R. apply R. rewrite last_snoc. congruence. }
    rewrite R. split; [by rewrite app_nil_r|]. rewrite last_snoc. congruence.
Qed.
Lemma rstrip_idem s : rstrip (rstrip s) = rstrip s.
Proof. destruct (rstrip_split s) as (n & _ & L). pose proof (rstrip_slashes (rstrip s) 0 L) as R. cbn [replicate] in R. by rewrite app_nil_r in R. Qed.
Lemma rstrip_app a b : a <> [] -> last a <> Some slash -> rstrip (a ++ b) = a ++ rstrip b.
Proof.
  intros Ha Hl. destruct (rstrip_split b) as (n & E & L). rewrite E at 1. rewrite app_assoc. apply rstrip_slashes.
  destruct (decide (rstrip b = [])) as [Eb|Hb]; [by rewrite Eb, app_nil_r|]. rewrite last_app. destruct (last (rstrip b)) eqn:El; [done|]. by apply last_None in El.
Qed.
Lemma rstrip_tail t : tail_ok t -> tail_ok (rstrip t).
Proof.
  intros [->|(c & t' & -> & Hc)]; [by left|]. destruct (rstrip_split (c :: t')) as (n & E & _).
  destruct (rstrip (c :: t')) as [|x l]; [by left|]. right. exists x, l. split; [done|]. cbn [app] in E. by injection E as <- _.
Qed.
Lemma authority_nonempty user host port : plain_name host -> authority user host port <> [].
Proof. intros [H _] E. unfold authority in E. apply app_eq_nil in E as [_ E]. by apply app_eq_nil in E as [E _]. Qed.
Lemma hp_last host port : plain_name host -> optport_ok port -> hp host port <> [] /\ last (hp host port) <> Some slash.
Proof.
  intros Hh Hp. assert (N : hp host port <> []) by (intros E; apply app_eq_nil in E as [E _]; by destruct Hh). split; [done|].
  intros L. apply last_Some_elem_of in L. destruct (hp_char _ _ _ Hh Hp L) as [E|Hc]; [vm_compute in E; congruence|].
  destruct (host_char_facts _ Hc) as (_ & _ & _ & _ & _ & ? & _). done.
Qed.
Lemma web_split scheme user host port tail : web_address scheme user host port tail =
  ((scheme ++ b_ "://" ++ (match user with Some u => u ++ b_ "@" | None => [] end)) ++ hp host port) ++ tail.
Proof. unfold web_address, hp. by rewrite <- !app_assoc. Qed.
Lemma rstrip_web scheme user host port tail : plain_name host -> optport_ok port ->
  rstrip (web_address scheme user host port tail) = web_address scheme user host port (rstrip tail).
Proof.
  intros Hh Hp. rewrite !web_split. destruct (hp_last _ _ Hh Hp) as [H1 H2]. rewrite rstrip_app; [done| |].
  - intros E. by apply app_eq_nil in E as [_ E].
  - rewrite last_app. destruct (last (hp host port)) eqn:El; [done|]. by apply last_None in El.
Qed.
Lemma standard_ok scheme port : optport_ok port -> port_ok (standard_port scheme port).
Proof. unfold standard_port, port_ok. destruct port; [done|]. intros _. repeat case_decide; lia. Qed.
Lemma lower_plain h : plain_name h -> plain_name (lower h).
Proof.
  intros [H1 H2]. split; [by destruct h|]. rewrite Forall_forall in H2. apply Forall_forall. intros c Hc. unfold lower in Hc. apply elem_of_list_fmap in Hc as (x & -> & Hx).
  apply H2 in Hx. apply (bool_decide_unpack _). apply Is_true_true. revert x Hx. apply (by_chars host_chars (fun x => bool_decide (lower1 x ∈ host_chars))). vm_compute. done.
Qed.
Lemma lower_idem h : plain_name h -> lower (lower h) = lower h.
Proof.
  intros [_ H]. unfold lower. rewrite map_map. apply map_ext_in. intros c Hc. apply elem_of_list_In in Hc. rewrite Forall_forall in H. apply H in Hc.
  pose proof (by_chars host_chars (fun x => bool_decide (lower1 (lower1 x) = lower1 x)) ltac:(vm_compute; done) c Hc) as E. by apply bool_decide_eq_true in E.
Qed.
Lemma meant_ok scheme host port proxy h n : plain_name host -> optport_ok port -> means scheme host port proxy h n -> plain_name h /\ port_ok n.
Proof.
  intros Hh Hp H. destruct proxy as [|m|s]; cbn [means] in H.
  - destruct H as [-> ->]. split; [by apply lower_plain|by apply standard_ok].
  - destruct H as (-> & -> & ?). split; [by apply lower_plain|done].
  - destruct H as (? & ? & _). done.
Qed.
(** "host:port" has no network location for urlparse. *)
Lemma partition_spec c s a b : partition c s = Some (a, b) -> s = a ++ c :: b /\ c ∉ a.
Proof.
  revert a b. induction s as [|x s IH]; intros a b H; cbn [partition] in H; [done|]. destruct (decide (x = c)) as [->|Hx].
  - injection H as <- <-. split; [done|apply not_elem_of_nil].
  - destruct (partition c s) as [[a' b']|] eqn:E; [|done]. injection H as <- <-. destruct (IH _ _ eq_refl) as [-> H2]. split; [done|]. apply not_elem_of_cons. split; [congruence|done].
Qed.
Lemma rel_netloc s scheme : match s with x :: _ => x <> slash | [] => True end ->
  (match s with
  | "/"%char :: "/"%char :: rest' =>
      let '(netloc, rest'') := until ends_netloc rest' in
      if eqb (bool_decide ("["%char ∈ netloc)) (bool_decide ("]"%char ∈ netloc)) then Ok (Url scheme netloc (fst (until ends_path rest''))) else ValueError
  | _ => Ok (Url scheme [] (fst (until ends_path s)))
  end) = Ok (Url scheme [] (fst (until ends_path s))).
Proof. destruct s as [|[[] [] [] [] [] [] [] []] s]; try done. Qed.
Lemma urlparse_hp h n : plain_name h -> port_ok n -> exists u, urlparse (host_port h n) = Ok u /\ u_netloc u = [].
Proof.
  intros Hh Hn. assert (N : colon ∉ h) by (intros Hc; destruct (plain_facts _ _ Hh Hc) as (_ & _ & _ & ? & _); congruence).
  unfold urlparse, split_scheme. change (host_port h n) with (h ++ colon :: dec n). rewrite partition_app by done.
  assert (F : forall x l, plain_name (x :: l) -> x <> slash).
  { intros x l Hx. by destruct (plain_facts (x :: l) x Hx (elem_of_list_here _ _)) as (_ & _ & _ & _ & _ & ? & _). }
  destruct h as [|x h]; [by destruct Hh|]. destruct (_ && _); cbv iota beta zeta.
  - rewrite rel_netloc; [by eexists|]. pose proof (dec_plain n (proj1 Hn)) as D. destruct (dec n); [done|by eapply F].
  - rewrite rel_netloc; [by eexists|]. cbn [app]. by eapply F.
Qed.
Lemma netloc_ok scheme user host port tail proxy h n :
  scheme_ok scheme -> user_ok user -> plain_name host -> optport_ok port -> tail_ok tail -> means scheme host port proxy h n ->
  netloc_of (web_address scheme user host port tail) proxy = Ok (host_port h n).
Proof.
  intros Hs Hu Hh Hp Ht M. destruct proxy as [|m|s]; cbn [means netloc_of] in *.
  - destruct M as [-> ->]. rewrite urlparse_web by done. cbn [u_netloc]. rewrite port_of_ok, hostname_ok by done. cbn [u_scheme show].
    pose proof (authority_nonempty user host port Hh). destruct (authority user host port); [done|]. by destruct port.
  - destruct M as (-> & -> & _). rewrite urlparse_web by done. by rewrite hostname_ok by done.
  - destruct M as (H1 & H2 & [->|(s' & t & Hs' & Ht' & ->)]).
    + destruct (urlparse_hp h n H1 H2) as (u & -> & ->). done.
    + rewrite urlparse_web by done. cbn [u_netloc]. pose proof (authority_nonempty None h (Some n) H1). change (authority None h (Some n)) with (host_port h n) in *.
      by destruct (host_port h n).
Qed.
Lemma gateway_ok scheme user host port tail proxy h n public :
  scheme_ok scheme -> user_ok user -> plain_name host -> optport_ok port -> tail_ok tail -> means scheme host port proxy h n ->
  new_gateway (web_address scheme user host port tail) proxy public =
    Ok (Gateway (rstrip (web_address scheme user host port tail)) (b_ "gateway://" ++ host_port h n)
         (match public with Some p => rstrip p | None => rstrip (web_address scheme user host port tail) end)).
Proof.
  intros Hs Hu Hh Hp Ht M. unfold new_gateway. rewrite rstrip_web by done. rewrite (netloc_ok scheme user host port _ proxy h n) by (done || by apply rstrip_tail).
  rewrite urlparse_web by (done || by apply rstrip_tail). done.
Qed.
Lemma gateway_scheme : scheme_ok (b_ "gateway").
Proof. split; [exists "g"%char, (b_ "ateway"); split; [done|]|]; apply (bool_decide_unpack _); vm_compute; done. Qed.
Lemma starts_app p s : starts_with p (p ++ s) = true.
Proof. induction p as [|x p IH]; [done|]. cbn [app starts_with]. rewrite IH. by rewrite bool_decide_true. Qed.
Lemma starts_spec p s : starts_with p s = true -> exists r, s = p ++ r.
Proof.
  revert s. induction p as [|x p IH]; intros s H; [by exists s|]. destruct s as [|y s]; [done|]. cbn [starts_with] in H. apply andb_true_iff in H as [H1 H2].
  apply bool_decide_eq_true in H1 as ->. apply IH in H2 as [r ->]. by exists r.
Qed.
Lemma strip_plain n : plain_name n -> strip_slashes (slash :: n) = n.
Proof.
  intros H. assert (F : forall x, x ∈ n -> x <> slash) by (intros x Hx; by destruct (plain_facts _ _ H Hx) as (_ & _ & _ & _ & _ & ? & _)).
  assert (E : strip_l (slash :: n) = n).
  { change (slash :: n) with (replicate 1 slash ++ n). rewrite strip_l_rep. destruct n as [|x n]; [done|]. rewrite <- (app_nil_r (x :: n)). apply strip_l_app; [|done].
    cbn. intros E. injection E as E. apply (F x); [left|done]. }
  unfold strip_slashes. rewrite E. change (rev (strip_l (rev n))) with (rstrip n). pose proof (rstrip_slashes n 0) as R. cbn [replicate] in R. rewrite app_nil_r in R. apply R.
  intros L. apply last_Some_elem_of in L. by apply F in L.
Qed.
Lemma connection_ok h n name : plain_name h -> port_ok n -> plain_name name ->
  connection (b_ "gateway://" ++ host_port h n ++ slash :: name) = Ok (Some (lower h), Some n, server_name name).
Proof.
  intros Hh Hn Hm. unfold connection, parse_gateway_address. rewrite starts_app.
  replace (b_ "gateway://" ++ host_port h n ++ slash :: name) with (web_address (b_ "gateway") None h (Some n) (slash :: name)).
  2: { unfold web_address, host_port. rewrite <- !app_assoc. done. }
  assert (T : tail_ok (slash :: name)). { right. eexists _, _. split; [done|]. apply (bool_decide_unpack _). vm_compute. done. }
  rewrite urlparse_web by (done || apply gateway_scheme). cbn [u_path].
  assert (U : until ends_path (slash :: name) = (slash :: name, [])).
  { apply until_all. constructor; [vm_compute; done|]. apply Forall_forall. intros c Hc. by destruct (plain_facts _ _ Hm Hc) as (_ & _ & _ & _ & _ & _ & _ & ?). }
  rewrite U. cbn [fst]. rewrite port_of_ok, hostname_ok by done. by rewrite strip_plain.
Qed.
Lemma connection_loc h n name : plain_name h -> port_ok n -> plain_name name ->
  connection (host_port h n ++ slash :: name) = Ok (Some (lower h), Some n, server_name name).
Proof.
  intros Hh Hn Hm. rewrite <- (connection_ok h n name) by done. unfold connection, parse_gateway_address. rewrite starts_app.
  destruct (starts_with (b_ "gateway://") (host_port h n ++ slash :: name)) eqn:E; [|done]. exfalso. apply starts_spec in E as [r E].
  assert (N : colon ∉ h) by (intros Hc; destruct (plain_facts _ _ Hh Hc) as (_ & _ & _ & ? & _); congruence).
  assert (P1 : partition colon (host_port h n ++ slash :: name) = Some (h, dec n ++ slash :: name)).
  { unfold host_port. rewrite <- app_assoc. change ((b_ ":" ++ dec n) ++ slash :: name) with (colon :: dec n ++ slash :: name). by apply partition_app. }
  rewrite E in P1. change (b_ "gateway://" ++ r) with (b_ "gateway" ++ colon :: b_ "//" ++ r) in P1.
  rewrite partition_app in P1 by (apply (bool_decide_unpack _); vm_compute; done). injection P1 as _ P1.
  pose proof (dec_plain n (proj1 Hn)) as D. destruct (dec n) as [|x l]; [by destruct D|]. injection P1 as <- _.
  destruct (plain_facts _ "/"%char D ltac:(left)) as (_ & _ & _ & _ & _ & ? & _). done.
Qed.
