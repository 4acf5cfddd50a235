(** Proofs about the TCP side of the proxy. *)
From Coq Require Import Ascii Lia.
From stdpp Require Import prelude.
From Verif Require Import Router_Model ProxyLog_Model Sni_Model Sni_Spec.
Local Open Scope nat_scope.

Lemma conn_read_some n cs d cs' : conn_read n cs = Some (d, cs') -> concat cs = d ++ concat cs' /\ length d <= n /\ (0 < n -> d <> []).
Proof.
  induction cs as [|[|c l] cs IH]; simpl; [done|done|]. intros [= <- <-]. simpl. rewrite app_comm_cons, app_assoc. split.
  - f_equal. change (c :: l = take n (c :: l) ++ drop n (c :: l)). by rewrite take_drop.
  - split; [rewrite take_length; lia|]. destruct n; [lia|done].
Qed.
Lemma conn_read_none n cs : conn_read n cs = None -> concat cs = [].
Proof. induction cs as [|[|c l] cs IH]; simpl; [done|done|done]. Qed.

Section bufio.
Context (bufsize : nat) (Hsize : 5 <= bufsize).
Definition bstream (b : bufr) : bytes := b_buf b ++ concat (b_src b).
Definition bok (b : bufr) : Prop := length (b_buf b) <= bufsize /\ (b_err b = true -> concat (b_src b) = []).
Definition wstream (w : wrapped) : bytes := w_peeked w ++ concat (w_src w).

Lemma fill_spec b : bok b -> length (b_buf b) < bufsize ->
  bstream (fill bufsize b) = bstream b /\ bok (fill bufsize b) /\ (b_err (fill bufsize b) = true \/ length (b_buf b) < length (b_buf (fill bufsize b))).
Proof.
  intros [Hl He] Hlt. unfold fill, bstream, bok. destruct (conn_read _ _) as [[d src]|] eqn:E; simpl.
  - apply conn_read_some in E as (E & Hd & Hne). rewrite E. split; [by rewrite app_assoc|]. rewrite app_length. split; [split; [lia|]|].
    + intros Ht. apply He in Ht. rewrite E in Ht. by apply app_eq_nil in Ht as [_ ?].
    + right. specialize (Hne ltac:(lia)). destruct d; [done|simpl; lia].
  - apply conn_read_none in E. rewrite E. simpl. split; [done|]. split; [done|]. by left.
Qed.

Lemma peek_loop_spec fuel n b : bok b -> 2 + (bufsize - length (b_buf b)) <= fuel \/ (b_err b = true /\ 1 <= fuel) ->
  exists b', peek_loop bufsize fuel n b = Some b' /\ bstream b' = bstream b /\ bok b' /\ (n <= length (b_buf b') \/ bufsize <= length (b_buf b') \/ b_err b' = true).
Proof.
  revert b. induction fuel as [|f IH]; intros b Hb Hf; [lia|]. cbn [peek_loop].
  destruct (decide _) as [(H1 & H2 & H3)|Hn].
  - destruct (fill_spec b Hb H2) as (Hs & Hb' & Hg). destruct (IH (fill bufsize b) Hb') as (b' & E & Es & Eb & Ed).
    + destruct Hf as [Hf|[He _]]; [|congruence]. destruct Hg as [Hg|Hg]; [right; split; [done|lia]|]. left. destruct Hb' as [Hb' _]. lia.
    + exists b'. rewrite Es. auto.
  - exists b. split; [done|]. split; [done|]. split; [done|]. destruct (b_err b) eqn:E; [auto|].
    destruct (le_lt_dec n (length (b_buf b))); [auto|]. destruct (le_lt_dec bufsize (length (b_buf b))); [auto|]. exfalso. apply Hn. done.
Qed.

Lemma peek_spec n b : bok b -> exists d err b', peek bufsize n b = Some (d, err, b') /\ bstream b' = bstream b /\ bok b' /\
  (err = false <-> n <= bufsize /\ n <= length (bstream b)) /\ (err = false -> d = take n (bstream b)).
Proof.
  intros Hb. unfold peek. destruct (peek_loop_spec (S (S bufsize)) n b Hb) as (b' & -> & Es & Hb' & Hd); [left; lia|]. cbn [mbind option_bind].
  assert (Hlen : length (b_buf b') <= length (bstream b)) by (rewrite <- Es; unfold bstream; rewrite app_length; lia).
  destruct (decide (bufsize < n)) as [Hn|Hn].
  { do 3 eexists. split; [reflexivity|]. split; [done|]. split; [done|]. split; [split; [done|lia]|done]. }
  destruct (decide (length (b_buf b') < n)) as [Hn2|Hn2].
  - do 3 eexists. split; [reflexivity|]. split; [done|]. split; [split; [apply Hb'|done]|]. split; [|done]. split; [done|]. intros [_ Hle].
    destruct Hd as [Hd|[Hd|Hd]]; [lia|lia|]. apply Hb' in Hd. rewrite <- Es in Hle. unfold bstream in Hle. rewrite Hd, app_nil_r in Hle. lia.
  - do 3 eexists. split; [reflexivity|]. split; [done|]. split; [done|]. split; [split; [intros _; split; lia|done]|]. intros _. rewrite <- Es. unfold bstream. rewrite take_app_le by lia. done.
Qed.

Lemma wrapPeeked_spec b : bok b -> wrapPeeked bufsize b = Some (Wrapped (b_buf b) (b_src b)).
Proof.
  intros [Hb _]. unfold wrapPeeked, peek. cbn [peek_loop]. rewrite decide_False by lia. cbn [mbind option_bind].
  rewrite !decide_False by lia. cbn [mbind option_bind fst snd]. rewrite take_ge by lia. done.
Qed.

Lemma peek_err (n : nat) b d err b' : bok b -> peek bufsize n b = Some (d, err, b') ->
  bstream b' = bstream b /\ bok b' /\ (err = true -> bufsize < n \/ length (bstream b) < n) /\ (err = false -> n <= bufsize /\ n <= length (bstream b) /\ d = take n (bstream b)).
Proof.
  intros Hb E. destruct (peek_spec n b Hb) as (d1 & e1 & b1 & E1 & Es & Hb1 & Hiff & Hd). rewrite E1 in E. injection E as -> -> ->.
  split; [done|]. split; [done|]. split.
  - intros ->. destruct (le_lt_dec n bufsize); [|auto]. destruct (le_lt_dec n (length (bstream b))); [|auto]. assert (true = false) by (apply Hiff; done). done.
  - intros He. split; [|split]; [by apply Hiff|by apply Hiff|auto].
Qed.

(** What ReadSNI finds, in terms of the stream. *)
Lemma readsni_spec hello cs : exists r, ReadSNI bufsize hello cs = Some r /\
  match r with
  | SniErr => concat cs = []
  | Sni name isTLS w => concat cs <> [] /\ wstream w = concat cs /\
      (isTLS = false -> name = [] /\ forall rec, ~ first_record (concat cs) rec) /\
      (isTLS = true -> (exists rec, first_record (concat cs) rec /\ length rec <= bufsize /\ name = hello rec) \/
         (name = [] /\ forall rec, first_record (concat cs) rec -> bufsize < length rec))
  end.
Proof.
  unfold ReadSNI. set (b0 := Buf [] cs false). assert (Hb0 : bok b0) by (split; simpl; [lia|done]).
  assert (E0 : bstream b0 = concat cs) by done. destruct (peek bufsize 1 b0) as [[[d e] b1]|] eqn:P1; [|destruct (peek_spec 1 b0 Hb0) as (?&?&?&?&_); congruence].
  apply peek_err in P1 as (Es1 & Hb1 & He1 & Hn1); [|done]. rewrite E0 in *. cbn [mbind option_bind].
  destruct e.
  { exists SniErr. split; [done|]. destruct He1 as [He|He]; [done| |].
    - lia.
    - destruct (concat cs); [done|simpl in He; lia]. }
  destruct Hn1 as (_ & Hl & ->); [done|]. destruct (concat cs) as [|c0 st] eqn:Ec; [simpl in Hl; lia|].
  change (take 1 (c0 :: st) !! 0) with (Some c0). cbn [mbind option_bind].
  destruct (decide (c0 <> handshake)) as [Hc|Hc].
  { rewrite wrapPeeked_spec by done. cbn [mbind option_bind]. eexists. split; [reflexivity|]. cbv iota beta. split; [done|]. split; [exact Es1|]. split; [|done].
    intros _. split; [done|]. intros rec (v1 & v2 & h & l & body & rest & E & _). injection E as E _. done. }
  assert (c0 = handshake) as -> by (destruct (decide (c0 = handshake)); tauto). clear Hc.
  destruct (peek bufsize 5 b1) as [[[d5 e5] b2]|] eqn:P5; [|destruct (peek_spec 5 b1 Hb1) as (?&?&?&?&_); congruence].
  apply peek_err in P5 as (Es2 & Hb2 & He2 & Hn2); [|done]. cbn [mbind option_bind]. rewrite Es1 in *.
  destruct e5.
  { rewrite wrapPeeked_spec by done. cbn [mbind option_bind]. eexists. split; [reflexivity|]. cbv iota beta. split; [done|]. split; [exact Es2|]. split; [|done].
    intros _. split; [done|]. intros rec (v1 & v2 & h & l & body & rest & E & _). rewrite E in He2. destruct He2 as [He|He]; [done| |].
    - lia.
    - simpl in He. lia. }
  destruct Hn2 as (_ & Hl5 & ->); [done|]. destruct st as [|v1 [|v2 [|h [|l st]]]]; simpl in Hl5; try lia.
  change (take 5 (handshake :: v1 :: v2 :: h :: l :: st) !! 3) with (Some h). change (take 5 (handshake :: v1 :: v2 :: h :: l :: st) !! 4) with (Some l). cbn [mbind option_bind].
  set (n := nat_of_ascii h * 256 + nat_of_ascii l). destruct (peek bufsize (5 + n) b2) as [[[dr er] b3]|] eqn:PR; [|destruct (peek_spec (5 + n) b2 Hb2) as (?&?&?&?&_); congruence].
  apply peek_err in PR as (Es3 & Hb3 & He3 & Hn3); [|done]. rewrite Es2 in *. cbn [mbind option_bind]. rewrite wrapPeeked_spec by done. cbn [mbind option_bind].
  destruct er.
  - eexists. split; [reflexivity|]. cbv iota beta. split; [done|]. split; [exact Es3|]. split; [done|]. intros _. right. split; [done|].
    intros rec (v1' & v2' & h' & l' & body & rest & E & Hlen & ->). injection E as <- <- <- <- ->. fold n in Hlen. simpl. rewrite Hlen.
    destruct He3 as [He|He]; [done|lia|]. simpl in He. rewrite app_length in He. lia.
  - eexists. split; [reflexivity|]. cbv iota beta. split; [done|]. split; [exact Es3|]. split; [done|]. intros _. left.
    destruct Hn3 as (Hle & Hlen & ->); [done|]. simpl in Hlen. eexists. split; [|split; [|reflexivity]].
    + exists v1, v2, h, l, (take n st), (drop n st). split; [by rewrite take_drop|]. split; [rewrite take_length; fold n; lia|]. done.
    + rewrite take_length. simpl. lia.
Qed.

Lemma first_record_unique st r1 r2 : first_record st r1 -> first_record st r2 -> r1 = r2.
Proof.
  intros (v1 & v2 & h & l & body & rest & E & Hl & ->) (v1' & v2' & h' & l' & body' & rest' & E' & Hl' & ->). rewrite E in E'.
  injection E' as <- <- <- <- Eb. repeat f_equal. rewrite <- Hl' in Hl. apply app_inj_1 in Eb; [|done]. by destruct Eb.
Qed.

Lemma prefix_split (p name : bytes) : take (length p) name = p <-> exists c, name = p ++ c.
Proof. split; [intros E; exists (drop (length p) name); rewrite <- E at 1; by rewrite take_drop|]. intros (c & ->). by rewrite take_app. Qed.

(** C17. *)
Lemma handle_spec hello shared table dial cs : exists f, handleConnection bufsize hello shared table dial cs = Some f /\
  (forall w, continues f w -> wstream w = concat cs) /\
  (forall a, (exists w, f = FSpliced a w) <-> exists c, names_cluster bufsize hello (concat cs) c /\ dget c table = Some a /\ a <> [] /\ dial a = true) /\
  ((exists w, f = FHttp w) <-> shared = true /\ concat cs <> [] /\ forall c, ~ names_cluster bufsize hello (concat cs) c).
Proof.
  unfold handleConnection. destruct (readsni_spec hello cs) as (r & -> & Hr). cbn [mbind option_bind]. destruct r as [|name isTLS w].
  { eexists. split; [reflexivity|]. split; [intros w [?|[? ?]]; done|]. split; [|split; [by intros [? ?]|by intros (_ & ? & _)]].
    intros a. split; [by intros [? ?]|]. intros (c & (rec & (v1 & v2 & h & l & body & rest & E & _) & _) & _). rewrite Hr in E. done. }
  destruct Hr as (Hne & Hw & Hf & Ht).
  assert (Hnc : (isTLS = true /\ take (length sniPrefix) name = sniPrefix) <-> exists c, names_cluster bufsize hello (concat cs) c).
  { split.
    - intros [HT Hp]. apply prefix_split in Hp as (c & ->). destruct (Ht HT) as [(rec & H1 & H2 & H3)|[Hn _]]; [|done]. exists c, rec. done.
    - intros (c & rec & H1 & H2 & H3). destruct isTLS.
      + split; [done|]. apply prefix_split. destruct (Ht eq_refl) as [(rec' & R1 & _ & ->)|[_ Hbig]]; [|apply Hbig in H1; lia].
        rewrite (first_record_unique _ _ _ R1 H1), H3. eauto.
      + exfalso. by eapply Hf. }
  assert (Hcc : forall c, isTLS = true -> names_cluster bufsize hello (concat cs) c -> c = drop (length sniPrefix) name).
  { intros c HT (rec & R1 & R2 & R3). destruct (Ht HT) as [(rec' & R1' & _ & ->)|[_ Hbig]]; [|apply Hbig in R1; lia].
    rewrite (first_record_unique _ _ _ R1' R1), R3, drop_app. done. }
  destruct (negb isTLS || negb (bool_decide (take (length sniPrefix) name = sniPrefix))) eqn:Eb.
  - assert (Hno : forall c, ~ names_cluster bufsize hello (concat cs) c).
    { intros c Hc. assert (isTLS = true /\ take (length sniPrefix) name = sniPrefix) as [HT Hp] by (apply Hnc; eauto). rewrite HT, bool_decide_eq_true_2 in Eb by done. done. }
    destruct shared; eexists; (split; [reflexivity|]); (split; [|split]).
    + intros w' [E|[? E]]; [|done]. by injection E as <-.
    + intros a. split; [by intros [? ?]|]. intros (c & Hc & _). by apply Hno in Hc.
    + split; [done|]. intros _. eauto.
    + intros w' [?|[? ?]]; done.
    + intros a. split; [by intros [? ?]|]. intros (c & Hc & _). by apply Hno in Hc.
    + split; [by intros [? ?]|by intros [? _]].
  - apply orb_false_iff in Eb as [E1 E2]. apply negb_false_iff in E1, E2. apply bool_decide_eq_true in E2.
    assert (Hex : exists c, names_cluster bufsize hello (concat cs) c) by (by apply Hnc). 
    assert (Hyes : names_cluster bufsize hello (concat cs) (drop (length sniPrefix) name)) by (destruct Hex as (c & Hc); by rewrite <- (Hcc c)).
    assert (Hnh : forall f', f' = FClosed \/ (exists a w', f' = FSpliced a w') -> (exists w', f' = FHttp w') <-> shared = true /\ concat cs <> [] /\ forall c, ~ names_cluster bufsize hello (concat cs) c).
    { intros f' Hf'. split; [intros [? ->]; destruct Hf' as [|(? & ? & ?)]; done|]. intros (_ & _ & Hno). by apply Hno in Hyes. }
    assert (Hnone : (forall a, dget (drop (length sniPrefix) name) table = Some a -> a <> [] -> dial a = true -> False) ->
       exists f, Some FClosed = Some f /\ (forall w, continues f w -> wstream w = concat cs) /\
       (forall a, (exists w, f = FSpliced a w) <-> exists c, names_cluster bufsize hello (concat cs) c /\ dget c table = Some a /\ a <> [] /\ dial a = true) /\
       ((exists w, f = FHttp w) <-> shared = true /\ concat cs <> [] /\ forall c, ~ names_cluster bufsize hello (concat cs) c)).
    { intros Hd. exists FClosed. split; [done|]. split; [intros w' [?|[? ?]]; done|]. split; [|apply Hnh; by left].
      intros a. split; [by intros [? ?]|]. intros (c & Hc & H1 & H2 & H3). rewrite (Hcc c E1 Hc) in H1. exfalso. eauto. }
    destruct (dget _ table) as [[|a0 al]|] eqn:Eg; [apply Hnone; intros a [= <-]; done| |apply Hnone; done].
    destruct (dial (a0 :: al)) eqn:Ed; [|apply Hnone; intros a [= <-] _; congruence].
    eexists. split; [reflexivity|]. split; [intros w' [?|[? [= _ <-]]]; done|]. split; [|apply Hnh; eauto].
    intros a. split.
    + intros [w' [= <- _]]. eauto 6.
    + intros (c & Hc & H1 & _). rewrite (Hcc c E1 Hc), Eg in H1. injection H1 as <-. eauto.
Qed.

Lemma handle_total hello shared table dial cs : is_Some (handleConnection bufsize hello shared table dial cs).
Proof. destruct (handle_spec hello shared table dial cs) as (f & -> & _). eauto. Qed.
Lemma spliced_iff hello shared table dial cs a :
  (exists w, handleConnection bufsize hello shared table dial cs = Some (FSpliced a w)) <->
  exists c, names_cluster bufsize hello (concat cs) c /\ dget c table = Some a /\ a <> [] /\ dial a = true.
Proof.
  destruct (handle_spec hello shared table dial cs) as (f & -> & _ & H & _). rewrite <- H. split; intros [w E]; exists w; congruence.
Qed.
Lemma http_iff hello shared table dial cs :
  (exists w, handleConnection bufsize hello shared table dial cs = Some (FHttp w)) <->
  shared = true /\ concat cs <> [] /\ forall c, ~ names_cluster bufsize hello (concat cs) c.
Proof.
  destruct (handle_spec hello shared table dial cs) as (f & -> & _ & _ & H). rewrite <- H. split; intros [w E]; exists w; congruence.
Qed.

(** C16. *)
Lemma wread_some n w d w' : wread n w = Some (d, w') -> wstream w = d ++ wstream w' /\ (0 < n -> d <> []).
Proof.
  unfold wread, wstream. destruct (w_peeked w) as [|c pk].
  - destruct (conn_read n (w_src w)) as [[d1 src]|] eqn:E; [|done]. cbn [mbind option_bind]. intros [= <- <-]. apply conn_read_some in E as (E & _ & Hne). done.
  - intros [= <- <-]. cbn [w_peeked w_src]. rewrite app_assoc. split.
    + by rewrite take_drop.
    + destruct n; [lia|done].
Qed.
Lemma wread_none n w : wread n w = None -> wstream w = [].
Proof.
  unfold wread, wstream. destruct (w_peeked w) as [|c pk]; [|done]. destruct (conn_read n (w_src w)) as [[d1 src]|] eqn:E; [done|]. intros _. by apply conn_read_none in E.
Qed.
Lemma reads_spec ns w ds e : reads ns w = (ds, e) -> exists rest, wstream w = concat ds ++ rest /\ (e = true -> rest = []) /\
  (Forall (fun n => 0 < n) ns -> Forall (fun d => d <> []) ds /\ (length (wstream w) < length ns -> e = true)).
Proof.
  revert w ds e. induction ns as [|n ns IH]; intros w ds e; simpl.
  - intros [= <- <-]. exists (wstream w). split; [done|]. split; [done|]. intros _. split; [constructor|lia].
  - destruct (wread n w) as [[d w']|] eqn:E.
    + destruct (reads ns w') as [ds' e'] eqn:E'. simpl. intros [= <- <-]. apply wread_some in E as [Es Hne].
      destruct (IH w' ds' e' E') as (rest & Hs & Hr & Hf). exists rest. split; [rewrite Es, Hs; simpl; by rewrite app_assoc|]. split; [done|].
      intros Hns. apply Forall_cons in Hns as [Hn Hns]. destruct (Hf Hns) as [Hd Hlt]. split; [constructor; auto|].
      rewrite Es, app_length. intros Hl. apply Hlt. specialize (Hne Hn). destruct d; [done|simpl in *; lia].
    + intros [= <- <-]. apply wread_none in E. exists []. rewrite E. split; [done|]. split; [done|]. intros _. split; [constructor|done].
Qed.
Lemma passthrough hello shared table dial cs f w ns ds e :
  handleConnection bufsize hello shared table dial cs = Some f -> continues f w -> reads ns w = (ds, e) ->
  (exists rest, concat cs = concat ds ++ rest) /\ (e = true -> concat ds = concat cs) /\
  (Forall (fun n => 0 < n) ns -> Forall (fun d => d <> []) ds /\ (length (concat cs) < length ns -> e = true)).
Proof.
  intros Hh Hc Hr. destruct (handle_spec hello shared table dial cs) as (f' & Hf' & Hw & _). rewrite Hh in Hf'. injection Hf' as <-. specialize (Hw w Hc).
  apply reads_spec in Hr as (rest & Hs & He & Hf). rewrite Hw in *. split; [eauto|]. split; [|done]. intros ->. rewrite Hs, He, app_nil_r; done.
Qed.

End bufio.

(** * The spliced connection *)
Definition dir_ok (px py : peer) : Prop :=
  e_read px <= length (e_sent px) /\
  (exists k, k <= e_read px /\ e_got py = take k (e_sent px) /\ (e_copying px = true -> k = e_read px)).
(** Goroutine [x] ended: it read and delivered everything, or the other ended. *)
Definition end_ok (px py : peer) : Prop :=
  (e_copying px = false -> (e_fin px = true /\ e_got py = e_sent px) \/ (e_fin py = true /\ e_got px = e_sent py)) /\
  (e_rd px = true -> e_copying py = false) /\ (e_wr px = true -> e_copying px = false) /\
  (e_copying px = false -> e_wr px = true) /\ (e_copying px = false -> e_rd py = true).
Definition sp_inv (s : splice) : Prop :=
  dir_ok (sp_client s) (sp_sched s) /\ dir_ok (sp_sched s) (sp_client s) /\ end_ok (sp_client s) (sp_sched s) /\ end_ok (sp_sched s) (sp_client s).
Definition sym_inv (px py : peer) : Prop := dir_ok px py /\ dir_ok py px /\ end_ok px py /\ end_ok py px.
Lemma sp_inv_sym x s : sp_inv s <-> sym_inv (sp_get x s) (sp_get (other x) s).
Proof. destruct x; unfold sp_inv, sym_inv; simpl; tauto. Qed.
Lemma get_set_same x p s : sp_get x (sp_set x p s) = p.
Proof. by destruct x. Qed.
Lemma get_set_other x p s : sp_get x (sp_set (other x) p s) = sp_get x s.
Proof. by destruct x. Qed.
Lemma get_set_other2 x p s : sp_get (other x) (sp_set x p s) = sp_get (other x) s.
Proof. by destruct x. Qed.
Lemma other_other x : other (other x) = x.
Proof. by destruct x. Qed.

Lemma copy_ends_get x s : sp_get x (copy_ends x s) = let p := sp_get x s in Peer (e_sent p) (e_fin p) (e_read p) (e_got p) (e_rd p) true false.
Proof. unfold copy_ends. rewrite get_set_other, get_set_same. done. Qed.
Lemma copy_ends_other x s : sp_get (other x) (copy_ends x s) = let p := sp_get (other x) s in Peer (e_sent p) (e_fin p) (e_read p) (e_got p) true (e_wr p) (e_copying p).
Proof. unfold copy_ends. rewrite get_set_same, get_set_other2. done. Qed.

Lemma take_snoc_read (l : bytes) r n d : r <= length l -> take n (drop r l) = d -> take r l ++ d = take (r + length d) l /\ r + length d <= length l.
Proof.
  intros Hr <-. rewrite take_length, drop_length. split; [|lia].
  assert (E : take (r + n `min` (length l - r)) l = take (r + n) l).
  { destruct (le_lt_dec n (length l - r)); [by rewrite Nat.min_l|]. rewrite Nat.min_r by lia. rewrite !take_ge; done || lia. }
  rewrite E. clear E. revert r Hr. induction l as [|a l IH]; intros r Hr; simpl in Hr.
  - assert (r = 0) as -> by lia. simpl. by rewrite take_nil.
  - destruct r; [done|]. simpl. f_equal. apply IH. lia.
Qed.

Lemma sp_inv_step s e : sp_inv s -> sp_inv (splice_step s e).
Proof.
  destruct e as [x bs|x|x n b]; cbn [splice_step]; intros Hi.
  - destruct (e_fin (sp_get x s)) eqn:Ef; [done|]. apply (sp_inv_sym x) in Hi. apply (sp_inv_sym x). rewrite get_set_same, get_set_other2.
    destruct Hi as ((D1 & k & K1 & K2 & K3) & D2 & E1 & E2). unfold sym_inv, dir_ok, end_ok in *. simpl. split; [|split; [|split]].
    + rewrite app_length. split; [lia|]. exists k. split; [done|]. split; [|done]. rewrite take_app_le by lia. done.
    + done.
    + destruct E1 as (A & B & C). split; [|done]. intros Hc. destruct (A Hc) as [[? _]|?]; [congruence|by right].
    + destruct E2 as (A & B & C). split; [|done]. intros Hc. destruct (A Hc) as [?|[? _]]; [by left|congruence].
  - apply (sp_inv_sym x) in Hi. apply (sp_inv_sym x). rewrite get_set_same, get_set_other2.
    destruct Hi as (D1 & D2 & E1 & E2). unfold sym_inv, dir_ok, end_ok in *. simpl. split; [done|]. split; [done|]. split.
    + destruct E1 as (A & B). split; [|done]. intros Hc. destruct (A Hc) as [[? ?]|?]; auto.
    + destruct E2 as (A & B). split; [|done]. intros Hc. destruct (A Hc) as [?|[? ?]]; auto.
  - destruct (e_copying (sp_get x s)) eqn:Ec; [|done].
    assert (Hend : forall s', sp_inv s' \/ True -> True) by done. clear Hend.
    apply (sp_inv_sym x) in Hi. set (px := sp_get x s) in *. set (py := sp_get (other x) s) in *.
    destruct Hi as ((D1 & k & K1 & K2 & K3) & (D2 & k' & K1' & K2' & K3') & (A1 & A2 & A3 & A4 & A5) & (B1 & B2 & B3 & B4 & B5)).
    specialize (K3 Ec). subst k.
    (* the goroutine ends *)
    assert (HE : forall s1, sp_get (other x) s1 = py -> (exists r, e_read px <= r <= length (e_sent px) /\ sp_get x s1 = Peer (e_sent px) (e_fin px) r (e_got px) (e_rd px) (e_wr px) true) ->
              (e_fin px = true /\ e_got py = e_sent px) \/ (e_copying py = false) -> sp_inv (copy_ends x s1)).
    { intros s1 Ey (r & Hr & Ex) Hwhy. apply (sp_inv_sym x). rewrite copy_ends_get, copy_ends_other, Ex, Ey. unfold sym_inv, dir_ok, end_ok. simpl.
      split; [split; [lia|]; exists (e_read px); split; [lia|]; split; [done|done]|].
      split; [split; [done|]; exists k'; done|].
      split; [split; [|split; [|done]]|split; [|split; [done|split; [done|split; [done|]]]]].
      - intros _. destruct Hwhy as [?|Hc]; [by left|]. destruct (B1 Hc) as [[? ?]|[? ?]]; auto.
      - intros Hrd. auto.
      - intros Hc. destruct (B1 Hc) as [[? ?]|[? ?]]; auto.
      - intros Hc. auto. }
    assert (Hself : exists r, e_read px <= r <= length (e_sent px) /\ px = Peer (e_sent px) (e_fin px) r (e_got px) (e_rd px) (e_wr px) true).
    { exists (e_read px). split; [lia|]. rewrite <- Ec. by destruct px. }
    destruct (e_rd px && b) eqn:Er.
    { apply andb_prop in Er as [Er _]. apply HE; [done|done|]. right. auto. }
    destruct (take n (drop (e_read px) (e_sent px))) as [|d0 d] eqn:Ed.
    + destruct (decide (e_read px = length (e_sent px))) as [Hall|]; [|apply (sp_inv_sym x); fold px py; unfold sym_inv, dir_ok, end_ok; eauto 20].
      destruct (e_fin px || e_rd px) eqn:Eo; [|apply (sp_inv_sym x); fold px py; unfold sym_inv, dir_ok, end_ok; eauto 20].
      apply HE; [done|done|]. apply orb_prop in Eo as [Ef|Er2]; [left|right; auto]. split; [done|]. rewrite K2, Hall. by rewrite take_ge.
    + destruct (take_snoc_read _ _ _ _ D1 Ed) as [T1 T2]. rewrite !get_set_other2. fold py. destruct (e_wr py) eqn:Ew.
      * apply HE; [by rewrite get_set_other2| |right; auto]. exists (e_read px + length (d0 :: d)). split; [lia|]. by rewrite get_set_same.
      * apply (sp_inv_sym x). rewrite get_set_other, !get_set_same. unfold sym_inv, dir_ok, end_ok. simpl.
        split; [split; [exact T2|]; exists (e_read px + length (d0 :: d)); split; [done|]; split; [rewrite K2; exact T1|done]|].
        split; [split; [done|]; exists k'; done|].
        split.
        -- split; [done|]. split; [done|]. split; [intros Hw; specialize (A3 Hw); congruence|done].
        -- split; [|split; [intros Hw; specialize (B2 Hw); congruence|split; [congruence|split; [intros Hw; specialize (B4 Hw); congruence|done]]]].
           intros Hc. specialize (B4 Hc). congruence.
Qed.

Lemma sp_inv_run es s : sp_inv s -> sp_inv (splice_run s es).
Proof. revert s. induction es as [|e es IH]; intros s Hs; simpl; [done|]. apply IH. by apply sp_inv_step. Qed.
Lemma sp_inv_init : sp_inv splice_init.
Proof. unfold sp_inv, dir_ok, end_ok. simpl. repeat split; try done; try lia; exists 0; repeat split; lia. Qed.

Lemma splice_prefix es x : got (other x) (splice_run splice_init es) `prefix_of` sent x (splice_run splice_init es).
Proof.
  pose proof (sp_inv_run es _ sp_inv_init) as Hi. apply (sp_inv_sym x) in Hi as ((_ & k & _ & Hk & _) & _). unfold got, sent. rewrite Hk. exists (drop k (e_sent (sp_get x (splice_run splice_init es)))). by rewrite take_drop.
Qed.
(** A goroutine that ended delivered everything, unless the other peer finished first. *)
Lemma splice_complete es x : let s := splice_run splice_init es in
  ~ copying_from x s -> ~ finished_sending (other x) s -> got (other x) s = sent x s /\ finished_sending x s.
Proof.
  intros s Hc Hf. pose proof (sp_inv_run es _ sp_inv_init) as Hi. apply (sp_inv_sym x) in Hi as (_ & _ & (A & _) & _). unfold copying_from, finished_sending, got, sent in *.
  fold s in A. destruct (e_copying (sp_get x s)); [done|]. destruct (A eq_refl) as [[? ?]|[? _]]; done.
Qed.
(** While neither finished, both goroutines run, and one turn with a large enough
    buffer delivers what is there. *)
Lemma splice_live es x n b : let s := splice_run splice_init es in
  ~ finished_sending Client s -> ~ finished_sending Scheduler s -> length (sent x s) <= n ->
  got (other x) (splice_step s (Copy x n b)) = sent x s.
Proof.
  intros s H1 H2 Hn. pose proof (sp_inv_run es _ sp_inv_init) as Hi. fold s in Hi. apply (sp_inv_sym x) in Hi as ((D1 & k & K1 & K2 & K3) & _ & (A1 & A2 & A3 & _) & (B1 & B2 & B3 & B4 & B5)).
  unfold finished_sending, sent, got in *.
  assert (Fx : e_fin (sp_get x s) <> true) by (by destruct x). assert (Fy : e_fin (sp_get (other x) s) <> true) by (by destruct x).
  assert (Cx : e_copying (sp_get x s) = true) by (destruct (e_copying (sp_get x s)); [done|]; destruct (A1 eq_refl) as [[? _]|[? _]]; done).
  assert (Cy : e_copying (sp_get (other x) s) = true) by (destruct (e_copying (sp_get (other x) s)); [done|]; destruct (B1 eq_refl) as [[? _]|[? _]]; done).
  assert (Rx : e_rd (sp_get x s) = false) by (destruct (e_rd (sp_get x s)); [|done]; rewrite A2 in Cy; done).
  assert (Wy : e_wr (sp_get (other x) s) = false) by (destruct (e_wr (sp_get (other x) s)); [|done]; rewrite B3 in Cy; done).
  specialize (K3 Cx). subst k. cbn [splice_step]. rewrite Cx, Rx. cbn [andb]. set (px := sp_get x s) in *.
  assert (Hd : take n (drop (e_read px) (e_sent px)) = drop (e_read px) (e_sent px)) by (rewrite take_ge; [done|rewrite drop_length; lia]). rewrite Hd.
  destruct (drop (e_read px) (e_sent px)) as [|d0 d] eqn:Ed.
  - assert (e_read px = length (e_sent px)) as Hall. { assert (length (drop (e_read px) (e_sent px)) = 0) by (rewrite Ed; done). rewrite drop_length in *. lia. }
    destruct (decide _) as [_|]; [|done]. destruct (e_fin px) eqn:Ef; [done|]. cbn [orb]. rewrite K2, Hall. by rewrite take_ge.
  - rewrite !get_set_other2. rewrite Wy. rewrite get_set_same. cbn [e_got]. rewrite K2, <- Ed. by rewrite take_drop.
Qed.

(** After CloseWrite nothing reaches a peer any more. *)
Lemma wr_step s e x : e_wr (sp_get x s) = true -> e_wr (sp_get x (splice_step s e)) = true /\ got x (splice_step s e) = got x s.
Proof.
  unfold got. intros Hw.
  assert (HE : forall y s1, e_wr (sp_get x s1) = true -> e_wr (sp_get x (copy_ends y s1)) = true /\ e_got (sp_get x (copy_ends y s1)) = e_got (sp_get x s1)).
  { intros y s1 H1. destruct (decide (x = y)) as [<-|Hxy]; [by rewrite copy_ends_get|]. assert (x = other y) as -> by (by destruct x, y). rewrite copy_ends_other. done. }
  assert (HS : forall y s1 a b c d f, e_wr (sp_get x s1) = true -> e_wr (sp_get x (sp_set y (Peer a b c (e_got (sp_get y s1)) d (e_wr (sp_get y s1)) f) s1)) = true /\
      e_got (sp_get x (sp_set y (Peer a b c (e_got (sp_get y s1)) d (e_wr (sp_get y s1)) f) s1)) = e_got (sp_get x s1)).
  { intros y s1 a b c d f H1. destruct (decide (x = y)) as [<-|Hxy]; [by rewrite get_set_same|]. assert (x = other y) as -> by (by destruct x, y). rewrite get_set_other2. done. }
  destruct e as [y bs|y|y n b]; cbn [splice_step].
  - destruct (e_fin (sp_get y s)); [done|]. by apply HS.
  - by apply HS.
  - destruct (e_copying (sp_get y s)); [|done]. destruct (_ && b); [by apply HE|]. destruct (take n _) as [|d0 d].
    + destruct (decide _); [|done]. destruct (_ || _); [by apply HE|done].
    + set (s1 := sp_set y _ s). assert (Hs1 : e_wr (sp_get x s1) = true /\ e_got (sp_get x s1) = e_got (sp_get x s)) by (by apply HS). destruct Hs1 as [Hs1 <-].
      destruct (e_wr (sp_get (other y) s1)) eqn:Ew; [by apply HE|].
      assert (x = y) as <-. { destruct (decide (x = y)); [done|]. assert (x = other y) as -> by (by destruct x, y). congruence. }
      by rewrite get_set_other.
Qed.
Lemma wr_run es s x : e_wr (sp_get x s) = true -> got x (splice_run s es) = got x s.
Proof. revert s. induction es as [|e es IH]; intros s Hw; simpl; [done|]. destruct (wr_step s e x Hw) as [H1 H2]. etransitivity; [apply IH; exact H1|done]. Qed.

Lemma big_hello rec bufsize hello shared table dial a w : 5 <= bufsize -> first_record rec rec -> bufsize < length rec ->
  handleConnection bufsize hello shared table dial [rec] <> Some (FSpliced a w).
Proof.
  intros Hs Hr Hl E. destruct (spliced_iff bufsize Hs hello shared table dial [rec] a) as [H _]. destruct H as (c & (rec' & H1 & H2 & _) & _); [eauto|].
  simpl in H1. rewrite app_nil_r in H1. rewrite (first_record_unique _ _ _ H1 Hr) in H2. lia.
Qed.
