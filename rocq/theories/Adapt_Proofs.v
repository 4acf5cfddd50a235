(** Proofs for C55 and C71. *)
From Coq Require Import ZArith Lia.
From stdpp Require Import base list.
From Verif Require Import Trace Adapt_Model Adapt_Spec.
Open Scope Z_scope.

Lemma clamp_within s t : sensible (minimum s) (maximum s) -> within (minimum s) (maximum s) (clamp s t).
Proof. unfold sensible, within, at_least, at_most, clamp. destruct (minimum s), (maximum s); intros; split; try done; lia. Qed.
Lemma clamp_nearest s t : sensible (minimum s) (maximum s) -> nearest (minimum s) (maximum s) t (clamp s t).
Proof.
  intros H. split; [by apply clamp_within|]. intros x. unfold sensible, within, at_least, at_most, clamp in *. destruct (minimum s), (maximum s); intros [? ?]; lia.
Qed.
Lemma fold_max l x : let m := fold_left Z.max l x in x <= m /\ Forall (fun y => y <= m) l /\ (m = x \/ m ∈ l).
Proof.
  revert x. induction l as [|y l IH]; intros x; cbn.
  - split_and!; [lia|done|by left].
  - destruct (IH (Z.max x y)) as (H1 & H2 & H3). split_and!; [lia|constructor; [lia|done]|]. destruct H3 as [H3|H3]; [|right; by constructor].
    destruct (Z.max_spec x y) as [[? E]|[? E]]; rewrite E in *; [right; rewrite H3; by constructor|by left].
Qed.
Lemma maxl_spec l m : maxl l = Some m -> Forall (fun y => y <= m) l /\ m ∈ l.
Proof.
  destruct l as [|x l]; [done|]. intros [= <-]. destruct (fold_max l x) as (H1 & H2 & H3). split; [by constructor|]. destruct H3 as [->|?]; by constructor.
Qed.
Lemma append_in w l t x : x ∈ append w l t <-> recent w (l ++ [t]) x.
Proof.
  unfold append, recent. rewrite elem_of_list_lookup. split.
  - intros (i & Hi). rewrite lookup_drop in Hi. eexists. split; [exact Hi|]. lia.
  - intros (i & Hi & Hl). exists (i - (length (l ++ [t]) - w))%nat. rewrite lookup_drop. by replace (_ + _)%nat with i by lia.
Qed.
(** The window is the last targets since the start. *)
Definition lastn {A} (w : nat) (l : list A) : list A := drop (length l - w) l.
Lemma lastn_app {A} w (l : list A) t : lastn w (lastn w l ++ [t]) = lastn w (l ++ [t]).
Proof.
  unfold lastn. rewrite !app_length, drop_length. cbn [length]. destruct (decide (length l <= w)%nat) as [H|H].
  - replace (length l - w)%nat with 0%nat by lia. by rewrite drop_0, Nat.sub_0_r.
  - replace (length l - (length l - w) + 1 - w)%nat with 1%nat by lia. rewrite <- (drop_app_le l [t]) by lia. rewrite drop_drop. f_equal. lia.
Qed.
Lemma lastn_recent w l x : x ∈ lastn w l <-> recent w l x.
Proof.
  unfold lastn, recent. rewrite elem_of_list_lookup. split.
  - intros (i & Hi). rewrite lookup_drop in Hi. eexists. split; [exact Hi|]. lia.
  - intros (i & Hi & Hl). exists (i - (length l - w))%nat. rewrite lookup_drop. by replace (_ + _)%nat with i by lia.
Qed.
Lemma turns_app h1 h2 : turns (h1 ++ h2) = turns h1 ++ turns h2.
Proof. induction h1 as [|[e o] h1 IH]; cbn; [done|]. destruct o; rewrite IH; done. Qed.
Lemma since_snoc h l e o : since_start h l -> o <> OStart -> since_start (h ++ [(e, o)]) (l ++ turns [(e, o)]).
Proof.
  intros [h1 e1 h2 Hn] Ho. rewrite <- app_assoc. cbn [app]. rewrite <- turns_app. constructor. apply Forall_app. split; [done|]. by repeat constructor.
Qed.
Lemma window_inv w h s : exec (step w) init h s -> ad s <> AOff -> exists l, since_start h l /\ window s = lastn w l.
Proof.
  revert h s. apply (exec_ind_r (step w) init (fun h s => ad s <> AOff -> exists l, since_start h l /\ window s = lastn w l)).
  - done.
  - intros h s e o s' _ IH Hs Ha. assert (Hsame : ad s <> AOff -> window s' = window s -> o = ONone -> exists l, since_start (h ++ [(e, o)]) l /\ window s' = lastn w l).
    { intros H1 H2 ->. destruct (IH H1) as (l & Hl & Hw). exists l. split; [|by rewrite H2]. assert (E : l = l ++ turns [(e, ONone)]) by (cbn; by rewrite app_nil_r). rewrite E. apply since_snoc; done. }
    destruct e as [mn mx|r|r n| |r sl|]; cbn [step] in Hs.
    + destruct (ad s) eqn:Ea; injection Hs as <- <-; [|by apply Hsame; auto..]. exists []. split; [|done]. apply (since h _ []). constructor.
    + unfold off in Hs. destruct (ad s) eqn:Ea; injection Hs as <- <-; cbn in Ha; try congruence; by apply Hsame; auto.
    + unfold off in Hs. destruct (ad s) eqn:Ea; injection Hs as <- <-; cbn in Ha; try congruence; by apply Hsame; auto.
    + destruct (ad s) eqn:Ea; injection Hs as <- <-; try done; apply Hsame; auto; congruence.
    + destruct (ad s) eqn:Ea; [injection Hs as <- <-; congruence| |injection Hs as <- <-; by apply Hsame; auto..].
      unfold turn in Hs. destruct r as [r|]; [|injection Hs as <- <-; apply Hsame; auto; congruence]. injection Hs as <- <-. destruct (IH) as (l & Hl & Hw); [done|]. exists (l ++ [clamp s r]). split; [by apply since_snoc|].
      cbn [window]. rewrite Hw. apply lastn_app.
    + destruct (ad s) eqn:Ea; injection Hs as <- <-; try congruence; apply Hsame; auto; congruence.
Qed.

Lemma maxl_none_w w l t : maxl (append w l t) = None <-> w = 0%nat.
Proof.
  unfold append. split.
  - intros H. destruct (drop _ _) as [|] eqn:E; [|done]. apply (f_equal length) in E. rewrite drop_length, app_length in E. cbn in E. lia.
  - intros ->. by rewrite Nat.sub_0_r, drop_all.
Qed.
Lemma append_last w l t : w <> 0%nat -> t ∈ append w l t.
Proof. intros H. apply append_in. exists (length l). rewrite app_length. cbn. split; [by rewrite list_lookup_middle|lia]. Qed.
Lemma grows w s r sl s' o : ad s = ASleep -> step w s (ETick (Some r) sl) = (s', o) -> exists t, o = OTarget t /\ (sensible (minimum s) (maximum s) -> nearest (minimum s) (maximum s) r t) /\ (count s < t -> count s' = t) /\ t <= count s'.
Proof.
  intros Ha Hs. cbn [step] in Hs. rewrite Ha in Hs. injection Hs as <- <-. exists (clamp s r). split_and!; [done|apply clamp_nearest| |]; cbn [count]; unfold decide_size.
  - intros H. destruct (Z.ltb_spec (count s) (clamp s r)); [done|lia].
  - destruct (Z.ltb_spec (count s) (clamp s r)); [lia|]. destruct (Z.ltb_spec (clamp s r) (count s)); [|lia]. destruct (maxl _) as [m|] eqn:Em; [|lia].
    destruct (Z.ltb_spec m (count s)); [|lia]. assert (Hw : w <> 0%nat) by (intros ->; pose proof (proj2 (maxl_none_w 0 (window s) (clamp s r)) eq_refl); congruence).
    apply maxl_spec in Em as [Em _]. rewrite Forall_forall in Em. apply Em. by apply append_last.
Qed.
Lemma shrinks w h s r sl s' o : exec (step w) init h s -> step w s (ETick r sl) = (s', o) -> count s' < count s ->
  exists t l, o = OTarget t /\ since_start h l /\ recent w (l ++ [t]) (count s') /\ forall x, recent w (l ++ [t]) x -> x <= count s'.
Proof.
  intros Hx Hs Hc. cbn [step] in Hs. destruct (ad s) eqn:Ea; [injection Hs as <- <-; lia| |injection Hs as <- <-; lia..]. unfold turn in Hs. destruct r as [r|]; injection Hs as <- <-; [|lia].
  destruct (window_inv w h s Hx) as (l & Hl & Hw); [congruence|]. exists (clamp s r), l. split; [done|]. split; [done|]. cbn [count] in *. unfold decide_size in *.
  destruct (Z.ltb_spec (count s) (clamp s r)); [lia|]. destruct (Z.ltb_spec (clamp s r) (count s)); [|lia]. destruct (maxl _) as [m|] eqn:Em; [|lia]. destruct (Z.ltb_spec m (count s)); [|lia].
  apply maxl_spec in Em as [E1 E2]. change (append w (window s) (clamp s r)) with (lastn w (window s ++ [clamp s r])) in *. rewrite Hw, lastn_app in *.
  split; [by apply lastn_recent|]. intros x Hr. apply lastn_recent in Hr. rewrite Forall_forall in E1. by apply E1.
Qed.

(** Bounds. *)
Lemma lastn_tail {A} w (l1 l2 : list A) : (w <= length l2)%nat -> lastn w (l1 ++ l2) = lastn w l2.
Proof. intros H. unfold lastn. rewrite app_length, drop_app_ge by lia. f_equal. lia. Qed.
Lemma lastn_sub {A} w (l : list A) x : x ∈ lastn w l -> x ∈ l.
Proof. intros H. unfold lastn in H. apply elem_of_list_lookup in H as (i & Hi). rewrite lookup_drop in Hi. by eapply elem_of_list_lookup_2. Qed.
(** From the call of adapt on: the bounds stay, the window is what was there followed by
    targets within them, and once the window has only these, so is the size. *)
Definition awake (s : state) : Prop := ad s = ASleep \/ ad s = AScaling.
Lemma within_run w (H0 : (w <> 0)%nat) mn mx h : sensible mn mx -> undisturbed h -> forall s s', exec (step w) s h s' -> minimum s = mn -> maximum s = mx -> awake s ->
  minimum s' = mn /\ maximum s' = mx /\ awake s' /\ window s' = (match turns h with [] => window s | _ => lastn w (window s ++ turns h) end) /\ Forall (within mn mx) (turns h) /\
  (turns h <> [] -> Forall (within mn mx) (window s') -> within mn mx (count s')).
Proof.
  intros Hb Hu. induction h as [|[e o] h IH] using rev_ind; intros s s' Hx H1 H2 H3.
  - inversion Hx; subst. split_and!; try done. constructor.
  - apply Forall_app in Hu as [Hu He]. apply Forall_cons in He as [He _]. cbn in He. apply exec_snoc_inv in Hx as (s1 & Hx & Hs).
    destruct (IH Hu s s1 Hx H1 H2 H3) as (I1 & I2 & I3 & I4 & I5 & I6). rewrite turns_app.
    assert (Hsame : o = ONone -> window s' = window s1 -> minimum s' = mn -> maximum s' = mx -> awake s' -> count s' = count s1 ->
      minimum s' = mn /\ maximum s' = mx /\ awake s' /\ window s' = (match turns h ++ turns [(e, o)] with [] => window s | _ => lastn w (window s ++ (turns h ++ turns [(e, o)])) end) /\ Forall (within mn mx) (turns h ++ turns [(e, o)]) /\
      (turns h ++ turns [(e, o)] <> [] -> Forall (within mn mx) (window s') -> within mn mx (count s'))).
    { intros -> E1 E2 E3 E4 E5. cbn [turns]. rewrite app_nil_r, E1, E5. by split_and!. }
    destruct e as [mn' mx'|?|? n| |r sl|]; try (exfalso; exact (He I)); cbn [step] in Hs.
    + assert (s1 = s' /\ ONone = o) as [<- <-] by (destruct I3 as [E|E]; rewrite E in Hs; by injection Hs). by apply Hsame.
    + destruct I3 as [Ea|Ea]; rewrite Ea in Hs; [|injection Hs as <- <-; apply Hsame; try done; by right]. unfold turn in Hs. destruct r as [r|]; injection Hs as <- <-; [|apply Hsame; try done; by left].
      cbn [minimum maximum window count ad turns]. assert (Hc : within mn mx (clamp s1 r)) by (rewrite <- I1, <- I2; apply clamp_within; by rewrite I1, I2).
      split_and!; [done|done|unfold awake; cbn [ad]; destruct (_ && _); auto| | |].
      * destruct (turns h ++ [clamp s1 r]) eqn:E; [by destruct (turns h)|]. rewrite <- E. change (append w (window s1) (clamp s1 r)) with (lastn w (window s1 ++ [clamp s1 r])). rewrite I4.
        destruct (turns h) eqn:Et; [done|]. rewrite lastn_app. f_equal. by rewrite app_assoc.
      * apply Forall_app. split; [done|]. constructor; [exact Hc|constructor].
      * intros _ Hw. unfold decide_size. destruct (Z.ltb_spec (count s1) (clamp s1 r)); [done|]. destruct (Z.ltb_spec (clamp s1 r) (count s1)) as [Hlt|]; [|by replace (count s1) with (clamp s1 r) by lia].
        destruct (maxl _) as [m|] eqn:Em; [|by apply maxl_none_w in Em]. apply maxl_spec in Em as [E1 E2]. rewrite Forall_forall in Hw. specialize (Hw m E2). destruct (Z.ltb_spec m (count s1)); [done|].
        destruct Hc as [Hc1 Hc2], Hw as [Hw1 Hw2]. split; [destruct mn; [cbn in *; lia|done]|destruct mx; [cbn in *; lia|done]].
    + destruct I3 as [Ea|Ea]; rewrite Ea in Hs; injection Hs as <- <-; apply Hsame; try done; by left.
Qed.
Lemma ending_silent w h : undisturbed h -> forall s s', exec (step w) s h s' -> ad s = AEnding \/ ad s = AOff -> turns h = [].
Proof.
  intros Hu. induction Hu as [|[e o] h He Hu IH]; intros s s' Hx Ha; inversion Hx as [|? ? ? s2 ? ? Hs Hx2]; subst; [done|].
  assert ((o = ONone \/ exists l, o = OAnswer l) /\ (ad s2 = AEnding \/ ad s2 = AOff)) as [Ho H2].
  { destruct e; try (exfalso; exact (He I)); cbn [step] in Hs; destruct Ha as [Ha|Ha]; rewrite Ha in Hs; injection Hs as <- <-; eauto. }
  rewrite <- (IH s2 s' Hx2 H2). by destruct Ho as [->|[l ->]].
Qed.
Lemma bounds w h1 mn mx o h2 s : (w <> 0)%nat -> exec (step w) init (h1 ++ (EAdapt mn mx, o) :: h2) s -> sensible mn mx -> undisturbed h2 ->
  (o = OStart /\ turns h2 <> []) \/ (w <= length (turns h2))%nat -> within mn mx (count s).
Proof.
  intros H0 Hx Hb Hu Ho. apply exec_app in Hx as (s1 & Hx1 & Hx2). inversion Hx2 as [|? ? ? s2 ? ? Hs Hx3]; subst.
  assert (E : minimum s2 = mn /\ maximum s2 = mx /\ (awake s2 \/ ad s2 = AEnding /\ o = ONone) /\ (o = OStart -> window s2 = [])) by (unfold awake; cbn in Hs; destruct (ad s1) eqn:Ea; injection Hs as <- <-; cbn; split_and!; auto; done).
  destruct E as (E1 & E2 & [E3|[E3 ->]] & E4).
  2:{ assert (turns h2 = []) as E5 by (apply (ending_silent w h2 Hu s2 s Hx3); by left). rewrite E5 in Ho. destruct Ho as [[? _]|Ho]; [done|]. cbn in Ho. lia. }
  destruct (within_run w H0 mn mx h2 Hb Hu s2 s Hx3 E1 E2 E3) as (_ & _ & _ & I4 & I5 & I6).
  assert (Hne : turns h2 <> []) by (destruct Ho as [[_ ?]|Ho]; [done|]; intros X; rewrite X in Ho; cbn in Ho; lia). apply I6; [done|]. rewrite I4. destruct (turns h2) as [|t l] eqn:Et; [done|]. rewrite <- Et in *.
  apply Forall_forall. intros x Hin. rewrite Forall_forall in I5. apply I5. destruct Ho as [[Ho _]|Ho].
  - rewrite (E4 Ho) in Hin. by apply lastn_sub in Hin.
  - rewrite lastn_tail in Hin by done. by apply lastn_sub in Hin.
Qed.

(** Explicit sizes. *)
Lemma off_stays w h : forall s s', exec (step w) s h s' -> ad s = AOff -> Forall (fun eo => match fst eo with EAdapt _ _ | EScale _ _ => False | _ => True end) h -> count s' = count s /\ ad s' = AOff.
Proof.
  induction h as [|[e o] h IH]; intros s s' Hx Ha Hf; inversion Hx as [|? ? ? s2 ? ? Hs Hx2]; subst; [done|]. apply Forall_cons in Hf as [He Hf].
  assert (E : count s2 = count s /\ ad s2 = AOff).
  { destruct e; cbn in *; try done; unfold off in Hs; rewrite Ha in Hs; injection Hs as <- <-; done. }
  destruct E as [E1 E2]. rewrite <- E1. by apply IH.
Qed.
Lemma size_last l c : fold_left set_size l c = c \/ Some (fold_left set_size l c) ∈ l.
Proof.
  revert c. induction l as [|x l IH]; intros c; cbn; [by left|]. destruct (IH (set_size c x)) as [H|H]; [|right; by right]. rewrite H. destruct x; cbn; [right; by left|by left].
Qed.
(** The last of the waiting sizes is [n]. *)
Definition sized (s : state) (n : Z) : Prop := exists l1 r l2, waiting s = l1 ++ (r, Some n) :: l2 /\ Forall (fun x => snd x = None) l2.
Lemma sized_end s n : sized s n -> count (fst (ended s)) = n.
Proof.
  intros (l1 & r & l2 & E & Hl). cbn. rewrite E, map_app. cbn. rewrite fold_left_app. cbn. clear E. induction Hl as [|[? []] l2 Hx Hl IH]; cbn in *; done.
Qed.
Lemma explicit w s r n s1 o h s2 : step w s (EScale r n) = (s1, o) -> exec (step w) s1 h s2 -> Forall (fun eo => match fst eo with EAdapt _ _ | EScale _ _ => False | _ => True end) h ->
  confirmed r ((EScale r n, o) :: h) -> count s2 = n /\ ad s2 = AOff.
Proof.
  intros Hs Hx Hf Hc. assert ((ad s1 = AOff /\ count s1 = n) \/ ad s1 <> AOff /\ sized s1 n /\ o = ONone) as [[E1 E2]|(E1 & E2 & ->)].
  { cbn in Hs. unfold off in Hs. destruct (ad s); injection Hs as <- <-; [by left|..]; right; (split; [done|]; split; [|done]; exists (waiting s), r, []; done). }
  { destruct (off_stays w h s1 s2 Hx E1 Hf) as [-> ?]. done. }
  assert (confirmed r h) as Hc'. { destruct Hc as (e & l & Hin & Hl). apply elem_of_cons in Hin as [Hin|Hin]; [done|]. by exists e, l. }
  clear Hc Hs. revert s1 Hx E1 E2. induction Hf as [|[e o'] h He Hf IH]; intros s1 Hx E1 E2; inversion Hx as [|? ? ? s3 ? ? Hs Hx2]; subst.
  { destruct Hc' as (e & l & Hin & _). by apply elem_of_nil in Hin. }
  assert ((ad s3 = AOff /\ count s3 = n) \/ ad s3 <> AOff /\ sized s3 n /\ (forall l, o' <> OAnswer l)) as [[F1 F2]|(F1 & F2 & F3)].
  { destruct e as [| |? ?| |x sl|]; cbn in He; try done; cbn [step] in Hs.
    - unfold off in Hs. destruct (ad s1) eqn:Ea; [done|..]; injection Hs as <- <-; right; (split; [done|]; split; [|done]; destruct E2 as (l1 & r' & l2 & E & Hl); exists l1, r', (l2 ++ [(r0, None)]); cbn; rewrite E, <- app_assoc; split; [done|]; apply Forall_app; split; [done|by repeat constructor]).
    - destruct (ad s1) eqn:Ea; [done|..]; cycle 2; [|injection Hs as <- <-; right; rewrite Ea; done..]. left. injection Hs as <- <-. split; [done|]. by apply (sized_end s1 n).
    - destruct (ad s1) eqn:Ea; [done|..]; [|injection Hs as <- <-; right; rewrite Ea; done..]. right. unfold turn in Hs. destruct x; injection Hs as <- <-; [|by rewrite Ea]. cbn. split; [by destruct (_ && _)|]. done.
    - destruct (ad s1) eqn:Ea; [done|..]; injection Hs as <- <-; right; cbn; try rewrite Ea; done. }
  { destruct (off_stays w h s3 s2 Hx2 F1 Hf) as [-> ?]. done. }
  apply (IH) with s3; try done. destruct Hc' as (e' & l & Hin & Hl). apply elem_of_cons in Hin as [Hin|Hin]; [|by exists e', l]. injection Hin as <- <-. by destruct (F3 l).
Qed.
Lemma no_surplus w h s r sl s' t : (w <> 0)%nat -> exec (step w) init h s -> step w s (ETick r sl) = (s', OTarget t) -> exists l x, since_start h l /\ recent w (l ++ [t]) x /\ count s' <= x.
Proof.
  intros H0 Hx Hs. cbn [step] in Hs. destruct (ad s) eqn:Ea; try done. unfold turn in Hs. destruct r as [r|]; [|done]. injection Hs as <- <-.
  destruct (window_inv w h s Hx) as (l & Hl & Hw); [congruence|]. exists l. pose proof (append_last w l (clamp s r) H0) as Ht. apply append_in in Ht. cbn [count]. unfold decide_size.
  destruct (Z.ltb_spec (count s) (clamp s r)); [exists (clamp s r); split_and!; [done|done|lia]|]. destruct (Z.ltb_spec (clamp s r) (count s)); [|exists (clamp s r); split_and!; [done|done|lia]].
  destruct (maxl _) as [m|] eqn:Em; [|by apply maxl_none_w in Em]. apply maxl_spec in Em as [E1 E2]. change (append w (window s) (clamp s r)) with (lastn w (window s ++ [clamp s r])) in *. rewrite Hw, lastn_app in *.
  exists m. split; [done|]. split; [by apply lastn_recent|]. destruct (Z.ltb_spec m (count s)); lia.
Qed.
(** A request that comes during an interrupt is not carried out by itself. *)
Lemma swallowed w s r n s1 o h s2 : ad s = AScaling -> step w s (EScale r n) = (s1, o) -> exec (step w) s1 h s2 -> undisturbed h ->
  ~ confirmed r ((EScale r n, o) :: h) /\ awake s2.
Proof.
  intros Ha Hs Hx Hu. assert (awake s1 /\ o = ONone) as [H1 ->] by (cbn in Hs; unfold off in Hs; rewrite Ha in Hs; injection Hs as <- <-; split; [by right|done]). clear Hs Ha s.
  assert (awake s2 /\ forall e l, (e, OAnswer l) ∉ h) as [H2 H3].
  { revert s1 H1 Hx. induction Hu as [|[e o] h He Hu IH]; intros s1 H1 Hx; inversion Hx as [|? ? ? s3 ? ? Hs Hx2]; subst; [split; [done|]; intros e l Hin; by apply elem_of_nil in Hin|].
    assert (awake s3 /\ forall l, o <> OAnswer l) as [H3 H4].
    { destruct e as [| | | |x sl|]; try (exfalso; exact (He I)); cbn [step] in Hs; destruct H1 as [Ha|Ha]; rewrite Ha in Hs; try (injection Hs as <- <-; split; [by unfold awake; cbn; auto|done]).
      unfold turn in Hs. destruct x; injection Hs as <- <-; (split; [|done]); [unfold awake; cbn; destruct (_ && _); auto|by left]. }
    destruct (IH s3 H3 Hx2) as [H5 H6]. split; [done|]. intros e' l Hin. apply elem_of_cons in Hin as [Hin|Hin]; [|by apply H6 in Hin]. injection Hin as <- <-. by destruct (H4 l). }
  split; [|done]. intros (e & l & Hin & _). apply elem_of_cons in Hin as [Hin|Hin]; [done|]. by apply H3 in Hin.
Qed.
(** Otherwise it is carried out at once or when the loop has ended, which it is told to. *)
Lemma answered w s r n s1 o : ad s <> AScaling -> step w s (EScale r n) = (s1, o) ->
  (exists l, o = OAnswer l /\ r ∈ l) \/ forall h s2, exec (step w) s1 h s2 -> (EEnd ∈ map fst h -> confirmed r h) /\ (EEnd ∉ map fst h -> ad s2 = AEnding).
Proof.
  intros Ha Hs. cbn in Hs. unfold off in Hs. destruct (ad s) eqn:E; injection Hs as <- <-; [left; eexists; split; [done|by left]|right|done|right].
  all: intros h s2 Hx; match type of Hx with exec _ ?t _ _ => assert (ad t = AEnding /\ r ∈ map fst (waiting t)) as [H1 H2] by (cbn; rewrite map_app; split; [done|]; apply elem_of_app; right; by left); revert H1 H2 Hx; generalize t end.
  all: induction h as [|[e o] h IH]; intros t H1 H2 Hx; inversion Hx as [|? ? ? s3 ? ? Hs Hx2]; subst; [split; [intros Hin; by apply elem_of_nil in Hin|done]|].
  all: assert (e = EEnd \/ e <> EEnd) as [->|He] by (destruct e; auto); [cbn [step] in Hs; rewrite H1 in Hs; injection Hs as <- <-; split; [intros _; exists EEnd; eexists; split; [by left|done]|intros Hn; exfalso; apply Hn; by left]|].
  all: assert (ad s3 = AEnding /\ r ∈ map fst (waiting s3)) as [H3 H4] by (destruct e; try done; cbn [step] in Hs; unfold off in Hs; rewrite H1 in Hs; injection Hs as <- <-; (split; [done|]); cbn; try done; rewrite map_app; apply elem_of_app; by left).
  all: destruct (IH s3 H3 H4 Hx2) as [H5 H6]; split; cbn [map fst]; [intros Hin; apply elem_of_cons in Hin as [Hin|Hin]; [done|]; destruct (H5 Hin) as (e' & l & Hin' & Hl); exists e', l; split; [by right|done]|].
  all: intros Hn; apply H6; intros Hin; apply Hn; by right.
Qed.
