(** Proofs for C52, C68 and C69, continued: invariants of all executions. *)
From Coq Require Import ZArith Lia.
From stdpp Require Import list.
From Verif Require Import Trace Phase_Model Phase_Spec Phase_Proofs.
Local Open Scope Z_scope.

Lemma shows_iff o p : shows o p <-> phase_of (default status0 (stat o)) = p.
Proof. unfold shows, phase_of. destruct (stat o) as [st|]; cbn; [destruct (phase_ st); cbn; split; congruence|split; congruence]. Qed.
Lemma shows_fun o p q : shows o p -> shows o q -> p = q.
Proof. rewrite !shows_iff. congruence. Qed.
Lemma obs_snoc (h : history) e o : obs_of (h ++ [(e, o)]) = obs_of h ++ o.
Proof. unfold obs_of. by rewrite map_app, concat_app; cbn; rewrite app_nil_r. Qed.

(** What a patch may be. *)
Definition patched (w : world) (o : obj) (os : list obs) (st' : status) : Prop := let st := default status0 (stat o) in
  ~ over (phase_of st) /\ justified os st st' /\
  ((active o = false /\ phase_ st' = Some Stopped /\ completion st' = Some (now w / 1000) /\ forall r, records st' r <-> records st r) \/
   (active o = true /\ (st' = finish w st Failed /\ phase_of st = Running \/
     (phase_of st = Pending /\ (phase_ st' = Some Pending /\ completion st' = completion st \/ phase_ st' = Some Running /\ completion st' = completion st /\ (forall r, records st' r) \/
       phase_ st' = Some Failed /\ completion st' = Some (now w / 1000)))))).
Definition new_version (s : state) (st : status) : obj := Obj (active (current s)) (replicas (current s)) (Some st).
Lemma ends_out s o w a k s' os : ends s o w a k = (s', os) -> seen s' = seen s /\ busy s' = None /\ gone s' = gone s /\
  (versions s' = versions s \/ exists st', versions s' = versions s ++ [new_version s st'] /\ patched w o os st' /\ OPatch st' true ∈ os) /\
  (noted s' = noted s \/ exists p, shows o p /\ over p /\ noted s' = Some (match completion (default status0 (stat o)) with Some t => t * 1000 | None => now w end)).
Proof.
  unfold ends. destruct (handle_cluster w o) as [[os1 r] note] eqn:E.
  assert (Hn : match note with Some t => Some t | None => noted s end = noted s \/ exists p, shows o p /\ over p /\ match note with Some t => Some t | None => noted s end = Some (match completion (default status0 (stat o)) with Some t => t * 1000 | None => now w end)).
  { unfold handle_cluster in E. cbn zeta in E. destruct (phase_of _) eqn:Ep.
    - destruct (negb _); injection E as _ <-; by left.
    - destruct (negb _); injection E as _ <-; by left.
    - injection E as _ _ <-. right. exists Stopped. split; [by apply shows_iff|]. split; [by left|done].
    - injection E as _ _ <-. right. exists Failed. split; [by apply shows_iff|]. split; [by right|done]. }
  destruct r as [[[st'|] b]|]; [|intros [= <- <-]; cbn; tauto..].
  destruct (decide _) as [Hd|Hd]; [intros [= <- <-]; cbn; tauto|].
  destruct (a && negb (gone s)) eqn:Ea; [|intros [= <- <-]; cbn; tauto]. apply andb_true_iff in Ea as [-> Hg]. destruct (gone s) eqn:Eg; [done|]. unfold write. cbn [gone]. intros [= <- <-]. cbn [seen busy gone versions noted].
  split_and!; try done. right. exists st'. split_and!; [done| |apply elem_of_app; right; left].
  apply cluster_out in E as (H1 & H2 & -> & H3). split_and!; [done| |].
  - intros r Hr. destruct (H2 r Hr) as [?|[?|?]]; [by left|right..]; unfold exists_after; rewrite !elem_of_app; tauto.
  - destruct H3 as [H3|(Ha & [(-> & Hp)|[H3|H3]])]; [by left| |by right; split; [|left]|by right; split; [|right]]. exfalso. destruct (stat o) as [st|] eqn:Es; [by apply Hd|]. done.
Qed.

Record Good (h : history) (s : state) : Prop := {
  g_ne : versions s <> [];
  g_seen : (seen s <= length (versions s))%nat;
  g_busy : forall o, busy s = Some o -> o ∈ versions s;
  g_over : forall v p, v ∈ versions s -> shows v p -> over p -> exists st c, stat v = Some st /\ completion st = Some c;
  g_run : forall v, v ∈ versions s -> shows v Running -> exists st, stat v = Some st /\ forall r, records st r;
  g_just : forall v st r, v ∈ versions s -> stat v = Some st -> records st r -> exists_after (obs_of h) r;
  g_noted : forall t, noted s = Some t -> exists v p st c, v ∈ versions s /\ shows v p /\ over p /\ stat v = Some st /\ completion st = Some c /\ t = c * 1000 }.

Lemma current_in s : versions s <> [] -> current s ∈ versions s.
Proof. unfold current. destruct (last (versions s)) as [v|] eqn:E; [intros _; by apply last_Some_elem_of|]. by apply last_None in E. Qed.
Lemma cached_in s c : cached s = Some c -> c ∈ versions s.
Proof. unfold cached. destruct (seen s); [done|]. apply elem_of_list_lookup_2. Qed.
Lemma cached_some s : (0 < seen s <= length (versions s))%nat -> exists c, cached s = Some c.
Proof. intros H. unfold cached. destruct (seen s); [lia|]. apply lookup_lt_is_Some. lia. Qed.
Lemma exists_app os os' r : exists_after os r -> exists_after (os ++ os') r.
Proof. unfold exists_after. rewrite !elem_of_app. tauto. Qed.
Lemma exists_app_r os os' r : exists_after os' r -> exists_after (os ++ os') r.
Proof. unfold exists_after. rewrite !elem_of_app. tauto. Qed.

(** A new version that keeps the status. *)
Lemma good_write h s e o v : Good h s -> stat v = stat (current s) -> Good (h ++ [(e, o)]) (write s v).
Proof.
  intros [H1 H2 H3 H4 H5 H6 H7] Hv. pose proof (current_in s H1) as Hc.
  assert (Hin : forall x, x ∈ versions s ++ [v] -> exists y, y ∈ versions s /\ stat x = stat y).
  { intros x [Hx|Hx]%elem_of_app; [by exists x|]. apply elem_of_list_singleton in Hx as ->. eauto. }
  assert (Hsh : forall x y p, stat x = stat y -> shows x p -> shows y p) by (intros x y p E; unfold shows; by rewrite E).
  unfold write. destruct (gone s).
  - constructor; try done. intros x st r Hx Hs Hr. rewrite obs_snoc. apply exists_app. by eapply H6.
  - constructor; cbn [versions seen busy noted].
    + by destruct (versions s).
    + rewrite app_length. cbn. lia.
    + intros x Hx. apply elem_of_app. left. by apply H3.
    + intros x p (y & Hy & E)%Hin Hs Hp. rewrite E. eapply H4; [exact Hy|by eapply Hsh|exact Hp].
    + intros x (y & Hy & E)%Hin Hs. rewrite E. apply H5; [exact Hy|by eapply Hsh].
    + intros x st r (y & Hy & E)%Hin Hs Hr. rewrite obs_snoc. apply exists_app. apply (H6 y st r Hy); [congruence|done].
    + intros t Ht. destruct (H7 t Ht) as (x & p & st & c & Hx & ?). exists x, p, st, c. split; [apply elem_of_app; by left|done].
Qed.
Lemma good_frame h s e o s' : Good h s -> versions s' = versions s -> (seen s' <= length (versions s))%nat -> (busy s' = None \/ busy s' = busy s \/ exists v, busy s' = Some v /\ v ∈ versions s) ->
  (noted s' = None \/ noted s' = noted s) -> Good (h ++ [(e, o)]) s'.
Proof.
  intros [H1 H2 H3 H4 H5 H6 H7] Ev Hs Hb Hn. constructor; rewrite ?Ev; try done.
  - intros x Hx. destruct Hb as [Hb|[Hb|(v & Hb & Hv)]]; [congruence|apply H3; congruence|congruence].
  - intros x st r Hx Hst Hr. rewrite obs_snoc. apply exists_app. by eapply H6.
  - intros t Ht. destruct Hn as [Hn|Hn]; [congruence|]. apply H7. congruence.
Qed.
Lemma default_status o st : stat o = Some st -> default status0 (stat o) = st.
Proof. by intros ->. Qed.
Lemma records0 r : ~ records status0 r.
Proof. by destruct r. Qed.
Lemma good_step ma h s e o s' : step ma s e = (s', o) -> Good h s -> Good (h ++ [(e, o)]) s'.
Proof.
  intros Hs HG. pose proof HG as [H1 H2 H3 H4 H5 H6 H7]. destruct e; cbn [step] in Hs.
  - injection Hs as <- <-. by apply good_write.
  - injection Hs as <- <-. by apply good_write.
  - injection Hs as <- <-. apply (good_frame h s); cbn; eauto. lia.
  - destruct (busy s) eqn:Eb; [injection Hs as <- <-; apply (good_frame h s); eauto|]. destruct (cached s) as [c|] eqn:Ec; [|injection Hs as <- <-; apply (good_frame h s); eauto].
    injection Hs as <- <-. apply (good_frame h s); cbn; eauto. right. right. exists c. split; [done|by apply cached_in].
  - destruct (busy s) as [b|] eqn:Eb; [|injection Hs as <- <-; apply (good_frame h s); eauto]. apply ends_out in Hs as (Es & Ebu & Eg & Hv & Hn). specialize (H3 b eq_refl).
    assert (Hn' : forall t, noted s' = Some t -> exists v p st c, v ∈ versions s /\ shows v p /\ over p /\ stat v = Some st /\ completion st = Some c /\ t = c * 1000).
    { intros t Ht. destruct Hn as [Hn|(p & Hp1 & Hp2 & Hn)]; [apply H7; congruence|]. destruct (H4 b p H3 Hp1 Hp2) as (st & c & Hst & Hc). exists b, p, st, c. rewrite Hst in Hn. cbn in Hn. rewrite Hc in Hn. split_and!; try done. congruence. }
    destruct Hv as [Hv|(st' & Hv & (Ho & HJ & HP) & _)].
    + constructor; rewrite ?Hv, ?Es, ?Ebu; try done. intros x st r Hx Hst Hr. rewrite obs_snoc. apply exists_app. by eapply H6.
    + set (v := new_version s st') in *.
      assert (Hin : forall x, x ∈ versions s' -> x ∈ versions s \/ x = v) by (intros x; rewrite Hv, elem_of_app, elem_of_list_singleton; done).
      constructor; rewrite ?Ebu.
      * rewrite Hv. by destruct (versions s).
      * rewrite Es, Hv, app_length. cbn. lia.
      * done.
      * intros x p [Hx| ->]%Hin Hs Hp; [by eapply H4|]. exists st'. cbn [v stat new_version]. unfold shows in Hs. cbn in Hs.
        destruct HP as [(_ & HP1 & HP2 & _)|(_ & [[-> _]|(_ & [[HP1 HP2]|[(HP1 & HP2 & _)|[HP1 HP2]]])])]; eauto; rewrite HP1 in Hs; subst p; destruct Hp; done.
      * intros x [Hx| ->]%Hin Hs; [by apply H5|]. exists st'. split; [done|]. unfold shows in Hs. cbn in Hs.
        destruct HP as [(_ & HP1 & HP2 & _)|(_ & [[-> _]|(_ & [[HP1 HP2]|[(HP1 & HP2 & ?)|[HP1 HP2]]])])]; try done; rewrite HP1 in Hs; done.
      * intros x st r [Hx| ->]%Hin Hs Hr; rewrite obs_snoc; [apply exists_app; by eapply H6|]. cbn in Hs. injection Hs as <-. destruct (HJ r Hr) as [Hr0|Hr0]; [|by apply exists_app_r].
        apply exists_app. destruct (stat b) as [sb|] eqn:Esb; [by eapply H6|]. by apply records0 in Hr0.
      * intros t Ht. destruct (Hn' t Ht) as (x & p & st & c & Hx & ?). exists x, p, st, c. split; [rewrite Hv; apply elem_of_app; by left|done].
  - injection Hs as <- <-. apply (good_frame h s); cbn; eauto.
  - destruct (noted s) as [t0|] eqn:En; [|injection Hs as <- <-; apply (good_frame h s); eauto]. destruct (_ <=? _); injection Hs as <- <-; apply (good_frame h s); eauto.
Qed.
Lemma good_all ma o0 h s : start o0 -> exec (step ma) (init o0) h s -> Good h s.
Proof.
  intros [Ha Hs]. revert h s. apply (exec_ind_r (step ma) (init o0) Good).
  - assert (Hin : forall x, x ∈ versions (init o0) -> x = o0) by (intros x; cbn; by rewrite elem_of_list_singleton).
    constructor; cbn [versions init seen busy noted]; try done.
    + cbn. lia.
    + intros v p ->%Hin Hsh Hp. unfold shows in Hsh. rewrite Hs in Hsh. subst. by destruct Hp.
    + intros v ->%Hin Hsh. unfold shows in Hsh. by rewrite Hs in Hsh.
    + intros v st r ->%Hin. congruence.
  - intros h s e o s' _ HG Hst. by eapply good_step.
Qed.

(** With an up-to-date cache the phase moves forward. *)
Lemma current_write s v : gone s = false -> current (write s v) = v.
Proof. intros Hg. unfold write, current. rewrite Hg. cbn. by rewrite last_snoc. Qed.
Definition fresh (s : state) : Prop := forall o, busy s = Some o -> stat o = stat (current s).
Lemma current_eq s s' : versions s' = versions s -> current s' = current s.
Proof. unfold current. by intros ->. Qed.
Definition forward (s s' : state) : Prop :=
  forall p q, shows (current s) p -> shows (current s') q -> (rank p <= rank q)%nat /\ (over p -> stat (current s') = stat (current s)).
Lemma forward_eq s s' : stat (current s') = stat (current s) -> forward s s'.
Proof. intros E p q Hp Hq. rewrite shows_iff in Hp, Hq. rewrite E in Hq. rewrite Hp in Hq. subst. done. Qed.
Lemma forward_trans s1 s2 s3 : forward s1 s2 -> forward s2 s3 -> forward s1 s3.
Proof.
  intros H1 H2 p r Hp Hr. pose (q := phase_of (default status0 (stat (current s2)))). assert (Hq : shows (current s2) q) by (by apply shows_iff).
  destruct (H1 p q Hp Hq) as [L1 O1], (H2 q r Hq Hr) as [L2 O2]. split; [lia|]. intros Ho. rewrite O2; [by apply O1|]. rewrite shows_iff in Hp. unfold q. rewrite (O1 Ho), Hp. done.
Qed.
Lemma fresh_step ma s e o s' : step ma s e = (s', o) -> fresh s -> (e = EBegin -> exists c, cached s = Some c /\ stat c = stat (current s)) -> fresh s' /\ forward s s'.
Proof.
  intros Hs Hf Hb. assert (Hw : forall v, stat v = stat (current s) -> fresh (write s v) /\ forward s (write s v)).
  { intros v Hv. destruct (gone s) eqn:Eg; [unfold write; rewrite Eg; split; [done|by apply forward_eq]|]. split.
    - intros x Hx. rewrite current_write by done. rewrite Hv. apply Hf. unfold write in Hx. by rewrite Eg in Hx.
    - apply forward_eq. by rewrite current_write. }
  assert (Hsame : forall s1, versions s1 = versions s -> (busy s1 = None \/ busy s1 = busy s) -> fresh s1 /\ forward s s1).
  { intros s1 Ev Hbu. pose proof (current_eq s s1 Ev) as Ec. split; [|apply forward_eq; congruence]. intros x Hx. rewrite Ec. apply Hf. destruct Hbu; congruence. }
  destruct e; cbn [step] in Hs.
  - injection Hs as <- <-. by apply Hw.
  - injection Hs as <- <-. by apply Hw.
  - injection Hs as <- <-. apply Hsame; cbn; eauto.
  - destruct (busy s) eqn:Eb; [injection Hs as <- <-; apply Hsame; eauto|]. destruct (cached s) as [c|] eqn:Ec; [|injection Hs as <- <-; apply Hsame; eauto].
    injection Hs as <- <-. destruct (Hb eq_refl) as (c' & [= <-] & E). split; [|by apply forward_eq]. intros x [= <-]. done.
  - destruct (busy s) as [b|] eqn:Eb; [|injection Hs as <- <-; apply Hsame; eauto]. specialize (Hf b Eb). apply ends_out in Hs as (Es & Ebu & Eg & Hv & Hn).
    destruct Hv as [Hv|(st' & Hv & (Ho & HJ & HP) & _)]; [apply Hsame; eauto|]. split; [intros x; congruence|].
    assert (Ec : current s' = new_version s st') by (unfold current at 1; rewrite Hv, last_snoc; done).
    intros p q Hp Hq. rewrite shows_iff in Hp. rewrite Hf in *. rewrite Hp in *. split; [|done]. rewrite Ec in Hq. unfold shows in Hq. cbn in Hq.
    destruct HP as [(_ & HP1 & _)|(_ & [[-> ->]|(-> & [[HP1 HP2]|[(HP1 & HP2 & ?)|[HP1 HP2]]])])]; try (rewrite HP1 in Hq); cbn in Hq; subst q; cbn; try lia. destruct p; cbn; lia.
  - injection Hs as <- <-. apply Hsame; cbn; eauto.
  - destruct (noted s); [|injection Hs as <- <-; apply Hsame; eauto]. destruct (_ <=? _); injection Hs as <- <-; apply Hsame; cbn; eauto.
Qed.
Lemma fresh_all ma o0 h s : exec (step ma) (init o0) h s -> up_to_date ma (init o0) h -> fresh s.
Proof.
  revert h s. apply (exec_ind_r (step ma) (init o0) (fun h s => up_to_date ma (init o0) h -> fresh s)); [by intros _ o|].
  intros h s e o s' Hx IH Hs Hu. eapply fresh_step; [exact Hs| |].
  - apply IH. intros h1 o1 h2 s1 E Hx1. eapply Hu; [|exact Hx1]. rewrite E, <- app_assoc. cbn. done.
  - intros ->. by eapply Hu.
Qed.
Lemma phase_forward ma o0 h1 s1 h2 s2 : exec (step ma) (init o0) h1 s1 -> exec (step ma) s1 h2 s2 -> up_to_date ma (init o0) (h1 ++ h2) -> forward s1 s2.
Proof.
  intros Hx1 Hx2. revert h2 s2 Hx2. apply (exec_ind_r (step ma) s1 (fun h2 s2 => up_to_date ma (init o0) (h1 ++ h2) -> forward s1 s2)); [intros _; by apply forward_eq|].
  intros h s e o s' Hx IH Hs Hu.
  assert (Hu1 : up_to_date ma (init o0) (h1 ++ h)).
  { intros h3 o3 h4 s3 E Hx3. eapply Hu; [|exact Hx3]. rewrite app_assoc, E, <- app_assoc. cbn. done. }
  eapply forward_trans; [by apply IH|]. assert (Hx' : exec (step ma) (init o0) (h1 ++ h) s) by (apply exec_app; eauto).
  eapply fresh_step; [exact Hs|by eapply fresh_all|]. intros ->. eapply Hu; [|exact Hx']. by rewrite app_assoc.
Qed.

(** A terminal status stays, with an up-to-date cache. *)
Definition settled (s : state) : Prop := forall v p, v ∈ versions s -> shows v p -> over p -> stat (current s) = stat v.
Lemma settled_step ma s e o s' : step ma s e = (s', o) -> versions s <> [] -> fresh s -> settled s -> settled s'.
Proof.
  intros Hs Hne Hf Hse.
  assert (Hw : forall v, stat v = stat (current s) -> settled (write s v)).
  { intros v Hv. destruct (gone s) eqn:Eg; [unfold write; by rewrite Eg|]. intros x p Hx Hp Ho. rewrite current_write by done. rewrite Hv. unfold write in Hx. rewrite Eg in Hx. cbn in Hx.
    apply elem_of_app in Hx as [Hx|Hx]; [by eapply Hse|]. apply elem_of_list_singleton in Hx as ->. done. }
  assert (Hsame : forall s1, versions s1 = versions s -> settled s1) by (intros s1 Ev v p; rewrite Ev, (current_eq s s1 Ev); apply Hse).
  destruct e; cbn [step] in Hs.
  - injection Hs as <- <-. by apply Hw.
  - injection Hs as <- <-. by apply Hw.
  - injection Hs as <- <-. by apply Hsame.
  - destruct (busy s); [by injection Hs as <- <-|]. destruct (cached s); [|by injection Hs as <- <-]. injection Hs as <- <-. by apply Hsame.
  - destruct (busy s) as [b|] eqn:Eb; [|by injection Hs as <- <-]. specialize (Hf b Eb). apply ends_out in Hs as (Es & Ebu & Eg & Hv & Hn).
    destruct Hv as [Hv|(st' & Hv & (Ho & _) & _)]; [by apply Hsame|].
    assert (Ec : current s' = new_version s st') by (unfold current at 1; rewrite Hv, last_snoc; done).
    intros x p Hx Hp Hov. rewrite Hv in Hx. apply elem_of_app in Hx as [Hx|Hx]; [|apply elem_of_list_singleton in Hx as ->; by rewrite Ec].
    exfalso. apply Ho. rewrite Hf, (Hse x p Hx Hp Hov). apply shows_iff in Hp as ->. done.
  - injection Hs as <- <-. by apply Hsame.
  - destruct (noted s); [|by injection Hs as <- <-]. destruct (_ <=? _); injection Hs as <- <-; by apply Hsame.
Qed.
Lemma over_stays ma o0 h s : start o0 -> exec (step ma) (init o0) h s -> up_to_date ma (init o0) h -> settled s.
Proof.
  intros Hst. revert h s. assert (H : forall h s, exec (step ma) (init o0) h s -> exec (step ma) (init o0) h s /\ (up_to_date ma (init o0) h -> settled s)); [|intros h s Hx; by apply H].
  apply (exec_ind_r (step ma) (init o0) (fun h s => exec (step ma) (init o0) h s /\ (up_to_date ma (init o0) h -> settled s))).
  - split; [constructor|]. intros _ v p Hv Hp Ho. cbn in Hv. apply elem_of_list_singleton in Hv as ->. done.
  - intros h s e o s' Hx [_ IH] Hs. split; [apply exec_app; exists s; split; [done|]; by econstructor; [exact Hs|constructor]|]. intros Hu.
    assert (Hu1 : up_to_date ma (init o0) h) by (intros h3 o3 h4 s3 E Hx3; eapply Hu; [|exact Hx3]; rewrite E, <- app_assoc; cbn; done).
    eapply settled_step; [exact Hs|eapply (g_ne h); by eapply good_all|by eapply fresh_all|by apply IH].
Qed.

(** Once stopped, always stopped. *)
Definition off (v : obj) : Prop := active v = false.
Record Off (s : state) : Prop := {
  o_mono : forall i j v w, (i <= j)%nat -> versions s !! i = Some v -> versions s !! j = Some w -> off v -> off w;
  o_busy : forall o, busy s = Some o -> off o -> exists c, cached s = Some c /\ off c;
  o_stop : forall v, v ∈ versions s -> shows v Stopped -> (forall o, busy s = Some o -> off o) /\ exists c, cached s = Some c /\ off c }.
Lemma cached_app s l s' : versions s' = versions s ++ l -> seen s' = seen s -> forall c, cached s = Some c -> cached s' = Some c.
Proof. unfold cached. intros -> ->. destruct (seen s); [done|]. intros c Hc. by apply lookup_app_l_Some. Qed.
Lemma mono_snoc (l : list obj) v : l <> [] -> (forall i j x y, (i <= j)%nat -> l !! i = Some x -> l !! j = Some y -> off x -> off y) -> (forall x, last l = Some x -> off x -> off v) ->
  forall i j x y, (i <= j)%nat -> (l ++ [v]) !! i = Some x -> (l ++ [v]) !! j = Some y -> off x -> off y.
Proof.
  intros Hne Hl Hv i j x y Hij Hx Hy Ho. apply lookup_app_Some in Hy as [Hy|[Hge Hy]].
  - pose proof (lookup_lt_Some _ _ _ Hy). rewrite lookup_app_l in Hx by lia. exact (Hl i j x y Hij Hx Hy Ho).
  - destruct (j - length l)%nat eqn:E; [|done]. cbn in Hy. injection Hy as <-. apply lookup_app_Some in Hx as [Hx|[Hge2 Hx]].
    + destruct (last l) as [z|] eqn:Ez; [|by apply last_None in Ez]. apply (Hv z eq_refl). rewrite last_lookup in Ez. eapply Hl; [|exact Hx|exact Ez|exact Ho]. pose proof (lookup_lt_Some _ _ _ Hx). lia.
    + destruct (i - length l)%nat eqn:E2; [|done]. cbn in Hx. by injection Hx as <-.
Qed.
Lemma off_step ma h s e o s' : step ma s e = (s', o) -> Good h s -> Off s -> Off s' /\ (shows (current s) Stopped -> shows (current s') Stopped).
Proof.
  intros Hs HG HO. pose proof HO as [Hm Hb Ho]. pose proof (g_ne _ _ HG) as Hne. pose proof (g_seen _ _ HG) as Hse.
  assert (Hlast : forall x, last (versions s) = Some x -> x = current s) by (intros x E; unfold current; by rewrite E).
  assert (Hw : forall v, stat v = stat (current s) -> (off (current s) -> off v) -> Off (write s v) /\ (shows (current s) Stopped -> shows (current (write s v)) Stopped)).
  { intros v Hv Hov. destruct (gone s) eqn:Eg; [unfold write; rewrite Eg; done|]. split.
    - unfold write. rewrite Eg. assert (Hc : forall c, cached s = Some c -> cached (State (versions s ++ [v]) (seen s) (busy s) (noted s) false) = Some c) by (by apply (cached_app s [v])).
      constructor; cbn [versions busy].
      + apply mono_snoc; [done|done|]. intros x ->%Hlast. done.
      + intros x Hx Hxo. destruct (Hb x Hx Hxo) as (c & ? & ?). eauto.
      + intros x Hx Hsx. assert (exists y, y ∈ versions s /\ shows y Stopped) as (y & Hy & Hsy).
        { apply elem_of_app in Hx as [Hx|Hx]; [by exists x|]. apply elem_of_list_singleton in Hx as ->. exists (current s). split; [by apply current_in|]. unfold shows in *. by rewrite <- Hv. }
        destruct (Ho y Hy Hsy) as (? & c & ? & ?). eauto.
    - rewrite current_write by done. unfold shows. by rewrite Hv. }
  assert (Hsame : forall s1, versions s1 = versions s -> cached s1 = cached s -> (busy s1 = None \/ busy s1 = busy s) -> Off s1 /\ (shows (current s) Stopped -> shows (current s1) Stopped)).
  { intros s1 Ev Hca Hbu. pose proof (current_eq s s1 Ev) as Ec. split; [|by rewrite Ec]. constructor; rewrite ?Ev, ?Hca; [done| |].
    - intros x Hx. apply Hb. destruct Hbu; congruence.
    - intros v Hv Hsv. destruct (Ho v Hv Hsv) as (H1 & H2). split; [|done]. intros x Hx. apply H1. destruct Hbu; congruence. }
  destruct e; cbn [step] in Hs.
  - injection Hs as <- <-. by apply Hw.
  - injection Hs as <- <-. by apply Hw.
  - injection Hs as <- <-. split; [|done].
    assert (Hc : forall c, cached s = Some c -> off c -> exists c', cached (State (versions s) (Nat.min (seen s + n) (length (versions s))) (busy s) (noted s) (gone s)) = Some c' /\ off c').
    { intros c Hc Hoc. unfold cached in *. cbn [seen versions]. destruct (seen s) as [|i] eqn:Ei; [done|]. pose proof (lookup_lt_Some _ _ _ Hc).
      destruct (Nat.min (S i + n) (length (versions s))) as [|j] eqn:Ej; [lia|]. destruct (lookup_lt_is_Some_2 (versions s) j) as [c' Hc']; [lia|]. exists c'. split; [done|]. eapply Hm; [|exact Hc|exact Hc'|done]. lia. }
    constructor; cbn [versions busy].
    + done.
    + intros x Hx Hxo. destruct (Hb x Hx Hxo) as (c & ? & ?). eauto.
    + intros v Hv Hsv. destruct (Ho v Hv Hsv) as (? & c & ? & ?). eauto.
  - destruct (busy s) eqn:Eb; [injection Hs as <- <-; apply Hsame; eauto|]. destruct (cached s) as [c|] eqn:Ec; [|injection Hs as <- <-; apply Hsame; eauto].
    injection Hs as <- <-. split; [|done]. constructor; cbn [versions busy].
    + done.
    + intros x [= <-] Hco. exists c. split; [|done]. exact Ec.
    + intros v Hv Hsv. destruct (Ho v Hv Hsv) as (_ & c' & E & Hoc). split; [|exists c'; split; [exact (eq_trans Ec E)|done]]. intros x [= <-]. congruence.
  - destruct (busy s) as [b|] eqn:Eb; [|injection Hs as <- <-; apply Hsame; eauto]. apply ends_out in Hs as (Es & Ebu & Eg & Hv & Hn).
    destruct Hv as [Hv|(st' & Hv & (Hov & HJ & HP) & _)]; [apply Hsame; [done|unfold cached; by rewrite Es, Hv|by left]|].
    assert (Ec : current s' = new_version s st') by (unfold current at 1; rewrite Hv, last_snoc; done).
    pose proof (cached_app s _ s' Hv Es) as Hca.
    assert (Hoff : off b -> phase_ st' = Some Stopped) by (intros Hoff; destruct HP as [(_ & ? & _)|(Hab & _)]; [done|unfold off in Hoff; congruence]).
    assert (Hon : phase_ st' = Some Stopped -> off b).
    { intros Hst. destruct HP as [(? & _)|(_ & [[-> _]|(_ & [[HP1 HP2]|[(HP1 & HP2 & ?)|[HP1 HP2]]])])]; try done; try (rewrite HP1 in Hst; done). }
    split.
    + constructor; rewrite ?Ebu.
      * rewrite Hv. apply mono_snoc; [done|done|]. intros x ->%Hlast. done.
      * done.
      * intros x Hx Hsx. split; [done|]. rewrite Hv in Hx. apply elem_of_app in Hx as [Hx|Hx].
        -- destruct (Ho x Hx Hsx) as (_ & c & ? & ?). eauto.
        -- apply elem_of_list_singleton in Hx as ->. assert (off b) as Hofb by (apply Hon; unfold shows in Hsx; cbn in Hsx; destruct (phase_ st'); congruence). destruct (Hb b eq_refl Hofb) as (c & ? & ?). eauto.
    + intros Hcs. destruct (Ho _ (current_in s Hne) Hcs) as (Hbo & _). specialize (Hbo b eq_refl). rewrite Ec. unfold shows. cbn. by rewrite (Hoff Hbo).
  - injection Hs as <- <-. split; [|done]. constructor; cbn [versions busy]; [done|done|]. intros v Hv Hsv. split; [done|].
    destruct (Ho v Hv Hsv) as (_ & c & Hc & Hoc). unfold cached in *. cbn [seen versions]. destruct (seen s) as [|i]; [done|]. pose proof (lookup_lt_Some _ _ _ Hc).
    destruct (length (versions s)) as [|j] eqn:Ej; [lia|]. destruct (lookup_lt_is_Some_2 (versions s) j) as [c' Hc']; [lia|]. exists c'. split; [done|]. eapply Hm; [|exact Hc|exact Hc'|done]. lia.
  - destruct (noted s); [|injection Hs as <- <-; apply Hsame; eauto]. destruct (_ <=? _); injection Hs as <- <-; apply Hsame; cbn; eauto.
Qed.
Lemma off_all ma o0 h s : start o0 -> exec (step ma) (init o0) h s -> Off s.
Proof.
  intros Hst. revert h s. apply (exec_ind_r (step ma) (init o0) (fun _ => Off)).
  - destruct Hst as [Ha Hs]. assert (Hin : forall x, x ∈ versions (init o0) -> x = o0) by (intros x; cbn; by rewrite elem_of_list_singleton). constructor; cbn [versions init busy].
    + intros [|i] [|j] v w Hij Hv Hw; cbn in *; try done; try congruence.
    + done.
    + intros v ->%Hin Hsv. unfold shows in Hsv. by rewrite Hs in Hsv.
  - intros h s e o s' Hx HO Hs. eapply off_step; [exact Hs|by eapply good_all|done].
Qed.
Lemma stopped_final ma o0 h1 s1 h2 s2 : start o0 -> exec (step ma) (init o0) h1 s1 -> exec (step ma) s1 h2 s2 -> shows (current s1) Stopped -> shows (current s2) Stopped.
Proof.
  intros Hst Hx1 Hx2 Hs1. revert h2 s2 Hx2. assert (H : forall h2 s2, exec (step ma) s1 h2 s2 -> exec (step ma) s1 h2 s2 /\ shows (current s2) Stopped); [|intros; by eapply H].
  apply (exec_ind_r (step ma) s1 (fun h2 s2 => exec (step ma) s1 h2 s2 /\ shows (current s2) Stopped)); [split; [constructor|done]|].
  intros h s e o s' Hx [_ IH] Hs. split; [apply exec_app; exists s; split; [done|]; by econstructor; [exact Hs|constructor]|].
  assert (Hx' : exec (step ma) (init o0) (h1 ++ h) s) by (apply exec_app; eauto). eapply off_step; [exact Hs|by eapply good_all|by eapply off_all|done].
Qed.
