(** The client's view is one the scheduler had, and what is under way leads to the present one. *)
From Coq Require Import Lia.
From stdpp Require Import prelude gmap.
From Verif Require Import Follow_Model.
Local Open Scope nat_scope.

(** [m] were the scheduler's workers at a moment of the history. *)
Definition was (es : list event) (m : workers) : Prop := exists es1 es2, es = es1 ++ es2 /\ s_workers (run es1) = m.
Lemma was_now es : was es (s_workers (run es)).
Proof. exists es, []. by rewrite app_nil_r. Qed.
Lemma was_app es es' m : was es m -> was (es ++ es') m.
Proof. intros (a & b & -> & H). exists a, (b ++ es'). by rewrite app_assoc. Qed.
Lemma run_snoc es e : run (es ++ [e]) = step (run es) e.
Proof. unfold run. by rewrite fold_left_app. Qed.
Lemma run_app es es' : run (es ++ es') = fold_left step es' (run es).
Proof. unfold run. by rewrite fold_left_app. Qed.

Definition ops (l : list message) : list op := mjoin (map (fun x => match x with Batch b => b | Identity _ => [] end) l).
Definition batches (l : list message) : Prop := Forall (fun x => match x with Batch _ => True | Identity _ => False end) l.
Lemma ops_app l l' : ops (l ++ l') = ops l ++ ops l'.
Proof.
  induction l as [|x l IH]; [done|]. change (ops ((x :: l) ++ l')) with (match x with Batch b => b | Identity _ => [] end ++ ops (l ++ l')).
  rewrite IH. by rewrite app_assoc.
Qed.
Lemma apply_app a b m : apply (a ++ b) m = let '(m', ok) := apply a m in if ok then apply b m' else (m', false).
Proof.
  revert m. induction a as [|[x w|x] a IH]; intros m; [done|apply IH|].
  cbn. destruct (m !! x); [apply IH|done].
Qed.
(** [l] leads from [m] to [w] through workers the scheduler had. *)
Definition track (es : list event) (m : workers) (l : list op) (w : workers) : Prop :=
  (forall a b, l = a ++ b -> exists m', apply a m = (m', true) /\ was es m') /\ apply l m = (w, true).
Lemma track_app es es' m l w : track es m l w -> track (es ++ es') m l w.
Proof. intros [H E]. split; [|done]. intros a b Hl. destruct (H a b Hl) as (m' & ? & ?). exists m'. eauto using was_app. Qed.
Lemma track_nil es m : was es m -> track es m [] m.
Proof. intros H. split; [|done]. intros [|] b E; [|done]. by exists m. Qed.
Lemma track_start es m l w : track es m l w -> was es m.
Proof. intros [H _]. destruct (H [] l eq_refl) as (m' & [= ->] & ?). done. Qed.
Lemma track_split es m l r w : track es m (l ++ r) w -> exists m', apply l m = (m', true) /\ track es m' r w.
Proof.
  intros [H E]. destruct (H l r eq_refl) as (m' & Hm & Hw). exists m'. split; [done|]. split.
  - intros a b ->. destruct (H (l ++ a) b ltac:(by rewrite app_assoc)) as (m2 & H2 & ?).
    rewrite apply_app, Hm in H2. by exists m2.
  - by rewrite apply_app, Hm in E.
Qed.
Lemma track_snoc es m l w o w' : track es m l w -> apply [o] w = (w', true) -> was es w' -> track es m (l ++ [o]) w'.
Proof.
  intros [H E] Ho Hw. assert (E' : apply (l ++ [o]) m = (w', true)) by (by rewrite apply_app, E). split; [|done].
  intros a b Hl. destruct b as [|x b _] using rev_ind.
  - rewrite app_nil_r in Hl. subst. by exists w'.
  - rewrite app_assoc in Hl. apply app_inj_tail in Hl as [-> _]. by apply (H a b).
Qed.

Definition inv (es : list event) (s : state) : Prop :=
  (s_subscribed s = false -> s_wire s = [] /\ s_buffer s = []) /\
  match c_task s with
  | Awaiting => c_info s = None /\ (s_subscribed s = true ->
      exists m r, s_wire s = Identity m :: r /\ batches r /\ track es m (ops r ++ s_buffer s) (s_workers s))
  | Watching => s_subscribed s = true /\
      exists m, c_info s = Some m /\ batches (s_wire s) /\ track es m (ops (s_wire s) ++ s_buffer s) (s_workers s)
  | Over => (forall m, c_info s = Some m -> was es m) /\ (Break ∈ es \/ Close ∈ es)
  end.
Lemma inv_info es s m : inv es s -> c_info s = Some m -> was es m.
Proof.
  intros [_ H] E. destruct (c_task s).
  - destruct H; congruence.
  - destruct H as (_ & m' & E' & _ & T). apply track_start in T. congruence.
  - destruct H as [H _]; auto.
Qed.
Lemma inv_app es es' s : inv es s -> inv (es ++ es') s.
Proof.
  intros [H0 H]. split; [done|]. destruct (c_task s).
  - destruct H as [H H']. split; [done|]. intros Hs. destruct (H' Hs) as (m & r & ? & ? & ?). eauto 6 using track_app.
  - destruct H as (? & m & ? & ? & ?). eauto 6 using track_app.
  - destruct H as [H H']. split; [eauto using was_app|]. rewrite !elem_of_app. tauto.
Qed.
Lemma inv_change es e s o m : inv es s -> run es = s -> step s e = change o m s -> apply [o] (s_workers s) = (m, true) ->
  inv (es ++ [e]) (change o m s).
Proof.
  intros H Hr He Ho.
  assert (Hw : was (es ++ [e]) m). { pose proof (was_now (es ++ [e])) as W. by rewrite run_snoc, Hr, He in W. }
  apply (inv_app es [e]) in H. destruct H as [H0 H]. split; cbn; [intros Hs; rewrite Hs; auto|].
  destruct (c_task s).
  - destruct H as [H H']. split; [done|]. intros Hs. rewrite Hs. destruct (H' Hs) as (m0 & r & Ew & Hb & T).
    exists m0, r. split; [done|]. split; [done|]. rewrite app_assoc. by eapply track_snoc.
  - destruct H as (Hs & m0 & Ei & Hb & T). rewrite Hs. split; [done|]. exists m0. split; [done|]. split; [done|].
    rewrite app_assoc. by eapply track_snoc.
  - done.
Qed.
Lemma run_inv es : inv es (run es).
Proof.
  induction es as [|e es IH] using rev_ind.
  - split; [done|]. cbn. split; [done|]. intros [=].
  - rewrite run_snoc. destruct e as [a w|a| | | | | | |]; cbn [step].
    + destruct (s_workers (run es) !! a) eqn:E; [by apply inv_app|].
      apply inv_change; [done..| |done]. cbn. by rewrite E.
    + destruct (s_workers (run es) !! a) eqn:E; [|by apply inv_app].
      apply inv_change; [done..| |]; cbn; by rewrite E.
    + destruct (s_subscribed (run es)) eqn:Hs; [by apply inv_app|].
      apply (inv_app es [Subscribe]) in IH as [H0 H]. split; [done|]. cbn. destruct (c_task (run es)).
      * destruct H as [H _]. split; [done|]. intros _. eexists _, []. split; [done|]. split; [constructor|]. apply track_nil, was_app, was_now.
      * destruct H; congruence.
      * done.
    + destruct (s_buffer (run es)) as [|o l] eqn:Eb; [by apply inv_app|]. rewrite <- Eb.
      apply (inv_app es [Flush]) in IH as [H0 H]. split; cbn -[ops]; [intros Hs; apply H0 in Hs as [_ Hs]; congruence|].
      destruct (c_task (run es)).
      * destruct H as [H H']. split; [done|]. intros Hs. destruct (H' Hs) as (m0 & r & -> & Hb & T).
        exists m0, (r ++ [Batch (s_buffer (run es))]). split; [done|]. split; [apply Forall_app; split; [done|by repeat constructor]|].
        rewrite ops_app. cbn. by rewrite !app_nil_r.
      * destruct H as (Hs & m0 & Ei & Hb & T). split; [done|]. exists m0. split; [done|]. split; [apply Forall_app; split; [done|by repeat constructor]|].
        rewrite ops_app. cbn. by rewrite !app_nil_r.
      * done.
    + apply (inv_app es [Read]) in IH. destruct (c_task (run es)) eqn:Et; [| |by destruct (s_wire (run es)) as [|[] ?]].
      * destruct (s_wire (run es)) as [|[m|l] r] eqn:Ew; [done| |done].
        destruct IH as [H0 H]. rewrite Et in H. destruct H as [H H'].
        destruct (s_subscribed (run es)) eqn:Hs; [|destruct (H0 eq_refl); congruence].
        destruct (H' eq_refl) as (m0 & r0 & E0 & Hb & T). rewrite Ew in E0. injection E0 as <- <-.
        split; [done|]. cbn. split; [done|]. by exists m.
      * destruct (s_wire (run es)) as [|[m|l] r] eqn:Ew; [done|done|].
        destruct IH as [H0 H]. rewrite Et in H. destruct H as (Hs & m0 & Ei & Hb & T). rewrite Ei.
        rewrite Ew in T, Hb. change (ops (Batch l :: r)) with (l ++ ops r) in T. rewrite <- app_assoc in T.
        apply track_split in T as (m' & Em & T). rewrite Em. split; cbn; [by rewrite Hs|].
        split; [done|]. exists m'. split; [done|]. split; [by inversion Hb|done].
    + pose proof (inv_info (es ++ [Break]) (run es)) as W. apply (inv_app es [Break]) in IH. split; [apply IH|]. cbn. split; [intros m; by apply W|].
      left. apply elem_of_app. right. left.
    + pose proof (inv_info (es ++ [Close]) (run es)) as W. apply (inv_app es [Close]) in IH. split; [apply IH|]. cbn. split; [intros m; by apply W|].
      right. apply elem_of_app. right. left.
    + apply (inv_app es [MakeWidget]) in IH. destruct (c_widget (run es)), (c_info (run es)) eqn:Ei; try exact IH.
      destruct IH as [H0 H]. split; [done|]. cbn. by rewrite <- Ei.
    + apply (inv_app es [KeepWidget]) in IH. by destruct (c_widget (run es)).
Qed.
(** Reading all there is. *)
Lemma reads_all s k : batches (s_wire s) -> c_task s = Watching -> length (s_wire s) <= k ->
  forall es m w, c_info s = Some m -> track es m (ops (s_wire s)) w ->
  let s' := fold_left step (replicate k Read) s in c_info s' = Some w /\ c_task s' = Watching /\ s_wire s' = [] /\ s_buffer s' = s_buffer s.
Proof.
  revert s. induction k as [|k IH]; intros s Hb Ht Hk es m w Hm T.
  - destruct (s_wire s) eqn:E; [|cbn in Hk; lia]. cbn in T. destruct T as [_ [= ->]]. done.
  - cbn [replicate fold_left]. destruct (s_wire s) as [|[m0|l] r] eqn:E.
    + assert (step s Read = s) as -> by (cbn; by rewrite Ht, E).
      apply (IH s ltac:(by rewrite E) Ht ltac:(rewrite E; cbn; lia) es m w Hm). by rewrite E.
    + inversion Hb; done.
    + change (ops (Batch l :: r)) with (l ++ ops r) in T. apply track_split in T as (m' & Em & T).
      assert (Es : step s Read = State (s_workers s) (s_buffer s) r (s_subscribed s) (Some m') Watching
        (match c_widget s with Shown _ => Shown (widget_status m') | x => x end)).
      { cbn. rewrite Ht, E, Hm, Em. done. }
      rewrite Es. apply (IH (State _ _ _ _ _ _ _)) with (es := es) (m := m'); cbn; [by inversion Hb|done|cbn in Hk; lia|done|done].
Qed.
