(** Proofs for C57 and C72. *)
From Coq Require Import ZArith Lia.
From stdpp Require Import base list.
From Verif Require Import Trace Idle_Model Idle_Spec.
Open Scope Z_scope.

Record Inv (t0 : Z) (h : history) (s : state) : Prop := {
  i_last : t0 <= last s <= now s;
  i_time : forall e o, (e, o) ∈ h -> o_time o <= now s;
  i_trans : forall e o, (e, o) ∈ h -> transition e -> o_time o <= last s;
  i_work : work s = true -> working_at h (now s);
  i_idle : work s = false -> forall u, last s <= u -> ~ working_at h u;
  i_alive : alive s = false <-> refused h }.
Lemma working_snoc h e o u : working_at (h ++ [(e, o)]) u -> (exists d, e = ETransition d true /\ o_time o <= u) \/ (working_at h u /\ (transition e -> u < o_time o)).
Proof.
  intros (h1 & d & o1 & h2 & E & Ho & Hf). destruct (decide (h2 = [])) as [->|Hne].
  - apply app_inj_tail in E as [_ [= -> ->]]. left. eauto.
  - destruct (exists_last Hne) as (h3 & x & ->). rewrite app_comm_cons, app_assoc in E. apply app_inj_tail in E as [-> <-]. right. split.
    + exists h1, d, o1, h3. split; [done|]. split; [done|]. intros e' o' Hin. apply Hf. apply elem_of_app. by left.
    + apply Hf. apply elem_of_app. right. by apply elem_of_list_singleton.
Qed.
Lemma working_keep h e o u : working_at h u -> (transition e -> u < o_time o) -> working_at (h ++ [(e, o)]) u.
Proof.
  intros (h1 & d & o1 & h2 & -> & Ho & Hf) He. exists h1, d, o1, (h2 ++ [(e, o)]). split; [by rewrite <- app_assoc|]. split; [done|].
  intros e' o' [Hin|Hin]%elem_of_app; [by apply Hf|]. apply elem_of_list_singleton in Hin as [= -> ->]. done.
Qed.
Lemma working_later h u v : (forall e o, (e, o) ∈ h -> o_time o <= u) -> u <= v -> working_at h u -> working_at h v.
Proof.
  intros Ht Hv (h1 & d & o1 & h2 & -> & Ho & Hf). exists h1, d, o1, h2. split; [done|]. split; [lia|]. intros e o Hin Htr. specialize (Hf e o Hin Htr).
  assert (o_time o <= u) by (apply (Ht e); apply elem_of_app; right; by constructor). lia.
Qed.
Lemma refused_snoc h e o : refused (h ++ [(e, o)]) <-> refused h \/ exists d t, (e, o) = (ECheck d false, Obs t true).
Proof. unfold refused. setoid_rewrite elem_of_app. setoid_rewrite elem_of_list_singleton. split; [intros (d & t & [?|?]); eauto 6|intros [(d & t & ?)|(d & t & ->)]; eauto 6]. Qed.
Lemma inv_all timeout t0 h s : exec (step timeout) (init t0) h s -> Inv t0 h s.
Proof.
  revert h s. apply (exec_ind_r (step timeout) (init t0) (Inv t0)).
  - constructor; cbn; try done; try lia.
    + intros e o H. by apply elem_of_nil in H.
    + intros e o H. by apply elem_of_nil in H.
    + intros _ u _ (h1 & d & o & h2 & E & _). by destruct h1.
    + split; [done|]. intros (d & t & H). by apply elem_of_nil in H.
  - intros h s e o s' _ [H1 H2 H3 H4 H5 H6] Hs. destruct e as [d w|d ok]; cbn [step] in Hs.
    + injection Hs as <- <-. set (t := now s + Z.of_N d). assert (Ht : now s <= t) by lia. constructor; cbn [now work last alive].
      * lia.
      * intros e o [Hin|Hin]%elem_of_app; [specialize (H2 e o Hin); lia|]. apply elem_of_list_singleton in Hin as [= -> ->]. cbn. lia.
      * intros e o [Hin|Hin]%elem_of_app; [specialize (H2 e o Hin); lia|]. apply elem_of_list_singleton in Hin as [= -> ->]. cbn. lia.
      * intros ->. exists h, d, (Obs t false), []. split; [done|]. split; [cbn; lia|]. intros e o Hin. by apply elem_of_nil in Hin.
      * intros -> u Hu Hw. apply working_snoc in Hw as [(d' & ? & _)|[Hw He]]; [congruence|]. specialize (He (ex_intro _ d (ex_intro _ false eq_refl))). cbn in He. lia.
      * rewrite refused_snoc, <- H6. split; [by left|intros [?|(d' & t' & ?)]; done].
    + set (t := now s + Z.of_N d) in *. assert (Ht : now s <= t) by lia. assert (Hno : ~ transition (ECheck d ok)) by (intros (? & ? & ?); done).
      assert (G : forall al b, (al = false <-> refused (h ++ [(ECheck d ok, Obs t b)])) -> Inv t0 (h ++ [(ECheck d ok, Obs t b)]) (State t (work s) (last s) al)).
      { intros al b Hal. constructor; cbn [now work last alive].
        - lia.
        - intros e o' [Hin|Hin]%elem_of_app; [specialize (H2 e o' Hin); lia|]. apply elem_of_list_singleton in Hin as [= -> ->]. cbn. lia.
        - intros e o' [Hin|Hin]%elem_of_app Htr; [by eapply H3|]. apply elem_of_list_singleton in Hin as [= -> ->]. done.
        - intros Hw. apply working_keep; [|done]. apply (working_later h (now s)); auto.
        - intros Hw u Hu [(d' & ? & _)|[Hw2 He]]%working_snoc; [done|]. by eapply H5.
        - done. }
      destruct (alive s) eqn:Ea.
      * assert (Hnr : ~ refused h) by (intros Hr; apply H6 in Hr; done).
        destruct (true && _ && _) eqn:Eb; injection Hs as <- <-; apply G; rewrite refused_snoc.
        -- split; [intros ->; right; eauto|]. intros [?|(d' & t' & [= _ ->])]; done.
        -- split; [done|]. intros [?|(d' & t' & ?)]; done.
      * cbn [andb] in Hs. injection Hs as <- <-. apply G. rewrite refused_snoc. split; [intros _; left; by apply H6|done].
Qed.
Lemma only_idle timeout t0 h s d ok s' t : exec (step timeout) (init t0) h s -> step timeout s (ECheck d ok) = (s', Obs t true) -> t0 < t - timeout /\ forall u, t - timeout <= u -> quiet_at h u.
Proof.
  intros Hx Hs. destruct (inv_all _ _ _ _ Hx) as [H1 H2 H3 H4 H5 H6]. cbn [step] in Hs. destruct (alive s), (work s); try done. cbn [andb negb] in Hs. destruct (Z.ltb_spec timeout (now s + Z.of_N d - last s)); [|done].
  injection Hs as <- <-. split; [lia|]. intros u Hu. split; [apply H5; [done|lia]|]. intros e o Hin Htr. specialize (H3 e o Hin Htr). lia.
Qed.
Lemma shuts timeout t0 h s d ok : exec (step timeout) (init t0) h s -> ~ refused h -> let t := now s + Z.of_N d in
  t0 < t - timeout -> (forall u, t - timeout <= u -> quiet_at h u) -> exists s', step timeout s (ECheck d ok) = (s', Obs t true).
Proof.
  intros Hx Hr t Ht Hq. destruct (inv_all _ _ _ _ Hx) as [H1 H2 H3 H4 H5 H6]. cbn [step]. fold t.
  destruct (alive s) eqn:Ea; [|exfalso; apply Hr; by apply H6].
  destruct (work s) eqn:Ew.
  { exfalso. specialize (H4 eq_refl). destruct (Hq (Z.max (now s) (t - timeout))) as [Hq1 _]; [lia|]. apply Hq1. apply (working_later h (now s)); [done|lia|done]. }
  cbn [andb negb]. destruct (Z.ltb_spec timeout (t - last s)) as [|Hle]; [eauto|]. exfalso.
  (* the last transition is at [last s], or there is none and it is the start *)
  assert (G : forall h s, exec (step timeout) (init t0) h s -> last s = t0 \/ exists e o, (e, o) ∈ h /\ transition e /\ o_time o = last s).
  { clear. apply (exec_ind_r (step timeout) (init t0) (fun h s => last s = t0 \/ exists e o, (e, o) ∈ h /\ transition e /\ o_time o = last s)); [by left|].
    intros h s e o s' _ IH Hs. destruct e as [d w|d ok]; cbn [step] in Hs.
    - injection Hs as <- <-. right. exists (ETransition d w), (Obs (now s + Z.of_N d) false). split; [apply elem_of_app; right; by apply elem_of_list_singleton|]. split; [by exists d, w|done].
    - assert (E : last s' = last s) by (destruct (_ && _); injection Hs as <- <-; done). rewrite E. destruct IH as [?|(e & o' & ? & ? & ?)]; [by left|]. right. exists e, o'. split; [|done]. apply elem_of_app. by left. }
  destruct (G h s Hx) as [E|(e & o & Hin & Htr & E)]; [lia|]. destruct (Hq (last s)) as [_ Hq2]; [lia|]. by apply (Hq2 e o).
Qed.
