(** Proofs for C84. *)
From Coq Require Import ZArith Lia.
From stdpp Require Import list.
From Verif Require Import Trace Phase_Model Phase_Spec Phase_Proofs Phase_Proofs2.
Local Open Scope Z_scope.

Lemma becomes_true r os : forall b, foldl (becomes r) b os = true -> b = true \/ OCreate r Ok ∈ os.
Proof.
  induction os as [|o os IH]; intros b H; [by left|]. cbn in H. apply IH in H as [H|H]; [|right; by right].
  destruct o as [r' []|r' []| | | |]; cbn in H; try (by left); destruct (decide (r' = r)) as [->|]; try (by left); try done. right. left.
Qed.
Lemma there_app r os1 os2 : there r (os1 ++ os2) = foldl (becomes r) (there r os1) os2.
Proof. unfold there. by rewrite foldl_app. Qed.

(** What is created is recorded, and what is recorded stays so. *)
Definition faithful (st : status) (os : list obs) (st' : status) : Prop :=
  forall r, (records st r -> records st' r) /\ (OCreate r Ok ∈ os -> records st' r).
Lemma faithful_trans st1 o1 st2 o2 st3 : faithful st1 o1 st2 -> faithful st2 o2 st3 -> faithful st1 (o1 ++ o2) st3.
Proof. intros H1 H2 r. destruct (H1 r), (H2 r). rewrite elem_of_app. tauto. Qed.
Lemma faithful_eq st os st' : (forall r, records st r -> records st' r) -> (forall r, OCreate r Ok ∉ os) -> faithful st os st'.
Proof. intros H1 H2 r. split; [apply H1|]. intros H. by apply H2 in H. Qed.
Lemma faithful_ensure w r have put st os st' : (forall r', records st r' -> records (put st) r') -> records (put st) r ->
  ensure w r have put st = (os, Some st') -> faithful st os st'.
Proof.
  intros H1 H2. unfold ensure. destruct have; [intros [= <- <-]; apply faithful_eq; [done|]; intros ? ?%elem_of_nil; done|].
  intros (o1 & [] & o2 & E1 & [= <- <-] & ->)%bind_inv. rewrite app_nil_r. unfold create in E1. injection E1 as <- _. intros r'. split; [apply H1|].
  intros [= -> _]%elem_of_list_singleton. done.
Qed.
(** A cleanup that succeeds. *)
Lemma cleanup_done w st os u r : cleanup w st = (os, Some u) -> r = Pod \/ r = Secret ->
  (forall r, OCreate r Ok ∉ os) /\ (records st r -> (forall b, foldl (becomes r) b os = false) /\ (ODelete r Ok ∈ os \/ ODelete r NotFound ∈ os)).
Proof.
  intros H Hr. apply bind_inv in H as (o1 & [] & o2 & E1 & E2 & ->). unfold del in E1, E2.
  assert (H1 : pod_ st = false /\ o1 = [] \/ pod_ st = true /\ (o1 = [ODelete Pod Ok] \/ o1 = [ODelete Pod NotFound])).
  { destruct (pod_ st); [|injection E1 as <-; by left]. right. split; [done|]. destruct (deleting w Pod); injection E1 as <-; try done; tauto. }
  assert (H2 : secret st = false /\ o2 = [] \/ secret st = true /\ (o2 = [ODelete Secret Ok] \/ o2 = [ODelete Secret NotFound])).
  { destruct (secret st); [|injection E2 as <-; by left]. right. split; [done|]. destruct (deleting w Secret); injection E2 as <-; try done; tauto. }
  clear E1 E2. split.
  - intros r'. rewrite elem_of_app. destruct H1 as [[_ ->]|[_ [-> | ->]]], H2 as [[_ ->]|[_ [-> | ->]]]; rewrite ?elem_of_list_singleton, ?elem_of_nil; by intros [?|?].
  - intros Hrec. rewrite !elem_of_app. destruct Hr as [-> | ->]; cbn in Hrec.
    + destruct H1 as [[H1 _]|[_ H1]]; [congruence|]. split; [|destruct H1 as [-> | ->]; rewrite !elem_of_list_singleton; tauto]. intros b.
      destruct H1 as [-> | ->], H2 as [[_ ->]|[_ [-> | ->]]]; done.
    + destruct H2 as [[H2 _]|[_ H2]]; [congruence|]. split; [|destruct H2 as [-> | ->]; rewrite !elem_of_list_singleton; tauto]. intros b.
      rewrite foldl_app. destruct H2 as [-> | ->]; done.
Qed.

(** Calls only: no patches among them. *)
Definition calls (os : list obs) : Prop := Forall (fun o => match o with OCreate _ _ | ODelete _ _ => True | _ => False end) os.
Lemma calls_bind {A B} (x : io A) (f : A -> io B) : calls (fst x) -> (forall a, calls (fst (f a))) -> calls (fst (bind x f)).
Proof. intros H1 H2. unfold bind. destruct x as [o [a|]]; [|done]. cbn. apply Forall_app. split; [done|apply H2]. Qed.
Lemma calls_one o : match o with OCreate _ _ | ODelete _ _ => True | _ => False end -> calls [o].
Proof. intros H. by constructor. Qed.
Lemma calls_cleanup w st : calls (fst (cleanup w st)).
Proof. apply calls_bind; [|intros _]; unfold del; destruct (_ st); try constructor; done || constructor. Qed.
Lemma calls_ensure w r have put st : calls (fst (ensure w r have put st)).
Proof. unfold ensure. destruct have; [constructor|]. apply calls_bind; [by apply calls_one|]. constructor. Qed.
Lemma calls_cluster w o : calls (fst (fst (handle_cluster w o))).
Proof.
  unfold handle_cluster. destruct (phase_of _); try constructor; destruct (active o); cbn [negb fst].
  - apply calls_bind; [|intros []; constructor]. unfold handle_pending. apply calls_bind; [apply calls_ensure|]. intros st2. apply calls_bind.
    { destruct (pod_ st2); [constructor|]. apply calls_bind; [by apply calls_one|constructor]. }
    intros [p st3]. destruct p as [p|]; [|constructor]. destruct (container_state p); try constructor.
    + apply calls_bind; [apply calls_ensure|]. intros st4. destruct (endpoints w) as [[]|]; try constructor. apply calls_bind; [apply calls_ensure|]. intros st5. apply calls_bind; [apply calls_ensure|]. constructor.
    + apply calls_bind; [apply calls_cleanup|]. constructor.
  - apply calls_bind; [apply calls_cleanup|]. constructor.
  - apply calls_bind; [|intros []; constructor]. unfold handle_running. destruct (if pod_ _ then _ else _); try constructor. apply calls_bind; [apply calls_cleanup|]. constructor.
  - apply calls_bind; [apply calls_cleanup|]. constructor.
Qed.

(** The status a run arrives at. *)
Lemma cluster_faithful w o os st' b note : handle_cluster w o = ((os, Some (Some st', b)), note) ->
  faithful (default status0 (stat o)) os st' /\
  (over (phase_of st') -> exists o1 o2 st u, os = o1 ++ o2 /\ cleanup w st = (o2, Some u) /\ forall r, records st' r -> records st r).
Proof.
  unfold handle_cluster. set (st := default status0 (stat o)). clearbody st.
  assert (Hclean : forall o1 oc st3 p u, faithful st o1 st3 -> cleanup w st3 = (oc, Some u) -> faithful st (o1 ++ oc) (finish w st3 p) /\
    (over (phase_of (finish w st3 p)) -> exists o1' o2 st2 u, o1 ++ oc = o1' ++ o2 /\ cleanup w st2 = (o2, Some u) /\ forall r, records (finish w st3 p) r -> records st2 r)).
  { intros o1 oc st3 p u HF Hc. split.
    - eapply faithful_trans; [exact HF|]. apply faithful_eq; [intros r; by destruct r|]. by apply (cleanup_done w st3 oc u Pod Hc (or_introl eq_refl)).
    - intros _. exists o1, oc, st3, u. split_and!; [done|done|]. intros r; by destruct r. }
  assert (Hid : faithful st [] st) by (apply faithful_eq; [done|]; intros ? ?%elem_of_nil; done).
  assert (Hrun : forall o1 s1 b1, phase_of st = Running -> handle_running w st = (o1, Some (s1, b1)) -> faithful st o1 s1 /\
    (over (phase_of s1) -> exists o1' o2 st2 u, o1 = o1' ++ o2 /\ cleanup w st2 = (o2, Some u) /\ forall r, records s1 r -> records st2 r)).
  { intros o1 s1 b1 Hp H. unfold handle_running in H. assert (Hno : over (phase_of st) -> False) by (rewrite Hp; by intros [?|?]).
    destruct (if pod_ st then _ else _).
    - injection H as <- <- <-. split; [done|]. by intros ?%Hno.
    - destruct (scaling w); [|done]. injection H as <- <- <-. split; [done|]. by intros ?%Hno.
    - apply bind_inv in H as (oc & u & o2 & E5 & [= <- <- <-] & ->). rewrite app_nil_r. by apply (Hclean [] oc st Failed u).
    - injection H as <- <- <-. split; [done|]. by intros ?%Hno. }
  assert (Hpend : forall o1 s1 b1, phase_of st = Pending -> handle_pending w st = (o1, Some (s1, b1)) -> faithful st o1 s1 /\
    (over (phase_of s1) -> exists o1' o2 st2 u, o1 = o1' ++ o2 /\ cleanup w st2 = (o2, Some u) /\ forall r, records s1 r -> records st2 r)).
  { intros os1 s1 b1 Hp H. unfold handle_pending in H. rewrite Hp in H. set (st1 := set_phase st Pending) in *.
    assert (F1 : faithful st [] st1 /\ phase_of st1 = Pending) by (split; [apply faithful_eq; [intros r; by destruct r|]; intros ? ?%elem_of_nil; done|done]). clearbody st1. destruct F1 as [F1 P1].
    apply bind_inv in H as (o1 & st2 & o2 & E1 & E2 & ->).
    assert (F2 : faithful st o1 st2 /\ phase_of st2 = Pending).
    { split; [apply (faithful_trans _ [] st1 o1); [done|]; eapply faithful_ensure; [| |exact E1]; [intros r; by destruct r|done]|]. unfold ensure in E1. destruct (secret st1); [by injection E1 as _ <-|].
      apply bind_inv in E1 as (? & ? & ? & _ & [= _ <-] & _). done. }
    clear F1 P1 E1 st1. destruct F2 as [F2 P2]. apply bind_inv in E2 as (o3 & [p st3] & o4 & E3 & E4 & ->).
    assert (F3 : faithful st (o1 ++ o3) st3 /\ phase_of st3 = Pending).
    { destruct (pod_ st2).
      - injection E3 as <- _ <-. by rewrite app_nil_r.
      - apply bind_inv in E3 as (o5 & p' & o6 & E5 & [= <- _ <-] & ->). rewrite app_nil_r. split; [|done]. eapply faithful_trans; [exact F2|]. unfold create_pod in E5. injection E5 as <- _.
        intros r. split; [by destruct r|]. by intros [= -> _]%elem_of_list_singleton. }
    clear F2 P2 E3 st2. destruct F3 as [F3 P3]. rewrite (app_assoc o1 o3 o4). set (o13 := o1 ++ o3) in *. clearbody o13. clear o1 o3.
    assert (Hstay : o4 = [] -> s1 = st3 -> faithful st (o13 ++ o4) s1 /\ (over (phase_of s1) -> exists o1' o2 st2 u, o13 ++ o4 = o1' ++ o2 /\ cleanup w st2 = (o2, Some u) /\ forall r, records s1 r -> records st2 r)).
    { intros -> ->. rewrite app_nil_r, P3. split; [done|]. by intros [?|?]. }
    destruct p as [p|]; [|injection E4 as <- <- _; by apply Hstay]. destruct (container_state p); try (injection E4 as <- <- _; by apply Hstay).
    - clear Hstay. apply bind_inv in E4 as (o5 & st4 & o6 & E5 & E6 & ->).
      assert (F4 : faithful st (o13 ++ o5) st4 /\ phase_of st4 = Pending).
      { split; [eapply faithful_trans; [exact F3|]; eapply faithful_ensure; [| |exact E5]; [intros r; by destruct r|done]|]. unfold ensure in E5. destruct (service st3); [by injection E5 as _ <-|].
        apply bind_inv in E5 as (? & ? & ? & _ & [= _ <-] & _). done. }
      clear F3 P3 E5. destruct F4 as [F4 P4]. rewrite (app_assoc o13 o5 o6). set (o15 := o13 ++ o5) in *. clearbody o15. clear o13 o5 st3.
      assert (Hstay : o6 = [] -> s1 = st4 -> faithful st (o15 ++ o6) s1 /\ (over (phase_of s1) -> exists o1' o2 st2 u, o15 ++ o6 = o1' ++ o2 /\ cleanup w st2 = (o2, Some u) /\ forall r, records s1 r -> records st2 r)).
      { intros -> ->. rewrite app_nil_r, P4. split; [done|]. by intros [?|?]. }
      destruct (endpoints w) as [[]|]; try (injection E6 as <- <- _; by apply Hstay). clear Hstay.
      apply bind_inv in E6 as (o7 & st5 & o8 & E7 & E8 & ->). apply bind_inv in E8 as (o9 & st6 & o10 & E9 & [= <- <- <-] & ->). rewrite app_nil_r. split; [|by intros [?|?]].
      eapply faithful_trans; [exact F4|]. rewrite <- (app_nil_r (o7 ++ o9)). eapply faithful_trans; [eapply faithful_trans|].
      + eapply faithful_ensure; [| |exact E7]; [intros r; by destruct r|done].
      + eapply faithful_ensure; [| |exact E9]; [intros r; by destruct r|done].
      + apply faithful_eq; [intros r; by destruct r|]. intros ? ?%elem_of_nil. done.
    - apply bind_inv in E4 as (oc & u & o6 & E5 & [= <- <- <-] & ->). rewrite app_nil_r. by apply (Hclean o13 oc st3 Failed u). }
  destruct (phase_of st) eqn:Ep; try (intros [= <-]; done); destruct (active o); cbn [negb]; intros H; injection H as H <-.
  - apply bind_inv in H as (o1 & [s1 b1] & o2 & E1 & [= <- <- <-] & ->). rewrite app_nil_r. by apply (Hpend o1 s1 b1).
  - apply bind_inv in H as (oc & u & o2 & E1 & [= <- <- <-] & ->). rewrite app_nil_r. by apply (Hclean [] oc st Stopped u).
  - apply bind_inv in H as (o1 & [s1 b1] & o2 & E1 & [= <- <- <-] & ->). rewrite app_nil_r. by apply (Hrun o1 s1 b1).
  - apply bind_inv in H as (oc & u & o2 & E1 & [= <- <- <-] & ->). rewrite app_nil_r. by apply (Hclean [] oc st Stopped u).
Qed.

(** Whoever records the end has deleted what is recorded. *)
Lemma end_deletes max_age s e s' os st a r : step max_age s e = (s', os) -> OPatch st a ∈ os -> over (phase_of st) -> records st r -> r = Pod \/ r = Secret ->
  ODelete r Ok ∈ os \/ ODelete r NotFound ∈ os.
Proof.
  intros Hs Hp Ho Hr Hr2. destruct e; cbn [step] in Hs; try (injection Hs as <- <-; by apply elem_of_nil in Hp).
  - destruct (busy s), (cached s); injection Hs as <- <-; by apply elem_of_nil in Hp.
  - destruct (busy s) as [o|]; [|injection Hs as <- <-; by apply elem_of_nil in Hp]. unfold ends in Hs. pose proof (calls_cluster w o) as HC.
    destruct (handle_cluster w o) as [[os1 res] note] eqn:Eh. cbn [fst] in HC. assert (Hno : OPatch st a ∉ os1) by (intros H; by apply (proj1 (Forall_forall _ _) HC) in H).
    assert (Hone : forall x, OPatch st a ∈ os1 ++ [x] -> OPatch st a = x) by (intros x [H|H%elem_of_list_singleton]%elem_of_app; done).
    destruct res as [[[st'|] b]|]; [|injection Hs as <- <-; by apply Hone in Hp..]. destruct (decide _); [injection Hs as <- <-; by apply Hone in Hp|]. injection Hs as <- <-.
    apply elem_of_app in Hp as [Hp|Hp]; [done|]. assert (st' = st) as -> by (apply elem_of_cons in Hp as [[= <- _]|Hp%elem_of_list_singleton]; [done|by destruct (_ && _)]).
    destruct (cluster_faithful _ _ _ _ _ _ Eh) as [_ H]. destruct (H Ho) as (o1 & o2 & st2 & u & -> & Hc & Hst). destruct (cleanup_done _ _ _ _ r Hc Hr2) as [_ Hd].
    destruct (Hd (Hst _ Hr)) as [_ [?|?]]; rewrite !elem_of_app; tauto.
  - destruct (noted s); [destruct (_ <=? _)|]; injection Hs as <- <-; [by apply elem_of_list_singleton in Hp|by apply elem_of_nil in Hp..].
Qed.

Definition inv (h : history) (s : state) : Prop :=
  (forall r, r = Pod \/ r = Secret -> there r (obs_of h) = true -> let st := default status0 (stat (current s)) in records st r /\ ~ over (phase_of st)) /\
  (forall o, busy s = Some o -> stat o = stat (current s)) /\ versions s <> [].
Lemma current_snoc l n b t g o : current (State (l ++ [o]) n b t g) = o.
Proof. unfold current. cbn. by rewrite last_snoc. Qed.
Lemma write_stat s o : stat o = stat (current s) -> stat (current (write s o)) = stat (current s) /\ busy (write s o) = busy s /\ (versions s <> [] -> versions (write s o) <> []).
Proof. intros H. unfold write. destruct (gone s); [done|]. rewrite current_snoc. split_and!; try done. intros _. cbn. by destruct (versions s). Qed.
Lemma obs_snoc h e o : obs_of (h ++ [(e, o)]) = obs_of h ++ o.
Proof. unfold obs_of. rewrite map_app, concat_app. cbn. by rewrite app_nil_r. Qed.
Lemma up_prefix max_age s0 h e : up_to_date max_age s0 (h ++ [e]) -> up_to_date max_age s0 h.
Proof. intros H h1 o h2 s -> Hx. apply (H h1 o (h2 ++ [e]) s); [|done]. by rewrite <- app_assoc. Qed.
Lemma inv_all max_age o0 h s : start o0 -> exec (step max_age) (init o0) h s -> up_to_date max_age (init o0) h -> noted_all h -> inv h s.
Proof.
  intros Hst Hx. revert h s Hx. apply (exec_ind_r (step max_age) (init o0) (fun h s => up_to_date max_age (init o0) h -> noted_all h -> inv h s)).
  { intros _ _. split_and!; [|done|done]. intros r _ H. done. }
  intros h s e o s' Hx IH Hs Hu Hn. destruct IH as (H1 & H2 & H3); [by eapply up_prefix|intros e' os r He; apply (Hn e'); apply elem_of_app; by left|].
  assert (Hsame : o = [] -> stat (current s') = stat (current s) -> (forall c, busy s' = Some c -> stat c = stat (current s)) -> versions s' <> [] -> inv (h ++ [(e, o)]) s').
  { intros -> E1 E2 E3. split_and!; [|by rewrite E1|done]. intros r Hr. rewrite obs_snoc, app_nil_r, E1. by apply H1. }
  destruct e; cbn [step] in Hs.
  - injection Hs as <- <-. destruct (write_stat s (Obj false (replicas (current s)) (stat (current s))) eq_refl) as (E1 & E2 & E3). apply Hsame; [done|done|rewrite E2; done|by apply E3].
  - injection Hs as <- <-. destruct (write_stat s (Obj (active (current s)) n (stat (current s))) eq_refl) as (E1 & E2 & E3). apply Hsame; [done|done|rewrite E2; done|by apply E3].
  - injection Hs as <- <-. by apply Hsame.
  - destruct (busy s) as [c|] eqn:Eb; [injection Hs as <- <-; apply Hsame; try done; by rewrite Eb|]. destruct (cached s) as [c|] eqn:Ec; [|injection Hs as <- <-; apply Hsame; try done; by rewrite Eb]. injection Hs as <- <-.
    apply Hsame; [done|done| |done]. cbn. intros c' [= <-]. destruct (Hu h [] [] s eq_refl Hx) as (c' & Ec' & E). congruence.
  - destruct (busy s) as [c|] eqn:Eb; [|injection Hs as <- <-; apply Hsame; try done; by rewrite Eb]. specialize (H2 _ eq_refl). unfold ends in Hs.
    pose proof (calls_cluster w c) as HC. destruct (handle_cluster w c) as [[os res] note] eqn:Eh. cbn [fst] in HC.
    assert (Hno : forall st a, OPatch st a ∉ os) by (intros st a H; by apply (proj1 (Forall_forall _ _) HC) in H).
    (** Without a patch: nothing was created. *)
    assert (Hkeep : forall x, becomes Pod true x = true /\ becomes Secret true x = true /\ becomes Pod false x = false /\ becomes Secret false x = false -> (forall st, OPatch st true <> x) ->
      o = os ++ [x] -> versions s' = versions s -> busy s' = None -> inv (h ++ [(EEnd w applied ok, o)]) s').
    { intros x (B1 & B2 & B3 & B4) Hx' -> Ev Eb'. assert (Ecur : current s' = current s) by (unfold current; by rewrite Ev). split_and!; [|by rewrite Eb'|by rewrite Ev].
      intros r Hr. rewrite obs_snoc, there_app, foldl_app. cbn [foldl]. rewrite Ecur. intros Ht. apply H1; [done|].
      assert (Ht2 : foldl (becomes r) (there r (obs_of h)) os = true) by (destruct (foldl (becomes r) _ os); [done|destruct Hr as [-> | ->]; congruence]).
      apply becomes_true in Ht2 as [?|Hc]; [done|]. destruct (Hn (EEnd w applied ok) (os ++ [x]) r) as [st Hp]; [apply elem_of_app; right; by left|done|apply elem_of_app; by left|].
      apply elem_of_app in Hp as [Hp|Hp%elem_of_list_singleton]; [by apply Hno in Hp|by apply Hx' in Hp]. }
    destruct res as [[[st'|] b]|].
    2: injection Hs as <- <-; by apply (Hkeep (ODone b)).
    2: injection Hs as <- <-; by apply (Hkeep ORaised).
    destruct (decide _) as [Es|Es]; [injection Hs as <- <-; by apply (Hkeep (ODone b))|]. injection Hs as <- <-.
    destruct (cluster_faithful _ _ _ _ _ _ Eh) as [HF HO]. rewrite H2 in HF.
    set (ap := applied && negb (gone s)) in *. set (x := if ap && ok then ODone b else ORaised) in *.
    assert (Bx : forall r v, becomes r v x = v) by (intros r v; unfold x; by destruct (_ && ok)).
    assert (Hob : forall r, foldl (becomes r) (there r (obs_of h)) (os ++ [OPatch st' ap; x]) = foldl (becomes r) (there r (obs_of h)) os).
    { intros r. rewrite foldl_app. cbn [foldl]. by rewrite Bx. }
    destruct ap eqn:Eap.
    + assert (Eg : gone s = false) by (unfold ap in Eap; apply andb_true_iff in Eap as [_ Eap]; by apply negb_true_iff in Eap). unfold write. cbn [gone]. rewrite Eg. split_and!; [|done|cbn; by destruct (versions s)].
      intros r Hr. rewrite obs_snoc, there_app, Hob, current_snoc. cbn [stat default]. intros Ht.
      assert (Hrec : records st' r). { apply becomes_true in Ht as [Ht|Hc]; [apply (proj1 (HF r)); by apply (proj1 (H1 r Hr Ht))|by apply (proj2 (HF r))]. } split; [done|]. intros Ho.
      destruct (HO Ho) as (o1 & o2 & st2 & u & -> & Hc & Hst2). destruct (cleanup_done _ _ _ _ r Hc Hr) as [_ Hd]. destruct (Hd (Hst2 _ Hrec)) as [Hd' _]. rewrite foldl_app, Hd' in Ht. done.
    + split_and!; [|done|done]. intros r Hr. rewrite obs_snoc, there_app, Hob. change (current _) with (current s). intros Ht. apply H1; [done|]. apply becomes_true in Ht as [?|Hc]; [done|].
      destruct (Hn (EEnd w applied ok) (os ++ [OPatch st' false; x]) r) as [st Hp]; [apply elem_of_app; right; by left|done|apply elem_of_app; by left|].
      apply elem_of_app in Hp as [Hp|Hp]; [by apply Hno in Hp|]. apply elem_of_cons in Hp as [[=]|Hp%elem_of_list_singleton]. unfold x in Hp. by destruct ok.
  - injection Hs as <- <-. by apply Hsame.
  - destruct (noted s) as [t0|]; [destruct (_ <=? _)|]; injection Hs as <- <-; try (by apply Hsame).
    split_and!; [|done|done]. intros r Hr. rewrite obs_snoc, there_app. change (current _) with (current s). apply H1. done.
Qed.
Lemma over_gone max_age o0 h s p r : start o0 -> exec (step max_age) (init o0) h s -> up_to_date max_age (init o0) h -> noted_all h -> shows (current s) p -> over p ->
  r = Pod \/ r = Secret -> there r (obs_of h) = false.
Proof.
  intros Hst Hx Hu Hn Hp Ho Hr. destruct (there r (obs_of h)) eqn:E; [|done]. exfalso. destruct (inv_all _ _ _ _ Hst Hx Hu Hn) as (H1 & _). destruct (H1 r Hr E) as [_ H]. apply H.
  unfold shows in Hp. destruct (stat (current s)) as [st|]; [|subst p; by destruct Ho]. cbn. unfold phase_of. destruct (phase_ st); cbn; [by subst|]. subst p. by destruct Ho.
Qed.
