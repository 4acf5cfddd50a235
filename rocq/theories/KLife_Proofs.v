(** Proofs for C141 and C142, part 1: what runs do, and what holds when the controller has
    nothing to do. *)
From Coq Require Import ZArith Lia.
From stdpp Require Import list.
From Verif Require Import Trace Phase_Model Phase_Spec Phase_Proofs Phase_Proofs2 KLife_Model KLife_Spec.
Open Scope Z_scope.

Notation status_of o := (default status0 (stat o)).

(** * Outcomes of a run *)
Lemma bind_some {A B} (x : io A) (f : A -> io B) : snd x <> None -> (forall a, snd x = Some a -> snd (f a) <> None) -> snd (bind x f) <> None.
Proof. unfold bind. destruct (snd x) as [a|]; [|done]. intros _ H. cbn. by apply H. Qed.
Lemma ensure_some w r have put st : (creating w r = Ok \/ creating w r = Conflict) -> snd (ensure w r have put st) <> None.
Proof. unfold ensure. destruct have; [done|]. unfold bind, create. by intros [-> | ->]. Qed.
Lemma cleanup_some w st : answers w -> snd (cleanup w st) <> None.
Proof. intros (_ & H & _). unfold cleanup. apply bind_some; [|intros _ _]; unfold del; destruct (_ st); try done; cbn; [destruct (H Pod) as [-> | ->]|destruct (H Secret) as [-> | ->]]; done. Qed.
Lemma pending_some w st : answers w -> snd (handle_pending w st) <> None.
Proof.
  intros Ha. pose proof Ha as (Hc & Hd & Hs). unfold handle_pending. apply bind_some; [by apply ensure_some|]. intros st2 _. apply bind_some.
  { destruct (pod_ st2); [done|]. unfold bind, create_pod. cbn. by destruct (Hc Pod) as [-> | ->]. }
  intros [p st3] _. destruct p as [p|]; [|done]. destruct (container_state p); try done.
  - apply bind_some; [by apply ensure_some|]. intros st4 _. destruct (endpoints w) as [[]|]; try done.
    apply bind_some; [by apply ensure_some|]. intros st5 _. apply bind_some; [by apply ensure_some|]. done.
  - apply bind_some; [by apply cleanup_some|]. done.
Qed.
Lemma running_some w st : answers w -> snd (handle_running w st) <> None.
Proof.
  intros Ha. pose proof Ha as (Hc & Hd & Hs). unfold handle_running. destruct (if pod_ st then _ else _); try done.
  - by destruct (scaling w).
  - apply bind_some; [by apply cleanup_some|]. done.
Qed.
(** With good answers no run raises. *)
Lemma cluster_some w o : answers w -> (handle_cluster w o).1.2 <> None.
Proof.
  intros Ha. unfold handle_cluster. destruct (phase_of _); try done; destruct (negb (active o)); cbn [fst snd]; apply bind_some; try (by apply cleanup_some); try done.
  - by apply pending_some.
  - by intros [].
  - by apply running_some.
  - by intros [].
Qed.
(** What a run for a pending cluster records. *)
Lemma pending_pod w st os st' b : handle_pending w st = (os, Some (st', b)) -> pod_ st' = true /\
  (pod_ st = true -> pod_runs (seen_pod w) -> endpoints w = Some true -> phase_ st' = Some Running) /\
  (pod_ st = true -> pod_ended (seen_pod w) -> phase_ st' = Some Failed).
Proof.
  unfold handle_pending. set (st1 := set_phase st (phase_of st)). assert (P1 : pod_ st1 = pod_ st) by done. clearbody st1.
  intros (o1 & st2 & o2 & E1 & E2 & ->)%bind_inv.
  assert (P2 : pod_ st2 = pod_ st) by (apply ensure_inv in E1 as [(_ & -> & _)|(_ & -> & _)]; done). clear E1 P1.
  apply bind_inv in E2 as (o3 & [p st3] & o4 & E3 & E4 & ->).
  assert (P3 : pod_ st3 = true /\ (pod_ st = true -> p = seen_pod w)).
  { destruct (pod_ st2) eqn:Ep.
    - injection E3 as _ <- <-. done.
    - apply bind_inv in E3 as (o5 & p' & o6 & _ & [= _ <- <-] & _). split; [done|]. intros H. congruence. }
  destruct P3 as [P3 Hp]. clear E3.
  assert (forall P : Prop, (pod_ st = true -> forall q, seen_pod w = Some q -> p = Some q -> P) -> pod_ st = true -> forall q, seen_pod w = Some q -> P) as Hq.
  { intros P H Hs q E. eapply H; [done|done|]. rewrite <- E. by apply Hp. }
  destruct p as [p|].
  2:{ injection E4 as <- <- <-. split_and!; [done|..]; intros Hs (q & E & _); specialize (Hp Hs); congruence. }
  destruct (container_state p) eqn:Ec.
  - injection E4 as <- <- <-. split_and!; [done|..]; intros Hs (q & E & Hc); specialize (Hp Hs); assert (p = q) by congruence; congruence.
  - apply bind_inv in E4 as (o5 & st4 & o6 & E5 & E6 & ->).
    assert (P4 : pod_ st4 = true) by (apply ensure_inv in E5 as [(_ & -> & _)|(_ & -> & _)]; done).
    destruct (endpoints w) as [[]|].
    + apply bind_inv in E6 as (o7 & st5 & o8 & E7 & E8 & ->). apply bind_inv in E8 as (o9 & st6 & o10 & E9 & [= <- <- <-] & ->).
      assert (P5 : pod_ st5 = true) by (apply ensure_inv in E7 as [(_ & -> & _)|(_ & -> & _)]; done).
      assert (P6 : pod_ st6 = true) by (apply ensure_inv in E9 as [(_ & -> & _)|(_ & -> & _)]; done).
      split_and!; [done|done|]. intros Hs (q & E & Hc); specialize (Hp Hs); assert (p = q) by congruence; congruence.
    + injection E6 as <- <- <-. split_and!; [done|done|]. intros Hs (q & E & Hc); specialize (Hp Hs); assert (p = q) by congruence; congruence.
    + injection E6 as <- <- <-. split_and!; [done|done|]. intros Hs (q & E & Hc); specialize (Hp Hs); assert (p = q) by congruence; congruence.
  - apply bind_inv in E4 as (o5 & u & o6 & E5 & [= <- <- <-] & ->). split_and!; [done| |done].
    intros Hs (q & E & Hc); specialize (Hp Hs); assert (p = q) by congruence; congruence.
  - injection E4 as <- <- <-. split_and!; [done|..]; intros Hs (q & E & Hc); specialize (Hp Hs); assert (p = q) by congruence; congruence.
Qed.
Lemma running_pod w st os st' b : handle_running w st = (os, Some (st', b)) -> pod_ended (seen_pod w) \/ seen_pod w = None -> phase_ st' = Some Failed.
Proof.
  unfold handle_running. intros H Hp. assert ((if pod_ st then match seen_pod w with Some p => container_state p | None => STerminated end else STerminated) = STerminated) as E.
  { destruct (pod_ st); [|done]. destruct Hp as [(q & -> & Hq)| ->]; done. }
  rewrite E in H. by apply bind_inv in H as (o5 & u & o6 & _ & [= <- <- <-] & _).
Qed.
(** What a run may leave, all in all. *)
Record result (w : world) (o : obj) (st' : status) : Prop := {
  rs_over : ~ over (phase_of (status_of o));
  rs_off : active o = false -> phase_ st' = Some Stopped;
  rs_on : active o = true -> phase_of (status_of o) = Pending -> pod_ st' = true /\
    (pod_ (status_of o) = true -> pod_runs (seen_pod w) -> endpoints w = Some true -> phase_ st' = Some Running) /\
    (pod_ (status_of o) = true -> pod_ended (seen_pod w) -> phase_ st' = Some Failed);
  rs_run : active o = true -> phase_of (status_of o) = Running -> pod_ended (seen_pod w) \/ seen_pod w = None -> phase_ st' = Some Failed;
  rs_pod : phase_of st' = Pending -> pod_ st' = true }.
Lemma cluster_result w o os st' b note : handle_cluster w o = ((os, Some (Some st', b)), note) -> result w o st'.
Proof.
  intros H. pose proof (cluster_out _ _ _ _ _ _ H) as (H1 & _ & _ & H2). cbn zeta in *.
  unfold handle_cluster in H. destruct (phase_of (status_of o)) eqn:Ep; try (by destruct H1; [left|right]); try (destruct H1; by (left + right)); destruct (active o) eqn:Ea; cbn [negb] in H; injection H as H _.
  - apply bind_inv in H as (o1 & [s1 b1] & o2 & E1 & [= <- <- <-] & _). apply pending_pod in E1. constructor; rewrite ?Ep; try done; try (intros; congruence). intros _. by destruct E1.
  - destruct H2 as [(_ & H2 & _)|(? & _)]; [|done]. constructor; rewrite ?Ep; try done; try (intros; congruence). unfold phase_of. rewrite H2. done.
  - apply bind_inv in H as (o1 & [s1 b1] & o2 & E1 & [= <- <- <-] & _). constructor; rewrite ?Ep; try done; try (intros; congruence).
    + intros _ _. by eapply running_pod.
    + apply running_out in E1 as [-> | ->]; [congruence|done].
  - destruct H2 as [(_ & H2 & _)|(? & _)]; [|done]. constructor; rewrite ?Ep; try done; try (intros; congruence). unfold phase_of. rewrite H2. done.
Qed.
(** How a run ends. *)
Lemma ends_cases s o w a k s' os : ends s o w a k = (s', os) -> seen s' = seen s /\ busy s' = None /\ gone s' = gone s /\
  ( (versions s' = versions s /\ again os = true /\ noted s' = noted s /\ (answers w -> a = true -> gone s = true))
  \/ (versions s' = versions s /\ over (phase_of (status_of o)))
  \/ (versions s' = versions s /\ noted s' = noted s /\ exists st', stat o = Some st' /\ result w o st')
  \/ (exists st', versions s' = versions s ++ [new_version s st'] /\ noted s' = noted s /\ gone s = false /\ result w o st')).
Proof.
  unfold ends. destruct (handle_cluster w o) as [[os1 r] note] eqn:E. cbn [fst snd].
  assert (Hag : forall l x, again (l ++ [x]) = again l || again [x]) by (intros l x; unfold again; by rewrite existsb_app).
  destruct r as [[[st'|] b]|].
  - pose proof (cluster_result _ _ _ _ _ _ E) as HR. apply cluster_out in E as (_ & _ & -> & _).
    destruct (decide _) as [Hd|Hd].
    + intros [= <- <-]. cbn. split_and!; try done. right. right. left. eauto.
    + destruct (a && negb (gone s)) eqn:Ea.
      * apply andb_true_iff in Ea as [-> Hg]. destruct (gone s) eqn:Eg; [done|]. unfold write. cbn [gone]. intros [= <- <-]. cbn [seen busy gone versions noted]. split_and!; try done.
        right. right. right. exists st'. done.
      * intros [= <- <-]. cbn [andb]. cbn. split_and!; try done. left. split_and!; [done| |done|].
        -- unfold again. rewrite existsb_app. cbn. apply orb_true_r.
        -- intros _ ->. by destruct (gone s).
  - intros [= <- <-]. cbn. split_and!; try done. right. left. split; [done|]. unfold handle_cluster in E.
    destruct (phase_of _); try (by left); try (by right); destruct (negb _); injection E as E _; apply bind_inv in E as (? & x & ? & _ & E & _); try destruct x; done.
  - intros [= <- <-]. cbn. assert (note = None) as ->.
    { unfold handle_cluster in E. destruct (phase_of _); try done; destruct (negb _); congruence. }
    split_and!; try done. left. split_and!; [done| |done|intros Ha; apply (cluster_some w o) in Ha; by rewrite E in Ha]. unfold again. rewrite existsb_app. cbn. apply orb_true_r.
Qed.

(** * Histories *)
Lemma with_obj_step ma e s s' os : with_obj ma e s = (s', os) -> step ma (l_obj s) e = (l_obj s', os) /\ l_dirty s' = l_dirty s /\ l_timer s' = l_timer s /\ l_pods s' = l_pods s /\ l_ends s' = l_ends s.
Proof. unfold with_obj. destruct (step ma (l_obj s) e) as [o os1]. by intros [= <- <-]. Qed.
(** Every step is at most one step of Phase_Model.v. *)
Lemma lstep_phase ma s e s' os : lstep ma s e = (s', os) -> l_obj s' = l_obj s \/ exists e' os', step ma (l_obj s) e' = (l_obj s', os').
Proof.
  destruct e as [|k|k|p|x| | |w a ok| |t|p x]; cbn [lstep].
  - intros H%with_obj_step. right. destruct H as (H & _). eauto.
  - intros H%with_obj_step. right. destruct H as (H & _). eauto.
  - destruct (with_obj ma (ECache k) s) as [s1 o1] eqn:E. apply with_obj_step in E as (E & _). intros [= <- <-]. right. exists (ECache k), o1. by destruct (_ <? _)%nat.
  - intros [= <- <-]. left. by destruct (_ && _).
  - intros [= <- <-]. left. by destruct (_ && _).
  - intros [= <- <-]. left. by destruct (negb _).
  - destruct (l_dirty s); [|intros [= <- <-]; by left]. destruct (busy (l_obj s)); [intros [= <- <-]; by left|]. intros H%with_obj_step. right. destruct H as (H & _). do 2 eexists. exact H.
  - destruct (decide _); [|intros [= <- <-]; by left]. destruct (with_obj ma _ s) as [s1 o1] eqn:E. apply with_obj_step in E as (E & _). intros [= <- <-]. right. cbn. eauto.
  - intros [= <- <-]. left. by destruct (l_timer s).
  - intros H%with_obj_step. right. destruct H as (H & _). eauto.
  - destruct (with_obj ma _ s) as [s1 o1] eqn:E. apply with_obj_step in E as (E & _). intros [= <- <-]. right. cbn. eauto.
Qed.
Lemma lreach_phase ma o0 h s : exec (lstep ma) (linit o0) h s -> exists h', exec (step ma) (init o0) h' (l_obj s).
Proof.
  revert h s. apply exec_ind_r; [exists []; constructor|]. intros h s e o s' _ (h' & IH) Hs. apply lstep_phase in Hs as [-> |(e' & os' & Hs)]; [eauto|].
  exists (h' ++ [(e', os')]). apply exec_app. exists (l_obj s). split; [done|]. econstructor; [exact Hs|constructor].
Qed.

(** Where the cluster is when nothing is to be done. *)
Definition on_hold (o : obj) (n : option Z) (p : option pod) (e : option bool) : Prop :=
  (active o = false -> over (phase_of (status_of o))) /\
  (n = None -> active o = true -> phase_of (status_of o) = Pending -> ~ (pod_runs p /\ e = Some true) /\ ~ pod_ended p) /\
  (n = None -> active o = true -> phase_of (status_of o) = Running -> ~ pod_ended p /\ p <> None).
(** The key is in the queue, or will be; or the cluster is on hold. *)
Definition waits (s : life) : Prop :=
  match busy (l_obj s) with
  | None => l_dirty s = true \/ l_timer s = true \/ (seen (l_obj s) < length (versions (l_obj s)))%nat \/ on_hold (current (l_obj s)) (noted (l_obj s)) (the_pod s) (the_ends s)
  | Some o => l_dirty s = true \/ (cached (l_obj s) = Some o /\ (noted (l_obj s) = None -> (l_pods s = [the_pod s] \/ pod_matters (the_pod s) = false) /\ (l_ends s = [the_ends s] \/ ends_matter (the_ends s) = false)))
  end.
(** What is recorded about the scheduler's pod; statuses do not vanish; what has expired
    had ended. *)
Record sound (s : life) : Prop := {
  so_pod : forall v st, v ∈ versions (l_obj s) -> stat v = Some st -> phase_of st = Pending -> pod_ st = true;
  so_stat : forall i j v w, (i <= j)%nat -> versions (l_obj s) !! i = Some v -> versions (l_obj s) !! j = Some w -> stat v <> None -> stat w <> None;
  so_gone : gone (l_obj s) = true -> exists v p, v ∈ versions (l_obj s) /\ shows v p /\ over p;
  so_lists : l_pods s <> [] /\ l_ends s <> [] }.
Lemma cached_current s : seen s = length (versions s) -> versions s <> [] -> cached s = Some (current s).
Proof.
  intros E Hne. unfold cached, current. rewrite E. destruct (versions s) as [|v l _] using rev_ind; [done|]. rewrite app_length, last_snoc. cbn. rewrite Nat.add_1_r. by rewrite lookup_app_r, Nat.sub_diag.
Qed.
Lemma matters_no p : pod_matters p = false -> ~ pod_runs p /\ ~ pod_ended p /\ p <> None.
Proof. destruct p as [q|]; cbn; [|done]. intros H. split_and!; [| |done]; intros (q' & [= <-] & E); by rewrite E in H. Qed.
Lemma write_versions s v : versions (write s v) = versions s \/ (gone s = false /\ versions (write s v) = versions s ++ [v]).
Proof. unfold write. destruct (gone s); auto. Qed.
Lemma write_frame s v : seen (write s v) = seen s /\ busy (write s v) = busy s /\ noted (write s v) = noted s /\ gone (write s v) = gone s.
Proof. unfold write. by destruct (gone s) eqn:E. Qed.

(** What a step can do to the object. *)
Lemma versions_step ma s e s' os : step ma s e = (s', os) -> versions s' = versions s \/ exists v, versions s' = versions s ++ [v] /\
  (stat v = stat (current s) \/ exists o w st', busy s = Some o /\ stat v = Some st' /\ result w o st').
Proof.
  destruct e as [|k|k| |w a ok| |t]; cbn [step].
  - intros [= <- <-]. destruct (write_versions s (Obj false (replicas (current s)) (stat (current s)))) as [E|[_ E]]; rewrite E; [by left|right]. eauto.
  - intros [= <- <-]. destruct (write_versions s (Obj (active (current s)) k (stat (current s)))) as [E|[_ E]]; rewrite E; [by left|right]. eauto.
  - intros [= <- <-]. by left.
  - destruct (busy s), (cached s); intros [= <- <-]; by left.
  - destruct (busy s) as [o|]; [|intros [= <- <-]; by left]. intros (_ & _ & _ & H)%ends_cases. destruct H as [(E & _)|[(E & _)|[(E & _)|(st' & E & _ & _ & HR)]]]; [by left..|]. right. eexists. split; [exact E|]. right. cbn. eauto 10.
  - intros [= <- <-]. by left.
  - destruct (noted s) as [t0|]; [|intros [= <- <-]; by left]. destruct (_ <=? _); intros [= <- <-]; by left.
Qed.
Lemma sound_all ma o0 h s : start o0 -> exec (lstep ma) (linit o0) h s -> sound s.
Proof.
  intros Hst Hx. assert (H : exec (lstep ma) (linit o0) h s /\ sound s); [|by apply H]. revert h s Hx. apply exec_ind_r.
  { split; [constructor|]. destruct Hst as [Ha Hn]. constructor; cbn.
    - intros v st ->%elem_of_list_singleton. congruence.
    - intros [|i] [|j] v w Hij; cbn; try done. congruence.
    - done.
    - done. }
  intros h s e o s' Hx [_ HS] Hs. split; [apply exec_app; exists s; split; [done|]; econstructor; [exact Hs|constructor]|].
  destruct (lreach_phase _ _ _ _ Hx) as (h' & Hp). pose proof (good_all _ _ _ _ Hst Hp) as HG. pose proof HS as [S1 S2 S3 S4].
  assert (HL : l_pods s' <> [] /\ l_ends s' <> []).
  { destruct e as [|k|k|p|x| | |w a ok| |t|p x]; cbn [lstep] in Hs.
    - apply with_obj_step in Hs as (_ & _ & _ & -> & ->). done.
    - apply with_obj_step in Hs as (_ & _ & _ & -> & ->). done.
    - destruct (with_obj ma (ECache k) s) as [s1 o1] eqn:E. apply with_obj_step in E as (_ & _ & _ & E1 & E2). injection Hs as <- <-. destruct (_ <? _)%nat; cbn; by rewrite E1, E2.
    - injection Hs as <- <-. destruct (_ && _); cbn; split; first [done|apply S4].
    - injection Hs as <- <-. destruct (_ && _); cbn; split; first [done|apply S4].
    - injection Hs as <- <-. destruct (negb _); exact S4.
    - destruct (l_dirty s); [|by injection Hs as <- <-]. destruct (busy (l_obj s)); [by injection Hs as <- <-|]. apply with_obj_step in Hs as (_ & _ & _ & -> & ->). done.
    - destruct (decide _); [|by injection Hs as <- <-]. destruct (with_obj ma _ s) as [s1 o1] eqn:E. apply with_obj_step in E as (_ & _ & _ & E1 & E2). injection Hs as <- <-. cbn. by rewrite E1, E2.
    - injection Hs as <- <-. destruct (l_timer s); exact S4.
    - apply with_obj_step in Hs as (_ & _ & _ & -> & ->). done.
    - destruct (with_obj ma _ s) as [s1 o1] eqn:E. injection Hs as <- <-. done. }
  apply lstep_phase in Hs as [E|(e' & os' & Hs)]; [constructor; rewrite ?E; done|].
  assert (Hg : gone (l_obj s') = true -> gone (l_obj s) = true \/ noted (l_obj s) <> None).
  { destruct e' as [|k|k| |w a ok| |t]; cbn [step] in Hs.
    - injection Hs as <- <-. destruct (write_frame (l_obj s) (Obj false (replicas (current (l_obj s))) (stat (current (l_obj s))))) as (_ & _ & _ & ->). auto.
    - injection Hs as <- <-. destruct (write_frame (l_obj s) (Obj (active (current (l_obj s))) k (stat (current (l_obj s))))) as (_ & _ & _ & ->). auto.
    - injection Hs as <- <-. auto.
    - destruct (busy (l_obj s)), (cached (l_obj s)); injection Hs as <- <-; auto.
    - destruct (busy (l_obj s)); [|injection Hs as <- <-; auto]. apply ends_cases in Hs as (_ & _ & -> & _). auto.
    - injection Hs as <- <-. auto.
    - destruct (noted (l_obj s)) as [t0|]; [|injection Hs as <- <-; auto]. right. done. }
  assert (Hv : exists l, versions (l_obj s') = versions (l_obj s) ++ l) by (apply versions_step in Hs as [-> |(v & -> & _)]; [exists []; by rewrite app_nil_r|eauto]).
  constructor; [| | |done].
  - apply versions_step in Hs as [-> |(v & -> & Hv')]; [done|]. intros x st [Hx'| ->%elem_of_list_singleton]%elem_of_app; [by eapply S1|]. destruct Hv' as [E|(o' & w & st' & _ & E & HR)]; rewrite E.
    + intros E'. eapply S1; [|exact E']. apply current_in, HG.
    + intros [= ->]. apply (rs_pod _ _ _ HR).
  - apply versions_step in Hs as [-> |(v & -> & Hv')]; [done|]. intros i j x y Hij Hx' Hy Hn. apply lookup_app_Some in Hy as [Hy|[Hge Hy]].
    + apply lookup_app_Some in Hx' as [Hx'|[Hge Hx']]; [by eapply S2|]. apply lookup_lt_Some in Hy. lia.
    + apply list_lookup_singleton_Some in Hy as [_ <-]. destruct Hv' as [E|(o' & w & st' & _ & E & HR)]; [|by rewrite E]. rewrite E.
      apply lookup_app_Some in Hx' as [Hx'|[Hge' Hx']].
      * destruct (versions (l_obj s)) as [|v0 l0 _] eqn:El using rev_ind; [done|]. unfold current. rewrite El, last_snoc. cbn.
        eapply (S2 i (length l0)); [|exact Hx'| |done]; [apply lookup_lt_Some in Hx'; rewrite app_length in Hx'; cbn in Hx'; lia|]. by rewrite lookup_app_r, Nat.sub_diag.
      * apply list_lookup_singleton_Some in Hx' as [_ <-]. by rewrite <- E.
  - intros Hgo. destruct Hv as [l Hl]. destruct (Hg Hgo) as [Hgo'|Hno].
    + destruct (S3 Hgo') as (v & p & Hin & H). exists v, p. rewrite Hl. split; [|done]. apply elem_of_app. by left.
    + destruct (noted (l_obj s)) as [t|] eqn:En; [|done]. destruct (g_noted _ _ HG t En) as (v & p & st & c & Hin & Hsh & Ho & _). exists v, p. rewrite Hl. split_and!; [apply elem_of_app; by left|done|done].
Qed.

(** A run that changes nothing leaves the cluster on hold. *)
Lemma result_hold s o w st' n p e : cached s = Some o -> seen s = length (versions s) -> versions s <> [] -> (forall st, stat o = Some st -> phase_of st = Pending -> pod_ st = true) ->
  stat o = Some st' -> result w o st' ->
  (n = None -> (seen_pod w = p \/ pod_matters p = false) /\ (endpoints w = e \/ ends_matter e = false)) -> on_hold (current s) n p e.
Proof.
  intros Hc Hs Hne Hp Est HR Hpe. rewrite (cached_current s Hs Hne) in Hc. injection Hc as ->. assert (Eo : status_of o = st') by (by rewrite Est). unfold on_hold. rewrite Eo. split_and!.
  - intros Ha. pose proof (rs_off _ _ _ HR Ha) as E. unfold phase_of. rewrite E. by left.
  - intros Hn Ha Hph. destruct (Hpe Hn) as [H1 H2]. pose proof (rs_on _ _ _ HR Ha) as H. rewrite Eo in H. destruct (H Hph) as (_ & Hrun & Hend). specialize (Hp _ Est Hph). split.
    + intros [Hr ->]. destruct H2 as [H2|H2]; [|done]. destruct H1 as [<-|H1]; [|by apply matters_no in H1 as (H1 & _)]. specialize (Hrun Hp Hr H2). unfold phase_of in Hph. by rewrite Hrun in Hph.
    + intros Hr. destruct H1 as [<-|H1]; [|by apply matters_no in H1 as (_ & H1 & _)]. specialize (Hend Hp Hr). unfold phase_of in Hph. by rewrite Hend in Hph.
  - intros Hn Ha Hph. destruct (Hpe Hn) as [H1 H2]. pose proof (rs_run _ _ _ HR Ha) as H. rewrite Eo in H. specialize (H Hph).
    destruct H1 as [<-|H1]; [|by apply matters_no in H1 as (_ & H1 & H3)].
    split; intros Hx; unfold phase_of in Hph; rewrite H in Hph; auto; done.
Qed.
Lemma over_hold o n p e : over (phase_of (status_of o)) -> on_hold o n p e.
Proof. intros [H|H]; unfold on_hold; rewrite H; (split_and!; [intros; by (left + right)|done|done]). Qed.
Lemma in_single {A} (x y : A) : x ∈ [y] -> x = y.
Proof. by intros ->%elem_of_list_singleton. Qed.
Lemma head_app {A} (l : list A) x d : head l = Some x -> default d (head l) = x.
Proof. by intros ->. Qed.

Lemma waits_step ma s e s' os : lstep ma s e = (s', os) -> versions (l_obj s) <> [] -> (seen (l_obj s) <= length (versions (l_obj s)))%nat -> (forall o, busy (l_obj s) = Some o -> o ∈ versions (l_obj s)) -> sound s -> waits s -> waits s'.
Proof.
  intros Hs Hne Hle Hbu HS HW.
  assert (Hwr : forall v, waits (Life (write (l_obj s) v) (l_dirty s) (l_timer s) (l_pods s) (l_ends s))).
  { intros v. unfold waits in *. cbn [l_obj l_dirty l_timer l_pods l_ends the_pod the_ends]. destruct (write_frame (l_obj s) v) as (Es & Eb & En & Eg). unfold the_pod, the_ends in *. cbn [l_pods l_ends].
    destruct (write_versions (l_obj s) v) as [Ev|[Hg Ev]].
    - rewrite Eb, En, Es, Ev. assert (current (write (l_obj s) v) = current (l_obj s)) as -> by (unfold current; by rewrite Ev).
      assert (cached (write (l_obj s) v) = cached (l_obj s)) as -> by (unfold cached; by rewrite Ev, Es). done.
    - rewrite Eb, En, Es, Ev. destruct (busy (l_obj s)) as [o|].
      + destruct HW as [HW|[HW H2]]; [by left|]. right. split; [|done]. by eapply cached_app.
      + right. right. left. rewrite app_length. cbn. lia. }
  destruct e as [|k|k|p|x| | |w a ok| |t|p x]; cbn [lstep] in Hs.
  - unfold with_obj in Hs. cbn [step] in Hs. injection Hs as <- <-. apply Hwr.
  - unfold with_obj in Hs. cbn [step] in Hs. injection Hs as <- <-. apply Hwr.
  - unfold with_obj in Hs. cbn [step] in Hs. injection Hs as <- <-. cbn [l_obj seen]. destruct (_ <? _)%nat eqn:El.
    + unfold waits, put. cbn. destruct (busy (l_obj s)); auto.
    + apply Nat.ltb_ge in El. assert (Nat.min (seen (l_obj s) + k) (length (versions (l_obj s))) = seen (l_obj s)) as E by lia. rewrite E. unfold waits in *. cbn. unfold cached, the_pod, the_ends in *. cbn.
      destruct (busy (l_obj s)); exact HW.
  - injection Hs as <- <-. destruct (pod_matters p && negb (stopping s)) eqn:Em; [unfold waits, put; cbn; destruct (busy (l_obj s)); auto|].
    unfold waits in *. cbn [l_obj l_dirty l_timer l_pods l_ends]. unfold the_pod, the_ends in *. cbn [l_pods l_ends head default].
    assert (Hx : noted (l_obj s) = None -> pod_matters p = false) by (intros Hn; unfold stopping in Em; rewrite Hn in Em; by rewrite andb_true_r in Em).
    destruct (busy (l_obj s)) as [o|].
    + destruct HW as [HW|[HW H2]]; [by left|]. right. split; [done|]. intros Hn. destruct (H2 Hn) as [_ H3]. split; [right; auto|done].
    + destruct HW as [HW|[HW|[HW|HW]]]; auto. right. right. right. destruct HW as (H1 & H2 & H3). split_and!; [done|..]; intros Hn Ha Hp; destruct (matters_no _ (Hx Hn)) as (? & ? & ?); split; try done. by intros [].
  - injection Hs as <- <-. destruct (ends_matter x && negb (stopping s)) eqn:Em; [unfold waits, put; cbn; destruct (busy (l_obj s)); auto|].
    unfold waits in *. cbn [l_obj l_dirty l_timer l_pods l_ends]. unfold the_pod, the_ends in *. cbn [l_pods l_ends head default].
    assert (Hx : noted (l_obj s) = None -> ends_matter x = false) by (intros Hn; unfold stopping in Em; rewrite Hn in Em; by rewrite andb_true_r in Em).
    destruct (busy (l_obj s)) as [o|].
    + destruct HW as [HW|[HW H2]]; [by left|]. right. split; [done|]. intros Hn. destruct (H2 Hn) as [H3 _]. split; [done|right; auto].
    + destruct HW as [HW|[HW|[HW|HW]]]; auto. right. right. right. destruct HW as (H1 & H2 & H3). split_and!; [done|..|done]. intros Hn Ha Hp. destruct (H2 Hn Ha Hp) as [_ H4]. split; [|done]. intros [_ Hxt]. cbn in Hxt. subst x. by specialize (Hx Hn).
  - injection Hs as <- <-. destruct (negb _); [|done]. unfold waits, put; cbn; destruct (busy (l_obj s)); auto.
  - destruct (l_dirty s) eqn:Ed; [|by injection Hs as <- <-]. destruct (busy (l_obj s)) as [o|] eqn:Eb; [by injection Hs as <- <-|]. unfold with_obj in Hs. cbn [step l_obj l_dirty l_timer l_pods l_ends] in Hs. rewrite Eb in Hs.
    destruct (cached (l_obj s)) as [o|] eqn:Ec; injection Hs as <- <-; unfold waits; cbn [l_obj busy].
    + right. unfold cached in *. cbn. split; [done|]. intros _. split; left; done.
    + rewrite Eb. cbn. right. right. left. unfold cached in Ec. destruct (seen (l_obj s)) as [|n]; [destruct (versions (l_obj s)); [done|cbn; lia]|]. apply lookup_ge_None in Ec. lia.
  - destruct (decide _) as [[Hp He]|]; [|by injection Hs as <- <-]. unfold with_obj in Hs. cbn [step] in Hs. unfold waits in HW. destruct (busy (l_obj s)) as [o|] eqn:Eb.
    + destruct (ends (l_obj s) o w a ok) as [o' os'] eqn:Ee. injection Hs as <- <-. apply ends_cases in Ee as (Es & Ebu & _ & H). unfold waits. cbn [l_obj l_dirty l_timer l_pods l_ends]. rewrite Ebu.
      destruct HW as [HW|[Hca HW]]; [by left|]. unfold the_pod, the_ends in *. cbn [l_pods l_ends] in *.
      destruct H as [(Ev & -> & _)|[(Ev & Ho)|[(Ev & En & st' & Est & HR)|(st' & Ev & _)]]].
      * right. left. apply orb_true_r.
      * destruct (decide (seen (l_obj s) = length (versions (l_obj s)))) as [E|E]; [|right; right; left; rewrite Es, Ev; lia]. right. right. right. apply over_hold.
        rewrite (cached_current _ E Hne) in Hca. injection Hca as <-. unfold current in *. by rewrite Ev.
      * destruct (decide (seen (l_obj s) = length (versions (l_obj s)))) as [E|E]; [|right; right; left; rewrite Es, Ev; lia]. right. right. right.
        assert (current o' = current (l_obj s)) as -> by (unfold current; by rewrite Ev). rewrite En. eapply result_hold; [exact Hca|done|done| |exact Est|exact HR|].
        -- intros st E1 E2. eapply so_pod; [done| |exact E1|done]. by apply Hbu.
        -- intros Hn. destruct (HW Hn) as [H1 H2]. split.
           ++ destruct H1 as [H1|H1]; [left; rewrite H1 in Hp; by apply in_single in Hp|by right].
           ++ destruct H2 as [H2|H2]; [left; rewrite H2 in He; by apply in_single in He|by right].
      * right. right. left. rewrite Es, Ev, app_length. cbn. lia.
    + injection Hs as <- <-. unfold waits. cbn [l_obj l_dirty l_timer l_pods l_ends]. rewrite Eb. rewrite orb_false_r. done.
  - injection Hs as <- <-. destruct (l_timer s); [|done]. unfold waits; cbn; destruct (busy (l_obj s)); auto.
  - unfold with_obj in Hs. cbn [step] in Hs. destruct (noted (l_obj s)) as [t0|] eqn:En; [|injection Hs as <- <-; by destruct s]. destruct (_ <=? _); injection Hs as <- <-; [|by destruct s]. unfold waits in *. cbn. rewrite En in HW. done.
  - unfold with_obj in Hs. cbn [step] in Hs. injection Hs as <- <-. unfold waits. cbn. by left.
Qed.
Lemma waits_all ma o0 h s : start o0 -> exec (lstep ma) (linit o0) h s -> waits s.
Proof.
  intros Hst Hx. assert (H : exec (lstep ma) (linit o0) h s /\ waits s); [|by apply H]. revert h s Hx. apply exec_ind_r.
  { split; [constructor|]. unfold waits. cbn. right. right. left. lia. }
  intros h s e o s' Hx [_ HW] Hs. split; [apply exec_app; exists s; split; [done|]; econstructor; [exact Hs|constructor]|].
  destruct (lreach_phase _ _ _ _ Hx) as (h' & Hp). pose proof (good_all _ _ _ _ Hst Hp) as HG.
  eapply waits_step; [exact Hs|apply HG|apply HG|apply HG|by eapply sound_all|done].
Qed.
