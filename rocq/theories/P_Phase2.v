(** Property C84: what a finished cluster leaves behind on Kubernetes. *)
From Coq Require Import ZArith Lia.
From stdpp Require Import list.
From Verif Require Import Trace Phase_Model Phase_Spec Phase_Proofs Phase_Proofs2 Phase_Proofs3 P_Phase.
Local Open Scope Z_scope.

(** C84. A run records the end of a cluster only after the API server confirmed that
    the scheduler's pod and the credentials that the status knows of are deleted (or
    were already)... *)
Theorem C84_deletes : forall max_age s e s' os st a r, step max_age s e = (s', os) -> OPatch st a ∈ os -> phase_ st = Some Stopped \/ phase_ st = Some Failed ->
  records st r -> r = Pod \/ r = Secret -> ODelete r Ok ∈ os \/ ODelete r NotFound ∈ os.
Proof. intros max_age s e s' os st a r Hs Hp Ho. apply (end_deletes max_age s e s' os st a r Hs Hp). unfold over, phase_of. destruct Ho as [-> | ->]; cbn; tauto. Qed.
Print Assumptions C84_deletes.
(** ... so, if every run that created something got its status recorded and every run
    starts with the last recorded status, nothing of them is there once the cluster
    is stopped or failed. *)
Theorem C84_gone_partial : forall max_age o0 h s p r, start o0 -> exec (step max_age) (init o0) h s -> up_to_date max_age (init o0) h -> noted_all h ->
  shows (current s) p -> over p -> r = Pod \/ r = Secret -> there r (obs_of h) = false.
Proof. exact over_gone. Qed.
Print Assumptions C84_gone_partial.
Example C84_example : let es := to_running ++ [EStop; ECache 2; EBegin; EEnd w5 true true] in
  up_to_date 60 (init new) (the_history es) /\ noted_all (the_history es) /\ shows (current (the_state es)) Stopped /\
  there Pod (obs_of (the_history to_running)) = true /\ there Pod (obs_of (the_history es)) = false.
Proof.
  split; [apply checks_up; vm_compute; reflexivity|]. split; [|vm_compute; done].
  assert (H : forallb (fun x => negb (existsb (fun o => match o with OCreate _ Ok => true | _ => false end) (snd x)) || existsb (fun o => match o with OPatch _ true => true | _ => false end) (snd x))
    (the_history (to_running ++ [EStop; ECache 2; EBegin; EEnd w5 true true])) = true) by (vm_compute; reflexivity).
  intros e os r Hin Hr Hc. rewrite forallb_forall in H. apply elem_of_list_In, H in Hin. cbn [snd] in Hin. apply orb_true_iff in Hin as [Hn|Hy].
  - apply negb_true_iff in Hn. rewrite <- not_true_iff_false, existsb_exists in Hn. exfalso. apply Hn. exists (OCreate r Ok). split; [by apply elem_of_list_In|done].
  - apply existsb_exists in Hy as (o & Hin & Ho). destruct o as [| |st []| | |]; try done. exists st. by apply elem_of_list_In.
Qed.
(** Not in general.  The status after the pod was created is not recorded (the
    request fails, or the controller is restarted).  Then the cluster is stopped.
    Nothing tells the next run of the pod: it records the end, and the scheduler
    goes on until the record of the cluster is deleted. *)
Theorem C84_gone_refuted : exists h s, exec (step 60) (init new) h s /\ start new /\ up_to_date 60 (init new) h /\ shows (current s) Stopped /\ cached s = Some (current s) /\ there Pod (obs_of h) = true /\
  forall es, Forall (fun e => e = EBegin \/ (exists w a b, e = EEnd w a b) \/ exists n, e = ECache n) es -> there Pod (obs_of (h ++ snd (run (step 60) s es))) = true.
Proof.
  pose (es := [ECache 1; EBegin; EEnd w1 false false; EStop; ECache 1; EBegin; EEnd w2 true true; ECache 1]).
  exists (the_history es), (the_state es). split; [apply the_run|]. split; [done|]. split; [apply checks_up; vm_compute; reflexivity|]. do 3 (split; [vm_compute; reflexivity|]).
  intros es2 H. unfold obs_of. rewrite map_app, concat_app. fold (obs_of (the_history es)). fold (obs_of (snd (run (step 60) (the_state es) es2))). rewrite there_app.
  replace (there Pod (obs_of (the_history es))) with true by (vm_compute; reflexivity).
  assert (Hv : exists c, stat c <> None /\ phase_of (default status0 (stat c)) = Stopped /\ versions (the_state es) !! 2%nat = Some c /\ seen (the_state es) = 3%nat /\ length (versions (the_state es)) = 3%nat /\
    (forall o, busy (the_state es) = Some o -> o = c)).
  { eexists. vm_compute. split; [|split; [|split; [reflexivity|]]]; done. }
  revert Hv. generalize (the_state es). clear es. induction es2 as [|e es2 IH]; intros s (c & H1 & H2 & H3 & H4 & H5 & H6); [done|]. apply Forall_cons in H as [He H]. cbn [run].
  assert (Hok : exists n, step 60 s e = (fst (step 60 s e), snd (step 60 s e)) /\ foldl (becomes Pod) true (snd (step 60 s e)) = true /\
    versions (fst (step 60 s e)) = versions s /\ seen (fst (step 60 s e)) = 3%nat /\ (forall o, busy (fst (step 60 s e)) = Some o -> o = c) /\ n = O).
  { exists O. destruct He as [->|[(w & a & b & ->)|(n & ->)]]; cbn [step].
    - destruct (busy s) as [o|] eqn:Eb; [cbn; rewrite Eb; done|]. unfold cached. rewrite H4, H3. cbn. split_and!; try done. by intros o [= <-].
    - destruct (busy s) as [o|] eqn:Eb; [|cbn; rewrite Eb; done]. rewrite (H6 _ eq_refl). unfold ends, handle_cluster. rewrite H2. cbn. done.
    - cbn. split_and!; try done. rewrite H5, H4. lia. }
  destruct Hok as (_ & _ & Hb & Hve & Hse & Hbu & _). destruct (step 60 s e) as [s1 o1]. cbn [fst snd] in *. specialize (IH H s1). destruct (run (step 60) s1 es2) as [s2 h2] eqn:Er. cbn [fst snd] in *.
  unfold obs_of in *. cbn [map snd concat]. rewrite foldl_app, Hb. apply IH. exists c. rewrite Hve, Hse. done.
Qed.
Print Assumptions C84_gone_refuted.
