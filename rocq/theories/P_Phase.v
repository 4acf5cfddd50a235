(** Properties C52, C68 and C69: the phases of a cluster on Kubernetes. *)
From Coq Require Import ZArith Lia.
From stdpp Require Import list.
From Verif Require Import Trace Phase_Model Phase_Spec Phase_Proofs Phase_Proofs2.
Local Open Scope Z_scope.

(** C52. If every run starts with a cache that has seen the last recorded status, the
    phase only moves forward, and a terminal status is never changed... *)
Theorem C52_forward_partial : forall max_age o0 h1 s1 h2 s2 p q, exec (step max_age) (init o0) h1 s1 -> exec (step max_age) s1 h2 s2 -> up_to_date max_age (init o0) (h1 ++ h2) ->
  shows (current s1) p -> shows (current s2) q -> (rank p <= rank q)%nat /\ (over p -> stat (current s2) = stat (current s1)).
Proof. intros. by eapply (phase_forward max_age o0 h1 s1 h2 s2). Qed.
Print Assumptions C52_forward_partial.
(** ... in any case a stopped cluster stays stopped, ... *)
Theorem C52_stopped : forall max_age o0 h1 s1 h2 s2, start o0 -> exec (step max_age) (init o0) h1 s1 -> exec (step max_age) s1 h2 s2 -> shows (current s1) Stopped -> shows (current s2) Stopped.
Proof. exact stopped_final. Qed.
Print Assumptions C52_stopped.
(** ... a terminal phase is recorded with a completion time, ... *)
Theorem C52_completion : forall max_age o0 h s v p, start o0 -> exec (step max_age) (init o0) h s -> v ∈ versions s -> shows v p -> over p ->
  exists st c, stat v = Some st /\ completion st = Some c.
Proof. intros max_age o0 h s v p Hst Hx Hv Hp Ho. eapply (g_over h s); [by eapply good_all|done..]. Qed.
Print Assumptions C52_completion.
(** ... and Running is recorded only together with credentials, scheduler pod, service
    and both routes, each of which was created (or found to exist) before. *)
Theorem C52_running : forall max_age o0 h s v, start o0 -> exec (step max_age) (init o0) h s -> v ∈ versions s -> shows v Running ->
  exists st, stat v = Some st /\ forall r, records st r /\ (OCreate r Ok ∈ obs_of h \/ OCreate r Conflict ∈ obs_of h).
Proof.
  intros max_age o0 h s v Hst Hx Hv Hp. pose proof (good_all _ _ _ _ Hst Hx) as HG. destruct (g_run _ _ HG v Hv Hp) as (st & Hs & Hr). exists st. split; [done|]. intros r. split; [done|]. by eapply (g_just _ _ HG).
Qed.
Print Assumptions C52_running.

Definition new := Obj true 0 None.
Definition yes (r : resource) := Ok.
Definition have (r : resource) := Conflict.
Definition running := MkPod PRunning (Some Up).
Definition starting := MkPod PPending None.
Definition ended := MkPod PRunning (Some Terminated).
(** The first run: secret and pod are created.  The second: the service is created.
    The third: the endpoints are ready, and the routes are created. *)
Definition w1 := World yes yes None starting None 1000 (Some false).
Definition w2 := World yes yes (Some running) starting None 2000 (Some false).
Definition w3 := World have yes (Some running) starting (Some true) 3500 (Some false).
Definition w4 := World have yes (Some running) starting (Some false) 4000 (Some false).
Definition w5 := World have yes (Some ended) starting (Some true) 5999 (Some false).
Definition the_state (es : list event) : state := fst (run (step 60) (init new) es).
Definition the_history (es : list event) : history := snd (run (step 60) (init new) es).
Lemma the_run es : exec (step 60) (init new) (the_history es) (the_state es).
Proof. apply (run_exec _ _ es). unfold the_state, the_history. by destruct (run (step 60) (init new) es). Qed.
Lemma run_from s es : exec (step 60) s (snd (run (step 60) s es)) (fst (run (step 60) s es)).
Proof. apply (run_exec _ _ es). by destruct (run (step 60) s es). Qed.
Definition to_running := [ECache 1; EBegin; EEnd w1 true true; ECache 1; EBegin; EEnd w2 true true; ECache 1; EBegin; EEnd w3 true true].
Example C52_example : start new /\ versions (the_state (to_running ++ [EScale 3; ECache 2; EBegin; EEnd w5 true true])) =
  [new; Obj true 0 (Some (Status (Some Pending) true true false false false None)); Obj true 0 (Some (Status (Some Pending) true true true false false None));
   Obj true 0 (Some (Status (Some Running) true true true true true None)); Obj true 3 (Some (Status (Some Running) true true true true true None));
   Obj true 3 (Some (Status (Some Failed) true true true true true (Some 5)))].
Proof. split; [done|]. vm_compute. reflexivity. Qed.
(** This history is up to date. *)
Definition checks (es : list event) : bool :=
  forallb (fun n => match es !! n with
                    | Some EBegin => let s := the_state (take n es) in match cached s with Some c => bool_decide (stat c = stat (current s)) | None => false end
                    | _ => true end) (seq 0 (length es)).
Lemma checks_up es : checks es = true -> up_to_date 60 (init new) (the_history es).
Proof.
  intros Hc h1 o h2 s E Hx. pose proof (exec_run _ _ _ _ (the_run es)) as Hr. assert (Hm : map fst (the_history es) = es).
  { unfold the_history. generalize (init new). clear. induction es as [|e es IH]; intros s; cbn [run]; [done|]. destruct (step 60 s e) as [s1 o]. specialize (IH s1). destruct (run _ s1 es). cbn in *. by f_equal. }
  assert (Ee : es = map fst h1 ++ EBegin :: map fst h2) by (rewrite <- Hm, E, map_app; done).
  unfold checks in Hc. rewrite forallb_forall in Hc. specialize (Hc (length h1)). rewrite in_seq in Hc.
  assert (Hlk : es !! length h1 = Some EBegin) by (rewrite Ee, lookup_app_r, map_length, Nat.sub_diag by (by rewrite map_length); done). rewrite Hlk in Hc.
  assert (Ht : take (length h1) es = map fst h1) by (rewrite Ee; by rewrite take_app_alt by (by rewrite map_length)). rewrite Ht in Hc. unfold the_state in Hc. rewrite (exec_run _ _ _ _ Hx) in Hc. cbn [fst] in Hc.
  apply lookup_lt_Some in Hlk. destruct (cached s) as [c|]; [|by assert (false = true) by (apply Hc; lia)]. exists c. split; [done|]. eapply bool_decide_eq_true_1. apply Hc. lia.
Qed.
Example C52_example_2 : up_to_date 60 (init new) (the_history (to_running ++ [EScale 3; ECache 2; EBegin; EEnd w5 true true])).
Proof. apply checks_up. vm_compute. reflexivity. Qed.
(** With a cache that lags behind, a running cluster becomes pending again... *)
Theorem C52_running_refuted : exists h s1 h2 s2, exec (step 60) (init new) h s1 /\ exec (step 60) s1 h2 s2 /\ shows (current s1) Running /\ shows (current s2) Pending.
Proof.
  pose (es := [ECache 1; EBegin; EEnd w1 true true; ECache 1; EBegin; EEnd w2 true true; EBegin; EEnd w3 true true]).
  exists (the_history es), (the_state es). do 2 eexists. split; [apply the_run|]. split; [apply (run_from _ [EBegin; EEnd w4 true true])|]. split; vm_compute; reflexivity.
Qed.
Print Assumptions C52_running_refuted.
(** ... and a failed cluster that is stopped becomes stopped with a new completion time. *)
Theorem C52_failed_refuted : exists h s1 h2 s2, exec (step 60) (init new) h s1 /\ exec (step 60) s1 h2 s2 /\
  stat (current s1) = Some (Status (Some Failed) true true true true true (Some 5)) /\ stat (current s2) = Some (Status (Some Stopped) true true true true true (Some 60)).
Proof.
  pose (es := to_running ++ [ECache 1; EBegin; EStop; EEnd w5 true true]).
  pose (w7 := World have (fun _ => NotFound) None starting None 60000 (Some false)).
  exists (the_history es), (the_state es). do 2 eexists. split; [apply the_run|]. split; [apply (run_from _ [ECache 1; EBegin; EEnd w7 true true])|]. split; vm_compute; reflexivity.
Qed.
Print Assumptions C52_failed_refuted.

Lemma cleanup_ok w st : (forall r, deleting w r = Ok \/ deleting w r = NotFound) -> exists oc, cleanup w st = (oc, Some tt).
Proof. intros Hd. unfold cleanup, del, bind, ret. destruct (Hd Pod) as [E1|E1], (Hd Secret) as [E2|E2]; destruct (pod_ st), (secret st); cbn; rewrite ?E1; cbn; rewrite ?E2; cbn; eauto. Qed.
(** C68. When a run finds that the scheduler of an active cluster is lost - its container
    terminated, or, once the cluster is running, its pod gone - the cluster becomes
    failed, if the API answers... *)
Theorem C68_running_partial : forall max_age o0 h s v w s' o, start o0 -> exec (step max_age) (init o0) h s -> busy s = Some v -> gone s = false ->
  shows v Running -> active v = true -> (seen_pod w = None \/ exists p, seen_pod w = Some p /\ pphase_ p <> PPending /\ cs p = Some Terminated) ->
  (forall r, deleting w r = Ok \/ deleting w r = NotFound) -> step max_age s (EEnd w true true) = (s', o) -> shows (current s') Failed.
Proof.
  intros max_age o0 h s v w s' o Hst Hx Hb Hg Hr Ha Hp Hd Hs. pose proof (good_all _ _ _ _ Hst Hx) as HG.
  destruct (g_run _ _ HG v (g_busy _ _ HG v Hb) Hr) as (st & Hsv & Hrec). cbn [step] in Hs. rewrite Hb in Hs. unfold ends, handle_cluster in Hs. rewrite (default_status v st Hsv), Hsv in Hs.
  assert (Hph : phase_of st = Running) by (unfold shows in Hr; rewrite Hsv in Hr; unfold phase_of; destruct (phase_ st); [by subst|done]). rewrite Hph, Ha in Hs. cbn [negb] in Hs.
  unfold handle_running in Hs. rewrite (Hrec Pod) in Hs.
  replace (match seen_pod w with Some p => container_state p | None => STerminated end) with STerminated in Hs
    by (destruct Hp as [-> |(p & -> & H1 & H2)]; [done|]; unfold container_state; rewrite H2; by destruct (pphase_ p)).
  destruct (cleanup_ok w st Hd) as [oc Hc]. rewrite Hc in Hs. cbn in Hs. rewrite Hg in Hs. rewrite decide_False in Hs; [|intros [= E]; rewrite <- E in Hph; done]. cbn in Hs. injection Hs as <- <-.
  unfold current at 1. cbn. by rewrite last_snoc.
Qed.
Print Assumptions C68_running_partial.
Theorem C68_pending_partial : forall max_age o0 h s v st w p s' o, start o0 -> exec (step max_age) (init o0) h s -> busy s = Some v -> gone s = false ->
  shows v Pending -> active v = true -> stat v = Some st -> records st Secret -> records st Pod -> seen_pod w = Some p -> pphase_ p <> PPending -> cs p = Some Terminated ->
  (forall r, deleting w r = Ok \/ deleting w r = NotFound) -> step max_age s (EEnd w true true) = (s', o) -> shows (current s') Failed.
Proof.
  intros max_age o0 h s v st w p s' o Hst Hx Hb Hg Hr Ha Hsv Hse Hpo Hp H1 H2 Hd Hs. cbn [step] in Hs. rewrite Hb in Hs. unfold ends, handle_cluster in Hs. rewrite (default_status v st Hsv), Hsv in Hs.
  assert (Hph : phase_of st = Pending) by (unfold shows in Hr; rewrite Hsv in Hr; unfold phase_of; destruct (phase_ st); [by subst|done]). rewrite Hph, Ha in Hs. cbn [negb] in Hs.
  unfold handle_pending in Hs. cbn [records] in *. unfold ensure in Hs. rewrite Hph in Hs.
  assert (Hsp : set_phase st Pending = Status (Some Pending) true true (service st) (route st) (routetcp st) (completion st)) by (unfold set_phase; by rewrite Hse, Hpo). rewrite Hsp in Hs.
  cbn [secret pod_ bind ret fst snd] in Hs. rewrite Hp in Hs.
  replace (container_state p) with STerminated in Hs by (unfold container_state; rewrite H2; by destruct (pphase_ p)).
  destruct (cleanup_ok w (Status (Some Pending) true true (service st) (route st) (routetcp st) (completion st)) Hd) as [oc Hc]. rewrite Hc in Hs. cbn in Hs. rewrite Hg in Hs. rewrite decide_False in Hs; [|intros [= E]; rewrite <- E in Hph; done]. cbn in Hs. injection Hs as <- <-.
  unfold current at 1. cbn. by rewrite last_snoc.
Qed.
Print Assumptions C68_pending_partial.
Example C68_example : let s := the_state (to_running ++ [ECache 1; EBegin]) in exists v, busy s = Some v /\ gone s = false /\ shows v Running /\ active v = true /\ shows (current (fst (step 60 s (EEnd w5 true true)))) Failed.
Proof. exists (Obj true 0 (Some (Status (Some Running) true true true true true None))). do 4 (split; [vm_compute; reflexivity|]). vm_compute. reflexivity. Qed.
(** ... but if the scheduler's pod is deleted while the cluster is pending, no run ever
    changes its status, ... *)
Theorem C68_pending_refuted : exists h s, exec (step 60) (init new) h s /\ busy s = None /\ cached s = Some (current s) /\ shows (current s) Pending /\ active (current s) = true /\
  forall w applied ok s', seen_pod w = None -> fst (run (step 60) s [EBegin; EEnd w applied ok]) = s' -> versions s' = versions s.
Proof.
  pose (es := [ECache 1; EBegin; EEnd w1 true true; ECache 1]). exists (the_history es), (the_state es). split; [apply the_run|]. do 4 (split; [vm_compute; reflexivity|]).
  intros [] applied ok s' Hw <-. cbn in Hw. rewrite Hw. vm_compute. reflexivity.
Qed.
Print Assumptions C68_pending_refuted.
(** ... nor if its pod has failed without container statuses (an evicted pod). *)
Theorem C68_evicted_refuted : exists h s, exec (step 60) (init new) h s /\ busy s = None /\ cached s = Some (current s) /\ shows (current s) Running /\ active (current s) = true /\
  forall w applied ok s', seen_pod w = Some (MkPod PFailed None) -> fst (run (step 60) s [EBegin; EEnd w applied ok]) = s' -> versions s' = versions s.
Proof.
  pose (es := to_running ++ [ECache 1]). exists (the_history es), (the_state es). split; [apply the_run|]. do 4 (split; [vm_compute; reflexivity|]).
  intros [] applied ok s' Hw <-. cbn in Hw. rewrite Hw. vm_compute. reflexivity.
Qed.
Print Assumptions C68_evicted_refuted.

(** C69. A cluster object is deleted only if a terminal status was recorded whose
    completion time is at least completed_cluster_max_age ago... *)
Theorem C69_expired : forall max_age o0 h s t s' o, start o0 -> exec (step max_age) (init o0) h s -> step max_age s (EExpire t) = (s', o) -> OExpired ∈ o ->
  exists v p st c, v ∈ versions s /\ shows v p /\ over p /\ stat v = Some st /\ completion st = Some c /\ c * 1000 + max_age * 1000 <= t.
Proof.
  intros max_age o0 h s t s' o Hst Hx Hs Ho. pose proof (good_all _ _ _ _ Hst Hx) as HG. cbn [step] in Hs.
  destruct (noted s) as [t0|] eqn:En; [|injection Hs as <- <-; by apply elem_of_nil in Ho]. destruct (_ <=? _) eqn:El; [|injection Hs as <- <-; by apply elem_of_nil in Ho].
  destruct (g_noted _ _ HG t0 En) as (v & p & st & c & ? & ? & ? & ? & ? & ->). exists v, p, st, c. split_and!; try done. lia.
Qed.
Print Assumptions C69_expired.
(** ... which it still has, if no run starts with a stale status. *)
Theorem C69_current : forall max_age o0 h s t s' o, start o0 -> exec (step max_age) (init o0) h s -> up_to_date max_age (init o0) h -> step max_age s (EExpire t) = (s', o) -> OExpired ∈ o ->
  exists p st c, shows (current s) p /\ over p /\ stat (current s) = Some st /\ completion st = Some c /\ c * 1000 + max_age * 1000 <= t.
Proof.
  intros max_age o0 h s t s' o Hst Hx Hu Hs Ho. destruct (C69_expired _ _ _ _ _ _ _ Hst Hx Hs Ho) as (v & p & st & c & Hv & Hsh & Hp & Hsv & Hc & Hl).
  exists p, st, c. pose proof (over_stays _ _ _ _ Hst Hx Hu v p Hv Hsh Hp) as E. unfold shows in *. rewrite E. by rewrite Hsv in *.
Qed.
Print Assumptions C69_current.
Definition to_failed := to_running ++ [ECache 1; EBegin; EEnd w5 true true; ECache 1; EBegin; EEnd w5 true true].
Example C69_example : snd (step 60 (the_state to_failed) (EExpire 65000)) = [OExpired] /\ snd (step 60 (the_state to_failed) (EExpire 64999)) = [].
Proof. split; vm_compute; reflexivity. Qed.
