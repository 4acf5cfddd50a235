(** Property C70: changes are reported to the gateway promptly. *)
From Coq Require Import ZArith Lia.
From stdpp Require Import base list.
From Verif Require Import Trace Beat_Model Beat_Spec Beat_Proofs.
Open Scope Z_scope.

(** A new size wakes the heartbeat loop unless it is in the middle of a heartbeat, and
    the heartbeat then sent has the current size. *)
Theorem C70_wakes : forall long h s n s' o, exec step (init long) h s -> step s (EScale n) = (s', o) -> n <> count s -> ~ busy s -> ph s' = PWoken /\ count s' = n.
Proof. exact wakes. Qed.
Print Assumptions C70_wakes.
Theorem C70_current : forall s s' o, ph s = PWoken -> step s EBeat = (s', o) -> ph s' = PSending (count s).
Proof. intros s s' o E [= <- _]. by rewrite E. Qed.
Print Assumptions C70_current.
(** When the loop rests for the long period, the gateway has been told the current size.
    Missing: sizes asked for in the middle of a heartbeat. *)
Theorem C70_told_partial : forall long h s, exec step (init long) h s -> never_busy long scales h -> ph s = PSleep true -> told s = count s.
Proof. intros long h s Hx Hn E. pose proof (fine_all long h s Hx Hn) as H. unfold fine in H. by rewrite E in H. Qed.
Print Assumptions C70_told_partial.
(** Excess or lost workers start the timer, and the timer wakes the loop.  Missing: timers
    that fire in the middle of a heartbeat. *)
Theorem C70_soon_partial : forall long h s s' o, exec step (init long) h s -> never_busy long (eq EFire) h -> step s ESoon = (s', o) -> ph s' = PWoken \/ armed s' = true.
Proof. exact soon. Qed.
Print Assumptions C70_soon_partial.
Theorem C70_fires : forall long h s s' o, exec step (init long) h s -> armed s = true -> ~ busy s -> step s EFire = (s', o) -> ph s' = PWoken.
Proof. exact fires. Qed.
Print Assumptions C70_fires.

Definition the_state (es : list event) : state := fst (run step (init true) es).
Definition the_history (es : list event) : history := snd (run step (init true) es).
Lemma the_run es : exec step (init true) (the_history es) (the_state es).
Proof. apply (run_exec _ _ es). unfold the_state, the_history. by destruct (run step (init true) es). Qed.
Example C70_example : the_state [EScale 2; EBeat; EAnswer true false; EScale 5; EBeat; EAnswer true true; ERetired true] = State 5 5 (PSleep true) TSleep false false.
Proof. vm_compute. reflexivity. Qed.

(** The full claim is false.  Scaling to 1 and then, before the gateway has answered, to
    2: the second size is not reported until heartbeat_max (an hour on Kubernetes) is
    over, unless another size is asked for. *)
Definition twice := [EScale 1; EBeat; EScale 2; EAnswer true false].
Lemma stays (s : state) h s' : exec step s h s' -> Forall (fun eo => only_waits (fst eo)) h -> armed s = false -> timer s = true -> (exists l, ph s = PSleep l) ->
  told s' = told s /\ count s' = count s /\ ph s' = ph s.
Proof.
  intros Hx. induction Hx as [s|s e o s1 h s2 Hs Hx IH]; intros Hf Ha Ht [l Hl]; [done|]. apply Forall_cons in Hf as [He Hf]. injection Hs as <- _.
  destruct He as [He1 He2]. assert (E : fst (step s e) = s).
  { destruct e; cbn; rewrite ?Hl, ?Ht, ?Ha; try done. by destruct (He2 n). }
  cbn [fst] in *. unfold step in E. cbn [fst] in E. rewrite E in *. by apply IH; eauto.
Qed.
Lemma stays2 (s : state) h s' : exec step s h s' -> Forall (fun eo => fst eo <> EElapsed /\ fst eo <> ESoon /\ forall n, fst eo <> EScale n) h -> armed s = false -> (exists l, ph s = PSleep l) ->
  told s' = told s /\ count s' = count s /\ ph s' = ph s.
Proof.
  intros Hx. induction Hx as [s|s e o s1 h s2 Hs Hx IH]; intros Hf Ha [l Hl]; [done|]. apply Forall_cons in Hf as [He Hf]. injection Hs as <- _.
  destruct He as (He1 & He3 & He2). assert (E : fst (step s e) = s).
  { destruct e; cbn in *; rewrite ?Hl, ?Ha; try done. by destruct (He2 n). }
  unfold step in E. cbn [fst] in E. rewrite E in *. by apply IH; eauto.
Qed.
Theorem C70_told_refuted : exists h s, exec step (init true) h s /\ ph s = PSleep true /\ told s = 1 /\ count s = 2 /\
  forall h2 s2, exec step s h2 s2 -> Forall (fun eo => fst eo <> EElapsed /\ fst eo <> ESoon /\ forall n, fst eo <> EScale n) h2 -> told s2 = 1 /\ count s2 = 2.
Proof.
  exists (the_history twice), (the_state twice). split; [apply the_run|]. split; [vm_compute; reflexivity|]. split; [vm_compute; reflexivity|]. split; [vm_compute; reflexivity|].
  intros h2 s2 Hx Hf. destruct (stays2 _ _ _ Hx Hf) as (-> & -> & _); [vm_compute; reflexivity|exists true; vm_compute; reflexivity|]. split; vm_compute; reflexivity.
Qed.
Print Assumptions C70_told_refuted.
(** A timer that fires in the middle of a heartbeat makes the loop deaf to excess and
    lost workers for the rest of the long period. *)
Definition deaf := [EScale 1; EBeat; ESoon; EFire; EAnswer true false].
Theorem C70_soon_refuted : exists h s, exec step (init true) h s /\ ph s = PSleep true /\
  forall h2 s2, exec step s h2 s2 -> Forall (fun eo => only_waits (fst eo)) h2 -> ph s2 = PSleep true.
Proof.
  exists (the_history deaf), (the_state deaf). split; [apply the_run|]. split; [vm_compute; reflexivity|].
  intros h2 s2 Hx Hf. destruct (stays _ _ _ Hx Hf) as (_ & _ & ->); [vm_compute; reflexivity|vm_compute; reflexivity|exists true; vm_compute; reflexivity|]. vm_compute. reflexivity.
Qed.
Print Assumptions C70_soon_refuted.
