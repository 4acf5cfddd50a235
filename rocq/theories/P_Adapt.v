(** Properties C55 and C71: adaptive scaling. *)
From Coq Require Import ZArith Lia.
From stdpp Require Import base list.
From Verif Require Import Trace Adapt_Model Adapt_Spec Adapt_Proofs.
Open Scope Z_scope.

(** Each turn aims at the size within the bounds nearest to the scheduler's suggestion;
    the requested size grows to it at once and is never below it afterwards. *)
Theorem C55_grows : forall w s r sl s' o, ad s = ASleep -> step w s (ETick (Some r) sl) = (s', o) ->
  exists t, o = OTarget t /\ (sensible (minimum s) (maximum s) -> nearest (minimum s) (maximum s) r t) /\ (count s < t -> count s' = t) /\ t <= count s'.
Proof. exact grows. Qed.
Print Assumptions C55_grows.
(** It shrinks only to the largest target of the last [w] turns of the loop. *)
Theorem C55_shrinks : forall w h s r sl s' o, exec (step w) init h s -> step w s (ETick r sl) = (s', o) -> count s' < count s ->
  exists t l, o = OTarget t /\ since_start h l /\ recent w (l ++ [t]) (count s') /\ forall x, recent w (l ++ [t]) x -> x <= count s'.
Proof. exact shrinks. Qed.
Print Assumptions C55_shrinks.
(** And it does shrink: after each turn it is at most the largest of these. *)
Theorem C55_no_surplus : forall w h s r sl s' t, (w <> 0)%nat -> exec (step w) init h s -> step w s (ETick r sl) = (s', OTarget t) -> exists l x, since_start h l /\ recent w (l ++ [t]) x /\ count s' <= x.
Proof. exact no_surplus. Qed.
Print Assumptions C55_no_surplus.
(** After adapt(minimum, maximum) the requested size is within the bounds from the first
    turn on, or if adaptive scaling was on before, after [w] turns.  Missing: the turns
    before (see below). *)
Theorem C55_bounds_partial : forall w h1 mn mx o h2 s, (w <> 0)%nat -> exec (step w) init (h1 ++ (EAdapt mn mx, o) :: h2) s -> sensible mn mx -> undisturbed h2 ->
  (o = OStart /\ turns h2 <> []) \/ (w <= length (turns h2))%nat -> within mn mx (count s).
Proof. exact bounds. Qed.
Print Assumptions C55_bounds_partial.
(** An explicit size takes effect and adaptive scaling is off for good, if the request
    is answered; it may have met requests that were waiting before.  Missing: a request
    during an interrupt. *)
Theorem C71_explicit_partial : forall w s r n s1 o h s2, step w s (EScale r n) = (s1, o) -> exec (step w) s1 h s2 ->
  Forall (fun eo => match fst eo with EAdapt _ _ | EScale _ _ => False | _ => True end) h -> confirmed r ((EScale r n, o) :: h) -> count s2 = n /\ ad s2 = AOff.
Proof. exact explicit. Qed.
Print Assumptions C71_explicit_partial.
(** A request that does not come during an interrupt is answered: at once, or when the
    loop, which has been told so, has ended. *)
Theorem C71_answered_partial : forall w s r n s1 o, ad s <> AScaling -> step w s (EScale r n) = (s1, o) ->
  (exists l, o = OAnswer l /\ r ∈ l) \/ forall h s2, exec (step w) s1 h s2 -> (EEnd ∈ map fst h -> confirmed r h) /\ (EEnd ∉ map fst h -> ad s2 = AEnding).
Proof. exact answered. Qed.
Print Assumptions C71_answered_partial.
(** One that does is not, until another request comes; and the loop goes on. *)
Theorem C71_swallowed : forall w s r n s1 o h s2, ad s = AScaling -> step w s (EScale r n) = (s1, o) -> exec (step w) s1 h s2 -> undisturbed h ->
  ~ confirmed r ((EScale r n, o) :: h) /\ (ad s2 = ASleep \/ ad s2 = AScaling).
Proof. exact swallowed. Qed.
Print Assumptions C71_swallowed.

Definition the_state (es : list event) : state := fst (run (step 3) init es).
Definition the_history (es : list event) : history := snd (run (step 3) init es).
Lemma the_run es : exec (step 3) init (the_history es) (the_state es).
Proof. apply (run_exec _ _ es). unfold the_state, the_history. by destruct (run (step 3) init es). Qed.
Definition on := EAdapt (Some 2) (Some 10).
Definition tick r := ETick (Some r) false.
Example C55_example :
  count (the_state [on; tick 20]) = 10 /\                                   (* grows at once, to the maximum *)
  count (the_state [on; tick 20; tick 1; tick 1]) = 10 /\                   (* the first target is still recent *)
  count (the_state [on; tick 20; tick 6; tick 1; tick 1]) = 6 /\
  count (the_state [on; tick 20; tick 6; tick 1; tick 1; tick 1]) = 2.
Proof. repeat split; vm_compute; reflexivity. Qed.
Example C55_bounds_example : exists h2 s, exec (step 3) init ([] ++ (on, OStart) :: h2) s /\ turns h2 = [10; 6] /\ undisturbed h2 /\ sensible (Some 2) (Some 10).
Proof.
  exists (tl (the_history [on; tick 20; tick 6])), (the_state [on; tick 20; tick 6]). split; [|split; [vm_compute; reflexivity|split; [|cbn; lia]]].
  - replace ([] ++ (on, OStart) :: tl (the_history [on; tick 20; tick 6])) with (the_history [on; tick 20; tick 6]) by (vm_compute; reflexivity). apply the_run.
  - vm_compute. repeat constructor; intros [].
Qed.
Example C71_example : the_state [on; tick 20; EScale 0 4; EEnd; tick 20] = State 4 (Some 2) (Some 10) [10] AOff [] /\
  confirmed 0 (the_history [on; tick 20; EScale 0 4; EEnd; tick 20]).
Proof. split; [vm_compute; reflexivity|]. exists EEnd, [0%nat]. split; [|by left]. vm_compute. do 3 right. left. Qed.

(** The full bounds are false: after the bounds were lowered a turn asks for a size above
    the new maximum, which it takes from before the change. *)
Definition lowered := [EAdapt (Some 0) (Some 10); tick 9; tick 8; tick 7; EAdapt (Some 0) (Some 5); tick 3].
Theorem C55_bounds_refuted : exists h1 e o s1 s, exec (step 3) init h1 s1 /\ step 3 s1 e = (s, o) /\ minimum s = Some 0 /\ maximum s = Some 5 /\ count s <> count s1 /\ count s = 8.
Proof.
  exists (the_history (take 5 lowered)), (tick 3), (OTarget 3), (the_state (take 5 lowered)), (the_state lowered). split; [apply the_run|]. repeat split; try (vm_compute; reflexivity). vm_compute. done.
Qed.
Print Assumptions C55_bounds_refuted.
(** And so is the other: a size asked for while the adaptive loop is interrupting the
    heartbeat loop is not set, the request is not answered, and the loop goes on. *)
Definition lost := [on; ETick (Some 5) true; EScale 0 3; EResume; tick 7].
Theorem C71_explicit_refuted : exists s s' h s2, exec (step 3) init (the_history (take 2 lost)) s /\ step 3 s (EScale 0 3) = (s', ONone) /\ exec (step 3) s' h s2 /\
  undisturbed h /\ turns h <> [] /\ count s' = 5 /\ count s2 = 7 /\ ad s2 = ASleep.
Proof.
  exists (the_state (take 2 lost)), (the_state (take 3 lost)), (drop 3 (the_history lost)), (the_state lost). split; [apply the_run|]. split; [vm_compute; reflexivity|]. split; [|split; [vm_compute; repeat constructor; intros []|repeat split; vm_compute; done]].
  replace (drop 3 (the_history lost)) with (snd (run (step 3) (the_state (take 3 lost)) (drop 3 lost))) by (vm_compute; reflexivity).
  replace (the_state lost) with (fst (run (step 3) (the_state (take 3 lost)) (drop 3 lost))) by (vm_compute; reflexivity). apply (run_exec _ _ (drop 3 lost)). by destruct (run _ _ _).
Qed.
Print Assumptions C71_explicit_refuted.
