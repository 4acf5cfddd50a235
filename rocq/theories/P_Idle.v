(** Properties C57 and C72: idle shutdown. *)
From Coq Require Import ZArith Lia.
From stdpp Require Import base list.
From Verif Require Import Trace Idle_Model Idle_Spec Idle_Proofs.
Open Scope Z_scope.

(** The gateway is asked to stop the cluster only if since before the idle timeout there
    was no work and nothing happened, and the scheduler is older than that. *)
Theorem C57_only_idle : forall timeout t0 h s d ok s' t, exec (step timeout) (init t0) h s -> step timeout s (ECheck d ok) = (s', Obs t true) ->
  t0 < t - timeout /\ forall u, t - timeout <= u -> quiet_at h u.
Proof. exact only_idle. Qed.
Print Assumptions C57_only_idle.
(** Conversely every check finding this asks for it.  Missing: once such a request has
    failed. *)
Theorem C72_shuts_partial : forall timeout t0 h s d ok, exec (step timeout) (init t0) h s -> ~ refused h -> let t := now s + Z.of_N d in
  t0 < t - timeout -> (forall u, t - timeout <= u -> quiet_at h u) -> exists s', step timeout s (ECheck d ok) = (s', Obs t true).
Proof. exact shuts. Qed.
Print Assumptions C72_shuts_partial.

Definition the_state (es : list event) : state := fst (run (step 60) (init 0) es).
Definition the_history (es : list event) : history := snd (run (step 60) (init 0) es).
Lemma the_run es : exec (step 60) (init 0) (the_history es) (the_state es).
Proof. apply (run_exec _ _ es). unfold the_state, the_history. by destruct (run (step 60) (init 0) es). Qed.
Definition ex_events := [ETransition 10 true; ECheck 100 true; ETransition 5 false; ECheck 60 true; ECheck 1 true].
Example C57_example : map (fun eo => (o_time (snd eo), o_shutdown (snd eo))) (the_history ex_events) = [(10, false); (110, false); (115, false); (175, false); (176, true)].
Proof. vm_compute. reflexivity. Qed.

(** The full claim is false: after one failed request no further is made, however long
    the cluster is idle. *)
Lemma dead_stays timeout (s : state) h s' : exec (step timeout) s h s' -> alive s = false -> alive s' = false /\ Forall (fun eo => o_shutdown (snd eo) = false) h.
Proof.
  intros Hx. induction Hx as [s|s e o s1 h s2 Hs Hx IH]; intros Ha; [done|]. destruct e as [d w|d ok]; cbn [step] in Hs; [|rewrite Ha in Hs; cbn [andb] in Hs];
    injection Hs as <- <-; (destruct IH as [IH1 IH2]; [done|]); (split; [done|]); by constructor.
Qed.
Theorem C72_shuts_refuted : exists h s, exec (step 60) (init 0) h s /\ work s = false /\ refused h /\
  forall h2 s2, exec (step 60) s h2 s2 -> Forall (fun eo => o_shutdown (snd eo) = false) h2.
Proof.
  exists (the_history [ECheck 61 false]), (the_state [ECheck 61 false]). split; [apply the_run|]. split; [vm_compute; reflexivity|]. split.
  - exists 61%N, 61. vm_compute. constructor.
  - intros h2 s2 Hx. eapply dead_stays; [exact Hx|]. vm_compute. reflexivity.
Qed.
Print Assumptions C72_shuts_refuted.
