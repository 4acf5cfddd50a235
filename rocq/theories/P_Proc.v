(** Property C95: stopping local processes. *)
From Coq Require Import ZArith List Lia.
From stdpp Require Import prelude.
From Verif Require Import Proc_Model Proc_Spec Proc_Proofs.
Local Open Scope Z_scope.

(** C95. "A process is asked three times, ever more firmly, and has the configured time to
    react (and not much more than twice of it)." *)
Theorem C95_asked : forall tab t a b c, 0 <= a -> 0 <= b -> 0 <= c -> let l := fst (stop_process tab t a b c) in
  signals l `prefix_of` [SIGINT; SIGTERM; SIGKILL] /\
  spaced (fun s => 10 * timeout_of a b c s) (fun s => 20 * timeout_of a b c s + 1) l.
Proof.
  intros tab t a b c Ha Hb Hc. split; [apply attempts_prefix|]. apply attempts_spaced; [|repeat constructor; done].
  intros m Hm. repeat (apply elem_of_cons in Hm as [->|Hm]; [done|]). by apply elem_of_nil in Hm.
Qed.
(** "It is over in bounded time." *)
Theorem C95_bounded : forall tab t a b c, 0 <= a -> 0 <= b -> 0 <= c -> t <= end_time (snd (stop_process tab t a b c)) <= t + 20 * (a + b + c) + 3.
Proof.
  intros tab t a b c Ha Hb Hc. pose proof (attempts_time tab [(SIGINT, a); (SIGTERM, b); (SIGKILL, c)]) as H.
  specialize (H ltac:(repeat constructor; done) t). unfold stop_process. cbn [total foldr snd] in H. lia.
Qed.
(** "When it says stopped, the process was gone; otherwise it outlived SIGKILL." *)
Theorem C95_stopped : forall tab t a b c t', 0 <= a -> 0 <= b -> 0 <= c -> snd (stop_process tab t a b c) = Stopped t' -> tab t' = Free /\ t <= t'.
Proof. intros tab t a b c t' Ha Hb Hc H. eapply attempts_stopped; [|exact H]. repeat constructor; done. Qed.
Theorem C95_survived : forall tab t a b c t', 0 <= a -> 0 <= b -> 0 <= c -> snd (stop_process tab t a b c) = Survived t' ->
  exists k h, last (fst (stop_process tab t a b c)) = Some (k, SIGKILL, h) /\ k + 10 * c < t' /\ exists u p, k + 5 * c - 1 < u < t' /\ tab u = Held p.
Proof.
  intros tab t a b c t' Ha Hb Hc H. apply (attempts_survived tab [(SIGINT, a); (SIGTERM, b)] SIGKILL c); [repeat constructor; done|exact H].
Qed.
(** "A process that is gone within half the time is not asked again." *)
Theorem C95_mercy : forall tab t a b c, 0 <= a -> (forall u, t + 5 * a - 1 < u <= t + 10 * a -> tab u = Free) -> (forall u, t <= u -> tab u <> Denied) ->
  exists t', stop_process tab t a b c = ([(t, SIGINT, tab t)], Stopped t').
Proof. intros. by apply attempts_mercy. Qed.
(** "No other process is sent signals": if the process id is not given to another one. *)
Theorem C95_own_partial : forall tab t a b c p q s u, not_reused tab p -> hits (fst (stop_process tab t a b c)) q s u -> q = p.
Proof.
  intros tab t a b c p q s u Hn H. unfold hits in H. apply (attempts_receiver tab) in H. cbn [fst snd] in H.
  destruct (Hn u) as [E|E]; rewrite E in H; congruence.
Qed.
(** It can be: the process ends after seven seconds, another one gets its id, and is killed. *)
Theorem C95_own_refuted : exists tab t a b c u, tab t = Held 1 /\ hits (fst (stop_process tab t a b c)) 2 SIGKILL u /\ (forall v, 70 < v -> tab v <> Held 1).
Proof.
  exists (fun u => if u <=? 70 then Held 1 else Held 2), 0, 10, 5, 5. eexists. split; [done|]. split.
  - unfold hits. apply elem_of_list_In. vm_compute. right. right. left. reflexivity.
  - intros v Hv. rewrite (proj2 (Z.leb_gt _ _)) by lia. done.
Qed.
Print Assumptions C95_asked.
Print Assumptions C95_bounded.
Print Assumptions C95_stopped.
Print Assumptions C95_survived.
Print Assumptions C95_mercy.
Print Assumptions C95_own_partial.
Print Assumptions C95_own_refuted.
(** A process that reacts to SIGTERM only, and one that reacts to nothing. *)
Example C95_example :
  stop_process (fun u => if u <=? 130 then Held 1 else Free) 0 10 5 5 = ([(0, SIGINT, Held 1); (127, SIGTERM, Held 1)], Stopped 134) /\
  stop_process (fun u => Held 1) 0 10 5 5 = ([(0, SIGINT, Held 1); (127, SIGTERM, Held 1); (190, SIGKILL, Held 1)], Survived 253).
Proof. split; vm_compute; done. Qed.
