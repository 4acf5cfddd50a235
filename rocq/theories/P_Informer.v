(** Property C53: the watch cache on Kubernetes. *)
From Coq Require Import Lia.
From stdpp Require Import gmap.
From Verif Require Import Trace Informer_Model Informer_Spec Informer_Proofs.

(** The cache holds exactly the objects that existed on the server at some version. *)
Theorem C53_cache : forall h s k v, exec step init h s -> cache s !! k = Some v <-> exists_at (log s) (ver s) k v.
Proof. intros h s k v Hx. destruct (inv_all h s Hx) as (_ & _ & -> & _). apply objects_iff. Qed.
Print Assumptions C53_cache.
(** This version never goes back, and a list brings it to a moment after the request. *)
Theorem C53_forward : forall h s e s' o, exec step init h s -> step s e = (s', o) -> ver s <= ver s' <= length (log s').
Proof.
  intros h s e s' o Hx Hs. destruct (inv_all h s Hx) as (Hso & HI). destruct (inv_step _ _ _ _ _ Hs Hso HI) as [(H & _) ?]. done.
Qed.
Print Assumptions C53_forward.
Theorem C53_relist : forall s n dels items bad s' o since, step s (EListed n dels items bad) = (s', o) -> md s = Listing since -> md s' = Watching ->
  since <= ver s' <= length (log s) /\ initialized s' = true.
Proof.
  intros s n dels items bad s' o since Hs Hm Hw. cbn [step] in Hs. rewrite Hm in Hs. destruct (decide _); [|injection Hs as <- <-; congruence].
  destruct (lists _ _ _ _); [|injection Hs as <- <-; congruence]. destruct (handle_initial _ _ _ _). by injection Hs as <- <-.
Qed.
Print Assumptions C53_relist.
(** The handlers have been told everything: an object is in the cache exactly if the
    last call about its key was an update with this object, whatever handlers raised. *)
Theorem C53_told : forall h s k v, exec step init h s -> cache s !! k = Some v <-> last_told (obs_of h) k v.
Proof. intros h s k v Hx. destruct (inv_all h s Hx) as (_ & _ & _ & <- & _). apply learn_iff. Qed.
Print Assumptions C53_told.
(** Handlers get the object they were told before as the old one, and deletions are of
    objects they know, in the state they know. *)
Theorem C53_old : forall h s o1 k v old r o2, exec step init h s -> obs_of h = o1 ++ OUpd k v old r :: o2 -> forall w, old = Some w <-> last_told o1 k w.
Proof.
  intros h s o1 k v old r o2 Hx E w. destruct (inv_all h s Hx) as (_ & _ & _ & _ & H & _). rewrite E in H. apply honest_app in H as [_ [H _]]. cbn in H. rewrite H. apply learn_iff.
Qed.
Print Assumptions C53_old.
Theorem C53_deleted : forall h s o1 k v r o2, exec step init h s -> obs_of h = o1 ++ ODel k v r :: o2 -> last_told o1 k v.
Proof.
  intros h s o1 k v r o2 Hx E. destruct (inv_all h s Hx) as (_ & _ & _ & _ & H & _). rewrite E in H. apply honest_app in H as [_ [H _]]. cbn in H. by apply learn_iff.
Qed.
Print Assumptions C53_deleted.
(** Once the server stands still, a watch reaches exactly its objects. *)
Theorem C53_catches_up : forall h s bad, exec step init h s -> md s = Watching ->
  exists n s', fst (run step s (replicate n (EEvent bad))) = s' /\ md s' = Watching /\ log s' = log s /\ forall k v, cache s' !! k = Some v <-> exists_at (log s) (length (log s)) k v.
Proof.
  intros h s bad Hx Hw. remember (length (log s) - ver s) as d eqn:Ed. revert h s Hx Hw Ed. induction (lt_wf d) as [d _ IH]. intros h s Hx Hw Ed.
  destruct (inv_all h s Hx) as (Hso & HI). destruct (step s (EEvent bad)) as [s1 o1] eqn:Hs. pose proof Hs as Hs0. cbn [step] in Hs. rewrite Hw in Hs. destruct (next _ _) as [[c m]|] eqn:En.
  - destruct (next_out _ _ _ _ En) as (j & -> & _ & Hlk & _). rewrite lookup_drop in Hlk. pose proof (lookup_lt_Some _ _ _ Hlk).
    destruct (handle _ _ _ _) as [m1 o2]. injection Hs as <- <-.
    pose (s1 := State (log s) m1 Watching (S (ver s + j)) (initialized s)).
    assert (Hx2 : exec step init (h ++ [(EEvent bad, o2)]) s1) by (apply exec_app; exists s; split; [exact Hx|]; by econstructor; [exact Hs0|constructor]).
    assert (Hlt : length (log s1) - ver s1 < d) by (cbn; lia).
    destruct (IH _ Hlt _ s1 Hx2 eq_refl eq_refl) as (n & s2 & Hr & Hw2 & Hl2 & Hc2).
    exists (S n), s2. cbn [replicate run]. rewrite Hs0. fold s1. destruct (run _ s1 (replicate n _)). done.
  - exists 0, s. split_and!; [done|done|done|]. intros k v. destruct HI as (Hv & Hc & _). unfold exists_at. rewrite take_ge by done. rewrite <- objects_iff.
    rewrite Hc. rewrite <- (take_drop (ver s) (log s)) at 2. rewrite objects_app. by rewrite (proj2 (next_none _ _ En)).
Qed.
Print Assumptions C53_catches_up.

(** A run with a relist that finds an object gone and one new, and a raising handler. *)
Definition ex1 : list event :=
  [EChange (Put 1 10)%positive; EListed 1 [] [(1, 10)%positive] ∅; EChange Other; EChange (Put 2 20)%positive; EEvent {[2%positive]}; EChange (Put 2 21)%positive; EError;
   EChange (Gone 1%positive); EChange (Put 3 30)%positive; EListFailed; EChange (Put 4 40)%positive; EListed 6 [1%positive] [(3, 30)%positive; (2, 21)%positive] ∅; EEvent ∅].
Example C53_example : exists h s, exec step init h s /\ map fst h = ex1 /\ cache s = {[2%positive := 21%positive; 3%positive := 30%positive; 4%positive := 40%positive]} /\
  obs_of h = [OUpd 1 10 None false; OUpd 2 20 None true; ODel 1 10 false; OUpd 3 30 None false; OUpd 2 21 (Some 20%positive) false; OUpd 4 40 None false]%positive.
Proof.
  exists (snd (run step init ex1)), (fst (run step init ex1)). split; [apply (run_exec _ _ ex1); by destruct (run step init ex1)|]. split; [by vm_compute|]. split; [apply (bool_decide_unpack _); by vm_compute|by vm_compute].
Qed.
