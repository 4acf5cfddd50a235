(** Proofs for C70. *)
From Coq Require Import ZArith Lia.
From stdpp Require Import base list.
From Verif Require Import Trace Beat_Model Beat_Spec.
Open Scope Z_scope.

Lemma never_busy_snoc long P h e o s : never_busy long P (h ++ [(e, o)]) -> exec step (init long) h s -> never_busy long P h /\ (busy s -> ~ P e).
Proof.
  intros H Hx. split; [|intros Hb; by eapply H].
  intros h1 e1 o1 h2 s1 -> Hx1 Hb. apply (H h1 e1 o1 (h2 ++ [(e, o)]) s1); [|done|done]. by rewrite <- app_assoc.
Qed.
Record Inv (s : state) : Prop := { i_sleep : forall l, ph s = PSleep l -> tk s = TSleep; i_task : tk s = TSleep -> exists l, ph s = PSleep l; i_armed : armed s = true -> timer s = true }.
Lemma inv_interrupt s : Inv s -> Inv (interrupt s).
Proof. intros HI. pose proof HI as [H1 H2 H3]. unfold interrupt. destruct (tk s) eqn:E; [done| |]; constructor; cbn; try done. intros l Hl. specialize (H1 l Hl). congruence. Qed.
Lemma inv_all long h s : exec step (init long) h s -> Inv s.
Proof.
  revert h s. apply (exec_ind_r step (init long) (fun _ => Inv)).
  - constructor; cbn; try done. eauto.
  - intros h s e o s' _ HI [= <- _]. destruct e as [n| | | | |ok rt|ok].
    + destruct (n =? count s); [done|]. apply inv_interrupt. destruct HI. by constructor.
    + destruct (timer s); [done|]. destruct HI. by constructor.
    + destruct (armed s) eqn:E; [|done]. apply inv_interrupt. destruct HI. by constructor.
    + destruct (ph s) eqn:E; try done. destruct HI. constructor; cbn; try done.
    + destruct (ph s) eqn:E; try done. destruct HI as [H1 H2 H3]. constructor; cbn; try done. intros Ht. destruct (H2 Ht) as [l Hl]. congruence.
    + destruct (ph s) eqn:E; try done. destruct HI as [H1 H2 H3]. destruct ok, rt; constructor; cbn; try done; try eauto. intros Ht. destruct (H2 Ht) as [l Hl]. congruence.
    + destruct (ph s) eqn:E; try done. destruct HI as [H1 H2 H3]. constructor; cbn; eauto.
Qed.
Lemma wakes long h s n s' o : exec step (init long) h s -> step s (EScale n) = (s', o) -> n <> count s -> ~ busy s -> ph s' = PWoken /\ count s' = n.
Proof.
  intros Hx [= <- _] Hn Hb. destruct (inv_all long h s Hx) as [H1 H2 _]. rewrite (proj2 (Z.eqb_neq n (count s)) Hn). unfold interrupt. cbn [tk]. destruct (ph s) as [l| | |] eqn:E; unfold busy in Hb; rewrite E in Hb; try tauto.
  - by rewrite (H1 l eq_refl).
  - destruct (tk s) eqn:Et; [done| |done]. destruct (H2 eq_refl). congruence.
Qed.
Definition fine (s : state) : Prop := match ph s with PSleep true => told s = count s | PSleep false | PWoken => True | PSending c => c = count s | PRetiring => told s = count s end.
Lemma fine_interrupt s : fine s -> fine (interrupt s).
Proof. unfold interrupt. destruct (tk s); done. Qed.
Lemma fine_all long h s : exec step (init long) h s -> never_busy long scales h -> fine s.
Proof.
  revert h s. apply (exec_ind_r step (init long) (fun h s => never_busy long scales h -> fine s)).
  - intros _. by destruct long.
  - intros h s e o s' Hx IH Hs Hn. destruct (never_busy_snoc _ _ _ _ _ _ Hn Hx) as [Hn1 Hn2]. specialize (IH Hn1). pose proof (inv_all _ _ _ Hx) as HI. destruct e as [n| | | | |ok rt|ok].
    + assert (Hd : busy s \/ ~ busy s) by (unfold busy; destruct (ph s); tauto). destruct Hd as [Hb|Hb].
      { exfalso. apply (Hn2 Hb). by exists n. }
      destruct (decide (n = count s)) as [E|E]; [injection Hs as <- _; by rewrite (proj2 (Z.eqb_eq n (count s)) E)|].
      destruct (wakes long h s n s' o Hx Hs E Hb) as [E1 _]. unfold fine. by rewrite E1.
    + injection Hs as <- _. destruct (timer s); [done|]. exact IH.
    + injection Hs as <- _. destruct (armed s); [|done]. apply fine_interrupt. exact IH.
    + injection Hs as <- _. destruct (ph s) eqn:E; done.
    + injection Hs as <- _. destruct (ph s) eqn:E; done.
    + injection Hs as <- _. destruct (ph s) eqn:E; try done. unfold fine in IH. rewrite E in IH. subst. destruct ok, rt; done.
    + injection Hs as <- _. destruct (ph s) eqn:E; try done. unfold fine in IH. rewrite E in IH. destruct ok; done.
Qed.
(** The timer. *)
Definition timer_ok (s : state) : Prop := match ph s with PSleep _ => timer s = true -> armed s = true | PWoken => True | _ => timer s = true -> armed s = true end.
Lemma timer_all long h s : exec step (init long) h s -> never_busy long (eq EFire) h -> timer_ok s.
Proof.
  revert h s. apply (exec_ind_r step (init long) (fun h s => never_busy long (eq EFire) h -> timer_ok s)).
  - intros _. done.
  - intros h s e o s' Hx IH Hs Hn. destruct (never_busy_snoc _ _ _ _ _ _ Hn Hx) as [Hn1 Hn2]. specialize (IH Hn1). pose proof (inv_all _ _ _ Hx) as [H1 H2 H3]. injection Hs as <- _. unfold timer_ok in *. destruct e as [n| | | | |ok rt|ok].
    + destruct (n =? count s); [done|]. unfold interrupt. cbn. destruct (tk s) eqn:Et; cbn; try done.
    + destruct (timer s) eqn:Et; [by rewrite Et|]. cbn. by destruct (ph s).
    + destruct (armed s) eqn:Ea; [|by rewrite Ea]. unfold interrupt. cbn. destruct (ph s) as [l| |c|] eqn:E.
      * by rewrite (H1 l eq_refl).
      * by destruct (tk s).
      * exfalso. apply Hn2; [unfold busy; by rewrite E|done].
      * exfalso. apply Hn2; [unfold busy; by rewrite E|done].
    + destruct (ph s) eqn:E; cbn; rewrite ?E; done.
    + destruct (ph s) eqn:E; cbn; rewrite ?E; done.
    + destruct (ph s) eqn:E; cbn; rewrite ?E; try done. by destruct ok, rt.
    + destruct (ph s) eqn:E; cbn; rewrite ?E; done.
Qed.
Lemma soon long h s s' o : exec step (init long) h s -> never_busy long (eq EFire) h -> step s ESoon = (s', o) -> ph s' = PWoken \/ armed s' = true.
Proof.
  intros Hx Hn [= <- _]. pose proof (timer_all long h s Hx Hn) as H. unfold timer_ok in H. destruct (timer s) eqn:E; [|by right]. destruct (ph s); try (right; by apply H). by left.
Qed.
Lemma fires long h s s' o : exec step (init long) h s -> armed s = true -> ~ busy s -> step s EFire = (s', o) -> ph s' = PWoken.
Proof.
  intros Hx Ha Hb [= <- _]. destruct (inv_all long h s Hx) as [H1 H2 _]. rewrite Ha. unfold interrupt. cbn [tk]. destruct (ph s) as [l| | |] eqn:E; unfold busy in Hb; rewrite E in Hb; try tauto.
  - by rewrite (H1 l eq_refl).
  - destruct (tk s); try done.
Qed.
