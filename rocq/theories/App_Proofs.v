(** Proofs for C107-C109. *)
From Coq Require Import ZArith Lia.
From stdpp Require Import prelude gmap.
From Verif Require Import Trace App_Model App_Spec.

Lemma outs_snoc h e o : outs (h ++ [(e, o)]) = outs h ++ o.
Proof. unfold outs. rewrite map_app, concat_app. cbn. by rewrite app_nil_r. Qed.
Lemma happened_snoc e h e' o : happened e (h ++ [(e', o)]) <-> happened e h \/ e = e'.
Proof. unfold happened. rewrite map_app, elem_of_app. cbn. by rewrite elem_of_list_singleton. Qed.

(** Where main is determines what there is. *)
Definition pinv (cf : config) (s : state) : Prop :=
  match at_ s with
  | Setup l => exists k, k < 9 /\ l = drop k setup_prog /\ auth s = (0 <? k) /\ session s = (1 <? k) /\ reconcilers s = (2 <? k) /\
      proxy s = (3 <? k) /\ proc s = ((3 <? k) && negb (external cf)) /\ db s = (4 <? k) /\ tasks s = (5 <? k) /\ ready s = (6 <? k) /\ runner s = (7 <? k) /\ listening s = false
  | Serving => reconcilers s = true /\ db s = true /\ ready s = true /\ runner s = true /\ session s = true
  | Cleanup c l => exists j, j < 9 /\ l = drop j cleanup_prog /\
      (1 <= j -> runner s = false /\ listening s = false) /\ (2 <= j -> tasks s = false) /\
      (j < 5 -> db s = true -> reconcilers s = true) /\ (5 <= j -> reconcilers s = false) /\ (7 <= j -> proc s = false) /\ (8 <= j -> session s = false) /\
      (listening s = true -> runner s = true) /\ (suspends cf = false -> db s = true -> ready s = true) /\
      (runner s = true -> db s = true)
  | Exited _ => True
  end.
(** What is open and not wanted is in the queue; and what a stop has done. *)
Definition loaded (s : state) : Prop :=
  match at_ s with Setup l => ILoad ∉ l | _ => db s = true end.
Definition qinv (cf : config) (s : state) : Prop :=
  (loaded s -> forall n c, clusters s !! n = Some c -> is_open c = true -> c_wanted c = false -> n ∈ queued s) /\
  match at_ s with
  | Cleanup _ l => db s = true -> stop_flag cf = true ->
      (KStop ∉ l -> forall n c, clusters s !! n = Some c -> is_open c = true -> c_wanted c = false) /\
      (KWait ∉ l -> forall n c, clusters s !! n = Some c -> is_open c = false)
  | _ => True
  end.

Lemma open_keys_spec s n : n ∈ open_keys s <-> exists c, clusters s !! n = Some c /\ is_open c = true.
Proof.
  unfold open_keys. rewrite elem_of_dom. split.
  - intros [c Hc]. apply map_filter_lookup_Some in Hc as [Hc Ho]. by exists c.
  - intros (c & Hc & Ho). exists c. by apply map_filter_lookup_Some.
Qed.
Lemma all_closed_spec s : all_closed s = true <-> forall n c, clusters s !! n = Some c -> is_open c = false.
Proof.
  unfold all_closed. rewrite bool_decide_eq_true. split.
  - intros E n c Hc. destruct (is_open c) eqn:Ho; [|done]. assert (filter (fun x => is_open (snd x) = true) (clusters s) !! n = Some c) as H by (by apply map_filter_lookup_Some).
    rewrite E, lookup_empty in H. done.
  - intros H. apply map_filter_empty_iff. intros n c Hc Ho. cbn in Ho. by rewrite (H n c Hc) in Ho.
Qed.

(** Steps that are not main's leave main's things alone. *)
Definition same_main (s s' : state) : Prop :=
  at_ s' = at_ s /\ session s' = session s /\ auth s' = auth s /\ reconcilers s' = reconcilers s /\ proxy s' = proxy s /\ proc s' = proc s /\
  db s' = db s /\ tasks s' = tasks s /\ ready s' = ready s /\ runner s' = runner s /\ listening s' = listening s.
Lemma set_clusters_same c q a s : same_main s (set_clusters c q a s).
Proof. done. Qed.
Lemma turn_same cf n c ok s : same_main s (fst (turn cf n c ok s)).
Proof. unfold turn. destruct (c_st c), (c_wanted c); cbn [negb]; try done; by destruct (_ && _). Qed.
Lemma not_main cf s e s' o : step cf s e = (s', o) -> (forall ok, e <> EMain ok) -> e <> ESignal -> same_main s s'.
Proof.
  intros H H1 H2. destruct e as [ok| |n ok|n|n|n]; [by destruct (H1 ok)|done| | | |]; unfold step in H.
  - destruct (_ && _); [|by injection H as <- _]. destruct (clusters s !! n) as [c|]; [|by injection H as <- _]. pose proof (turn_same cf n c ok s) as T. by rewrite H in T.
  - destruct (_ && _); by injection H as <- _.
  - destruct (_ && _); [|by injection H as <- _]. destruct (clusters s !! n) as [c|]; [|by injection H as <- _]. destruct (is_open c); by injection H as <- _.
  - by injection H as <- _.
Qed.
Lemma pinv_same cf s s' : same_main s s' -> pinv cf s -> pinv cf s'.
Proof.
  intros (E1 & E2 & E3 & E4 & E5 & E6 & E7 & E8 & E9 & E10 & E11) H. unfold pinv in *. by rewrite E1, E2, E3, E4, E5, E6, E7, E8, E9, E10, E11.
Qed.
Ltac flags := cbn [set_place set_auth set_session set_reconcilers set_proxy set_db set_tasks set_ready set_runner set_clusters at_ session auth reconcilers proxy proc db tasks ready runner listening clusters queued apps].
Ltac at_k k := solve [exists k; repeat split; first [lia | done | (intros; first [lia | done | congruence | match goal with H : _ |- _ => solve [apply H; first [lia | assumption | congruence]] end])]].
Lemma pinv_signal cf s s' o : pinv cf s -> step cf s ESignal = (s', o) -> pinv cf s'.
Proof.
  intros H Hs. pose proof H as H0. unfold step in Hs. destruct (suspended cf s) eqn:Hu; [|by injection Hs as <- _]. unfold pinv in H. unfold suspended in Hu. destruct (at_ s) as [l| |c l|c] eqn:Ea.
  - destruct H as (k & Hk & -> & E1 & E2 & E3 & E4 & E5 & E6 & E7 & E8 & E9 & E10). injection Hs as <- _. unfold pinv. flags.
    do 6 (destruct k as [|k]; [cbn in Hu; done|]). destruct k as [|[|[|k]]]; [| | |lia]; cbn in *; rewrite E6, E8, E3, E9, E10; at_k 0.
  - destruct H as (E3 & E6 & E8 & E9 & E2). injection Hs as <- _. unfold pinv. flags. rewrite E3, E6, E8, E9. at_k 0.
  - injection Hs as <- _. done.
  - done.
Qed.
Lemma pinv_setup cf s l ok s' o : at_ s = Setup l -> pinv cf s -> step cf s (EMain ok) = (s', o) -> pinv cf s'.
Proof.
  intros Ea H Hs. unfold step in Hs. unfold pinv in H. rewrite Ea in Hs, H. destruct H as (k & Hk & -> & E1 & E2 & E3 & E4 & E5 & E6 & E7 & E8 & E9 & E10).
  destruct k as [|[|[|[|[|[|[|[|[|k]]]]]]]]]; [..|lia]; cbn in E1, E2, E3, E4, E5, E6, E7, E8, E9; cbn [drop setup_prog exec_instr] in Hs.
  all: try (destruct ok; cbn [orb andb] in Hs). all: try (destruct (suspends cf) eqn:Esu; cbn [negb] in Hs).
  all: injection Hs as <- _; unfold pinv; flags; rewrite ?E1, ?E2, ?E3, ?E4, ?E5, ?E6, ?E7, ?E8, ?E9, ?E10.
  all: first [done | at_k 0 | at_k 1 | at_k 2 | at_k 3 | at_k 4 | at_k 5 | at_k 6 | at_k 7 | at_k 8].
Qed.
Lemma pinv_cleanup cf s c l ok s' o : at_ s = Cleanup c l -> pinv cf s -> step cf s (EMain ok) = (s', o) -> pinv cf s'.
Proof.
  intros Ea H Hs. pose proof H as H0. unfold step in Hs. unfold pinv in H. rewrite Ea in Hs, H.
  destruct H as (j & Hj & -> & H1 & H2 & H3 & H4 & H5 & H6 & H7 & H8 & H9).
  destruct j as [|[|[|[|[|[|[|[|[|j]]]]]]]]]; [..|lia]; cbn [drop cleanup_prog exec_kinstr] in Hs.
  - destruct (if runner s then ok else true); injection Hs as <- _; [|done]. unfold pinv. flags. at_k 1.
  - injection Hs as <- _. unfold pinv. flags. at_k 2.
  - destruct (db s && stop_flag cf); injection Hs as <- _; unfold pinv; flags; at_k 3.
  - destruct (_ && _); injection Hs as <- _; [done|]; unfold pinv; flags; at_k 4.
  - injection Hs as <- _. unfold pinv. flags. at_k 5.
  - destruct (_ && _); [injection Hs as <- _; done|]. destruct ok; injection Hs as <- _; [|done]. unfold pinv. flags. at_k 6.
  - injection Hs as <- _. unfold pinv. flags. at_k 7.
  - destruct (session s); injection Hs as <- _; [|done]. unfold pinv. flags. at_k 8.
  - injection Hs as <- _. done.
Qed.
Lemma pinv_step cf s e s' o : pinv cf s -> step cf s e = (s', o) -> pinv cf s'.
Proof.
  intros H Hs. destruct e as [ok| |n ok|n|n|n]; [|by eapply pinv_signal|eapply pinv_same; [eapply not_main|]; done|eapply pinv_same; [eapply not_main|]; done|eapply pinv_same; [eapply not_main|]; done|eapply pinv_same; [eapply not_main|]; done].
  destruct (at_ s) as [l| |c l|c] eqn:Ea; [by eapply pinv_setup| |by eapply pinv_cleanup|]; unfold step in Hs; rewrite Ea in Hs; by injection Hs as <- _.
Qed.
Lemma pinv_life cf cs a h s : life cf cs a h s -> pinv cf s.
Proof.
  apply (exec_ind_r (step cf) (init cs a) (fun _ s => pinv cf s)); [|intros; by eapply pinv_step]. unfold pinv. cbn [init at_]. exists 0. by repeat split; try lia.
Qed.

(** * Calls of the backend *)
Lemma turn_calls cf n c ok s o : o ∈ snd (turn cf n c ok s) -> (o = OStart n (ready s) \/ o = OStop n (ready s)).
Proof.
  unfold turn. destruct (c_st c), (c_wanted c); cbn [negb]; try (destruct (_ && _)); cbn [snd]; intros H; try (by apply elem_of_nil in H); apply elem_of_list_singleton in H; auto.
Qed.
Lemma exec_kinstr_calls cf k ok s s' o b x : exec_kinstr cf k ok s = Some (s', o, b) -> x ∈ o -> ~ is_call x /\ x <> OStopped /\ x <> OServe /\ (forall c, x <> OExit c) /\ (x = OCleanup -> k = KBackend).
Proof.
  destruct k; cbn [exec_kinstr]; intros H Hx; try (injection H as _ <- _; by apply elem_of_nil in Hx).
  - destruct (_ && _); [done|]. injection H as _ <- _. by apply elem_of_nil in Hx.
  - destruct (_ && _); injection H as _ <- _; [by apply elem_of_nil in Hx|]. apply elem_of_list_singleton in Hx as ->. repeat split; try done. by intros [].
  - injection H as _ <- _. destruct (proc s); [|by apply elem_of_nil in Hx]. apply elem_of_list_singleton in Hx as ->. repeat split; try done. by intros [].
  - destruct (session s); injection H as _ <- _; by apply elem_of_nil in Hx.
Qed.
(** What comes out, and when. *)
Lemma call_when cf s e s' o x : step cf s e = (s', o) -> x ∈ o -> is_call x ->
  suspended cf s = true /\ reconcilers s = true /\ db s = true /\ exists n ok c, e = ETurn n ok /\ clusters s !! n = Some c /\ n ∈ queued s /\ (s', o) = turn cf n c ok s /\ (x = OStart n (ready s) \/ x = OStop n (ready s)).
Proof.
  intros H Hx Hc. destruct e as [ok| |n ok|n|n|n]; unfold step in H.
  - exfalso. destruct (at_ s) as [[|i l]| |c [|k l]|c]; try (injection H as _ <-; by apply elem_of_nil in Hx).
    + destruct (exec_instr cf i ok s) as [s1 []]; [destruct l|]; injection H as _ <-; try (by apply elem_of_nil in Hx). by apply elem_of_list_singleton in Hx as ->.
    + destruct (exec_kinstr cf k ok s) as [[[s1 o1] []]|] eqn:Ek; [destruct l| |injection H as _ <-; by apply elem_of_nil in Hx]; injection H as _ <-.
      * apply elem_of_app in Hx as [Hx|Hx]; [by eapply exec_kinstr_calls in Hx as (? & _)|]. repeat (apply elem_of_cons in Hx as [->|Hx]; [done|]). by apply elem_of_nil in Hx.
      * by eapply exec_kinstr_calls in Hx as (? & _).
      * apply elem_of_app in Hx as [Hx|Hx]; [by eapply exec_kinstr_calls in Hx as (? & _)|]. repeat (apply elem_of_cons in Hx as [->|Hx]; [done|]). by apply elem_of_nil in Hx.
  - exfalso. destruct (suspended cf s); [|injection H as _ <-; by apply elem_of_nil in Hx]. destruct (at_ s); injection H as _ <-; try (by apply elem_of_nil in Hx). by apply elem_of_list_singleton in Hx as ->.
  - destruct (suspended cf s && reconcilers s && db s && bool_decide (n ∈ queued s)) eqn:E; [|injection H as _ <-; by apply elem_of_nil in Hx].
    apply andb_prop in E as [E E4]. apply andb_prop in E as [E E3]. apply andb_prop in E as [E1 E2]. apply bool_decide_eq_true in E4.
    destruct (clusters s !! n) as [c|] eqn:Ec; [|injection H as _ <-; by apply elem_of_nil in Hx]. split; [done|]. split; [done|]. split; [done|]. exists n, ok, c. split; [done|]. split; [done|]. split; [done|]. split; [by rewrite H|].
    apply (turn_calls cf n c ok). by rewrite H.
  - exfalso. destruct (_ && _); injection H as _ <-; by apply elem_of_nil in Hx.
  - exfalso. destruct (_ && _); [|injection H as _ <-; by apply elem_of_nil in Hx]. destruct (clusters s !! n) as [c|]; [destruct (is_open c)|]; injection H as _ <-; by apply elem_of_nil in Hx.
  - exfalso. injection H as _ <-. by apply elem_of_nil in Hx.
Qed.
Definition over (s : state) : Prop := match at_ s with Cleanup _ _ => reconcilers s = false | Exited _ => True | _ => False end.
Lemma over_step cf s e s' o : over s -> step cf s e = (s', o) -> over s' /\ Forall (fun x => ~ is_call x) o.
Proof.
  intros Ho H. split.
  - unfold over in *. destruct e as [ok| |n ok|n|n|n].
    + unfold step in H. destruct (at_ s) as [l| |c [|k l]|c] eqn:Ea; [done|done| | |].
      * injection H as <- _. by rewrite Ea.
      * assert (Hr : forall s1 o1 b, exec_kinstr cf k ok s = Some (s1, o1, b) -> reconcilers s1 = false).
        { intros s1 o1 b. destruct k; cbn [exec_kinstr]; intros E; try (injection E as <- _ _; done).
          - destruct (_ && _); by injection E as <- _ _.
          - destruct (_ && _); [done|]. by injection E as <- _ _.
          - destruct (_ && _); by injection E as <- _ _.
          - destruct (session s); by injection E as <- _ _. }
        destruct (exec_kinstr cf k ok s) as [[[s1 o1] []]|]; [destruct l| |]; injection H as <- _; cbn [set_place at_ reconcilers]; try done; [by eapply Hr|by rewrite Ea].
      * injection H as <- _. by rewrite Ea.
    + unfold step in H. destruct (suspended cf s); [|by injection H as <- _]. destruct (at_ s) eqn:Ea; try done; injection H as <- _; [done|by rewrite Ea].
    + apply not_main in H as (-> & _ & _ & -> & _); try done.
    + apply not_main in H as (-> & _ & _ & -> & _); try done.
    + apply not_main in H as (-> & _ & _ & -> & _); try done.
    + apply not_main in H as (-> & _ & _ & -> & _); try done.
  - apply Forall_forall. intros x Hx Hc. destruct (call_when _ _ _ _ _ _ H Hx Hc) as (H1 & H2 & _). unfold over, suspended in *. destruct (at_ s); done || congruence.
Qed.
Lemma cleanup_when cf s e s' o : pinv cf s -> step cf s e = (s', o) -> OCleanup ∈ o -> over s' /\ exists r, o = OCleanup :: r /\ Forall (fun x => ~ is_call x) r.
Proof.
  intros HI H Hx. destruct e as [ok| |n ok|n|n|n].
  - pose proof (pinv_step _ _ _ _ _ HI H) as HI'. unfold step in H. destruct (at_ s) as [[|i l]| |c [|k l]|c] eqn:Ea; try (injection H as _ <-; by apply elem_of_nil in Hx).
    + destruct (exec_instr cf i ok s) as [s1 []]; [destruct l|]; injection H as _ <-; try (by apply elem_of_nil in Hx). by apply elem_of_list_singleton in Hx.
    + assert (k = KBackend) as ->.
      { destruct (exec_kinstr cf k ok s) as [[[s1 o1] []]|] eqn:Ek; [destruct l| |injection H as _ <-; by apply elem_of_nil in Hx]; injection H as _ <-.
        - apply elem_of_app in Hx as [Hx|Hx]; [by eapply exec_kinstr_calls in Hx as (_ & _ & _ & _ & ?); auto|]. repeat (apply elem_of_cons in Hx as [Hx|Hx]; [done|]). by apply elem_of_nil in Hx.
        - by eapply exec_kinstr_calls in Hx as (_ & _ & _ & _ & ?); auto.
        - apply elem_of_app in Hx as [Hx|Hx]; [by eapply exec_kinstr_calls in Hx as (_ & _ & _ & _ & ?); auto|]. repeat (apply elem_of_cons in Hx as [Hx|Hx]; [done|]). by apply elem_of_nil in Hx. }
      unfold pinv in HI. rewrite Ea in HI. destruct HI as (j & Hj & El & _ & _ & _ & H4 & _).
      assert (j = 5) as ->. { destruct j as [|[|[|[|[|[|[|[|[|j]]]]]]]]]; try discriminate El; [done|lia]. }
      injection El as ->. cbn [exec_kinstr] in H. destruct (_ && _); [injection H as _ <-; by apply elem_of_list_singleton in Hx|].
      destruct ok; injection H as <- <-; unfold over; cbn [set_place at_ reconcilers]; (split; [by try apply H4; try lia|]); eexists; (split; [done|]); repeat constructor; by intros [].
  - exfalso. unfold step in H. destruct (suspended cf s); [|injection H as _ <-; by apply elem_of_nil in Hx]. destruct (at_ s); injection H as _ <-; try (by apply elem_of_nil in Hx). by apply elem_of_list_singleton in Hx.
  - exfalso. unfold step in H. destruct (_ && _); [|injection H as _ <-; by apply elem_of_nil in Hx]. destruct (clusters s !! n) as [c|]; [|injection H as _ <-; by apply elem_of_nil in Hx]. pose proof (turn_calls cf n c ok s OCleanup) as T. rewrite H in T. by destruct (T Hx).
  - exfalso. unfold step in H. destruct (_ && _); injection H as _ <-; by apply elem_of_nil in Hx.
  - exfalso. unfold step in H. destruct (_ && _); [|injection H as _ <-; by apply elem_of_nil in Hx]. destruct (clusters s !! n) as [c|]; [destruct (is_open c)|]; injection H as _ <-; by apply elem_of_nil in Hx.
  - exfalso. injection H as _ <-. by apply elem_of_nil in Hx.
Qed.
Lemma not_after cf cs a h s o1 o2 : life cf cs a h s -> outs h = o1 ++ OCleanup :: o2 -> Forall (fun x => ~ is_call x) o2.
Proof.
  intros Hx. assert ((OCleanup ∈ outs h -> over s) /\ forall o1 o2, outs h = o1 ++ OCleanup :: o2 -> Forall (fun x => ~ is_call x) o2) as [_ H]; [|apply H].
  revert h s Hx. apply (exec_ind_r (step cf) (init cs a) (fun h s => (OCleanup ∈ outs h -> over s) /\ forall o1 o2, outs h = o1 ++ OCleanup :: o2 -> Forall (fun x => ~ is_call x) o2)).
  - split; [intros H; by apply elem_of_nil in H|]. intros p q H. by destruct p.
  - intros h s e o s' Hx [IH1 IH2] Hs. pose proof (pinv_life _ _ _ _ _ Hx) as HI. rewrite outs_snoc. split.
    + intros [H|H]%elem_of_app; [|by eapply cleanup_when]. eapply over_step; [by apply IH1|done].
    + intros p q E. apply app_eq_app in E as (m & [[E1 E2]|[E1 E2]]).
      * destruct m as [|x m].
        { rewrite app_nil_r in E1. cbn in E2. assert (OCleanup ∈ o) as Hc by (rewrite <- E2; left). destruct (cleanup_when _ _ _ _ _ HI Hs Hc) as (_ & r & -> & Hr). by injection E2 as ->. }
        injection E2 as <- ->. apply Forall_app. split; [by apply (IH2 p)|]. eapply over_step; [|done]. apply IH1. rewrite E1. apply elem_of_app. right. left.
      * assert (OCleanup ∈ o) as Hc by (rewrite E2; apply elem_of_app; right; left). destruct (cleanup_when _ _ _ _ _ HI Hs Hc) as (_ & r & -> & Hr).
        destruct m as [|x m]; [by injection E2 as ->|]. injection E2 as <- E2. rewrite E2 in Hr. apply Forall_app in Hr as [_ Hr]. by inversion_clear Hr.
Qed.
Lemma only_ready cf cs a h s : suspends cf = false -> life cf cs a h s -> forall n r, OStart n r ∈ outs h \/ OStop n r ∈ outs h -> r = true.
Proof.
  intros Hsu. revert h s. apply (exec_ind_r (step cf) (init cs a) (fun h s => forall n r, OStart n r ∈ outs h \/ OStop n r ∈ outs h -> r = true)).
  - intros n r [H|H]; by apply elem_of_nil in H.
  - intros h s e o s' Hx IH Hs n r H. rewrite outs_snoc, !elem_of_app in H. pose proof (pinv_life _ _ _ _ _ Hx) as HI.
    assert (Hr : forall x, x ∈ o -> is_call x -> ready s = true).
    { intros x Hx' Hc. destruct (call_when _ _ _ _ _ _ Hs Hx' Hc) as (H1 & H2 & H3 & _). unfold pinv in HI. unfold suspended in H1. destruct (at_ s) as [l| |c l|c].
      - destruct HI as (k & Hk & -> & E1 & E2 & E3 & E4 & E5 & E6 & E7 & E8 & _). destruct k as [|[|[|[|[|[|[|k]]]]]]]; try (cbn in H1; congruence). by rewrite E8.
      - tauto.
      - destruct HI as (j & _ & _ & _ & _ & _ & _ & _ & _ & _ & Hrd & _). auto.
      - done. }
    destruct H as [[H|H]|[H|H]]; [eauto| |eauto|]; pose proof (Hr _ H I) as E; destruct (call_when _ _ _ _ _ _ Hs H I) as (_ & _ & _ & n' & ok & c & _ & _ & _ & _ & [X|X]); congruence.
Qed.

(** * The queue *)
Lemma setup_loaded k : k < 9 -> ILoad ∉ drop k setup_prog <-> 6 <= k.
Proof.
  intros Hk. destruct k as [|[|[|[|[|[|[|[|[|k]]]]]]]]]; [..|lia]; (split; [intros H; first [lia|exfalso; apply H; by repeat (apply elem_of_list_here || apply elem_of_list_further)]|]);
    intros H Hin; try lia; repeat (apply elem_of_cons in Hin as [Hin|Hin]; [discriminate Hin|]); by apply elem_of_nil in Hin.
Qed.
Lemma qinv_init cf cs a : qinv cf (init cs a).
Proof. split; [|done]. intros H. exfalso. apply (setup_loaded 0) in H; lia. Qed.
Lemma turn_clusters cf n c ok s s' o : turn cf n c ok s = (s', o) -> clusters s !! n = Some c ->
  (forall m, m <> n -> clusters s' !! m = clusters s !! m) /\ (forall m, m <> n -> m ∈ queued s -> m ∈ queued s') /\
  exists c', clusters s' !! n = Some c' /\ (is_open c = false -> c' = c) /\ (c_wanted c = false -> is_open c' = false) /\ (is_open c' = true -> c_wanted c' = false -> n ∈ queued s').
Proof.
  intros H Hc. unfold turn in H.
  destruct c as [[] [] ap]; cbn [c_st c_wanted c_app negb] in H; try destruct (ok && _); injection H as <- <-; cbn [set_clusters clusters queued];
    (split; [intros m Hm; by rewrite ?lookup_insert_ne by done|]); (split; [intros m Hm Hq; set_solver|]);
    eexists; (split; [by rewrite ?lookup_insert|]); (split; [try done|]); (split; [try done|]); cbn; try done; intros; set_solver.
Qed.
Lemma kprog_stop j : j < 9 -> KStop ∉ drop j cleanup_prog <-> 3 <= j.
Proof.
  intros Hk. destruct j as [|[|[|[|[|[|[|[|[|k]]]]]]]]]; [..|lia]; (split; [intros H; first [lia|exfalso; apply H; by repeat (apply elem_of_list_here || apply elem_of_list_further)]|]);
    intros H Hin; try lia; repeat (apply elem_of_cons in Hin as [Hin|Hin]; [discriminate Hin|]); by apply elem_of_nil in Hin.
Qed.
Lemma kprog_wait j : j < 9 -> KWait ∉ drop j cleanup_prog <-> 4 <= j.
Proof.
  intros Hk. destruct j as [|[|[|[|[|[|[|[|[|k]]]]]]]]]; [..|lia]; (split; [intros H; first [lia|exfalso; apply H; by repeat (apply elem_of_list_here || apply elem_of_list_further)]|]);
    intros H Hin; try lia; repeat (apply elem_of_cons in Hin as [Hin|Hin]; [discriminate Hin|]); by apply elem_of_nil in Hin.
Qed.
