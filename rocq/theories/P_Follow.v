(** C155: the client's view of a cluster's workers. *)
From Coq Require Import Lia.
From stdpp Require Import prelude gmap.
From Verif Require Import Follow_Model Follow_Proofs.
Local Open Scope nat_scope.

(** What the client shows were the scheduler's workers, all of them together, at some moment. *)
Theorem C155_view : forall es m, c_info (run es) = Some m ->
  exists es1 es2, es = es1 ++ es2 /\ s_workers (run es1) = m.
Proof. intros es m. apply inv_info, run_inv. Qed.
(** Once the client has read everything, they are the scheduler's present ones. *)
Theorem C155_caught_up : forall es, c_task (run es) = Watching -> s_wire (run es) = [] -> s_buffer (run es) = [] ->
  c_info (run es) = Some (s_workers (run es)).
Proof.
  intros es Ht Hw Hb. destruct (run_inv es) as [_ H]. rewrite Ht, Hw, Hb in H. destruct H as (_ & m & -> & _ & [_ E]).
  cbn in E. by injection E as ->.
Qed.
(** From everywhere, as long as the connection holds, that comes about by sending and reading. *)
Theorem C155_delivered : forall es k, c_task (run es) <> Over -> s_subscribed (run es) = true -> S (length (s_wire (run es))) <= k ->
  c_info (run (es ++ Flush :: replicate k Read)) = Some (s_workers (run es)).
Proof.
  intros es k Ht Hs Hk.
  change (Flush :: replicate k Read) with ([Flush] ++ replicate k Read). rewrite app_assoc, run_app.
  pose proof (run_inv (es ++ [Flush])) as H. pose proof (run_snoc es Flush) as E. set (s := run (es ++ [Flush])) in *.
  assert (Hf : s_buffer s = [] /\ length (s_wire s) <= S (length (s_wire (run es))) /\ c_task s = c_task (run es) /\
               s_subscribed s = true /\ s_workers s = s_workers (run es)).
  { rewrite E. cbn. destruct (s_buffer (run es)) eqn:Eb; cbn; [repeat split; auto|]. rewrite app_length. cbn. repeat split; auto; lia. }
  destruct Hf as (Hb & Hl & Ht' & Hs' & Hw). rewrite <- Ht' in Ht. rewrite <- Hw.
  destruct H as [_ H]. destruct (c_task s) eqn:Et; [| |done].
  - destruct H as [_ H]. destruct (H Hs') as (m & r & Ew & Hr & T). rewrite Hb, app_nil_r in T.
    rewrite Ew in Hl. destruct k as [|k]; [lia|]. cbn [replicate fold_left].
    assert (Es : step s Read = State (s_workers s) (s_buffer s) r (s_subscribed s) (Some m) Watching (c_widget s)).
    { cbn. by rewrite Et, Ew. }
    rewrite Es. cbn in Hl.
    apply (reads_all (State _ _ _ _ _ _ _) k) with (es := es ++ [Flush]) (m := m); cbn; [done|done|lia|done|done].
  - destruct H as (_ & m & Ei & Hr & T). rewrite Hb, app_nil_r in T.
    by apply (reads_all s k Hr Et ltac:(lia) (es ++ [Flush]) m).
Qed.
(** Watching ends only if the connection breaks or the cluster object is closed: a worker to be
    removed is always known. *)
Theorem C155_survives : forall es, c_task (run es) = Over -> Break ∈ es \/ Close ∈ es.
Proof. intros es H. destruct (run_inv es) as [_ I]. rewrite H in I. apply I. Qed.

(** The widget's numbers: as many workers as there are, the sum of their threads, the sum of
    their memory limits. *)
Theorem C155_numbers : forall l : list (nat * worker), NoDup l.*1 ->
  widget_status (list_to_map l) = Numbers (length l) (sum_list (map (fun p => w_threads p.2) l)) (sum_list (map (fun p => w_memory p.2) l)).
Proof.
  intros l. unfold widget_status, workers. induction l as [|[a w] l IH]; intros Hd; [done|].
  apply NoDup_cons in Hd as [Ha Hd]. specialize (IH Hd). injection IH as E1 E2 E3.
  assert (Hn : (list_to_map l : gmap nat worker) !! a = None) by (by apply not_elem_of_list_to_map_1).
  change (list_to_map ((a, w) :: l)) with (<[a := w]> (list_to_map l : gmap nat worker)).
  cbn [length map sum_list fst snd]. f_equal.
  - rewrite map_size_insert_None by done. by rewrite E1.
  - rewrite map_fold_insert_L; [by rewrite E2|intros; lia|done].
  - rewrite map_fold_insert_L; [by rewrite E3|intros; lia|done].
Qed.
(** They are always those of workers the scheduler had at some moment. *)
Theorem C155_widget : forall es v, c_widget (run es) = Shown v \/ c_widget (run es) = Making v ->
  exists es1 es2, es = es1 ++ es2 /\ v = widget_status (s_workers (run es1)).
Proof.
  intros es v. enough (c_widget (run es) = Shown v \/ c_widget (run es) = Making v -> exists m, was es m /\ v = widget_status m) as H.
  { intros Hv. destruct (H Hv) as (m & (a & b & Ee & <-) & Em). eauto. }
  revert v. induction es as [|e es IH] using rev_ind; intros v; [by intros []|].
  assert (K : forall e, c_widget (run es) = Shown v \/ c_widget (run es) = Making v -> exists m, was (es ++ [e]) m /\ v = widget_status m).
  { intros e' H. destruct (IH v H) as (m & ? & ?). exists m. eauto using was_app. }
  pose proof (run_inv (es ++ [e])) as I. pose proof (inv_info (es ++ [e]) (run (es ++ [e]))) as W.
  rewrite run_snoc in *.
  destruct e as [a w|a| | | | | | |]; cbn [step] in *.
  - destruct (s_workers (run es) !! a); apply K.
  - destruct (s_workers (run es) !! a); apply K.
  - destruct (s_subscribed (run es)); apply K.
  - destruct (s_buffer (run es)); apply K.
  - destruct (c_task (run es)); destruct (s_wire (run es)) as [|[m|l] r]; try apply K.
    destruct (c_info (run es)) as [m|]; [|apply K]. destruct (apply l m) as [m' ok].
    cbn. destruct (c_widget (run es)) as [|x|x] eqn:Ex; [by intros []| |].
    + rewrite <- Ex. rewrite Ex. apply K.
    + destruct ok; [|apply K]. intros [H|H]; [|done]. injection H as <-. exists m'. split; [|done].
      apply (W m'); done.
  - apply K.
  - apply K.
  - destruct (c_widget (run es)) eqn:Ex; [|rewrite Ex; apply K..]. destruct (c_info (run es)) as [m|] eqn:Ei; [|cbn in *; rewrite Ex; by intros []].
    cbn. intros [H|H]; [done|]. injection H as <-. exists m. split; [|done]. by apply (W m).
  - destruct (c_widget (run es)) as [|x|x] eqn:Ex; [rewrite Ex; by intros []| |rewrite Ex; apply K].
    cbn. intros [H|H]; [|done]. injection H as <-. apply (K KeepWidget). by right.
Qed.
(** If nothing is read while the widget is being made, it always shows the numbers of what the
    client knows. *)
Theorem C155_widget_current : forall es es' m, c_widget (run es) = NoWidget -> c_info (run es) = Some m ->
  exists m', c_info (run (es ++ MakeWidget :: KeepWidget :: es')) = Some m' /\
             c_widget (run (es ++ MakeWidget :: KeepWidget :: es')) = Shown (widget_status m').
Proof.
  intros es es' m Hw Hi. induction es' as [|e es' IH] using rev_ind.
  - exists m. change [MakeWidget; KeepWidget] with ([MakeWidget] ++ [KeepWidget]). rewrite app_assoc, !run_snoc. cbn. by rewrite Hw, Hi.
  - replace (es ++ MakeWidget :: KeepWidget :: es' ++ [e]) with ((es ++ MakeWidget :: KeepWidget :: es') ++ [e]) by (by rewrite <- app_assoc).
    set (h := es ++ MakeWidget :: KeepWidget :: es') in *. pose proof (run_inv h) as [_ I]. rewrite run_snoc.
    destruct IH as (m' & Ei & Ew).
    destruct e as [a w|a| | | | | | |]; cbn [step].
    + exists m'. by destruct (s_workers (run h) !! a).
    + exists m'. by destruct (s_workers (run h) !! a).
    + exists m'. by destruct (s_subscribed (run h)).
    + exists m'. by destruct (s_buffer (run h)).
    + destruct (c_task (run h)) eqn:Et.
      * destruct I; congruence.
      * destruct I as (_ & m2 & E2 & Hb & T). destruct (s_wire (run h)) as [|[m3|l] r] eqn:E; [by exists m'|by exists m'|].
        change (ops (Batch l :: r)) with (l ++ ops r) in T. rewrite <- app_assoc in T. apply track_split in T as (m4 & Em & _).
        rewrite E2, Em, Ew. by exists m4.
      * exists m'. by destruct (s_wire (run h)) as [|[] ?].
    + by exists m'.
    + by exists m'.
    + exists m'. by rewrite Ew.
    + exists m'. by rewrite Ew.
Qed.

Ltac cal := apply (bool_decide_unpack _); vm_compute; exact I.
Definition w1 := Worker 2 10.
Definition w2 := Worker 1 5.
Definition es0 : list event := [Arrive 1 w1; Subscribe; Arrive 2 w2; Leave 1; Flush; Arrive 1 w2; Flush; Read; MakeWidget; KeepWidget].
Example C155_case : c_task (run es0) = Watching /\ c_info (run es0) = Some {[1 := w1]} /\ s_subscribed (run es0) = true /\
  length (s_wire (run es0)) = 2 /\ c_widget (run es0) = Shown (Numbers 1 2 10) /\
  c_info (run (es0 ++ [Read])) = Some {[2 := w2]} /\
  c_info (run (es0 ++ [Read; Read])) = Some {[1 := w2; 2 := w2]} /\ c_widget (run (es0 ++ [Read; Read])) = Shown (Numbers 2 2 10).
Proof. repeat split; first [solve [cal]|vm_compute; reflexivity]. Qed.

(** False: the client's view follows the scheduler's workers until the object is closed.  After
    the connection broke it stays as it was whatever happens: nothing connects again. *)
Lemma over_frozen s es : c_task s = Over -> c_task (fold_left step es s) = Over /\ c_info (fold_left step es s) = c_info s.
Proof.
  revert s. induction es as [|e es IH]; intros s H; [done|]. cbn [fold_left].
  assert (E : c_task (step s e) = Over /\ c_info (step s e) = c_info s).
  { destruct e; cbn.
    - by destruct (s_workers s !! a).
    - by destruct (s_workers s !! a).
    - by destruct (s_subscribed s).
    - by destruct (s_buffer s).
    - rewrite H. by destruct (s_wire s) as [|[] ?].
    - done.
    - done.
    - by destruct (c_widget s), (c_info s) eqn:?.
    - by destruct (c_widget s). }
  destruct E as [E1 <-]. by apply IH.
Qed.
Theorem C155_broken_refuted : exists es, Close ∉ es /\ s_workers (run es) = {[1 := w1; 2 := w2]} /\
  forall es', c_info (run (es ++ es')) = Some {[1 := w1]}.
Proof.
  exists [Arrive 1 w1; Subscribe; Read; Break; Arrive 2 w2]. split; [|split].
  - rewrite !not_elem_of_cons. repeat split; try discriminate. apply not_elem_of_nil.
  - cal.
  - intros es'. rewrite run_app. destruct (over_frozen (run [Arrive 1 w1; Subscribe; Read; Break; Arrive 2 w2]) es') as [_ ->]; [vm_compute; reflexivity|cal].
Qed.
(** False: the widget shows the present numbers once everything is read.  What is read in the
    loop's thread while the user's thread makes the widget is not shown until workers change again. *)
Theorem C155_stale_refuted : exists es, c_task (run es) = Watching /\ s_wire (run es) = [] /\ s_buffer (run es) = [] /\
  s_workers (run es) = {[1 := w1; 2 := w2]} /\
  forall es', (forall e, e ∈ es' -> e = Flush \/ e = Read \/ e = MakeWidget \/ e = KeepWidget) ->
    c_widget (run (es ++ es')) = Shown (Numbers 1 2 10).
Proof.
  set (es := [Arrive 1 w1; Subscribe; Read; MakeWidget; Arrive 2 w2; Flush; Read; KeepWidget]).
  exists es. do 3 (split; [vm_compute; reflexivity|]). split; [cal|]. intros es' H. rewrite run_app.
  enough (fold_left step es' (run es) = run es) as -> by (vm_compute; reflexivity).
  induction es' as [|e es' IH]; [done|]. cbn [fold_left].
  assert (step (run es) e = run es) as ->.
  { destruct (H e ltac:(left)) as [-> |[-> |[-> | ->]]]; vm_compute; reflexivity. }
  apply IH. intros x Hx. apply H. by right.
Qed.

Print Assumptions C155_view.
Print Assumptions C155_caught_up.
Print Assumptions C155_delivered.
Print Assumptions C155_survives.
Print Assumptions C155_numbers.
Print Assumptions C155_widget.
Print Assumptions C155_widget_current.
Print Assumptions C155_broken_refuted.
Print Assumptions C155_stale_refuted.
