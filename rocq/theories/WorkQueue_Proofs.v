(** Proofs about the work queue model. *)
From Coq Require Import ZArith Lia.
From stdpp Require Import base list gmap sets fin_maps.
From Verif Require Import Trace WorkQueue_Model WorkQueue_Spec.

Section proofs.
Context {A : Type} `{Countable A}.
Implicit Types (h : history A) (x y : A) (s : wq A) (e : event A).

(** ** wakeups touch only [waiting] and [tasks] *)
Lemma wakeup_next_fields s :
  base_delay (wakeup_next s) = base_delay s /\ max_delay (wakeup_next s) = max_delay s /\
  failures_ (wakeup_next s) = failures_ s /\ queue (wakeup_next s) = queue s /\
  processing (wakeup_next s) = processing s /\ dirty (wakeup_next s) = dirty s /\
  timers (wakeup_next s) = timers s /\ closed (wakeup_next s) = closed s.
Proof. unfold wakeup_next. destruct (wakeup_next_aux _ _). simpl. auto 10. Qed.

(** The part of the state that decides hand-outs. *)
Definition same_core s s' : Prop :=
  queue s' = queue s /\ processing s' = processing s /\ dirty s' = dirty s /\ timers s' = timers s.

Lemma queue_wakeup s : queue (wakeup_next s) = queue s. Proof. apply wakeup_next_fields. Qed.
Lemma processing_wakeup s : processing (wakeup_next s) = processing s. Proof. apply wakeup_next_fields. Qed.
Lemma dirty_wakeup s : dirty (wakeup_next s) = dirty s. Proof. apply wakeup_next_fields. Qed.
Lemma timers_wakeup s : timers (wakeup_next s) = timers s. Proof. apply wakeup_next_fields. Qed.
Lemma closed_wakeup s : closed (wakeup_next s) = closed s. Proof. apply wakeup_next_fields. Qed.
Lemma failures_wakeup s : failures_ (wakeup_next s) = failures_ s. Proof. apply wakeup_next_fields. Qed.
Lemma base_wakeup s : base_delay (wakeup_next s) = base_delay s. Proof. apply wakeup_next_fields. Qed.
Lemma max_wakeup s : max_delay (wakeup_next s) = max_delay s. Proof. apply wakeup_next_fields. Qed.

Hint Rewrite queue_wakeup processing_wakeup dirty_wakeup timers_wakeup closed_wakeup failures_wakeup base_wakeup max_wakeup : wk.

(** ** effect of put on the core *)
Lemma put_core x s :
  processing (put x s) = processing s /\ timers (put x s) = timers s /\
  dirty (put x s) = {[x]} ∪ dirty s /\
  queue (put x s) = (if decide (x ∈ dirty s) then queue s
                     else if decide (x ∈ processing s) then queue s else queue s ++ [x]).
Proof.
  unfold put. autorewrite with wk. unfold put_.
  destruct (decide (x ∈ dirty s)) as [Hd|Hd]; simpl.
  - repeat split; auto. set_solver.
  - destruct (decide (x ∈ processing s)); simpl; auto.
Qed.

Lemma put_closed x s : closed (put x s) = closed s.
Proof. unfold put. autorewrite with wk. unfold put_. repeat (case_decide; simpl; auto). Qed.
Lemma put_failures x s : failures_ (put x s) = failures_ s.
Proof. unfold put. autorewrite with wk. unfold put_. repeat (case_decide; simpl; auto). Qed.
Lemma put_base x s : base_delay (put x s) = base_delay s.
Proof. unfold put. autorewrite with wk. unfold put_. repeat (case_decide; simpl; auto). Qed.
Lemma put_max x s : max_delay (put x s) = max_delay s.
Proof. unfold put. autorewrite with wk. unfold put_. repeat (case_decide; simpl; auto). Qed.

(** ** classification of steps on the core *)
Inductive core_step (s s' : wq A) : event A -> option (out A) -> Prop :=
| cs_same e o : same_core s s' -> (forall x, hands_out x (e, o) = false) ->
    (forall x, is_done x (e, o) = false) -> core_step s s' e o
| cs_put x e : queue s' = (if decide (x ∈ dirty s) then queue s
                     else if decide (x ∈ processing s) then queue s else queue s ++ [x]) ->
    processing s' = processing s -> dirty s' = {[x]} ∪ dirty s ->
    (timers s' = timers s \/ timers s' = delete x (timers s)) ->
    (forall y, is_done y (e, None) = false) ->
    core_step s s' e None
| cs_timer x w e : queue s' = queue s -> processing s' = processing s -> dirty s' = dirty s ->
    timers s' = <[x := w]> (timers s) ->
    (forall y, is_done y (e, None) = false) -> core_step s s' e None
| cs_get x q c e : queue s = x :: q -> closed s = false -> queue s' = q -> processing s' = {[x]} ∪ processing s ->
    dirty s' = dirty s ∖ {[x]} -> timers s' = timers s -> (e = EGet c \/ e = EResume c) ->
    core_step s s' e (Some (Returned c (Item x)))
| cs_done x : queue s' = (if decide (x ∈ dirty s) then queue s ++ [x] else queue s) ->
    processing s' = processing s ∖ {[x]} -> dirty s' = dirty s -> timers s' = timers s ->
    core_step s s' (ETaskDone x) None.

Lemma get_turn_cases c s s' r :
  get_turn c s = (s', r) ->
  (exists x q, queue s = x :: q /\ closed s = false /\ queue s' = q /\ processing s' = {[x]} ∪ processing s /\
     dirty s' = dirty s ∖ {[x]} /\ timers s' = timers s /\ waiting s' = waiting s /\
     tasks s' = delete c (tasks s) /\ r = Some (Item x)) \/
  (same_core s s' /\ tasks s' = delete c (tasks s) /\ waiting s' = waiting s /\ r = Some ClosedError /\ closed s = true) \/
  (same_core s s' /\ queue s = [] /\ closed s = false /\ tasks s' = <[c := Blocked]> (tasks s) /\
     waiting s' = waiting s ++ [c] /\ r = None).
Proof.
  unfold get_turn, get_. destruct (queue s) as [|x q] eqn:Hq.
  - destruct (closed s) eqn:Hc; intros [= <- <-]; simpl.
    + right; left. unfold same_core; simpl; auto.
    + right; right. unfold same_core; simpl; auto 10.
  - destruct (closed s) eqn:Hc; intros [= <- <-]; simpl.
    + right; left. unfold same_core; simpl; auto.
    + left. exists x, q. auto 10.
Qed.

Lemma get_turn_const c s s' r :
  get_turn c s = (s', r) ->
  closed s' = closed s /\ failures_ s' = failures_ s /\ base_delay s' = base_delay s /\ max_delay s' = max_delay s.
Proof.
  unfold get_turn, get_. destruct (queue s) as [|x q]; destruct (closed s) eqn:Hc;
    intros [= <- <-]; simpl; auto.
Qed.

Lemma step_core s e s' o : step s e = (s', o) -> core_step s s' e o.
Proof.
  destruct e as [x|now x d|now x|x|now x|c|c|c|x|]; simpl.
  - intros [= <- <-]. pose proof (put_core x s) as (Hp & Ht & Hd & Hq). eapply (cs_put _ _ x); auto.
  - intros [= <- <-]. unfold put_after.
    set (go := if (0 <? d)%Z then _ else _).
    assert (core_step s go (EPutAfter now x d) None) as Hgo.
    { unfold go. destruct (0 <? d)%Z.
      - eapply cs_timer; simpl; auto.
      - pose proof (put_core x (set_timers (delete x (timers s)) s)) as (Hp & Ht & Hd & Hq).
        simpl in *. eapply (cs_put _ _ x); simpl; auto. }
    destruct (timers s !! x) as [w|]; [|exact Hgo].
    destruct (_ <? w)%Z; [exact Hgo|]. apply cs_same; auto. repeat split.
  - unfold put_backoff, backoff. intros [= <- <-].
    set (s1 := set_failures _ s). set (d := backoff_delay _ _ _).
    unfold put_after. set (go := if (0 <? d)%Z then _ else _).
    assert (core_step s go (EPutBackoff now x) None) as Hgo.
    { unfold go. destruct (0 <? d)%Z.
      - eapply cs_timer; simpl; auto.
      - pose proof (put_core x (set_timers (delete x (timers s1)) s1)) as (Hp & Ht & Hd & Hq).
        simpl in *. eapply (cs_put _ _ x); simpl; auto. }
    destruct (timers s1 !! x) as [w|]; [|exact Hgo].
    destruct (_ <? w)%Z; [exact Hgo|]. apply cs_same; auto. repeat split.
  - intros [= <- <-]. apply cs_same; auto. repeat split.
  - destruct (timers s !! x) as [w|]; [|intros [= <- <-]; apply cs_same; auto; repeat split].
    destruct (w <=? now)%Z; [|intros [= <- <-]; apply cs_same; auto; repeat split].
    intros [= <- <-]. unfold put_delayed.
    pose proof (put_core x (set_timers (delete x (timers s)) s)) as (Hp & Ht & Hd & Hq). simpl in *.
    eapply (cs_put _ _ x); simpl; auto.
  - destruct (tasks s !! c) eqn:Htc; [intros [= <- <-]; apply cs_same; auto; repeat split|].
    destruct (get_turn c s) as [s1 r] eqn:Hg. pose proof (get_turn_cases _ _ _ _ Hg) as Hc.
    destruct Hc as [(x&q&Hq&Hcl&Hq'&Hp&Hd&Ht&_&_&->)|[(Hsc&_&_&->&_)|(Hsc&_&_&_&_&->)]]; simpl; intros [= <- <-].
    + eapply cs_get; eauto.
    + apply cs_same; auto.
    + apply cs_same; auto.
  - destruct (tasks s !! c) as [[]|] eqn:Htc; try (intros [= <- <-]; apply cs_same; auto; repeat split).
    destruct (get_turn c s) as [s1 r] eqn:Hg. pose proof (get_turn_cases _ _ _ _ Hg) as Hc.
    destruct Hc as [(x&q&Hq&Hcl&Hq'&Hp&Hd&Ht&_&_&->)|[(Hsc&_&_&->&_)|(Hsc&_&_&_&_&->)]]; simpl; intros [= <- <-].
    + eapply cs_get; eauto.
    + apply cs_same; auto.
    + apply cs_same; auto.
  - destruct (tasks s !! c) eqn:Htc; intros [= <- <-]; apply cs_same; auto; repeat split.
  - intros [= <- <-]. unfold task_done.
    destruct (decide (x ∈ dirty (set_processing (processing s ∖ {[x]}) s))) as [Hin|Hin]; simpl in Hin.
    + apply cs_done; autorewrite with wk; simpl; auto. rewrite decide_True; auto.
    + apply cs_done; simpl; auto. rewrite decide_False; auto.
  - intros [= <- <-]. unfold close, wakeup_all. apply cs_same; auto. repeat split.
Qed.

(** ** held *)
Lemma held_snoc x h eo :
  held x (h ++ [eo]) = (if hands_out x eo then true else if is_done x eo then false else held x h).
Proof. unfold held. rewrite fold_left_app. reflexivity. Qed.

Lemma hands_out_none x e : hands_out x (e, None) = false. Proof. reflexivity. Qed.

(** ** the core invariant *)
Record Inv (h : history A) (s : wq A) : Prop := {
  i_nodup : NoDup (queue s);
  i_q : forall x, x ∈ queue s -> x ∈ dirty s /\ x ∉ processing s;
  i_d : forall x, x ∈ dirty s -> x ∈ queue s \/ x ∈ processing s;
  i_p : forall x, x ∈ processing s <-> held x h = true }.

Lemma Inv_init base mx : Inv [] (init base mx).
Proof. constructor; simpl; [constructor|set_solver..|]. unfold held; simpl. set_solver. Qed.

Definition ok_done (h : history A) e : Prop :=
  match e with ETaskDone x => held x h = true | _ => True end.

Lemma Inv_step h s e s' o : Inv h s -> ok_done h e -> step s e = (s', o) -> Inv (h ++ [(e, o)]) s'.
Proof.
  intros [Hn Hq Hd Hp] Hok Hst. apply step_core in Hst.
  destruct Hst as [e o (E1&E2&E3&E4) Hh Hdn|x e E1 E2 E3 E4 Hdn|x w e E1 E2 E3 E4 Hdn|x q c e E0 Hcl E1 E2 E3 E4 He|x E1 E2 E3 E4].
  - constructor; rewrite ?E1, ?E2, ?E3; auto.
    intros x. rewrite held_snoc, Hh, Hdn. auto.
  - constructor; rewrite ?E1, ?E2, ?E3.
    + case_decide as Hx1; [done|]. case_decide as Hx2; [done|].
      apply NoDup_app. split; [done|]. split; [|apply NoDup_singleton].
      intros y Hy. rewrite elem_of_list_singleton. intros ->. apply Hq in Hy as [??]. done.
    + intros y. case_decide as Hx1; [|case_decide as Hx2].
      * intros Hy. apply Hq in Hy. set_solver.
      * intros Hy. apply Hq in Hy. set_solver.
      * rewrite elem_of_app, elem_of_list_singleton. intros [Hy| ->]; [apply Hq in Hy; set_solver|set_solver].
    + intros y Hy. apply elem_of_union in Hy as [Hy|Hy].
      * apply elem_of_singleton in Hy as ->. case_decide as Hx1; [auto|]. case_decide as Hx2; [auto|].
        left. set_solver.
      * apply Hd in Hy as [Hy|Hy]; [left|auto]. case_decide as Hx1; [auto|]. case_decide as Hx2; [auto|]. set_solver.
    + intros y. rewrite held_snoc, hands_out_none, Hdn. auto.
  - constructor; rewrite ?E1, ?E2, ?E3; auto.
    intros y. rewrite held_snoc, hands_out_none, Hdn. auto.
  - rewrite E0 in Hn. apply NoDup_cons in Hn as [Hxq Hnq].
    constructor; rewrite ?E1, ?E2, ?E3.
    + done.
    + intros y Hy. assert (y <> x) by set_solver.
      destruct (Hq y) as [??]; [rewrite E0; set_solver|]. set_solver.
    + intros y Hy. apply elem_of_difference in Hy as [Hy Hyx].
      apply Hd in Hy as [Hy|Hy]; [|set_solver]. rewrite E0 in Hy. set_solver.
    + intros y. rewrite held_snoc. simpl. unfold hands_out; simpl.
      case_bool_decide as Hyx.
      * subst. set_solver.
      * assert (is_done y (e, Some (Returned c (Item x))) = false) as ->.
        { unfold is_done; simpl. destruct He as [-> | ->]; reflexivity. }
        rewrite <- Hp. set_solver.
  - simpl in Hok. assert (x ∈ processing s) as Hxp by (apply Hp; done).
    assert (x ∉ queue s) as Hxq by (intros Hx; apply Hq in Hx; set_solver).
    constructor; rewrite ?E1, ?E2, ?E3.
    + case_decide as Hx1; [|done]. apply NoDup_app. split; [done|]. split; [|apply NoDup_singleton].
      set_solver.
    + intros y. case_decide as Hx1.
      * rewrite elem_of_app, elem_of_list_singleton. intros [Hy| ->]; [apply Hq in Hy; set_solver|set_solver].
      * intros Hy. apply Hq in Hy. set_solver.
    + intros y Hy. destruct (decide (y = x)) as [->|Hne].
      * rewrite decide_True by done. set_solver.
      * apply Hd in Hy as [Hy|Hy]; [left; case_decide; set_solver|right; set_solver].
    + intros y. rewrite held_snoc, hands_out_none. unfold is_done; simpl.
      case_bool_decide as Hyx; [subst; set_solver|]. rewrite <- Hp. set_solver.
Qed.

Lemma proper_ok h : proper_use h -> forall h1 e o h2, h = h1 ++ (e, o) :: h2 -> ok_done h1 e.
Proof. intros Hu h1 e o h2 ->. destruct e; simpl; auto. eapply Hu. reflexivity. Qed.

Lemma Inv_exec base mx h s : exec step (init base mx) h s -> proper_use h -> Inv h s.
Proof.
  intros Hx Hu. eapply (exec_inv step (init base mx) ok_done Inv).
  - apply Inv_init.
  - intros; eapply Inv_step; eauto.
  - exact Hx.
  - apply proper_ok. exact Hu.
Qed.

Lemma proper_use_app_l h1 h2 : proper_use (h1 ++ h2) -> proper_use h1.
Proof. intros Hu a x o b ->. apply (Hu a x o (b ++ h2)). rewrite <- app_assoc. reflexivity. Qed.

(** ** C01 *)
Lemma exclusive base mx h s : exec step (init base mx) h s -> proper_use h ->
  forall h1 e c x h2, h = h1 ++ (e, Some (Returned c (Item x))) :: h2 -> held x h1 = false.
Proof.
  intros Hx Hu h1 e c x h2 ->.
  apply exec_app in Hx as (m & H1 & H2). inversion H2 as [|? ? ? s1 ? ? He Hr]; subst.
  apply proper_use_app_l in Hu as Hu1.
  pose proof (Inv_exec _ _ _ _ H1 Hu1) as [Hn Hq Hd Hp].
  apply step_core in He. inversion He as [? ? _ Hh _| | |y q c' e' E0 _ _ _ _ _ _|]; subst.
  - specialize (Hh x). unfold hands_out in Hh; simpl in Hh. rewrite bool_decide_true in Hh by done. discriminate.
  - destruct (held x h1) eqn:Hheld; [|done]. apply Hp in Hheld.
    destruct (Hq x) as [_ Hnp]; [rewrite E0; set_solver|]. done.
Qed.

(** ** C02/C04: a request survives until the item is handed out *)
Definition deadline_met (d : option Z) (w : Z) : Prop := match d with None => False | Some t => (w <= t)%Z end.

Definition waiting_for (d : option Z) x s : Prop :=
  x ∈ dirty s \/ exists w, timers s !! x = Some w /\ deadline_met d w.

Lemma waiting_for_timers_eq d x s s' :
  dirty s' = dirty s -> timers s' = timers s -> waiting_for d x s -> waiting_for d x s'.
Proof. unfold waiting_for. intros -> ->. auto. Qed.

Lemma put_waiting_for d x s : waiting_for d x (put x s).
Proof. left. pose proof (put_core x s) as (_&_&->&_). set_solver. Qed.

Lemma put_mono d x y s : waiting_for d x s -> waiting_for d x (put y s).
Proof.
  pose proof (put_core y s) as (_&Ht&Hd&_). intros [Hx|(w&Hw&Hm)].
  - left. rewrite Hd. set_solver.
  - right. exists w. rewrite Ht. auto.
Qed.

Lemma put_after_mono d x now y dl s : waiting_for d x s -> waiting_for d x (put_after now y dl s).
Proof.
  intros Hx. unfold put_after. set (go := if (0 <? dl)%Z then _ else _).
  assert (forall w0, timers s !! y = w0 -> (match w0 with Some w => (now + dl < w)%Z | None => True end) ->
            waiting_for d x go) as Hgo.
  { intros w0 Hw0 Hlt. unfold go. destruct (0 <? dl)%Z eqn:Hdl.
    - destruct Hx as [Hx|(w&Hw&Hm)]; [left; exact Hx|]. right. simpl.
      destruct (decide (x = y)) as [->|Hne].
      + exists (now + dl)%Z. rewrite lookup_insert. split; [done|]. rewrite Hw in Hw0. subst w0.
        destruct d; simpl in *; [lia|done].
      + exists w. rewrite lookup_insert_ne by done. auto.
    - destruct (decide (x = y)) as [->|Hne]; [apply put_waiting_for|]. apply put_mono.
      destruct Hx as [Hx|(w&Hw&Hm)]; [left; exact Hx|]. right. exists w. simpl. rewrite lookup_delete_ne by done. auto. }
  destruct (timers s !! y) as [w0|] eqn:Hw0; [|apply (Hgo None); auto].
  destruct (now + dl <? w0)%Z eqn:Hlt; [|exact Hx]. apply (Hgo (Some w0)); [reflexivity|simpl; lia].
Qed.

Lemma put_after_sets now x dl s : waiting_for (Some (now + dl)%Z) x (put_after now x dl s).
Proof.
  unfold put_after. destruct (timers s !! x) as [w|] eqn:Hw.
  - destruct (now + dl <? w)%Z eqn:Hlt.
    + destruct (0 <? dl)%Z; [|apply put_waiting_for]. right. exists (now + dl)%Z. simpl.
      rewrite lookup_insert. split; [done|simpl; lia].
    + right. exists w. split; [done|]. simpl. lia.
  - destruct (0 <? dl)%Z; [|apply put_waiting_for]. right. exists (now + dl)%Z. simpl.
    rewrite lookup_insert. split; [done|simpl; lia].
Qed.

Lemma waiting_for_step d x s e s' o :
  waiting_for d x s -> step s e = (s', o) -> hands_out x (e, o) = true \/ waiting_for d x s'.
Proof.
  intros Hx. destruct e as [y|now y dl|now y|y|now y|c|c|c|y|]; simpl.
  - intros [= <- <-]. right. apply put_mono, Hx.
  - intros [= <- <-]. right. apply put_after_mono, Hx.
  - unfold put_backoff, backoff. intros [= <- <-]. right. apply put_after_mono, Hx.
  - intros [= <- <-]. right. exact Hx.
  - destruct (timers s !! y) as [w|] eqn:Hw; [|intros [= <- <-]; auto].
    destruct (w <=? now)%Z; [|intros [= <- <-]; auto]. intros [= <- <-]. right. unfold put_delayed.
    destruct (decide (x = y)) as [->|Hne]; [apply put_waiting_for|]. apply put_mono.
    destruct Hx as [Hx|(w'&Hw'&Hm)]; [left; exact Hx|]. right. exists w'. simpl. rewrite lookup_delete_ne by done. auto.
  - destruct (tasks s !! c); [intros [= <- <-]; auto|].
    destruct (get_turn c s) as [s1 r] eqn:Hg. apply get_turn_cases in Hg.
    destruct Hg as [(z&q&Hq&Hcl&Hq'&Hp&Hd&Ht&_&_&->)|[((E1&E2&E3&E4)&_&_&->&_)|((E1&E2&E3&E4)&_&_&_&_&->)]]; simpl; intros [= <- <-].
    + unfold hands_out; simpl. case_bool_decide as Hxz; [auto|]. right.
      destruct Hx as [Hx|(w&Hw&Hm)]; [left; rewrite Hd; set_solver|right; exists w; rewrite Ht; auto].
    + right. eapply waiting_for_timers_eq; eauto.
    + right. eapply waiting_for_timers_eq; eauto.
  - destruct (tasks s !! c) as [[]|]; try (intros [= <- <-]; auto).
    destruct (get_turn c s) as [s1 r] eqn:Hg. apply get_turn_cases in Hg.
    destruct Hg as [(z&q&Hq&Hcl&Hq'&Hp&Hd&Ht&_&_&->)|[((E1&E2&E3&E4)&_&_&->&_)|((E1&E2&E3&E4)&_&_&_&_&->)]]; simpl; intros [= <- <-].
    + unfold hands_out; simpl. case_bool_decide as Hxz; [auto|]. right.
      destruct Hx as [Hx|(w&Hw&Hm)]; [left; rewrite Hd; set_solver|right; exists w; rewrite Ht; auto].
    + right. eapply waiting_for_timers_eq; eauto.
    + right. eapply waiting_for_timers_eq; eauto.
  - destruct (tasks s !! c); intros [= <- <-]; auto.
  - intros [= <- <-]. right. unfold task_done. case_decide; [|exact Hx].
    eapply waiting_for_timers_eq; [| |exact Hx]; autorewrite with wk; reflexivity.
  - intros [= <- <-]. right. exact Hx.
Qed.

Lemma waiting_for_exec d x s h s' :
  waiting_for d x s -> exec step s h s' -> handed_out x h \/ waiting_for d x s'.
Proof.
  intros Hx He. induction He as [s|s e o s1 h s2 He Hr IH]; [auto|].
  destruct (waiting_for_step _ _ _ _ _ _ Hx He) as [Hh|Hx1].
  - left. exists (e, o). split; [set_solver|done].
  - destruct (IH Hx1) as [(eo&Hin&Hh)|Hx2]; [left; exists eo; set_solver|auto].
Qed.

(** ** failure counts *)
Lemma n_failures_snoc x h e o :
  n_failures x (h ++ [(e, o)]) = match e with
      | EPutBackoff _ y => if decide (x = y) then S (n_failures x h) else n_failures x h
      | EResetBackoff y => if decide (x = y) then 0 else n_failures x h
      | _ => n_failures x h end.
Proof. unfold n_failures. rewrite fold_left_app. reflexivity. Qed.

Definition Cst (base mx : Z) h s : Prop :=
  base_delay s = base /\ max_delay s = mx /\ forall x, default 0 (failures_ s !! x) = n_failures x h.

Lemma put_after_const now x d s :
  base_delay (put_after now x d s) = base_delay s /\ max_delay (put_after now x d s) = max_delay s /\
  failures_ (put_after now x d s) = failures_ s /\ closed (put_after now x d s) = closed s.
Proof.
  unfold put_after. destruct (timers s !! x) as [w|]; [destruct (_ <? w)%Z|]; try destruct (0 <? d)%Z;
    rewrite ?put_base, ?put_max, ?put_failures, ?put_closed; simpl; auto.
Qed.

Lemma Cst_step base mx h s e s' o : Cst base mx h s -> step s e = (s', o) -> Cst base mx (h ++ [(e, o)]) s'.
Proof.
  intros (Hb & Hm & Hf) Hst.
  assert (Hsame : base_delay s' = base_delay s -> max_delay s' = max_delay s -> failures_ s' = failures_ s ->
     (forall x, n_failures x (h ++ [(e, o)]) = n_failures x h) -> Cst base mx (h ++ [(e, o)]) s').
  { intros E1 E2 E3 E4. unfold Cst. rewrite E1, E2, E3. split; [done|split; [done|]]. intros x. rewrite E4. auto. }
  destruct e as [y|now y dl|now y|y|now y|c|c|c|y|]; simpl in Hst.
  - injection Hst as <- <-. apply Hsame; rewrite ?put_base, ?put_max, ?put_failures; auto.
    intros x; apply n_failures_snoc.
  - injection Hst as <- <-. pose proof (put_after_const now y dl s) as (E1&E2&E3&_).
    apply Hsame; auto. intros x; apply n_failures_snoc.
  - unfold put_backoff, backoff in Hst. injection Hst as <- <-.
    set (s1 := set_failures _ s). pose proof (put_after_const now y (backoff_delay (base_delay s) (max_delay s) (default 0 (failures_ s !! y))) s1) as (E1&E2&E3&_).
    unfold Cst. rewrite E1, E2, E3. subst s1; simpl. split; [done|split; [done|]].
    intros x. rewrite n_failures_snoc. destruct (decide (x = y)) as [->|Hne].
    + rewrite lookup_insert. simpl. rewrite Hf. done.
    + rewrite lookup_insert_ne by done. auto.
  - injection Hst as <- <-. unfold Cst, reset_backoff; simpl. split; [done|split; [done|]].
    intros x. rewrite n_failures_snoc. destruct (decide (x = y)) as [->|Hne].
    + rewrite lookup_delete. done.
    + rewrite lookup_delete_ne by done. auto.
  - destruct (timers s !! y) as [w|]; [destruct (w <=? now)%Z|]; injection Hst as <- <-; apply Hsame;
      unfold put_delayed; rewrite ?put_base, ?put_max, ?put_failures; auto; intros x; apply n_failures_snoc.
  - destruct (tasks s !! c); [injection Hst as <- <-; apply Hsame; auto; intros x; apply n_failures_snoc|].
    destruct (get_turn c s) as [s1 r] eqn:Hg. apply get_turn_const in Hg as (E1&E2&E3&E4).
    destruct r; simpl in Hst; injection Hst as <- <-; apply Hsame; auto; intros x; apply n_failures_snoc.
  - destruct (tasks s !! c) as [[]|];
      try (injection Hst as <- <-; apply Hsame; auto; intros x; apply n_failures_snoc).
    destruct (get_turn c s) as [s1 r] eqn:Hg. apply get_turn_const in Hg as (E1&E2&E3&E4).
    destruct r; simpl in Hst; injection Hst as <- <-; apply Hsame; auto; intros x; apply n_failures_snoc.
  - destruct (tasks s !! c); injection Hst as <- <-; apply Hsame; auto; intros x; apply n_failures_snoc.
  - injection Hst as <- <-. apply Hsame; try (unfold task_done; case_decide; autorewrite with wk; auto; fail).
    intros x; apply n_failures_snoc.
  - injection Hst as <- <-. apply Hsame; auto; intros x; apply n_failures_snoc.
Qed.

Lemma Cst_exec base mx h s : exec step (init base mx) h s -> Cst base mx h s.
Proof.
  revert h s. apply (exec_ind_r step (init base mx)); [|intros h s e o s' Hx IH He].
  - unfold Cst; simpl. auto.
  - eapply Cst_step; eauto.
Qed.

(** A request, once made, is handed out or still waiting. *)
Lemma request_survives base mx h s : exec step (init base mx) h s ->
  forall h1 e o h2 x d, h = h1 ++ (e, o) :: h2 -> requests base mx h1 e x d ->
  handed_out x h2 \/ waiting_for d x s.
Proof.
  intros Hx h1 e o h2 x d -> Hreq.
  apply exec_app in Hx as (m & H1 & H2). inversion H2 as [|? ? ? s1 ? ? He Hr]; subst.
  apply Cst_exec in H1 as (Hb & Hm & Hf).
  eapply waiting_for_exec; [|exact Hr].
  destruct e as [y|now y dl|now y|y|now y|c|c|c|y|]; simpl in Hreq; try done.
  - destruct Hreq as [-> ->]. simpl in He. injection He as <- <-. apply put_waiting_for.
  - destruct Hreq as [-> ->]. simpl in He. injection He as <- <-. apply put_after_sets.
  - destruct Hreq as [-> ->]. simpl in He. unfold put_backoff, backoff in He. injection He as <- <-.
    rewrite Hb, Hm, Hf. apply put_after_sets.
Qed.

(** ** draining: what is in line is handed out in order *)
Lemma drain s cs : closed s = false -> NoDup cs -> (forall c, c ∈ cs -> tasks s !! c = None) ->
  length cs = length (queue s) ->
  snd (run step s (map EGet cs)) = zip_with (fun c x => (EGet c, Some (Returned c (Item x)))) cs (queue s).
Proof.
  revert s; induction cs as [|c cs IH]; intros s Hcl Hn Hfresh Hlen; simpl; [done|].
  destruct (queue s) as [|x q] eqn:Hq; [done|]. apply NoDup_cons in Hn as [Hc Hn].
  rewrite (Hfresh c) by set_solver. unfold get_turn, get_. rewrite Hq, Hcl. simpl.
  set (s1 := set_tasks _ _).
  specialize (IH s1). destruct (run step s1 (map EGet cs)) as [s2 h2]. simpl in *. rewrite IH; auto.
  - intros c' Hc'. rewrite lookup_delete_ne by set_solver. apply Hfresh. set_solver.
Qed.

(** ** FIFO *)
Definition before x y (l : list A) : Prop := exists l1 l2 l3, l = l1 ++ x :: l2 ++ y :: l3.

Lemma before_app x y l l' : before x y l -> before x y (l ++ l').
Proof. intros (l1&l2&l3&->). exists l1, l2, (l3 ++ l'). rewrite <- !app_assoc; simpl; rewrite <- app_assoc. done. Qed.

Lemma fifo_from h0 s h s' x y : Inv h0 s -> before x y (queue s) -> exec step s h s' -> proper_use (h0 ++ h) ->
  forall h1 eo h2, h = h1 ++ eo :: h2 -> hands_out y eo = true -> handed_out x h1.
Proof.
  intros HI Hb He. revert h0 HI Hb. induction He as [s|s e o s1 h s2 He Hr IH]; intros h0 HI Hb Hu h1 eo h2 Heq Hy.
  { destruct h1; discriminate. }
  assert (Hok : ok_done h0 e) by (eapply (proper_ok _ Hu); reflexivity).
  pose proof (Inv_step _ _ _ _ _ HI Hok He) as HI1.
  assert (Hcase : hands_out x (e, o) = true \/ (hands_out y (e, o) = false /\ before x y (queue s1))).
  { apply step_core in He.
    destruct He as [e o (E1&E2&E3&E4) Hh Hdn|z e E1 E2 E3 E4 Hdn|z w e E1 E2 E3 E4 Hdn|z q c e E0 Hcl E1 E2 E3 E4 Hee|z E1 E2 E3 E4].
    - right. rewrite E1. auto.
    - right. split; [done|]. rewrite E1. repeat case_decide; auto using before_app.
    - right. rewrite E1. auto.
    - unfold hands_out; simpl. destruct Hb as (l1&l2&l3&Hl). rewrite E0 in Hl.
      destruct l1 as [|z' l1]; simpl in Hl; injection Hl as -> Hl.
      + left. rewrite bool_decide_true; done.
      + right. split; [|exists l1, l2, l3; congruence].
        apply bool_decide_eq_false. intros ->. destruct HI as [Hn _ _ _]. rewrite E0 in Hn.
        apply NoDup_cons in Hn as [Hni _]. apply Hni. rewrite ?Hl. clear. set_solver.
    - right. split; [done|]. rewrite E1. repeat case_decide; auto using before_app. }
  destruct h1 as [|eo1 h1]; simpl in Heq; simplify_eq.
  - destruct Hcase as [Hx|[Hny _]]; [|congruence].
    (* the same step hands out both: impossible unless x = y *)
    exfalso. unfold hands_out in *. destruct o as [[c r]|]; simpl in *; [|done]. destruct r; simpl in *; try done.
    apply bool_decide_eq_true in Hx. apply bool_decide_eq_true in Hy. subst.
    destruct Hb as (l1&l2&l3&Hl). destruct HI as [Hn _ _ _]. rewrite Hl in Hn.
    apply NoDup_app in Hn as (_&_&Hn). apply NoDup_cons in Hn as [Hni _]. apply Hni. rewrite ?Hl. clear. set_solver.
  - destruct Hcase as [Hx|[_ Hb1]]; [exists (e, o); set_solver|].
    specialize (IH (h0 ++ [(e, o)]) HI1 Hb1). rewrite <- app_assoc in IH.
    specialize (IH Hu _ _ _ eq_refl Hy). destruct IH as (eo'&Hin&Hh). exists eo'. set_solver.
Qed.

(** ** counting *)
Lemma count_handed_snoc x h eo :
  count_handed x (h ++ [eo]) = count_handed x h + (if hands_out x eo then 1 else 0).
Proof.
  unfold count_handed. rewrite List.filter_app, app_length. simpl.
  destruct (hands_out x eo); reflexivity.
Qed.
Lemma count_requests_snoc x h eo :
  count_requests x (h ++ [eo]) = count_requests x h + (if is_request x eo then 1 else 0).
Proof.
  unfold count_requests. rewrite List.filter_app, app_length. simpl.
  destruct (is_request x eo); reflexivity.
Qed.

Definition credit x s : nat :=
  (if decide (x ∈ dirty s) then 1 else 0) + (if decide (is_Some (timers s !! x)) then 1 else 0).

Lemma credit_same x s s' : dirty s' = dirty s -> timers s' = timers s -> credit x s' = credit x s.
Proof. unfold credit. intros -> ->. reflexivity. Qed.

Lemma credit_put x y s : credit x (put y s) <= credit x s + (if decide (x = y) then 1 else 0).
Proof.
  unfold credit. pose proof (put_core y s) as (_&Ht&Hd&_). rewrite Ht, Hd.
  destruct (decide (x = y)); repeat case_decide; set_solver by lia.
Qed.
Lemma credit_put_delete x y s :
  credit x (put y (set_timers (delete y (timers s)) s)) + (if decide (x = y) then (if decide (is_Some (timers s !! x)) then 1 else 0) else 0)
  <= credit x s + (if decide (x = y) then 1 else 0).
Proof.
  unfold credit. pose proof (put_core y (set_timers (delete y (timers s)) s)) as (_&Ht&Hd&_). rewrite Ht, Hd. simpl.
  destruct (decide (x = y)) as [->|Hne].
  - rewrite lookup_delete. rewrite (decide_False (P := is_Some None)) by (intros []; discriminate).
    rewrite decide_True by set_solver. repeat case_decide; lia.
  - rewrite lookup_delete_ne by done. assert ((x ∈ {[y]} ∪ dirty s) <-> x ∈ dirty s) as Hiff by set_solver.
    repeat case_decide; try lia; exfalso; tauto.
Qed.

Lemma credit_put_after x now y d s :
  credit x (put_after now y d s) <= credit x s + (if decide (x = y) then 1 else 0).
Proof.
  unfold put_after.
  assert (Hgo : credit x (if (0 <? d)%Z then set_timers (<[y:=(now + d)%Z]> (timers s)) s
     else put y (set_timers (delete y (timers s)) s)) <= credit x s + (if decide (x = y) then 1 else 0)).
  { destruct (0 <? d)%Z.
    - unfold credit; simpl. destruct (decide (x = y)) as [->|Hne].
      + rewrite lookup_insert. repeat case_decide; lia.
      + rewrite lookup_insert_ne by done. lia.
    - pose proof (credit_put_delete x y s). lia. }
  destruct (timers s !! y) as [w|]; [|exact Hgo]. destruct (_ <? w)%Z; [exact Hgo|]. lia.
Qed.

Lemma count_step h s e s' o x : Inv h s -> step s e = (s', o) ->
  (if hands_out x (e, o) then 1 else 0) + credit x s' <= credit x s + (if is_request x (e, o) then 1 else 0).
Proof.
  intros HI. destruct e as [y|now y dl|now y|y|now y|c|c|c|y|]; simpl.
  - intros [= <- <-]. pose proof (credit_put x y s). unfold is_request; simpl.
    destruct (decide (x = y)); [rewrite bool_decide_true|rewrite bool_decide_false]; auto.
  - intros [= <- <-]. pose proof (credit_put_after x now y dl s). unfold is_request; simpl.
    destruct (decide (x = y)); [rewrite bool_decide_true|rewrite bool_decide_false]; auto.
  - unfold put_backoff, backoff. intros [= <- <-].
    set (s1 := set_failures _ s). pose proof (credit_put_after x now y (backoff_delay (base_delay s) (max_delay s) (default 0 (failures_ s !! y))) s1) as Hc.
    assert (credit x s1 = credit x s) as E by reflexivity. rewrite E in Hc. unfold is_request; simpl.
    destruct (decide (x = y)); [rewrite bool_decide_true|rewrite bool_decide_false]; auto.
  - intros [= <- <-]. unfold hands_out, is_request, credit; simpl. lia.
  - destruct (timers s !! y) as [w|] eqn:Hw; [|intros [= <- <-]; simpl; lia].
    destruct (w <=? now)%Z; [|intros [= <- <-]; simpl; lia]. intros [= <- <-]. simpl. unfold put_delayed.
    pose proof (credit_put_delete x y s) as Hc. destruct (decide (x = y)) as [->|Hne].
    + rewrite (decide_True (P := is_Some (timers s !! y))) in Hc by (rewrite Hw; eauto). lia.
    + lia.
  - destruct (tasks s !! c); [intros [= <- <-]; simpl; lia|].
    destruct (get_turn c s) as [s1 r] eqn:Hg. apply get_turn_cases in Hg.
    destruct Hg as [(z&q&Hq&Hcl&Hq'&Hp&Hd&Ht&_&_&->)|[((E1&E2&E3&E4)&_&_&->&_)|((E1&E2&E3&E4)&_&_&_&_&->)]]; simpl; intros [= <- <-];
      unfold credit; [rewrite Hd, Ht|rewrite E3, E4..]; simpl; try lia.
    unfold hands_out; simpl. case_bool_decide as Hxz; simpl.
    + subst z. destruct (i_q _ _ HI x) as [Hxd _]; [rewrite Hq; set_solver|].
      rewrite (decide_True (P := x ∈ dirty s)) by done. rewrite decide_False by set_solver. lia.
    + assert ((x ∈ dirty s ∖ {[z]}) <-> x ∈ dirty s) by set_solver. repeat case_decide; try lia; exfalso; tauto.
  - destruct (tasks s !! c) as [[]|]; try (intros [= <- <-]; unfold hands_out, credit; simpl; lia).
    destruct (get_turn c s) as [s1 r] eqn:Hg. apply get_turn_cases in Hg.
    destruct Hg as [(z&q&Hq&Hcl&Hq'&Hp&Hd&Ht&_&_&->)|[((E1&E2&E3&E4)&_&_&->&_)|((E1&E2&E3&E4)&_&_&_&_&->)]]; simpl; intros [= <- <-];
      unfold credit; [rewrite Hd, Ht|rewrite E3, E4..]; simpl; try lia.
    unfold hands_out; simpl. case_bool_decide as Hxz; simpl.
    + subst z. destruct (i_q _ _ HI x) as [Hxd _]; [rewrite Hq; set_solver|].
      rewrite (decide_True (P := x ∈ dirty s)) by done. rewrite decide_False by set_solver. lia.
    + assert ((x ∈ dirty s ∖ {[z]}) <-> x ∈ dirty s) by set_solver. repeat case_decide; try lia; exfalso; tauto.
  - destruct (tasks s !! c); intros [= <- <-]; unfold hands_out, credit; simpl; lia.
  - intros [= <- <-]. unfold hands_out, is_request; simpl. rewrite (credit_same x s (task_done y s)); [lia|..];
      unfold task_done; case_decide; autorewrite with wk; reflexivity.
  - intros [= <- <-]. unfold hands_out, credit, is_request; simpl. lia.
Qed.

Lemma count_bound base mx h s x : exec step (init base mx) h s -> proper_use h ->
  count_handed x h + credit x s <= count_requests x h.
Proof.
  revert h s. apply (exec_ind_r step (init base mx) (fun h s => proper_use h -> count_handed x h + credit x s <= count_requests x h));
    [intros Hu|intros h s e o s' Hx IH He Hu].
  - unfold count_handed, count_requests, credit; simpl. repeat case_decide; try set_solver; auto.
    exfalso. destruct H1 as [? Hc]. discriminate.
  - apply proper_use_app_l in Hu as Hu1. specialize (IH Hu1).
    pose proof (Inv_exec _ _ _ _ Hx Hu1) as HI.
    pose proof (count_step _ _ _ _ _ x HI He). rewrite count_handed_snoc, count_requests_snoc. lia.
Qed.

(** ** timers come from requests and never fire early *)
Definition requested_at base mx h x w : Prop :=
  exists h1 e o h2, h = h1 ++ (e, o) :: h2 /\ requests base mx h1 e x (Some w).

Lemma requested_at_snoc base mx h eo x w : requested_at base mx h x w -> requested_at base mx (h ++ [eo]) x w.
Proof. intros (h1&e&o&h2&->&Hr). exists h1, e, o, (h2 ++ [eo]). rewrite <- app_assoc. auto. Qed.

Lemma timer_step s e s' o x w : step s e = (s', o) -> timers s' !! x = Some w ->
  timers s !! x = Some w \/
  (exists now d, e = EPutAfter now x d /\ w = (now + d)%Z) \/
  (exists now, e = EPutBackoff now x /\ w = (now + backoff_delay (base_delay s) (max_delay s) (default 0%nat (failures_ s !! x)))%Z).
Proof.
  assert (Hpa : forall now y d s0, timers (put_after now y d s0) !! x = Some w ->
            timers s0 !! x = Some w \/ (x = y /\ w = (now + d)%Z)).
  { intros now y d s0. unfold put_after.
    assert (Hgo : timers (if (0 <? d)%Z then set_timers (<[y:=(now + d)%Z]> (timers s0)) s0
       else put y (set_timers (delete y (timers s0)) s0)) !! x = Some w ->
       timers s0 !! x = Some w \/ (x = y /\ w = (now + d)%Z)).
    { destruct (0 <? d)%Z; simpl.
      - destruct (decide (x = y)) as [->|Hne]; [rewrite lookup_insert; intros [= <-]; auto|].
        rewrite lookup_insert_ne by done. auto.
      - pose proof (put_core y (set_timers (delete y (timers s0)) s0)) as (_&Ht&_). rewrite Ht. simpl.
        intros (Hne & Hw)%lookup_delete_Some. auto. }
    destruct (timers s0 !! y) as [w0|]; [|exact Hgo]. destruct (_ <? w0)%Z; [exact Hgo|]. auto. }
  destruct e as [y|now y dl|now y|y|now y|c|c|c|y|]; simpl.
  - intros [= <- <-]. pose proof (put_core y s) as (_&->&_). auto.
  - intros [= <- <-] Hw. apply Hpa in Hw as [Hw|[-> ->]]; [auto|]. right; left. eauto.
  - unfold put_backoff, backoff. intros [= <- <-] Hw. apply Hpa in Hw as [Hw|[-> ->]]; [auto|]. right; right. eauto.
  - intros [= <- <-]. auto.
  - destruct (timers s !! y) as [w'|] eqn:Hw'; [|intros [= <- <-]; auto].
    destruct (w' <=? now)%Z; [|intros [= <- <-]; auto]. intros [= <- <-]. unfold put_delayed.
    pose proof (put_core y (set_timers (delete y (timers s)) s)) as (_&Ht&_). rewrite Ht. simpl.
    intros (Hne & Hw)%lookup_delete_Some. auto.
  - intros Hst. assert (timers s' = timers s) as ->; [|auto]. destruct (tasks s !! c); [injection Hst as <- <-; auto|].
    destruct (get_turn c s) as [s1 r] eqn:Hg. apply get_turn_cases in Hg.
    destruct Hg as [(z&q&Hq&Hcl&Hq'&Hp&Hd&Ht&_&_&->)|[((E1&E2&E3&E4)&_&_&->&_)|((E1&E2&E3&E4)&_&_&_&_&->)]]; simpl in Hst; injection Hst as <- <-; auto.
  - intros Hst. assert (timers s' = timers s) as ->; [|auto]. destruct (tasks s !! c) as [[]|]; try (injection Hst as <- <-; auto).
    destruct (get_turn c s) as [s1 r] eqn:Hg. apply get_turn_cases in Hg.
    destruct Hg as [(z&q&Hq&Hcl&Hq'&Hp&Hd&Ht&_&_&->)|[((E1&E2&E3&E4)&_&_&->&_)|((E1&E2&E3&E4)&_&_&_&_&->)]]; simpl in Hst; injection Hst as <- <-; auto.
  - destruct (tasks s !! c); intros [= <- <-]; auto.
  - intros [= <- <-]. unfold task_done. case_decide; autorewrite with wk; auto.
  - intros [= <- <-]. auto.
Qed.

Lemma timer_requested base mx h s x w : exec step (init base mx) h s -> timers s !! x = Some w ->
  requested_at base mx h x w.
Proof.
  intros Hx. revert w. revert h s Hx.
  apply (exec_ind_r step (init base mx) (fun h s => forall w, timers s !! x = Some w -> requested_at base mx h x w)); [intros w Hw|intros h s e o s' Hx IH He w Hw].
  - simpl in Hw. set_solver.
  - pose proof (timer_step _ _ _ _ _ _ He Hw) as [Hw1|[(now&d&->&->)|(now&->&->)]].
    + apply requested_at_snoc. auto.
    + exists h, (EPutAfter now x d), o, []. split; [done|]. simpl. auto.
    + apply Cst_exec in Hx as (Hb & Hm & Hf).
      exists h, (EPutBackoff now x), o, []. split; [done|]. simpl. rewrite Hb, Hm, Hf. auto.
Qed.

(** An item becomes pending only through a put, an already due delayed
    request, or a timer whose requested deadline has passed. *)
Lemma never_early base mx h s e s' o x : exec step (init base mx) h s -> step s e = (s', o) ->
  x ∉ dirty s -> x ∈ dirty s' ->
  e = EPut x \/
  (exists now d, e = EPutAfter now x d /\ (d <= 0)%Z) \/
  (exists now, e = EPutBackoff now x /\ (documented_delay base mx (n_failures x h) <= 0)%Z) \/
  (exists now w, e = ETimer now x /\ requested_at base mx h x w /\ (w <= now)%Z).
Proof.
  intros Hx Hst Hn Hy.
  assert (Hput : forall y s0, dirty s0 = dirty s -> x ∈ dirty (put y s0) -> x = y).
  { intros y s0 E. pose proof (put_core y s0) as (_&_&->&_). rewrite E. set_solver. }
  assert (Hpa : forall now y d s0, dirty s0 = dirty s -> x ∈ dirty (put_after now y d s0) -> x = y /\ (d <= 0)%Z).
  { intros now y d s0 E. unfold put_after.
    assert (Hgo : x ∈ dirty (if (0 <? d)%Z then set_timers (<[y:=(now + d)%Z]> (timers s0)) s0
       else put y (set_timers (delete y (timers s0)) s0)) -> x = y /\ (d <= 0)%Z).
    { destruct (0 <? d)%Z eqn:Hd; simpl; [rewrite E; done|]. intros Hin. apply Hput in Hin; [|exact E].
      split; [done|lia]. }
    destruct (timers s0 !! y) as [w0|]; [|exact Hgo]. destruct (_ <? w0)%Z; [exact Hgo|]. rewrite E. done. }
  destruct e as [y|now y dl|now y|y|now y|c|c|c|y|]; simpl in Hst.
  - injection Hst as <- <-. apply Hput in Hy as ->; auto.
  - injection Hst as <- <-. apply Hpa in Hy as [-> Hd]; auto. right; left. eauto.
  - unfold put_backoff, backoff in Hst. injection Hst as <- <-. apply Hpa in Hy as [-> Hd]; auto.
    right; right; left. exists now. split; [done|]. apply Cst_exec in Hx as (Hb & Hm & Hf).
    rewrite Hb, Hm, Hf in Hd. exact Hd.
  - injection Hst as <- <-. done.
  - destruct (timers s !! y) as [w|] eqn:Hw; [|injection Hst as <- <-; done].
    destruct (w <=? now)%Z eqn:Hle; [|injection Hst as <- <-; done]. injection Hst as <- <-.
    unfold put_delayed in Hy. apply Hput in Hy as ->; auto. right; right; right. exists now, w.
    split; [done|]. split; [eapply timer_requested; eauto|lia].
  - destruct (tasks s !! c); [injection Hst as <- <-; done|].
    destruct (get_turn c s) as [s1 r] eqn:Hg. apply get_turn_cases in Hg.
    destruct Hg as [(z&q&Hq&Hcl&Hq'&Hp&Hd&Ht&_&_&->)|[((E1&E2&E3&E4)&_&_&->&_)|((E1&E2&E3&E4)&_&_&_&_&->)]]; simpl in Hst; injection Hst as <- <-; set_solver.
  - destruct (tasks s !! c) as [[]|]; try (injection Hst as <- <-; done).
    destruct (get_turn c s) as [s1 r] eqn:Hg. apply get_turn_cases in Hg.
    destruct Hg as [(z&q&Hq&Hcl&Hq'&Hp&Hd&Ht&_&_&->)|[((E1&E2&E3&E4)&_&_&->&_)|((E1&E2&E3&E4)&_&_&_&_&->)]]; simpl in Hst; injection Hst as <- <-; set_solver.
  - destruct (tasks s !! c); injection Hst as <- <-; done.
  - injection Hst as <- <-. unfold task_done in Hy. case_decide; autorewrite with wk in Hy; done.
  - injection Hst as <- <-. done.
Qed.

(** ** backoff closed form *)
Lemma documented_delay_mono base mx n : (0 <= base)%Z -> (documented_delay base mx n <= documented_delay base mx (S n))%Z.
Proof.
  intros Hb. unfold documented_delay. rewrite Nat2Z.inj_succ, Z.pow_succ_r by lia.
  assert (0 < 2 ^ Z.of_nat n)%Z by (apply Z.pow_pos_nonneg; lia). nia.
Qed.
Lemma documented_delay_bounds base mx n : (0 <= base)%Z ->
  (Z.min base mx <= documented_delay base mx n <= mx)%Z.
Proof.
  intros Hb. unfold documented_delay.
  assert (0 < 2 ^ Z.of_nat n)%Z by (apply Z.pow_pos_nonneg; lia). nia.
Qed.

(** put_backoff is put_after with the documented delay. *)
Lemma put_backoff_is_put_after base mx h s now x : exec step (init base mx) h s ->
  let s1 := fst (step s (EPutBackoff now x)) in
  let s2 := fst (step s (EPutAfter now x (documented_delay base mx (n_failures x h)))) in
  queue s1 = queue s2 /\ processing s1 = processing s2 /\ dirty s1 = dirty s2 /\ timers s1 = timers s2 /\
  waiting s1 = waiting s2 /\ tasks s1 = tasks s2 /\ closed s1 = closed s2.
Proof.
  intros Hx. apply Cst_exec in Hx as (Hb & Hm & Hf). simpl. unfold put_backoff, backoff.
  rewrite Hb, Hm, Hf. change (backoff_delay base mx (n_failures x h)) with (documented_delay base mx (n_failures x h)).
  generalize (documented_delay base mx (n_failures x h)). intros d.
  assert (Hput : forall f t, let a := put x (set_timers t (set_failures f s)) in let b := put x (set_timers t s) in
    queue a = queue b /\ processing a = processing b /\ dirty a = dirty b /\ timers a = timers b /\
    waiting a = waiting b /\ tasks a = tasks b /\ closed a = closed b).
  { intros f t. unfold put, put_. simpl. repeat case_decide; unfold wakeup_next; simpl;
      destruct (wakeup_next_aux (waiting s) (tasks s)); simpl; auto 10. }
  unfold put_after. simpl. destruct (timers s !! x) as [w|]; [destruct (now + d <? w)%Z|];
    destruct (0 <? d)%Z; simpl; try apply Hput; auto 10.
Qed.

(** ** wake-ups *)
Definition nwoken (t : gmap nat cstate) : nat := size (filter (fun kv => kv.2 = Woken) t).
Definition blocked (t : gmap nat cstate) : Prop := exists c, t !! c = Some Blocked.

Lemma nwoken_insert_woken t c : t !! c <> Some Woken -> nwoken (<[c := Woken]> t) = S (nwoken t).
Proof.
  intros Hc. unfold nwoken. rewrite map_filter_insert_True by done.
  rewrite map_size_insert_None; [done|]. apply map_filter_lookup_None. right. intros v Hv Hw; simpl in Hw; subst; auto.
Qed.
Lemma nwoken_insert_other t c st : st <> Woken -> t !! c <> Some Woken -> nwoken (<[c := st]> t) = nwoken t.
Proof.
  intros Hst Hc. unfold nwoken. rewrite map_filter_insert_False by done. f_equal.
  rewrite map_filter_delete. apply delete_notin. apply map_filter_lookup_None. right. intros v Hv Hw; simpl in Hw; subst; auto.
Qed.
Lemma nwoken_delete t c : nwoken t <= S (nwoken (delete c t)).
Proof.
  unfold nwoken. rewrite map_filter_delete. rewrite map_size_delete. case_match; simpl; lia.
Qed.
Lemma nwoken_delete_other t c : t !! c <> Some Woken -> nwoken (delete c t) = nwoken t.
Proof.
  intros Hc. unfold nwoken. rewrite map_filter_delete. f_equal. apply delete_notin.
  apply map_filter_lookup_None. right. intros v Hv Hw; simpl in Hw; subst; auto.
Qed.

Lemma wakeup_next_aux_spec w t w' t' :
  wakeup_next_aux w t = (w', t') -> (forall c, t !! c = Some Blocked -> c ∈ w) ->
  (forall c, t' !! c = Some Blocked -> c ∈ w' /\ t !! c = Some Blocked) /\
  (blocked t -> nwoken t' = S (nwoken t)) /\ (nwoken t <= nwoken t').
Proof.
  revert t. induction w as [|c w IH]; intros t; simpl.
  - intros [= <- <-] Hb. split; [|split]; auto. intros [c Hc]. apply Hb in Hc. set_solver.
  - intros Hw Hb.
    assert (Hrec : t !! c <> Some Blocked -> wakeup_next_aux w t = (w', t') ->
       (forall c, t' !! c = Some Blocked -> c ∈ w' /\ t !! c = Some Blocked) /\
       (blocked t -> nwoken t' = S (nwoken t)) /\ (nwoken t <= nwoken t')).
    { intros Hc Haux. apply IH; [done|]. intros c' Hc'. pose proof (Hb _ Hc') as Hin.
      apply elem_of_cons in Hin as [->|Hin]; [done|auto]. }
    destruct (t !! c) as [[]|] eqn:Hc; try (apply Hrec; [congruence|done]).
    injection Hw as <- <-. split; [|split].
    + intros c' Hc'. destruct (decide (c = c')) as [->|Hne].
      * rewrite lookup_insert in Hc'. discriminate.
      * rewrite lookup_insert_ne in Hc' by done. split; [|done]. apply Hb in Hc'. set_solver.
    + intros _. apply nwoken_insert_woken. congruence.
    + rewrite nwoken_insert_woken by congruence. lia.
Qed.

Lemma wakeup_all_aux_spec w t : (forall c, t !! c = Some Blocked -> c ∈ w) ->
  ~ blocked (wakeup_all_aux w t).
Proof.
  revert t. induction w as [|c w IH]; intros t Hb; simpl.
  - intros [c Hc]. apply Hb in Hc. set_solver.
  - destruct (t !! c) as [[]|] eqn:Hc; apply IH; intros c' Hc';
      try (pose proof (Hb _ Hc') as Hin; apply elem_of_cons in Hin as [->|Hin]; [congruence|done]).
    destruct (decide (c = c')) as [->|Hne].
    + rewrite lookup_insert in Hc'. discriminate.
    + rewrite lookup_insert_ne in Hc' by done. apply Hb in Hc'. set_solver.
Qed.

Record W s : Prop := {
  w_wait : forall c, tasks s !! c = Some Blocked -> c ∈ waiting s;
  w_len : blocked (tasks s) -> length (queue s) <= nwoken (tasks s);
  w_closed : closed s = true -> ~ blocked (tasks s) }.

Lemma W_init base mx : W (init base mx).
Proof.
  constructor; simpl.
  - intros c Hc. rewrite lookup_empty in Hc. discriminate.
  - lia.
  - discriminate.
Qed.

Lemma W_wakeup s : (forall c, tasks s !! c = Some Blocked -> c ∈ waiting s) ->
  (blocked (tasks s) -> length (queue s) <= S (nwoken (tasks s))) ->
  (closed s = true -> ~ blocked (tasks s)) -> W (wakeup_next s).
Proof.
  intros H1 H2 H3. unfold wakeup_next. destruct (wakeup_next_aux (waiting s) (tasks s)) as [w' t'] eqn:Haux.
  destruct (wakeup_next_aux_spec _ _ _ _ Haux H1) as (G1 & G2 & G3).
  constructor; simpl.
  - intros c Hc. apply G1 in Hc. tauto.
  - intros [c Hc]. apply G1 in Hc as [_ Hc]. assert (blocked (tasks s)) as Hb by (exists c; done).
    rewrite (G2 Hb). auto.
  - intros Hcl [c Hc]. apply G1 in Hc as [_ Hc]. apply (H3 Hcl). exists c; done.
Qed.

Lemma put__tasks x s : tasks (put_ x s) = tasks s /\ waiting (put_ x s) = waiting s /\ closed (put_ x s) = closed s /\
  length (queue (put_ x s)) <= S (length (queue s)).
Proof. unfold put_. repeat case_decide; simpl; rewrite ?app_length; simpl; auto with lia. Qed.

Lemma W_put x s : W s -> W (put x s).
Proof.
  intros [H1 H2 H3]. pose proof (put__tasks x s) as (E1&E2&E3&E4). apply W_wakeup; rewrite ?E1, ?E2, ?E3; auto.
  intros Hb. specialize (H2 Hb). lia.
Qed.
Lemma W_set_timers t s : W s -> W (set_timers t s).
Proof. intros [H1 H2 H3]. constructor; auto. Qed.
Lemma W_set_failures t s : W s -> W (set_failures t s).
Proof. intros [H1 H2 H3]. constructor; auto. Qed.
Lemma W_put_after now x d s : W s -> W (put_after now x d s).
Proof.
  intros HW. unfold put_after. repeat case_match; auto using W_put, W_set_timers.
Qed.

Lemma W_get_turn c s s' r : W s -> get_turn c s = (s', r) ->
  (tasks s !! c = None \/ tasks s !! c = Some Woken) -> W s'.
Proof.
  intros [H1 H2 H3] Hg Hc. pose proof (get_turn_const _ _ _ _ Hg) as (Ecl&_).
  assert (Hbd : forall c', delete c (tasks s) !! c' = Some Blocked -> tasks s !! c' = Some Blocked).
  { intros c'. rewrite lookup_delete_Some. tauto. }
  apply get_turn_cases in Hg.
  destruct Hg as [(z&q&Hq&Hcl&Hq'&Hp&Hd&Ht&Hw&Htk&->)|[((E1&E2&E3&E4)&Htk&Hw&->&Hcl)|((E1&E2&E3&E4)&Hq&Hcl&Htk&Hw&->)]].
  - constructor; rewrite ?Htk, ?Hw, ?Hq', ?Ecl.
    + intros c' Hc'. auto.
    + intros [c' Hc']. apply Hbd in Hc'. assert (blocked (tasks s)) as Hb by (exists c'; done).
      specialize (H2 Hb). rewrite Hq in H2. simpl in H2. pose proof (nwoken_delete (tasks s) c). lia.
    + rewrite Hcl. discriminate.
  - constructor; rewrite ?Htk, ?Hw, ?E1, ?Ecl.
    + intros c' Hc'. auto.
    + intros [c' Hc']. apply Hbd in Hc'. exfalso. apply (H3 Hcl). exists c'; done.
    + intros _ [c' Hc']. apply Hbd in Hc'. apply (H3 Hcl). exists c'; done.
  - constructor; rewrite ?Htk, ?Hw, ?E1, ?Ecl.
    + intros c' Hc'. destruct (decide (c = c')) as [->|Hne]; [set_solver|].
      rewrite lookup_insert_ne in Hc' by done. apply H1 in Hc'. set_solver.
    + rewrite Hq. simpl. lia.
    + rewrite Hcl. discriminate.
Qed.

Lemma remove1_in c c' l : c' <> c -> c' ∈ l -> c' ∈ remove1 c l.
Proof.
  intros Hne. induction l as [|z l IH]; simpl; [done|]. case_decide; set_solver.
Qed.

Lemma W_step s e s' o : W s -> step s e = (s', o) -> (forall c, e = ECancel c -> ~ awake c s) -> W s'.
Proof.
  intros HW Hst Hok. destruct e as [y|now y dl|now y|y|now y|c|c|c|y|]; simpl in Hst.
  - injection Hst as <- <-. auto using W_put.
  - injection Hst as <- <-. auto using W_put_after.
  - unfold put_backoff, backoff in Hst. injection Hst as <- <-. auto using W_put_after, W_set_failures.
  - injection Hst as <- <-. apply W_set_failures; auto.
  - repeat case_match; simplify_eq; auto. unfold put_delayed. auto using W_put, W_set_timers.
  - destruct (tasks s !! c) eqn:Hc; [injection Hst as <- <-; auto|].
    destruct (get_turn c s) as [s1 r] eqn:Hg. assert (s' = s1) as -> by (destruct r; simpl in Hst; congruence).
    eapply W_get_turn; eauto.
  - destruct (tasks s !! c) as [[]|] eqn:Hc; try (injection Hst as <- <-; auto; fail).
    + destruct (get_turn c s) as [s1 r] eqn:Hg. assert (s' = s1) as -> by (destruct r; simpl in Hst; congruence).
      eapply W_get_turn; eauto.
    + injection Hst as <- <-. destruct HW as [H1 H2 H3]. constructor; simpl.
      * intros c' [Hne Hc']%lookup_delete_Some. apply remove1_in; auto.
      * intros [c' [Hne Hc']%lookup_delete_Some]. rewrite nwoken_delete_other by congruence. apply H2. exists c'; done.
      * intros Hcl [c' [Hne Hc']%lookup_delete_Some]. apply (H3 Hcl). exists c'; done.
  - destruct (tasks s !! c) as [st|] eqn:Hc; injection Hst as <- <-; auto.
    specialize (Hok c eq_refl). unfold awake in Hok. destruct HW as [H1 H2 H3].
    assert (Hbd : forall c', <[c := Cancelling]> (tasks s) !! c' = Some Blocked -> tasks s !! c' = Some Blocked).
    { intros c' [[_ Hx]|[_ Hx]]%lookup_insert_Some; [discriminate|done]. }
    constructor; simpl.
    + intros c' Hc'. auto.
    + intros [c' Hc']. rewrite nwoken_insert_other by (done || congruence). apply H2. exists c'; auto.
    + intros Hcl [c' Hc']. apply (H3 Hcl). exists c'; auto.
  - injection Hst as <- <-. destruct HW as [H1 H2 H3]. unfold task_done. case_decide.
    + apply W_wakeup; simpl; auto. rewrite app_length; simpl. intros Hb. specialize (H2 Hb). lia.
    + constructor; auto.
  - injection Hst as <- <-. destruct HW as [H1 H2 H3].
    pose proof (wakeup_all_aux_spec _ _ H1) as Hnb.
    constructor; unfold close, wakeup_all; simpl.
    + intros c Hc. exfalso. apply Hnb. exists c; done.
    + intros Hb. done.
    + intros _. done.
Qed.

Lemma W_exec base mx h s : exec step (init base mx) h s -> no_cancel_while_waking (init base mx) h -> W s.
Proof.
  revert h s. apply (exec_ind_r step (init base mx) (fun h s => no_cancel_while_waking (init base mx) h -> W s)); [intros _; apply W_init|].
  intros h s e o s' Hx IH He Hok. eapply W_step; [apply IH| |].
  - intros h1 c o1 h2 m -> Hm. eapply Hok; [|exact Hm]. rewrite <- app_assoc. reflexivity.
  - exact He.
  - intros c ->. eapply Hok; [reflexivity|exact Hx].
Qed.

Lemma nwoken_pos t : 0 < nwoken t -> exists c, t !! c = Some Woken.
Proof.
  intros Hp. unfold nwoken in Hp.
  destruct (decide (filter (fun kv => kv.2 = Woken) t = ∅)) as [He|Hne].
  - rewrite He, map_size_empty in Hp. lia.
  - apply map_choose in Hne as (c & st & Hc). apply map_filter_lookup_Some in Hc as [Hc Hw]; simpl in Hw; subst; eauto.
Qed.

(** If an item is in line and a get() is asleep, as many get() calls are on
    their way as there are items, and the next of them gets the first item. *)
Lemma no_lost_wakeup base mx h s : exec step (init base mx) h s -> no_cancel_while_waking (init base mx) h ->
  forall c x q, asleep c s -> queue s = x :: q ->
  closed s = false /\ (exists c', awake c' s) /\
  forall c', awake c' s -> snd (step s (EResume c')) = Some (Returned c' (Item x)).
Proof.
  intros Hx Hok c x q Hc Hq. destruct (W_exec _ _ _ _ Hx Hok) as [H1 H2 H3].
  assert (blocked (tasks s)) as Hb by (exists c; exact Hc).
  destruct (closed s) eqn:Hcl; [exfalso; exact (H3 eq_refl Hb)|]. split; [done|]. split.
  - specialize (H2 Hb). rewrite Hq in H2. simpl in H2. destruct (nwoken_pos (tasks s)) as [c' Hc']; [lia|]. exists c'; done.
  - intros c' Hc'. unfold awake in Hc'. simpl. rewrite Hc'. unfold get_turn, get_. rewrite Hq, Hcl. reflexivity.
Qed.

(** The number of wake-ups on their way covers the whole line. *)
Lemma enough_wakeups base mx h s : exec step (init base mx) h s -> no_cancel_while_waking (init base mx) h ->
  forall c, asleep c s -> length (queue s) <= size (filter (fun kv => kv.2 = Woken) (tasks s)).
Proof. intros Hx Hok c Hc. apply (w_len _ (W_exec _ _ _ _ Hx Hok)). exists c. exact Hc. Qed.

(** ** close *)
Lemma closed_step s e s' o : step s e = (s', o) -> closed s = true ->
  closed s' = true /\ forall c x, o <> Some (Returned c (Item x)).
Proof.
  intros Hst Hcl. destruct e as [y|now y dl|now y|y|now y|c|c|c|y|]; simpl in Hst.
  - injection Hst as <- <-. rewrite put_closed. auto.
  - injection Hst as <- <-. pose proof (put_after_const now y dl s) as (_&_&_&->). auto.
  - unfold put_backoff, backoff in Hst. injection Hst as <- <-.
    rewrite (proj2 (proj2 (proj2 (put_after_const now y _ _)))). simpl. auto.
  - injection Hst as <- <-. auto.
  - repeat case_match; simplify_eq; auto. unfold put_delayed. rewrite put_closed. simpl. auto.
  - destruct (tasks s !! c) eqn:Hc; [injection Hst as <- <-; auto|].
    destruct (get_turn c s) as [s1 r] eqn:Hg. pose proof (get_turn_const _ _ _ _ Hg) as (Ecl&_).
    apply get_turn_cases in Hg. destruct Hg as [(?&?&?&?&_)|[(?&?&?&->&_)|(?&?&?&_)]]; try congruence.
    simpl in Hst. injection Hst as <- <-. rewrite Ecl. auto.
  - destruct (tasks s !! c) as [[]|] eqn:Hc; try (injection Hst as <- <-; auto; fail).
    + destruct (get_turn c s) as [s1 r] eqn:Hg. pose proof (get_turn_const _ _ _ _ Hg) as (Ecl&_).
      apply get_turn_cases in Hg. destruct Hg as [(?&?&?&?&_)|[(?&?&?&->&_)|(?&?&?&_)]]; try congruence.
      simpl in Hst. injection Hst as <- <-. rewrite Ecl. auto.
  - destruct (tasks s !! c); injection Hst as <- <-; auto.
  - injection Hst as <- <-. unfold task_done. case_decide; autorewrite with wk; auto.
  - injection Hst as <- <-. auto.
Qed.

Lemma closed_exec s h s' : exec step s h s' -> closed s = true ->
  closed s' = true /\ forall x, ~ handed_out x h.
Proof.
  induction 1 as [s|s e o s1 h s2 He Hr IH]; intros Hcl.
  - split; [done|]. intros x (eo & Hin & _). set_solver.
  - destruct (closed_step _ _ _ _ He Hcl) as [Hcl1 Hno]. destruct (IH Hcl1) as [Hcl2 Hno2]. split; [done|].
    intros x (eo & Hin & Hh). apply elem_of_cons in Hin as [->|Hin].
    + unfold hands_out in Hh; simpl in Hh. destruct o as [[c [y| | |]]|]; try done. eapply Hno; reflexivity.
    + apply (Hno2 x). exists eo. auto.
Qed.

(** Blocked calls stay known to the queue (also when calls are cancelled). *)
Record W0 s : Prop := {
  w0_wait : forall c, tasks s !! c = Some Blocked -> c ∈ waiting s;
  w0_closed : closed s = true -> ~ blocked (tasks s) }.

Lemma W0_wakeup s : W0 s -> W0 (wakeup_next s).
Proof.
  intros [H1 H3]. unfold wakeup_next. destruct (wakeup_next_aux (waiting s) (tasks s)) as [w' t'] eqn:Haux.
  destruct (wakeup_next_aux_spec _ _ _ _ Haux H1) as (G1 & G2 & G3). constructor; simpl.
  - intros c Hc. apply G1 in Hc. tauto.
  - intros Hcl [c Hc]. apply G1 in Hc as [_ Hc]. apply (H3 Hcl). exists c; done.
Qed.
Lemma W0_put x s : W0 s -> W0 (put x s).
Proof.
  intros [H1 H3]. pose proof (put__tasks x s) as (E1&E2&E3&E4). apply W0_wakeup.
  constructor; rewrite ?E1, ?E2, ?E3; auto.
Qed.
Lemma W0_set_timers t s : W0 s -> W0 (set_timers t s).
Proof. intros [H1 H3]. constructor; auto. Qed.
Lemma W0_set_failures t s : W0 s -> W0 (set_failures t s).
Proof. intros [H1 H3]. constructor; auto. Qed.
Lemma W0_put_after now x d s : W0 s -> W0 (put_after now x d s).
Proof. intros HW. unfold put_after. repeat case_match; auto using W0_put, W0_set_timers. Qed.

Lemma W0_get_turn c s s' r : W0 s -> get_turn c s = (s', r) -> W0 s'.
Proof.
  intros [H1 H3] Hg. pose proof (get_turn_const _ _ _ _ Hg) as (Ecl&_).
  assert (Hbd : forall c', delete c (tasks s) !! c' = Some Blocked -> tasks s !! c' = Some Blocked).
  { intros c'. rewrite lookup_delete_Some. tauto. }
  apply get_turn_cases in Hg.
  destruct Hg as [(z&q&Hq&Hcl&Hq'&Hp&Hd&Ht&Hw&Htk&->)|[((E1&E2&E3&E4)&Htk&Hw&->&Hcl)|((E1&E2&E3&E4)&Hq&Hcl&Htk&Hw&->)]].
  - constructor; rewrite ?Htk, ?Hw, ?Ecl; auto. congruence.
  - constructor; rewrite ?Htk, ?Hw, ?Ecl; auto. intros _ [c' Hc']. apply (H3 Hcl). exists c'; auto.
  - constructor; rewrite ?Htk, ?Hw, ?Ecl; [|congruence].
    intros c' Hc'. destruct (decide (c = c')) as [->|Hne]; [set_solver|].
    rewrite lookup_insert_ne in Hc' by done. apply H1 in Hc'. set_solver.
Qed.

Lemma W0_step s e s' o : W0 s -> step s e = (s', o) -> W0 s'.
Proof.
  intros HW Hst. destruct e as [y|now y dl|now y|y|now y|c|c|c|y|]; simpl in Hst.
  - injection Hst as <- <-. auto using W0_put.
  - injection Hst as <- <-. auto using W0_put_after.
  - unfold put_backoff, backoff in Hst. injection Hst as <- <-. auto using W0_put_after, W0_set_failures.
  - injection Hst as <- <-. apply W0_set_failures; auto.
  - repeat case_match; simplify_eq; auto. unfold put_delayed. auto using W0_put, W0_set_timers.
  - destruct (tasks s !! c) eqn:Hc; [injection Hst as <- <-; auto|].
    destruct (get_turn c s) as [s1 r] eqn:Hg. assert (s' = s1) as -> by (destruct r; simpl in Hst; congruence).
    eapply W0_get_turn; eauto.
  - destruct (tasks s !! c) as [[]|] eqn:Hc; try (injection Hst as <- <-; auto; fail).
    + destruct (get_turn c s) as [s1 r] eqn:Hg. assert (s' = s1) as -> by (destruct r; simpl in Hst; congruence).
      eapply W0_get_turn; eauto.
    + injection Hst as <- <-. destruct HW as [H1 H3]. constructor; simpl.
      * intros c' [Hne Hc']%lookup_delete_Some. apply remove1_in; auto.
      * intros Hcl [c' [Hne Hc']%lookup_delete_Some]. apply (H3 Hcl). exists c'; done.
  - destruct (tasks s !! c) as [st|] eqn:Hc; injection Hst as <- <-; auto.
    destruct HW as [H1 H3].
    assert (Hbd : forall c', <[c := Cancelling]> (tasks s) !! c' = Some Blocked -> tasks s !! c' = Some Blocked).
    { intros c' [[_ Hx]|[_ Hx]]%lookup_insert_Some; [discriminate|done]. }
    constructor; simpl; auto. intros Hcl [c' Hc']. apply (H3 Hcl). exists c'; auto.
  - injection Hst as <- <-. unfold task_done. case_decide; [apply W0_wakeup|]; destruct HW as [H1 H3]; constructor; auto.
  - injection Hst as <- <-. destruct HW as [H1 H3]. pose proof (wakeup_all_aux_spec _ _ H1) as Hnb.
    constructor; unfold close, wakeup_all; simpl; [|auto]. intros c Hc. exfalso. apply Hnb. exists c; done.
Qed.

Lemma W0_exec base mx h s : exec step (init base mx) h s -> W0 s.
Proof.
  revert h s. apply (exec_ind_r step (init base mx)); [|intros; eapply W0_step; eauto].
  constructor; simpl; [|discriminate]. intros c Hc. rewrite lookup_empty in Hc. discriminate.
Qed.

Lemma after_close base mx h s : exec step (init base mx) h s ->
  forall h1 o h2, h = h1 ++ (EClose, o) :: h2 ->
  (forall x, ~ handed_out x h2) /\ (forall c, ~ asleep c s) /\
  (forall c, unfinished c s -> exists r, snd (step s (EResume c)) = Some (Returned c r) /\ (r = ClosedError \/ r = CancelledError)) /\
  (forall c, ~ unfinished c s -> snd (step s (EGet c)) = Some (Returned c ClosedError)).
Proof.
  intros Hx h1 o h2 ->. pose proof (W0_exec _ _ _ _ Hx) as [H1 H3].
  apply exec_app in Hx as (m & Hx1 & Hx2). inversion Hx2 as [|? ? ? s1 ? ? He Hr]; subst.
  simpl in He. injection He as <- <-.
  destruct (closed_exec _ _ _ Hr) as [Hcl Hno]; [reflexivity|].
  assert (Hget : forall c, exists s2, get_turn c s = (s2, Some ClosedError)).
  { intros c. unfold get_turn, get_. rewrite Hcl. destruct (queue s); eauto. }
  split; [done|]. split; [|split].
  - intros c Hc. apply (H3 Hcl). exists c; exact Hc.
  - intros c [st Hc]. simpl. rewrite Hc. destruct st; simpl.
    + exfalso. apply (H3 Hcl). exists c; exact Hc.
    + destruct (Hget c) as [s2 ->]. simpl. eauto.
    + eauto.
  - intros c Hc. unfold unfinished in Hc. simpl. destruct (tasks s !! c) eqn:E; [exfalso; eauto|].
    destruct (Hget c) as [s2 ->]. reflexivity.
Qed.

(** ** combined statements *)
Lemma request_not_lost base mx h s : exec step (init base mx) h s -> proper_use h ->
  forall h1 e o h2 x d, h = h1 ++ (e, o) :: h2 -> requests base mx h1 e x d ->
  handed_out x h2 \/ in_line x s \/ redo_after_done x h s \/
  exists w t, scheduled x w s /\ d = Some t /\ (w <= t)%Z.
Proof.
  intros Hx Hu h1 e o h2 x d Hh Hreq.
  destruct (request_survives _ _ _ _ Hx _ _ _ _ _ _ Hh Hreq) as [Hd|[Hd|(w&Hw&Hm)]]; [auto| |].
  - pose proof (Inv_exec _ _ _ _ Hx Hu) as [Hn Hq Hdd Hp]. destruct (Hdd _ Hd) as [Hq1|Hp1]; [auto|].
    right; right; left. split; [apply Hp; done|done].
  - right; right; right. destruct d as [t|]; [|done]. exists w, t. auto.
Qed.

Lemma line_is_handed_out base mx h s : exec step (init base mx) h s -> closed s = false ->
  forall cs, NoDup cs -> (forall c, c ∈ cs -> ~ unfinished c s) -> length cs = length (queue s) ->
  snd (run step s (map EGet cs)) = zip_with (fun c x => (EGet c, Some (Returned c (Item x)))) cs (queue s).
Proof.
  intros _ Hcl cs Hn Hf Hlen. apply drain; auto. intros c Hc. specialize (Hf c Hc). unfold unfinished in Hf.
  destruct (tasks s !! c); [exfalso; eauto|done].
Qed.

Lemma redo_enters_line base mx h s x : exec step (init base mx) h s -> redo_after_done x h s ->
  in_line x (fst (step s (ETaskDone x))).
Proof.
  intros _ [_ Hd]. unfold in_line. simpl. unfold task_done. rewrite decide_True by done.
  rewrite queue_wakeup. simpl. set_solver.
Qed.

Lemma timer_puts base mx h s x w now : exec step (init base mx) h s -> proper_use h -> scheduled x w s -> (w <= now)%Z ->
  let s' := fst (step s (ETimer now x)) in
  (in_line x s' \/ redo_after_done x h s') /\ forall w', ~ scheduled x w' s'.
Proof.
  intros Hx Hu Hw Hle. unfold scheduled in *.
  pose proof (Inv_exec _ _ _ _ Hx Hu) as HI.
  destruct (step s (ETimer now x)) as [s' o] eqn:Hst.
  pose proof (Inv_step h s (ETimer now x) s' o HI I Hst) as [_ _ Hd' Hp'].
  simpl in Hst. rewrite Hw in Hst. destruct (w <=? now)%Z eqn:E; [|lia]. injection Hst as <- <-.
  unfold put_delayed in *. pose proof (put_core x (set_timers (delete x (timers s)) s)) as (_&Et&Ed&_).
  assert (x ∈ dirty (put x (set_timers (delete x (timers s)) s))) as Hdx by (rewrite Ed; set_solver).
  simpl. split.
  - destruct (Hd' _ Hdx) as [Hq|Hp]; [left; exact Hq|right; split; [|exact Hdx]].
    apply Hp' in Hp. rewrite held_snoc in Hp. exact Hp.
  - intros w'. rewrite Et. simpl. rewrite lookup_delete. discriminate.
Qed.

Lemma empty_means_all_handed base mx h s : exec step (init base mx) h s -> is_empty s = true ->
  forall h1 o h2 x, h = h1 ++ (EPut x, o) :: h2 -> handed_out x h2.
Proof.
  intros Hx He h1 o h2 x Hh. unfold is_empty in He. apply bool_decide_eq_true in He.
  destruct (request_survives _ _ _ _ Hx _ _ _ _ x None Hh) as [Hd|[Hd|(w&_&[])]]; [simpl; auto|done|].
  rewrite He in Hd. set_solver.
Qed.

Lemma handed_le_requests base mx h s x : exec step (init base mx) h s -> proper_use h ->
  count_handed x h <= count_requests x h.
Proof. intros Hx Hu. pose proof (count_bound _ _ _ _ x Hx Hu). lia. Qed.

Lemma line_nodup base mx h s : exec step (init base mx) h s -> proper_use h -> NoDup (queue s).
Proof. intros Hx Hu. apply (i_nodup _ _ (Inv_exec _ _ _ _ Hx Hu)). Qed.

Lemma merge_put base mx h s x : exec step (init base mx) h s -> proper_use h ->
  in_line x s \/ redo_after_done x h s -> 
  queue (fst (step s (EPut x))) = queue s /\ dirty (fst (step s (EPut x))) = dirty s /\
  processing (fst (step s (EPut x))) = processing s /\ timers (fst (step s (EPut x))) = timers s.
Proof.
  intros Hx Hu Hin. assert (x ∈ dirty s) as Hd.
  { destruct Hin as [Hq|[_ Hd]]; [|done]. apply (i_q _ _ (Inv_exec _ _ _ _ Hx Hu)); done. }
  simpl. pose proof (put_core x s) as (->&->&->&->). rewrite decide_True by done. repeat split. set_solver.
Qed.

Lemma fifo base mx h s : exec step (init base mx) h s ->
  forall x y o h' s', in_line x s -> ~ in_line y s -> held y h = false ->
  exec step s ((EPut y, o) :: h') s' -> proper_use (h ++ (EPut y, o) :: h') ->
  forall h1 eo h2, h' = h1 ++ eo :: h2 -> hands_out y eo = true -> handed_out x h1.
Proof.
  intros Hx x y o h' s' Hxin Hy Hh Hx' Hu h1 eo h2 -> Hout.
  assert (Hu1 : proper_use h) by (eapply proper_use_app_l; exact Hu).
  pose proof (Inv_exec _ _ _ _ Hx Hu1) as HI.
  inversion Hx' as [|? ? ? s1 ? ? He Hr]; subst.
  assert (Hok : ok_done h (EPut y)) by exact I.
  pose proof (Inv_step _ _ _ _ _ HI Hok He) as HI1.
  assert (y ∉ processing s) as Hyp by (rewrite (i_p _ _ HI); congruence).
  assert (y ∉ dirty s) as Hyd by (intros Hd; destruct (i_d _ _ HI _ Hd); done).
  eapply (fifo_from _ _ _ _ x y HI1); [|exact Hr| |reflexivity|exact Hout].
  - simpl in He. injection He as <- <-. pose proof (put_core y s) as (_&_&_&->).
    rewrite !decide_False by done. unfold in_line in Hxin. apply elem_of_list_split in Hxin as (l1 & l2 & ->).
    exists l1, l2, []. rewrite <- app_assoc. reflexivity.
  - rewrite <- app_assoc. exact Hu.
Qed.

(** ** checkers for concrete histories *)
Fixpoint proper_from (pre h : history A) : bool :=
  match h with
  | [] => true
  | eo :: t => match eo.1 with ETaskDone x => held x pre | _ => true end && proper_from (pre ++ [eo]) t
  end.
Lemma proper_from_sound pre h : proper_from pre h = true ->
  forall h1 x o h2, h = h1 ++ (ETaskDone x, o) :: h2 -> held x (pre ++ h1) = true.
Proof.
  revert pre. induction h as [|eo h IH]; intros pre Hc h1 x o h2 Heq; [destruct h1; discriminate|].
  simpl in Hc. apply andb_prop in Hc as [Hc1 Hc2]. destruct h1 as [|eo1 h1]; simpl in Heq; injection Heq as -> Heq.
  - simpl in Hc1. rewrite app_nil_r. exact Hc1.
  - specialize (IH _ Hc2 h1 x o h2 Heq). rewrite <- app_assoc in IH. exact IH.
Qed.
Lemma proper_use_check h : proper_from [] h = true -> proper_use h.
Proof. intros Hc h1 x o h2 Heq. apply (proper_from_sound [] h Hc h1 x o h2 Heq). Qed.

Fixpoint no_cancel_from s (h : history A) : bool :=
  match h with
  | [] => true
  | eo :: t => match eo.1 with ECancel c => negb (bool_decide (tasks s !! c = Some Woken)) | _ => true end
               && no_cancel_from (fst (step s eo.1)) t
  end.
Lemma no_cancel_check s h : no_cancel_from s h = true -> no_cancel_while_waking s h.
Proof.
  intros Hc h1 c o h2 m Heq Hx. revert s h Hc Heq Hx. induction h1 as [|[e1 o1] h1 IH]; intros s h Hc -> Hx.
  - inversion Hx; subst. simpl in Hc. apply andb_prop in Hc as [Hc1 _].
    apply negb_true_iff, bool_decide_eq_false in Hc1. exact Hc1.
  - simpl in Hc. apply andb_prop in Hc as [_ Hc2]. inversion Hx as [|? ? ? s1 ? ? He Hr]; subst.
    rewrite He in Hc2. eapply IH; [exact Hc2|reflexivity|exact Hr].
Qed.
End proofs.
