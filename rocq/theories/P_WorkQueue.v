(** Properties C01-C07: the work queue (workqueue.py). *)
From Coq Require Import ZArith Lia.
From stdpp Require Import base list gmap.
From Verif Require Import Trace WorkQueue_Model WorkQueue_Spec WorkQueue_Proofs.

(** C01. An item is never handed to a consumer while another consumer holds
    it: at every hand-out of [x], [x] was not held after the history before. *)
Theorem C01_exclusive :
  forall (A : Type) `{Countable A} (base mx : Z) (h : history A) (s : wq A),
  exec step (init base mx) h s -> proper_use h ->
  forall h1 e c x h2, h = h1 ++ (e, Some (Returned c (Item x))) :: h2 -> held x h1 = false.
Proof. exact @exclusive. Qed.
Print Assumptions C01_exclusive.

Definition ex1 : list (event nat) :=
  [EPut 7; EGet 0; EPut 7; EGet 1; EPut 8; EResume 1; ETaskDone 7; EGet 2; EGet 3; ETaskDone 7].
Example C01_example :
  let '(s, h) := run step (init 5 300) ex1 in
  exec step (init 5 300) h s /\ proper_use h /\
  map snd h = [None; Some (Returned 0 (Item 7)); None; None; None; Some (Returned 1 (Item 8)); None;
               Some (Returned 2 (Item 7)); None; None].
Proof.
  destruct (run step (init 5 300) ex1) as [s h] eqn:E. split; [eapply run_exec; exact E|].
  vm_compute in E. injection E as <- <-. split; [apply proper_use_check|]; vm_compute; reflexivity.
Qed.

(** The hypothesis [proper_use] is needed: task_done for an item nobody holds
    lets two consumers hold the same item. *)
Example C01_needs_proper_use :
  exists (h : history nat) s h1 e c x h2, exec step (init 5 300) h s /\
  h = h1 ++ (e, Some (Returned c (Item x))) :: h2 /\ held x h1 = true.
Proof.
  destruct (run step (init 5 300) [EPut 7; ETaskDone 7; EGet 0; EGet 1]) as [s h] eqn:E.
  exists h, s. apply run_exec in E as Hx. vm_compute in E. injection E as <- <-.
  eexists [_; _; _], _, _, _, []. split; [exact Hx|]. split; reflexivity.
Qed.

(** C02. A put is never lost. After any later history the item has been handed
    out after the request, or is in line, or is held and will re-enter the line
    at task_done, or (for delayed requests) a timer is set no later than the
    requested time. *)
Theorem C02_request_not_lost :
  forall (A : Type) `{Countable A} (base mx : Z) (h : history A) (s : wq A),
  exec step (init base mx) h s -> proper_use h ->
  forall h1 e o h2 x d, h = h1 ++ (e, o) :: h2 -> requests base mx h1 e x d ->
  handed_out x h2 \/ in_line x s \/ redo_after_done x h s \/
  exists w t, scheduled x w s /\ d = Some t /\ (w <= t)%Z.
Proof. exact @request_not_lost. Qed.
Print Assumptions C02_request_not_lost.

(** ... an item in line is handed out, in order, by as many get() calls as the line is long, *)
Theorem C02_line_is_handed_out :
  forall (A : Type) `{Countable A} (base mx : Z) (h : history A) (s : wq A),
  exec step (init base mx) h s -> closed s = false ->
  forall cs, NoDup cs -> (forall c, c ∈ cs -> ~ unfinished c s) -> length cs = length (queue s) ->
  snd (run step s (map EGet cs)) = zip_with (fun c x => (EGet c, Some (Returned c (Item x)))) cs (queue s).
Proof. exact @line_is_handed_out. Qed.
Print Assumptions C02_line_is_handed_out.

(** ... an item put while held enters the line at task_done, *)
Theorem C02_redo_enters_line :
  forall (A : Type) `{Countable A} (base mx : Z) (h : history A) (s : wq A) x,
  exec step (init base mx) h s -> redo_after_done x h s -> in_line x (fst (step s (ETaskDone x))).
Proof. exact @redo_enters_line. Qed.
Print Assumptions C02_redo_enters_line.

(** ... a timer that comes due puts its item, *)
Theorem C02_timer_puts :
  forall (A : Type) `{Countable A} (base mx : Z) (h : history A) (s : wq A) x w now,
  exec step (init base mx) h s -> proper_use h -> scheduled x w s -> (w <= now)%Z ->
  let s' := fst (step s (ETimer now x)) in
  (in_line x s' \/ redo_after_done x h s') /\ forall w', ~ scheduled x w' s'.
Proof. exact @timer_puts. Qed.
Print Assumptions C02_timer_puts.

(** ... and when the queue reports itself empty every put was handed out. *)
Theorem C02_empty_means_all_handed :
  forall (A : Type) `{Countable A} (base mx : Z) (h : history A) (s : wq A),
  exec step (init base mx) h s -> is_empty s = true ->
  forall h1 o h2 x, h = h1 ++ (EPut x, o) :: h2 -> handed_out x h2.
Proof. exact @empty_means_all_handed. Qed.
Print Assumptions C02_empty_means_all_handed.

(** Conversely nothing is handed out more often than it was asked for. *)
Theorem C02_no_spurious :
  forall (A : Type) `{Countable A} (base mx : Z) (h : history A) (s : wq A) x,
  exec step (init base mx) h s -> proper_use h -> count_handed x h <= count_requests x h.
Proof. exact @handed_le_requests. Qed.
Print Assumptions C02_no_spurious.

Example C02_example :
  let '(s, h) := run step (init 5 300) [EPut 7; EGet 0; EPut 7; EPutAfter 100 9 20; EPutAfter 105 9 30; EPut 8] in
  exec step (init 5 300) h s /\ proper_use h /\ redo_after_done 7 h s /\ scheduled 9 120 s /\ queue s = [8]
  /\ queue (fst (step s (ETaskDone 7))) = [8; 7] /\ queue (fst (step s (ETimer 121 9))) = [8; 9].
Proof.
  destruct (run _ _ _) as [s h] eqn:E. split; [eapply run_exec; exact E|].
  vm_compute in E. injection E as <- <-. split; [apply proper_use_check; vm_compute; reflexivity|].
  split; [split; [vm_compute; reflexivity|apply (bool_decide_unpack _); vm_compute; exact I]|].
  vm_compute; auto 10.
Qed.

(** C03. Duplicate puts are merged ... *)
Theorem C03_merge :
  forall (A : Type) `{Countable A} (base mx : Z) (h : history A) (s : wq A) x,
  exec step (init base mx) h s -> proper_use h -> in_line x s \/ redo_after_done x h s ->
  queue (fst (step s (EPut x))) = queue s /\ dirty (fst (step s (EPut x))) = dirty s /\
  processing (fst (step s (EPut x))) = processing s /\ timers (fst (step s (EPut x))) = timers s.
Proof. exact @merge_put. Qed.
Print Assumptions C03_merge.

(** ... no item is in line twice ... *)
Theorem C03_line_nodup :
  forall (A : Type) `{Countable A} (base mx : Z) (h : history A) (s : wq A),
  exec step (init base mx) h s -> proper_use h -> NoDup (queue s).
Proof. exact @line_nodup. Qed.
Print Assumptions C03_line_nodup.

(** ... and the line is first in, first out: an item put when [x] was already
    in line is never handed out before [x]. *)
Theorem C03_fifo :
  forall (A : Type) `{Countable A} (base mx : Z) (h : history A) (s : wq A),
  exec step (init base mx) h s ->
  forall x y o h' s', in_line x s -> ~ in_line y s -> held y h = false ->
  exec step s ((EPut y, o) :: h') s' -> proper_use (h ++ (EPut y, o) :: h') ->
  forall h1 eo h2, h' = h1 ++ eo :: h2 -> hands_out y eo = true -> handed_out x h1.
Proof. exact @fifo. Qed.
Print Assumptions C03_fifo.

Example C03_example :
  let '(s, h) := run step (init 5 300) [EPut 7; EPut 8; EPut 7] in
  exec step (init 5 300) h s /\ in_line 7 s /\ ~ in_line 9 s /\ held 9 h = false /\
  let '(s', h') := run step s [EPut 9; EGet 0; EGet 1; EGet 2] in
  proper_use (h ++ h') /\ map snd h' =
    [None; Some (Returned 0 (Item 7)); Some (Returned 1 (Item 8)); Some (Returned 2 (Item 9))].
Proof.
  destruct (run _ _ _) as [s h] eqn:E. split; [eapply run_exec; exact E|].
  vm_compute in E. injection E as <- <-. unfold in_line.
  split; [apply (bool_decide_unpack _); vm_compute; exact I|].
  split; [apply (bool_decide_unpack _); vm_compute; exact I|].
  split; [reflexivity|]. destruct (run _ _ _) as [s' h'] eqn:E. vm_compute in E. injection E as <- <-.
  split; [apply proper_use_check|]; vm_compute; reflexivity.
Qed.

(** C04. The earliest requested deadline counts (part of
    [C02_request_not_lost]: the timer is set no later than any outstanding
    request asked for), and a delayed put never happens early: an item becomes
    pending only by put, by a delayed put that is already due, or by a timer
    that runs at or after a deadline that was requested for that item. *)
Theorem C04_never_early :
  forall (A : Type) `{Countable A} (base mx : Z) (h : history A) (s : wq A) e s' o x,
  exec step (init base mx) h s -> step s e = (s', o) -> x ∉ dirty s -> x ∈ dirty s' ->
  e = EPut x \/
  (exists now d, e = EPutAfter now x d /\ (d <= 0)%Z) \/
  (exists now, e = EPutBackoff now x /\ (documented_delay base mx (n_failures x h) <= 0)%Z) \/
  (exists now w, e = ETimer now x /\
     (exists h1 e1 o1 h2, h = h1 ++ (e1, o1) :: h2 /\ requests base mx h1 e1 x (Some w)) /\ (w <= now)%Z).
Proof. exact @never_early. Qed.
Print Assumptions C04_never_early.

Theorem C04_earliest_counts :
  forall (A : Type) `{Countable A} (base mx : Z) (h : history A) (s : wq A),
  exec step (init base mx) h s -> proper_use h ->
  forall h1 now x delay o h2, h = h1 ++ (EPutAfter now x delay, o) :: h2 -> ~ handed_out x h2 ->
  in_line x s \/ redo_after_done x h s \/ exists w, scheduled x w s /\ (w <= now + delay)%Z.
Proof.
  intros A E0 C0 base mx h s Hx Hu h1 now x delay o h2 Hh Hno.
  destruct (C02_request_not_lost A base mx h s Hx Hu h1 _ o h2 x (Some (now + delay)%Z) Hh (conj eq_refl eq_refl))
    as [Hd|[Hd|[Hd|(w&t&Hw&[= <-]&Hle)]]]; eauto. contradiction.
Qed.
Print Assumptions C04_earliest_counts.

Example C04_example :
  let '(s, h) := run step (init 5 300) [EPutAfter 100 9 20; EPutAfter 101 9 5; EPutAfter 102 9 100; ETimer 105 9] in
  exec step (init 5 300) h s /\ proper_use h /\ scheduled 9 106 s /\ 9 ∉ dirty s /\ 9 ∈ dirty (fst (step s (ETimer 106 9))).
Proof.
  destruct (run _ _ _) as [s h] eqn:E. split; [eapply run_exec; exact E|].
  vm_compute in E. injection E as <- <-. split; [apply proper_use_check; vm_compute; reflexivity|].
  split; [vm_compute; reflexivity|]. split; apply (bool_decide_unpack _); vm_compute; exact I.
Qed.

(** C05. put_backoff is put_after with delay min(base * 2^n, max) where n is the
    number of backoffs of that item since its last reset ... *)
Theorem C05_backoff_delay :
  forall (A : Type) `{Countable A} (base mx : Z) (h : history A) (s : wq A) now x,
  exec step (init base mx) h s ->
  let s1 := fst (step s (EPutBackoff now x)) in
  let s2 := fst (step s (EPutAfter now x (Z.min (base * 2 ^ Z.of_nat (n_failures x h)) mx))) in
  queue s1 = queue s2 /\ processing s1 = processing s2 /\ dirty s1 = dirty s2 /\ timers s1 = timers s2 /\
  waiting s1 = waiting s2 /\ tasks s1 = tasks s2 /\ closed s1 = closed s2.
Proof. exact @put_backoff_is_put_after. Qed.
Print Assumptions C05_backoff_delay.

(** ... failures() reports that number ... *)
Theorem C05_failures :
  forall (A : Type) `{Countable A} (base mx : Z) (h : history A) (s : wq A) x,
  exec step (init base mx) h s -> failures x s = n_failures x h.
Proof. intros A E0 C0 base mx h s x Hx. exact (proj2 (proj2 (Cst_exec _ _ _ _ Hx)) x). Qed.
Print Assumptions C05_failures.

(** ... and the delays grow from min(base, max) and never exceed max. *)
Theorem C05_monotone_bounded :
  forall base mx n, (0 <= base)%Z ->
  (documented_delay base mx n <= documented_delay base mx (S n))%Z /\
  (Z.min base mx <= documented_delay base mx n <= mx)%Z.
Proof. exact (fun base mx n Hb => conj (documented_delay_mono base mx n Hb) (documented_delay_bounds base mx n Hb)). Qed.
Print Assumptions C05_monotone_bounded.

Example C05_example :
  let '(s, h) := run step (init 5 30) [EPutBackoff 0 1; ETimer 5 1; EPutBackoff 10 1; ETimer 20 1; EPutBackoff 30 2;
                                       EPutBackoff 100 1; ETimer 120 1; EPutBackoff 200 1] in
  exec step (init 5 30) h s /\ n_failures 1 h = 4 /\ n_failures 2 h = 1 /\ scheduled 1 230 s /\ scheduled 2 35 s.
Proof.
  destruct (run _ _ _) as [s h] eqn:E. split; [eapply run_exec; exact E|].
  vm_compute in E. injection E as <- <-. vm_compute. auto.
Qed.

(** C06. While an item is in line no consumer sleeps without a wake-up on its
    way, provided no get() is cancelled between its wake-up and its next run. *)
Theorem C06_wakeups_partial :
  forall (A : Type) `{Countable A} (base mx : Z) (h : history A) (s : wq A),
  exec step (init base mx) h s -> no_cancel_while_waking (init base mx) h ->
  forall c x q, asleep c s -> queue s = x :: q ->
  closed s = false /\ (exists c', awake c' s) /\
  forall c', awake c' s -> snd (step s (EResume c')) = Some (Returned c' (Item x)).
Proof. exact @no_lost_wakeup. Qed.
Print Assumptions C06_wakeups_partial.

(** As many wake-ups are on their way as items are in line. *)
Theorem C06_enough_wakeups_partial :
  forall (A : Type) `{Countable A} (base mx : Z) (h : history A) (s : wq A),
  exec step (init base mx) h s -> no_cancel_while_waking (init base mx) h ->
  forall c, asleep c s -> length (queue s) <= size (filter (fun kv => kv.2 = Woken) (tasks s)).
Proof. exact @enough_wakeups. Qed.
Print Assumptions C06_enough_wakeups_partial.

Example C06_example :
  let '(s, h) := run step (init 5 300) [EGet 0; EGet 1; EGet 2; ECancel 1; EPut 7] in
  exec step (init 5 300) h s /\ no_cancel_while_waking (init 5 300) h /\ asleep 2 s /\ queue s = [7] /\ awake 0 s.
Proof.
  destruct (run _ _ _) as [s h] eqn:E. split; [eapply run_exec; exact E|].
  vm_compute in E. injection E as <- <-. split; [apply no_cancel_check; vm_compute; reflexivity|].
  vm_compute. auto.
Qed.

(** Without that condition the property is false: two consumers wait, an item
    is put, the woken consumer is cancelled before it runs; the item stays in
    line and the other consumer sleeps with nothing on its way. *)
Theorem C06_wakeups_refuted :
  exists (h : history nat) s, exec step (init 5 300) h s /\ proper_use h /\ closed s = false /\
  (exists c, asleep c s) /\ queue s = [7] /\ (forall c, ~ awake c s) /\
  forall c, unfinished c s -> snd (step s (EResume c)) = None.
Proof.
  destruct (run step (init 5 300) [EGet 0; EGet 1; EPut 7; ECancel 0; EResume 0]) as [s h] eqn:E.
  exists h, s. split; [eapply run_exec; exact E|].
  vm_compute in E. injection E as <- <-.
  assert (Htasks : forall c st, (tasks (WQ 5 300 ∅ [1] [7] ∅ {[7]} ∅ false {[1 := Blocked]}) !! c : option cstate) = Some st -> c = 1 /\ st = Blocked).
  { intros c st. simpl. rewrite lookup_singleton_Some. intros [<- <-]. auto. }
  split; [apply proper_use_check; vm_compute; reflexivity|]. split; [reflexivity|].
  split; [exists 1; reflexivity|]. split; [reflexivity|]. split.
  - intros c Hc. apply Htasks in Hc as [_ Hc]. discriminate.
  - intros c [st Hc]. apply Htasks in Hc as [-> ->]. vm_compute. reflexivity.
Qed.
Print Assumptions C06_wakeups_refuted.

(** C07. After close() no item is ever handed out, no consumer sleeps, every
    suspended get() ends with an error when it runs, and new ones fail at once. *)
Theorem C07_close :
  forall (A : Type) `{Countable A} (base mx : Z) (h : history A) (s : wq A),
  exec step (init base mx) h s ->
  forall h1 o h2, h = h1 ++ (EClose, o) :: h2 ->
  (forall x, ~ handed_out x h2) /\ (forall c, ~ asleep c s) /\
  (forall c, unfinished c s -> exists r, snd (step s (EResume c)) = Some (Returned c r) /\ (r = ClosedError \/ r = CancelledError)) /\
  (forall c, ~ unfinished c s -> snd (step s (EGet c)) = Some (Returned c ClosedError)).
Proof. exact @after_close. Qed.
Print Assumptions C07_close.

Example C07_example :
  let '(s, h) := run step (init 5 300) [EGet 0; EGet 1; EClose; EPut 7; EResume 1; EGet 2] in
  exec step (init 5 300) h s /\ map snd h = [None; None; None; None; Some (Returned 1 ClosedError); Some (Returned 2 ClosedError)]
  /\ unfinished 0 s.
Proof.
  destruct (run _ _ _) as [s h] eqn:E. split; [eapply run_exec; exact E|].
  vm_compute in E. injection E as <- <-. split; [reflexivity|]. vm_compute. eauto.
Qed.
