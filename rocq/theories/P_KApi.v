(** C125-C130: requests about clusters on Kubernetes. *)
From stdpp Require Import prelude gmap.
From Verif Require Import Trace View_Model View_Spec KApi_Model KApi_Spec KApi_Proofs.

(** * C125 *)
(** If the gateway knew of the cluster when a DELETE came in, and the DELETE was
    answered 204, the cluster is ending from then on.  Missing: a cluster that the
    gateway has not seen yet. *)
Theorem C125_stop_partial : forall h s1 u k v o h1 s2, kreach h s1 -> get_cluster (a_view s1) k = Some v ->
  kleads s1 ((KStop u k, o) :: h1) s2 -> answered ((KStop u k, o) :: h1) (length (a_reqs s1)) ADone -> ending s2 k.
Proof. exact stopped. Qed.
Print Assumptions C125_stop_partial.

(** * C126 *)
(** Who is told of a cluster asked for it, owns it, and is told what it was at some
    time. *)
Theorem C126_truthful : forall h s i k v, kreach h s -> answered h i (AReport k v) ->
  (asked h i (KGet (v_user v) k) \/ asked h i (KGetWait (v_user v) k)) /\ exists x, was s k x /\ tells (so_obj x) v.
Proof. exact truthful. Qed.
Print Assumptions C126_truthful.
(** Of two reports on a cluster the second is never behind the first, also when the
    gateway started again in between. *)
Theorem C126_forward : forall h1 e1 i1 k v1 h2 e2 i2 v2 h3 s,
  kreach (h1 ++ (e1, Some (i1, AReport k v1)) :: h2 ++ (e2, Some (i2, AReport k v2)) :: h3) s ->
  v_user v1 = v_user v2 /\ no_earlier (v_status v1) (v_status v2).
Proof. exact forward_h. Qed.
Print Assumptions C126_forward.
(** A cluster that was found once is found until its record is deleted.  Missing: a
    gateway that started again. *)
Theorem C126_stays_partial : forall h1 e1 i1 k v h2 e2 i2 h3 s,
  kreach (h1 ++ (e1, Some (i1, AReport k v)) :: h2 ++ (e2, Some (i2, ANotFound k)) :: h3) s -> same_process h2 -> k ∈ a_gone s.
Proof. exact stays_h. Qed.
Print Assumptions C126_stays_partial.

(** * C127 *)
(** A GET ?wait that is answered before its 20 seconds are over tells of a cluster
    that is not pending, or the cluster's record was deleted, or the cluster belongs to
    somebody else. *)
Theorem C127_early : forall h s i a, kreach h s -> (KFlag i false, Some (i, a)) ∈ h -> exists u k, asked h i (KGetWait u k) /\
  match a with
  | AReport k' v => k' = k /\ v_user v = u /\ v_status v <> PENDING
  | ANotFound k' => k' = k /\ k ∈ a_gone s
  | AForbidden k' => k' = k
  | _ => False
  end.
Proof. exact early. Qed.
Print Assumptions C127_early.
(** No wake-up is missed: as long as the gateway knows that a cluster is not pending,
    whoever waits for it can be answered at once; *)
Theorem C127_wakes : forall h s i u k f v, kreach h s -> a_reqs s !! i = Some (RWait u k f) -> get_cluster (a_view s) k = Some v -> v_status v <> PENDING ->
  exists s', kstep s (KFlag i false) = (s', Some (i, if decide (v_user v = u) then AReport k v else AForbidden k)).
Proof.
  intros h s i u k f v Hr Hi Hc Hv. destruct (wakes h s i u k f v Hr Hi Hc Hv) as [s' H]. exists s'. rewrite H. unfold look. by rewrite Hc.
Qed.
Print Assumptions C127_wakes.
(** and the same when the gateway sees that the record was deleted. *)
Theorem C127_wakes_deleted : forall h s i u k f v e s' o, kreach h s -> a_reqs s !! i = Some (RWait u k f) -> get_cluster (a_view s) k = Some v ->
  kstep s e = (s', o) -> e <> KRestart -> get_cluster (a_view s') k = None -> exists s2, kstep s' (KFlag i false) = (s2, Some (i, ANotFound k)).
Proof. exact wakes_deleted. Qed.
Print Assumptions C127_wakes_deleted.

(** * C128 *)
(** When the gateway has caught up with a cluster it shows it as it is, and shows no
    deleted one.  Missing: the time until then. *)
Theorem C128_found_partial : forall h s k, kreach h s -> caught_up s k ->
  match newest s k, get_cluster (a_view s) k with Some x, Some v => shown (so_obj x) v | None, None => True | _, _ => False end.
Proof. exact caught_up_current. Qed.
Print Assumptions C128_found_partial.
(** It can catch up from any state by its own steps. *)
Theorem C128_catches_up : forall h s k, kreach h s ->
  exists h' s', kleads s h' s' /\ Forall (fun eo => own_step (fst eo)) h' /\ caught_up s' k /\ newest s' k = newest s k.
Proof. exact catches_up. Qed.
Print Assumptions C128_catches_up.

(** * C129 *)
(** A Flag is kept only for a cluster that the gateway knows or for a name that was
    asked for with ?wait.  Missing: names that were never, or are no longer, a
    cluster's. *)
Theorem C129_memory_partial : forall h s k f, kreach h s -> a_waiters s !! k = Some f -> is_Some (get_cluster (a_view s) k) \/ exists i u, asked h i (KGetWait u k).
Proof. exact waiters_known. Qed.
Print Assumptions C129_memory_partial.
(** Any number of Flags can be left when all requests are answered and there is no
    cluster at all. *)
Theorem C129_memory_refuted : forall n, exists h s, kreach h s /\
  Forall (fun eo => match fst eo with KGetWait _ _ | KFlag _ true => True | _ => False end) h /\
  Forall (fun r => r = ROver) (a_reqs s) /\ a_view s = init /\ a_srv s = ∅ /\ size (a_waiters s) = n.
Proof. exact leak. Qed.
Print Assumptions C129_memory_refuted.

(** * C130 *)
(** Every cluster belongs to a user who posted it, and is told to end only by a DELETE
    of that user or of the cluster itself. *)
Theorem C130_owner : forall h s k x, kreach h s -> was s k x ->
  (exists i, asked h i (KPost (username (so_obj x)) k)) /\
  (so_active x = false -> exists i u, asked h i (KStop u k) /\ (u = None \/ u = Some (username (so_obj x)))).
Proof. exact owner_only. Qed.
Print Assumptions C130_owner.

(** * Examples *)
Definition kx (es : list kevent) : kapi := fst (run kstep kinit es).
Definition kh (es : list kevent) : khistory := snd (run kstep kinit es).
Lemma kx_run es : kreach (kh es) (kx es).
Proof. apply (run_exec kstep kinit es). unfold kx, kh. by destruct (run kstep kinit es). Qed.

Definition pend : obj := Obj 1 PENDING None false None.
Definition runs : obj := Obj 1 RUNNING (Some 7%positive) true None.
Definition stops : obj := Obj 1 STOPPED None true (Some 9%Z).
(** Created; polled with ?wait; runs; the wait ends; stopped by its owner; polled;
    deleted. *)
Definition story : list kevent :=
  [KPost 1 5; KServer 0 Done; KWatch 5 1; KSync 5; KGetWait 1 5; KPhase 5 runs; KWatch 5 1; KSync 5; KSecret (Some 3%positive); KFlag 1 false;
   KStop (Some 1%positive) 5; KServer 2 Done; KPhase 5 stops; KWatch 5 2; KSync 5; KGet 1 5; KGet 2 5; KDelete 5; KWatch 5 1; KSync 5; KGet 1 5].
Example C126_example : omap snd (kh story) =
  [(0, AName 5); (1, AReport 5 (View 1 RUNNING (Some 7%positive) (Some 3%positive) None)); (2, ADone);
   (3, AReport 5 (View 1 STOPPED None (Some 3%positive) (Some 9%Z))); (4, AForbidden 5); (5, ANotFound 5)].
Proof. vm_compute. reflexivity. Qed.
(** The POST is confirmed; the wait of its ?wait runs out; the DELETE that follows is
    confirmed; then the cluster runs. *)
Definition lost : list kevent :=
  [KPost 1 5; KServer 0 Done; KGetWait 1 5; KFlag 1 true; KStop (Some 1%positive) 5; KWatch 5 1; KSync 5; KPhase 5 runs; KWatch 5 1; KSync 5; KSecret (Some 3%positive)].
Definition lost_end : khistory :=
  [(KWatch 5 1, None); (KSync 5, None); (KPhase 5 runs, None); (KWatch 5 1, None); (KSync 5, None); (KSecret (Some 3%positive), None)].
Lemma lost_h : kh lost = [(KPost 1 5, None)] ++ (KServer 0 Done, Some (0, AName 5)) :: [(KGetWait 1 5, None)] ++ (KFlag 1 true, Some (1, ANotFound 5)) ::
  [] ++ (KStop (Some 1%positive) 5, Some (2, ADone)) :: lost_end.
Proof. vm_compute. reflexivity. Qed.
Lemma lost_asked x : asked ((KPost 1 5, None) :: x) 0 (KPost 1 5).
Proof. exists [], kinit, None, (fst (kstep kinit (KPost 1 5))), x. split; [done|]. split; [constructor|]. split; [vm_compute; reflexivity|]. split; vm_compute; reflexivity. Qed.
Lemma lost_same : same_process (kh lost).
Proof. intros o. rewrite lost_h. unfold lost_end. cbn [app]. rewrite !elem_of_cons, elem_of_nil. naive_solver. Qed.
Lemma lost_caught : caught_up (kx lost) 5.
Proof.
  split; [vm_compute; reflexivity|]. split.
  - assert (bool_decide (5%positive ∉ dirty (a_view (kx lost))) = true) as H by (vm_compute; reflexivity). by apply bool_decide_eq_true in H.
  - assert (proc (a_view (kx lost)) = None) as -> by (vm_compute; reflexivity). done.
Qed.
Lemma lost_newest : newest (kx lost) 5 = Some (SObj runs true).
Proof. vm_compute. reflexivity. Qed.
(** The user's POST and then their DELETE are confirmed; at the end the gateway has
    seen everything, and the cluster runs and has not been told to end. *)
Theorem C125_stop_refuted : exists h1 i1 k h2 u i2 h3 s x,
  kreach (h1 ++ (KServer i1 Done, Some (i1, AName k)) :: h2 ++ (KStop (Some u) k, Some (i2, ADone)) :: h3) s /\
  asked (h1 ++ (KServer i1 Done, Some (i1, AName k)) :: h2 ++ (KStop (Some u) k, Some (i2, ADone)) :: h3) i1 (KPost u k) /\
  same_process (h1 ++ (KServer i1 Done, Some (i1, AName k)) :: h2 ++ (KStop (Some u) k, Some (i2, ADone)) :: h3) /\
  caught_up s k /\ newest s k = Some x /\ so_active x = true /\ ophase (so_obj x) = RUNNING.
Proof.
  exists [(KPost 1 5, None)], 0, 5%positive, [(KGetWait 1 5, None); (KFlag 1 true, Some (1, ANotFound 5))], 1%positive, 2, lost_end, (kx lost), (SObj runs true).
  pose proof (kx_run lost) as H1. pose proof lost_same as H2. rewrite lost_h in H1, H2. cbn [app] in H1, H2 |- *.
  split; [exact H1|]. split; [apply lost_asked|]. split; [exact H2|]. split; [exact lost_caught|]. split; [exact lost_newest|]. done.
Qed.
Print Assumptions C125_stop_refuted.
(** A cluster whose POST was confirmed is not found by its owner's GET ?wait, after the
    full 20 seconds; it exists all the time, and later it runs. *)
Theorem C128_found_refuted : exists h1 i1 k h2 i2 h3 u s s1 x,
  kreach (h1 ++ (KServer i1 Done, Some (i1, AName k)) :: h2 ++ (KFlag i2 true, Some (i2, ANotFound k)) :: h3) s /\
  asked (h1 ++ (KServer i1 Done, Some (i1, AName k)) :: h2 ++ (KFlag i2 true, Some (i2, ANotFound k)) :: h3) i1 (KPost u k) /\
  same_process (h1 ++ (KServer i1 Done, Some (i1, AName k)) :: h2 ++ (KFlag i2 true, Some (i2, ANotFound k)) :: h3) /\
  kreach (h1 ++ (KServer i1 Done, Some (i1, AName k)) :: h2) s1 /\ newest s1 k = Some (new_obj u) /\
  newest s k = Some x /\ so_active x = true /\ ophase (so_obj x) = RUNNING.
Proof.
  exists [(KPost 1 5, None)], 0, 5%positive, [(KGetWait 1 5, None)], 1, ((KStop (Some 1%positive) 5, Some (2, ADone)) :: lost_end), 1%positive, (kx lost), (kx (take 3 lost)), (SObj runs true).
  pose proof (kx_run lost) as H1. pose proof lost_same as H2. rewrite lost_h in H1, H2. cbn [app] in H1, H2 |- *.
  split; [exact H1|]. split; [apply lost_asked|]. split; [exact H2|]. split.
  { assert (kh (take 3 lost) = [(KPost 1 5, None); (KServer 0 Done, Some (0, AName 5)); (KGetWait 1 5, None)]) as E by (vm_compute; reflexivity). rewrite <- E. apply kx_run. }
  split; [vm_compute; reflexivity|]. split; [exact lost_newest|]. done.
Qed.
Print Assumptions C128_found_refuted.
(** The gateway starts again: a cluster found before is not found, though its record
    is there. *)
Definition again : list kevent := [KPost 1 5; KServer 0 Done; KWatch 5 1; KSync 5; KGet 1 5; KRestart; KGet 1 5].
Lemma again_h : kh again = [(KPost 1 5, None); (KServer 0 Done, Some (0, AName 5)); (KWatch 5 1, None); (KSync 5, None)] ++
  (KGet 1 5, Some (1, AReport 5 (build pend))) :: [(KRestart, None)] ++ (KGet 1 5, Some (2, ANotFound 5)) :: [].
Proof. vm_compute. reflexivity. Qed.
Theorem C126_stays_refuted : exists h1 e1 i1 k v h2 e2 i2 h3 s x,
  kreach (h1 ++ (e1, Some (i1, AReport k v)) :: h2 ++ (e2, Some (i2, ANotFound k)) :: h3) s /\ newest s k = Some x.
Proof.
  pose proof (kx_run again) as H. rewrite again_h in H. exists [(KPost 1 5, None); (KServer 0 Done, Some (0, AName 5)); (KWatch 5 1, None); (KSync 5, None)], (KGet 1 5), 1, 5%positive, (build pend), [(KRestart, None)], (KGet 1 5), 2, [], (kx again), (new_obj 1).
  split; [exact H|]. vm_compute. reflexivity.
Qed.
Print Assumptions C126_stays_refuted.

(** The hypotheses are met in [story]. *)
Example C125_example : exists v o, get_cluster (a_view (kx (take 10 story))) 5 = Some v /\ v_status v = RUNNING /\
  kleads (kx (take 10 story)) ((KStop (Some 1%positive) 5, o) :: [(KServer 2 Done, Some (2, ADone))]) (kx (take 12 story)) /\
  length (a_reqs (kx (take 10 story))) = 2 /\ newest (kx (take 12 story)) 5 = Some (SObj runs false).
Proof.
  exists (View 1 RUNNING (Some 7%positive) (Some 3%positive) None), None. split; [vm_compute; reflexivity|]. split; [done|]. split; [|split; vm_compute; reflexivity].
  pose proof (kx_run (take 12 story)) as H. assert (kh (take 12 story) = kh (take 10 story) ++ [(KStop (Some 1%positive) 5, None); (KServer 2 Done, Some (2, ADone))]) as E by (vm_compute; reflexivity).
  rewrite E in H. apply exec_app in H as (m & H1 & H2). apply exec_run in H1. assert (m = kx (take 10 story)) as ->; [|exact H2].
  assert (map fst (kh (take 10 story)) = take 10 story) as E2 by (vm_compute; reflexivity). rewrite E2 in H1. unfold kx. by rewrite H1.
Qed.
Example C127_example : a_reqs (kx (take 9 story)) !! 1 = Some (RWait 1 5 0) /\
  (exists v, get_cluster (a_view (kx (take 9 story))) 5 = Some v /\ v_status v = RUNNING) /\
  snd (kstep (kx (take 8 story)) (KFlag 1 false)) = None /\
  snd (kstep (kx (take 9 story)) (KFlag 1 false)) = Some (1, AReport 5 (View 1 RUNNING (Some 7%positive) (Some 3%positive) None)).
Proof. split; [vm_compute; reflexivity|]. split; [eexists; split; [vm_compute; reflexivity|]; done|]. split; vm_compute; reflexivity. Qed.
(** Somebody who waits for a pending cluster when its record is deleted. *)
Example C127_deleted_example :
  let s := kx [KPost 1 5; KServer 0 Done; KWatch 5 1; KSync 5; KGetWait 1 5; KDelete 5; KWatch 5 1] in
  a_reqs s !! 1 = Some (RWait 1 5 0) /\ get_cluster (a_view s) 5 = Some (build pend) /\ snd (kstep s (KFlag 1 false)) = None /\
  snd (kstep (fst (kstep s (KSync 5))) (KFlag 1 false)) = Some (1, ANotFound 5).
Proof. cbv zeta. split; [vm_compute; reflexivity|]. split; [vm_compute; reflexivity|]. split; vm_compute; reflexivity. Qed.
Example C128_example : caught_up (kx lost) 5 /\ get_cluster (a_view (kx lost)) 5 = Some (View 1 RUNNING (Some 7%positive) (Some 3%positive) None).
Proof. split; [exact lost_caught|vm_compute; reflexivity]. Qed.
Example C129_example : a_waiters (kx story) = ∅ /\ size (a_waiters (kx (take 10 story))) = 1.
Proof. split; [apply map_to_list_empty_iff; vm_compute; reflexivity|vm_compute; reflexivity]. Qed.
Example C130_example : was (kx story) 5 (SObj stops false) /\ newest (kx (take 13 story)) 5 = Some (SObj stops false).
Proof. split; [|vm_compute; reflexivity]. exists [new_obj 1; SObj runs true; SObj runs false; SObj stops false]. split; [vm_compute; reflexivity|]. set_solver. Qed.
