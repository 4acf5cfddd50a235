(** Properties C49-C51, C67 and C99: worker pods on Kubernetes. *)
From Coq Require Import ZArith Lia.
From stdpp Require Import gmap.
From Verif Require Import Trace Kube_Model Kube_Spec Kube_Proofs Kube_Proofs2 Kube_Proofs3 Kube_Proofs4 Kube_Proofs5 Kube_Proofs6.
Local Open Scope Z_scope.

(** C49. A pod is in the set of the last thing the handlers were told about it (since
    the controller started), and in no set if its deletion came last. *)
Theorem C49_last_said : forall h s p k, exec step init h s -> p ∈ pods_of (inf s) k <-> last_said (obs_of h) p k.
Proof. exact sets_last. Qed.
Print Assumptions C49_last_said.
(** The sets are disjoint and make up the pods known. *)
Theorem C49_disjoint : forall h s, exec step init h s ->
  (forall p, p ∈ all_pods (inf s) <-> exists k, p ∈ pods_of (inf s) k) /\ (forall p k k', p ∈ pods_of (inf s) k -> p ∈ pods_of (inf s) k' -> k = k').
Proof. exact sets_disjoint. Qed.
Print Assumptions C49_disjoint.
(** Watch events are counted by the pods that become known or unknown... *)
Theorem C49_counted : forall s e s' o, step s e = (s', o) -> match e with EDeliver _ _ | ERelist _ _ => True | _ => False end ->
  creates (inf s') = creates (inf s) - Z.of_nat (size (all_pods (inf s') ∖ all_pods (inf s))) /\
  deletes (inf s') = deletes (inf s) - Z.of_nat (size (all_pods (inf s) ∖ all_pods (inf s'))).
Proof. exact step_counts. Qed.
Print Assumptions C49_counted.
(** ... and a deleted pod is never heard of again, so each pod is counted at most
    once each way, whatever is repeated or relisted. *)
Theorem C49_once : forall h s p o1 put o2, exec step init h s -> obs_of h = o1 ++ OCall (Del p) put :: o2 ->
  forall w put', OCall w put' ∈ o2 -> w <> Del p /\ forall st, w <> Upd p st.
Proof.
  intros h s p o1 put o2 Hx E w put' Hw. destruct (deleted_once h s p Hx) as [H _]. specialize (H o1 put o2 E). rewrite Forall_forall in H. specialize (H _ Hw). cbn in H.
  split; [by intros ->|by intros st ->].
Qed.
Print Assumptions C49_once.
(** For examples: the run of a list of events. *)
Definition the_state (es : list event) : state := fst (run step init es).
Definition the_history (es : list event) : history := snd (run step init es).
Lemma the_run es : exec step init (the_history es) (the_state es).
Proof. apply (run_exec _ _ es). unfold the_state, the_history. by destruct (run step init es). Qed.
Lemma the_events es : map fst (the_history es) = es.
Proof.
  unfold the_history. generalize init. induction es as [|e es IH]; intros s; cbn [run]; [done|]. destruct (step s e) as [s1 o]. specialize (IH s1). destruct (run step s1 es). cbn in *. by f_equal.
Qed.
Lemma the_forall (P : event -> Prop) es : Forall P es -> Forall (fun eo => P (fst eo)) (the_history es).
Proof. intros H. rewrite <- (the_events es) in H. by rewrite Forall_fmap in H. Qed.
Ltac by_computation := apply (bool_decide_unpack _); vm_compute; done.
Definition waiting := Status Pending (Some Waiting).
Definition up := Status Active (Some Running).
Definition deliver := EDeliver false false.
Definition ex1 : list event :=
  [EReconcile 3 false []; ECreate (Made 1%positive); ECreate (Made 2%positive); ECreate (Made 3%positive);
   EStatus 1%positive waiting; EStatus 2%positive up; EStatus 3%positive (Status Failed (Some (Terminated 1))); deliver; deliver; deliver; deliver; deliver; ERelist false false; EGone 1%positive; EGone 2%positive; deliver].
Example C49_example : exists h s, exec step init h s /\ map fst h = ex1 /\ running (inf s) = {[2%positive]} /\ failed (inf s) = {[3%positive]} /\ pending (inf s) = ∅ /\ creates (inf s) = 0.
Proof. exists (the_history ex1), (the_state ex1). split; [apply the_run|]. split; [apply the_events|]. repeat split; by_computation. Qed.

(** C50/C51. One run of the reconciliation asks for at most the missing number of
    pods, and for exactly that many if no request fails. *)
Theorem C51_at_most : forall s0 r x order o h s, exec step s0 ((EReconcile r x order, o) :: h) s -> pc s0 = Idle ->
  Forall (fun eo => restarts (fst eo) = false) h -> one_run (o ++ obs_of h) -> o <> [] ->
  Z.of_nat (requests (o ++ obs_of h)) <= missing r (inf s0).
Proof. intros. by eapply creates_at_most. Qed.
Print Assumptions C51_at_most.
Theorem C50_up : forall s0 r x order o h s, exec step s0 ((EReconcile r x order, o) :: h) s -> pc s0 = Idle ->
  Forall (fun eo => restarts (fst eo) = false) h -> one_run (o ++ obs_of h) -> o <> [] ->
  x = true \/ (creates (inf s0) <= 0 /\ deletes (inf s0) <= 0) -> Forall (fun eo => create_error (fst eo) = false) h -> returned (o ++ obs_of h) ->
  Z.of_nat (requests (o ++ obs_of h)) = missing r (inf s0).
Proof.
  intros s0 r x order o h s Hx Hp Hr H1 Ho Ht. eapply creates_at_most; try done. unfold should_trigger. destruct Ht as [->|[? ?]]; [apply orb_true_r|].
  apply orb_true_iff. left. unfold fulfilled. lia.
Qed.
Print Assumptions C50_up.
(** After an error no further pod is asked for. *)
Theorem C51_stops : forall s e o h s', exec step s ((e, o) :: h) s' -> (exists rest batch n bad todel, pc s = Creating rest batch (S n) bad todel) ->
  e = ECreate Refused \/ (exists p, e = ECreate (Lost p) /\ p ∉ used s) -> Forall (fun eo => restarts (fst eo) = false) h -> one_run (o ++ obs_of h) ->
  requests (o ++ obs_of h) = 0%nat.
Proof. exact stops_after_error. Qed.
Print Assumptions C51_stops.
(** The number of creations still expected is the number of pods made and not yet
    reported, plus the requests not yet answered or sent, if no request fails although
    the pod was made... *)
Theorem C51_expected_partial : forall h s, exec step init h s -> calm h ->
  exists U : gset pod, (forall p, p ∈ U <-> p ∈ used s /\ ~ told (obs_of h) p) /\ creates (inf s) = Z.of_nat (size U) + Z.of_nat (outstanding s).
Proof. exact expected_exact. Qed.
Print Assumptions C51_expected_partial.
Definition ex2 : list event := [EReconcile 7 false []; ECreate (Made 1%positive); ECreate (Made 2%positive); EStatus 1%positive up; deliver; deliver; deliver; ECreate Refused].
Example C51_example : exists o h s, exec step init ((EReconcile 7 false [], o) :: h) s /\ Forall (fun eo => restarts (fst eo) = false) h /\ one_run (o ++ obs_of h) /\ o <> [] /\
  requests (o ++ obs_of h) = 3%nat /\ missing 7 (inf init) = 7 /\ creates (inf s) = 1 /\ calm ((EReconcile 7 false [], o) :: h).
Proof.
  pose proof (the_run ex2) as Hx. pose proof (the_events ex2) as He. destruct (the_history ex2) as [|[e o] h] eqn:E; [done|]. assert (e = EReconcile 7 false []) as -> by (by injection He).
  assert (Ho : o ++ obs_of h = obs_of (the_history ex2)) by (rewrite E; done). assert (Eo : obs_of (the_history ex2) = [OCreate 1; OCreate 2; OCall (Upd 1%positive (Status Pending None)) false; OCall (Upd 2%positive (Status Pending None)) false; OCall (Upd 1%positive up) false; OReturn true]) by (vm_compute; reflexivity).
  exists o, h, (the_state ex2). split; [exact Hx|]. rewrite Ho, Eo. split; [|split; [|split; [|split; [|split; [|split]]]]].
  - injection He as He. assert (Hf : Forall (fun e => restarts e = false) (map fst h)) by (rewrite He; by_computation). by rewrite Forall_fmap in Hf.
  - intros o1 b o2 Eq. do 6 (destruct o1 as [|? o1]; [first [discriminate Eq | by injection Eq]|]; cbn in Eq; injection Eq as _ Eq). by destruct o1.
  - intros ->. assert (Hs : head (map snd (the_history ex2)) = Some [OCreate 1]) by (vm_compute; reflexivity). rewrite E in Hs. discriminate Hs.
  - reflexivity.
  - reflexivity.
  - vm_compute. reflexivity.
  - rewrite <- E. apply (the_forall (fun e => calm_event e = true)). by_computation.
Qed.
(** ... but with such a failure it can become negative. *)
Definition ex7 := [EReconcile 1 false []; ECreate (Lost 1%positive); EStatus 1%positive waiting; deliver; deliver].
Theorem C51_expected_refuted : exists h s, exec step init h s /\ map fst h = ex7 /\ pc s = Idle /\ creates (inf s) = -1.
Proof. exists (the_history ex7), (the_state ex7). split; [apply the_run|]. split; [apply the_events|]. split; by vm_compute. Qed.
Print Assumptions C51_expected_refuted.
(** No deletion is waited for in vain: at most as many are expected as there are pods that
    the controller knows and whose deletion was accepted (in the order asked, answered)... *)
Theorem C51_deletions : forall h s, exec step init h s -> pc s = Idle ->
  exists D : gset pod, deletes (inf s) <= Z.of_nat (size D) /\ forall p, p ∈ D -> p ∈ all_pods (inf s) /\ deletion_accepted p h.
Proof. exact no_vain_wait. Qed.
Print Assumptions C51_deletions.
(** ... so that, with every watch event delivered, none is expected unless such a pod is
    still there. *)
Theorem C51_deletions_at_rest : forall h s, exec step init h s -> pc s = Idle -> wq s = [] -> 0 < deletes (inf s) -> exists p, p ∈ dom (srv s) /\ deletion_accepted p h.
Proof.
  intros h s Hx Hp Hw Hd. destruct (no_vain_wait h s Hx Hp) as (D & H1 & H2). destruct (decide (D = ∅)) as [->|Hn]; [rewrite size_empty in H1; lia|].
  apply set_choose_L in Hn as [p Hp']. destruct (H2 p Hp') as [Hk Ha]. exists p. split; [|done]. by apply (view_at_rest h s p Hx Hw).
Qed.
Print Assumptions C51_deletions_at_rest.
Definition ex11 : list event := [EReconcile 1 false []; ECreate (Made 1%positive); EStatus 1%positive (Status Failed (Some (Terminated 1))); deliver; deliver; EReconcile 0 false []; EDelete 1%positive true].
Example C51_deletions_example : exists h s, exec step init h s /\ map fst h = ex11 /\ pc s = Idle /\ wq s = [] /\ deletes (inf s) = 1 /\ 1%positive ∈ dom (srv s).
Proof. exists (the_history ex11), (the_state ex11). split; [apply the_run|]. split; [apply the_events|]. split; [by vm_compute|]. split; [by vm_compute|]. split; [by vm_compute|by_computation]. Qed.
Definition ex4 : list event := [EReconcile 3 false []; ECreate (Made 1%positive); ECreate (Made 2%positive); ECreate (Made 3%positive)].
Example C50_example : exists h s, exec step init h s /\ map fst h = ex4 /\ requests (obs_of h) = 3%nat /\ returned (obs_of h).
Proof.
  exists (the_history ex4), (the_state ex4). split; [apply the_run|]. split; [apply the_events|]. split; [by vm_compute|]. exists false. vm_compute. right. right. left.
Qed.
(** Scaling down deletes each pod once, and only pods that are pending or have
    ended, never one known to be running. *)
Theorem C50_down_who : forall h s r x order s' o ps, exec step init h s -> pc s = Idle -> step s (EReconcile r x order) = (s', o) -> ODeletes ps ∈ o ->
  NoDup ps /\ forall p, p ∈ ps -> p ∈ pending (inf s) ∪ succeeded (inf s) ∪ failed (inf s) /\ p ∉ running (inf s).
Proof. intros h s r x order s' o ps Hx Hp Hs Hps. by destruct (scale_down h s r x order s' o Hx Hs Hp ps Hps) as (? & ? & _). Qed.
Print Assumptions C50_down_who.
(** As many workers as requested remain, if at most twice the surplus is pending... *)
Theorem C50_down_partial : forall h s r x order s' o ps, exec step init h s -> pc s = Idle -> step s (EReconcile r x order) = (s', o) -> ODeletes ps ∈ o ->
  Z.of_nat (size (pending (inf s))) <= 2 * (Z.of_nat (size (workers (inf s))) - r) ->
  r <= Z.of_nat (size (workers (inf s) ∖ list_to_set ps)).
Proof.
  intros h s r x order s' o ps Hx Hp Hs Hps Hle. destruct (scale_down h s r x order s' o Hx Hs Hp ps Hps) as (_ & _ & Hn & Hr).
  assert (Hsz : size (workers (inf s)) = (size (workers (inf s) ∖ list_to_set ps) + size (workers (inf s) ∩ list_to_set ps))%nat).
  { rewrite <- size_union by set_solver. f_equal. apply set_eq. intros p. rewrite elem_of_union, elem_of_difference, elem_of_intersection. destruct (decide (p ∈ (list_to_set ps : gset pod))); tauto. }
  destruct (decide _); lia.
Qed.
Print Assumptions C50_down_partial.
(** ... but not in general: of five pending and one running worker, scaling to five
    deletes four instead of one. *)
Definition ex3 : list event :=
  [EReconcile 6 false []; ECreate (Made 1%positive); ECreate (Made 2%positive); ECreate (Made 3%positive); ECreate (Made 4%positive); ECreate (Made 5%positive); ECreate (Made 6%positive);
   EStatus 1%positive waiting; EStatus 2%positive waiting; EStatus 3%positive waiting; EStatus 4%positive waiting; EStatus 5%positive waiting; EStatus 6%positive up] ++ replicate 12 deliver.
Theorem C50_down_refuted : exists h s s' o ps order, exec step init h s /\ pc s = Idle /\ calm h /\ step s (EReconcile 5 false order) = (s', o) /\ ODeletes ps ∈ o /\
  size (workers (inf s)) = 6%nat /\ size (workers (inf s) ∖ list_to_set ps) = 2%nat.
Proof.
  exists (the_history ex3), (the_state ex3). pose (q := step (the_state ex3) (EReconcile 5 false [1;2;3;4;5]%positive)).
  exists (fst q), (snd q), [1;2;3;4]%positive, [1;2;3;4;5]%positive. split; [apply the_run|]. split; [by vm_compute|].
  split; [apply (the_forall (fun e => calm_event e = true)); by_computation|]. split; [by destruct q eqn:E|].
  split; [by replace (snd q) with [ODeletes [1;2;3;4]%positive] by (by vm_compute); left|]. split; by vm_compute.
Qed.
Print Assumptions C50_down_refuted.

(** C67. There are never more worker pods that have not ended than the largest size
    asked for, as long as the controller is not restarted, expectations do not expire
    and no request fails although the pod was made... *)
Theorem C67_never_more_partial : forall m h s, 0 <= m -> exec step init h s -> calm h -> asks_at_most m h -> Z.of_nat (size (live s)) <= m.
Proof. exact never_more. Qed.
Print Assumptions C67_never_more_partial.
(** (Six pods were asked for in [ex3], and six are live.) *)
Example C67_example : exists h s, exec step init h s /\ calm h /\ asks_at_most 6 h /\ size (live s) = 6%nat.
Proof.
  exists (the_history ex3), (the_state ex3). split; [apply the_run|]. split; [apply (the_forall (fun e => calm_event e = true)); by_computation|].
  split; [|by vm_compute]. apply (the_forall (fun e => match e with EReconcile r _ _ => r <= 6 | _ => True end)). by repeat constructor.
Qed.
(** ... but a pod that waits for a node has no container status and is not counted:
    after a restart, or when the expectations have expired, another one is made. *)
Definition ex5 := [EReconcile 1 false []; ECreate (Made 1%positive); deliver; ERestart false false; EReconcile 1 false []; ECreate (Made 2%positive)].
Theorem C67_restart_refuted : exists h s, exec step init h s /\ asks_at_most 1 h /\ size (live s) = 2%nat /\
  Forall (fun eo => calm_event (fst eo) = true \/ exists a b, fst eo = ERestart a b) h.
Proof.
  exists (the_history ex5), (the_state ex5). split; [apply the_run|]. split; [|split; [by vm_compute|]].
  - apply (the_forall (fun e => match e with EReconcile r _ _ => r <= 1 | _ => True end)). by repeat constructor.
  - apply (the_forall (fun e => calm_event e = true \/ exists a b, e = ERestart a b)). repeat (constructor; [cbn; eauto|]). constructor.
Qed.
Print Assumptions C67_restart_refuted.
Definition ex6 := [EReconcile 1 false []; ECreate (Made 1%positive); deliver; EReconcile 1 true []; ECreate (Made 2%positive)].
Theorem C67_expired_refuted : exists h s, exec step init h s /\ asks_at_most 1 h /\ size (live s) = 2%nat /\
  Forall (fun eo => calm_event (fst eo) = true \/ exists r l, fst eo = EReconcile r true l) h.
Proof.
  exists (the_history ex6), (the_state ex6). split; [apply the_run|]. split; [|split; [by vm_compute|]].
  - apply (the_forall (fun e => match e with EReconcile r _ _ => r <= 1 | _ => True end)). by repeat constructor.
  - apply (the_forall (fun e => calm_event e = true \/ exists r l, e = EReconcile r true l)). repeat (constructor; [cbn; eauto|]). constructor.
Qed.
Print Assumptions C67_expired_refuted.

(** C99. No shortage of workers is overlooked: when no run of the reconciliation is
    going on or owed and the expectations are met, at least as many workers are known as
    the last run was asked for... *)
Theorem C99_not_overlooked : forall h1 r x order o h2 s, exec step init (h1 ++ (EReconcile r x order, o) :: h2) s -> nothing_owed o h2 s ->
  creates (inf s) <= 0 -> deletes (inf s) <= 0 -> r <= Z.of_nat (size (workers (inf s))).
Proof. exact none_overlooked. Qed.
Print Assumptions C99_not_overlooked.
(** ... and when every watch event has been delivered, the known workers are pods that
    exist and wait or run, as far as their status says something. *)
Theorem C99_exist_partial : forall h1 r x order o h2 s, exec step init (h1 ++ (EReconcile r x order, o) :: h2) s -> nothing_owed o h2 s -> wq s = [] ->
  creates (inf s) <= 0 -> deletes (inf s) <= 0 ->
  exists W : gset pod, r <= Z.of_nat (size W) /\ forall p, p ∈ W -> exists st d, srv s !! p = Some (st, d) /\ forall k, says st k -> k = KPending \/ k = KRunning.
Proof.
  intros h1 r x order o h2 s Hx Hn Hw Hc Hd. exists (workers (inf s)). split; [by eapply none_overlooked|].
  intros p Hp. destruct (sets_disjoint _ _ Hx) as [D1 D2]. destruct (view_at_rest _ _ p Hx Hw) as [V1 V2].
  assert (exists n, (n = KPending \/ n = KRunning) /\ p ∈ pods_of (inf s) n) as (n & Hk & Hpn).
  { apply elem_of_union in Hp as [Hp|Hp]; [by exists KRunning; auto|by exists KPending; auto]. }
  assert (p ∈ dom (srv s)) as Hdom by (apply V1, D1; by exists n). apply elem_of_dom in Hdom as [[st d] Hst]. exists st, d. split; [done|].
  intros k Hs. specialize (V2 st d k Hst Hs). by rewrite (D2 p k n V2 Hpn).
Qed.
Print Assumptions C99_exist_partial.
(** No ended pod is left over either, and of a surplus none is known to be pending that
    the controller would delete. *)
Theorem C99_no_leftovers : forall h1 r x order o h2 s, exec step init (h1 ++ (EReconcile r x order, o) :: h2) s -> nothing_owed o h2 s ->
  creates (inf s) <= 0 -> deletes (inf s) <= 0 ->
  succeeded (inf s) = ∅ /\ failed (inf s) = ∅ /\
  (Z.of_nat (size (workers (inf s))) = r \/ Z.of_nat (size (pending (inf s))) <= Z.of_nat (size (workers (inf s))) - r) /\
  (wq s = [] -> forall p st d k, srv s !! p = Some (st, d) -> says st k -> k = KPending \/ k = KRunning).
Proof.
  intros h1 r x order o h2 s Hx Hn Hc Hd. destruct (none_owed _ _ _ _ _ _ _ Hx Hn Hc Hd) as (_ & He & Hs). apply empty_union_L in He as [E1 E2]. do 3 (split; [done|]).
  intros Hw p st d k Hp Hk. destruct (view_at_rest _ _ p Hx Hw) as [_ V]. specialize (V st d k Hp Hk). destruct k; [by left|by right|..]; cbn [pods_of] in V; rewrite ?E1, ?E2 in V; by apply elem_of_empty in V.
Qed.
Print Assumptions C99_no_leftovers.
(** The known pods are those on the server whose status says something. *)
Theorem C99_view : forall h s p, exec step init h s -> wq s = [] ->
  (p ∈ all_pods (inf s) -> p ∈ dom (srv s)) /\ forall st d k, srv s !! p = Some (st, d) -> says st k -> p ∈ pods_of (inf s) k.
Proof. exact view_at_rest. Qed.
Print Assumptions C99_view.
(** A worker of three fails and is replaced. *)
Definition ex8 : list event := [EReconcile 3 false []; ECreate (Made 1%positive); ECreate (Made 2%positive); ECreate (Made 3%positive);
  EStatus 1%positive up; EStatus 2%positive up; EStatus 3%positive up; deliver; deliver; deliver; deliver; deliver; deliver;
  EStatus 2%positive (Status Failed (Some (Terminated 1))); deliver; EReconcile 3 false []; ECreate (Made 4%positive); EDelete 2%positive true; EStatus 4%positive up; EGone 2%positive; deliver; deliver; deliver].
Definition ex9 : list event := ex8 ++ [EReconcile 3 false []].
Example C99_example : exists h1 o s, exec step init (h1 ++ [(EReconcile 3 false [], o)]) s /\ nothing_owed o [] s /\ wq s = [] /\ creates (inf s) = 0 /\ deletes (inf s) = 0 /\ workers (inf s) = {[1; 3; 4]}%positive.
Proof.
  exists (the_history ex8), (snd (step (the_state ex8) (EReconcile 3 false []))), (fst (step (the_state ex8) (EReconcile 3 false []))). split.
  { apply exec_app. exists (the_state ex8). split; [apply the_run|]. econstructor; [|constructor]. by destruct (step _ _). }
  assert (Eo : snd (step (the_state ex8) (EReconcile 3 false [])) = [OReturn false]) by (vm_compute; reflexivity). rewrite Eo.
  split; [|repeat split; by_computation]. split; [done|]. split; [constructor|]. split; [constructor|]. split; [|by vm_compute].
  intros b Hb. cbn in Hb. by apply elem_of_list_singleton in Hb as ->.
Qed.
(** But a pod that is deleted before its status says anything is never counted: then
    nothing is owed although the cluster has no worker at all. *)
Definition ex10 : list event := [ECreate (Made 1%positive); EGone 1%positive; deliver; deliver].
Theorem C99_deleted_early_refuted : exists o h s, exec step init ((EReconcile 1 false [], o) :: h) s /\ calm ((EReconcile 1 false [], o) :: h) /\ nothing_owed o h s /\ wq s = [] /\ srv s = ∅.
Proof.
  pose proof (the_run (EReconcile 1 false [] :: ex10)) as Hx. pose proof (the_events (EReconcile 1 false [] :: ex10)) as He.
  destruct (the_history (EReconcile 1 false [] :: ex10)) as [|[e o] h] eqn:E; [done|]. assert (e = EReconcile 1 false []) as -> by (by injection He).
  assert (E' : ((EReconcile 1 false [], o) :: h) = [(EReconcile 1 false [], [OCreate 1]); (ECreate (Made 1%positive), [OReturn false]); (EGone 1%positive, []);
     (deliver, [OCall (Upd 1%positive (Status Pending None)) false]); (deliver, [OCall (Del 1%positive) false])]) by (rewrite <- E; vm_compute; reflexivity).
  injection E' as -> ->. eexists _, _, _. split; [exact Hx|]. split; [by repeat constructor|]. split; [|split; [by vm_compute|by_computation]].
  split; [done|]. split; [by repeat constructor|]. split; [by repeat constructor|]. split; [|by vm_compute].
  intros b Hb. repeat (apply elem_of_cons in Hb as [->|Hb]; [done|]). by apply elem_of_nil in Hb.
Qed.
Print Assumptions C99_deleted_early_refuted.
