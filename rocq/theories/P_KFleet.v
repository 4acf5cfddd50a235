(** Properties C119 and C120: on Kubernetes the worker pods follow the size that the
    scheduler works for, within the limit. *)
From Coq Require Import ZArith Lia.
From stdpp Require Import prelude gmap.
From Verif Require Import Trace Kube_Model Kube_Spec KFleet_Model KFleet_Spec KFleet_Proofs.
Open Scope Z_scope.

(** C119. When the gateway has been told the size and the controller has nothing left to
    do, at least as many pods exist as the scheduler works for (or as the limit allows),
    none of them reported as ended, and no ended pod is left over... *)
Theorem C119_pods_follow_partial : forall lim h s, dreach lim h s -> KFleet_Spec.told h -> at_rest s ->
  (exists W : gset pod, at_most lim (d_size s) <= Z.of_nat (size W) /\ forall p, p ∈ W -> a_worker s p) /\
  (forall p st d k, srv (d_kube s) !! p = Some (st, d) -> says st k -> k = KPending \/ k = KRunning).
Proof. exact pods_follow. Qed.
Print Assumptions C119_pods_follow_partial.

(** For examples: the run of a list of events. *)
Definition dex_state (lim : option Z) (es : list devent) : depot := fst (run (dstep lim) dinit es).
Definition dex_history (lim : option Z) (es : list devent) : dhistory := snd (run (dstep lim) dinit es).
Lemma dex_run lim es : dreach lim (dex_history lim es) (dex_state lim es).
Proof. apply (run_exec _ _ es). unfold dex_state, dex_history. by destruct (run (dstep lim) dinit es). Qed.
Definition rest_b (s : depot) : bool :=
  (d_seen s =? length (d_vers s))%nat && (match wq (d_kube s) with [] => true | _ => false end) && negb (d_dirty s) && negb (d_busy s) && negb (d_timer s) &&
  (creates (inf (d_kube s)) <=? 0) && (deletes (inf (d_kube s)) <=? 0).
Lemma ex_rest s : rest_b s = true -> at_rest s.
Proof.
  unfold rest_b. intros H. repeat (apply andb_true_iff in H as [H ?]). split.
  - by apply Nat.eqb_eq.
  - by destruct (wq (d_kube s)).
  - by destruct (d_dirty s), (d_busy s), (d_timer s).
  - split; by apply Z.leb_le.
Qed.
(** Is this, from the right, a history that tells the gateway? *)
Definition sent_b (eo : devent * dobs) : option nat := match eo with (DBeat, DObs _ (DSent k)) => Some k | _ => None end.
Fixpoint sent_in (k : nat) (h : dhistory) : bool :=
  match h with
  | [] => false
  | eo :: h' => (bool_decide (sent_b eo = Some k) && forallb (fun eo => match fst eo with DSize _ => false | _ => true end) h') || sent_in k h'
  end.
Fixpoint told_in (before h : dhistory) : bool :=
  match h with
  | [] => false
  | eo :: h' =>
      (match eo with
       | (DArrive _ _, DObs _ (DPatched k _)) => sent_in k before && forallb (fun eo => match fst eo with DSize _ | DArrive _ _ => false | _ => true end) h'
       | _ => false
       end) || told_in (before ++ [eo]) h'
  end.
Lemma ex_sent k h : sent_in k h = true -> exists h1 o1 h2, h = h1 ++ (DBeat, o1) :: h2 /\ o_out o1 = DSent k /\ forall n o, (DSize n, o) ∉ h2.
Proof.
  induction h as [|eo h IH]; [done|]. cbn [sent_in]. intros [[H1 H2]%andb_true_iff|H]%orb_true_iff.
  - apply bool_decide_eq_true in H1. destruct eo as [[] [ok []]]; try discriminate H1. injection H1 as ->. exists [], (DObs ok (DSent k)), h. split; [done|]. split; [done|].
    intros n o Hin. rewrite forallb_forall in H2. apply elem_of_list_In in Hin. by specialize (H2 _ Hin).
  - destruct (IH H) as (h1 & o1 & h2 & -> & ? & ?). by exists (eo :: h1), o1, h2.
Qed.
Lemma ex_told_in before h : told_in before h = true -> KFleet_Spec.told (before ++ h).
Proof.
  revert before. induction h as [|eo h IH]; intros before; [done|]. cbn [told_in]. intros [H|H]%orb_true_iff.
  - destruct eo as [[] [ok []]]; try discriminate H. apply andb_true_iff in H as [H1 H2]. apply ex_sent in H1 as (h1 & o1 & h2 & -> & E1 & N1). rewrite forallb_forall in H2.
    exists h1, k, o1, h2, i, r, (DObs ok (DPatched k v)), v, h. split; [by rewrite <- app_assoc|]. split; [done|]. split; [done|]. split.
    + intros n o [Hin|Hin]%elem_of_app; [by eapply N1|]. apply elem_of_list_In in Hin. by specialize (H2 _ Hin).
    + intros j r' o Hin. apply elem_of_list_In in Hin. by specialize (H2 _ Hin).
  - specialize (IH _ H). by rewrite <- app_assoc in IH.
Qed.
Lemma ex_told h : told_in [] h = true -> KFleet_Spec.told h.
Proof. apply (ex_told_in []). Qed.

Definition pod_up (p : pod) : devent := DPod (EStatus p (Status Active (Some Running))).
Definition pod_waits (p : pod) : devent := DPod (EStatus p (Status Pending (Some Waiting))).
Definition seen_pod : devent := DPod (EDeliver false false).
Definition made (p : pod) : devent := DPod (ECreate (Made p)).
Definition tell : list devent := [DBeat; DArrive 0 APatched; DWatch 1].
(** The size is three and the limit two: two pods are made, one of them fails and is
    replaced; an earlier heartbeat is lost, and another changes nothing. *)
Definition ex_two : list devent :=
  [DGet false []; DSize 3; DBeat; DLose 0] ++ tell ++ [DGet false []; made 1%positive; made 2%positive; pod_up 1%positive; pod_up 2%positive] ++ replicate 4 seen_pod ++
  [DGet false []; DPod (EStatus 2%positive (Status Failed (Some (Terminated 1)))); seen_pod; DGet false []; made 3%positive; DPod (EDelete 2%positive true); pod_up 3%positive; DPod (EGone 2%positive)] ++ replicate 3 seen_pod ++
  [DGet false []; DBeat; DArrive 0 ALost].
Example C119_example : exists h s, dreach (Some 2) h s /\ map fst h = ex_two /\ KFleet_Spec.told h /\ at_rest s /\ d_size s = 3 /\ dom (srv (d_kube s)) = {[1; 3]}%positive.
Proof.
  exists (dex_history (Some 2) ex_two), (dex_state (Some 2) ex_two). split; [apply dex_run|]. split; [vm_compute; reflexivity|].
  split; [apply ex_told; vm_compute; reflexivity|]. split; [apply ex_rest; vm_compute; reflexivity|]. split; [vm_compute; reflexivity|]. apply (bool_decide_unpack _). vm_compute. exact I.
Qed.

(** ... but there can be more pods than asked for, even one that has never run: one
    worker runs and another one waits when the size is set from two to one, and the
    controller deletes list(info.pending)[:-1], which is nothing. *)
Definition ex_surplus : list devent :=
  [DGet false []; DSize 2] ++ tell ++ [DGet false []; made 1%positive; made 2%positive; pod_up 1%positive; pod_waits 2%positive] ++ replicate 4 seen_pod ++ [DGet false [2%positive]; DSize 1] ++ tell ++ [DGet false [2%positive]].
Theorem C119_surplus_refuted : exists h s, dreach None h s /\ KFleet_Spec.told h /\ at_rest s /\ d_size s = 1 /\
  running (inf (d_kube s)) = {[1%positive]} /\ pending (inf (d_kube s)) = {[2%positive]} /\ live (d_kube s) = {[1; 2]}%positive.
Proof.
  exists (dex_history None ex_surplus), (dex_state None ex_surplus). split; [apply dex_run|]. split; [apply ex_told; vm_compute; reflexivity|]. split; [apply ex_rest; vm_compute; reflexivity|].
  split; [vm_compute; reflexivity|]. split; [|split]; apply (bool_decide_unpack _); vm_compute; exact I.
Qed.
Print Assumptions C119_surplus_refuted.
(** And without the last part of [at_rest] there may be none at all: a pod that is
    deleted before its status says anything is awaited, and nothing wakes the controller. *)
Definition ex_lost : list devent := [DGet false []; DSize 1] ++ tell ++ [DGet false []; made 1%positive; DPod (EGone 1%positive)] ++ replicate 2 seen_pod ++ [DBeat; DArrive 0 APatched].
Theorem C119_lost_refuted : exists h s, dreach None h s /\ KFleet_Spec.told h /\ d_size s = 1 /\ srv (d_kube s) = ∅ /\
  d_seen s = length (d_vers s) /\ wq (d_kube s) = [] /\ d_dirty s = false /\ d_busy s = false /\ d_timer s = false.
Proof.
  exists (dex_history None ex_lost), (dex_state None ex_lost). split; [apply dex_run|]. split; [apply ex_told; vm_compute; reflexivity|].
  split; [vm_compute; reflexivity|]. split; [apply (bool_decide_unpack _); vm_compute; exact I|]. repeat split; vm_compute; reflexivity.
Qed.
Print Assumptions C119_lost_refuted.
(** A heartbeat that is overtaken by a later one brings the old size back; until the
    next one, the pods do not follow. *)
Definition ex_late : list devent := [DGet false []; DSize 0; DBeat; DSize 1; DBeat; DArrive 1 APatched; DArrive 0 APatched; DWatch 2; DGet false []].
Theorem C119_overtaken_refuted : exists h s, dreach None h s /\ at_rest s /\ d_size s = 1 /\ d_wire s = [] /\ srv (d_kube s) = ∅ /\ (exists h1 o h2, h = h1 ++ (DBeat, o) :: h2 /\ forall n o', (DSize n, o') ∉ h2).
Proof.
  exists (dex_history None ex_late), (dex_state None ex_late). split; [apply dex_run|]. split; [apply ex_rest; vm_compute; reflexivity|].
  split; [vm_compute; reflexivity|]. split; [vm_compute; reflexivity|]. split; [apply (bool_decide_unpack _); vm_compute; exact I|].
  assert (sent_in 2 (dex_history None ex_late) = true) as H by (vm_compute; reflexivity). apply ex_sent in H as (h1 & o1 & h2 & E & _ & N). exists h1, o1, h2. split; [exact E|exact N].
Qed.
Print Assumptions C119_overtaken_refuted.

(** C120. The controller is never asked for more workers than the limit, whatever the
    scheduler reports... *)
Theorem C120_asked : forall m h s, 0 <= m -> dreach (Some m) h s ->
  Forall (fun v => v <= m) (d_vers s) /\ forall r x order o, (EReconcile r x order, o) ∈ kube_part h -> r <= m.
Proof.
  intros m h s Hm Hx. destruct (capped_reach _ _ _ Hm Hx) as [H1 H2]. split; [done|]. intros r x order o Hin. unfold asks_at_most in H2. rewrite Forall_forall in H2. exact (H2 _ Hin).
Qed.
Print Assumptions C120_asked.
(** ... and no more pods than that are live, as long as the controller is not restarted,
    expectations do not expire and no request fails although the pod was made... *)
Theorem C120_live_partial : forall m h s, 0 <= m -> dreach (Some m) h s -> calm (kube_part h) -> Z.of_nat (size (live (d_kube s))) <= m.
Proof. exact pods_limited. Qed.
Print Assumptions C120_live_partial.
Definition calm_b (h : dhistory) : bool := forallb (fun eo => calm_event (fst eo)) (kube_part h).
Lemma ex_calm h : calm_b h = true -> calm (kube_part h).
Proof. intros H. apply Forall_forall. intros eo Hin. unfold calm_b in H. rewrite forallb_forall in H. by apply H, elem_of_list_In. Qed.
Example C120_example : exists h s, dreach (Some 2) h s /\ map fst h = ex_two /\ calm (kube_part h) /\ d_size s = 3 /\ size (live (d_kube s)) = 2%nat.
Proof.
  exists (dex_history (Some 2) ex_two), (dex_state (Some 2) ex_two). split; [apply dex_run|]. split; [vm_compute; reflexivity|]. split; [apply ex_calm; vm_compute; reflexivity|]. split; vm_compute; reflexivity.
Qed.
(** ... but a controller that is restarted while a pod has no container status yet makes
    another one. *)
Definition ex_restart : list devent := [DGet false []; DSize 1] ++ tell ++ [DGet false []; made 1%positive; DRestart false; DGet false []; made 2%positive].
Theorem C120_live_refuted : exists h s, dreach (Some 1) h s /\ size (live (d_kube s)) = 2%nat.
Proof. exists (dex_history (Some 1) ex_restart), (dex_state (Some 1) ex_restart). split; [apply dex_run|]. vm_compute. reflexivity. Qed.
Print Assumptions C120_live_refuted.
