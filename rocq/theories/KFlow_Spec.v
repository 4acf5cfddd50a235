(** Vocabulary for C143: endless runs of KFleet_Model.v. *)
From Coq Require Import ZArith.
From stdpp Require Import prelude gmap.
From Verif Require Import Trace Kube_Model Kube_Spec KFleet_Model KFleet_Spec.
Open Scope Z_scope.

(** An endless run from the beginning: [run i] is the state before the i-th event [ev i]. *)
Record endless (lim : option Z) (run : nat -> depot) (ev : nat -> devent) : Prop := {
  en_from : run 0%nat = dinit;
  en_step : forall i, run (S i) = (dstep lim (run i) (ev i)).1 }.
(** The pods whose deletion the controller is waiting for. *)
Definition asked (s : depot) : list pod := match pc (d_kube s) with Deleting l _ => l | _ => [] end.
(** Before the i-th event the API server accepted a request to delete [p]. *)
Definition granted (run : nat -> depot) (ev : nat -> devent) (i : nat) (p : pod) : Prop :=
  exists j, (j < i)%nat /\ ev j = DPod (EDelete p true) /\ p ∈ asked (run j).
(** Pod [p] exists; the controller knows of it. *)
Definition exists_ (s : depot) (p : pod) : Prop := p ∈ dom (srv (d_kube s)).
Definition known (s : depot) (p : pod) : Prop := p ∈ all_pods (inf (d_kube s)).

(** Fair: the informers see every version and every event of a pod some day; a reconciler
    takes the key when it is on the queue, in any order of list(info.pending); timers run
    out; requests are answered.  A pod whose deletion was accepted is gone some day, and
    every other pod has some day a status for good that says something (phase and container
    state). *)
Record served (run : nat -> depot) (ev : nat -> devent) : Prop := {
  fa_watch : forall i, exists j, (i <= j)%nat /\ (length (d_vers (run i)) <= d_seen (run j))%nat;
  fa_get : forall i, d_dirty (run i) = true ->
    exists j x order, (i <= j)%nat /\ ev j = DGet x order /\ d_busy (run j) = false /\ lists order (pending (inf (d_kube (run j)))) = true;
  fa_timer : forall i, d_timer (run i) = true -> exists j, (i <= j)%nat /\ ev j = DTimer;
  fa_pods : forall i, wq (d_kube (run i)) <> [] -> exists j x, (i <= j)%nat /\ (ev j = DPod (EDeliver false x) \/ ev j = DPod (ERelist false x));
  fa_create : forall i, (0 < outstanding (d_kube (run i)))%nat ->
    exists j r, (i <= j)%nat /\ ev j = DPod (ECreate r) /\ forall p, r = Made p \/ r = Lost p -> p ∉ used (d_kube (run j));
  fa_delete : forall i p, p ∈ asked (run i) -> exists j ok, (i <= j)%nat /\ ev j = DPod (EDelete p ok);
  fa_gone : forall i p, granted run ev i p -> exists j, (i <= j)%nat /\ ~ exists_ (run j) p;
  fa_report : forall i p, exists_ (run i) p ->
    exists j, (i <= j)%nat /\ forall k st d, (j <= k)%nat -> srv (d_kube (run k)) !! p = Some (st, d) -> exists m, says st m }.
(** ... and no pod is gone before the controller knew of it. *)
Record fair (run : nat -> depot) (ev : nat -> devent) : Prop := {
  fa_served :> served run ev;
  fa_known : forall i p, ev i = DPod (EGone p) -> exists_ (run i) p -> known (run i) p }.
(** From the n-th event on the controller is not restarted, and the object asks for [r] workers. *)
Definition steady (run : nat -> depot) (ev : nat -> devent) (n : nat) (r : Z) : Prop :=
  forall k, (n <= k)%nat -> (forall x, ev k <> DRestart x) /\ newest (run k) = r.
(** From the n-th event on pods are made when asked for, do not end, and go only when the
    controller wants it. *)
Definition smooth (run : nat -> depot) (ev : nat -> devent) (n : nat) : Prop :=
  forall k, (n <= k)%nat ->
    (forall r, ev k = DPod (ECreate r) -> exists p, r = Made p) /\
    (forall p st m, ev k = DPod (EStatus p st) -> says st m -> m = KPending \/ m = KRunning) /\
    (forall p, ev k = DPod (EGone p) -> exists_ (run k) p -> granted run ev k p).
(** The pods that the controller counts. *)
Definition counted_on (s : depot) : Z := Z.of_nat (size (workers (inf (d_kube s)))).
