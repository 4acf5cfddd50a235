(** Vocabulary for C119 and C120. *)
From Coq Require Import ZArith.
From stdpp Require Import prelude gmap.
From Verif Require Import Trace Kube_Model Kube_Spec KFleet_Model.
Open Scope Z_scope.

Notation dhistory := (list (devent * dobs)).
Definition dreach (lim : option Z) (h : dhistory) (s : depot) : Prop := exec (dstep lim) dinit h s.
(** What happened to the pods. *)
Definition kube_part (h : dhistory) : list (Kube_Model.event * list Kube_Model.obs) := concat (map (fun eo => o_kube (snd eo)) h).
(** The size that is asked for: at most the limit. *)
Definition at_most (lim : option Z) (k : Z) : Z := match lim with Some m => Z.min m k | None => k end.
(** The gateway has been told: since the size was last changed a heartbeat was sent and
    led to a patch, and none was handled after it. *)
Definition told (h : dhistory) : Prop :=
  exists h1 k o1 h2 i r o2 v h3, h = h1 ++ (DBeat, o1) :: h2 ++ (DArrive i r, o2) :: h3 /\ o_out o1 = DSent k /\ o_out o2 = DPatched k v /\
    (forall n o, (DSize n, o) ∉ h2 ++ h3) /\ (forall j r' o, (DArrive j r', o) ∉ h3).
(** The controller has nothing to do: it has seen the newest object and all events of
    pods, no run is going on, waiting or scheduled, and none of the changes it asked
    for is awaited. *)
Record at_rest (s : depot) : Prop := {
  r_seen : d_seen s = length (d_vers s);
  r_pods : wq (d_kube s) = [];
  r_queue : d_dirty s = false /\ d_busy s = false /\ d_timer s = false;
  r_expected : creates (inf (d_kube s)) <= 0 /\ deletes (inf (d_kube s)) <= 0 }.
(** Pod [p] exists, and has not been reported as ended. *)
Definition a_worker (s : depot) (p : pod) : Prop :=
  exists st d, srv (d_kube s) !! p = Some (st, d) /\ forall k, says st k -> k = KPending \/ k = KRunning.
