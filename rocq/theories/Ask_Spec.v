(** Vocabulary for C116-C118: calls, and what is left over of earlier ones. *)
From Coq Require Import ZArith.
From stdpp Require Import prelude gmap.
From Verif Require Import Trace Router_Model Gateway_Model Adapt_Model Report_Model Fleet_Model Fleet_Spec Ask_Model.
Open Scope Z_scope.

Notation khistory := (list (kevent * kobs)).
Definition kreach (kc : kcfg) (h : khistory) (s : sys) : Prop := exec (kstep kc) (kinit kc) h s.
Definition kleads (kc : kcfg) (s : sys) (h : khistory) (s' : sys) : Prop := exec (kstep kc) s h s'.
(** What gateway, schedulers and workers did. *)
Definition fleet_part (h : khistory) : fhistory := concat (map (fun eo => o_fleet (snd eo)) h).
(** The size that the scheduler of cluster [n] works for; is it adapted to the work,
    within which bounds. *)
Definition size_wanted (s : sys) (n : nat) : Z := Report_Model.count (s_rep (sch (y_fleet s) n)).
Definition adapting (s : sys) (n : nat) : Prop := ad (adapter s n) = ASleep \/ ad (adapter s n) = AScaling.
Definition not_adapting (s : sys) (n : nat) : Prop := ad (adapter s n) = AOff.
Definition bounds (s : sys) (n : nat) : option Z * option Z := (minimum (adapter s n), maximum (adapter s n)).
(** [k], or the cluster's limit. *)
Definition at_most_limit (c : cluster) (k : Z) : Z := match r_max (c_row c) with Some l => Z.min l k | None => k end.
(** The bounds [mn], [mx], or the cluster's limit: with one, there are always bounds. *)
Definition with_limit (c : cluster) (mn mx : option Z) : option Z * option Z :=
  match r_max (c_row c) with Some l => (Some (Z.min l (default 0 mn)), Some (Z.min l (default l mx))) | None => (mn, mx) end.
(** All requests made so far for cluster [n] were answered. *)
Definition answered (s : sys) (n : nat) : Prop :=
  forall r c, y_calls s !! r = Some c -> k_cluster c = n -> exists b, k_stage c = Over (Some b).
(** No message for its scheduler is under way or waits to be carried out there. *)
Definition nothing_left (s : sys) (n : nat) : Prop :=
  (forall p, p ∈ y_wire s -> p_cluster p <> n) /\ waiting (adapter s n) = [].
(** No request for cluster [n]. *)
Definition no_request (n : nat) (h : khistory) : Prop := forall a o, (KAsk n a, o) ∉ h.
(** Call [r] returned without an exception. *)
Definition returned (r : nat) (h : khistory) : Prop := exists o, (KResult r true, o) ∈ h /\ o_out o = KDone r true.
(** The request [a] for cluster [n] becomes call [r]. *)
Definition taken (kc : kcfg) (s : sys) (n : nat) (a : ask) (r : nat) (s' : sys) : Prop :=
  kstep kc s (KAsk n a) = (s', KObs [] (KTaken r)).
