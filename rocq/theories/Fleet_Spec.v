(** Vocabulary for C113-C115. *)
From Coq Require Import ZArith.
From stdpp Require Import prelude gmap.
From Verif Require Import Trace Router_Model WorkQueue_Model Gateway_Model Gateway_Spec Gateway_Spec3 Report_Model Report_Spec Fleet_Model.
Open Scope Z_scope.

Notation fhistory := (list (fevent * fobs)).
Definition freach (fc : fcfg) (h : fhistory) (s : fleet) : Prop := exec (fstep fc) (finit fc) h s.
Definition fleads (fc : fcfg) (s : fleet) (h : fhistory) (s' : fleet) : Prop := exec (fstep fc) s h s'.
(** What happened to the gateway, and to the scheduler of cluster [n]. *)
Definition gw_part (h : fhistory) : list (Gateway_Model.event * list Gateway_Model.obs) :=
  omap (fun eo => match eo.2 with FO_Gw e o => Some (e, o) | _ => None end) h.
Definition sch_part (n : nat) (h : fhistory) : list (Report_Model.event * Report_Model.obs) :=
  omap (fun eo => match eo.2 with FO_Sch n' e o => if decide (n' = n) then Some (e, o) else None | _ => None end) h.
(** The database never uses a key twice, or the gateway process lives on. *)
Definition fids_ok (fc : fcfg) (h : fhistory) : Prop := ids_ok (fc_gw fc) (gw_part h).
(** The gateway handles the messages of scheduler [n] in the order of sending. *)
Definition in_order (n : nat) (h : fhistory) : Prop := forall i now o, (FArrive n i now, o) ∈ h -> i = 0%nat.

(** The last thing the scheduler of cluster [n] did was to send a heartbeat and to get
    the answer; no worker was named for closing. *)
Definition up_to_date (h : fhistory) (n : nat) : Prop :=
  exists hs choice m, sch_part n h = hs ++ [(EBeat choice, OMsg m); (EAnswer true, ONone)].
(** Worker [w] of cluster [n] is connected to its scheduler; how many workers are. *)
Definition connected (s : fleet) (n w : nat) : Prop := exists p, Pos.to_nat p = w /\ here (s_rep (sch s n)) p.
Definition n_connected (s : fleet) (n : nat) : nat := size (workers (s_rep (sch s n))).
(** The size that was asked for at the scheduler, with the cluster's limit. *)
Definition asked_for (s : fleet) (n : nat) (c : cluster) : Z :=
  match r_max (c_row c) with Some mx => Z.min mx (count (s_rep (sch s n))) | None => count (s_rep (sch s n)) end.
(** Cluster [n], with record [c], is running and to go on. *)
Definition on_air (s : fleet) (n : nat) (c : cluster) : Prop :=
  lookup_cluster n (f_gw s) = Some c /\ c_status c = RUNNING /\ c_target c = RUNNING.
(** It has the right workers: as many as were asked for, each of them connected or
    being started by the backend. *)
Definition right_size (s : fleet) (n : nat) (c : cluster) : Prop :=
  Z.of_nat (length (List.filter wanted (c_workers c))) = asked_for s n c /\
  forall x, x ∈ c_workers c -> wanted x = true -> connected s n (w_name x) \/ w_status x = SUBMITTED.
(** No worker has left as announced, at all or since a heartbeat last changed the size
    that the gateway has on record. *)
Definition none_left (fc : fcfg) (h : fhistory) (n : nat) (c : cluster) : Prop :=
  (forall x, x ∈ c_workers c -> retired x = false) \/
  exists h1 i now o h2 s1 s2 c1 c2, h = h1 ++ (FArrive n i now, o) :: h2 /\ freach fc h1 s1 /\ fstep fc s1 (FArrive n i now) = (s2, o) /\
    lookup_cluster n (f_gw s1) = Some c1 /\ on_air s2 n c2 /\ r_count (c_row c2) <> r_count (c_row c1) /\
    forall x, x ∈ c_workers c -> retired x = true -> w_name x ∈ gone c2.
