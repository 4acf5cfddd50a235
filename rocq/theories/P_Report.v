(** Property C56: the workers in the scheduler's heartbeats. *)
From Coq Require Import ZArith.
From stdpp Require Import gmap.
From Verif Require Import Trace Report_Model Report_Spec Report_Proofs.

(** The three sets are disjoint, and every worker that ever connected is in one. *)
Theorem C56_disjoint : forall lv h s e s' m n, exec step (init lv) h s -> step s e = (s', OMsg m) ->
  ~ (n ∈ m_active m /\ n ∈ m_closing m) /\ ~ (n ∈ m_active m /\ n ∈ m_closed m) /\ ~ (n ∈ m_closing m /\ n ∈ m_closed m).
Proof. exact disjoint3. Qed.
Print Assumptions C56_disjoint.
Theorem C56_complete : forall lv h s e s' m n, exec step (init lv) h s -> step s e = (s', OMsg m) -> ever h n -> n ∈ m_active m \/ n ∈ m_closing m \/ n ∈ m_closed m.
Proof. exact complete. Qed.
Print Assumptions C56_complete.
(** Active and closing are the connected ones, closed the others. *)
Theorem C56_connected : forall lv h s e s' m n, exec step (init lv) h s -> step s e = (s', OMsg m) -> n ∈ m_active m \/ n ∈ m_closing m <-> here s n.
Proof. exact active_closing. Qed.
Print Assumptions C56_connected.
Theorem C56_closed : forall lv h s e s' m n, exec step (init lv) h s -> step s e = (s', OMsg m) -> n ∈ m_closed m <-> ever h n /\ ~ here s n.
Proof. exact closed_iff. Qed.
Print Assumptions C56_closed.
(** Workers are closed only when more are connected than requested. *)
Theorem C56_excess : forall lv h s ch s' m, exec step (init lv) h s -> step s (EBeat ch) = (s', OMsg m) -> m_closing m <> [] ->
  exists l : list name, NoDup l /\ (forall n, n ∈ l <-> here s n) /\ (count s < Z.of_nat (length l))%Z.
Proof. exact excess. Qed.
Print Assumptions C56_excess.

(** The scheduler is told to retire workers exactly when the gateway accepts a message
    that names some as closing, and exactly those. *)
Theorem C56_retired : forall lv h s e s' o l, exec step (init lv) h s -> step s e = (s', o) ->
  o = ORetire l <-> e = EAnswer true /\ l <> [] /\ exists m, unanswered h m /\ m_closing m = l.
Proof. exact retire_exact. Qed.
Print Assumptions C56_retired.
(** When a worker is lost the gateway is to hear of it soon exactly if its end was not
    expected and heartbeats are in use; when one connects, exactly if there are now more
    than requested. *)
Theorem C56_lost_soon : forall lv h s a n s' b, exec step (init lv) h s -> step s (ERemoved a) = (s', ODid b) -> workers s !! a = Some n ->
  b = true <-> lv = true /\ ~ expected h n.
Proof. exact removed_soon. Qed.
Print Assumptions C56_lost_soon.
Theorem C56_surplus_soon : forall lv h s a n s' b, exec step (init lv) h s -> step s (EAdded a n) = (s', ODid b) ->
  exists l : list name, NoDup l /\ (forall m, m ∈ l <-> here s' m) /\ (b = true <-> (count s < Z.of_nat (length l))%Z).
Proof. exact added_soon. Qed.
Print Assumptions C56_surplus_soon.

(** Two workers; one is closed, reconnects and is closed again after a failure; the
    other is lost without notice. *)
Definition ex_events := [EScale 2; EAdded 1 7; EAdded 2 8; EScale 1; EBeat [8%positive]; EAnswer true; ERemoved 2; ERetired true; EBeat []; EAnswer false; EAdded 3 8; EBeat [7%positive];
  EAnswer true; ERetired false; ERemoved 1].
Definition messages (h : history) : list (list name * list name * list name) :=
  omap (fun eo => match snd eo with OMsg m => Some (elements (m_active m), m_closing m, elements (m_closed m)) | _ => None end) h.
Definition others (h : history) : list obs := omap (fun eo => match snd eo with OMsg _ | ONone => None | o => Some o end) h.
Example C56_example : let h := snd (run step (init true) ex_events) in
  messages h = [([7%positive], [8%positive], []); ([7%positive], [], [8%positive]); ([8%positive], [7%positive], [])] /\
  others h = [ODid false; ODid false; ORetire [8%positive]; ODid false; ODid true; ORetire [7%positive]; OFailed [7%positive]; ODid true].
Proof. vm_compute. split; reflexivity. Qed.
