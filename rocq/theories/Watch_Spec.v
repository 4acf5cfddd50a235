(** Vocabulary for C145. *)
From Coq Require Import ZArith.
From stdpp Require Import gmap list.
From Verif Require Import Trace Watch_Model.
Open Scope Z_scope.
(** A history of the gateway: events with what was seen of them. *)
Definition history := list (event * list output).
Definition happens (max_events : Z) (h : history) (s : state) : Prop := exec (step max_events) init h s.
Definition seen (h : history) (o : output) : Prop := o ∈ concat (snd <$> h).
Definition done (h : history) (e : event) : Prop := e ∈ fst <$> h.
(** The request was accepted and has not ended. *)
Definition in_progress (h : history) (r : positive) : Prop := seen h (Accepted r) /\ ~ seen h (Ended r).
(** The gateway keeps something for the request. *)
Definition kept (s : state) (r : positive) : Prop := is_Some (queues s !! r) \/ is_Some (requests s !! r) \/ r ∈ group s.
(** Events that the gateway keeps in memory for the request. *)
Definition backlog (s : state) (r : positive) : list Z := concat (default [] (queues s !! r)).
