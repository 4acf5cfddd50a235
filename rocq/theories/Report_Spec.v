(** Vocabulary for C56. *)
From Coq Require Import ZArith.
From stdpp Require Import gmap.
From Verif Require Import Trace Report_Model.

Notation history := (list (event * obs)).
(** A worker of this name is connected; has ever been. *)
Definition here (s : state) (n : name) : Prop := exists a, workers s !! a = Some n.
Definition ever (h : history) (n : name) : Prop := exists a b, (EAdded a n, ODid b) ∈ h.
(** The end of worker [n] is expected: retire_workers was called for it, and since then
    it has not connected again, nor has a call for it failed. *)
Definition expected (h : history) (n : name) : Prop := exists h1 e l h2, h = h1 ++ (e, ORetire l) :: h2 /\ n ∈ l /\
  (forall a b, (EAdded a n, ODid b) ∉ h2) /\ (forall e' l', (e', OFailed l') ∈ h2 -> n ∉ l').
(** The last message of [h] is [m], and it has not been answered. *)
Definition unanswered (h : history) (m : msg) : Prop := exists h1 e h2, h = h1 ++ (e, OMsg m) :: h2 /\
  forall e' o, (e', o) ∈ h2 -> (forall ok, e' <> EAnswer ok) /\ (forall m', o <> OMsg m').
