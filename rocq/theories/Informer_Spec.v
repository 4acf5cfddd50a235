(** Vocabulary for C53. *)
From stdpp Require Import gmap.
From Verif Require Import Trace Informer_Model.

Notation history := (list (event * list obs)).
Definition obs_of (h : history) : list obs := concat (map snd h).
(** The last thing the handlers were told about [k] is that it is [v]. *)
Definition about (k : key) (o : obs) : Prop := match o with OUpd k' _ _ _ | ODel k' _ _ => k' = k end.
Definition last_told (os : list obs) (k : key) (v : content) : Prop :=
  exists o1 old r o2, os = o1 ++ OUpd k v old r :: o2 /\ Forall (fun o => ~ about k o) o2.
(** The objects that exist on the server after the first [n] changes: [v] is the last
    thing put under [k] and it was not deleted since. *)
Definition names (k : key) (c : change) : Prop := match c with Put k' _ | Gone k' => k' = k | Other => False end.
Definition exists_at (l : list change) (n : nat) (k : key) (v : content) : Prop :=
  exists l1 l2, take n l = l1 ++ Put k v :: l2 /\ Forall (fun c => ~ names k c) l2.
