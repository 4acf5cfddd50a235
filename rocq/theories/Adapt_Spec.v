(** Vocabulary for C55 and C71. *)
From Coq Require Import ZArith.
From stdpp Require Import base list.
From Verif Require Import Trace Adapt_Model.
Open Scope Z_scope.

Notation history := (list (event * obs)).
Definition at_least (mn : option Z) (x : Z) : Prop := match mn with Some m => m <= x | None => True end.
Definition at_most (mx : option Z) (x : Z) : Prop := match mx with Some m => x <= m | None => True end.
Definition within (mn mx : option Z) (x : Z) : Prop := at_least mn x /\ at_most mx x.
Definition sensible (mn mx : option Z) : Prop := match mn, mx with Some a, Some b => a <= b | _, _ => True end.
(** [t] is the size within the bounds nearest to the suggestion [r]. *)
Definition nearest (mn mx : option Z) (r t : Z) : Prop := within mn mx t /\ forall x, within mn mx x -> Z.abs (t - r) <= Z.abs (x - r).
(** The targets of the turns of a history, oldest first. *)
Fixpoint turns (h : history) : list Z := match h with [] => [] | (_, OTarget t) :: h => t :: turns h | _ :: h => turns h end.
(** A request to change how the cluster is scaled. *)
Definition request (e : event) : Prop := match e with EAdapt _ _ | EOff _ | EScale _ _ => True | _ => False end.
Definition undisturbed (h : history) : Prop := Forall (fun eo => ~ request (fst eo)) h.
(** The targets since the running loop was started. *)
Inductive since_start : history -> list Z -> Prop :=
| since h1 e h2 : Forall (fun eo => snd eo <> OStart) h2 -> since_start (h1 ++ (e, OStart) :: h2) (turns h2).
(** The last [w] elements. *)
Definition recent (w : nat) (l : list Z) (x : Z) : Prop := exists i, l !! i = Some x /\ (length l <= i + w)%nat.
(** Request [r] has been carried out. *)
Definition confirmed (r : nat) (h : history) : Prop := exists e l, (e, OAnswer l) ∈ h /\ r ∈ l.
