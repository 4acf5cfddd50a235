(** Vocabulary for C52, C68 and C69. *)
From Coq Require Import ZArith.
From stdpp Require Import list.
From Verif Require Import Trace Phase_Model.
Local Open Scope Z_scope.

Notation history := (list (event * list obs)).
Definition obs_of (h : history) : list obs := concat (map snd h).
(** A new cluster object has no status. *)
Definition start (o : obj) : Prop := active o = true /\ stat o = None.
(** The phase an object shows. *)
Definition shows (o : obj) (p : phase) : Prop :=
  match stat o with Some st => match phase_ st with Some q => q = p | None => p = Pending end | None => p = Pending end.
Definition over (p : phase) : Prop := p = Stopped \/ p = Failed.
Definition rank (p : phase) : nat := match p with Pending => 0 | Running => 1 | Stopped | Failed => 2 end.
(** Whether a status records a resource. *)
Definition records (st : status) (r : resource) : Prop :=
  match r with Secret => secret st | Pod => pod_ st | Service => service st | Route => route st | RouteTCP => routetcp st end = true.
(** Every run starts when the cache has seen the last status that was recorded. *)
Definition up_to_date (max_age : Z) (s0 : state) (h : history) : Prop :=
  forall h1 o h2 s, h = h1 ++ (EBegin, o) :: h2 -> exec (step max_age) s0 h1 s -> exists c, cached s = Some c /\ stat c = stat (current s).
(** Whether a resource is there after all these calls: it was created, and not
    deleted since (the API server does not create what it answers an error for). *)
Definition becomes (r : resource) (there : bool) (o : obs) : bool :=
  match o with
  | OCreate r' Ok => if decide (r' = r) then true else there
  | ODelete r' Ok | ODelete r' NotFound => if decide (r' = r) then false else there
  | _ => there
  end.
Definition there (r : resource) (os : list obs) : bool := foldl (becomes r) false os.
(** Every run that created something also got its status recorded. *)
Definition noted_all (h : history) : Prop :=
  forall e os r, (e, os) ∈ h -> r = Pod \/ r = Secret -> OCreate r Ok ∈ os -> exists st, OPatch st true ∈ os.
