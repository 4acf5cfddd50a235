(** Vocabulary for C95. *)
From Coq Require Import ZArith List.
From stdpp Require Import prelude.
From Verif Require Import Proc_Model.
Local Open Scope Z_scope.

Definition end_time (o : outcome) : Z := match o with Stopped t | Survived t | Raised t => t end.
Definition signals (l : sent) : list sig := map (fun x => snd (fst x)) l.
(** Process [p] is sent [s] at time [t]. *)
Definition hits (l : sent) (p : nat) (s : sig) (t : Z) : Prop := (t, s, Held p) ∈ l.
(** Between a signal and the next one there are at least its timeout (in tenths of a
    second), and at most a bit more than twice of it. *)
Fixpoint spaced (lo hi : sig -> Z) (l : sent) : Prop :=
  match l with
  | (t, s, _) :: rest => match rest with (t', _, _) :: _ => lo s <= t' - t <= hi s | [] => True end /\ spaced lo hi rest
  | [] => True
  end.
Definition timeout_of (a b c : Z) (s : sig) : Z := match s with SIGINT => a | SIGTERM => b | SIGKILL => c end.
(** The process id is not given to another process. *)
Definition not_reused (tab : table) (p : nat) : Prop := forall t, tab t = Free \/ tab t = Held p.
