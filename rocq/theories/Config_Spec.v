(** Vocabulary for C44, C45 and C66. *)
From Coq Require Import Ascii ZArith QArith Qround.
From stdpp Require Import prelude.
From Verif Require Import Config_Model.
Local Open Scope Z_scope.

(** The scheduler and [n] workers are within every limit that is set. *)
Definition fits (s : sizes) (n : Z) : Prop :=
  0 <= n /\
  (forall m, max_mem s = Some m -> sched_mem s + n * worker_mem s <= m) /\
  (forall c, max_cores s = Some c -> (sched_cores s + inject_Z n * worker_cores s <= c)%Q).
Definition limited (s : sizes) : Prop := max_mem s <> None \/ max_cores s <> None.
Definition bytes_of (u : unit_name) : Z := match u with Bytes => 1 | Kilo => 1024 | Mega => 1024 * 1024 | Giga => 1024 * 1024 * 1024 end.
Definition denotes (s : Z * unit_name) : Z := fst s * bytes_of (snd s).
Definition is_max (x : setting) : bool := match x with MaxWorkers _ => true | _ => false end.
(** A dictionary names each trait at most once. *)
Definition once (xs : list setting) : Prop := forall l1 x l2 y l3, xs = l1 ++ x :: l2 ++ y :: l3 -> same_trait x y = false.
(** The finished configuration allows no more workers than its limits. *)
Definition within (c : config) : Prop := forall lim, worker_limit (c_sizes c) = Some lim -> exists n, max_workers c = Some n /\ n <= lim.
