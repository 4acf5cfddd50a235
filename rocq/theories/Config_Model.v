(** Model of the resource part of ClusterConfig
    (dask-gateway-server/dask_gateway_server/backends/base.py 300-470, the Kubernetes
    variant backends/kubernetes/backend.py 60-170), of MemoryLimit (traitlets.py
    30-60) and of the memory strings for PBS and Slurm
    (backends/jobqueue/pbs.py 13-21, slurm.py 13-21). *)
From Coq Require Import Ascii ZArith QArith Qround.
From stdpp Require Import prelude.
Local Open Scope Z_scope.

(** * The worker limit.  Memory sizes are ints; cores are floats, modelled as
    rationals (simplified: the subtraction is exact; infinite and NaN core counts are
    left out, they make int() raise). *)
Record sizes := Sizes { sched_mem : Z; worker_mem : Z; sched_cores : Q; worker_cores : Q; max_mem : option Z; max_cores : option Q }.
(** _worker_limit_from_resources (415-431); [None] stands for float("inf") on the way
    and for None in the result. *)
Definition pymin (a b : option Z) : option Z :=
  match a, b with Some x, Some y => Some (if y <? x then y else x) | Some x, None => Some x | None, y => y end.
Definition worker_limit (s : sizes) : option Z :=
  let m1 := match max_mem s with Some m => pymin (Some ((m - sched_mem s) / worker_mem s)) None | None => None end in
  let m2 := match max_cores s with Some c => pymin (Some (Qfloor ((c - sched_cores s) / worker_cores s))) m1 | None => m1 end in
  match m2 with None => None | Some n => Some (Z.max 0 n) end.
(** The checks of the scheduler's own size (401-413). *)
Definition Qgtb (a b : Q) : bool := negb (Qle_bool a b).
Definition sched_mem_ok (s : sizes) : bool := match max_mem s with Some m => negb (m <? sched_mem s) | None => true end.
Definition sched_cores_ok (s : sizes) : bool := match max_cores s with Some c => negb (Qgtb (sched_cores s) c) | None => true end.

(** * Constructing a configuration object: ClusterConfig(parent=..., **overrides).
    What traitlets (5.x, not in /repo; HasTraits.__init__, Configurable.__init__,
    hold_trait_notifications, TraitType.set) does with it:
    1. the keyword arguments are assigned together, then each is cross-validated;
    2. the operator's configuration is assigned together, then each trait it changed
       is cross-validated;
    3. a keyword argument that the operator's configuration had changed is assigned
       again, by itself, with cross-validation.
    A trait nobody assigned computes its default when it is read (468-470). *)
Inductive setting :=
| SchedMem (z : Z) | WorkerMem (z : Z) | SchedCores (q : Q) | WorkerCores (q : Q)
| MaxMem (m : option Z) | MaxCores (c : option Q) | MaxWorkers (n : option Z).
(** The object: the sizes, and cluster_max_workers if it was assigned. *)
Record config := Config { c_sizes : sizes; c_max : option (option Z) }.
Definition assign (c : config) (x : setting) : config :=
  let s := c_sizes c in
  match x with
  | SchedMem z => Config (Sizes z (worker_mem s) (sched_cores s) (worker_cores s) (max_mem s) (max_cores s)) (c_max c)
  | WorkerMem z => Config (Sizes (sched_mem s) z (sched_cores s) (worker_cores s) (max_mem s) (max_cores s)) (c_max c)
  | SchedCores q => Config (Sizes (sched_mem s) (worker_mem s) q (worker_cores s) (max_mem s) (max_cores s)) (c_max c)
  | WorkerCores q => Config (Sizes (sched_mem s) (worker_mem s) (sched_cores s) q (max_mem s) (max_cores s)) (c_max c)
  | MaxMem m => Config (Sizes (sched_mem s) (worker_mem s) (sched_cores s) (worker_cores s) m (max_cores s)) (c_max c)
  | MaxCores q => Config (Sizes (sched_mem s) (worker_mem s) (sched_cores s) (worker_cores s) (max_mem s) q) (c_max c)
  | MaxWorkers n => Config s (Some n)
  end.
(** _validate_cluster_max_workers (446-453) and, for an assigned None, the observer
    (455-465): the same limit. *)
Definition validate_max (s : sizes) (n : option Z) : option Z :=
  match worker_limit s, n with
  | None, n => n
  | Some lim, None => Some lim
  | Some lim, Some n => Some (if lim <? n then lim else n)
  end.
(** Cross-validation of one assigned trait (433-453); [None]: it raises. *)
Definition cross (x : setting) (c : config) : option config :=
  match x with
  | SchedMem _ | MaxMem _ => if sched_mem_ok (c_sizes c) then Some c else None
  | SchedCores _ | MaxCores _ => if sched_cores_ok (c_sizes c) then Some c else None
  | MaxWorkers _ => match c_max c with Some n => Some (Config (c_sizes c) (Some (validate_max (c_sizes c) n))) | None => Some c end
  | WorkerMem _ | WorkerCores _ => Some c
  end.
(** Assign together, then cross-validate the ones in [xs']. *)
Fixpoint crosses (xs : list setting) (c : config) : option config :=
  match xs with [] => Some c | x :: xs' => c1 ← cross x c; crosses xs' c1 end.
Definition held (xs : list setting) (changed : list setting) (c : config) : option config :=
  crosses changed (foldl assign c xs).
(** Assigning by itself (step 3). *)
Fixpoint one_by_one (xs : list setting) (c : config) : option config :=
  match xs with [] => Some c | x :: xs' => c1 ← cross x (assign c x); one_by_one xs' c1 end.
Definition same_trait (x y : setting) : bool :=
  match x, y with
  | SchedMem _, SchedMem _ | WorkerMem _, WorkerMem _ | SchedCores _, SchedCores _ | WorkerCores _, WorkerCores _
  | MaxMem _, MaxMem _ | MaxCores _, MaxCores _ | MaxWorkers _, MaxWorkers _ => true
  | _, _ => false
  end.
(** Does assigning [x] change the object?  An unassigned cluster_max_workers counts
    as 0, the static default of Integer. *)
Definition changes (c : config) (x : setting) : bool :=
  let s := c_sizes c in
  match x with
  | SchedMem z => negb (z =? sched_mem s)
  | WorkerMem z => negb (z =? worker_mem s)
  | SchedCores q => negb (Qeq_bool q (sched_cores s))
  | WorkerCores q => negb (Qeq_bool q (worker_cores s))
  | MaxMem m => negb (bool_decide (m = max_mem s))
  | MaxCores (Some q) => match max_cores s with Some q' => negb (Qeq_bool q q') | None => true end
  | MaxCores None => match max_cores s with Some _ => true | None => false end
  | MaxWorkers n => negb (bool_decide (n = match c_max c with Some m => m | None => Some 0 end))
  end.
(** The class defaults (247-395): memory "2 G", cores 1, no limits. *)
Definition class_defaults : config := Config (Sizes (2 * 2 ^ 30) (2 * 2 ^ 30) 1 1 None None) None.
(** [kwargs]: the overrides made from the user's options; [conf]: the operator's
    configuration. *)
Definition build (kwargs conf : list setting) : option config :=
  c1 ← held kwargs kwargs class_defaults;
  let changed := List.filter (changes c1) conf in
  c2 ← held conf changed c1;
  one_by_one (List.filter (fun x => existsb (same_trait x) changed) kwargs) c2.
(** Reading cluster_max_workers of the finished object. *)
Definition max_workers (c : config) : option Z :=
  match c_max c with Some n => n | None => worker_limit (c_sizes c) end.

(** * MemoryLimit.validate (traitlets.py 42-60).  [Num]: an int or a float, rounded
    towards zero by int(); [Str x u]: a string that ends in the character [u] and whose
    rest float() reads as [x] (the product with a power of two is exact; NaN,
    infinities and overflow raise and are left out). *)
Inductive memspec := Num (q : Q) | Str (x : option Q) (u : ascii).
Definition unit_of (u : ascii) : option Z :=
  if Ascii.eqb u "K" then Some (2 ^ 10) else if Ascii.eqb u "M" then Some (2 ^ 20)
  else if Ascii.eqb u "G" then Some (2 ^ 30) else if Ascii.eqb u "T" then Some (2 ^ 40) else None.
Definition trunc (q : Q) : Z := if Qle_bool 0 q then Qfloor q else Qceiling q.
Definition memory_limit (m : memspec) : option Z :=
  match m with
  | Num q => Some (trunc q)
  | Str x u => x ← x; f ← unit_of u; Some (trunc (x * inject_Z f)%Q)
  end.

(** * Memory strings: a count and a unit. *)
Inductive unit_name := Bytes | Kilo | Mega | Giga.
(** math.ceil(n / 2**k) for n >= 10 * 2**k: the quotient of two ints is a double,
    that is n / 2**k rounded to 53 bits, half to even (the division by a power of two
    is exact then).  Simplified: the OverflowError beyond 2**1024 is left out. *)
Definition round_half_even (n d : Z) : Z :=
  let q := n / d in let r := n mod d in
  if 2 * r <? d then q else if d <? 2 * r then q + 1 else if Z.even q then q else q + 1.
Definition to_double (n : Z) : Z :=
  let e := Z.log2 n - 52 in if e <=? 0 then n else round_half_even n (2 ^ e) * 2 ^ e.
Definition ceil_div (n k : Z) : Z := - ((- to_double n) / 2 ^ k).
(** qsub_format_memory (pbs.py 13-21). *)
Definition pbs_memory (n : Z) : Z * unit_name :=
  if 10 * 2 ^ 30 <=? n then (ceil_div n 30, Giga)
  else if 10 * 2 ^ 20 <=? n then (ceil_div n 20, Mega)
  else if 10 * 2 ^ 10 <=? n then (ceil_div n 10, Kilo)
  else (n, Bytes).
(** slurm_format_memory (slurm.py 13-21). *)
Definition slurm_memory (n : Z) : Z * unit_name :=
  if 10 * 2 ^ 30 <=? n then (ceil_div n 30, Giga)
  else if 10 * 2 ^ 20 <=? n then (ceil_div n 20, Mega)
  else if 10 * 2 ^ 10 <=? n then (ceil_div n 10, Kilo)
  else (1, Kilo).
