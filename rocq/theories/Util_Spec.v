(** Vocabulary for C46-C48. *)
From Coq Require Import Ascii ZArith QArith Qminmax.
From stdpp Require Import prelude.
From Verif Require Import Trace Router_Model ProxyLog_Model Json_Model Util_Model.

(** * Rate limiter.  A history lists, per call, when it was made and when it could go
    on.  [arrivals t h]: calls are made in order of time, from [t] on. *)
Fixpoint arrivals (t : Q) (h : list (Q * Q)) : Prop :=
  match h with [] => True | (now, _) :: h' => (t <= now)%Q /\ arrivals now h' end.
Definition limited (rate burst t0 : Q) (h : list (Q * Q)) : Prop :=
  (exists l, exec (acquire rate burst) (limiter_init burst t0) h l) /\ arrivals t0 h.
(** The calls that go on within a window. *)
Definition in_window (s t : Q) (eo : Q * Q) : bool := Qle_bool s (snd eo) && Qle_bool (snd eo) (s + t).
Definition count_Q (n : nat) : Q := inject_Z (Z.of_nat n).
(** No call is made more than burst/rate seconds after a call that had to wait. *)
Definition no_long_gap (rate burst : Q) (h : list (Q * Q)) : Prop :=
  forall h1 n1 p1 n2 p2 h2, h = h1 ++ (n1, p1) :: (n2, p2) :: h2 -> (p1 <= n1)%Q \/ (n2 - n1 <= burst / rate)%Q.

(** * Cache. *)
Section lru.
Context {K V : Type} `{EqDecision K}.
Implicit Types h : list (lev K V * lout K V).
Definition evicts (eo : lev K V * lout K V) (k : K) : Prop := snd eo = OPut (Some k).
(** The last thing that happened to [k] was that [v] was put. *)
Definition holds h (k : K) (v : V) : Prop :=
  exists h1 o h2, h = h1 ++ (Put k v, o) :: h2 /\ ~ evicts (Put k v, o) k /\
    forall eo, eo ∈ h2 -> ~ evicts eo k /\ fst eo <> Discard k /\ forall v', fst eo <> Put k v'.
(** Reading an entry or adding one that is not there. *)
Definition uses h (eo : lev K V * lout K V) (k : K) : Prop :=
  match eo with
  | (Get k', OGet (Some _)) => k' = k
  | (Put k' _, _) => k' = k /\ forall v, ~ holds h k v
  | _ => False
  end.
(** [k'] was used after the last use of [k]. *)
Definition used_later h (k k' : K) : Prop :=
  exists h1 eo h2, h = h1 ++ eo :: h2 /\ uses h1 eo k' /\ ~ uses h1 eo k /\
    forall h2a eo' h2b, h2 = h2a ++ eo' :: h2b -> ~ uses (h1 ++ eo :: h2a) eo' k.
End lru.

(** * Merging.  Objects have distinct keys, at every depth. *)
Fixpoint wf (j : json) : Prop :=
  match j with
  | JObj o => NoDup (map fst o) /\ (fix all (o : list (bytes * json)) : Prop := match o with [] => True | kv :: o' => wf (snd kv) /\ all o' end) o
  | _ => True
  end.
(** What merging makes of the values [x] of [a] and [y] of [b] for the same key:
    objects are merged, lists appended, otherwise [b] wins. *)
Definition combined (x : option json) (y : option json) : option json :=
  match x, y with
  | x, None => x
  | Some (JObj xo), Some (JObj yo) => Some (JObj (merge yo xo))
  | Some (JList xl), Some (JList yl) => Some (JList (xl ++ yl))
  | _, Some v => Some v
  end.
(** The part of a value at a path of keys. *)
Fixpoint part (p : list bytes) (j : json) : option json :=
  match p with
  | [] => Some j
  | k :: p' => match j with JObj o => x ← dget k o; part p' x | _ => None end
  end.
(** [b] says nothing about path [p]. *)
Fixpoint silent (p : list bytes) (b : json) : Prop :=
  match p with
  | [] => False
  | k :: p' => match b with JObj o => match dget k o with Some v => silent p' v | None => True end | _ => False end
  end.
Definition scalar (j : json) : Prop := match j with JObj _ | JList _ => False | _ => True end.

(** What is stored at an address, read as a JSON value without looking at the
    addresses in [A]. *)
Inductive reads (A : nat -> Prop) (h : heap) : hval -> json -> Prop :=
| R_scalar j : scalar j -> reads A h (Scalar j) j
| R_dict a d o : ~ A a -> h !! a = Some (HDict d) -> reads_d A h d o -> reads A h (Ref a) (JObj o)
| R_list a l js : ~ A a -> h !! a = Some (HList l) -> reads_l A h l js -> reads A h (Ref a) (JList js)
with reads_d (A : nat -> Prop) (h : heap) : list (bytes * hval) -> list (bytes * json) -> Prop :=
| RD_nil : reads_d A h [] []
| RD_cons k v j d o : reads A h v j -> reads_d A h d o -> reads_d A h ((k, v) :: d) ((k, j) :: o)
with reads_l (A : nat -> Prop) (h : heap) : list hval -> list json -> Prop :=
| RL_nil : reads_l A h [] []
| RL_cons v j l js : reads A h v j -> reads_l A h l js -> reads_l A h (v :: l) (j :: js).
