(** JSON values as Python sees them after json.loads (no code of /repo is
    modelled here).  Objects are dicts: association lists in insertion order, with
    [dget]/[dset] of ProxyLog_Model.  A finite float is the rational number it
    denotes; json.loads also accepts NaN and the infinities. *)
From Coq Require Import Ascii ZArith QArith Qcanon.
From stdpp Require Import prelude.
From Verif Require Import Router_Model ProxyLog_Model.

Inductive fl := NaN | PInf | NInf | Fin (q : Qc).
Inductive json :=
| JNull
| JBool (b : bool)
| JInt (z : Z)
| JFloat (f : fl)
| JStr (s : bytes)
| JList (l : list json)
| JObj (o : list (bytes * json)).

(** Python's [<] on numbers, [a < b]. *)
Definition fltb (a b : fl) : bool :=
  match a, b with
  | NaN, _ | _, NaN => false
  | PInf, _ => false
  | _, NInf => false
  | NInf, _ => true
  | _, PInf => true
  | Fin p, Fin q => match (p ?= q)%Qc with Lt => true | _ => false end
  end.
Definition of_Z (z : Z) : fl := Fin (Q2Qc (inject_Z z)).
(** The number a value stands for in a comparison; [None]: not a number, comparing
    it with a number raises TypeError.  bool is a subclass of int. *)
Definition num_of (x : json) : option fl :=
  match x with
  | JBool b => Some (of_Z (if b then 1 else 0))
  | JInt z => Some (of_Z z)
  | JFloat f => Some f
  | _ => None
  end.
(** isinstance(x, int). *)
Definition int_of (x : json) : option Z :=
  match x with JBool b => Some (if b then 1%Z else 0%Z) | JInt z => Some z | _ => None end.
