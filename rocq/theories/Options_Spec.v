(** Vocabulary for C40-C43. *)
From Coq Require Import Ascii String ZArith QArith Qcanon.
From stdpp Require Import prelude.
From Verif Require Import Router_Model ProxyLog_Model Json_Model Options_Model.
Local Open Scope Z_scope.

(** The mathematical order on numbers; NaN is not comparable. *)
Definition le_fl (a b : fl) : Prop :=
  match a, b with
  | NaN, _ | _, NaN => False
  | NInf, _ | _, PInf => True
  | Fin p, Fin q => (p <= q)%Qc
  | _, _ => False
  end.

Section spec.
Context (float_of : Z -> option fl) {V : Type}.
(** A field an operator can declare. *)
Definition declared (f : field V) : Prop := exists name target d, make float_of name target d = Some f.
Definition names (fs : list (field V)) : list bytes := map f_name fs.
Definition targets (fs : list (field V)) : list bytes := map f_target fs.
(** What the request says about a field, or the default. *)
Definition given (f : field V) (r : list (bytes * json)) : json :=
  match dget (f_name f) r with Some x => x | None => f_default f end.

(** What it means for a value to be right for a kind of field (NaN aside). *)
Inductive fits : kind V -> json -> Prop :=
| FString s : fits KString (JStr s)
| FBool b : fits KBool (JBool b)
| FInt mn mx x z : int_of x = Some z -> (forall m, mn = Some m -> m <= z) -> (forall m, mx = Some m -> z <= m) -> fits (KInt mn mx) x
| FFloat mn mx f : (forall m, mn = Some m -> m = NaN \/ f = NaN \/ le_fl m f) -> (forall m, mx = Some m -> m = NaN \/ f = NaN \/ le_fl f m) -> fits (KFloat mn mx) (JFloat f)
| FSelect opts s v : (s, v) ∈ opts -> fits (KSelect opts) (JStr s)
| FMapping o : fits KMapping (JObj o).
(** How a value is normalised on acceptance: ints become floats in float fields. *)
Definition normal (k : kind V) (x v : json) : Prop :=
  match k with
  | KFloat _ _ => v = x \/ exists z f, int_of x = Some z /\ float_of z = Some f /\ v = JFloat f
  | _ => v = x
  end.
(** The Python value a value stands for: the mapped one for a Select. *)
Definition means (J : json -> V) (k : kind V) (v : json) (w : V) : Prop :=
  match k with
  | KSelect opts => exists s, v = JStr s /\ dget s opts = Some w
  | _ => w = J v
  end.
End spec.
