(** The widgets of the client's options: C/options.py 147-194 (Field), 197-318 (the kinds of
    fields and their widgets), 320-392 (Mapping).  C = dask-gateway/dask_gateway.  An Options object
    makes its widgets once (53-72, [_cached_widget]), so a field has at most one input.  Texts and
    choices are numbers here; floats are rational numbers (NaN, the infinities and rounding are
    left out).  ipywidgets: assigning a value that is not the present one notifies the observers,
    an assignment of the present one does not; the bounded inputs put a number between their
    bounds first; an exception of an observer comes out of the assignment. *)
From Coq Require Import QArith Qcanon.
From stdpp Require Import prelude.
Local Open Scope Qc_scope.

#[global] Instance Qc_eq : EqDecision Qc := Qc_eq_dec.
Definition leb (a b : Qc) : bool := if Qclt_le_dec b a then false else true.
Definition q (z : Z) : Qc := Q2Qc (inject_Z z).

Inductive kind :=
| Text                                                 (* String, Bool: every value of the type *)
| Choice (options : list Qc)                           (* Select *)
| Whole (low high : option Qc)                         (* Integer *)
| Real (low high : option Qc).                         (* Float *)
(** Number.validate 237-242, Select.validate 307-312. *)
Definition within (low high : option Qc) (x : Qc) : bool :=
  match low with Some l => leb l x | None => true end && match high with Some h => leb x h | None => true end.
Definition valid (k : kind) (x : Qc) : bool :=
  match k with
  | Text => true
  | Choice o => bool_decide (x ∈ o)
  | Whole l h | Real l h => within l h x
  end.
(** The bounds an input has: IntText and FloatText have none; 260-264: -(2**63), 2**63 - 1;
    284-288: [self.min or float("-inf")], and 0.0 is false. *)
Definition bounds (k : kind) : option Qc * option Qc :=
  match k with
  | Text | Choice _ | Whole None None => (None, None)
  | Whole l h => (Some (default (q (- 2 ^ 63)) l), Some (default (q (2 ^ 63 - 1)) h))
  | Real l h => (match l with Some x => if decide (x = 0) then None else Some x | None => None end,
                 match h with Some x => if decide (x = 0) then None else Some x | None => None end)
  end.
(** _BoundedInt and _BoundedFloat: min(max(value, self.min), self.max). *)
Definition raise_to (l : option Qc) (x : Qc) : Qc := match l with Some l => if leb l x then x else l | None => x end.
Definition lower_to (h : option Qc) (x : Qc) : Qc := match h with Some h => if leb x h then x else h | None => x end.
Definition clamp (k : kind) (x : Qc) : Qc := let '(l, h) := bounds k in lower_to h (raise_to l x).

Record field := Field { f_kind : kind; f_value : Qc; f_input : option Qc (* what its input shows *) }.
(** set (171-175) with the input's handler (183-184) called in it.  The handler sets the same field
    again, and its assignment to the input is one of the present value: the input's bounds leave
    alone what they gave.  The flag: no exception. *)
Definition set (f : field) (x : Qc) : field * bool :=
  if valid (f_kind f) x then
    match f_input f with
    | None => (Field (f_kind f) x None, true)
    | Some y =>
        let z := clamp (f_kind f) x in
        if decide (z = y) then (Field (f_kind f) x (Some y), true)
        else if valid (f_kind f) z then (Field (f_kind f) z (Some z), true) else (Field (f_kind f) x (Some z), false)
    end
  else (f, false).
(** The user enters [x] in the browser: the input's value changes, then its handler runs; an
    exception of the handler is only logged.  A Dropdown takes nothing but its options. *)
Definition enter (f : field) (x : Qc) : field :=
  match f_input f with
  | None => f
  | Some y =>
      let z := clamp (f_kind f) x in
      if decide (z = y) then f
      else if valid (f_kind f) z then Field (f_kind f) z (Some z)
      else match f_kind f with Choice _ => f | _ => Field (f_kind f) (f_value f) (Some z) end
  end.
(** widget (180-194): the input is made with the present value. *)
Definition display (f : field) : field :=
  match f_input f with None => Field (f_kind f) (f_value f) (Some (clamp (f_kind f) (f_value f))) | Some _ => f end.
Inductive event := Assign (x : Qc) | Enter (x : Qc) | Display.
Definition step (f : field) (e : event) : field :=
  match e with Assign x => fst (set f x) | Enter x => enter f x | Display => display f end.
Definition run (f : field) (es : list event) : field := fold_left step es f.

(** * Mapping (320-392).  [load]: yaml.safe_load of the stripped text ({} for an empty one), [dump]:
    transform.  The values of Mapping fields and the texts of its input are numbers. *)
Inductive loaded := Dict (d : nat) | NotDict | Invalid.
Record mapping := Mapping { m_value : nat; m_input : option nat; m_error : bool (* the status cross *) }.
(** set (340-346) and handler (351-362); [fuel] is Python's recursion limit. *)
Fixpoint mset (load : nat -> loaded) (dump : nat -> option nat) (fuel : nat) (s : mapping) (d : nat) : mapping * bool :=
  match fuel with
  | O => (s, false)
  | S n =>
      match dump d with
      | None => (s, false)
      | Some t =>
          match m_input s with
          | None => (Mapping d None (m_error s), true)
          | Some x =>
              if decide (x = t) then (Mapping d (Some x) (m_error s), true)
              else
                let s := Mapping d (Some t) (m_error s) in
                match load t with
                | Dict d' => let '(s, ok) := mset load dump n s d' in (Mapping (m_value s) (m_input s) (negb ok), true)
                | _ => (Mapping (m_value s) (m_input s) true, true)
                end
          end
      end
  end.
Definition handler (load : nat -> loaded) (dump : nat -> option nat) (fuel : nat) (s : mapping) (t : nat) : mapping :=
  match load t with
  | Dict d => let '(s, ok) := mset load dump fuel s d in Mapping (m_value s) (m_input s) (negb ok)
  | _ => Mapping (m_value s) (m_input s) true
  end.
Inductive mevent := MAssign (d : nat) | MEnter (t : nat) | MDisplay.
Definition mstep (load : nat -> loaded) (dump : nat -> option nat) (fuel : nat) (s : mapping) (e : mevent) : mapping :=
  match e with
  | MAssign d => fst (mset load dump fuel s d)
  | MEnter t =>
      match m_input s with
      | Some x => if decide (x = t) then s else handler load dump fuel (Mapping (m_value s) (Some t) (m_error s)) t
      | None => s
      end
  | MDisplay =>                                        (* 383-387; a value that cannot be written raises *)
      match m_input s, dump (m_value s) with None, Some t => Mapping (m_value s) (Some t) false | _, _ => s end
  end.
Definition mrun (load : nat -> loaded) (dump : nat -> option nat) (fuel : nat) (s : mapping) (es : list mevent) : mapping :=
  fold_left (mstep load dump fuel) es s.
