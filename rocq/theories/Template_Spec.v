(** What a template is: pieces of text and references to variables.  Independent of how
    templates are read. *)
From Coq Require Import Ascii String ZArith.
From stdpp Require Import prelude.
From Verif Require Import Router_Model ProxyLog_Model Launch_Model.
Local Open Scope nat_scope.

Inductive piece := Literal (c : ascii) | Ref (name : bytes).
(** How a piece is written: braces are doubled, a reference is put in braces. *)
Definition write1 (p : piece) : bytes :=
  match p with
  | Literal c => if decide (c = "{"%char \/ c = "}"%char) then [c; c] else [c]
  | Ref n => "{"%char :: n ++ ["}"%char]
  end.
Definition written (ps : list piece) : bytes := mjoin (map write1 ps).
(** What it stands for in an environment: nothing if a variable is not defined. *)
Definition means1 (env : list (bytes * bytes)) (p : piece) : option bytes :=
  match p with Literal c => Some [c] | Ref n => dget n env end.
Fixpoint means (env : list (bytes * bytes)) (ps : list piece) : option bytes :=
  match ps with
  | [] => Some []
  | p :: ps => v ← means1 env p; t ← means env ps; Some (v ++ t)
  end.
(** Names that can be referred to: some character is not a digit, and none of the characters
    with a meaning in fields occurs. *)
Definition digit (c : ascii) : Prop := c ∈ b_ "0123456789".
Definition good_name (n : bytes) : Prop :=
  (exists c, c ∈ n /\ ~ digit c) /\ (forall c, c ∈ n -> c ∉ b_ "{}[:!.").
Definition good (p : piece) : Prop := match p with Literal _ => True | Ref n => good_name n end.
(** Texts without braces. *)
Definition no_brace (s : bytes) : Prop := "{"%char ∉ s /\ "}"%char ∉ s.
