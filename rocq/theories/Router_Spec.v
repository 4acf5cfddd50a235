(** Vocabulary for the proxy router properties: routes as a table keyed by the
    list of path segments, independent of the tree. *)
From Coq Require Import Ascii.
From stdpp Require Import prelude.
From Verif Require Import Router_Model.

(** Text between slashes. *)
Fixpoint split_slash (s : bytes) : list bytes :=
  match s with
  | [] => [[]]
  | c :: s' => if decide (c = slash) then [] :: split_slash s'
               else match split_slash s' with
                    | [] => [[c]]
                    | seg :: r => (c :: seg) :: r
                    end
  end.
Definition join_slash (k : list bytes) : bytes :=
  match k with [] => [] | s :: k' => s ++ concat (map (fun s => slash :: s) k') end.

(** Drop one leading, then one trailing slash, if any. *)
Definition strip_lead (p : bytes) : bytes := match p with c :: p' => if decide (c = slash) then p' else p | [] => [] end.
Definition strip_trail (p : bytes) : bytes := reverse (strip_lead (reverse p)).
Definition strip (p : bytes) : bytes := strip_trail (strip_lead p).

(** How the table is printed: every segment preceded by a slash. *)
Definition spell (k : list bytes) : bytes := concat (map (fun s => slash :: s) k).

(** The route a path names: its segments; the root is the empty list. *)
Definition route_of (p : bytes) : list bytes :=
  let q := strip p in if decide (q = []) then [] else split_slash q.

Section spec.
Context {U : Type}.

(** The table after a sequence of changes (oldest first). *)
Definition table_step (T : list bytes -> option U) (o : op U) : list bytes -> option U :=
  match o with
  | OPut p u => fun k => if decide (k = route_of p) then Some u else T k
  | ODelete p => fun k => if decide (k = route_of p) then None else T k
  end.
Definition table (ops : list (op U)) : list bytes -> option U := fold_left table_step ops (fun _ => None).

(** [k] with target [u] is the longest route that is a prefix of the request. *)
Definition longest_match (T : list bytes -> option U) (req : list bytes) (k : list bytes) (u : U) : Prop :=
  T k = Some u /\ k `prefix_of` req /\ forall k' u', T k' = Some u' -> k' `prefix_of` req -> length k' <= length k.

(** The node reached by following segments. *)
Fixpoint node_at (r : router U) (k : list bytes) : option (router U) :=
  match k with
  | [] => Some r
  | s :: k' => match map_get s (r_branches r) with None => None | Some r' => node_at r' k' end
  end.
End spec.
