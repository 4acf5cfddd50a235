(** Model of dask-gateway-server/dask-gateway-proxy/pkg/router/router.go.

    Go strings are lists of bytes.  [strings.IndexRune(s, '/')] searches a byte,
    because '/' is ASCII.  A run-time panic (index or slice out of range) is
    [None]; loops carry fuel, and running out of fuel is also [None], so that
    "never [None]" is both panic-freedom and termination.
    Simplification: nodes are values, not pointers (the code never shares a
    node); a Go map is an association list. *)
From Coq Require Import Ascii.
From stdpp Require Import prelude.

Notation bytes := (list ascii).
Definition slash : ascii := "/"%char.
Global Instance ascii_eq_decision : EqDecision ascii := ascii_dec.

(** Go slicing, [None] = panic. *)
Definition slice_from (p : bytes) (i : nat) : option bytes :=
  if decide (i <= length p) then Some (drop i p) else None.
Definition slice (p : bytes) (i j : nat) : option bytes :=
  if decide (i <= j /\ j <= length p) then Some (take (j - i) (drop i p)) else None.
Definition slice_to (p : bytes) (j : nat) : option bytes := slice p 0 j.

(** normalizePath (router.go:9-22). *)
Definition normalizePath (path : bytes) : option (bytes * nat) :=
  if decide (path = [] \/ path = [slash]) then Some ([], 0)
  else
    c0 ← path !! 0;
    po ← (if decide (c0 = slash) then p ← slice_from path 1; Some (p, 1) else Some (path, 0));
    let '(p, offset) := po in
    last ← (if decide (length p = 0) then None else p !! (length p - 1));
    if decide (last = slash) then p' ← slice_to p (length p - 1); Some (p', offset)
    else Some (p, offset).

(** strings.IndexRune(s, '/') (used at 28); [None] is -1. *)
Fixpoint indexSlash (s : bytes) : option nat :=
  match s with
  | [] => None
  | c :: s' => if decide (c = slash) then Some 0 else S <$> indexSlash s'
  end.

(** getSegment (24-33); the second result [None] is -1. *)
Definition getSegment (path : bytes) (start : nat) : option (bytes * option nat) :=
  if decide (length path = 0) then Some (path, None)
  else
    tl ← slice_from path start;
    match indexSlash tl with
    | None => seg ← slice_from path start; Some (seg, None)
    | Some end_ => seg ← slice path start (start + end_); Some (seg, Some (start + end_ + 1))
    end.

Section router.
Context {U : Type}.

(** type Router (35-38). *)
Inductive router := Node (url : option U) (branches : list (bytes * router)).
Definition r_url (r : router) : option U := match r with Node u _ => u end.
Definition r_branches (r : router) : list (bytes * router) := match r with Node _ b => b end.
(** isLeaf (40-42). *)
Definition isLeaf (r : router) : bool := match r_branches r with [] => true | _ => false end.
(** NewRouter (44-46). *)
Definition NewRouter : router := Node None [].

(** Go map operations on [branches]. *)
Fixpoint map_get (k : bytes) (m : list (bytes * router)) : option router :=
  match m with
  | [] => None
  | (k', r) :: m' => if decide (k = k') then Some r else map_get k m'
  end.
Fixpoint map_set (k : bytes) (r : router) (m : list (bytes * router)) : list (bytes * router) :=
  match m with
  | [] => [(k, r)]
  | (k', r') :: m' => if decide (k = k') then (k', r) :: m' else (k', r') :: map_set k r m'
  end.
Fixpoint map_delete (k : bytes) (m : list (bytes * router)) : list (bytes * router) :=
  match m with
  | [] => []
  | (k', r') :: m' => if decide (k = k') then map_delete k m' else (k', r') :: map_delete k m'
  end.

(** HasMatch (48-66): the loop of 53-64. *)
Fixpoint hasmatch_loop (fuel : nat) (node : router) (path : bytes) (n : nat) : option bool :=
  match fuel with
  | 0 => None
  | S f =>
      pi ← getSegment path n;
      match map_get (fst pi) (r_branches node) with
      | None => Some false
      | Some node' =>
          match r_url node' with
          | Some _ => Some true
          | None => match snd pi with
                    | None => Some false
                    | Some i => hasmatch_loop f node' path i
                    end
          end
      end
  end.
Definition HasMatch (r : router) (path : bytes) : option bool :=
  match r_url r with
  | Some _ => Some true
  | None => pn ← normalizePath path; hasmatch_loop (S (length path)) r (fst pn) 0
  end.

(** Match (68-97): the loop of 74-92; the accumulator is (out, offset2). *)
Fixpoint match_loop (fuel : nat) (node : router) (path2 : bytes) (n : nat) (out : option U) (offset2 : nat)
  : option (option U * nat) :=
  match fuel with
  | 0 => None
  | S f =>
      pi ← getSegment path2 n;
      match map_get (fst pi) (r_branches node) with
      | None => Some (out, offset2)
      | Some node' =>
          let '(out', off') := match r_url node' with
                               | Some u => (Some u, match snd pi with None => length path2 | Some i => i end)
                               | None => (out, offset2)
                               end in
          match snd pi with
          | None => Some (out', off')
          | Some i => match_loop f node' path2 i out' off'
          end
      end
  end.
(** The result is (target, rest of the path); [Some (None, [])] is "not found". *)
Definition Match (r : router) (path : bytes) : option (option U * bytes) :=
  po ← normalizePath path;
  oo ← match_loop (S (length path)) r (fst po) 0 (r_url r) 0;
  match fst oo with
  | None => Some (None, [])
  | Some u => rest ← slice_from path (snd po + snd oo); Some (Some u, rest)
  end.

(** Put (99-121): the loop of 106-119, written as an update of the path from
    [node] down (the Go code mutates the nodes in place). *)
Fixpoint put_loop (fuel : nat) (node : router) (path : bytes) (n : nat) (u : U) : option router :=
  match fuel with
  | 0 => None
  | S f =>
      pi ← getSegment path n;
      let child := default NewRouter (map_get (fst pi) (r_branches node)) in
      child' ← match snd pi with
               | None => Some (Node (Some u) (r_branches child))
               | Some i => put_loop f child path i u
               end;
      Some (Node (r_url node) (map_set (fst pi) child' (r_branches node)))
  end.
Definition Put (r : router) (path : bytes) (u : U) : option router :=
  pn ← normalizePath path;
  if decide (fst pn = []) then Some (Node (Some u) (r_branches r))
  else put_loop (S (length path)) r (fst pn) 0 u.

(** Delete (123-164).  [Some None]: some segment is missing, nothing changes
    (142-144).  [Some (Some (node', prune))]: the new node, and whether the
    upward loop of 151-162 removes it from its parent. *)
Fixpoint delete_loop (fuel : nat) (node : router) (path : bytes) (n : nat) : option (option (router * bool)) :=
  match fuel with
  | 0 => None
  | S f =>
      pi ← getSegment path n;
      match map_get (fst pi) (r_branches node) with
      | None => Some None
      | Some child =>
          sub ← match snd pi with
                | None => let c := Node None (r_branches child) in Some (Some (c, isLeaf c))
                | Some i => delete_loop f child path i
                end;
          match sub with
          | None => Some None
          | Some (child', true) =>
              let node' := Node (r_url node) (map_delete (fst pi) (r_branches node)) in
              Some (Some (node', match r_url node' with Some _ => false | None => isLeaf node' end))
          | Some (child', false) =>
              Some (Some (Node (r_url node) (map_set (fst pi) child' (r_branches node)), false))
          end
      end
  end.
Definition Delete (r : router) (path : bytes) : option router :=
  pn ← normalizePath path;
  if decide (fst pn = []) then Some (Node None (r_branches r))
  else res ← delete_loop (S (length path)) r (fst pn) 0;
       match res with None => Some r | Some (r', _) => Some r' end.

(** traverse (166-174): the (prefix, url) pairs in visiting order; the order of
    Go map iteration is unspecified, here it is the list order. *)
Fixpoint traverse (prefix : bytes) (r : router) : list (bytes * U) :=
  match r with
  | Node u bs =>
      (match u with Some x => [(prefix, x)] | None => [] end) ++
      (fix go (bs : list (bytes * router)) : list (bytes * U) :=
         match bs with
         | [] => []
         | (k, r') :: bs' => traverse (prefix ++ [slash] ++ k) r' ++ go bs'
         end) bs
  end.

(** A sequence of table changes. *)
Inductive op := OPut (path : bytes) (u : U) | ODelete (path : bytes).
Definition apply_op (r : router) (o : op) : option router :=
  match o with OPut p u => Put r p u | ODelete p => Delete r p end.
Fixpoint apply_ops (r : router) (ops : list op) : option router :=
  match ops with
  | [] => Some r
  | o :: ops' => r' ← apply_op r o; apply_ops r' ops'
  end.
End router.
Arguments router U : clear implicits.
Arguments op U : clear implicits.

(** strings.HasSuffix(a, "/") and strings.HasPrefix(b, "/"). *)
Definition has_suffix_slash (a : bytes) : bool :=
  match reverse a with c :: _ => if decide (c = slash) then true else false | [] => false end.
Definition has_prefix_slash (b : bytes) : bool :=
  match b with c :: _ => if decide (c = slash) then true else false | [] => false end.

(** singleJoiningSlash (cmd/dask-gateway-proxy/main.go:417-427). *)
Definition singleJoiningSlash (a b : bytes) : option bytes :=
  match has_suffix_slash a, has_prefix_slash b with
  | true, true => tl ← slice_from b 1; Some (a ++ tl)
  | false, false => Some (a ++ [slash] ++ b)
  | _, _ => Some (a ++ b)
  end.

(** The parts of url.URL that ServeHTTP reads or writes. *)
Record goURL := URL { u_scheme : bytes; u_host : bytes; u_path : bytes; u_query : bytes }.
(** http.Request: its URL and its Host field. *)
Record goReq := Req { q_url : goURL; q_host : bytes }.
Inductive served := Forwarded (r : goReq) | NotFound.

Definition amp : ascii := "&"%char.
(** ServeHTTP (main.go:388-415).  Simplification: logging and the reverse proxy
    behind [p.proxy.ServeHTTP] are left out; RawPath is never read there. *)
Definition ServeHTTP (r : router goURL) (req : goReq) : option served :=
  m ← Match r (u_path (q_url req));
  match fst m with
  | None => Some NotFound
  | Some target =>
      path ← singleJoiningSlash (u_path target) (snd m);
      let q := u_query (q_url req) in
      let query := if decide (u_query target = [] \/ q = []) then u_query target ++ q
                   else u_query target ++ [amp] ++ q in
      Some (Forwarded (Req (URL (u_scheme target) (u_host target) path query) (u_host target)))
  end.
