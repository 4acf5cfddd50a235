(** Properties C08-C11: the proxy's HTTP route table (router.go, ServeHTTP). *)
From Coq Require Import Ascii String.
From stdpp Require Import prelude.
From Verif Require Import Router_Model Router_Spec Router_Proofs.

(** C08. After any sequence of changes the tree represents the table "last
    addition not followed by a deletion" ([table]); no change panics. *)
Theorem C08_finite_map : forall (U : Type) (ops : list (op U)),
  exists r, apply_ops NewRouter ops = Some r /\
  forall k, (n ← node_at r k; r_url n) = table ops k.
Proof. exact @run_finite_map. Qed.
Print Assumptions C08_finite_map.

(** ... what the JSON dump lists is exactly that table. *)
Theorem C08_dump : forall (U : Type) (ops : list (op U)) r, apply_ops NewRouter ops = Some r ->
  forall p u, (p, u) ∈ traverse [] r <-> exists k, table ops k = Some u /\ p = spell k.
Proof. exact @run_traverse. Qed.
Print Assumptions C08_dump.

(** ... two paths name the same route exactly when they agree after removing
    one leading and one trailing slash, so other paths keep their target. *)
Theorem C08_same_route : forall p q, route_of p = route_of q <-> strip p = strip q.
Proof. exact @route_of_inj. Qed.
Print Assumptions C08_same_route.

Theorem C08_independent : forall (U : Type) (ops : list (op U)) o r r',
  apply_ops NewRouter ops = Some r -> apply_op r o = Some r' ->
  forall k, k <> route_of (match o with OPut p _ => p | ODelete p => p end) ->
  (n ← node_at r' k; r_url n) = (n ← node_at r k; r_url n).
Proof. exact @op_independent. Qed.
Print Assumptions C08_independent.

Definition b (s : string) : bytes := list_ascii_of_string s.
Definition ex_ops : list (op nat) :=
  [OPut (b "/") 0; OPut (b "/foo/a/") 1; OPut (b "/foo/a/b") 2; OPut (b "foo/a/b/c/") 3; OPut (b "/foo/x//y") 9;
   OPut (b "/foo/other/stuff/d/") 4; ODelete (b "/foo/x//y/"); OPut (b "/foo/a/b/") 5; ODelete (b "/nothing")].
Definition ex_r : router nat := default NewRouter (apply_ops NewRouter ex_ops).
Example C08_example : apply_ops NewRouter ex_ops = Some ex_r /\
  traverse [] ex_r = [([], 0); (b "/foo/a", 1); (b "/foo/a/b", 5); (b "/foo/a/b/c", 3); (b "/foo/other/stuff/d", 4)] /\
  table ex_ops (route_of (b "foo/a/b")) = Some 5 /\ table ex_ops (route_of (b "/foo/x//y")) = None.
Proof. vm_compute. auto. Qed.

(** C09. A request goes to the longest registered route that is a prefix on
    whole segments; it is rejected exactly when there is none. *)
Theorem C09_longest_match : forall (U : Type) (ops : list (op U)) r path, apply_ops NewRouter ops = Some r ->
  exists out rest, Match r path = Some (out, rest) /\
  match out with
  | None => forall k, k `prefix_of` route_of path -> table ops k = None
  | Some u => exists k, longest_match (table ops) (route_of path) k u
  end.
Proof. exact @run_match. Qed.
Print Assumptions C09_longest_match.

Theorem C09_longest_unique : forall (U : Type) (T : list bytes -> option U) req k u k' u',
  longest_match T req k u -> longest_match T req k' u' -> k = k' /\ u = u'.
Proof. exact @longest_unique. Qed.
Print Assumptions C09_longest_unique.

(** ... the yes/no query agrees with the lookup. *)
Theorem C09_has_match : forall (U : Type) (ops : list (op U)) r path, apply_ops NewRouter ops = Some r ->
  HasMatch r path = Some (match Match r path with Some (Some _, _) => true | _ => false end).
Proof. exact @run_has. Qed.
Print Assumptions C09_has_match.

Definition ex_r2 : router nat := default NewRouter (apply_ops NewRouter (OPut (b "/bar") 7 :: ODelete (b "/") :: tail ex_ops)).
Example C09_example :
  Match ex_r (b "/foo/a") = Some (Some 1, []) /\ Match ex_r (b "/foo/a/") = Some (Some 1, b "/") /\
  Match ex_r (b "/foo/a/foo/bar") = Some (Some 1, b "foo/bar") /\ Match ex_r (b "/foo/a/b/c/d") = Some (Some 3, b "d") /\
  Match ex_r [] = Some (Some 0, []) /\ Match ex_r (b "/") = Some (Some 0, b "/") /\
  Match ex_r (b "/bar") = Some (Some 0, b "bar") /\ Match ex_r (b "/foo/other/stuff") = Some (Some 0, b "foo/other/stuff") /\
  Match ex_r2 (b "/bar/x") = Some (Some 7, b "x") /\ Match ex_r2 (b "/ba") = Some (None, []) /\
  HasMatch ex_r2 (b "/ba") = Some false /\ HasMatch ex_r2 (b "bar") = Some true.
Proof. vm_compute. repeat split. Qed.

(** C10. For any path at all, the lookup ends without going out of range
    (C09_longest_match says [Some]); on a match the request path is a leading
    slash (or none), the route, a slash (or none) and what is forwarded, and the
    forwarded segments are exactly the segments after the route. *)
Theorem C10_rest : forall (U : Type) (ops : list (op U)) r path u rest,
  apply_ops NewRouter ops = Some r -> Match r path = Some (Some u, rest) ->
  forall k, longest_match (table ops) (route_of path) k u ->
  exists lead sep, path = lead ++ join_slash k ++ sep ++ rest /\
  (lead = [] \/ lead = [slash]) /\ (sep = [] \/ sep = [slash]) /\
  ((k = route_of path /\ (rest = [] \/ rest = [slash])) \/
   (route_of path = k ++ split_slash (strip_trail rest) /\ (k = [] -> sep = []) /\ (k <> [] -> sep = [slash]))).
Proof. exact @run_rest. Qed.
Print Assumptions C10_rest.

(** ... the request sent to the backend: the target's address, its path and the
    rest joined by exactly one slash, and both query strings. *)
Theorem C10_forward : forall (ops : list (op goURL)) r req, apply_ops NewRouter ops = Some r ->
  exists out, ServeHTTP r req = Some out /\
  match out with
  | NotFound => forall k, k `prefix_of` route_of (u_path (q_url req)) -> table ops k = None
  | Forwarded req' => exists k target lead sep rest,
      longest_match (table ops) (route_of (u_path (q_url req))) k target /\
      u_path (q_url req) = lead ++ join_slash k ++ sep ++ rest /\
      (lead = [] \/ lead = [slash]) /\ (sep = [] \/ sep = [slash]) /\
      u_scheme (q_url req') = u_scheme target /\ u_host (q_url req') = u_host target /\ q_host req' = u_host target /\
      u_path (q_url req') = strip_trail (u_path target) ++ [slash] ++ strip_lead rest /\
      exists mid, u_query (q_url req') = u_query target ++ mid ++ u_query (q_url req) /\
        (mid = [amp] <-> u_query target <> [] /\ u_query (q_url req) <> []) /\ (mid = [] \/ mid = [amp])
  end.
Proof. exact serve_spec. Qed.
Print Assumptions C10_forward.

Example C10_example :
  let t := URL (b "http") (b "h:1") (b "/api") (b "x=1") in
  exists r, apply_ops NewRouter [OPut (b "/clusters/c1") t] = Some r /\
  ServeHTTP r (Req (URL [] [] (b "/clusters/c1/status/a") (b "y=2")) (b "me")) =
    Some (Forwarded (Req (URL (b "http") (b "h:1") (b "/api/status/a") (b "x=1&y=2")) (b "h:1"))) /\
  ServeHTTP r (Req (URL [] [] (b "/clusters") []) (b "me")) = Some NotFound.
Proof. eexists. split; [reflexivity|]. vm_compute. auto. Qed.

(** C11. A branch of the tree exists exactly where a registered route lies at
    or below it; keys are never duplicated; an empty table gives the initial tree. *)
Theorem C11_no_garbage : forall (U : Type) (ops : list (op U)) r, apply_ops NewRouter ops = Some r ->
  forall k, k <> [] -> (is_Some (node_at r k) <-> exists k', is_Some (table ops (k ++ k'))).
Proof. exact @nodes_are_prefixes. Qed.
Print Assumptions C11_no_garbage.

Theorem C11_keys_unique : forall (U : Type) (ops : list (op U)) r, apply_ops NewRouter ops = Some r ->
  forall k n, node_at r k = Some n -> NoDup (map fst (r_branches n)).
Proof. exact @node_keys_unique. Qed.
Print Assumptions C11_keys_unique.

Theorem C11_empty : forall (U : Type) (ops : list (op U)) r, apply_ops NewRouter ops = Some r ->
  (forall k, table ops k = None) -> r = NewRouter.
Proof. exact @empty_table_empty_tree. Qed.
Print Assumptions C11_empty.

(** ... so the tree depends only on the registered routes: two histories with
    the same table give trees with the same nodes and the same targets. *)
Theorem C11_history_independent : forall (U : Type) (ops ops' : list (op U)) r r',
  apply_ops NewRouter ops = Some r -> apply_ops NewRouter ops' = Some r' -> (forall k, table ops k = table ops' k) ->
  forall k, (r_url <$> node_at r k) = (r_url <$> node_at r' k).
Proof. exact @history_independent. Qed.
Print Assumptions C11_history_independent.

Example C11_example :
  apply_ops NewRouter [OPut (b "/a/b/c") 1; OPut (b "/a") 2; ODelete (b "a/b/c/"); ODelete (b "/a")] = Some NewRouter /\
  (exists r, apply_ops NewRouter [OPut (b "/a/b/c") 1; OPut (b "/a") 2; ODelete (b "/a/b/c")] = Some r /\
     node_at r (route_of (b "/a/b")) = None /\ is_Some (node_at r (route_of (b "/a")))).
Proof. split; [vm_compute; done|]. eexists. split; [reflexivity|]. vm_compute. eauto. Qed.
