(** The GatewayCluster objects of a user's program and its end: C/client.py 755-764
    (cleanup_lingering_clusters), 869-921 (_init_internal), 935-945 (_start_internal), 980-1002
    (_stop_internal), 1031-1048 (close), 1054-1068 (__exit__, __del__), 1070-1071 (__repr__).
    C = dask-gateway/dask_gateway.  Calls follow one another here (what happens when they overlap
    is Client_Model); the start of an object is one event with its outcome.  An ask is the request
    to stop the cluster; what becomes of it is not seen, exceptions of it are logged (996-1001). *)
From stdpp Require Import prelude.
Local Open Scope nat_scope.

(** [Broken]: Gateway() raised in _init_internal (889), so the object is in [_instances] (887) without
    [gateway] and [name].  [Closed]: _stop_internal was run. *)
Inductive health := Broken | Up | Closed.
Record object := Object {
  o_async : bool;
  o_soc : bool;                                        (* shutdown_on_close *)
  o_loop : bool;                                       (* its event loop runs *)
  o_name : option nat;                                 (* the cluster *)
  o_health : health;
  o_held : bool }.                                     (* something refers to it *)
Record state := State { s_objects : list object; s_asks : list (nat * nat) (* object, cluster *); s_over : bool }.
Definition init : state := State [] [] false.

Inductive outcome := NoGateway | Fails (n : option nat) | Starts (n : nat).
Definition made (asyn soc loop : bool) (r : outcome) : object :=
  match r with
  | NoGateway => Object asyn soc loop None Broken true
  | Fails n => Object asyn soc loop n Closed true
  | Starts n => Object asyn soc loop (Some n) Up true
  end.
Definition set_health (h : health) (o : object) : object := Object (o_async o) (o_soc o) (o_loop o) (o_name o) h (o_held o).
Definition set_held (b : bool) (o : object) : object := Object (o_async o) (o_soc o) (o_loop o) (o_name o) (o_health o) b.
Definition ask (i : nat) (sd : bool) (n : option nat) : list (nat * nat) := match n with Some n => if sd then [(i, n)] else [] | None => [] end.
(** _stop_internal (980-1002). *)
Definition stop_internal (s : state) (i : nat) (o : object) (sd : option bool) : state :=
  State (<[i := set_health Closed o]> (s_objects s)) (s_asks s ++ ask i (default (o_soc o) sd) (o_name o)) (s_over s).
(** close (1031-1048), awaited in asynchronous mode.  Nobody gets hold of a broken object. *)
Definition close (s : state) (i : nat) (sd : option bool) : state :=
  match s_objects s !! i with
  | Some o =>
      match o_health o with
      | Broken => s
      | h =>
          if o_async o then stop_internal s i o sd
          else match h with
               | Up => if o_loop o then stop_internal s i o sd else s
               | _ => s                                (* 1044-1045 *)
               end
      end
  | None => s
  end.
(** __del__ (1060-1068). *)
Definition drop (s : state) (i : nat) : state :=
  match s_objects s !! i with
  | Some o =>
      if o_held o then
        let s := match o_health o with Broken => s | _ => if o_async o then s else close s i None end in
        State (alter (set_held false) i (s_objects s)) (s_asks s) (s_over s)
      else s
  | None => s
  end.
(** [_instances]: the objects referred to that were not closed. *)
Definition in_instances (o : object) : bool := o_held o && match o_health o with Closed => false | _ => true end.
Definition instances (s : state) : list nat :=
  List.filter (fun i => match s_objects s !! i with Some o => in_instances o | None => false end) (seq 0 (length (s_objects s))).
(** cleanup_lingering_clusters (755-764) over the instances in the order of the set.  Exceptions of
    close are reported; for a broken object [o.asynchronous] raises, and so does [%r] in the
    report of that, because [name] is not set: that exception ends the loop. *)
Fixpoint cleanup (s : state) (order : list nat) : state :=
  match order with
  | [] => s
  | i :: order =>
      match s_objects s !! i with
      | Some o =>
          match o_health o with
          | Broken => s
          | _ => cleanup (if o_async o then s else close s i None) order
          end
      | None => cleanup s order
      end
  end.
Inductive event :=
| Make (asyn soc loop : bool) (r : outcome)
| Close (i : nat) (sd : option bool)                   (* close(shutdown), shutdown(), leaving a with block *)
| Drop (i : nat)                                       (* nothing refers to it any more *)
| Exit (order : list nat).                             (* the interpreter ends *)
Definition step (s : state) (e : event) : state :=
  if s_over s then s
  else match e with
       | Make asyn soc loop r =>
           State (s_objects s ++ [made asyn soc loop r])
             (s_asks s ++ match r with Fails n => ask (length (s_objects s)) soc n | _ => [] end) false   (* 941-943 *)
       | Close i sd => close s i sd
       | Drop i => drop s i
       | Exit order => let s := cleanup s order in State (s_objects s) (s_asks s) true
       end.
Definition run (es : list event) : state := fold_left step es init.
