(** The workers in the scheduler's heartbeats (C/scheduler_preload.py: worker_added,
    worker_removed, 167-187; heartbeat, 248-278; the counting part of _scale, 305-308).  Worker names and addresses are
    numbers. *)
From Coq Require Import ZArith.
From stdpp Require Import gmap.

Notation name := positive.
Notation addr := positive.
Record msg := Msg { m_active : gset name; m_closing : list name; m_closed : gset name }.
(** heartbeat: idle, awaiting the gateway, awaiting retire_workers. *)
Inductive stage := HIdle | HSending (c : list name) | HRetiring (c : list name).
(** [live]: heartbeat_period is not 0 (130); [count]: the requested size. *)
Record state := State { live : bool; count : Z; workers : gmap addr name; active : gset name; closing : gset name; closed : gset name; hb : stage }.
Definition init (live : bool) : state := State live 0 ∅ ∅ ∅ ∅ HIdle.
Inductive event :=
| EAdded (a : addr) (n : name)          (* worker_added *)
| ERemoved (a : addr)                   (* worker_removed *)
| EScale (n : Z)                        (* the requested size changes *)
| EBeat (choice : list name)            (* heartbeat; workers_to_close would return choice *)
| EAnswer (ok : bool)                   (* the gateway has answered or not *)
| ERetired (ok : bool).                 (* retire_workers returned or raised *)
(** [ODid soon]: a worker was added or removed; [soon]: interrupt_soon was called, so
    that the gateway hears of it (see Beat_Model).  [ORetire l]: retire_workers is
    called for [l]; [OFailed l]: it has failed. *)
Inductive obs := ONone | ODid (soon : bool) | OMsg (m : msg) | ORetire (l : list name) | OFailed (l : list name).

Definition names (s : state) : gset name := list_to_set (map snd (map_to_list (workers s))).
(** The scheduler admits a worker only if neither its address nor its name is in use
    (distributed's add_worker), removes only connected ones, and workers_to_close names
    connected ones; other events do not happen. *)
Definition possible (s : state) (e : event) : bool :=
  match e with
  | EAdded a n => bool_decide (workers s !! a = None /\ n ∉ names s)
  | ERemoved a => bool_decide (is_Some (workers s !! a))
  | EBeat choice => bool_decide (list_to_set choice ⊆ names s)
  | _ => true
  end.
Definition step (s : state) (e : event) : state * obs :=
  if negb (possible s e) then (s, ONone) else
  match e with
  | EAdded a n =>                                                              (* 167-175 *)
    let act := {[n]} ∪ active s in
    (State (live s) (count s) (<[a := n]> (workers s)) act (closing s ∖ {[n]}) (closed s ∖ {[n]}) (hb s), ODid (Z.ltb (count s) (Z.of_nat (size act))))
  | ERemoved a =>                                                              (* 177-187 *)
    match workers s !! a with
    | Some n => (State (live s) (count s) (delete a (workers s)) (active s ∖ {[n]}) (closing s ∖ {[n]}) ({[n]} ∪ closed s) (hb s),
                 ODid (if decide (n ∈ closing s) then false else live s))
    | None => (s, ONone)
    end
  | EScale n => (State (live s) n (workers s) (active s) (closing s) (closed s) (hb s), ONone)
  | EBeat choice =>                                                            (* 249-267 *)
    match hb s with
    | HIdle =>
      let c := if Z.ltb (count s) (Z.of_nat (size (active s))) then choice else [] in
      (State (live s) (count s) (workers s) (active s) (closing s) (closed s) (HSending c), OMsg (Msg (active s ∖ list_to_set c) c (closed s)))
    | _ => (s, ONone)
    end
  | EAnswer ok =>                                                              (* 267-274 *)
    match hb s with
    | HSending c =>
      if ok then match c with
                 | [] => (State (live s) (count s) (workers s) (active s) (closing s) (closed s) HIdle, ONone)
                 | _ => (State (live s) (count s) (workers s) (active s) (closing s ∪ list_to_set c) (closed s) (HRetiring c), ORetire c)
                 end
      else (State (live s) (count s) (workers s) (active s) (closing s) (closed s) HIdle, ONone)
    | _ => (s, ONone)
    end
  | ERetired ok =>                                                             (* 275-278 *)
    match hb s with
    | HRetiring c =>
      if ok then (State (live s) (count s) (workers s) (active s) (closing s) (closed s) HIdle, ONone)
      else (State (live s) (count s) (workers s) (active s) (closing s ∖ list_to_set c) (closed s) HIdle, OFailed c)
    | _ => (s, ONone)
    end
  end.
