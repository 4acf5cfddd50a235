(** Specification for C149: what the proxy holds and whom it serves (names of the model's
    states and events only). *)
From Coq Require Import Ascii String.
From stdpp Require Import prelude.
From Verif Require Import Router_Model Accept_Model.

(** The descriptors a connection at a place holds, and the connections that hold any. *)
Definition holds (p : place) : nat := match p with Closed => 0 | Copying _ _ => 2 | _ => 1 end.
Definition held (l : list place) : nat := sum_list_with holds l.
Definition open (l : list place) : nat := length (List.filter (fun p => match p with Closed => false | _ => true end) l).
(** A client is served: connected to this address, or to the HTTP server. *)
Definition connected (s : server) (i : nat) (a : bytes) : Prop := alive s = true /\ exists n, conns s !! i = Some (Copying a n).
(** The histories the process can have had. *)
Definition reached (c : setup) (s : server) : Prop := exists es, s = after c es (init c).
