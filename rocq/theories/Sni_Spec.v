(** Vocabulary for C16, C17, C63, C64. *)
From Coq Require Import Ascii.
From stdpp Require Import prelude.
From Verif Require Import Router_Model ProxyLog_Model Sni_Model.
Local Open Scope nat_scope.

(** Read a connection with buffers of the given sizes: the pieces obtained, and
    whether the end was reported. *)
Fixpoint reads (ns : list nat) (w : wrapped) : list bytes * bool :=
  match ns with
  | [] => ([], false)
  | n :: ns' => match wread n w with
                | None => ([], true)
                | Some (d, w') => (d :: (reads ns' w').1, (reads ns' w').2)
                end
  end.

(** The first TLS record of a stream, header included: a handshake record whose
    announced length is there. *)
Definition first_record (st rec : bytes) : Prop := exists v1 v2 h l body rest,
  st = handshake :: v1 :: v2 :: h :: l :: body ++ rest /\
  length body = nat_of_ascii h * 256 + nat_of_ascii l /\
  rec = handshake :: v1 :: v2 :: h :: l :: body.
(** The client's first record fits in the proxy's buffer and names cluster [c]. *)
Definition names_cluster (bufsize : nat) (hello : bytes -> bytes) (st c : bytes) : Prop :=
  exists rec, first_record st rec /\ length rec <= bufsize /\ hello rec = sniPrefix ++ c.

(** The connection a handled connection continues with. *)
Definition continues (f : fate) (w : wrapped) : Prop := f = FHttp w \/ exists a, f = FSpliced a w.

(** The peers' view of a spliced connection. *)
Definition sent (x : side) (s : splice) : bytes := e_sent (sp_get x s).
Definition got (x : side) (s : splice) : bytes := e_got (sp_get x s).
Definition finished_sending (x : side) (s : splice) : Prop := e_fin (sp_get x s) = true.
Definition copying_from (x : side) (s : splice) : Prop := e_copying (sp_get x s) = true.
