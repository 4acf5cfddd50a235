(** The proxy's connections and its file descriptors: run, Forwarder, handleConnection and
    runTCP (G/cmd/dask-gateway-proxy/main.go 126-159, 454-546) as one process that accepts,
    looks up, dials, forwards and closes.

    G = dask-gateway-server/dask-gateway-proxy.
    What a connection's first bytes say is ReadSNI's business (Sni_Model); here its answer is
    part of the event, and so is the outcome of dialling.  Which bytes are copied is Sni_Model
    too; here only that both directions end.  accept(2) and connect(2) fail for lack of a
    descriptor exactly if [limit] are open (RLIMIT_NOFILE; Linux looks for a descriptor before
    it looks for a connection).  Other errors of Accept do not happen.  Of the HTTP server:
    it takes what is forwarded to it and closes it some time; its own connections to targets
    are not counted.  In Go a panic of any goroutine ends the process. *)
From Coq Require Import Ascii String.
From stdpp Require Import prelude.
From Verif Require Import Router_Model.

(** What ReadSNI says of a connection. *)
Inductive hello := HError | HOther | HName (name : bytes).
(** Where its goroutine is: in ReadSNI; in Forward; gone, with the connection left to the
    HTTP server; dialling; copying, with so many directions left; gone. *)
Inductive place := Reading | Forwarding | Http | Dialling (addr : bytes) | Copying (addr : bytes) (left : nat) | Closed.
Record server := Server { alive : bool; conns : list place; fds : nat }.
Inductive event :=
| Accept                              (* runTCP's turn *)
| Hello (i : nat) (h : hello)         (* ReadSNI returns *)
| Take (i : nat)                      (* the HTTP server takes a forwarded connection *)
| Drop (i : nat)                      (* the HTTP server closes it *)
| Dialled (i : nat) (ok : bool)       (* DialTimeout returns *)
| Finished (i : nat).                 (* one direction is at its end *)

(** The configuration: the descriptors open from the start, the limit, whether HTTP comes in
    through the same address (139-147), the table of names (504; an absent name gives the empty string). *)
Record setup := Setup { base : nat; limit : nat; shared : bool; table : bytes -> option bytes }.
Definition init (c : setup) : server := Server true [] (base c).
Definition move (i : nat) (p : place) (opened closed : nat) (s : server) : server := Server (alive s) (<[i:=p]> (conns s)) (fds s + opened - closed).

(** What the connection numbered [i] does next, given its place; the other events are not for
    it. *)
Definition handle (c : setup) (s : server) (i : nat) (p : place) (e : event) : server :=
  match e, p with
  | Hello _ HError, Reading => move i Closed 0 1 s                                                        (* 481-485 *)
  | Hello _ HOther, Reading => if shared c then move i Forwarding 0 0 s else move i Closed 0 1 s          (* 488-497 *)
  | Hello _ (HName n), Reading => match table c n with Some a => move i (Dialling a) 0 0 s | None => move i Closed 0 1 s end   (* 503-510 *)
  | Take _, Forwarding => move i Http 0 0 s                                                               (* 468-475 *)
  | Drop _, Http => move i Closed 0 1 s
  | Dialled _ ok, Dialling a => if decide (ok = true /\ fds s < limit c) then move i (Copying a 2) 1 0 s else move i Closed 0 1 s   (* 514-519 *)
  | Finished _, Copying a (S (S n)) => move i (Copying a (S n)) 0 0 s                                     (* 521-525 *)
  | Finished _, Copying a _ => move i Closed 0 2 s                                                        (* 501, 519, 525 *)
  | _, _ => s
  end.
Definition about (e : event) : option nat :=
  match e with Accept => None | Hello i _ | Take i | Drop i | Dialled i _ | Finished i => Some i end.
(** One step of the process.  537-546: if Accept fails the error is logged and the loop goes on
    with c = nil, whose conversion to *net.TCPConn panics. *)
Definition step (c : setup) (s : server) (e : event) : server :=
  if negb (alive s) then s else
  match about e with
  | None => if decide (fds s < limit c) then Server true (conns s ++ [Reading]) (S (fds s)) else Server false (conns s) (fds s)
  | Some i => match conns s !! i with Some p => handle c s i p e | None => s end
  end.
Definition after (c : setup) (es : list event) (s : server) : server := fold_left (step c) es s.
