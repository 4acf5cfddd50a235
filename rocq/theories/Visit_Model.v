(** Users who call new_cluster() and connect() (dask_gateway/client.py 592-651,
    804-1000), and the gateway of Gateway_Model that answers them (routes.py,
    backends/db_base.py).  Any number of calls, of any users, at the same time. *)
From Coq Require Import ZArith.
From stdpp Require Import prelude gmap.
From Verif Require Import Gateway_Model.
Open Scope Z_scope.

(** ClusterReport (client.py 160-224), made from Cluster.to_dict (models.py
    132-153).  [rp_link]: there is a dashboard link; [rp_creds]: tls_cert and
    tls_key, part of what Gateway_Model calls [r_info].  The scheduler's address is
    the proxy's address and the name (207-209, see C96): [rp_addr] tells whether
    there is one. *)
Record report := Rep {
  rp_name : nat; rp_status : public; rp_addr : bool; rp_link : bool; rp_creds : option nat;
  rp_start : Z; rp_stop : option Z }.
Global Instance report_eq_dec : EqDecision report.
Proof. solve_decision. Defined.
(** The answer to an HTTP request: a report, or an error status. *)
Inductive answer := AReport (r : report) | AStatus (code : Z).
Global Instance answer_eq_dec : EqDecision answer.
Proof. solve_decision. Defined.

(** What a call ends with, if it fails: ValueError, GatewayClusterError,
    GatewayServerError, ClientResponseError, or an error of the connection, a
    cancelled call and the like. *)
Inductive error := EValue | ECluster | EServer | EResponse | EBroken.
Global Instance error_eq_dec : EqDecision error.
Proof. solve_decision. Defined.
(** _request (395-422), for a status of 400 or more. *)
Definition error_of (code : Z) : error :=
  if bool_decide (code = 404 \/ code = 422) then EValue
  else if bool_decide (code = 409) then ECluster
  else if bool_decide (code = 500) then EServer
  else EResponse.

(** Where a call is.  A name in [Created] is not yet known to the client. *)
Inductive stage :=
| Submitting (info : nat) (mx : option Z)  (* 523-538: the POST is on its way *)
| Created (n : nat)                        (* its answer is *)
| Asking (n : nat)                         (* 563-568: GET ...?wait is on its way *)
| Held (n : nat)                           (* db_base.py 917: the gateway waits *)
| Told (n : nat) (a : answer)              (* the answer is on its way *)
| Sleeping (n : nat)                       (* 590 *)
| Started (n : nat) (r : report)           (* 950-961: the call returned *)
| Closing (n : nat) (e : error)            (* 991-993: it failed, the DELETE is on its way *)
| Failed (n : option nat) (e : error).     (* it raised *)
Global Instance stage_eq_dec : EqDecision stage.
Proof. solve_decision. Defined.

(** A call: who, shutdown_on_close, new_cluster or connect. *)
Record visit := Visit { v_user : nat; v_close : bool; v_new : bool; v_stage : stage }.
Global Instance visit_eq_dec : EqDecision visit.
Proof. solve_decision. Defined.
Definition set_stage (st : stage) (v : visit) : visit := Visit (v_user v) (v_close v) (v_new v) st.

Record vgw := VG { v_gw : gw; v_calls : list visit }.
Definition vinit (cf : cfg) : vgw := VG (gw_init cf) [].

Inductive vevent :=
| VGateway (e : event)                     (* anything else that happens to the gateway *)
| VNew (user : nat) (close : bool) (info : nat) (mx : option Z) (* new_cluster *)
| VConnect (user : nat) (close : bool) (n : nat)                (* connect *)
| VMove (k : nat) (now : Z)                (* what call k waits for comes *)
| VLate (k : nat)                          (* the 20 seconds of db_base.py 917 are over *)
| VRefuse (k : nat) (code : Z)             (* the POST is refused (routes.py 125-130), with an error status *)
| VTimeout (k : nat)                       (* TimeoutError in 573 *)
| VBreak (k : nat).                        (* any other exception *)

(** to_model (db_base.py 208-223) and to_dict (models.py 132-153) of a cluster, and
    _from_json (client.py 199-224). *)
Definition report_of (c : cluster) (p : public) : report :=
  let r := c_row c in
  let on := bool_decide (p = PRUNNING) in
  Rep (r_name r) p on (on && negb (bool_decide (r_dash r = []))) (if on then Some (r_info r) else None) (r_start r) (r_stop r).
(** The end of get_cluster (db_base.py 920: KeyError, that is status 500, for an
    undefined pair of states) and of the handler (routes.py 155-161). *)
Definition answer_of (user : nat) (c : cluster) : answer :=
  match model_status c with
  | None => AStatus 500
  | Some p => if decide (r_user (c_row c) = user) then AReport (report_of c p) else AStatus 403
  end.
(** get_cluster(wait=True) up to the wait (911-917): [None] if it waits. *)
Definition arrive (user n : nat) (g : gw) : option answer :=
  match lookup_cluster n g with
  | None => Some (AStatus 404)
  | Some c => if c_ready c then Some (answer_of user c) else None
  end.
(** After the wait.  The object is still the one that was found, whether or not it
    was purged meanwhile. *)
Definition wait_over (user n : nat) (g : gw) : option answer := answer_of user <$> objs g !! n.

(** An exception in _start_async: _stop_internal (931-940, 980-1000). *)
Definition fail (v : visit) (n : nat) (e : error) : stage := if v_close v then Closing n e else Failed (Some n) e.
(** _wait_for_start (570-590) with an answer. *)
Definition receive (v : visit) (n : nat) (a : answer) : stage :=
  match a with
  | AStatus code => fail v n (error_of code)
  | AReport r =>
      match rp_status r with
      | PRUNNING => Started n r
      | PFAILED | PSTOPPED => fail v n ECluster
      | PPENDING | PSTOPPING => Sleeping n
      end
  end.

(** delete_cluster (routes.py 164-177): is the cluster stopped?  (to_model raises
    for an undefined pair of states.) *)
Definition may_stop (user n : nat) (g : gw) : bool :=
  match lookup_cluster n g with
  | None => false
  | Some c => match model_status c with Some _ => bool_decide (r_user (c_row c) = user) | None => false end
  end.
(** No event of the gateway: a reconciler that does not exist asks for work. *)
Definition nothing (cf : cfg) : event := EGet (parallelism cf) 0.
(** What an event does to the gateway. *)
Definition gevent (cf : cfg) (s : vgw) (e : vevent) : event :=
  match e with
  | VGateway ge => ge
  | VMove k now =>
      match v_stage <$> v_calls s !! k, v_user <$> v_calls s !! k with
      | Some (Submitting info mx), Some user => EStart user info mx now
      | Some (Closing n _), Some user => if may_stop user n (v_gw s) then EStop n false else nothing cf
      | _, _ => nothing cf
      end
  | _ => nothing cf
  end.

(** What call [v] waits for comes; [g] is the gateway before, [o] what it said. *)
Definition move (g : gw) (o : list obs) (v : visit) : stage :=
  match v_stage v with
  | Submitting _ _ => match o with [OCreated n] => Created n | _ => v_stage v end
  | Created n => Asking n
  | Asking n => match arrive (v_user v) n g with Some a => Told n a | None => Held n end
  | Held n =>
      match objs g !! n with
      | Some c => if c_ready c then Told n (answer_of (v_user v) c) else v_stage v
      | None => v_stage v
      end
  | Told n a => receive v n a
  | Sleeping n => Asking n
  | Closing n er => Failed (Some n) er
  | st => st
  end.
(** The wait is over without the cluster being ready. *)
Definition late (g : gw) (v : visit) : stage :=
  match v_stage v with
  | Held n => match wait_over (v_user v) n g with Some a => Told n a | None => v_stage v end
  | st => st
  end.
Definition refuse (code : Z) (v : visit) : stage :=
  match v_stage v with Submitting _ _ => if 400 <=? code then Failed None (error_of code) else v_stage v | st => st end.
Definition timeout (v : visit) : stage :=
  match v_stage v with Asking n | Held n | Told n _ => Sleeping n | st => st end.
(** Without the answer to its POST the client does not know the name (945-948). *)
Definition break (v : visit) : stage :=
  match v_stage v with
  | Submitting _ _ | Created _ => Failed None EBroken
  | Asking n | Held n | Told n _ | Sleeping n => fail v n EBroken
  | Closing n e => Failed (Some n) e
  | st => st
  end.
(** The gateway's process dies: the requests it holds are broken off. *)
Definition cut (v : visit) : stage := match v_stage v with Held n => fail v n EBroken | st => st end.

Definition on_call (k : nat) (f : visit -> stage) (vs : list visit) : list visit :=
  alter (fun v => set_stage (f v) v) k vs.
Definition calls_after (s : vgw) (e : vevent) (o : list obs) : list visit :=
  match e with
  | VGateway (ERestart _) => map (fun v => set_stage (cut v) v) (v_calls s)
  | VGateway _ => v_calls s
  | VNew user close info mx => v_calls s ++ [Visit user close true (Submitting info mx)]
  | VConnect user close n => v_calls s ++ [Visit user close false (Asking n)]
  | VMove k _ => on_call k (move (v_gw s) o) (v_calls s)
  | VLate k => on_call k (late (v_gw s)) (v_calls s)
  | VRefuse k code => on_call k (refuse code) (v_calls s)
  | VTimeout k => on_call k timeout (v_calls s)
  | VBreak k => on_call k break (v_calls s)
  end.
(** The output is what happened to the gateway: its event and what it said. *)
Definition vstep (cf : cfg) (s : vgw) (e : vevent) : vgw * (event * list obs) :=
  let ge := gevent cf s e in
  let '(g', o) := step cf (v_gw s) ge in
  (VG g' (calls_after s e o), (ge, o)).
