(** The gateway (dask-gateway-server/dask_gateway_server/backends/db_base.py) and the
    scheduler services of its clusters (dask-gateway/dask_gateway/scheduler_preload.py)
    as one system, joined by the heartbeats the services send (scheduler_preload.py
    50-67 and 267, routes.py 269-278).

    The parts are those of Gateway_Model.v and Report_Model.v.  Simplifications: every
    cluster name has one scheduler service; it may send heartbeats as soon as the
    gateway has drawn the name (db_base.py:456), also while the backend is still
    starting it; the tokens of requests are right (C04); a request is handled at one
    moment. *)
From Coq Require Import ZArith.
From stdpp Require Import prelude gmap.
From Verif Require Import Router_Model Gateway_Model Report_Model.
Open Scope Z_scope.

(** The settings of the gateway and the addresses each scheduler reports
    (scheduler_preload.py 258-262). *)
Record fcfg := FCfg {
  fc_gw : cfg;
  fc_api : nat -> bytes; fc_sched : nat -> bytes; fc_dash : nat -> bytes }.

(** One scheduler service: its state (Report_Model); how many messages it has sent; the
    messages, with their numbers, that were sent and neither handled nor lost; and what
    the gateway answered to the latest one, if it has handled it. *)
Record sched := Sched { s_rep : Report_Model.state; s_sent : nat; s_wire : list (nat * hbmsg); s_ack : option bool }.
Record fleet := Fleet { f_gw : gw; f_sch : gmap nat sched }.
Definition new_sched : sched := Sched (Report_Model.init true) 0%nat [] None.
Definition sch (s : fleet) (n : nat) : sched := default new_sched (f_sch s !! n).
Definition set_sch (n : nat) (x : sched) (s : fleet) : fleet := Fleet (f_gw s) (<[n := x]> (f_sch s)).
Definition finit (fc : fcfg) : fleet := Fleet (gw_init (fc_gw fc)) ∅.

(** The heartbeat message (scheduler_preload.py 258-265); workers are numbered alike in
    both models, and [count] is the requested size at this moment. *)
Definition hb_of (fc : fcfg) (n : nat) (cnt : Z) (m : Report_Model.msg) : hbmsg :=
  Gateway_Model.Msg (fc_api fc n) (fc_sched fc n) (fc_dash fc n) cnt
    (map Pos.to_nat (elements (Report_Model.m_active m))) (map Pos.to_nat (Report_Model.m_closing m))
    (map Pos.to_nat (elements (Report_Model.m_closed m))).

Inductive fevent :=
| FGateway (e : Gateway_Model.event)        (* an event of the gateway other than a heartbeat *)
| FSched (n : nat) (e : Report_Model.event) (* a worker joins or leaves, the size is set, retire_workers is over *)
| FBeat (n : nat) (choice : list name)      (* the service sends a heartbeat; its cluster has been created *)
| FArrive (n i : nat) (now : Z)             (* the gateway handles the i-th message under way *)
| FLose (n i : nat)                         (* the i-th message under way is lost *)
| FAnswer (n : nat) (ok : bool).            (* the service gets an answer, or an error *)
Inductive fobs :=
| FO_None
| FO_Gw (e : Gateway_Model.event) (o : list Gateway_Model.obs)
| FO_Sch (n : nat) (e : Report_Model.event) (o : Report_Model.obs).

Definition own_event (e : Gateway_Model.event) : bool := match e with EHeartbeat _ _ _ => false | _ => true end.
(** Joining and leaving, scaling, and the end of retire_workers.  Names of workers are
    drawn with uuid4 (db_base.py:522): one that will be drawn later does not occur
    before.  Workers that the gateway did not start may join, under any name that is
    in use otherwise. *)
Definition sched_event (s : fleet) (e : Report_Model.event) : bool :=
  match e with
  | EAdded _ p => bool_decide (Pos.to_nat p < uuid (f_gw s))%nat
  | ERemoved _ | EScale _ | ERetired _ => true
  | EBeat _ | EAnswer _ => false
  end.
Definition set_rep (r : Report_Model.state) (x : sched) : sched := Sched r (s_sent x) (s_wire x) (s_ack x).
(** The route answers 200, or 500 after an AssertionError (db_base.py:1008, routes.py 269-279). *)
Definition accepted (o : list Gateway_Model.obs) : bool := forallb (fun x => match x with OAssertion => false | _ => true end) o.

Definition fstep (fc : fcfg) (s : fleet) (e : fevent) : fleet * fobs :=
  match e with
  | FGateway e => if own_event e then let '(g, o) := Gateway_Model.step (fc_gw fc) (f_gw s) e in (Fleet g (f_sch s), FO_Gw e o) else (s, FO_None)
  | FSched n e =>
      if sched_event s e then
        let x := sch s n in let '(r, o) := Report_Model.step (s_rep x) e in (set_sch n (set_rep r x) s, FO_Sch n e o)
      else (s, FO_None)
  | FBeat n choice =>
      if decide (n < uuid (f_gw s))%nat then
        let x := sch s n in
        let '(r, o) := Report_Model.step (s_rep x) (EBeat choice) in
        match o with
        | OMsg m => (set_sch n (Sched r (S (s_sent x)) (s_wire x ++ [(S (s_sent x), hb_of fc n (count (s_rep x)) m)]) None) s, FO_Sch n (EBeat choice) o)
        | _ => (set_sch n (set_rep r x) s, FO_Sch n (EBeat choice) o)
        end
      else (s, FO_None)
  | FArrive n i now =>
      let x := sch s n in
      match s_wire x !! i with
      | Some (k, m) =>
          let '(g, o) := Gateway_Model.step (fc_gw fc) (f_gw s) (EHeartbeat n m now) in
          let ack := if decide (k = s_sent x) then Some (accepted o) else s_ack x in
          (set_sch n (Sched (s_rep x) (s_sent x) (delete i (s_wire x)) ack) (Fleet g (f_sch s)), FO_Gw (EHeartbeat n m now) o)
      | None => (s, FO_None)
      end
  | FLose n i =>
      let x := sch s n in (set_sch n (Sched (s_rep x) (s_sent x) (delete i (s_wire x)) (s_ack x)) s, FO_None)
  | FAnswer n ok =>
      let x := sch s n in
      if decide (ok = true -> s_ack x = Some true) then
        let '(r, o) := Report_Model.step (s_rep x) (EAnswer ok) in (set_sch n (set_rep r x) s, FO_Sch n (EAnswer ok) o)
      else (s, FO_None)
  end.
