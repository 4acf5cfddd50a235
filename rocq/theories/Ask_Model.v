(** Requests for a size, from the gateway's API to the scheduler and back: the handlers
    scale_cluster and adapt_cluster (S/routes.py 180-262), forward_message_to_scheduler
    (S/backends/base.py 106-137), CommHandler (C/scheduler_preload.py 78-97), the
    service's scale and adapt (Adapt_Model.v) and what follows from them in the
    scheduler's report and the gateway (Fleet_Model.v).

    S = dask-gateway-server/dask_gateway_server, C = dask-gateway/dask_gateway.
    Simplifications: the caller has been authenticated and owns the cluster (C35), sizes
    and bounds are integers (C39); the scheduler gets the token that it knows (C36) and
    its address is right (C110); a message that was sent may be handled at any later
    time, also when the gateway has given up waiting for the answer. *)
From Coq Require Import ZArith.
From stdpp Require Import prelude gmap.
From Verif Require Import Router_Model Gateway_Model Adapt_Model Report_Model Fleet_Model.
Open Scope Z_scope.

(** What is asked for: scale(k); adapt(minimum, maximum); adapt(active=False). *)
Inductive ask := KScale (k : Z) | KAdapt (mn mx : option Z) | KOff.
(** The limits of the cluster are applied (routes.py 201-208, 235-250); with a limit
    adapt(active=False) gets bounds too, which are not used. *)
Definition bounded (lim : option Z) (a : ask) : ask :=
  match lim, a with
  | Some l, KScale k => KScale (if l <? k then l else k)
  | Some l, KAdapt mn mx =>
      let mx := default l mx in let mn := default 0 mn in
      if (l <? mx) || (l <? mn) then KAdapt (Some (Z.min l mn)) (Some (Z.min l mx)) else KAdapt (Some mn) (Some mx)
  | _, _ => a
  end.

(** A call of forward_message_to_scheduler: in session.post (113-118), where [Handled]
    means that the scheduler has sent its answer; in the sleep before another attempt
    (127); returned, raised, or gone with the gateway process. *)
Inductive stage := Posted | Handled | Asleep | Over (res : option bool).
Record call := Call { k_cluster : nat; k_ask : ask; k_try : nat; k_serial : nat; k_stage : stage }.
(** A message under way to the scheduler of [p_cluster]. *)
Record post := Post { p_serial : nat; p_cluster : nat; p_ask : ask }.
(** [y_calls]: calls are numbered as they come; [y_serial]: how many messages were sent. *)
Record sys := Sys { y_fleet : fleet; y_adapt : gmap nat Adapt_Model.state; y_calls : list call; y_wire : list post; y_serial : nat }.
(** [k_tries]: scheduler_api_retries (base.py 63-70); [k_window]: adaptive_window. *)
Record kcfg := KCfg { k_fleet : fcfg; k_tries : nat; k_window : nat }.
Definition kinit (kc : kcfg) : sys := Sys (finit (k_fleet kc)) ∅ [] [] 0.
Definition adapter (s : sys) (n : nat) : Adapt_Model.state := default Adapt_Model.init (y_adapt s !! n).

Inductive kevent :=
| KFleet (e : fevent)                      (* anything else that gateway, schedulers and workers do *)
| KAsk (n : nat) (a : ask)                 (* a request for cluster n *)
| KHandle (i : nat)                        (* the scheduler handles the i-th message under way *)
| KDrop (i : nat)                          (* it is lost *)
| KResult (r : nat) (ok : bool)            (* session.post of call r returns or raises *)
| KRetry (r : nat)                         (* the sleep of call r is over *)
| KEnd (n : nat)                           (* the adaptive loop of cluster n has ended *)
| KTick (n : nat) (x : option Z) (sleeping : bool)
| KResume (n : nat).
(** What happens in the fleet, and [KTaken r]: the request becomes call [r]; [KRefused]:
    404, 409, 422 or 500; [KDone r ok]: call [r] returns or raises. *)
Inductive kout := KNone | KTaken (r : nat) | KRefused | KDone (r : nat) (ok : bool).
Record kobs := KObs { o_fleet : list (fevent * fobs); o_out : kout }.

(** Sizes come from requests and the adaptive loop only. *)
Definition fleet_event (e : fevent) : bool := match e with FSched _ (Report_Model.EScale _) => false | _ => true end.
Definition in_fleet (kc : kcfg) (e : fevent) (s : sys) : sys * list (fevent * fobs) :=
  let '(f, o) := fstep (k_fleet kc) (y_fleet s) e in (Sys f (y_adapt s) (y_calls s) (y_wire s) (y_serial s), [(e, o)]).
Definition set_calls (l : list call) (s : sys) : sys := Sys (y_fleet s) (y_adapt s) l (y_wire s) (y_serial s).
Definition set_wire (l : list post) (s : sys) : sys := Sys (y_fleet s) (y_adapt s) (y_calls s) l (y_serial s).
Definition set_stage (x : stage) (c : call) : call := Call (k_cluster c) (k_ask c) (k_try c) (k_serial c) x.

(** The gateway process ends: so do the calls (their callers get no answer). *)
Definition cut (c : call) : call := match k_stage c with Over _ => c | _ => set_stage (Over None) c end.
Definition restarts (e : fevent) : bool := match e with FGateway (ERestart _) => true | _ => false end.
(** The scheduler of cluster [n] answers the messages [l] (scheduler_preload.py:97). *)
Definition reply (n : nat) (l : list nat) (c : call) : call :=
  if bool_decide (k_cluster c = n /\ k_serial c ∈ l) then match k_stage c with Posted => set_stage Handled c | _ => c end else c.
(** A step of the service of cluster [n]; a new size is seen by the next heartbeat
    (scheduler_preload.py 305-309). *)
Definition serve (kc : kcfg) (n : nat) (e : Adapt_Model.event) (s : sys) : sys * kobs :=
  let a := adapter s n in
  let '(a', o) := Adapt_Model.step (k_window kc) a e in
  let l := match o with Adapt_Model.OAnswer l => l | _ => [] end in
  let s1 := Sys (y_fleet s) (<[n := a']> (y_adapt s)) (map (reply n l) (y_calls s)) (y_wire s) (y_serial s) in
  if Adapt_Model.count a' =? Adapt_Model.count a then (s1, KObs [] KNone)
  else let '(s2, fl) := in_fleet kc (FSched n (Report_Model.EScale (Adapt_Model.count a'))) s1 in (s2, KObs fl KNone).
(** CommHandler.post (78-97); adapt(minimum, maximum) is answered at once. *)
Definition comm (kc : kcfg) (p : post) (s : sys) : sys * kobs :=
  match p_ask p with
  | KScale k => serve kc (p_cluster p) (Adapt_Model.EScale (p_serial p) k) s
  | KOff => serve kc (p_cluster p) (Adapt_Model.EOff (p_serial p)) s
  | KAdapt mn mx => let '(s', o) := serve kc (p_cluster p) (Adapt_Model.EAdapt mn mx) s in (set_calls (map (reply (p_cluster p) [p_serial p]) (y_calls s')) s', o)
  end.
(** session.post begins (113-118). *)
Definition send (r : nat) (c : call) (s : sys) : sys :=
  let x := y_serial s in
  Sys (y_fleet s) (y_adapt s) (<[r := Call (k_cluster c) (k_ask c) (S (k_try c)) x Posted]> (y_calls s))
    (y_wire s ++ [Post x (k_cluster c) (k_ask c)]) (S x).

Definition kstep (kc : kcfg) (s : sys) (e : kevent) : sys * kobs :=
  match e with
  | KFleet e =>
      if fleet_event e then
        let '(s', fl) := in_fleet kc e s in
        ((if restarts e then set_calls (map cut (y_calls s')) s' else s'), KObs fl KNone)
      else (s, KObs [] KNone)
  | KAsk n a =>                                                     (* routes.py 180-200, 222-234; base.py 107-108 *)
      match lookup_cluster n (f_gw (y_fleet s)) with
      | Some c =>
          if bool_decide (model_status c = Some PRUNNING) && (match a with KScale k => 0 <=? k | _ => true end) then
            let r := length (y_calls s) in
            let x := Call n (bounded (r_max (c_row c)) a) 0 0 Asleep in
            (send r x (set_calls (y_calls s ++ [x]) s), KObs [] (KTaken r))
          else (s, KObs [] KRefused)
      | None => (s, KObs [] KRefused)
      end
  | KHandle i =>
      match y_wire s !! i with
      | Some p => comm kc p (set_wire (delete i (y_wire s)) s)
      | None => (s, KObs [] KNone)
      end
  | KDrop i => (set_wire (delete i (y_wire s)) s, KObs [] KNone)
  | KResult r ok =>
      match y_calls s !! r with
      | Some c =>
          match k_stage c, ok with
          | Handled, true => (set_calls (<[r := set_stage (Over (Some true)) c]> (y_calls s)) s, KObs [] (KDone r true))
          | Posted, false | Handled, false =>                       (* 120-137 *)
              if decide (k_try c < k_tries kc)%nat then (set_calls (<[r := set_stage Asleep c]> (y_calls s)) s, KObs [] KNone)
              else let '(s', fl) := in_fleet kc (FGateway (EStop (k_cluster c) true)) s in
                   (set_calls (<[r := set_stage (Over (Some false)) c]> (y_calls s')) s', KObs fl (KDone r false))
          | _, _ => (s, KObs [] KNone)
          end
      | None => (s, KObs [] KNone)
      end
  | KRetry r =>                                                     (* 127-129 *)
      match y_calls s !! r with
      | Some c => match k_stage c with Asleep => (send r c s, KObs [] KNone) | _ => (s, KObs [] KNone) end
      | None => (s, KObs [] KNone)
      end
  | KEnd n => serve kc n Adapt_Model.EEnd s
  | KTick n x sl => serve kc n (Adapt_Model.ETick x sl) s
  | KResume n => serve kc n Adapt_Model.EResume s
  end.
