(** Model of the route table the gateway keeps
    (dask-gateway-server/dask_gateway_server/proxy/core.py:277-417) and of the
    proxy process that copies it
    (dask-gateway-server/dask-gateway-proxy/cmd/dask-gateway-proxy/main.go:40-377).

    Simplifications: the argument checks of add_route/remove_route that raise
    ValueError before any change (321-322, 325-326, 330-331, 335, 341-342, 347-348,
    353) are left out, [kind] is one of the two valid kinds; JSON encoding and
    decoding is the identity; Go's url.Parse is an arbitrary function. *)
From Coq Require Import Ascii String ZArith.
From stdpp Require Import prelude gmap.
From Verif Require Import Router_Model.
Open Scope Z_scope.

Inductive kind := SNI | PATH.
Global Instance kind_eq_dec : EqDecision kind.
Proof. solve_decision. Defined.
(** A route as sent to the proxy; in a DELETE event there is no target, which
    Go decodes as the empty string. *)
Record route := Route { rt_kind : kind; rt_name : bytes; rt_target : bytes }.
Inductive etype := TPut | TDelete.
Record gevent := Ev { ev_id : Z; ev_type : etype; ev_route : route }.

(** Python dict / Go map as association list: insertion order, overwriting
    keeps the position. *)
Section dict.
Context {K V : Type} `{EqDecision K}.
Fixpoint dget (k : K) (d : list (K * V)) : option V :=
  match d with [] => None | (k', v) :: d' => if decide (k = k') then Some v else dget k d' end.
Fixpoint dset (k : K) (v : V) (d : list (K * V)) : list (K * V) :=
  match d with
  | [] => [(k, v)]
  | (k', v') :: d' => if decide (k = k') then (k', v) :: d' else (k', v') :: dset k v d'
  end.
Fixpoint ddel (k : K) (d : list (K * V)) : list (K * V) :=
  match d with
  | [] => []
  | (k', v') :: d' => if decide (k = k') then ddel k d' else (k', v') :: ddel k d'
  end.
End dict.

(** * The gateway *)

(** State (proxy/core.py:277-282) and configuration (prefix 85-102,
    max_events 138-147, any integer).  [g_watch]: the queues in [_watchers]. *)
Record gateway := GW {
  g_prefix : bytes;
  g_max : Z;
  g_routes : list ((kind * bytes) * bytes);
  g_offset : Z;
  g_events : list gevent;
  g_next : Z;
  g_watch : gmap nat (list (list gevent));
  g_wnext : nat;                           (* names for queues, never reused *)
}.
Definition ginit (prefix : bytes) (mx : Z) (w : nat) : gateway := GW prefix mx [] 0 [] 1 ∅ w.

(** Python [l[i:]]. *)
Definition pyslice {A} (l : list A) (i : Z) : list A :=
  if 0 <=? i then drop (Z.to_nat i) l else drop (length l - Z.to_nat (- i)) l.

(** _append_event (307-318) with _get_id (302-305). *)
Definition append_event (t : etype) (r : route) (g : gateway) : gateway :=
  let event := Ev (g_next g) t r in
  let '(evs, off) :=
    if g_max g <=? Z.of_nat (length (g_events g)) then
      let n_dropped := g_max g / 2 in (pyslice (g_events g) n_dropped, g_offset g + n_dropped)
    else (g_events g, g_offset g) in
  GW (g_prefix g) (g_max g) (g_routes g) off (evs ++ [event]) (g_next g + 1)
     ((fun q => q ++ [[event]]) <$> g_watch g) (g_wnext g).

Definition set_routes (d : list ((kind * bytes) * bytes)) (g : gateway) : gateway :=
  GW (g_prefix g) (g_max g) d (g_offset g) (g_events g) (g_next g) (g_watch g) (g_wnext g).
Definition set_watch (m : gmap nat (list (list gevent))) (g : gateway) : gateway :=
  GW (g_prefix g) (g_max g) (g_routes g) (g_offset g) (g_events g) (g_next g) m (g_wnext g).

(** [self.prefix + path] (332, 349). *)
Definition full (g : gateway) (k : kind) (name : bytes) : bytes :=
  match k with SNI => name | PATH => g_prefix g ++ name end.

(** add_route (320-337). *)
Definition add_route (k : kind) (name target : bytes) (g : gateway) : gateway :=
  let n := full g k name in
  append_event TPut (Route k n target) (set_routes (dset (k, n) target (g_routes g)) g).

(** remove_route (339-357). *)
Definition remove_route (k : kind) (name : bytes) (g : gateway) : gateway :=
  let n := full g k name in
  match dget (k, n) (g_routes g) with
  | None => g
  | Some _ => append_event TDelete (Route k n []) (set_routes (ddel (k, n) (g_routes g)) g)
  end.

(** _events_after (359-366). *)
Definition events_after (last_id : Z) (g : gateway) : option (list gevent) :=
  let index := last_id - g_offset g in
  if 0 <=? index then Some (pyslice (g_events g) index) else None.

(** Requests to the gateway.  routes_handler (368-417) after authentication
    (370-377): without [watch] it is [GTable]; with [watch] it is [GWatch], up
    to the first await after [self._watchers.add(queue)] (396), nothing before
    suspends; [GWrite w] is one turn of the loop of 404-407; [GDrop w] is the end
    of the request (408-409), for whatever reason. *)
Inductive gcall :=
| GAdd (k : kind) (name target : bytes)
| GRemove (k : kind) (name : bytes)
| GTable
| GWatch (last_id : Z)
| GWrite (w : nat)
| GDrop (w : nat).
Inductive gout :=
| ONone
| OTable (routes : list route) (id : Z)
| OGone                                  (* HTTP 410 *)
| OStarted (w : nat)
| OWrote (w : nat) (evs : list gevent).

Definition gstep (g : gateway) (c : gcall) : gateway * gout :=
  match c with
  | GAdd k name t => (add_route k name t g, ONone)
  | GRemove k name => (remove_route k name g, ONone)
  | GTable => (g, OTable (map (fun e => Route e.1.1 e.1.2 e.2) (g_routes g)) (g_next g - 1))
  | GWatch last_id =>
      match events_after last_id g with
      | None => (g, OGone)
      | Some evs =>
          let w := g_wnext g in
          let q := match evs with [] => [] | _ => [evs] end in
          (GW (g_prefix g) (g_max g) (g_routes g) (g_offset g) (g_events g) (g_next g)
              (<[w := q]> (g_watch g)) (S w), OStarted w)
      end
  | GWrite w =>
      match g_watch g !! w with
      | Some (evs :: q) => (set_watch (<[w := q]> (g_watch g)) g, OWrote w evs)
      | _ => (g, ONone)
      end
  | GDrop w => (set_watch (delete w (g_watch g)) g, ONone)
  end.

(** * The proxy *)

Section proxy.
(** net/url.Parse; [None] is an error. *)
Context (parse : bytes -> option goURL).

Definition b_ (s : string) : bytes := list_ascii_of_string s.
(** strings.TrimPrefix(s, "tls://"). *)
Definition trim_tls (s : bytes) : bytes :=
  if decide (take 6 s = b_ "tls://") then drop 6 s else s.

(** Route.Validate(false) (main.go:62-73). *)
Definition validate_name (r : route) : bool := if decide (rt_name r = []) then false else true.
(** Route.Validate(true) (62-92): the value stored, [None] if invalid. *)
Definition validate_sni (r : route) : option bytes :=
  if validate_name r then if decide (rt_target r = []) then None else Some (trim_tls (rt_target r)) else None.
Definition validate_path (r : route) : option goURL :=
  if validate_name r then
    if decide (rt_target r = []) then None
    else u ← parse (rt_target r);
         if decide (u_scheme u = b_ "http" \/ u_scheme u = b_ "https") then Some u else None
  else None.

(** type Proxy (94-100): the two tables.  [None] in the place of the router
    would be a panic inside it. *)
Record tables := Tables { t_sni : list (bytes * bytes); t_router : option (router goURL) }.
(** NewProxy (102-114), clearRoutes (161-165). *)
Definition empty_tables : tables := Tables [] (Some NewRouter).

(** putRoute (167-180). *)
Definition putRoute (r : route) (t : tables) : tables :=
  match rt_kind r with
  | SNI => match validate_sni r with
           | Some v => Tables (dset (rt_name r) v (t_sni t)) (t_router t)
           | None => t
           end
  | PATH => match validate_path r with
            | Some u => Tables (t_sni t) (ro ← t_router t; Put ro (rt_name r) u)
            | None => t
            end
  end.
(** deleteRoute (182-195). *)
Definition deleteRoute (r : route) (t : tables) : tables :=
  if validate_name r then
    match rt_kind r with
    | SNI => Tables (ddel (rt_name r) (t_sni t)) (t_router t)
    | PATH => Tables (t_sni t) (ro ← t_router t; Delete ro (rt_name r))
    end
  else t.
(** UpdateFromRoutes (197-205). *)
Definition UpdateFromRoutes (rs : list route) : tables := fold_left (fun t r => putRoute r t) rs empty_tables.
(** UpdateFromEvents (207-219). *)
Definition apply_event (t : tables) (e : gevent) : tables :=
  match ev_type e with TPut => putRoute (ev_route e) t | TDelete => deleteRoute (ev_route e) t end.
Definition UpdateFromEvents (es : list gevent) (t : tables) : tables := fold_left apply_event es t.

(** Where watchRoutes (323-377) is: waiting for the answer to the table request
    (345; [Some]: the answer is on its way), about to send the watch request
    (359), or reading the stream of queue [w] (369-374; [stream]: lines written
    by the gateway and not yet read). *)
Inductive phase :=
| Fetching (answer : option (list route * Z))
| Rewatch
| Watching (w : nat) (stream : list (list gevent)).
Record proxy := PX { p_phase : phase; p_last : Z; p_tables : tables }.
Definition pinit : proxy := PX (Fetching None) 0 empty_tables.

Record sys := Sys { s_gw : gateway; s_px : proxy }.
Definition sinit (prefix : bytes) (mx : Z) : sys := Sys (ginit prefix mx 0) pinit.

Inductive event :=
| SAdd (k : kind) (name target : bytes)   (* the gateway changes its table *)
| SRemove (k : kind) (name : bytes)
| SRestart                                (* the gateway process is replaced: setup() runs again (277-282) *)
| SOther (last_id : Z)                    (* some other client opens a watch *)
| SWrite (w : nat)                        (* the gateway writes one line to stream w *)
| SDrop (w : nat)                         (* the gateway ends stream w *)
| SAnswer                                 (* the gateway answers the table request *)
| SRecv                                   (* the answer arrives (346-353) *)
| SFetchFail                              (* the table request fails (346-349) *)
| SWatch                                  (* the watch request is handled (359-363) *)
| SWatchFail                              (* it fails other than by 410 (363-366) *)
| SRead                                   (* Next() returns a line (367-373) *)
| SEnd                                    (* the stream ends or breaks (255-258): watch again (358) *)
| SGarbage.                               (* Next() meets a broken line (260-264, 374-377) *)

Definition with_gw (s : sys) (g : gateway) : sys := Sys g (s_px s).
Definition with_phase (s : sys) (p : phase) : sys := Sys (s_gw s) (PX p (p_last (s_px s)) (p_tables (s_px s))).

Definition step (s : sys) (e : event) : sys :=
  let g := s_gw s in let p := s_px s in
  match e with
  | SAdd k n t => with_gw s (fst (gstep g (GAdd k n t)))
  | SRemove k n => with_gw s (fst (gstep g (GRemove k n)))
  | SRestart => with_gw s (ginit (g_prefix g) (g_max g) (g_wnext g))
  | SOther n => with_gw s (fst (gstep g (GWatch n)))
  | SDrop w => with_gw s (fst (gstep g (GDrop w)))
  | SWrite w =>
      match gstep g (GWrite w) with
      | (g', OWrote _ evs) =>
          let s' := with_gw s g' in
          match p_phase p with
          | Watching w' str => if decide (w = w') then with_phase s' (Watching w' (str ++ [evs])) else s'
          | _ => s'
          end
      | (g', _) => with_gw s g'
      end
  | SAnswer =>
      match p_phase p, gstep g GTable with
      | Fetching None, (g', OTable rs id) => with_phase (with_gw s g') (Fetching (Some (rs, id)))
      | _, _ => s
      end
  | SRecv =>
      match p_phase p with
      | Fetching (Some (rs, id)) => Sys g (PX Rewatch id (UpdateFromRoutes rs))
      | _ => s
      end
  | SFetchFail => match p_phase p with Fetching _ => with_phase s (Fetching None) | _ => s end
  | SWatch =>
      match p_phase p with
      | Rewatch =>
          match gstep g (GWatch (p_last p)) with
          | (g', OStarted w) => with_phase (with_gw s g') (Watching w [])
          | (g', _) => with_phase (with_gw s g') (Fetching None)
          end
      | _ => s
      end
  | SWatchFail => match p_phase p with Rewatch => with_phase s (Fetching None) | _ => s end
  | SRead =>
      match p_phase p with
      | Watching w (evs :: str) =>
          match last evs with
          | None => with_phase s (Watching w str)
          | Some e => Sys g (PX (Watching w str) (ev_id e) (UpdateFromEvents evs (p_tables p)))
          end
      | _ => s
      end
  | SEnd => match p_phase p with Watching _ _ => with_phase s Rewatch | _ => s end
  | SGarbage => match p_phase p with Watching _ _ => with_phase s (Fetching None) | _ => s end
  end.
Definition runs (s : sys) (es : list event) : sys := fold_left step es s.
End proxy.
