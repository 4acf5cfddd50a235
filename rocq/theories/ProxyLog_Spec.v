(** Vocabulary for the route log and proxy synchronisation properties. *)
From Coq Require Import Ascii String ZArith.
From stdpp Require Import prelude gmap.
From Verif Require Import Trace Router_Model Router_Spec ProxyLog_Model.
Open Scope Z_scope.

(** A change to the table, and the table after a list of changes. *)
Notation change := (etype * route)%type.
Definition key_of (c : change) : kind * bytes := (rt_kind c.2, rt_name c.2).
Definition tab_step (T : kind * bytes -> option bytes) (c : change) : kind * bytes -> option bytes :=
  fun key => if decide (key = key_of c)
             then match c.1 with TPut => Some (rt_target c.2) | TDelete => None end
             else T key.
Definition tab (L : list change) : kind * bytes -> option bytes := fold_left tab_step L (fun _ => None).

(** The name a route is registered under. *)
Definition reg (prefix : bytes) (k : kind) (n : bytes) : bytes := match k with SNI => n | PATH => prefix ++ n end.
(** The changes a list of calls makes: every addition, and every removal of a
    route that exists. *)
Definition change_step (prefix : bytes) (L : list change) (c : gcall) : list change :=
  match c with
  | GAdd k n t => L ++ [(TPut, Route k (reg prefix k n) t)]
  | GRemove k n => match tab L (k, reg prefix k n) with
                   | Some _ => L ++ [(TDelete, Route k (reg prefix k n) [])]
                   | None => L
                   end
  | _ => L
  end.
Definition changes (prefix : bytes) (cs : list gcall) : list change := fold_left (change_step prefix) cs [].

(** The same changes, numbered from 1. *)
Definition numbered (L : list change) : list gevent := imap (fun i c => Ev (Z.of_nat i + 1) c.1 c.2) L.

(** Everything written to watcher [w]. *)
Definition received (w : nat) (h : list (gcall * gout)) : list gevent :=
  concat (map (fun p => match p.2 with OWrote w' evs => if decide (w' = w) then evs else [] | _ => [] end) h).

(** ** The proxy *)
Section px.
Context (parse : bytes -> option goURL).

(** Targets the proxy can use: the address [u] an HTTP target stands for. *)
Definition leads_to (t : bytes) (u : goURL) : Prop :=
  t <> [] /\ parse t = Some u /\ (u_scheme u = b_ "http" \/ u_scheme u = b_ "https").
Definition usable (k : kind) (t : bytes) : Prop := match k with SNI => t <> [] | PATH => exists u, leads_to t u end.

(** The proxy's tables say the same as the gateway's table [T], as far as the
    targets are usable. *)
Definition agree (T : kind * bytes -> option bytes) (t : tables) : Prop :=
  (forall n a, dget n (t_sni t) = Some a <-> exists tgt, T (SNI, n) = Some tgt /\ usable SNI tgt /\ a = trim_tls tgt) /\
  exists r, t_router t = Some r /\
    forall k u, (n ← node_at r k; r_url n) = Some u <->
                exists p tgt, T (PATH, p) = Some tgt /\ route_of p = k /\ leads_to tgt u.

(** The proxy has the table the gateway has in state [g]. *)
Definition in_sync (p : proxy) (g : gateway) : Prop :=
  p_last p = g_next g - 1 /\ agree (fun key => dget key (g_routes g)) (p_tables p).

(** Names are not empty, the targets given for one name are all usable or all
    not, and different paths name different routes. *)
Definition good_history (prefix : bytes) (es : list event) : Prop :=
  (forall k n t, SAdd k n t ∈ es -> reg prefix k n <> []) /\
  (forall k n t1 t2, SAdd k n t1 ∈ es -> SAdd k n t2 ∈ es -> usable k t1 -> usable k t2) /\
  (forall n1 t1 n2 t2, SAdd PATH n1 t1 ∈ es -> SAdd PATH n2 t2 ∈ es ->
     route_of (prefix ++ n1) = route_of (prefix ++ n2) -> n1 = n2).
Definition no_restart (es : list event) : Prop := SRestart ∉ es.
End px.
