(** Properties C105-C106: the messages by which the proxy learns of changes of routes. *)
From Coq Require Import Ascii String ZArith NArith Lia.
From stdpp Require Import prelude gmap.
From Verif Require Import Trace Router_Model Router_Spec ProxyLog_Model ProxyLog_Spec ProxyLog_Proofs Wire_Model Wire_Spec Wire_Proofs Wire_Proofs2 Wire_Proofs3.
Local Open Scope nat_scope.

(** C105. Messages whose lines are not longer than 64 KiB arrive as they were sent... *)
Theorem C105_arrives : forall msgs, Forall (Forall is_event) msgs -> Forall short msgs ->
  read_all (concat (map line msgs)) = (map (map as_seen) msgs, NoError).
Proof. exact read_whole. Qed.
Print Assumptions C105_arrives.
(** ... and wherever the stream breaks off, the proxy has got whole messages, in the order
    in which they were sent and with none left out in between (also if some are longer);
    if all are short, it has got every one whose line arrived. *)
Theorem C105_cut : forall msgs body rest, Forall (Forall is_event) msgs -> concat (map line msgs) = body ++ rest ->
  exists k e, read_all body = (map (map as_seen) (take k msgs), e) /\
  (Forall short msgs -> forall w, w `prefix_of` msgs -> concat (map line w) `prefix_of` body -> w `prefix_of` take k msgs).
Proof.
  intros msgs body rest H E. destruct (read_part (S (length body)) msgs H body rest E) as (k & e & E1 & E2). exists k, e.
  split; [exact E1|]. intros Hs. apply E2; [done|lia].
Qed.
Print Assumptions C105_cut.
(** A name with a quote, a line end, a letter beyond ASCII and one beyond 16 bits. *)
Definition ev1 : wevent := WEvent 7 TPut (WRoute PATH (t_ "/p/" ++ [34; 10; 233; 128512]%N) (Some (t_ "http://h:1"))).
Definition ev2 : wevent := WEvent 8 TDelete (WRoute SNI (t_ "c1") None).
Example C105_example :
  line [ev2] = b_ "{""events"": [{""id"": 8, ""type"": ""DELETE"", ""route"": {""kind"": ""SNI"", ""sni"": ""c1""}}]}" ++ [newline] /\
  dump_str (w_name (we_route ev1)) = b_ """/p/\""\n\u00e9\ud83d\ude00""" /\
  is_event ev1 /\ is_event ev2 /\ short [ev1; ev2] /\
  read_all (line [ev1; ev2] ++ line [ev2] ++ take 60 (line [ev1])) = ([[as_seen ev1; as_seen ev2]; [as_seen ev2]], Failed) /\
  as_seen ev2 = GEvt 8 (t_ "DELETE") (GRoute (t_ "SNI") (t_ "c1") [] []).
Proof.
  split; [vm_compute; done|]. split; [vm_compute; done|].
  split; [split; [done|split; apply (bool_decide_unpack _); vm_compute; done]|].
  split; [split; [done|split; [apply (bool_decide_unpack _); vm_compute; done|done]]|].
  split; [unfold short; vm_compute; done|]. split; vm_compute; done.
Qed.

Local Open Scope Z_scope.
(** C106. Full statement: a proxy that is told of a change it has missed, and is then left
    alone, comes to serve the routes that the gateway has.  It can do so if the changes
    which it has missed fit in one line... *)
Theorem C106_catches_up_partial : forall parse prefix mx es, 0 <= mx -> good_history parse prefix es -> no_restart es ->
  let s := wire_runs parse (sinit prefix mx) es in p_phase (s_px s) = Rewatch ->
  (forall evs, events_after (p_last (s_px s)) (s_gw s) = Some evs -> fits evs = true) ->
  exists es', Forall quiet es' /\ let s' := wire_runs parse s es' in same_log (s_gw s) (s_gw s') /\ in_sync parse (s_px s') (s_gw s').
Proof. exact catch_up. Qed.
Print Assumptions C106_catches_up_partial.
(** ... and they always do if no change takes more than so many bytes (653 for the
    default maximum of 100 changes). *)
Theorem C106_small_log : forall parse prefix mx es B, 2 <= mx -> good_history parse prefix es -> no_restart es ->
  let s := wire_runs parse (sinit prefix mx) es in
  (forall e, e ∈ g_events (s_gw s) -> Z.of_nat (length (dumps (event_json (to_wire e)))) <= B) -> mx * (B + 2) + 14 <= 65535 ->
  forall n evs, events_after n (s_gw s) = Some evs -> fits evs = true.
Proof. exact small_log. Qed.
Print Assumptions C106_small_log.
(** If they do not fit, nothing changes at the proxy as long as it is left alone: it asks
    for them again and again. *)
Theorem C106_stuck : forall parse s0 evs es, p_phase (s_px s0) = Rewatch -> events_after (p_last (s_px s0)) (s_gw s0) = Some evs ->
  fits evs = false -> Forall quiet es ->
  let s := wire_runs parse s0 es in
  same_log (s_gw s0) (s_gw s) /\ p_last (s_px s) = p_last (s_px s0) /\ p_tables (s_px s) = p_tables (s_px s0).
Proof. exact stuck. Qed.
Print Assumptions C106_stuck.

Definition parse0 (t : bytes) : option goURL := Some (URL (b_ "http") t [] []).
(** The scheduler of cluster c1 gives an address of 66000 letters; then c2 is started. *)
Definition long : bytes := b_ "tls://" ++ replicate (N.to_nat 66000) "a"%char.
Definition ex106 : list event :=
  [SAdd PATH (b_ "/") (b_ "gw"); SAnswer; SRecv; SWatch; SAdd SNI (b_ "c1") long; SWrite 0; SRead; SAdd SNI (b_ "c2") (b_ "tls://h2:8786"); SWatch; SWrite 1; SRead].
Theorem C106_refuted : exists parse prefix es,
  good_history parse prefix es /\ no_restart es /\
  let s := wire_runs parse (sinit prefix 100) es in
  dget (SNI, b_ "c2") (g_routes (s_gw s)) = Some (b_ "tls://h2:8786") /\
  forall es', Forall quiet es' -> let s' := wire_runs parse s es' in
    same_log (s_gw s) (s_gw s') /\ dget (b_ "c2") (t_sni (p_tables (s_px s'))) = None.
Proof.
  exists parse0, (b_ "/p"), ex106. split; [apply good_check; vm_compute; reflexivity|].
  split; [apply no_restart_check; vm_compute; done|]. cbn zeta.
  set (s := wire_runs parse0 (sinit (b_ "/p") 100) ex106).
  assert (E : match p_phase (s_px s) with Rewatch => true | _ => false end = true) by (vm_compute; reflexivity).
  assert (Ef : match events_after (p_last (s_px s)) (s_gw s) with Some evs => negb (fits evs) | None => false end = true) by (vm_compute; reflexivity).
  assert (E1 : dget (SNI, b_ "c2") (g_routes (s_gw s)) = Some (b_ "tls://h2:8786")) by (vm_compute; reflexivity).
  assert (E2 : dget (b_ "c2") (t_sni (p_tables (s_px s))) = None) by (vm_compute; reflexivity).
  clearbody s. split; [exact E1|]. destruct (events_after _ _) as [evs|] eqn:Ee; [|done]. apply negb_true_iff in Ef.
  intros es' Hq. destruct (stuck parse0 s evs es') as (H1 & _ & H3); [by destruct (p_phase (s_px s))|done|done|done|].
  split; [exact H1|]. rewrite H3. exact E2.
Qed.
Print Assumptions C106_refuted.

(** With a larger log, many ordinary changes are enough. *)
Definition name_of (n : nat) : bytes := b_ "0123456789abcdef0123456789abc" ++ map (fun d => ascii_of_N (48 + N.of_nat (n / d mod 10)%nat)) [100; 10; 1]%nat.
Definition ex106l : list event :=
  [SAdd PATH (b_ "/") (b_ "gw"); SAnswer; SRecv; SWatch] ++ map (fun n => SAdd SNI (name_of n) (b_ "tls://10.0.100.100:12345")) (seq 0 600) ++ [SEnd].
Theorem C106_large_log_refuted : exists parse prefix es,
  good_history parse prefix es /\ no_restart es /\
  (forall k n t, SAdd k n t ∈ es -> (length n <= 32 /\ length t <= 24)%nat) /\
  let s := wire_runs parse (sinit prefix 1000) es in
  (exists n t, dget (SNI, n) (g_routes (s_gw s)) = Some t) /\
  forall es', Forall quiet es' -> let s' := wire_runs parse s es' in
    same_log (s_gw s) (s_gw s') /\ t_sni (p_tables (s_px s')) = [].
Proof.
  exists parse0, (b_ "/p"), ex106l. split; [apply good_check; vm_compute; reflexivity|].
  split; [apply no_restart_check; vm_compute; done|].
  split.
  { assert (F : forallb (fun e => match e with SAdd _ n t => (length n <=? 32)%nat && (length t <=? 24)%nat | _ => true end) ex106l = true) by (vm_compute; done).
    intros k n t Hx. rewrite forallb_forall in F. apply elem_of_list_In in Hx. specialize (F _ Hx). cbn beta iota in F. apply andb_prop in F as [F1 F2]. apply Nat.leb_le in F1. apply Nat.leb_le in F2. done. }
  cbn zeta. set (s := wire_runs parse0 (sinit (b_ "/p") 1000) ex106l).
  assert (E : match p_phase (s_px s) with Rewatch => true | _ => false end = true) by (vm_compute; reflexivity).
  assert (Ef : match events_after (p_last (s_px s)) (s_gw s) with Some evs => negb (fits evs) | None => false end = true) by (vm_compute; reflexivity).
  assert (E1 : dget (SNI, name_of 5) (g_routes (s_gw s)) = Some (b_ "tls://10.0.100.100:12345")) by (vm_compute; reflexivity).
  assert (E2 : t_sni (p_tables (s_px s)) = []) by (vm_compute; reflexivity).
  clearbody s. split; [eexists _, _; exact E1|]. destruct (events_after _ _) as [evs|] eqn:Ee; [|done]. apply negb_true_iff in Ef.
  intros es' Hq. destruct (stuck parse0 s evs es') as (H1 & _ & H3); [by destruct (p_phase (s_px s))|done|done|done|].
  split; [exact H1|]. rewrite H3. exact E2.
Qed.
Print Assumptions C106_large_log_refuted.
(** A proxy that has missed two changes catches up. *)
Example C106_example :
  let es := [SAdd PATH (b_ "/") (b_ "gw"); SAnswer; SRecv; SWatch; SAdd SNI (b_ "c1") (b_ "tls://h1:8786"); SRemove SNI (b_ "c1"); SEnd; SAdd SNI (b_ "c2") (b_ "tls://h2:8786")] in
  let s := wire_runs parse0 (sinit (b_ "/p") 100) es in
  good_history parse0 (b_ "/p") es /\ no_restart es /\ p_phase (s_px s) = Rewatch /\
  (forall evs, events_after (p_last (s_px s)) (s_gw s) = Some evs -> length evs = 3%nat /\ fits evs = true) /\
  t_sni (p_tables (s_px (wire_runs parse0 s [SWatch; SWrite 1; SRead]))) = [(b_ "c2", b_ "h2:8786")] /\ t_sni (p_tables (s_px s)) = [].
Proof.
  split; [apply good_check; vm_compute; reflexivity|]. split; [apply no_restart_check; vm_compute; done|]. split; [vm_compute; done|].
  split; [|vm_compute; auto].
  match goal with |- forall evs, ?x = Some evs -> _ => assert (E : match x with Some evs => (length evs =? 3)%nat && fits evs | None => false end = true) by (vm_compute; done); destruct x as [l|]; [|done] end.
  intros evs [= <-]. apply andb_prop in E as [E1%Nat.eqb_eq E2]. auto.
Qed.
