(** Properties C12-C15: the gateway's route log and the proxy's copy of it. *)
From Coq Require Import Ascii String ZArith Lia.
From stdpp Require Import prelude gmap.
From Verif Require Import Trace Router_Model Router_Spec ProxyLog_Model ProxyLog_Spec ProxyLog_Proofs.
Open Scope Z_scope.

(** C12. The changes are numbered 1, 2, 3, ... *)
Theorem C12_ids : forall L, map ev_id (numbered L) = seqZ 1 (Z.of_nat (length L)).
Proof. exact numbered_ids. Qed.
Print Assumptions C12_ids.

(** A watcher that asked for the changes after [n] has been sent exactly the
    first so many of the changes n+1, n+2, ...; all of them, if its request has
    not ended and nothing is left to write. *)
Theorem C12_gap_free : forall prefix mx h1 n w h2 g, 0 <= mx ->
  exec gstep (ginit prefix mx 0) (h1 ++ (GWatch n, OStarted w) :: h2) g ->
  0 <= n <= Z.of_nat (length (changes prefix (map fst h1))) ->
  let all := numbered (changes prefix (map fst (h1 ++ (GWatch n, OStarted w) :: h2))) in
  received w h2 `prefix_of` drop (Z.to_nat n) all /\
  (GDrop w ∉ map fst h2 -> snd (gstep g (GWrite w)) = ONone -> received w h2 = drop (Z.to_nat n) all).
Proof. exact gap_free. Qed.
Print Assumptions C12_gap_free.

(** It is refused only if it lags by more than half the configured maximum. *)
Theorem C12_gone : forall prefix mx h g n, 0 <= mx -> exec gstep (ginit prefix mx 0) h g ->
  0 <= n <= Z.of_nat (length (changes prefix (map fst h))) -> snd (gstep g (GWatch n)) = OGone ->
  mx - mx / 2 + 1 < Z.of_nat (length (changes prefix (map fst h))) - n.
Proof. exact gone_means_old. Qed.
Print Assumptions C12_gone.

(** The full table comes with the number of the change it includes last. *)
Theorem C12_table : forall prefix mx h g rs id, 0 <= mx -> exec gstep (ginit prefix mx 0) h g ->
  snd (gstep g GTable) = OTable rs id ->
  let L := changes prefix (map fst h) in
  id = Z.of_nat (length L) /\ NoDup (map (fun r => (rt_kind r, rt_name r)) rs) /\
  forall k n t, Route k n t ∈ rs <-> tab L (k, n) = Some t.
Proof. exact table_answer. Qed.
Print Assumptions C12_table.

Definition ex12 : list gcall :=
  [GAdd PATH (b_ "/") (b_ "a"); GAdd SNI (b_ "c1") (b_ "b"); GAdd PATH (b_ "/c1") (b_ "c"); GRemove SNI (b_ "zz");
   GAdd PATH (b_ "/c2") (b_ "d"); GWatch 3; GRemove SNI (b_ "c1"); GWrite 0; GAdd SNI (b_ "c3") (b_ "e"); GWatch 1;
   GWrite 0; GWrite 0; GWrite 0].
Example C12_example :
  let '(g, h) := run gstep (ginit (b_ "/p") 2 0) ex12 in
  exec gstep (ginit (b_ "/p") 2 0) h g /\
  map snd h = [ONone; ONone; ONone; ONone; ONone; OStarted 0; ONone;
    OWrote 0 [Ev 4 TPut (Route PATH (b_ "/p/c2") (b_ "d"))]; ONone; OGone;
    OWrote 0 [Ev 5 TDelete (Route SNI (b_ "c1") [])]; OWrote 0 [Ev 6 TPut (Route SNI (b_ "c3") (b_ "e"))]; ONone].
Proof.
  destruct (run gstep (ginit (b_ "/p") 2 0) ex12) as [g h] eqn:E. split; [eapply run_exec; exact E|].
  vm_compute in E. injection E as <- <-. vm_compute. reflexivity.
Qed.

(** A negative maximum breaks it: nothing is sent. *)
Example C12_negative_limit_refuted : exists g h,
  exec gstep (ginit [] (-1) 0) h g /\
  map snd h = [ONone; ONone; OStarted 0; ONone] /\
  map fst h = [GAdd SNI (b_ "a") (b_ "x"); GAdd SNI (b_ "b") (b_ "x"); GWatch 0; GWrite 0].
Proof.
  destruct (run gstep (ginit [] (-1) 0) [GAdd SNI (b_ "a") (b_ "x"); GAdd SNI (b_ "b") (b_ "x"); GWatch 0; GWrite 0]) as [g h] eqn:E.
  exists g, h. split; [eapply run_exec; exact E|]. vm_compute in E. injection E as <- <-. vm_compute. auto.
Qed.

(** C13. At every moment of one gateway lifetime the proxy's tables are those
    the gateway had at some earlier moment, when its newest change was the last
    one the proxy has seen.  Targets the proxy cannot use do no harm, unless the
    same name is also given a target it can use ([good_history]). *)
Theorem C13_past_table : forall parse prefix mx es, 0 <= mx -> good_history parse prefix es -> no_restart es ->
  exists es1 es2, es = es1 ++ es2 /\
  in_sync parse (s_px (runs parse (sinit prefix mx) es)) (s_gw (runs parse (sinit prefix mx) es1)).
Proof. exact always_past_table. Qed.
Print Assumptions C13_past_table.

(** Having seen the newest change, the proxy has the gateway's table. *)
Theorem C13_newest : forall parse prefix mx es, 0 <= mx -> good_history parse prefix es -> no_restart es ->
  let s := runs parse (sinit prefix mx) es in
  p_last (s_px s) = g_next (s_gw s) - 1 -> in_sync parse (s_px s) (s_gw s).
Proof. exact newest_id_in_sync. Qed.
Print Assumptions C13_newest.

(** This is the case once a connected proxy has read everything, *)
Theorem C13_drained : forall parse prefix mx es w, 0 <= mx -> good_history parse prefix es -> no_restart es ->
  let s := runs parse (sinit prefix mx) es in
  p_phase (s_px s) = Watching w [] -> g_watch (s_gw s) !! w = Some [] -> in_sync parse (s_px s) (s_gw s).
Proof. exact drained_in_sync. Qed.
Print Assumptions C13_drained.

(** and after every completed fetch, whatever happened before (also restarts). *)
Theorem C13_fetch : forall parse prefix mx es, 0 <= mx -> good_history parse prefix es ->
  (exists a, p_phase (s_px (runs parse (sinit prefix mx) es)) = Fetching a) ->
  let s := runs parse (sinit prefix mx) (es ++ [SFetchFail; SAnswer; SRecv]) in in_sync parse (s_px s) (s_gw s).
Proof. exact fetch_in_sync. Qed.
Print Assumptions C13_fetch.

Definition parse0 (t : bytes) : option goURL := Some (URL (b_ "http") t [] []).
Definition ex13 : list event :=
  [SAdd PATH (b_ "/") (b_ "gw"); SAdd PATH (b_ "/c0") []; SAnswer; SAdd PATH (b_ "/c1") (b_ "h1"); SAdd SNI (b_ "c1") (b_ "tls://h1:8786"); SRecv;
   SWatch; SWrite 0; SRead; SRemove PATH (b_ "/c1"); SWrite 0; SDrop 0; SRead; SEnd; SAdd PATH (b_ "/c2") (b_ "h2"); SWatch; SWrite 1; SRead].
Example C13_example :
  let s := runs parse0 (sinit (b_ "/p") 100) ex13 in
  good_history parse0 (b_ "/p") ex13 /\ no_restart ex13 /\ p_phase (s_px s) = Watching 1 [] /\ g_watch (s_gw s) !! 1%nat = Some [] /\
  p_last (s_px s) = 6 /\ t_sni (p_tables (s_px s)) = [(b_ "c1", b_ "h1:8786")] /\
  (traverse [] <$> t_router (p_tables (s_px s))) = Some [(b_ "/p", URL (b_ "http") (b_ "gw") [] []); (b_ "/p/c2", URL (b_ "http") (b_ "h2") [] [])].
Proof.
  split; [|split; [|vm_compute; auto]].
  - apply good_check. vm_compute. reflexivity.
  - intros He. unfold ex13 in He. repeat (apply elem_of_cons in He as [He|He]; [discriminate He|]). by apply elem_of_nil in He.
Qed.

(** The conditions on additions are needed.  Two spellings of one path: *)
Example C13_needs_distinct_paths :
  let es := [SAdd PATH (b_ "/a") (b_ "x"); SAdd PATH (b_ "/a/") (b_ "y"); SAnswer; SRecv; SWatch; SRemove PATH (b_ "/a/"); SWrite 0; SRead] in
  let s := runs parse0 (sinit [] 100) es in
  p_last (s_px s) = g_next (s_gw s) - 1 /\ g_routes (s_gw s) = [((PATH, b_ "/a"), b_ "x")] /\
  (traverse [] <$> t_router (p_tables (s_px s))) = Some [].
Proof. vm_compute. auto. Qed.
(** A target the proxy rejects after one it accepts: it keeps serving the old one. *)
Example C13_needs_valid_targets :
  let parse1 t := if decide (t = b_ "bad") then None else parse0 t in
  let es := [SAdd PATH (b_ "/a") (b_ "x"); SAnswer; SRecv; SWatch; SAdd PATH (b_ "/a") (b_ "bad"); SWrite 0; SRead] in
  let s := runs parse1 (sinit [] 100) es in
  p_last (s_px s) = g_next (s_gw s) - 1 /\ g_routes (s_gw s) = [((PATH, b_ "/a"), b_ "bad")] /\
  (traverse [] <$> t_router (p_tables (s_px s))) = Some [(b_ "/a", URL (b_ "http") (b_ "x") [] [])].
Proof. vm_compute. auto. Qed.

(** C14. The log never exceeds the configured maximum, if that is at least 2; *)
Theorem C14_bounded_partial : forall prefix mx h g, 2 <= mx -> exec gstep (ginit prefix mx 0) h g ->
  Z.of_nat (length (g_events g)) <= mx.
Proof. exact log_bounded. Qed.
Print Assumptions C14_bounded_partial.

(** for 0 and 1 nothing is ever dropped. *)
Theorem C14_unbounded : forall prefix mx h g, 0 <= mx < 2 -> exec gstep (ginit prefix mx 0) h g ->
  length (g_events g) = length (changes prefix (map fst h)).
Proof. exact log_unbounded. Qed.
Print Assumptions C14_unbounded.

Theorem C14_bounded_refuted : exists prefix mx h g, 0 <= mx /\ exec gstep (ginit prefix mx 0) h g /\
  mx < Z.of_nat (length (g_events g)).
Proof.
  destruct (run gstep (ginit [] 1 0) [GAdd SNI (b_ "a") (b_ "x"); GAdd SNI (b_ "b") (b_ "x")]) as [g h] eqn:E.
  exists [], 1, h, g. split; [lia|]. split; [eapply run_exec; exact E|]. vm_compute in E. injection E as <- <-. vm_compute. reflexivity.
Qed.
Print Assumptions C14_bounded_refuted.
Example C14_example : let '(g, h) := run gstep (ginit (b_ "/p") 2 0) ex12 in
  exec gstep (ginit (b_ "/p") 2 0) h g /\ length (g_events g) = 2%nat /\ g_offset g = 4.
Proof.
  destruct (run gstep (ginit (b_ "/p") 2 0) ex12) as [g h] eqn:E. split; [eapply run_exec; exact E|].
  vm_compute in E. injection E as <- <-. vm_compute. auto.
Qed.

(** C15. Full statement: after a restart of the gateway, a connected proxy that
    has read everything serves only what the new gateway has.  This is false: a
    proxy whose last id is at least the new gateway's newest id is served a
    stream without ever being told to start over. *)
Theorem C15_recovers_refuted : exists parse prefix mx es w k u,
  0 <= mx /\ good_history parse prefix es /\
  let s := runs parse (sinit prefix mx) es in
  p_phase (s_px s) = Watching w [] /\ g_watch (s_gw s) !! w = Some [] /\
  (r ← t_router (p_tables (s_px s)); n ← node_at r k; r_url n) = Some u /\
  forall p t, dget (PATH, p) (g_routes (s_gw s)) = Some t -> route_of p <> k.
Proof.
  exists parse0, [], 100,
    [SAdd PATH (b_ "/") (b_ "gw"); SAdd PATH (b_ "/c1") (b_ "h1"); SAnswer; SRecv; SWatch; SRestart; SEnd; SAdd PATH (b_ "/") (b_ "gw"); SWatch],
    1%nat, [b_ "c1"], (URL (b_ "http") (b_ "h1") [] []).
  split; [lia|]. split; [apply good_check; vm_compute; reflexivity|].
  - cbv zeta. split; [vm_compute; reflexivity|]. split; [vm_compute; reflexivity|]. split; [vm_compute; reflexivity|].
    intros p t Hd. apply dget_in in Hd.
    match type of Hd with _ ∈ ?l => let l' := eval vm_compute in l in change l with l' in Hd end.
    apply elem_of_list_singleton in Hd. injection Hd as -> _. vm_compute. discriminate.
Qed.
Print Assumptions C15_recovers_refuted.

(** What holds: whatever happened before (restarts included), from the moment
    the proxy goes back to fetching the whole table, it has, until the next
    restart, either not received it yet or a table of the running gateway. *)
Theorem C15_recovers_partial : forall parse prefix mx es0 es, 0 <= mx -> good_history parse prefix (es0 ++ es) -> no_restart es ->
  p_phase (s_px (runs parse (sinit prefix mx) es0)) = Fetching None ->
  let s0 := runs parse (sinit prefix mx) es0 in let s := runs parse (sinit prefix mx) (es0 ++ es) in
  ((exists a, p_phase (s_px s) = Fetching a) /\ p_last (s_px s) = p_last (s_px s0) /\ p_tables (s_px s) = p_tables (s_px s0)) \/
  exists es1 es2, es = es1 ++ es2 /\ in_sync parse (s_px s) (s_gw (runs parse (sinit prefix mx) (es0 ++ es1))).
Proof. exact resync. Qed.
Print Assumptions C15_recovers_partial.

(** A failed watch request (the usual case while the gateway is down) is what
    sends the proxy back to fetching. *)
Example C15_example :
  let es0 := [SAdd PATH (b_ "/") (b_ "gw"); SAdd PATH (b_ "/c1") (b_ "h1"); SAnswer; SRecv; SWatch; SRestart; SEnd; SWatchFail] in
  let es := [SAdd PATH (b_ "/") (b_ "gw"); SAnswer; SRecv; SWatch] in
  p_phase (s_px (runs parse0 (sinit [] 100) es0)) = Fetching None /\ no_restart es /\
  (traverse [] <$> t_router (p_tables (s_px (runs parse0 (sinit [] 100) (es0 ++ es))))) = Some [([], URL (b_ "http") (b_ "gw") [] [])].
Proof.
  split; [vm_compute; reflexivity|]. split; [|vm_compute; reflexivity].
  intros He. repeat (apply elem_of_cons in He as [He|He]; [discriminate He|]). by apply elem_of_nil in He.
Qed.
