(** C145: requests that watch the routes leave nothing behind, and end when the gateway does. *)
From Coq Require Import ZArith Lia.
From stdpp Require Import gmap list.
From Verif Require Import Trace Watch_Model Watch_Spec Watch_Proofs.
Open Scope Z_scope.

(** C145 (nothing behind): the gateway keeps something for a request exactly as long as it
    is in progress. *)
Theorem C145_kept max_events h s r : happens max_events h s -> kept s r <-> in_progress h r.
Proof.
  intros I%happens_inv. unfold kept, in_progress. rewrite (i_queues _ _ I), <- (i_open _ _ I). split; [intros [H|[H|H]]; [done..|]|tauto]. destruct (i_group _ _ I r H) as (q & -> & _). eauto.
Qed.
(** C145 (cause): before the shutdown a request ends only because its connection fails. *)
Theorem C145_cause max_events h s e s' o r : happens max_events h s -> ~ done h Shutdown -> step max_events s e = (s', o) -> Ended r ∈ o -> e = Turn r false.
Proof.
  intros I%happens_inv Hd E Ho. assert (closed s = false) as Hc by (destruct (closed s) eqn:C; [by apply (i_closed _ _ I) in C|done]).
  destruct e as [l|x ok| | |]; cbn [step] in E.
  - unfold open in E. destruct (events_after s l); injection E as _ <-; apply elem_of_list_singleton in Ho; discriminate.
  - unfold turn in E. destruct (requests s !! x) as [q|] eqn:Hq; [|injection E as _ <-; by apply elem_of_nil in Ho]. destruct (i_free _ _ I x q Hc Hq) as [F _]. rewrite F, orb_false_r in E. destruct ok; cbn [negb] in E.
    + exfalso. assert (forall s0 s2 o2, loop x s0 = (s2, o2) -> Ended r ∈ o2 -> False) as L.
      { intros s0 s2 o2 L. unfold loop in L. destruct (queues s0 !! x) as [[|]|]; injection L as _ <-; intros H; try (by apply elem_of_nil in H). apply elem_of_list_singleton in H. discriminate. }
      destruct (where_ q); [|by eapply L..]. unfold enter in E. rewrite Hc in E. destruct (loop x _) as [s2 o2] eqn:L'. injection E as _ <-. apply elem_of_cons in Ho as [Ho|Ho]; [discriminate|by eapply L].
    + injection E as _ <-. apply elem_of_list_singleton in Ho as [= ->]. done.
  - injection E as _ <-. by apply elem_of_nil in Ho.
  - unfold shutdown in E. rewrite Hc in E. injection E as _ <-. by apply elem_of_nil in Ho.
  - unfold join in E. destruct (joining s); [destruct (bool_decide _)|]; injection E as _ <-; try (by apply elem_of_nil in Ho). apply elem_of_list_singleton in Ho. discriminate.
Qed.
(** C145 (silence): from the shutdown on nothing is sent any more, and no request begins to
    be served. *)
Theorem C145_silent max_events h o h2 s r b : happens max_events (h ++ (Shutdown, o) :: h2) s -> ~ seen h2 (Sends r b) /\ ~ seen h2 (Streams r).
Proof.
  intros X. change (h ++ (Shutdown, o) :: h2) with (h ++ [(Shutdown, o)] ++ h2) in X. rewrite app_assoc in X. apply exec_app in X as (m & X1 & X2).
  pose proof (happens_inv _ _ _ X1) as I. assert (closed m = true) as Hc by (apply (i_closed _ _ I); apply done_app; by right).
  split; intros H; exact (quiet_after _ _ _ _ _ _ X1 Hc X2 H).
Qed.
(** C145 (ends): after the shutdown every request is over at its next turn. *)
Theorem C145_ends max_events h s r ok s' o : happens max_events h s -> done h Shutdown -> in_progress h r -> step max_events s (Turn r ok) = (s', o) -> Ended r ∈ o.
Proof.
  intros I%happens_inv Hd Hp%(i_open _ _ I) E. apply (i_closed _ _ I) in Hd. destruct (closed_turn _ _ _ _ _ _ _ I Hd Hp E) as [_ ->]. by apply elem_of_list_singleton.
Qed.
(** C145 (waits for them): _on_shutdown returns only when all requests that had been served
    are over. *)
Theorem C145_waits max_events h s e s' o r : happens max_events h s -> step max_events s e = (s', o) -> Stopped ∈ o -> seen h (Streams r) -> seen h (Ended r).
Proof.
  intros H E Ho Hs. pose proof (happens_inv _ _ _ H) as I. assert (inv (h ++ [(e, o)]) s') as I' by (by eapply inv_step).
  destruct (i_streams _ _ I r Hs) as [D|(q & Hq & L)]; [done|exfalso].
  assert (e = Join /\ exists g, joining s = Some g /\ set_Forall (fun x => requests s !! x = None) g) as (-> & g & Hg & F).
  { destruct e as [l|x ok| | |]; cbn [step] in E.
    - unfold open in E. destruct (events_after s l); injection E as _ <-; apply elem_of_list_singleton in Ho; discriminate.
    - exfalso. unfold turn, enter, loop, finish in E. destruct (requests s !! x) as [q'|]; [|injection E as _ <-; by apply elem_of_nil in Ho]. destruct (negb ok || cancelled q'); [injection E as _ <-; apply elem_of_list_singleton in Ho; discriminate|].
      destruct (where_ q'), (closed s); cbn [set_group queues] in E; destruct (queues s !! x) as [[|]|]; injection E as _ <-; repeat (apply elem_of_cons in Ho as [Ho|Ho]; [discriminate|]); by apply elem_of_nil in Ho.
    - injection E as _ <-. by apply elem_of_nil in Ho.
    - unfold shutdown in E. destruct (closed s); injection E as _ <-; [apply elem_of_list_singleton in Ho; discriminate|by apply elem_of_nil in Ho].
    - split; [done|]. unfold join in E. destruct (joining s) as [g|]; [destruct (bool_decide _) eqn:B|]; injection E as _ <-; try (by apply elem_of_nil in Ho). exists g. split; [done|]. by apply bool_decide_eq_true in B. }
  destruct (i_join _ _ I g r Hg) as [Hc _]. destruct (i_shut _ _ I r q Hc Hq L) as (_ & g' & Hg' & Hr). assert (g' = g) as -> by congruence. pose proof (F r Hr) as N. cbn in N. congruence.
Qed.
(** C145 (returns): and it does return, as soon as each of them has had one turn. *)
Theorem C145_returns max_events h s h2 s2 s3 o : happens max_events h s -> done h Shutdown -> exec (step max_events) s h2 s2 ->
  (forall r, seen h (Streams r) -> in_progress h r -> exists ok, Turn r ok ∈ fst <$> h2) -> step max_events s2 Join = (s3, o) -> seen h Stopped \/ seen h2 Stopped \/ Stopped ∈ o.
Proof.
  intros H Hd X Ht E. pose proof (happens_inv _ _ _ H) as I. pose proof (exec_more _ _ _ _ _ H X) as H2. pose proof (happens_inv _ _ _ H2) as I2.
  assert (closed s = true) as Hc by (by apply (i_closed _ _ I)). assert (closed s2 = true) as Hc2 by (apply (i_closed _ _ I2); unfold done; rewrite fmap_app, elem_of_app; by left).
  destruct (joining s2) as [g|] eqn:Hj; [|apply (i_joined _ _ I2 Hc2) in Hj; apply seen_more in Hj; tauto].
  cbn [step] in E. unfold join in E. rewrite Hj in E. rewrite bool_decide_true in E; [injection E as _ <-; right; right; by apply elem_of_list_singleton|].
  intros r Hr. destruct (requests s2 !! r) as [q|] eqn:Hq; [exfalso|done]. pose proof (proj1 (i_open _ _ I2 r) (mk_is_Some _ _ Hq)) as [A N].
  assert (seen (h ++ h2) (Streams r)) as S by (by apply (i_join _ _ I2 g r Hj)).
  apply seen_more in S as [S|S]; [|exact (quiet_after _ _ _ _ _ _ H Hc X S)].
  assert (in_progress h r) as P by (split; [by apply (i_reg _ _ I)|intros D; apply N; apply seen_more; by left]). destruct (Ht r S P) as [ok T].
  apply N. apply seen_more. right. apply (turn_ends _ _ _ _ _ _ _ H Hc X T). by apply (i_open _ _ I).
Qed.
(** C145 (backlog): but for a client that does not read, any number of events is kept. *)
Theorem C145_backlog_refuted : forall max_events n, exists h s r, happens max_events h s /\ in_progress h r /\ (n <= length (backlog s r))%nat.
Proof.
  intros me n. assert (exists h s, happens me h s /\ seen h (Accepted 1%positive) /\ ~ seen h (Ended 1%positive) /\ (exists q, queues s !! 1%positive = Some q /\ length (concat q) = n)) as (h & s & H & A & N & q & Hq & L).
  { induction n as [|n (h & s & H & A & N & q & Hq & L)].
    - eexists [(Open 0, [Accepted 1%positive])], _. split; [eapply exec_cons; [reflexivity|apply exec_nil]|]. split; [apply elem_of_list_singleton; done|]. split; [intros D; apply elem_of_list_singleton in D; discriminate|]. eexists. split; [reflexivity|done].
    - exists (h ++ [(Append, [])]), (append_event me s). split; [eapply exec_more; [done|]; econstructor; [reflexivity|constructor]|]. split; [apply seen_app; by left|]. split; [intros [D|D]%seen_app; [done|by apply elem_of_nil in D]|].
      exists (q ++ [[next s]]). cbn [append_event queues]. rewrite lookup_fmap, Hq. split; [done|]. rewrite concat_app, app_length, L. cbn. lia. }
  exists h, s, 1%positive. split; [done|]. split; [done|]. unfold backlog. rewrite Hq. cbn. lia.
Qed.
Print Assumptions C145_kept.
Print Assumptions C145_cause.
Print Assumptions C145_silent.
Print Assumptions C145_ends.
Print Assumptions C145_waits.
Print Assumptions C145_returns.
Print Assumptions C145_backlog_refuted.

(** Two proxies watch, one of them is being sent an event; a third request has not been
    prepared yet when the gateway shuts down. *)
Definition ex : list event := [Open 0; Open 0; Turn 1 true; Turn 2 true; Append; Turn 1 true; Open 1; Shutdown; Turn 3 true; Turn 1 true; Join; Turn 2 true; Join; Append].
Example C145_example : exists h s, happens 100 h s /\ fst <$> h = ex /\ concat (snd <$> h) =
  [Accepted 1; Accepted 2; Streams 1; Streams 2; Sends 1 [1%Z]; Accepted 3; Ended 3; Ended 1; Ended 2; Stopped]%positive /\ queues s = ∅ /\ closed s = true.
Proof.
  exists (Trace.run (step 100) init ex).2, (Trace.run (step 100) init ex).1. split; [apply (run_exec _ _ ex); apply surjective_pairing|].
  split; [vm_compute; reflexivity|]. split; [vm_compute; reflexivity|]. split; [apply (bool_decide_unpack _); vm_compute; exact I|vm_compute; reflexivity].
Qed.
