(** Proofs for C106: catching up. *)
From Coq Require Import Ascii String ZArith NArith Lia.
From stdpp Require Import prelude gmap.
From Verif Require Import Router_Model ProxyLog_Model ProxyLog_Spec ProxyLog_Proofs Manifest_Model Addr_Model Wire_Model Wire_Spec Wire_Proofs Wire_Proofs2.
Local Open Scope Z_scope.

Section px.
  Context (parse : bytes -> option goURL).
  Local Notation runs := (runs parse).
  Local Notation wire_runs := (wire_runs parse).
  Lemma wire_app s es1 es2 : wire_runs s (es1 ++ es2) = wire_runs (wire_runs s es1) es2.
  Proof. apply fold_left_app. Qed.
  Lemma wire_is_run es : forall s, exists es', wire_runs s es = runs s es' /\ forall e, e ∈ es' -> e ∈ es \/ e = SEnd.
  Proof.
    induction es as [|e es IH]; intros s; [exists []; split; [done|]; by intros e ?%elem_of_nil|]. cbn [Wire_Model.wire_runs fold_left].
    assert (exists e', wire_step parse s e = step parse s e' /\ (e' = e \/ e' = SEnd)) as (e' & -> & He).
    { unfold wire_step. destruct e; try (eexists; split; [reflexivity|by left]). destruct (p_phase (s_px s)) as [a| |w [|evs str]]; try (eexists; split; [reflexivity|by left]).
      destruct (fits evs); [eexists; split; [reflexivity|by left]|eexists; split; [reflexivity|by right]]. }
    destruct (IH (step parse s e')) as (es' & E & H). exists (e' :: es'). split; [exact E|]. intros x [->|Hx]%elem_of_cons.
    - destruct He as [->| ->]; [left; left|by right].
    - destruct (H x Hx) as [H1| ->]; [left; by right|by right].
  Qed.
  Lemma good_less prefix es es' : good_history parse prefix es -> (forall e, e ∈ es' -> e ∈ es \/ e = SEnd) -> good_history parse prefix es'.
  Proof.
    intros Hg H. apply (good_sub parse prefix es); [done|]. intros k n t X. by destruct (H _ X).
  Qed.
  Lemma catch_up prefix mx es : 0 <= mx -> good_history parse prefix es -> no_restart es ->
    let s := wire_runs (sinit prefix mx) es in p_phase (s_px s) = Rewatch ->
    (forall evs, events_after (p_last (s_px s)) (s_gw s) = Some evs -> fits evs = true) ->
    exists es', Forall quiet es' /\ let s' := wire_runs s es' in same_log (s_gw s) (s_gw s') /\ in_sync parse (s_px s') (s_gw s').
  Proof.
    intros Hmx Hg Hn s Hph Hfit. destruct (wire_is_run es (sinit prefix mx)) as (es0 & E0 & H0). fold s in E0.
    assert (Hg0 : good_history parse prefix es0) by (by apply (good_less prefix es)).
    assert (Hn0 : no_restart es0) by (intros X; destruct (H0 _ X); [by apply Hn|done]).
    assert (G : forall es1, (forall e, e ∈ es1 -> match e with SAdd _ _ _ | SRestart => False | _ => True end) -> good_history parse prefix (es0 ++ es1) /\ no_restart (es0 ++ es1)).
    { intros es1 H1. split.
      - apply (good_sub parse prefix es0); [done|]. intros k n t [X|X]%elem_of_app; [done|by apply H1 in X].
      - intros [X|X]%elem_of_app; [done|by apply H1 in X]. }
    destruct (sys_inv parse prefix mx es0 Hmx Hg0 Hn0) as (L & [Hgi _ _ _]). rewrite <- E0 in Hgi.
    destruct (events_after (p_last (s_px s)) (s_gw s)) as [evs|] eqn:Ev.
    - specialize (Hfit _ eq_refl). destruct s as [g [ph la tb]] eqn:Es. cbn [s_gw s_px p_phase p_last p_tables] in *. subst ph.
      set (w := g_wnext g) in *. destruct evs as [|e evs].
      + exists [SWatch]. split; [by repeat constructor|]. cbn [Wire_Model.wire_runs fold_left wire_step s_px p_phase]. cbn [ProxyLog_Model.step s_gw s_px p_phase p_last gstep]. rewrite Ev. cbn [with_phase with_gw s_gw s_px p_last p_tables]. split; [done|].
        destruct (G [SWatch]) as [G1 G2]. { intros x [->|Hx]%elem_of_cons; [done|by apply elem_of_nil in Hx]. }
        pose proof (drained_in_sync parse prefix mx (es0 ++ [SWatch]) w Hmx G1 G2) as D. cbn zeta in D. rewrite runs_app, <- E0 in D.
        cbn [ProxyLog_Model.runs fold_left ProxyLog_Model.step s_gw s_px p_phase p_last gstep] in D. rewrite Ev in D. cbn [with_phase with_gw s_gw s_px p_last p_tables p_phase g_watch] in D.
        apply D; [done|]. apply lookup_insert.
      + exists [SWatch; SWrite w; SRead]. split; [by repeat constructor|]. set (evs' := e :: evs) in *.
        set (g1 := GW (g_prefix g) (g_max g) (g_routes g) (g_offset g) (g_events g) (g_next g) (<[w := [evs']]> (g_watch g)) (S w)).
        assert (E1 : step parse (Sys g (PX Rewatch la tb)) SWatch = Sys g1 (PX (Watching w []) la tb)).
        { cbn [ProxyLog_Model.step s_gw s_px p_phase p_last gstep]. by rewrite Ev. }
        set (g2 := set_watch (<[w := []]> (g_watch g1)) g1).
        assert (E2 : step parse (Sys g1 (PX (Watching w []) la tb)) (SWrite w) = Sys g2 (PX (Watching w [evs']) la tb)).
        { cbn [ProxyLog_Model.step s_gw s_px p_phase p_last gstep]. unfold g1 at 1. cbn [g_watch]. rewrite lookup_insert. cbn [with_phase with_gw s_gw s_px p_last p_tables p_phase]. by rewrite decide_True. }
        assert (E3 : exists la' tb', step parse (Sys g2 (PX (Watching w [evs']) la tb)) SRead = Sys g2 (PX (Watching w []) la' tb')).
        { cbn [ProxyLog_Model.step s_gw s_px p_phase]. destruct (last evs') as [x|] eqn:El; [by eexists _, _|by apply last_None in El]. }
        destruct E3 as (la' & tb' & E3).
        assert (Ew : wire_runs (Sys g (PX Rewatch la tb)) [SWatch; SWrite w; SRead] = Sys g2 (PX (Watching w []) la' tb')).
        { unfold Wire_Model.wire_runs. cbn [fold_left wire_step s_px p_phase]. rewrite E1. cbn [s_px p_phase]. rewrite E2. cbn [s_px p_phase]. rewrite Hfit. exact E3. }
        cbn zeta. rewrite Ew. cbn [s_gw s_px]. split; [done|].
        destruct (G [SWatch; SWrite w; SRead]) as [G1 G2]. { intros x Hx. repeat (apply elem_of_cons in Hx as [->|Hx]; [done|]). by apply elem_of_nil in Hx. }
        pose proof (drained_in_sync parse prefix mx (es0 ++ [SWatch; SWrite w; SRead]) w Hmx G1 G2) as D. cbn zeta in D. rewrite runs_app, <- E0 in D.
        unfold ProxyLog_Model.runs in D. cbn [fold_left] in D. rewrite E1, E2, E3 in D. apply D; [done|]. apply lookup_insert.
    - destruct s as [g [ph la tb]] eqn:Es. cbn [s_gw s_px p_phase p_last p_tables] in *. subst ph. exists [SWatch; SAnswer; SRecv]. split; [by repeat constructor|].
      assert (E1 : step parse (Sys g (PX Rewatch la tb)) SWatch = Sys g (PX (Fetching None) la tb)).
      { cbn [ProxyLog_Model.step s_gw s_px p_phase p_last gstep]. by rewrite Ev. }
      destruct (G [SWatch]) as [G1 G2]. { intros x [->|Hx]%elem_of_cons; [done|by apply elem_of_nil in Hx]. }
      assert (F : runs (sinit prefix mx) (es0 ++ [SWatch]) = Sys g (PX (Fetching None) la tb)) by (rewrite runs_app, <- E0; exact E1).
      pose proof (fetch_in_sync parse prefix mx (es0 ++ [SWatch]) Hmx G1) as D. cbn zeta in D. rewrite F in D. specialize (D ltac:(by eexists)). rewrite runs_app, F in D.
      unfold ProxyLog_Model.runs in D. cbn [fold_left] in D.
      change (step parse (Sys g (PX (Fetching None) la tb)) SFetchFail) with (Sys g (PX (Fetching None) la tb)) in D.
      unfold Wire_Model.wire_runs. cbn [fold_left wire_step s_px p_phase]. rewrite E1. split; [done|exact D].
  Qed.

  (** How long a message is. *)
  Lemma join_length sep B l : Forall (fun x => length x <= B)%nat l -> (length (join sep l) <= length l * (B + length sep))%nat.
  Proof.
    induction 1 as [|x l Hx Hl IH]; [done|]. cbn [join]. destruct l as [|y l]; [cbn [length]; lia|]. rewrite !app_length. cbn [length] in *. lia.
  Qed.
  Lemma message_length B evs : Forall (fun e => length (dumps (event_json e)) <= B)%nat evs -> (length (dumps (msg_json evs)) <= length evs * (B + 2) + 14)%nat.
  Proof.
    intros H. cbn [msg_json dumps map join fst snd app]. change (length (dump_str (t_ "events") ++ b_ ": " ++ ?x)) with (length x).
    assert (L : (length (join (b_ ", ") (map dumps (map event_json evs))) <= length evs * (B + 2))%nat).
    { pose proof (join_length (b_ ", ") B (map dumps (map event_json evs))) as J. rewrite !map_length in J. apply J. rewrite map_map. by apply Forall_fmap. }
    set (j := join (b_ ", ") (map dumps (map event_json evs))) in *. cbn [length]. rewrite !app_length. cbn [length]. rewrite app_length.
    change (length (dump_str (t_ "events"))) with 8%nat. change (length (b_ ": ")) with 2%nat. change (length (b_ "]")) with 1%nat. change (length (b_ "}")) with 1%nat. lia.
  Qed.
  Lemma small_log prefix mx es B : 2 <= mx -> good_history parse prefix es -> no_restart es ->
    let s := wire_runs (sinit prefix mx) es in
    (forall e, e ∈ g_events (s_gw s) -> Z.of_nat (length (dumps (event_json (to_wire e)))) <= B) -> mx * (B + 2) + 14 <= 65535 ->
    forall n evs, events_after n (s_gw s) = Some evs -> fits evs = true.
  Proof.
    intros Hmx Hg Hn s HB Hsize n evs He. destruct (wire_is_run es (sinit prefix mx)) as (es0 & E0 & H0). fold s in E0.
    assert (Hg0 : good_history parse prefix es0) by (by apply (good_less prefix es)).
    assert (Hn0 : no_restart es0) by (intros X; destruct (H0 _ X); [by apply Hn|done]).
    destruct (sys_inv parse prefix mx es0 ltac:(lia) Hg0 Hn0) as (L & [Hgi _ _ _]). rewrite <- E0 in Hgi. pose proof (gi_bound _ _ _ _ Hgi Hmx) as Hb.
    unfold events_after in He. destruct (0 <=? n - g_offset (s_gw s)) eqn:En; [|done]. injection He as <-. unfold pyslice. rewrite En. set (k := Z.to_nat _).
    unfold fits. apply Nat.ltb_lt. unfold max_token. destruct (drop k (g_events (s_gw s))) as [|e l] eqn:Ed.
    { apply Nat.ltb_lt. vm_compute. done. }
    assert (HB0 : 0 <= B).
    { assert (e ∈ g_events (s_gw s)) as X. { rewrite <- (take_drop k). apply elem_of_app. right. rewrite Ed. left. } apply HB in X. lia. }
    rewrite <- Ed. pose proof (message_length (Z.to_nat B) (map to_wire (drop k (g_events (s_gw s))))) as M.
    rewrite map_length, drop_length in M. assert (M' : Forall (fun e => length (dumps (event_json e)) <= Z.to_nat B)%nat (map to_wire (drop k (g_events (s_gw s))))).
    { apply Forall_forall. intros y Hy. apply elem_of_list_fmap in Hy as (x & -> & Hx). assert (x ∈ g_events (s_gw s)) as X%HB; [|lia]. rewrite <- (take_drop k). apply elem_of_app. by right. }
    specialize (M M').
    assert (Z.of_nat (length (g_events (s_gw s)) - k) * (B + 2) <= mx * (B + 2)) by (apply Z.mul_le_mono_nonneg_r; lia). lia.
  Qed.

  (** A message that is too long. *)
  Definition loop (s0 : sys) (evs : list gevent) (s : sys) : Prop :=
    same_log (s_gw s0) (s_gw s) /\ p_last (s_px s) = p_last (s_px s0) /\ p_tables (s_px s) = p_tables (s_px s0) /\
    match p_phase (s_px s) with
    | Fetching _ => False
    | Rewatch => True
    | Watching w str => (w < g_wnext (s_gw s))%nat /\
        (str = [] /\ (g_watch (s_gw s) !! w = Some [evs] \/ g_watch (s_gw s) !! w = Some [] \/ g_watch (s_gw s) !! w = None) \/
         str = [evs] /\ (g_watch (s_gw s) !! w = Some [] \/ g_watch (s_gw s) !! w = None))
    end.
  Lemma loop_step s0 evs s e : events_after (p_last (s_px s0)) (s_gw s0) = Some evs -> fits evs = false -> quiet e -> loop s0 evs s -> loop s0 evs (wire_step parse s e).
  Proof.
    intros Hev Hfit Hq H. assert (Hne : evs <> []) by (intros ->; vm_compute in Hfit; done).
    pose proof H as (L & P1 & P2 & Ph). pose proof L as (L1 & L2 & L3 & L4 & L5 & L6). destruct s as [g [ph la tb]]. cbn [s_gw s_px p_phase p_last p_tables] in *. subst la tb.
    assert (Ev : events_after (p_last (s_px s0)) g = Some evs) by (unfold events_after in *; by rewrite L4, L5).
    destruct e; cbn [quiet] in Hq; try contradiction; cbn [wire_step s_px p_phase].
    - (* another watcher *) cbn [step gstep fst with_gw s_gw s_px]. destruct (events_after last_id g) as [l|] eqn:El; cbn [fst]; [|exact H]. split; [exact L|]. split; [reflexivity|]. split; [reflexivity|]. cbn [with_gw with_phase s_px s_gw p_phase p_last p_tables g_wnext g_watch].
      destruct ph as [?| |w str]; [done|done|]. destruct Ph as [Hw Ph]. split; [lia|]. rewrite lookup_insert_ne by lia. exact Ph.
    - (* a line is written *) cbn [step gstep s_gw s_px p_phase]. destruct (g_watch g !! w) as [[|x q]|] eqn:Ew; [exact H| |exact H]. cbn [with_gw s_px s_gw with_phase p_phase].
      destruct ph as [?| |w' str]; [done|exact (conj L (conj eq_refl (conj eq_refl I)))|]. destruct Ph as [Hw Ph]. destruct (decide (w = w')) as [->|Hne'].
      + split; [exact L|]. split; [reflexivity|]. split; [reflexivity|]. cbn [with_phase with_gw p_last p_tables s_px s_gw p_phase set_watch g_wnext g_watch]. split; [done|]. rewrite lookup_insert.
        destruct Ph as [[-> [X|[X|X]]]|[_ [X|X]]]; rewrite Ew in X; try done. injection X as -> ->. right. split; [done|by left].
      + split; [exact L|]. split; [reflexivity|]. split; [reflexivity|]. cbn [with_phase with_gw p_last p_tables s_px s_gw p_phase set_watch g_wnext g_watch]. split; [done|]. by rewrite lookup_insert_ne.
    - (* a stream is dropped *) cbn [step gstep fst with_gw s_gw s_px]. split; [exact L|]. split; [reflexivity|]. split; [reflexivity|]. cbn [with_gw with_phase s_px s_gw p_phase p_last p_tables set_watch g_wnext g_watch].
      destruct ph as [?| |w' str]; [done|done|]. destruct Ph as [Hw Ph]. split; [done|]. destruct (decide (w = w')) as [->|Hne'].
      + rewrite lookup_delete. destruct Ph as [[-> _]|[-> _]]; [left|right]; auto.
      + by rewrite lookup_delete_ne.
    - (* answer *) cbn [step s_px p_phase]. by destruct ph as [?| |w' str].
    - (* table *) cbn [step s_px p_phase]. by destruct ph as [?| |w' str].
    - (* watch *) cbn [step s_px p_phase s_gw p_last]. destruct ph as [?| |w' str]; [done| |exact H]. cbn [gstep]. rewrite Ev. cbn [with_phase with_gw s_gw s_px p_last p_tables].
      split; [exact L|]. split; [reflexivity|]. split; [reflexivity|]. cbn [with_gw with_phase s_px s_gw p_phase p_last p_tables g_wnext g_watch]. split; [lia|]. left. split; [done|]. left. rewrite lookup_insert. by destruct evs.
    - (* read *) destruct ph as [?| |w' [|x str]]; [done|exact H|exact H|]. destruct Ph as [Hw [[X _]|[X _]]]; [done|]. injection X as -> ->. rewrite Hfit. exact (conj L (conj eq_refl (conj eq_refl I))).
    - (* end *) cbn [step s_px p_phase]. destruct ph as [?| |w' str]; [done|exact H|]. exact (conj L (conj eq_refl (conj eq_refl I))).
  Qed.
  Lemma stuck s0 evs es : p_phase (s_px s0) = Rewatch -> events_after (p_last (s_px s0)) (s_gw s0) = Some evs -> fits evs = false -> Forall quiet es ->
    let s := wire_runs s0 es in same_log (s_gw s0) (s_gw s) /\ p_last (s_px s) = p_last (s_px s0) /\ p_tables (s_px s) = p_tables (s_px s0).
  Proof.
    intros Hph Hev Hfit Hq. cbn zeta. assert (loop s0 evs (wire_runs s0 es)) as (H1 & H2 & H3 & _); [|done].
    assert (forall s, loop s0 evs s -> loop s0 evs (wire_runs s es)) as G.
    { induction Hq as [|e es He _ IH]; intros s H; [done|]. cbn [Wire_Model.wire_runs fold_left]. apply IH. by apply loop_step. }
    apply G. split; [unfold same_log; tauto|]. split; [reflexivity|]. split; [reflexivity|]. by rewrite Hph.
  Qed.
End px.
(** For examples. *)
Lemma no_restart_check es : forallb (fun e => match e with SRestart => false | _ => true end) es = true -> no_restart es.
Proof. intros H Hx. rewrite forallb_forall in H. apply elem_of_list_In in Hx. by apply H in Hx. Qed.
