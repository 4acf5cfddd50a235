(** When database calls fail: every event keeps the invariant. *)
From Coq Require Import ZArith Lia.
From stdpp Require Import prelude gmap.
From Verif Require Import Trace WorkQueue_Model WorkQueue_Proofs Router_Model Gateway_Model Gateway_Inv Gateway_Steps Gateway_Steps2
  Gateway_Steps3 Gateway_Steps4 Fault_Model Fault_Ok Fault_Good.
Open Scope Z_scope.

(** * More functions that do not look at delayed items and flags *)
Lemma norm_ready cf c d : norm c = norm d -> ready_to_close cf c = ready_to_close cf d.
Proof. intros (H1 & H2 & H3 & H4 & H5 & H6)%norm_inv. unfold ready_to_close, all_at_least, c_status. rewrite ?H2, ?H6. done. Qed.
Lemma N_is_ready cf n s s1 : N s = N s1 -> is_ready cf n s = is_ready cf n s1.
Proof.
  intros H. unfold is_ready. destruct (objs s !! n) as [c|] eqn:Hc.
  - destruct (N_obj _ _ _ _ H Hc) as (c1 & -> & E). symmetry. apply norm_ready. done.
  - rewrite (N_none _ _ _ H Hc). done.
Qed.
Lemma N_get_worker n w s s1 : N s = N s1 -> get_worker n w s = get_worker n w s1.
Proof.
  intros H. unfold get_worker. destruct (objs s !! n) as [c|] eqn:Hc.
  - destruct (N_obj _ _ _ _ H Hc) as (c1 & -> & E). simpl. apply norm_inv in E as (_ & _ & _ & _ & _ & ->). done.
  - rewrite (N_none _ _ _ H Hc). done.
Qed.
Lemma rest_if cf n w s : exists b, worker_stopped_rest cf n w s = if b : bool then qput (n, None) s else s.
Proof.
  unfold worker_stopped_rest. destruct (objs s !! n) as [c|]; [|by exists false]. destruct (get_worker n w s) as [x|]; [|by exists false].
  destruct (ready_to_close cf c); [by exists true|]. destruct (decide _); [by exists true|by exists false].
Qed.
Lemma resp_rest cf n w : resp (worker_stopped_rest cf n w).
Proof.
  intros s s1 H. unfold worker_stopped_rest. rewrite (N_get_worker n w s s1 H).
  destruct (objs s !! n) as [c|] eqn:Hc.
  - destruct (N_obj _ _ _ _ H Hc) as (c1 & -> & E). rewrite (norm_ready cf c1 c E). apply norm_inv in E as (_ & E & _).
    unfold c_target. rewrite E. destruct (get_worker n w s1); [|done]. destruct (ready_to_close cf c); [apply resp_qput; done|].
    destruct (decide _); [apply resp_qput; done|done].
  - rewrite (N_none _ _ _ H Hc). done.
Qed.
Lemma resp_worker_stopped n w now : resp (worker_stopped n w now).
Proof. apply resp_update_worker. Qed.
Lemma resp_ready n : resp (upd_obj n (cset_ready true)).
Proof. apply resp_upd_obj, gnorm_ready. Qed.
Lemma resp_closing cf n c : resp (cluster_to_closing cf n c).
Proof.
  intros s s1 H. unfold cluster_to_closing. apply resp_ready. set (ws := map w_name _).
  assert (N (update_cluster n (rset_status CLOSING) (qputs (map (fun w => (n, Some w)) ws) (update_workers n ws (wset_target (if bulk cf then CLOSING else STOPPED)) s)))
        = N (update_cluster n (rset_status CLOSING) (qputs (map (fun w => (n, Some w)) ws) (update_workers n ws (wset_target (if bulk cf then CLOSING else STOPPED)) s1)))) as E.
  { apply resp_update_cluster, resp_qputs, resp_update_workers. done. }
  destruct ws; [apply resp_qput|]; exact E.
Qed.
Lemma N_stopped_ws (s s1 : gw) n c : N s = N s1 -> objs s !! n = Some c -> exists c1, objs s1 !! n = Some c1 /\ c_workers c1 = c_workers c /\
  c_row c1 = c_row c /\ c_proxied c1 = c_proxied c /\ c_fails c1 = c_fails c /\ norm c1 = norm c.
Proof.
  intros H Hc. destruct (N_obj _ _ _ _ H Hc) as (c1 & H1 & E). exists c1. split; [done|].
  pose proof (norm_inv _ _ E) as (_ & ? & _ & ? & ? & ?). auto.
Qed.
Lemma resp_cluster_stopped n now : resp (cluster_stopped n now).
Proof.
  intros s s1 H. unfold cluster_stopped. destruct (objs s !! n) as [c|] eqn:Hc.
  - destruct (N_stopped_ws _ _ _ _ H Hc) as (c1 & -> & -> & _). apply resp_upd_obj; [apply gnorm_flags|].
    apply resp_update_cluster, resp_update_workers. done.
  - rewrite (N_none _ _ _ H Hc). done.
Qed.
Lemma resp_create_workers cf k n now : resp (create_workers cf k n now).
Proof.
  induction k as [|k IH]; intros s s1 H; [done|]. cbn [create_workers].
  pose proof (resp_create_worker cf n now s s1 H) as E. cbv beta in E. pose proof (N_rest _ _ H) as (_ & _ & _ & _ & _ & Hu & _).
  destruct (create_worker cf n now s) as [w t] eqn:E1, (create_worker cf n now s1) as [w1 t1] eqn:E2. cbn [snd] in E.
  assert (w1 = w) as ->.
  { unfold create_worker in E1, E2. injection E1. injection E2. intros. congruence. }
  apply IH. apply resp_qput. exact E.
Qed.
Lemma resp_check_scale cf n now : resp (check_scale cf n now).
Proof.
  intros s s1 H. unfold check_scale. destruct (objs s !! n) as [c|] eqn:Hc.
  - destruct (N_stopped_ws _ _ _ _ H Hc) as (c1 & -> & E1 & E2 & _ & E3 & _). unfold active_workers. rewrite E1, E2, E3. destruct (decide _).
    + apply resp_qput, resp_update_cluster. done.
    + apply resp_create_workers. done.
  - rewrite (N_none _ _ _ H Hc). done.
Qed.
Lemma N_flag n g s : (forall c, norm (g c) = norm c) -> N (upd_obj n g s) = N s.
Proof.
  intros Hg. apply N_intro; [|done|done]. simpl. apply map_eq. intros i. rewrite !lookup_fmap.
  destruct (decide (n = i)) as [<-|]; [|rewrite lookup_alter_ne by done; done].
  rewrite lookup_alter. destruct (objs s !! n); simpl; [|done]. f_equal. apply Hg.
Qed.

Section steps.
Context (cf : cfg) (strict : bool) (s0 : gw).
Hypothesis Hrow0 : forall n c, objs s0 !! n = Some c -> row_ok (c_row c).
Notation Good := (Gateway_Steps.Good cf s0).
Notation Ok := (Ok cf strict s0).
Notation fok := (fok strict).
Local Notation Ok_put := (Fault_Ok.Ok_put cf strict s0 Hrow0).
Local Notation Ok_puts := (Fault_Ok.Ok_puts cf strict s0 Hrow0).
Local Notation Ok_finish := (Fault_Ok.Ok_finish cf strict s0 Hrow0).
Local Notation Ok_backoff := (Fault_Ok.Ok_backoff cf strict s0 Hrow0).
Local Notation Ok_lift := (Fault_Ok.Ok_lift cf strict s0 Hrow0).

Lemma Ok_ghost cur X s : Ok cur X s -> exists s1, N s1 = N s /\ Good cur X s1.
Proof.
  unfold Fault_Ok.Ok. destruct strict; [eauto|]. intros (s1 & H1 & H2). exists s1. split; [done|].
  eapply Good_more; [|exact H2]. apply empty_subseteq.
Qed.
Lemma Ok_to f cur X cur' X' s : (forall s1, N s1 = N s -> N (f s1) = N (f s)) ->
  (forall s1, N s1 = N s -> Good cur X s1 -> Good cur' X' (f s1)) -> Ok cur X s -> Ok cur' X' (f s).
Proof.
  intros Hr Hf. unfold Fault_Ok.Ok. destruct strict; [apply Hf; done|]. intros (s1 & HN & HG).
  destruct (absorb cf s0 cur' X' (f s1)) as (s2 & HN2 & HG2).
  - apply Hf; [done|]. eapply Good_more; [|exact HG]. apply empty_subseteq.
  - exists s2. split; [|done]. rewrite HN2. auto.
Qed.
Lemma Ok_flag cur X X' n g s : strict = false -> (forall c, norm (g c) = norm c) -> Ok cur X (upd_obj n g s) -> Ok cur X' s.
Proof. intros Hs Hg HO. eapply Ok_loose; [done|exact HO|]. symmetry. apply N_flag. done. Qed.

(** * Rules *)
Definition post (Q E : gw -> Prop) (r : res) : Prop := fok r.1.2 /\ if r.2 then Q r.1.1 else E r.1.1.
Lemma post_weak (Q Q' E E' : gw -> Prop) r : post Q E r -> (forall s, Q s -> Q' s) -> (forall s, E s -> E' s) -> post Q' E' r.
Proof. unfold post. intros [H1 H2] HQ HE. split; [done|]. destruct r.2; auto. Qed.
Lemma post_pure (Q E : gw -> Prop) f s fs : fok fs -> Q (f s) -> post Q E (pure f s fs).
Proof. done. Qed.
Lemma post_seq (Q1 Q E : gw -> Prop) a b s fs : post Q1 E (a s fs) -> (forall s1 fs1, fok fs1 -> Q1 s1 -> post Q E (b s1 fs1)) ->
  post Q E ((a ;> b) s fs).
Proof.
  intros Ha Hb. unfold seq. destruct (a s fs) as [[s1 fs1] []] eqn:E1; destruct Ha as [H1 H2]; simpl in *; [apply Hb; done|]. split; done.
Qed.
Lemma post_call (Q E : gw -> Prop) f s fs : fok fs -> Q (f s) -> E s ->
  (strict = false -> forall dc dw, E (set_db_w dw (set_db_c dc (f s)))) -> post Q E (call f s fs).
Proof.
  intros Hf HQ HE HL. destruct (call f s fs) as [[s' fs'] b] eqn:Hc.
  destruct (call_inv strict s0 f s fs s' fs' b Hc Hf) as (Hf' & [(-> & ->)|[(-> & ->)|(-> & Hs & dc & dw & ->)]]); (split; [done|]); simpl; auto.
Qed.
Lemma post_call_for {A} (xs : list A) (Q E : gw -> Prop) f s fs : fok fs -> (xs = [] -> f s = s) -> Q (f s) -> E s ->
  (strict = false -> forall dc dw, E (set_db_w dw (set_db_c dc (f s)))) -> post Q E (call_for xs f s fs).
Proof.
  intros Hf Hn HQ HE HL. destruct xs; [|apply post_call; done]. simpl. apply post_pure; [done|]. rewrite <- Hn; done.
Qed.
Lemma Ok_db cur X X' s dc dw : strict = false -> Ok cur X s -> Ok cur X' (set_db_w dw (set_db_c dc s)).
Proof.
  intros Hs HO. eapply Ok_loose; [done|apply (Ok_same cf strict s0 cur X s (set_db_w dw (set_db_c dc s))); done|done].
Qed.
(** The rule for a call that takes the invariant to the invariant. *)
Lemma post_ok f cur X X' Y s fs : fok fs -> resp f -> (forall s1, N s1 = N s -> Good cur X s1 -> Good cur X' (f s1)) -> Ok cur X s -> X ⊆ Y ->
  post (fun s' => s' = f s /\ Ok cur X' s') (Ok cur Y) (call f s fs).
Proof.
  intros Hf Hr HG HO HX. assert (Ok cur X' (f s)) as HO' by (eapply Ok_lift; eauto).
  apply post_call; [done|done|eapply Ok_more; eauto|]. intros Hs dc dw. eapply Ok_db; eauto.
Qed.
Lemma post_ok_for {A} (xs : list A) f cur X X' Y s fs : fok fs -> resp f -> (xs = [] -> f s = s) ->
  (forall s1, N s1 = N s -> Good cur X s1 -> Good cur X' (f s1)) -> Ok cur X s -> X ⊆ Y ->
  post (fun s' => s' = f s /\ Ok cur X' s') (Ok cur Y) (call_for xs f s fs).
Proof.
  intros Hf Hr Hn HG HO HX. assert (Ok cur X' (f s)) as HO' by (eapply Ok_lift; eauto).
  apply post_call_for; [done|done|done|eapply Ok_more; eauto|]. intros Hs dc dw. eapply Ok_db; eauto.
Qed.
Lemma post_settle lt x r : post (fun s' => Ok None ∅ (finish x s')) (Ok (Some x) {[x]}) r -> Ok None ∅ (settle lt x r).1.
Proof. destruct r as [[s1 fs1] []]; intros [_ H]; simpl in *; [done|]. apply Ok_backoff; done. Qed.
Lemma post_settle' lt x r : post (Ok (Some x) ∅) (Ok (Some x) {[x]}) r -> Ok None ∅ (settle lt x r).1.
Proof. intros H. apply post_settle. eapply post_weak; [exact H| |done]. intros s'. apply Ok_finish. Qed.
Lemma post_logged r : post (Ok None ∅) (Ok None ∅) r -> Ok None ∅ (logged r).1.
Proof. destruct r as [[s1 fs1] []]; intros [_ H]; done. Qed.
Lemma post_answer r : post (Ok None ∅) (Ok None ∅) r -> Ok None ∅ (answer r).1.
Proof. destruct r as [[s1 fs1] []]; intros [_ H]; done. Qed.

(** * API *)
Lemma fstart_ok user info mx now fs s : fok fs -> Ok None ∅ s -> Ok None ∅ (fstart_cluster cf user info mx now fs s).1.
Proof.
  intros Hf HO. unfold fstart_cluster.
  pose proof (post_ok _ None ∅ {[(uuid s, None)]} ∅ s fs Hf (resp_create_cluster cf user info mx now)) as [_ H]; [|done|done|].
  - intros s1 HN HG. pose proof (N_rest _ _ HN) as (_ & _ & _ & _ & _ & <- & _). apply create_cluster_good; done.
  - destruct (call _ s fs) as [[s1 fs1] []]; simpl in *; [|done]. destruct H as [_ H]. apply Ok_put. rewrite (right_id_L ∅ (∪)). done.
Qed.
Lemma N_fact (P : cluster -> Prop) n s s1 : (forall c d, norm c = norm d -> P c -> P d) -> N s1 = N s ->
  (forall c, objs s !! n = Some c -> P c) -> forall c, objs s1 !! n = Some c -> P c.
Proof. intros HP HN Hs c Hc. destruct (N_obj _ _ _ _ HN Hc) as (d & Hd & E). eapply HP; [exact E|auto]. Qed.
Lemma fstop_ok n b fs s : fok fs -> Ok None ∅ s -> Ok None ∅ (fstop_cluster n b fs s).1.
Proof.
  intros Hf HO. unfold fstop_cluster, lookup_cluster. case_decide; [|done]. destruct (objs s !! n) as [c|] eqn:Hn; [|done].
  destruct (jge RUNNING (c_target c)) eqn:Hj; [|done]. apply post_answer.
  eapply post_seq; [eapply (post_ok _ None ∅ ({[(n, None)]} ∪ ∅) ∅)|]; [done|apply resp_update_cluster| |done|done|].
  - intros s1 HN HG. apply Good_ctarget; [done| |done]. intros d Hd. destruct b; [auto|right; split; [done|]].
    destruct (N_obj _ _ _ _ HN Hd) as (c' & Hc' & E). assert (c' = c) as -> by congruence.
    pose proof (g_cok _ _ _ _ (proj1 HG) _ _ Hd) as Hc. apply norm_inv in E as (_ & E & _). unfold c_target in *. rewrite E in Hj.
    destruct (ro_tgt _ (k_row _ _ _ _ _ _ Hc)) as [E2|[E2|E2]]; rewrite E2 in *; done.
  - intros s1 fs1 Hf1 [_ H1]. apply post_pure; [done|]. apply Ok_put. done.
Qed.

(** * Heartbeats *)
Lemma fheartbeat_ok n m now fs s : fok fs -> Ok None ∅ s -> Ok None ∅ (fheartbeat n m now fs s).1.
Proof.
  intros Hf HO. unfold fheartbeat, lookup_cluster. case_decide; [|done]. destruct (objs s !! n) as [c|] eqn:Hn; [|done].
  destruct (jlt RUNNING (c_target c)) eqn:Hj; [done|].
  assert (row_ok (c_row c) /\ NoDup (names c)) as [Hro Hnd].
  { destruct (Ok_ghost _ _ _ HO) as (s1 & HN & HG). destruct (N_stopped_ws s s1 n c) as (c1 & H1 & H2 & H3 & _); [done|done|].
    pose proof (g_cok _ _ _ _ (proj1 HG) _ _ H1) as Hc. unfold names. rewrite <- H2, <- H3. split; apply Hc. }
  assert (c_target c = RUNNING) as Ht.
  { destruct (ro_tgt _ Hro) as [E|[E|E]]; unfold c_target in *; [done| |]; rewrite E in Hj; done. }
  set (s1 := upd_obj n (cset_hb (Some now)) s).
  assert (Ok None ∅ s1) as HG1.
  { eapply Ok_lift; [apply resp_upd_obj, gnorm_hb| |exact HO]. intros. apply Good_hb; done. }
  assert (wsame n s s1) as Hs1 by (apply wsame_upd; done).
  assert (exists c1, objs s1 !! n = Some c1 /\ c_row c1 = c_row c) as (c1 & Hn1 & Hr1).
  { unfold s1. simpl. rewrite lookup_alter, Hn. eexists. split; [done|]. done. }
  destruct (classify m (c_workers c)) as [z|] eqn:Hz; [|done]. apply post_answer. unfold heartbeat_acts.
  destruct (classify_spec _ _ _ Hz Hnd) as (Z1 & Z2 & Z3).
  set (count := match r_max (c_row c) with Some mx => if mx <? m_count m then mx else m_count m | None => m_count m end).
  set (changed := negb (count =? r_count (c_row c))).
  set (f := fun r : crow => let r1 := if decide (c_status c = RUNNING) then r else rset_addresses (m_api m) (m_sched m) (m_dash m) r in
                if changed then rset_count count r1 else r1).
  match goal with |- context [qputs (map _ (z_targets z ++ ?l))] => set (extra := l) end.
  assert (forall t, t ∈ z_targets z ++ extra -> is_fin t.2 = true) as Hfin.
  { intros t [Ht'|Ht']%elem_of_app; [auto|]. unfold extra in Ht'. destruct (0 <? _); [|by apply elem_of_nil in Ht'].
    apply elem_of_list_fmap in Ht' as (w & -> & _). done. }
  assert (forall r, r_name (f r) = r_name r /\ r_user (f r) = r_user r /\ r_max (f r) = r_max r /\ r_info (f r) = r_info r /\
     r_start (f r) = r_start r /\ r_status (f r) = r_status r /\ r_target (f r) = r_target r /\ r_stop (f r) = r_stop r) as Hfr.
  { intros r. unfold f. destruct (decide _), changed; done. }
  clearbody extra.
  (* 1016 *)
  eapply (post_seq (fun s2 => Ok None ∅ s2 /\ wsame n s s2)).
  { destruct (_ || _); [|apply post_pure; done].
    eapply post_seq; [eapply (post_ok _ None ∅ ({[(n, None)]} ∪ ∅) ∅)|]; [done|apply resp_update_cluster| |done|done|].
    - intros g HN HG. destruct (N_stopped_ws s1 g n c1) as (d & Hd & _ & E3 & _); [done|done|]. rewrite Hr1 in E3.
      destruct (Hfr (c_row d)) as (? & ? & ? & ? & ? & ? & ? & ?).
      eapply Good_row; eauto.
      + unfold c_target. rewrite E3. done.
      + unfold c_status. rewrite E3. intros E. unfold f. rewrite decide_True by done. destruct changed; done.
      + rewrite E3. intros mx Hmx. pose proof (ro_count _ Hro mx Hmx) as Hcap.
        unfold f. assert (r_count (if changed then rset_count count (if decide (c_status c = RUNNING) then c_row c
            else rset_addresses (m_api m) (m_sched m) (m_dash m) (c_row c)) else
            (if decide (c_status c = RUNNING) then c_row c else rset_addresses (m_api m) (m_sched m) (m_dash m) (c_row c))) =
            if changed then count else r_count (c_row c)) as ->.
        { destruct changed; [done|]. destruct (decide _); done. }
        destruct changed; [|done]. unfold count. rewrite Hmx. destruct (Z.ltb_spec mx (m_count m)); lia.
    - intros g fs1 Hf1 [-> H1]. apply post_pure; [done|]. split; [apply Ok_put; done|].
      eapply wsame_trans; [exact Hs1|]. apply (wsame_row n f). intros r. apply Hfr. }
  clear Hn1 Hr1 c1 HG1 Hs1. clear s1. clear fs Hf. intros s2 fs Hf [HG2 Hs2].
  (* 1019 *)
  eapply post_seq; [eapply (post_ok_for _ _ None ∅ (list_to_set (map (fun t : nat * job => (n, Some t.1)) (z_targets z ++ extra)) ∪ ∅) ∅)|];
    [done|apply resp_set_targets|intros E; rewrite E; done| |done|done|].
  { intros g HN HG. apply Good_wtargets; done. }
  clear fs Hf. intros s3 fs Hf [-> HG3]. eapply post_seq; [apply (post_pure (fun s4 => Ok None ∅ s4 /\ wsame n s s4)); [done|split; [apply Ok_puts, HG3|]]|].
  { eapply wsame_trans; [exact Hs2|]. eapply wsame_trans; [apply wsame_targets|apply wsame_puts]. }
  clear fs Hf HG2 Hs2 HG3. clear s2. intros s3 fs Hf [HG3 Hs3].
  (* 1026 *)
  eapply (post_seq (Ok None ∅)).
  { destruct (z_running z) as [|w0 ws] eqn:Hzr; [apply post_pure; done|]. rewrite <- Hzr in *. clear Hzr.
    eapply post_seq; [apply (post_pure (fun s4 => Ok None ∅ s4 /\ wsame n s s4)); [done|split]|].
    - eapply Ok_lift; [apply resp_upd_obj, gnorm_fails| |exact HG3]. intros. apply (Good_fails _ _ Hrow0 _ _ _ _ (fun _ => 0%nat)). done.
    - eapply wsame_trans; [exact Hs3|]. apply wsame_upd. done.
    - clear fs Hf HG3 Hs3. clear s3. intros s3 fs Hf [HG3 Hs3].
      eapply post_weak; [eapply (post_ok _ None ∅ ∅ ∅)|..]; [done|apply resp_update_workers| |done|done| |auto].
      + intros g HN HG. apply Good_wrun; [done|done| |done].
        apply (N_fact (fun d => c_target d = RUNNING /\ forall x, x ∈ c_workers d -> w_name x ∈ z_running z -> jlt (w_status x) RUNNING = true) n s3); [|done|].
        { intros a b (_ & E1 & _ & _ & _ & E2)%norm_inv. unfold c_target. rewrite E1, E2. done. }
        apply (wsame_guard n s _ c _ (fun j => jlt j RUNNING)); auto.
        intros x Hx Hin. destruct (Z2 _ Hin) as (w & Hw & E & Hl).
        assert (w = x); [|by subst]. unfold names in Hnd. eapply nodup_map_inj; eauto.
      + intros ? [_ ?]. done. }
  clear fs Hf HG3 Hs3. clear s3. intros s3 fs Hf HG3.
  (* 1032 *)
  eapply post_weak; [eapply (post_ok_for _ _ None ∅ ∅ ∅)|..]; [done|apply resp_update_workers| | |done|done| |auto].
  - intros E. rewrite E. done.
  - intros. apply Good_wcloses; done.
  - intros ? [_ ?]. done.
Qed.

(** * Periodic checks *)
Lemma ffail_clusters_ok cur X ns s fs : fok fs -> Ok cur X s -> post (Ok cur X) (Ok cur X) (ffail_clusters ns s fs).
Proof.
  intros Hf HO. unfold ffail_clusters.
  eapply post_seq; [eapply (post_ok_for ns _ cur X (list_to_set (map (fun n => (n, None)) ns) ∪ X) X)|]; [done|apply resp_update_clusters|by intros -> | |done|done|].
  - intros. apply Good_fail_clusters; done.
  - intros s1 fs1 Hf1 [_ H1]. apply post_pure; [done|]. apply Ok_puts. done.
Qed.
Lemma ffail_workers_ok cur X ws s fs : fok fs -> Ok cur X s -> post (Ok cur X) (Ok cur X) (ffail_workers ws s fs).
Proof.
  intros Hf HO. unfold ffail_workers.
  eapply post_seq; [eapply (post_ok_for ws _ cur X (list_to_set (map (fun p : nat * nat => (p.1, Some p.2)) ws) ∪ X) X)|]; [done|apply resp_fail_w|by intros -> | |done|done|].
  - intros. apply Good_fail_workers; done.
  - intros s1 fs1 Hf1 [_ H1]. apply post_pure; [done|]. apply Ok_puts. done.
Qed.
Lemma fcheck_timeouts_ok now fs s : fok fs -> Ok None ∅ s -> Ok None ∅ (fcheck_timeouts cf now fs s).1.
Proof.
  intros Hf HO. unfold fcheck_timeouts. destruct (find_late _ _ _) as [[cs ws]|]; [|done]. apply post_logged.
  eapply post_seq; [apply ffail_clusters_ok; done|]. intros. apply ffail_workers_ok; done.
Qed.
Lemma fcheck_clusters_ok oks fs s : fok fs -> Ok None ∅ s -> Ok None ∅ (fcheck_clusters_end oks fs s).1.
Proof.
  intros Hf HO. unfold fcheck_clusters_end. destruct (chk_c s) as [ns|]; [|done]. apply post_logged, ffail_clusters_ok; [done|].
  apply (Ok_same cf strict s0 None ∅ s); done.
Qed.
Lemma check_workers_fold_ok bad s X :
  Ok None (list_to_set (map (fun p : nat * nat => (p.1, Some p.2)) bad) ∪ X) s ->
  Ok None X (fold_left (fun s (p : nat * nat) => qput (p.1, Some p.2) (upd_obj p.1 (fun c => cset_fails (S (c_fails c)) c) s)) bad s).
Proof.
  revert s. induction bad as [|p bad IH]; intros s HO; simpl in *; [eapply Ok_more; [|exact HO]; set_solver|].
  apply IH. apply Ok_put. rewrite (assoc_L (∪)).
  eapply Ok_lift; [apply resp_upd_obj, gnorm_fails1| |exact HO]. intros. apply (Good_fails _ _ Hrow0 _ _ _ _ (fun c => S (c_fails c))). done.
Qed.
Lemma fcheck_workers_ok oks fs s : fok fs -> Ok None ∅ s -> Ok None ∅ (fcheck_workers_end oks fs s).1.
Proof.
  intros Hf HO. unfold fcheck_workers_end. destruct (chk_w s) as [ws|]; [|done]. apply post_logged.
  set (bad := failed_of ws oks). assert (Ok None ∅ (set_chk_w None s)) as HO1 by (apply (Ok_same cf strict s0 None ∅ s); done).
  eapply post_seq; [eapply (post_ok_for bad _ None ∅ (list_to_set (map (fun p : nat * nat => (p.1, Some p.2)) bad) ∪ ∅) ∅)|]; [done|apply resp_fail_w|intros E; rewrite E; done| |done|done|].
  - intros. apply Good_fail_workers; done.
  - intros s1 fs1 Hf1 [_ H1]. apply post_pure; [done|]. apply check_workers_fold_ok. done.
Qed.
Lemma Ok_down v s : Ok None ∅ s -> Ok None ∅ (set_down v s).
Proof. eapply Ok_lift; [apply resp_set_down|]. intros g _ [HI HE]. split; [|exact HE]. destruct HI. constructor; simpl in *; auto. Qed.
Lemma fshutdown_ok fs s : fok fs -> Ok None ∅ s -> Ok None ∅ (fshutdown cf fs s).1.
Proof.
  intros Hf HO. unfold fshutdown. set (s1 := set_chk_w None (set_chk_c None s)).
  assert (Ok None ∅ s1) as HO1 by (apply (Ok_same cf strict s0 None ∅ s); done).
  destruct (stop_on_shutdown cf).
  - pose proof (ffail_clusters_ok None ∅ (map c_name (active_clusters s1)) s1 fs Hf HO1) as [_ H].
    destruct (ffail_clusters _ s1 fs) as [[s2 fs2] []]; simpl in *; apply Ok_down; done.
  - simpl. apply Ok_down; done.
Qed.
Lemma pop_ids_objs ids s s' b : pop_ids ids s = (s', b) -> objs s' = objs s /\ same_rest s s'.
Proof.
  revert s. induction ids as [|i ids IH]; intros s H; simpl in H; [injection H as <- _; done|].
  destruct (by_id s !! i) as [n|]; [|injection H as <- _; done]. destruct (IH _ H) as [H1 H2]. destruct (forget_objs n s) as [H3 H4].
  split; [congruence|]. eapply same_rest_trans; eauto.
Qed.
Lemma fcleanup_ok now fs s : Ok None ∅ s -> Ok None ∅ (fcleanup cf now fs s).1.
Proof.
  intros HO. unfold fcleanup. set (s2 := set_db_w _ _). set (ids := map fst _).
  destruct (pop_ids ids s2) as [s3 b] eqn:E. destruct (pop_ids_objs _ _ _ _ E) as [H1 H2].
  assert (Ok None ∅ s3) as H3 by (apply (Ok_same cf strict s0 None ∅ s); done).
  destruct b.
  - destruct fs as [|[] fs]; simpl; try done. apply (Ok_same cf strict s0 None ∅ s3); done.
  - destruct fs as [|[] fs]; simpl; try done; apply (Ok_same cf strict s0 None ∅ s3); done.
Qed.

(** * Reconcilers *)
Lemma fclosing_ok n c s fs : fok fs -> Ok (Some (n, None)) {[(n, None)]} s -> objs s !! n = Some c -> jlt (c_status c) CLOSING = true ->
  c_target c <> RUNNING -> post (Ok (Some (n, None)) ∅) (Ok (Some (n, None)) {[(n, None)]}) (fcluster_to_closing cf n c s fs).
Proof.
  intros Hf HO Hn Hs Ht. unfold fcluster_to_closing. set (t := if bulk cf then CLOSING else STOPPED).
  set (ws := map w_name (List.filter _ _)). set (items := map (fun w => (n, Some w)) ws).
  assert (Ok (Some (n, None)) ∅ (cluster_to_closing cf n c s)) as Hend.
  { eapply Ok_lift; [apply resp_closing| |exact HO]. intros s1 HN HG.
    destruct (N_stopped_ws s s1 n c) as (c1 & H1 & H2 & H3 & _); [done|done|].
    pose proof (Good_closing cf s0 Hrow0 s1 n c1 HG H1) as H. unfold cluster_to_closing in *. rewrite H2 in H.
    apply H; unfold c_status, c_target in *; rewrite H3; done. }
  eapply post_seq; [eapply (post_ok_for ws _ (Some (n, None)) {[(n, None)]} (list_to_set items ∪ {[(n, None)]}) {[(n, None)]})|];
    [done|apply resp_update_workers|intros E; rewrite E; done| |done|done|].
  { intros s1 HN HG. destruct (N_stopped_ws s s1 n c) as (c1 & H1 & H2 & H3 & _); [done|done|].
    pose proof (workers_closing_good cf s0 Hrow0 (Some (n, None)) {[(n, None)]} n c1 s1 HG H1) as H. cbv zeta in H. rewrite H2 in H.
    apply H; unfold c_status, c_target in *; rewrite ?H3; [done|done|set_solver]. }
  clear fs Hf. intros s1 fs Hf [-> H1]. eapply post_seq; [apply (post_pure (fun s2 => s2 = qputs items (update_workers n ws (wset_target t) s))); done|].
  clear fs Hf. intros s2 fs Hf ->. apply Ok_puts in H1.
  eapply post_seq; [apply (post_call (fun s3 => s3 = update_cluster n (rset_status CLOSING) (qputs items (update_workers n ws (wset_target t) s))))|]; [done|done|done| |].
  - intros Hst dc dw. apply (Ok_db _ ∅); [done|]. unfold cluster_to_closing in Hend. fold t in Hend. fold ws in Hend. fold items in Hend.
    destruct (Ok_ghost _ _ _ HO) as (g & HN & HG). destruct (N_stopped_ws s g n c) as (c1 & G1 & G2 & G3 & _); [done|done|].
    pose proof (Good_closing cf s0 Hrow0 g n c1 HG G1) as H. unfold cluster_to_closing in H. rewrite G2 in H. fold t in H. fold ws in H. fold items in H.
    feed specialize H; [unfold c_status in *; rewrite G3; done|unfold c_target in *; rewrite G3; done|].
    set (g3 := update_cluster n (rset_status CLOSING) (qputs items (update_workers n ws (wset_target t) g))) in *.
    assert (Good (Some (n, None)) {[(n, None)]} (upd_obj n (cset_ready true) g3)) as HG3.
    { destruct ws as [|w0 ws']; [|eapply Good_more; [|exact H]; apply empty_subseteq].
      apply (Good_unput_if cf s0 Hrow0 (Some (n, None)) true); [exact H| |].
      - simpl. destruct (update_cluster_spec n (rset_status CLOSING) g c1 G1) as [_ (E1 & E2 & _)].
        unfold g3, items. simpl. rewrite E1. apply HG.
      - simpl. destruct (update_cluster_spec n (rset_status CLOSING) g c1 G1) as [_ (E1 & E2 & _)].
        unfold g3, items. simpl. rewrite E1, E2. intros k p Hk. eapply (g_tasks _ _ _ _ (proj1 HG)). exact Hk. }
    eapply (Ok_loose cf strict s0); [done|apply Ok_of, HG3|]. rewrite N_flag by done.
    unfold g3. apply resp_update_cluster, resp_qputs, resp_update_workers. done.
  - intros s3 fs1 Hf1 ->. apply post_pure; [done|]. exact Hend.
Qed.

Lemma fcreate_workers_ok k n now c s fs x : fok fs -> Ok (Some x) {[x]} s -> objs s !! n = Some c -> c_status c = RUNNING -> c_target c = RUNNING ->
  (forall mx, r_max (c_row c) = Some mx -> Z.of_nat (length (active_workers c)) + Z.of_nat k <= Z.max 0 mx) ->
  post (fun s' => s' = create_workers cf k n now s) (Ok (Some x) {[x]}) (fcreate_workers cf k n now s fs).
Proof.
  revert c s fs. induction k as [|k IH]; intros c s fs Hf HO Hn Hs Ht Hmx; [apply post_pure; done|].
  cbn [fcreate_workers create_workers].
  assert (exists g d, N g = N s /\ Good (Some x) {[x]} g /\ objs g !! n = Some d /\ c_row d = c_row c /\ c_workers d = c_workers c) as (g & d & HN & HG & Hd & Er & Ew).
  { destruct (Ok_ghost _ _ _ HO) as (g & HN & HG). destruct (N_stopped_ws s g n c) as (d & G1 & G2 & G3 & _); [done|done|]. exists g, d. auto. }
  assert (forall g d, N g = N s -> Good (Some x) {[x]} g -> objs g !! n = Some d -> c_row d = c_row c -> c_workers d = c_workers c ->
    Good (Some x) ({[(n, Some (uuid s))]} ∪ {[x]}) (create_worker cf n now g).2 /\
    exists c', objs (create_worker cf n now g).2 !! n = Some c' /\ c_row c' = c_row c /\ length (active_workers c') = S (length (active_workers c))) as Hstep.
  { clear g d HN HG Hd Er Ew. intros g d HN HG Hd Er Ew.
    pose proof (Good_cworker cf s0 Hrow0 (Some x) {[x]} g n d now HG Hd) as H. pose proof (N_rest _ _ HN) as (_ & _ & _ & _ & _ & Eu & _).
    destruct (create_worker cf n now g) as [w g'] eqn:E.
    assert (w = uuid s) as -> by (rewrite <- Eu; unfold create_worker in E; injection E; intros; congruence).
    destruct H as (H1 & c' & H2 & H3 & _ & H4).
    - unfold c_status in *. rewrite Er. done.
    - unfold c_target in *. rewrite Er. done.
    - unfold active_workers in *. rewrite Er, Ew. intros mx Hm. specialize (Hmx mx Hm). lia.
    - split; [exact H1|]. exists c'. cbn [snd]. split; [done|]. split; [congruence|]. unfold active_workers in *. rewrite <- Ew. done. }
  destruct (Hstep g d HN HG Hd Er Ew) as (_ & c' & Hc' & Er' & Ea').
  assert (exists c1, objs (create_worker cf n now s).2 !! n = Some c1 /\ c_row c1 = c_row c /\ length (active_workers c1) = S (length (active_workers c))) as (c1 & K1 & K2 & K3).
  { destruct (N_stopped_ws (create_worker cf n now g).2 (create_worker cf n now s).2 n c') as (c1 & K1 & K2 & K3 & _); [apply (resp_create_worker cf n now); done|done|].
    exists c1. split; [done|]. split; [congruence|]. unfold active_workers in *. rewrite K2. done. }
  destruct (create_worker cf n now s) as [w s1] eqn:Ec. assert (w = uuid s) as -> by (unfold create_worker in Ec; injection Ec; intros; congruence).
  eapply (post_seq (fun s2 => s2 = qput (n, Some (uuid s)) s1 /\ Ok (Some x) {[x]} s2)).
  - eapply (post_seq (fun s2 => s2 = s1 /\ Ok (Some x) ({[(n, Some (uuid s))]} ∪ {[x]}) s2)).
    + eapply post_weak; [eapply (post_ok _ (Some x) {[x]} ({[(n, Some (uuid s))]} ∪ {[x]}) {[x]})|..]; [done|apply resp_create_worker| |done|done| |auto].
      * intros g1 HN1 HG1. destruct (N_stopped_ws s g1 n c) as (d1 & G1 & G2 & G3 & _); [done|done|].
        eapply (Hstep g1 d1); eauto.
      * cbv beta. rewrite Ec. done.
    + intros s2 fs1 Hf1 [-> H2]. apply post_pure; [done|]. split; [done|]. apply Ok_put. done.
  - intros s2 fs1 Hf1 [-> H2]. apply (IH c1); auto.
    + unfold c_status in *. rewrite K2. done.
    + unfold c_target in *. rewrite K2. done.
    + rewrite K2, K3. intros mx Hm. specialize (Hmx mx Hm). lia.
Qed.
Lemma fscale_ok n now c s fs : fok fs -> Ok (Some (n, None)) {[(n, None)]} s -> objs s !! n = Some c -> c_status c = RUNNING -> c_target c = RUNNING ->
  c_proxied c = true -> post (Ok (Some (n, None)) ∅) (Ok (Some (n, None)) {[(n, None)]}) (fcheck_scale cf n now s fs).
Proof.
  intros Hf HO Hn Hs Ht Hp.
  assert (Ok (Some (n, None)) ∅ (check_scale cf n now s)) as Hend.
  { eapply Ok_lift; [apply resp_check_scale| |exact HO]. intros g HN HG.
    destruct (N_stopped_ws s g n c) as (d & G1 & G2 & G3 & G4 & _); [done|done|]. unfold c_status, c_target in *.
    eapply (Good_scale cf s0 Hrow0 g n d); auto; unfold c_status, c_target; congruence. }
  assert (row_ok (c_row c)) as Hro.
  { destruct (Ok_ghost _ _ _ HO) as (g & HN & HG). destruct (N_stopped_ws s g n c) as (c1 & H1 & H2 & H3 & _); [done|done|].
    pose proof (g_cok _ _ _ _ (proj1 HG) _ _ H1) as Hc. rewrite <- H3. apply Hc. }
  assert (forall mx, r_max (c_row c) = Some mx -> Z.of_nat (length (active_workers c)) <= Z.max 0 mx) as Hcap.
  { destruct (Ok_ghost _ _ _ HO) as (g & HN & HG). destruct (N_stopped_ws s g n c) as (c1 & H1 & H2 & H3 & _); [done|done|].
    pose proof (g_cok _ _ _ _ (proj1 HG) _ _ H1) as Hc. intros mx Hm. unfold active_workers. rewrite <- H2. rewrite <- H3 in Hm. apply (k_cap _ _ _ _ _ _ Hc mx Hm). }
  unfold fcheck_scale. unfold check_scale in Hend. rewrite Hn in *. destruct (decide _).
  - eapply (post_seq (fun s2 => s2 = update_cluster n (rset_target FAILED) s)).
    + eapply post_weak; [eapply (post_ok _ (Some (n, None)) {[(n, None)]} ({[(n, None)]} ∪ {[(n, None)]}) {[(n, None)]})|..]; [done|apply resp_update_cluster| |done|done| |auto].
      * intros g HN HG. apply Good_ctarget; auto.
      * intros s2 [-> _]. done.
    + intros s2 fs1 Hf1 ->. apply post_pure; [done|]. exact Hend.
  - eapply post_weak; [eapply (fcreate_workers_ok _ n now c s fs (n, None))|..]; auto.
    + intros mx Hm. pose proof (ro_count _ Hro mx Hm). pose proof (Hcap mx Hm). lia.
    + intros s2 ->. exact Hend.
Qed.
Lemma frunning_ok n now c s fs : fok fs -> Ok (Some (n, None)) {[(n, None)]} s -> objs s !! n = Some c -> c_target c = RUNNING ->
  jge (c_status c) STOPPED = false -> c_status c <> CREATED ->
  post (fun s' => Ok None ∅ (finish (n, None) s')) (Ok (Some (n, None)) {[(n, None)]}) (frunning cf n now c s fs).
Proof.
  intros Hf HO Hn Ht Hs1 Hs2. unfold frunning.
  eapply (post_seq (fun s1 => Ok (Some (n, None)) {[(n, None)]} s1 /\ exists c1, objs s1 !! n = Some c1 /\ c_target c1 = RUNNING /\
     (c_status c1 = RUNNING \/ s1 = s))).
  - destruct (decide _) as [[H1 H2]|Hd].
    2:{ apply post_pure; [done|]. split; [done|]. exists c. auto. }
    assert (Ok (Some (n, None)) {[(n, None)]} (upd_obj n (cset_ready true) (update_cluster n (rset_status RUNNING) s))) as Hr.
    { eapply (Ok_lift (fun s => upd_obj n (cset_ready true) (update_cluster n (rset_status RUNNING) s)));
        [apply (resp_comp (upd_obj n (cset_ready true))); [apply resp_ready|apply resp_update_cluster]| |exact HO].
      intros g HN HG. destruct (N_stopped_ws s g n c) as (d & G1 & G2 & G3 & G4 & _); [done|done|]. unfold c_status, c_target in *.
      eapply (Good_running cf s0 Hrow0 _ g n d); auto; unfold c_status, c_target; congruence. }
    eapply (post_seq (fun s1 => s1 = update_cluster n (rset_status RUNNING) s)).
    + apply post_call; [done|done|done|]. intros Hst dc dw. apply (Ok_db _ ∅); [done|]. eapply (Ok_flag _ _ _ n (cset_ready true)); [done|done|exact Hr].
    + intros s1 fs1 Hf1 ->. apply post_pure; [done|]. split; [done|]. simpl. rewrite lookup_alter. unfold update_cluster. rewrite Hn. simpl.
      rewrite lookup_alter, Hn. simpl. eexists. split; [done|]. split; [done|]. left. done.
  - clear fs Hf. intros s1 fs Hf (HO1 & c1 & Hn1 & Ht1 & Hor). rewrite Hn1. destruct (decide (c_status c1 = RUNNING)) as [Hr|Hr].
    + eapply (post_seq (fun s2 => Ok (Some (n, None)) {[(n, None)]} s2 /\ exists c2, objs s2 !! n = Some c2 /\ c_row c2 = c_row c1 /\ c_proxied c2 = true)).
      * apply post_pure; [done|]. assert (forall g, N g = N s1 -> Good (Some (n, None)) {[(n, None)]} g -> Good (Some (n, None)) {[(n, None)]} (check_proxied n g) /\
           exists c2, objs (check_proxied n g) !! n = Some c2 /\ c_row c2 = c_row c1 /\ c_proxied c2 = true) as Hp.
        { intros g HN HG. destruct (N_stopped_ws s1 g n c1) as (d & G1 & G2 & G3 & G4 & _); [done|done|]. unfold c_status, c_target in *.
          destruct (Good_proxied cf s0 Hrow0 (Some (n, None)) g n d) as (P1 & c2 & P2 & P3 & P4 & P5); unfold c_status, c_target; [done|done|congruence|congruence|].
          split; [done|]. exists c2. split; [done|]. split; [congruence|done]. }
        split; [eapply Ok_lift; [apply resp_check_proxied| |exact HO1]; intros; apply Hp; done|].
        destruct (Ok_ghost _ _ _ HO1) as (g & HN & HG). destruct (Hp g HN HG) as (_ & c2 & P1 & P2 & P3).
        destruct (N_stopped_ws (check_proxied n g) (check_proxied n s1) n c2) as (d & G1 & G2 & G3 & G4 & _); [apply resp_check_proxied; done|done|].
        exists d. split; [done|]. split; congruence.
      * intros s2 fs2 Hf2 (HO2 & c2 & P1 & P2 & P3). eapply post_weak; [eapply (fscale_ok n now c2 s2 fs2)|..]; auto.
        -- unfold c_status in *. rewrite P2. done.
        -- unfold c_target in *. rewrite P2. done.
        -- intros s3. apply Ok_finish.
    + destruct Hor as [?| ->]; [done|]. assert (c1 = c) as -> by congruence. apply post_pure; [done|].
      eapply Ok_lift; [apply resp_finish| |exact HO]. intros g HN HG.
      destruct (N_stopped_ws s g n c) as (d & G1 & G2 & G3 & G4 & _); [done|done|].
      apply Good_finish. eapply Good_drop; [exact HG|]. simpl. intros c2 Hc2 Hok. assert (c2 = d) by congruence. subst c2.
      assert (jlt (c_status d) CLOSING = true) as Hl.
      { eapply target_running_low; [apply Hok|]. unfold c_target in *. congruence. }
      assert (c_status d = SUBMITTED) as Hsub.
      { unfold c_status in *. rewrite G3 in *. destruct (r_status (c_row c)); done. }
      assert (c_target d = RUNNING) as Htd by (unfold c_target in *; congruence).
      eapply cok_drop; [exact Hok|intros w; apply Dof_one; done|..]; rewrite ?Hsub; done.
Qed.

Lemma freconcile_cluster_ok k n now lt fs s : fok fs -> Ok (Some (n, None)) {[(n, None)]} s -> busy s !! k = None -> tasks (q s) !! k = None ->
  Ok None ∅ (freconcile_cluster cf k n now lt fs s).1.
Proof.
  intros Hf HO Hk Hq.
  assert (forall g, N g = N s -> Good (Some (n, None)) {[(n, None)]} g -> Good None ∅ (reconcile_cluster cf k n now g).1) as Hg.
  { intros g HN HG. pose proof (N_rest _ _ HN) as (_ & _ & _ & _ & _ & _ & _ & _ & Eb & _). pose proof (N_q _ _ HN) as (_ & _ & _ & Et).
    apply reconcile_cluster_good; [done|done|congruence|congruence]. }
  unfold freconcile_cluster. destruct (objs s !! n) as [c|] eqn:Hn.
  2:{ eapply Ok_lift; [apply resp_finish| |exact HO]. intros g HN HG. specialize (Hg g HN HG). unfold reconcile_cluster in Hg.
      rewrite (N_none s g n) in Hg by done. done. }
  assert (forall g, N g = N s -> exists d, objs g !! n = Some d /\ c_row d = c_row c /\ ready_to_close cf d = ready_to_close cf c) as Hd.
  { intros g HN. destruct (N_stopped_ws s g n c) as (d & G1 & G2 & G3 & _ & _ & G4); [done|done|]. exists d. split; [done|]. split; [done|].
    apply norm_ready. done. }
  assert (forall p (f : gw -> gw), resp f -> (forall g d, objs g !! n = Some d -> c_row d = c_row c -> ready_to_close cf d = ready_to_close cf c ->
     reconcile_cluster cf k n now g = (f g, p)) -> Ok None ∅ (f s)) as Hplain.
  { intros p f Hr Hp. eapply Ok_lift; [done| |exact HO]. intros g HN HG. destruct (Hd g HN) as (d & D1 & D2 & D3).
    specialize (Hg g HN HG). rewrite (Hp g d) in Hg by done. done. }
  assert (row_ok (c_row c)) as Hro.
  { destruct (Ok_ghost _ _ _ HO) as (g & HN & HG). destruct (Hd g HN) as (d & D1 & D2 & D3).
    pose proof (g_cok _ _ _ _ (proj1 HG) _ _ D1) as Hc. rewrite <- D2. apply Hc. }
  destruct (jge (c_status c) STOPPED) eqn:Hst.
  { apply (Hplain []); [apply resp_finish|]. intros g d D1 D2 D3. unfold reconcile_cluster, c_status in *. rewrite D1, D2, Hst. done. }
  destruct (decide (c_target c = STOPPED \/ c_target c = FAILED)) as [Ht|Ht].
  { destruct (decide (c_status c = CLOSING)) as [Hs|Hs].
    - destruct (ready_to_close cf c) eqn:Hr.
      + assert (jlt CREATED (c_status c) = true) as Hlt by (rewrite Hs; done). rewrite Hlt.
        apply (Hplain [OStopC n (r_state (c_row c))]); [apply resp_suspend|]. intros g d D1 D2 D3. unfold reconcile_cluster, c_status, c_target in *. rewrite D1, D2, D3, Hst.
        rewrite decide_True by done. rewrite decide_True by done. rewrite Hlt. done.
      + apply (Hplain []); [apply resp_finish|]. intros g d D1 D2 D3. unfold reconcile_cluster, c_status, c_target in *. rewrite D1, D2, D3, Hst.
        rewrite decide_True by done. rewrite decide_True by done. done.
    - apply post_settle'. apply fclosing_ok; auto.
      + eapply cluster_low; eauto.
      + intuition congruence. }
  destruct (decide (c_target c = RUNNING)) as [Htr|Htr].
  2:{ exfalso. destruct (ro_tgt _ Hro) as [E|E]; unfold c_target in *; tauto. }
  destruct (decide (c_status c = CREATED)) as [Hs|Hs].
  { apply (Hplain [OStartC n]); [apply resp_suspend|]. intros g d D1 D2 D3. unfold reconcile_cluster, c_status, c_target in *. rewrite D1, D2, Hst.
    rewrite decide_False by done. rewrite decide_True by done. rewrite decide_True by done. done. }
  apply post_settle. apply frunning_ok; auto.
Qed.

(** Workers: the states between. *)
Lemma worker_closing_good n w x s : Good (Some (n, Some w)) {[(n, Some w)]} s -> get_worker n w s = Some x ->
  jge (w_status x) STOPPED = false -> w_target x = CLOSING ->
  Good (Some (n, Some w)) {[(n, None)]} (update_worker n w (wset_status CLOSING) s).
Proof.
  intros HG Hg Hst Ht.
  assert (forall p, Bof s p -> pc_item p <> (n, Some w)) as Hnb by (intros p; eapply not_busy; apply HG).
  unfold get_worker in Hg. destruct (objs s !! n) as [c|] eqn:Hn; [|done]. simpl in Hg.
  destruct (find_worker_some _ _ _ Hg) as [Hx Hxn].
  pose proof (g_cok _ _ _ _ (proj1 HG) _ _ Hn) as Hc.
  pose proof (k_workers _ _ _ _ _ _ Hc) as Hws. rewrite Forall_forall in Hws. pose proof (Hws x Hx) as Hw. clear Hws.
  set (s1 := update_worker n w (wset_status CLOSING) s).
  set (c' := cset_workers (map (at_worker w (wset_status CLOSING)) (c_workers c)) c).
  assert (objs s1 = <[n := c']> (objs s) /\ same_rest s s1) as [Ho Hs] by (apply update_worker_spec; done).
  clearbody s1.
  pose proof (wo_bulk _ _ _ _ _ _ Hw (or_intror Ht)) as Hbk.
  pose proof (k_bulk _ _ _ _ _ _ Hc x Hx (or_intror Ht)) as Htn.
  destruct (cok_wup cf (Dof {[(n, Some w)]} s) (Dof {[(n, None)]} s) (Bof s) (Bof s) (routes s) n c x (wset_status CLOSING))
    as (Hok & Hev & Hnm); rewrite ?Hxn; auto.
  - constructor; simpl; auto. intros E. unfold is_fin in E. congruence.
  - intros y _ E [?|H]; [left; done|]. apply elem_of_singleton in H. done.
  - intros []. rewrite Hxn in *. constructor; simpl; rewrite ?Hxn; auto; try done.
    + intros _. rewrite Ht. done.
    + intros E. specialize (wo_done E). unfold is_fin in wo_done. congruence.
    + rewrite Ht. done.
    + intros Hb. apply Hnb in Hb. done.
    + intros Hb. apply Hnb in Hb. done.
  - intros j [-> | ->]; [done|]. congruence.
  - intros _ Hr. left. right. set_solver.
  - rewrite Hxn in *. fold c' in Hok, Hev, Hnm. eapply (Good_set cf s0 Hrow0 _ {[(n, Some w)]} _ s s1 n c c'); eauto.
    intros y Hy1 ->%elem_of_singleton. done.
Qed.
Lemma created_stop_good n w x now s : Good (Some (n, Some w)) {[(n, Some w)]} s -> get_worker n w s = Some x -> is_fin (w_target x) = true ->
  Good (Some (n, Some w)) ∅ (worker_stopped_rest cf n w (worker_stopped n w now s)).
Proof.
  intros HG Hg Hfin.
  assert (forall p, Bof s p -> pc_item p <> (n, Some w)) as Hnb by (intros p; eapply not_busy; apply HG).
  unfold get_worker in Hg. destruct (objs s !! n) as [c|] eqn:Hn; [|done]. simpl in Hg.
  destruct (find_worker_some _ _ _ Hg) as [Hx Hxn].
  pose proof (g_cok _ _ _ _ (proj1 HG) _ _ Hn) as Hc.
  eapply (worker_done_good cf s0 Hrow0 (Some (n, Some w)) s _ n c x w now); eauto; [apply Hc|].
  intros s2 c' X Ho Hs HX1 HX2.
  destruct (cok_wup cf (Dof {[(n, Some w)]} s) (Dof X s) (Bof s) (Bof s) (routes s) n c x (wstop now))
    as (Hok & Hev & Hnm); rewrite ?Hxn; auto.
  + apply wevolve_wstop. done.
  + intros y _ E [?|H]; [left; done|]. apply elem_of_singleton in H. done.
  + intros Hwk. eapply wk_wstop; eauto. rewrite Hxn. done.
  + intros j [-> | ->]; simpl; intros _; destruct (w_target x); done.
  + intros _ Hr. left. right. auto.
  + intros _ E. destruct (w_close x) eqn:Hcl; [left|right; right; auto]. unfold covers. simpl. rewrite Hcl. done.
  + intros [E|E]; simpl in E; rewrite E in Hfin; done.
  + rewrite Hxn in *. fold c' in Hok, Hev, Hnm. eapply (Good_set cf s0 Hrow0 _ {[(n, Some w)]} _ s s2 n c c'); eauto.
    intros y Hy1 ->%elem_of_singleton. done.
Qed.
Lemma worker_stopped_rest_ok n w now s fs : fok fs -> Ok (Some (n, Some w)) {[(n, Some w)]} s ->
  (strict = false -> exists g, N g = N s /\ Good (Some (n, Some w)) {[(n, None)]} (worker_stopped n w now g)) ->
  Ok (Some (n, Some w)) ∅ (worker_stopped_rest cf n w (worker_stopped n w now s)) ->
  post (Ok (Some (n, Some w)) ∅) (Ok (Some (n, Some w)) {[(n, Some w)]}) ((call (worker_stopped n w now) ;> pure (worker_stopped_rest cf n w)) s fs).
Proof.
  intros Hf HO HL Hend. eapply (post_seq (fun s1 => s1 = worker_stopped n w now s)).
  - apply post_call; [done|done|done|]. intros Hst dc dw. apply (Ok_db _ ∅); [done|]. destruct (HL Hst) as (g & HN & HG).
    eapply (Ok_loose cf strict s0); [done|apply Ok_of, HG|]. apply resp_worker_stopped. done.
  - intros s1 fs1 Hf1 ->. apply post_pure; done.
Qed.
Lemma unrest_good cur n w s : Good cur ∅ (worker_stopped_rest cf n w s) -> qok (q s) -> (forall k p, busy s !! k = Some p -> tasks (q s) !! k = None) ->
  Good cur {[(n, None)]} s.
Proof. intros HG Hq Ht. destruct (rest_if cf n w s) as [b E]. rewrite E in HG. eapply (Good_unput_if cf s0 Hrow0 cur b); done. Qed.
Lemma worker_stopped_same n w now s : same_rest s (worker_stopped n w now s).
Proof.
  destruct (objs s !! n) as [c|] eqn:Hn; [destruct (update_worker_spec n w (fun x => wset_stop (Some now) (wset_status (w_target x) x)) s c Hn) as [_ H]; done|].
  unfold worker_stopped. rewrite update_worker_None by done. done.
Qed.
Lemma freconcile_worker_ok k n w now lt fs s : fok fs -> Ok (Some (n, Some w)) {[(n, Some w)]} s -> busy s !! k = None -> tasks (q s) !! k = None ->
  Ok None ∅ (freconcile_worker cf k n w now lt fs s).1.
Proof.
  intros Hf HO Hk Hq.
  assert (forall g, N g = N s -> Good (Some (n, Some w)) {[(n, Some w)]} g -> Good None ∅ (reconcile_worker cf k n w now g).1) as Hg.
  { intros g HN HG. pose proof (N_rest _ _ HN) as (_ & _ & _ & _ & _ & _ & _ & _ & Eb & _). pose proof (N_q _ _ HN) as (_ & _ & _ & Et).
    apply reconcile_worker_good; [done|done|congruence|congruence]. }
  unfold freconcile_worker. destruct (get_worker n w s) as [x|] eqn:Hx.
  2:{ eapply Ok_lift; [apply resp_finish| |exact HO]. intros g HN HG. specialize (Hg g HN HG). unfold reconcile_worker in Hg.
      rewrite (N_get_worker n w g s) in Hg by done. rewrite Hx in Hg. done. }
  assert (forall p (f : gw -> gw), resp f -> (forall g, get_worker n w g = Some x -> reconcile_worker cf k n w now g = (f g, p)) -> Ok None ∅ (f s)) as Hplain.
  { intros p f Hr Hp. eapply Ok_lift; [done| |exact HO]. intros g HN HG. specialize (Hg g HN HG).
    rewrite (Hp g) in Hg by (rewrite (N_get_worker n w g s) by done; done). done. }
  destruct (jge (w_status x) STOPPED) eqn:Hst.
  { apply (Hplain []); [apply resp_finish|]. intros g D1. unfold reconcile_worker. rewrite D1, Hst. done. }
  destruct (decide (w_target x = CLOSING)) as [Ht|Ht].
  { apply post_settle. set (F := fun s1 => if is_ready cf n s1 then qput (n, None) s1 else s1).
    assert (resp F) as HF.
    { intros a b E. unfold F. rewrite (N_is_ready cf n a b E). destruct (is_ready cf n b); [apply resp_qput|]; done. }
    destruct (decide (w_status x = CLOSING)) as [Hs|Hs].
    - eapply (post_seq (fun s1 => s1 = s)); [apply post_pure; done|]. intros s1 fs1 Hf1 ->. apply post_pure; [done|].
      apply (Hplain [] (fun s => finish (n, Some w) (F s))); [apply resp_comp; [apply resp_finish|done]|].
      intros g D1. unfold reconcile_worker. rewrite D1, Hst. rewrite decide_True by done. rewrite decide_True by done. done.
    - eapply (post_seq (fun s1 => s1 = update_worker n w (wset_status CLOSING) s)).
      + eapply post_weak; [eapply (post_ok _ _ {[(n, Some w)]} {[(n, None)]} {[(n, Some w)]})|..]; [done|apply resp_update_worker| |done|done| |auto].
        * intros g HN HG. eapply (worker_closing_good n w x); auto. rewrite (N_get_worker n w g s) by done. done.
        * intros ? [-> _]. done.
      + intros s1 fs1 Hf1 ->. apply post_pure; [done|].
        apply (Hplain [] (fun s => finish (n, Some w) (F (update_worker n w (wset_status CLOSING) s)))).
        * apply (resp_comp (finish (n, Some w))); [apply resp_finish|]. apply (resp_comp F); [done|apply resp_update_worker].
        * intros g D1. unfold reconcile_worker. rewrite D1, Hst. rewrite decide_True by done. rewrite decide_False by done. done. }
  destruct (decide (w_target x = STOPPED \/ w_target x = FAILED)) as [Htf|Htf].
  { assert (is_fin (w_target x) = true) as Hfin by (destruct Htf as [-> | ->]; done).
    destruct (jlt CREATED (w_status x)) eqn:Hcr.
    - apply (Hplain [OStopW n w (w_state x)]); [apply resp_suspend|]. intros g D1. unfold reconcile_worker. rewrite D1, Hst.
      rewrite decide_False by done. rewrite decide_True by done. rewrite Hcr. done.
    - apply post_settle'. apply worker_stopped_rest_ok; [done|done| |].
      + intros _. destruct (Ok_ghost _ _ _ HO) as (g & HN & HG). exists g. split; [done|].
        destruct (worker_stopped_same n w now g) as (E1 & E2 & _).
        eapply unrest_good; [eapply (created_stop_good n w x now g); auto; rewrite (N_get_worker n w g s) by done; done| |].
        * rewrite E1. apply HG.
        * rewrite E1, E2. apply (g_tasks _ _ _ _ (proj1 HG)).
      + eapply (Ok_lift (fun s => worker_stopped_rest cf n w (worker_stopped n w now s)));
          [apply resp_comp; [apply resp_rest|apply resp_worker_stopped]| |exact HO].
        intros g HN HG. eapply (created_stop_good n w x); auto. rewrite (N_get_worker n w g s) by done. done. }
  destruct (decide (w_status x = CREATED /\ w_target x = RUNNING)) as [H12|Hno].
  - apply (Hplain [OStartW n w]); [apply resp_suspend|]. intros g D1. unfold reconcile_worker. rewrite D1, Hst.
    rewrite decide_False by done. rewrite decide_False by done. rewrite decide_True by done. done.
  - apply (Hplain []); [apply resp_finish|]. intros g D1. unfold reconcile_worker. rewrite D1, Hst.
    rewrite decide_False by done. rewrite decide_False by done. rewrite decide_False by done. done.
Qed.

(** * The operations go on *)
Lemma release_ok k p s : Ok None ∅ s -> busy s !! k = Some p -> Ok (Some (pc_item p)) {[pc_item p]} (release k s).
Proof.
  intros HO Hk. eapply Ok_lift; [apply resp_release| |exact HO]. intros g HN HG. apply release_good; [done|done|].
  pose proof (N_rest _ _ HN) as (_ & _ & _ & _ & _ & _ & _ & _ & Eb & _). congruence.
Qed.
Lemma post_orelse (Q E1 E : gw -> Prop) a b s fs : post Q E1 (a s fs) -> (forall s1 fs1, fok fs1 -> E1 s1 -> post Q E (b s1 fs1)) ->
  post Q E (orelse a b s fs).
Proof.
  intros Ha Hb. unfold orelse. destruct (a s fs) as [[s1 fs1] []] eqn:E0; destruct Ha as [H1 H2]; simpl in *; [split; done|]. apply Hb; done.
Qed.
Definition cfail (n : nat) : gw -> gw := update_cluster n (fun r => rset_target FAILED (rset_status SUBMITTED r)).
Definition wfail (n w : nat) : gw -> gw := update_worker n w (fun x => wset_target FAILED (wset_status SUBMITTED x)).
(** _cluster_to_submitted and its handler. *)
Lemma cluster_failed_ok n s fs : fok fs -> Ok (Some (n, None)) {[(n, None)]} s -> Ok (Some (n, None)) {[(n, None)]} (cfail n s) ->
  post (Ok (Some (n, None)) ∅) (Ok (Some (n, None)) {[(n, None)]}) (cluster_failed n s fs).
Proof.
  intros Hf HO HG. unfold cluster_failed.
  eapply (post_seq (fun s1 => s1 = cfail n s)).
  - apply post_call; [done|done|done|]. intros Hst dc dw. eapply Ok_db; [done|exact HG].
  - intros s1 fs1 Hf1 ->. apply post_pure; [done|]. apply Ok_put. rewrite (right_id_L ∅ (∪)). done.
Qed.
Lemma cluster_released_ok k n s : Ok None ∅ s -> busy s !! k = Some (InStartCluster n) ->
  Ok (Some (n, None)) {[(n, None)]} (release k s) /\ Ok (Some (n, None)) {[(n, None)]} (cfail n (release k s)).
Proof.
  intros HO Hk. split; [apply (release_ok k (InStartCluster n)); done|].
  eapply (Ok_lift (fun s => cfail n (release k s))); [apply resp_comp; [apply resp_update_cluster|apply resp_release]| |exact HO].
  intros g HN HG. pose proof (N_rest _ _ HN) as (_ & _ & _ & _ & _ & _ & _ & _ & Eb & _).
  apply cluster_submitted_good; [done|done|congruence|]. right. done.
Qed.
Lemma cluster_submitted_ok k n s fs : fok fs -> Ok None ∅ s -> busy s !! k = Some (InStartCluster n) ->
  post (Ok (Some (n, None)) ∅) (Ok (Some (n, None)) {[(n, None)]})
    (orelse (call (update_cluster n (rset_status SUBMITTED))) (cluster_failed n) (release k s) fs).
Proof.
  intros Hf HO Hk. destruct (cluster_released_ok k n s HO Hk) as [H1 H2].
  assert (Ok (Some (n, None)) ∅ (update_cluster n (rset_status SUBMITTED) (release k s))) as H3.
  { eapply (Ok_lift (fun s => update_cluster n (rset_status SUBMITTED) (release k s))); [apply resp_comp; [apply resp_update_cluster|apply resp_release]| |exact HO].
    intros g HN HG. pose proof (N_rest _ _ HN) as (_ & _ & _ & _ & _ & _ & _ & _ & Eb & _).
    apply cluster_submitted_good; [done|done|congruence|]. left. done. }
  eapply (post_orelse _ (fun s1 => Ok (Some (n, None)) {[(n, None)]} s1 /\ Ok (Some (n, None)) {[(n, None)]} (cfail n s1))).
  - apply post_call; [done|done|done|]. intros Hst dc dw.
    set (s1 := set_db_w dw (set_db_c dc (update_cluster n (rset_status SUBMITTED) (release k s)))).
    assert (Ok (Some (n, None)) ∅ s1) as H4 by (eapply Ok_db; [done|exact H3]).
    split; [eapply Ok_more; [|exact H4]; apply empty_subseteq|].
    eapply Ok_lift; [apply resp_update_cluster| |exact H4]. intros g HN HG.
    rewrite <- (right_id_L ∅ (∪) {[(n, None)]}). apply submitted_failed_good; [done| |done].
    apply (N_fact (fun d => c_status d = SUBMITTED) n s1); [|done|].
    { intros a b (_ & E1 & _)%norm_inv. unfold c_status. rewrite E1. done. }
    intros c Hc. unfold s1 in Hc. simpl in Hc. destruct (objs s !! n) as [d|] eqn:Hd.
    + destruct (update_cluster_spec n (rset_status SUBMITTED) (release k s) d Hd) as [Ho _]. rewrite Ho, lookup_insert in Hc. injection Hc as <-. done.
    + rewrite update_cluster_None in Hc by done. simpl in Hc. congruence.
  - intros s1 fs1 Hf1 [E1 E2]. apply cluster_failed_ok; done.
Qed.
Lemma worker_failed_ok n w s fs : fok fs -> Ok (Some (n, Some w)) {[(n, Some w)]} s -> Ok (Some (n, Some w)) {[(n, Some w)]} (wfail n w s) ->
  post (Ok (Some (n, Some w)) ∅) (Ok (Some (n, Some w)) {[(n, Some w)]}) (worker_failed n w s fs).
Proof.
  intros Hf HO HG. unfold worker_failed.
  eapply (post_seq (fun s1 => s1 = wfail n w s)).
  - apply post_call; [done|done|done|]. intros Hst dc dw. eapply Ok_db; [done|exact HG].
  - intros s1 fs1 Hf1 ->. apply post_pure; [done|]. apply Ok_put. rewrite (right_id_L ∅ (∪)).
    eapply Ok_lift; [apply resp_upd_obj, gnorm_fails1| |exact HG]. intros. apply (Good_fails _ _ Hrow0 _ _ _ _ (fun c => S (c_fails c))). done.
Qed.
Lemma worker_released_ok k n w s : Ok None ∅ s -> busy s !! k = Some (InStartWorker n w) ->
  Ok (Some (n, Some w)) {[(n, Some w)]} (release k s) /\ Ok (Some (n, Some w)) {[(n, Some w)]} (wfail n w (release k s)).
Proof.
  intros HO Hk. split; [apply (release_ok k (InStartWorker n w)); done|].
  eapply (Ok_lift (fun s => wfail n w (release k s))); [apply resp_comp; [apply resp_update_worker|apply resp_release]| |exact HO].
  intros g HN HG. pose proof (N_rest _ _ HN) as (_ & _ & _ & _ & _ & _ & _ & _ & Eb & _).
  apply worker_submitted_good; [done|done|congruence|]. right. done.
Qed.
Lemma worker_submitted_ok k n w s fs : fok fs -> Ok None ∅ s -> busy s !! k = Some (InStartWorker n w) ->
  post (Ok (Some (n, Some w)) ∅) (Ok (Some (n, Some w)) {[(n, Some w)]})
    (orelse (call (update_worker n w (wset_status SUBMITTED))) (worker_failed n w) (release k s) fs).
Proof.
  intros Hf HO Hk. destruct (worker_released_ok k n w s HO Hk) as [H1 H2].
  assert (Ok (Some (n, Some w)) ∅ (update_worker n w (wset_status SUBMITTED) (release k s))) as H3.
  { eapply (Ok_lift (fun s => update_worker n w (wset_status SUBMITTED) (release k s))); [apply resp_comp; [apply resp_update_worker|apply resp_release]| |exact HO].
    intros g HN HG. pose proof (N_rest _ _ HN) as (_ & _ & _ & _ & _ & _ & _ & _ & Eb & _).
    apply worker_submitted_good; [done|done|congruence|]. left. done. }
  eapply (post_orelse _ (fun s1 => Ok (Some (n, Some w)) {[(n, Some w)]} s1 /\ Ok (Some (n, Some w)) {[(n, Some w)]} (wfail n w s1))).
  - apply post_call; [done|done|done|]. intros Hst dc dw.
    set (s1 := set_db_w dw (set_db_c dc (update_worker n w (wset_status SUBMITTED) (release k s)))).
    assert (Ok (Some (n, Some w)) ∅ s1) as H4 by (eapply Ok_db; [done|exact H3]).
    split; [eapply Ok_more; [|exact H4]; apply empty_subseteq|].
    eapply Ok_lift; [apply resp_update_worker| |exact H4]. intros g HN HG.
    rewrite <- (right_id_L ∅ (∪) {[(n, Some w)]}). apply wsubmitted_failed_good; [done| |done].
    intros c x Hc. revert c Hc x.
    apply (N_fact (fun d => forall x, x ∈ c_workers d -> w_name x = w -> w_status x = SUBMITTED) n s1); [|done|].
    { intros a b (_ & _ & _ & _ & _ & E1)%norm_inv. rewrite E1. done. }
    intros c Hc x Hx Hw. unfold s1 in Hc. simpl in Hc. destruct (objs s !! n) as [d|] eqn:Hd.
    + destruct (update_worker_spec n w (wset_status SUBMITTED) (release k s) d Hd) as [Ho _]. rewrite Ho, lookup_insert in Hc. injection Hc as <-. simpl in Hx.
      apply elem_of_list_In, in_map_iff in Hx as (y & <- & _). unfold at_worker in *. case_decide as E; [done|]. congruence.
    + rewrite update_worker_None in Hc by done. simpl in Hc. congruence.
  - intros s1 fs1 Hf1 [E1 E2]. apply worker_failed_ok; done.
Qed.
(** _cluster_to_stopped. *)
Lemma stop_prefix_good k n s c : Good None ∅ s -> busy s !! k = Some (InStopCluster n) -> objs s !! n = Some c ->
  Good (Some (n, None)) {[(n, None)]} (remove_routes n (release k s)) /\
  Good (Some (n, None)) {[(n, None)]} (update_workers n (map w_name (List.filter (fun w => jlt (w_status w) STOPPED) (c_workers c)))
     (fun w => wset_target STOPPED (wset_status STOPPED w)) (remove_routes n (release k s))).
Proof.
  intros HG Hk Hn. pose proof (g_cok _ _ _ _ (proj1 HG) _ _ Hn) as Hc.
  destruct (b_stop _ _ _ _ _ _ Hc) as [Hs Hrd]; [exists k; done|].
  assert (Good (Some (n, None)) {[(n, None)]} (remove_routes n (release k s))) as H1.
  { eapply (remove_routes_good cf s0 _ _ n c); [|done|done]. apply (release_good cf s0 Hrow0 k (InStopCluster n)); done. }
  split; [done|]. eapply (workers_stopped_good cf s0 Hrow0 _ _ n c); [done|done|done|done|set_solver].
Qed.
Lemma fcluster_stopped_ok k n now s fs : fok fs -> Ok None ∅ s -> busy s !! k = Some (InStopCluster n) ->
  post (Ok (Some (n, None)) ∅) (Ok (Some (n, None)) {[(n, None)]}) (fcluster_stopped n now (remove_routes n (release k s)) fs).
Proof.
  intros Hf HO Hk.
  assert (exists c, objs s !! n = Some c) as [c Hn].
  { destruct (Ok_ghost _ _ _ HO) as (g & HN & HG). pose proof (N_rest _ _ HN) as (_ & _ & _ & _ & _ & _ & _ & _ & Eb & _). rewrite <- Eb in Hk.
    destruct (g_pcs _ _ _ _ (proj1 HG) _ _ Hk) as (c & Hc & _). destruct (N_obj g s n c) as (d & Hd & _); [done|done|]. eauto. }
  set (ws := map w_name (List.filter (fun w => jlt (w_status w) STOPPED) (c_workers c))).
  set (f1 := update_workers n ws (fun w => wset_target STOPPED (wset_status STOPPED w))).
  set (f2 := update_cluster n (fun r => rset_stop (Some now) (rset_status (r_target r) r))).
  assert (forall g, N g = N s -> busy g !! k = Some (InStopCluster n) /\ exists d, objs g !! n = Some d /\ c_workers d = c_workers c) as Hg.
  { intros g HN. pose proof (N_rest _ _ HN) as (_ & _ & _ & _ & _ & _ & _ & _ & Eb & _). split; [congruence|].
    destruct (N_stopped_ws s g n c) as (d & G1 & G2 & _); [done|done|]. eauto. }
  assert (resp (fun s => remove_routes n (release k s))) as R0 by (apply resp_comp; [apply resp_remove_routes|apply resp_release]).
  assert (Ok (Some (n, None)) {[(n, None)]} (remove_routes n (release k s))) as H1.
  { eapply (Ok_lift (fun s => remove_routes n (release k s))); [done| |exact HO].
    intros g HN HG. destruct (Hg g HN) as (G1 & d & G2 & G3). apply (stop_prefix_good k n g d HG G1 G2). }
  assert (Ok (Some (n, None)) {[(n, None)]} (f1 (remove_routes n (release k s)))) as H2.
  { eapply (Ok_lift (fun s => f1 (remove_routes n (release k s)))); [apply (resp_comp f1); [apply resp_update_workers|done]| |exact HO].
    intros g HN HG. destruct (Hg g HN) as (G1 & d & G2 & G3). unfold f1, ws. rewrite <- G3. apply (stop_prefix_good k n g d HG G1 G2). }
  assert (Ok (Some (n, None)) ∅ (cluster_stopped n now (remove_routes n (release k s)))) as H3.
  { eapply (Ok_lift (fun s => cluster_stopped n now (remove_routes n (release k s)))); [apply (resp_comp (cluster_stopped n now)); [apply resp_cluster_stopped|done]| |exact HO].
    intros g HN HG. destruct (Hg g HN) as (G1 & d & G2 & G3). apply cluster_stopped_good; done. }
  unfold fcluster_stopped. unfold cluster_stopped in H3. change (objs (remove_routes n (release k s))) with (objs s) in *. rewrite Hn in *.
  fold ws in H3. fold ws. fold f1. fold f1 in H3. fold f2. fold f2 in H3.
  eapply (post_seq (fun s1 => s1 = f1 (remove_routes n (release k s)))).
  { apply post_call_for; [done| |done|done|].
    - intros E. unfold f1. rewrite E. done.
    - intros Hst dc dw. eapply Ok_db; [done|exact H2]. }
  clear fs Hf. intros s1 fs Hf ->. eapply (post_seq (fun s2 => s2 = f2 (f1 (remove_routes n (release k s))))).
  { apply post_call; [done|done|done|]. intros Hst dc dw. apply (Ok_db _ ∅); [done|]. eapply (Ok_flag _ ∅ _ n); [done| |exact H3]. done. }
  intros s2 fs2 Hf2 ->. apply post_pure; done.
Qed.
Lemma fresume_ok k o now lt fs s : fok fs -> Ok None ∅ s -> Ok None ∅ (fresume cf k o now lt fs s).1.
Proof.
  intros Hf HO. unfold fresume. destruct (busy s !! k) as [p|] eqn:Hk; [|done].
  assert (forall f, (forall s, busy (f s) = busy s) -> resp f -> (forall g, Good None ∅ g -> Good None ∅ (f g)) ->
     match call f s fs with (s1, fs1, b) => fok fs1 /\ Ok None ∅ s1 /\ busy s1 = busy s end) as Hstate.
  { intros f Hb Hr Hgd. assert (Ok None ∅ (f s)) as H1 by (eapply Ok_lift; [done| |exact HO]; auto).
    destruct (call f s fs) as [[s1 fs1] b] eqn:Hc.
    destruct (call_inv strict s0 f s fs s1 fs1 b Hc Hf) as (Hf' & [(-> & ->)|[(-> & ->)|(-> & Hs & dc & dw & ->)]]); (split; [done|]); split; auto; [|apply Hb].
    eapply Ok_db; [done|exact H1]. }
  destruct p as [n|n|n w|n w], o as [st| |]; cbv zeta.
  - specialize (Hstate (update_cluster n (rset_state st))). destruct (call _ s fs) as [[s1 fs1] b].
    destruct Hstate as (H1 & H2 & H3).
    + intros t. unfold update_cluster. destruct (objs t !! n); done.
    + apply resp_update_cluster.
    + intros g HG. apply Good_cstate; done.
    + destruct b; [done|]. rewrite <- H3 in Hk. destruct (cluster_released_ok k n s1 H2 Hk). simpl. apply post_settle'. apply cluster_failed_ok; done.
  - apply post_settle', cluster_submitted_ok; done.
  - destruct (cluster_released_ok k n s HO Hk). apply post_settle', cluster_failed_ok; done.
  - done.
  - apply post_settle', fcluster_stopped_ok; done.
  - apply post_settle', fcluster_stopped_ok; done.
  - specialize (Hstate (update_worker n w (wset_state st))). destruct (call _ s fs) as [[s1 fs1] b].
    destruct Hstate as (H1 & H2 & H3).
    + intros t. unfold update_worker. destruct (get_worker n w t); done.
    + apply resp_update_worker.
    + intros g HG. apply Good_wstate; done.
    + destruct b; [done|]. rewrite <- H3 in Hk. destruct (worker_released_ok k n w s1 H2 Hk). simpl. apply post_settle'. apply worker_failed_ok; done.
  - apply post_settle', worker_submitted_ok; done.
  - destruct (worker_released_ok k n w s HO Hk). apply post_settle', worker_failed_ok; done.
  - done.
  - apply post_settle'. apply worker_stopped_rest_ok; [done|apply (release_ok k (InStopWorker n w)); done| |].
    + intros _. destruct (Ok_ghost _ _ _ HO) as (g & HN & HG). pose proof (N_rest _ _ HN) as (_ & _ & _ & _ & _ & _ & _ & _ & Eb & _).
      exists (release k g). split; [apply resp_release; done|]. destruct (worker_stopped_same n w now (release k g)) as (E1 & E2 & _).
      eapply unrest_good; [apply (worker_stop_good cf s0 Hrow0 k n w now g HG); congruence| |].
      * rewrite E1. apply HG.
      * rewrite E1, E2. simpl. intros k' p' Hk'. apply lookup_delete_Some in Hk' as [_ Hk']. eapply (g_tasks _ _ _ _ (proj1 HG)). exact Hk'.
    + eapply (Ok_lift (fun s => worker_stopped_rest cf n w (worker_stopped n w now (release k s)))); [|intros g HN HG|exact HO].
      * apply (resp_comp (worker_stopped_rest cf n w)); [apply resp_rest|]. apply resp_comp; [apply resp_worker_stopped|apply resp_release].
      * pose proof (N_rest _ _ HN) as (_ & _ & _ & _ & _ & _ & _ & _ & Eb & _). apply worker_stop_good; [done|done|congruence].
  - apply post_settle'. apply worker_stopped_rest_ok; [done|apply (release_ok k (InStopWorker n w)); done| |].
    + intros _. destruct (Ok_ghost _ _ _ HO) as (g & HN & HG). pose proof (N_rest _ _ HN) as (_ & _ & _ & _ & _ & _ & _ & _ & Eb & _).
      exists (release k g). split; [apply resp_release; done|]. destruct (worker_stopped_same n w now (release k g)) as (E1 & E2 & _).
      eapply unrest_good; [apply (worker_stop_good cf s0 Hrow0 k n w now g HG); congruence| |].
      * rewrite E1. apply HG.
      * rewrite E1, E2. simpl. intros k' p' Hk'. apply lookup_delete_Some in Hk' as [_ Hk']. eapply (g_tasks _ _ _ _ (proj1 HG)). exact Hk'.
    + eapply (Ok_lift (fun s => worker_stopped_rest cf n w (worker_stopped n w now (release k s)))); [|intros g HN HG|exact HO].
      * apply (resp_comp (worker_stopped_rest cf n w)); [apply resp_rest|]. apply resp_comp; [apply resp_worker_stopped|apply resp_release].
      * pose proof (N_rest _ _ HN) as (_ & _ & _ & _ & _ & _ & _ & _ & Eb & _). apply worker_stop_good; [done|done|congruence].
Qed.

(** * Every event but a restart *)
Lemma fgot_ok k now lt fs s q' r : fok fs -> Ok None ∅ s -> busy s !! k = None -> get_turn k (q s) = (q', r) ->
  Ok None ∅ (fgot cf k now lt fs s (as_out k (q', r))).1.
Proof.
  intros Hf HO Hk Ht. destruct r as [[x| | |]|]; simpl;
    try (destruct (get_turn_other _ _ _ _ Ht) as (H1 & H2 & H3 & H4 & H5); [done|];
         apply Ok_queue; auto; intros j p Hj Hq; apply H5; [congruence|done]).
  pose proof (Ok_enter cf strict s0 k q' x s HO Hk Ht) as HO1. destruct (get_turn_item _ _ _ _ Ht) as (H1 & H2 & H3 & H4 & H5).
  assert (busy (set_q q' s) !! k = None) as B1 by done.
  assert (tasks (q (set_q q' s)) !! k = None) as B2 by (simpl; rewrite H5; apply lookup_delete).
  unfold freconcile. destruct x as [n [w|]]; cbn [fst snd].
  - apply freconcile_worker_ok; done.
  - apply freconcile_cluster_ok; done.
Qed.
Definition faults_of (fe : fevent) : list fault := match fe with FE _ _ fs => fs | FTimer _ _ => [] end.
Definition frestart (fe : fevent) : bool := match fe with FE e _ _ => is_restart e | FTimer _ _ => false end.
Lemma fstep_ok fe s : frestart fe = false -> fok (faults_of fe) -> Ok None ∅ s -> Ok None ∅ (fstep cf s fe).1.
Proof.
  intros Hr Hf HO. destruct fe as [e lt fs|lt x]; [|cbn [fstep fst]; apply Ok_timer; done]. simpl in Hr, Hf.
  destruct e; try discriminate Hr; cbn [fstep fst].
  - apply fstart_ok; done.
  - apply fstop_ok; done.
  - apply fheartbeat_ok; done.
  - destruct (down s); [done|]. apply fcheck_timeouts_ok; done.
  - simpl. destruct (down s); [done|]. destruct (chk_c s); [done|]. apply (Ok_same cf strict s0 None ∅ s); done.
  - destruct oks; [apply fcheck_clusters_ok; done|]. apply (Ok_same cf strict s0 None ∅ s); done.
  - simpl. destruct (down s); [done|]. destruct (chk_w s); [done|]. apply (Ok_same cf strict s0 None ∅ s); done.
  - destruct oks; [apply fcheck_workers_ok; done|]. apply (Ok_same cf strict s0 None ∅ s); done.
  - destruct (down s); [done|]. apply fcleanup_ok; done.
  - case_decide; [|done]. destruct (busy s !! k) eqn:Hb; [done|]. destruct (tasks (q s) !! k) eqn:Ht; [done|].
    simpl. rewrite Ht. destruct (get_turn k (q s)) as [q' r] eqn:Hg. apply fgot_ok; done.
  - simpl. destruct (tasks (q s) !! k) as [[]|] eqn:Hk; simpl.
    + apply Ok_queue; done.
    + destruct (get_turn k (q s)) as [q' r] eqn:Ht. apply fgot_ok; auto.
      destruct (busy s !! k) as [p|] eqn:Hb; [|done]. destruct (Ok_ghost _ _ _ HO) as (g & HN & HG).
      pose proof (N_rest _ _ HN) as (_ & _ & _ & _ & _ & _ & _ & _ & Eb & _). pose proof (N_q _ _ HN) as (_ & _ & _ & Et).
      rewrite <- Eb in Hb. apply (g_tasks _ _ _ _ (proj1 HG)) in Hb. congruence.
    + apply Ok_queue; [done|done|done|done|done|]. intros j p Hj Hq. simpl. apply lookup_delete_None. auto.
    + apply Ok_queue; done.
  - apply fresume_ok; done.
  - destruct (down s); [done|]. apply fshutdown_ok; done.
  - cbn [plain fst step]. unfold close_queue. destruct (down s); [|done]. destruct (forallb _ _); [|done].
    apply Ok_queue; [done|done|done|done|done|]. intros j p Hj Hq. unfold close, wakeup_all. simpl. apply wakeup_all_None. done.
Qed.
End steps.
