(** Liveness with failing database calls: once they work again, the timers of the
    retried items run out, and what follows is a run of Gateway_Model. *)
From Coq Require Import ZArith Lia.
From stdpp Require Import prelude gmap.
From Verif Require Import Trace WorkQueue_Model WorkQueue_Proofs Router_Model Gateway_Model Gateway_Inv Gateway_Steps Gateway_Proofs Gateway_Sync Gateway_Steps4 Gateway_Queue Gateway_Hist
  Gateway_Spec Gateway_Spec3 Gateway_Live Gateway_Live2 Fault_Model Fault_Spec Fault_Spec2 Fault_Chain Fault_Hist Fault_Proofs Fault_Adequacy Fault_Queue.
Open Scope Z_scope.

(** * The queue *)
Lemma Q_timers cf t a : Q cf a -> Q cf (set_timers t a).
Proof. intros [[H1 H2 H3] H4 H5]. constructor; [constructor|..]; done. Qed.
Lemma Q_failures cf t a : Q cf a -> Q cf (set_failures t a).
Proof. intros [[H1 H2 H3] H4 H5]. constructor; [constructor|..]; done. Qed.
Lemma Q_task_done cf x a : Q cf a -> Q cf (task_done x a).
Proof.
  intros [[H1 H2 H3] H4 H5]. unfold task_done. cbv zeta. case_decide.
  - constructor.
    + apply W_wakeup; simpl; auto. intros Hb. rewrite app_length. specialize (H2 Hb). simpl. lia.
    + intros k. rewrite wake_tasks. simpl. intros [st Hk]. apply aux_dom in Hk as [Hk _]. auto.
    + intros k. rewrite wake_tasks. simpl. intros Hk. apply aux_dom in Hk as [_ Hk]. eapply H5. auto.
  - constructor; [constructor|..]; done.
Qed.
Lemma Q_step cf a e : used (parallelism cf) true e -> Q cf a -> Q cf (WorkQueue_Model.step a e).1.
Proof.
  intros Hu HQ. destruct e as [y|now y dl|now y|y|now y|c|c|c|y|]; cbn [WorkQueue_Model.step fst used] in *; try done.
  - apply Q_put. done.
  - unfold put_backoff, backoff, put_after. set (b := set_failures _ a). assert (Q cf b) as Hb by (apply Q_failures; done). clearbody b.
    destruct (timers b !! y) as [w|]; [destruct (_ <? w)|]; cbv zeta; try destruct (0 <? _); try apply Q_put; try apply Q_timers; done.
  - apply Q_failures. done.
  - destruct (timers a !! y) as [w|]; [destruct (w <=? now)|]; [|done..]. cbn [fst]. unfold put_delayed. apply Q_put, Q_timers. done.
  - destruct (tasks a !! c) eqn:Ht; [done|]. destruct (get_turn c a) as [a' r] eqn:Hg. assert (Q cf a') by (eapply Q_turn; eauto). destruct r; done.
  - destruct (tasks a !! c) as [[]|] eqn:Ht; try done.
    + assert (c < parallelism cf)%nat by (apply (q_par _ _ HQ); eauto). destruct (get_turn c a) as [a' r] eqn:Hg. assert (Q cf a') by (eapply Q_turn; eauto). destruct r; done.
    + destruct (q_nc _ _ HQ c Ht).
  - apply Q_task_done. done.
  - apply Q_close. done.
Qed.
Lemma freach_Q cf h s : freach cf h s -> Q cf (q s).
Proof. apply (queue_used (Q cf)); [|apply Q_init]. intros qq e. apply Q_step. Qed.

(** * The invariant *)
Lemma only_app P h1 h2 : only P (h1 ++ h2) <-> only P h1 /\ only P h2.
Proof.
  split.
  - intros H. split; intros fe o f Hin; apply (H fe o f), elem_of_app; auto.
  - intros [H1 H2] fe o f [Hin|Hin]%elem_of_app; eauto.
Qed.
(** The faults a restart carries are not used. *)
Definition strip (p : fevent * list fobs) : fevent * list fobs :=
  match p with (FE (ERestart now) lt fs, o) => (FE (ERestart now) lt [], o) | _ => p end.
Lemma strip_reach cf h s : freach cf h s -> freach cf (map strip h) s.
Proof.
  revert h s. apply (exec_ind_r (fstep cf) (gw_init cf) (fun h s => freach cf (map strip h) s)); [constructor|].
  intros h s fe o s' _ IH Hs. rewrite map_app. apply exec_app. exists s. split; [exact IH|]. cbn [map].
  destruct fe as [[]|]; (econstructor; [exact Hs|constructor]).
Qed.
Lemma strip_only P h1 now lt fs o h2 : only P h1 -> only P h2 -> only P (map strip (h1 ++ (FE (ERestart now) lt fs, o) :: h2)).
Proof.
  intros H1 H2. assert (forall h, only P h -> only P (map strip h)) as H.
  { intros h Hh fe o' f Hin Hf. apply elem_of_list_fmap in Hin as ([fe1 o1] & E & Hin).
    assert (f ∈ faults fe1) as Hf1; [|exact (Hh _ _ _ Hin Hf1)]. destruct fe1 as [[]|]; cbn [strip] in E; injection E as -> ->; try exact Hf. inversion Hf. }
  rewrite map_app. apply only_app. split; [by apply H|]. cbn [map strip]. intros fe o' f [E|Hin]%elem_of_cons Hf; [injection E as -> ->; inversion Hf|]. exact (H h2 H2 _ _ _ Hin Hf).
Qed.
Lemma healed_inv cf h s : fresh_ids cf -> healed h -> freach cf h s -> Inv cf None ∅ s.
Proof.
  intros Hid [Hc|(h1 & now & lt & fs & o & h2 & -> & Hk & Hc)] Hr; [eapply clean_inv; eauto; split; auto|].
  apply freach_app in Hr as (s1 & Hr1 & Hl). inversion Hl as [|? ? ? s2 ? ? Hs Hl']; subst. cbn [fstep step plain fst] in Hs. injection Hs as <- _.
  assert (alloweds true h1) as Ha1 by (intros fe o' Hin Hr; by apply (Hk fe o' RolledBack Hin Hr)).
  assert (alloweds true h2) as Ha2 by (intros fe o' Hin Hr; by apply (clean_kept _ Hc fe o' RolledBack Hin Hr)).
  pose proof (Mode_reach cf true h1 s1 Ha1 (fun _ => Hid) Hr1) as HM.
  pose proof (Mode_step cf true s1 (FE (ERestart now) lt []) ltac:(simpl; set_solver) HM) as [HM2 _]. cbn [fstep step plain fst] in HM2.
  eapply (strict_leads cf true h2); eauto.
  destruct HM as [HL HM]. destruct (HM eq_refl) as (fc & fw & Hidf & Hy & _). eapply frestart_inv; eauto.
Qed.
Lemma healed_sync cf h s : fresh_ids cf -> healed h -> freach cf h s -> exists fc fw, Sync fc fw s.
Proof.
  intros Hid [H|(h1 & now & lt & fs & o & h2 & -> & H1 & H2)] Hr.
  - destruct (kept_sync cf h s Hid (clean_kept _ H) Hr) as (fc & fw & _ & Hy & _). eauto.
  - apply strip_reach in Hr. pose proof (strip_only kept h1 now lt fs o h2 H1 (clean_kept _ H2)) as Hk.
    destruct (kept_sync cf _ s Hid Hk Hr) as (fc & fw & _ & Hy & _). eauto.
Qed.
Lemma healed_snoc h fe o : healed h -> (forall f, f ∈ faults fe -> clean f) -> healed (h ++ [(fe, o)]).
Proof.
  intros Hh Hf. assert (only clean [(fe, o)]) as H. { intros fe' o' f [= -> ->]%elem_of_list_singleton. apply Hf. }
  destruct Hh as [Hh|(h1 & now & lt & fs & o' & h2 & -> & H1 & H2)]; [left; apply only_app; done|].
  right. exists h1, now, lt, fs, o', (h2 ++ [(fe, o)]). split; [rewrite <- app_assoc; done|]. split; [done|]. apply only_app. done.
Qed.

(** * Runs *)
Section run.
Context (cf : cfg) (run : nat -> gw) (ev : nat -> fevent).
Hypothesis HE : fendless cf run ev.
Hypothesis HF : ffair cf run ev.

Lemma frun_reach i : exists h, freach cf h (run i) /\ healed h.
Proof.
  induction i as [|i (h & Hr & Hh)]; [apply (fe_from _ _ _ HE)|].
  destruct (fstep cf (run i) (ev i)) as [s' o] eqn:Hs. exists (h ++ [(ev i, o)]). split.
  - apply exec_app. exists (run i). split; [exact Hr|]. rewrite (fe_step _ _ _ HE), Hs. econstructor; [exact Hs|constructor].
  - apply healed_snoc; [done|]. apply (fe_clean _ _ _ HE).
Qed.
Lemma frun_inv i : Inv cf None ∅ (run i).
Proof. destruct (frun_reach i) as (h & Hr & Hh). eapply healed_inv; eauto. apply (fe_ids _ _ _ HE). Qed.
Lemma frun_evolve i j : (i <= j)%nat -> Evolve (run i) (run j).
Proof.
  intros Hij. induction Hij as [|j Hij IH]; [apply Evolve_refl|]. eapply Evolve_trans; [|exact IH|].
  - intros n c Hn. apply (k_row _ _ _ _ _ _ (g_cok _ _ _ _ (frun_inv i) _ _ Hn)).
  - rewrite (fe_step _ _ _ HE). apply (fstep_loose cf); [apply (fe_life _ _ _ HE)|apply LInv_of, frun_inv].
Qed.
Lemma frun_plain i e lt : ev i = FE e lt [] -> run (S i) = (step cf (run i) e).1.
Proof.
  intros He. rewrite (fe_step _ _ _ HE), He. destruct (frun_reach i) as (h & Hr & Hh).
  destruct (healed_sync cf h (run i) (fe_ids _ _ _ HE) Hh Hr) as (fc & fw & Hy). rewrite (no_fault _ _ _ _ _ _ Hy). done.
Qed.

(** After the last failure timers only run out. *)
Lemma timers_step i : faults (ev i) = [] -> timers (q (run (S i))) ⊆ timers (q (run i)) /\
  forall x lt t, ev i = FTimer lt x -> timers (q (run i)) !! x = Some t -> t <= lt -> timers (q (run (S i))) = delete x (timers (q (run i))).
Proof.
  intros Hf. destruct (ev i) as [e lt fs|lt x] eqn:He; cbn [faults] in Hf.
  - subst fs. rewrite (frun_plain i e lt He), step_timers; [done|]. pose proof (fe_life _ _ _ HE i) as H. rewrite He in H. exact H.
  - rewrite (fe_step _ _ _ HE), He. cbn [fstep fst q set_q WorkQueue_Model.step].
    assert (timers (put_delayed x (q (run i))) = delete x (timers (q (run i)))) as Hd by (unfold put_delayed, put; rewrite timers_wakeup; unfold put_; repeat case_decide; done). split.
    + destruct (timers (q (run i)) !! x) as [w|]; [destruct (w <=? lt)|]; cbn [fst]; [|done..]. rewrite Hd. apply delete_subseteq.
    + intros x' lt' t [= <- <-] Ht Hle. rewrite Ht. apply Z.leb_le in Hle. rewrite Hle. exact Hd.
Qed.
Lemma timers_mono j0 i j : (forall i, (j0 <= i)%nat -> faults (ev i) = []) -> (j0 <= i)%nat -> (i <= j)%nat -> timers (q (run j)) ⊆ timers (q (run i)).
Proof.
  intros H0 Hi Hij. induction Hij as [|j Hij IH]; [done|]. etrans; [|exact IH]. apply timers_step, H0. lia.
Qed.
Lemma timers_out j0 i : (forall i, (j0 <= i)%nat -> faults (ev i) = []) -> (j0 <= i)%nat -> exists j, (i <= j)%nat /\ timers (q (run j)) = ∅.
Proof.
  intros H0. remember (timers (q (run i))) as m eqn:Hm. revert i Hm. induction (map_wf m) as [m _ IH]. intros i Hm Hi. subst m.
  destruct (decide (timers (q (run i)) = ∅)) as [E|E]; [exists i; done|]. apply map_choose in E as (x & t & Hx).
  assert (exists j, (i <= j)%nat /\ timers (q (run j)) !! x <> Some t) as (j & Hij & Hj).
  { destruct (ff_timer _ _ _ HF i x t Hx) as (j & Hij & [Hj|(lt & He & Hle)]); [exists j; done|].
    destruct (decide (timers (q (run j)) !! x = Some t)) as [Ht|Ht]; [|exists j; done].
    exists (S j). split; [lia|]. destruct (timers_step j) as [_ H]; [apply H0; lia|]. rewrite (H x lt t He Ht Hle), lookup_delete. done. }
  destruct (IH (timers (q (run j)))) with (i := j) as (l & Hl & E); [|done|lia|exists l; split; [lia|done]].
  split; [apply (timers_mono j0); done|]. intros Hs. apply Hj. eapply lookup_weaken; eauto.
Qed.

(** What follows is a run of Gateway_Model. *)
Definition gevent (fe : fevent) : event := match fe with FE e _ _ => e | FTimer _ _ => EGet (parallelism cf) 0 end.
Lemma calms : exists j0, ongoing cf (fun i => run (j0 + i)%nat) (fun i => gevent (ev (j0 + i))) /\ fair cf (fun i => run (j0 + i)%nat) (fun i => gevent (ev (j0 + i))).
Proof.
  destruct (fe_works _ _ _ HE) as (j0 & H0). destruct (timers_out j0 j0 H0 ltac:(lia)) as (j1 & H1 & Ht). exists j1.
  assert (forall i, timers (q (run (j1 + i))) = ∅) as Hti.
  { intros i. pose proof (timers_mono j0 j1 (j1 + i) H0 H1 ltac:(lia)) as H. rewrite Ht in H. apply map_empty. intros x.
    destruct (timers (q (run (j1 + i))) !! x) as [t|] eqn:E; [|done]. eapply lookup_weaken in E; [|exact H]. rewrite lookup_empty in E. done. }
  split.
  - constructor.
    + rewrite Nat.add_0_r. apply frun_inv.
    + destruct (frun_reach (j1 + 0)) as (h & Hr & _). eapply freach_Q; eauto.
    + apply Hti.
    + intros i. rewrite Nat.add_succ_r. destruct (ev (j1 + i)) as [e lt fs|lt x] eqn:He.
      * pose proof (H0 (j1 + i)%nat ltac:(lia)) as Hf. rewrite He in Hf. cbn [faults] in Hf. subst fs. apply (frun_plain _ _ lt). exact He.
      * rewrite (fe_step _ _ _ HE), He. cbn [gevent step fstep fst WorkQueue_Model.step]. rewrite Hti, lookup_empty. rewrite decide_False by lia.
        cbn [fst]. destruct (run (j1 + i)). done.
    + intros i. pose proof (fe_life _ _ _ HE (j1 + i)) as H. destruct (ev (j1 + i)); [exact H|done].
    + intros i. apply (fe_open _ _ _ HE).
  - constructor.
    + apply (ff_some _ _ _ HF).
    + intros i k Hk. destruct (ff_get _ _ _ HF (j1 + i) k Hk) as (j & now & lt & fs & Hj & He). exists (j - j1)%nat, now. split; [lia|].
      replace (j1 + (j - j1))%nat with j by lia. rewrite He. done.
    + intros i k Hk. destruct (ff_wake _ _ _ HF (j1 + i) k Hk) as (j & now & lt & fs & Hj & He). exists (j - j1)%nat, now. split; [lia|].
      replace (j1 + (j - j1))%nat with j by lia. rewrite He. done.
    + intros i k Hk. destruct (ff_ends _ _ _ HF (j1 + i) k Hk) as (j & o & now & lt & fs & Hj & He & Ho). exists (j - j1)%nat, o, now. split; [lia|].
      replace (j1 + (j - j1))%nat with j by lia. rewrite He. done.
Qed.
(** What holds from some point of that run on. *)
Lemma calm_forever (P : gw -> Prop) j0 i : (exists j, (i <= j)%nat /\ forall l, (j <= l)%nat -> P (run (j0 + l)%nat)) ->
  exists j, (j0 + i <= j)%nat /\ forall l, (j <= l)%nat -> P (run l).
Proof.
  intros (j & Hij & Hj). exists (j0 + j)%nat. split; [lia|]. intros l Hl. specialize (Hj (l - j0)%nat ltac:(lia)).
  replace (j0 + (l - j0))%nat with l in Hj by lia. exact Hj.
Qed.

Lemma fcluster_later i j n c : (i <= j)%nat -> objs (run i) !! n = Some c -> exists d, objs (run j) !! n = Some d /\ evolve c d.
Proof. intros Hij Hn. apply (frun_evolve i j Hij n c Hn). Qed.
Lemma fworker_later i j n w x : (i <= j)%nat -> has_worker (run i) n w x -> exists y, has_worker (run j) n w y /\ wevolve x y.
Proof.
  intros Hij (c & Hn & Hx & Hw). destruct (fcluster_later i j n c Hij Hn) as (c' & Hn' & E).
  destruct (e_workers _ _ E) as (ws1 & ws2 & Hws & HF2 & _). destruct (Forall2_in_l _ _ _ _ HF2 Hx) as (y & Hy & Hev).
  exists y. split; [|done]. exists c'. split; [done|]. split; [rewrite Hws; apply elem_of_app; auto|]. rewrite (we_name _ _ Hev). done.
Qed.
Lemma frow i n c : objs (run i) !! n = Some c -> row_ok (c_row c).
Proof. intros Hn. apply (k_row _ _ _ _ _ _ (g_cok _ _ _ _ (frun_inv i) _ _ Hn)). Qed.
Lemma fto_end_later i j n : (i <= j)%nat -> to_end (run i) n -> to_end (run j) n.
Proof.
  intros Hij (c & Hn & Ht). destruct (fcluster_later i j n c Hij Hn) as (d & Hd & Hev). exists d. split; [done|].
  pose proof (e_target _ _ Hev). destruct (not_running_fin c (frow i n c Hn) Ht) as [E1|E1]; rewrite E1 in *; intros E2; rewrite E2 in *; simpl in *; lia.
Qed.

Lemma ftold_ends i n : to_end (run i) n -> exists j, (i <= j)%nat /\ forall l, (j <= l)%nat -> ended (run l) n.
Proof.
  intros H. destruct calms as (j0 & HO & HFa). apply (fto_end_later i (j0 + i)) in H; [|lia].
  destruct (calm_forever (fun s => ended s n) j0 i) as (j & Hj & Hl); [apply (told_ends cf _ _ HO HFa i n H)|]. exists j. split; [lia|done].
Qed.
Lemma fstop_ends i n f lt fs c : ev i = FE (EStop n f) lt fs -> lookup_cluster n (run i) = Some c -> FError ∉ (fstep cf (run i) (ev i)).2 ->
  exists j, (i <= j)%nat /\ forall l, (j <= l)%nat -> ended (run l) n.
Proof.
  intros He Hl Hok. destruct (ftold_ends (S i) n) as (j & Hj & H); [|exists j; split; [lia|done]].
  rewrite (fe_step _ _ _ HE), He in *. cbn [fstep] in *. unfold fstop_cluster in *. rewrite Hl in *. pose proof (lookup_obj _ _ _ Hl) as [Hn _].
  destruct (jge RUNNING (c_target c)) eqn:E.
  - assert (to_end (qput (n, None) (update_cluster n (rset_target (if f then FAILED else STOPPED)) (run i))) n) as Ht.
    { destruct (update_cluster_spec n (rset_target (if f then FAILED else STOPPED)) (run i) c Hn) as [Ho _].
      eexists. cbn [objs qput set_q]. rewrite Ho, lookup_insert. split; [done|]. destruct f; done. }
    destruct fs as [|[] fs]; cbn [call seq pure answer fst snd] in *; try exact Ht; exfalso; apply Hok; left.
  - exists c. split; [done|]. intros E2. rewrite E2 in E. done.
Qed.
Lemma fworker_told i n w x : has_worker (run i) n w x -> finished (w_target x) ->
  exists j, (i <= j)%nat /\ forall l, (j <= l)%nat -> exists y, has_worker (run l) n w y /\ finished (w_status y).
Proof.
  intros Hx Hf. destruct calms as (j0 & HO & HFa). destruct (fworker_later i (j0 + i) n w x ltac:(lia) Hx) as (y & Hy & Hev).
  destruct (calm_forever (fun s => exists y, has_worker s n w y /\ finished (w_status y)) j0 i) as (j & Hj & Hl); [|exists j; split; [lia|done]].
  apply (worker_told cf _ _ HO HFa i n w y Hy). apply fin_iff, (we_target2 _ _ Hev), fin_iff, Hf.
Qed.
Lemma fcreated_starts i n c : objs (run i) !! n = Some c ->
  exists j, (i <= j)%nat /\ forall l, (j <= l)%nat -> exists d, objs (run l) !! n = Some d /\ c_status d <> CREATED.
Proof.
  intros Hn. destruct calms as (j0 & HO & HFa). destruct (fcluster_later i (j0 + i) n c ltac:(lia) Hn) as (d & Hd & _).
  destruct (calm_forever (fun s => exists d, objs s !! n = Some d /\ c_status d <> CREATED) j0 i) as (j & Hj & Hl); [|exists j; split; [lia|done]].
  apply (created_starts cf _ _ HO HFa i n d Hd).
Qed.
Lemma fcreated_wstarts i n w x : has_worker (run i) n w x ->
  exists j, (i <= j)%nat /\ forall l, (j <= l)%nat -> exists y, has_worker (run l) n w y /\ w_status y <> CREATED.
Proof.
  intros Hn. destruct calms as (j0 & HO & HFa). destruct (fworker_later i (j0 + i) n w x ltac:(lia) Hn) as (d & Hd & _).
  destruct (calm_forever (fun s => exists y, has_worker s n w y /\ w_status y <> CREATED) j0 i) as (j & Hj & Hl); [|exists j; split; [lia|done]].
  apply (created_wstarts cf _ _ HO HFa i n w d Hd).
Qed.
Lemma frunning_up i n c : objs (run i) !! n = Some c -> c_status c = RUNNING -> exists j, (i <= j)%nat /\ (up (run j) n \/ to_end (run j) n).
Proof.
  intros Hn Hst. destruct calms as (j0 & HO & HFa). destruct (fcluster_later i (j0 + i) n c ltac:(lia) Hn) as (d & Hd & Hev).
  destruct (decide (c_target d = RUNNING)) as [Htd|Htd]; [|exists (j0 + i)%nat; split; [lia|right; exists d; done]].
  assert (c_status d = RUNNING) as Hsd.
  { pose proof (e_status _ _ Hev) as H. rewrite Hst in H. pose proof (frow (j0 + i) n d Hd) as Hro.
    unfold c_status, c_target in *. destruct (r_status (c_row d)) eqn:E; simpl in H; try lia; try done; exfalso.
    - apply (ro_closing _ Hro E). done.
    - apply (ro_stopped _ Hro E). done.
    - pose proof (ro_failed _ Hro E). congruence. }
  destruct (running_up cf _ _ HO HFa i n d Hd Hsd) as (j & Hj & H). exists (j0 + j)%nat. split; [lia|done].
Qed.
End run.

(** * Such runs exist *)
(** First [pre], then turns, ends and timers for everybody, again and again. *)
Definition fturns (i : nat) : fevent :=
  let '(k, b) := Cantor.of_nat i in
  match (b mod 4)%nat with
  | O => FE (EGet k 0) 0 []
  | 1%nat => FE (EWake k 0) 0 []
  | 2%nat => FE (EBackend k Ends 0) 0 []
  | _ => FTimer (Z.of_nat b) (default (0%nat, None) (decode_nat k))
  end.
Definition fevs_of (pre : list fevent) (i : nat) : fevent := match pre !! i with Some e => e | None => fturns i end.
Fixpoint frun_of (cf : cfg) (s : gw) (ev : nat -> fevent) (i : nat) : gw :=
  match i with O => s | S i => (fstep cf (frun_of cf s ev i) (ev i)).1 end.
Lemma fturns_again i m k r (pre : list fevent) : (r < 4)%nat ->
  exists j b, (i <= j)%nat /\ (m <= b)%nat /\ pre !! j = None /\ Cantor.of_nat j = (k, b) /\ (b mod 4 = r)%nat.
Proof.
  intros Hr. set (b := (4 * (i + m + length pre) + r)%nat). exists (Cantor.to_nat (k, b)), b. pose proof (Cantor.to_nat_non_decreasing k b) as H.
  split; [lia|]. split; [lia|]. split; [apply lookup_ge_None; lia|]. split; [apply Cantor.cancel_of_to|].
  unfold b. rewrite Nat.add_comm, Nat.mul_comm, Nat.mod_add by lia. apply Nat.mod_small. lia.
Qed.
Lemma fturns_case i : (exists k, fturns i = FE (EGet k 0) 0 []) \/ (exists k, fturns i = FE (EWake k 0) 0 []) \/ (exists k, fturns i = FE (EBackend k Ends 0) 0 []) \/
  exists lt x, fturns i = FTimer lt x.
Proof. unfold fturns. destruct (Cantor.of_nat i) as [k b]. destruct (b mod 4)%nat as [|[|[|]]]; eauto 10. Qed.
Lemma fturns_fair cf s pre : (0 < parallelism cf)%nat -> ffair cf (frun_of cf s (fevs_of pre)) (fevs_of pre).
Proof.
  intros Hp. constructor; [done|..].
  - intros i k _. destruct (fturns_again i 0 k 0 pre) as (j & b & Hij & _ & Hn & Hb & Hm); [lia|]. exists j, 0, 0, []. split; [done|].
    unfold fevs_of, fturns. rewrite Hn, Hb, Hm. done.
  - intros i k _. destruct (fturns_again i 0 k 1 pre) as (j & b & Hij & _ & Hn & Hb & Hm); [lia|]. exists j, 0, 0, []. split; [done|].
    unfold fevs_of, fturns. rewrite Hn, Hb, Hm. done.
  - intros i k _. destruct (fturns_again i 0 k 2 pre) as (j & b & Hij & _ & Hn & Hb & Hm); [lia|]. exists j, Ends, 0, 0, []. split; [done|]. split; [|auto].
    unfold fevs_of, fturns. rewrite Hn, Hb, Hm. done.
  - intros i x t _. destruct (fturns_again i (Z.to_nat t) (encode_nat x) 3 pre) as (j & b & Hij & Hb' & Hn & Hb & Hm); [lia|]. exists j. split; [done|]. right.
    exists (Z.of_nat b). split; [|lia]. unfold fevs_of, fturns. rewrite Hn, Hb, Hm, decode_encode_nat. done.
Qed.
Lemma fruns_exist cf h s pre : fresh_ids cf -> freach cf h s -> healed h -> closed (q s) = false -> (0 < parallelism cf)%nat ->
  Forall (fun fe => fcrash fe = false /\ closes fe = false /\ forall f, f ∈ faults fe -> clean f) pre ->
  fendless cf (frun_of cf s (fevs_of pre)) (fevs_of pre) /\ ffair cf (frun_of cf s (fevs_of pre)) (fevs_of pre).
Proof.
  intros Hi Hr Hh Ho Hp Hpre. split; [|by apply fturns_fair].
  assert (forall i, fcrash (fevs_of pre i) = false /\ closes (fevs_of pre i) = false /\ forall f, f ∈ faults (fevs_of pre i) -> clean f) as Hev.
  { intros i. unfold fevs_of. destruct (pre !! i) as [e|] eqn:E; [apply (proj1 (Forall_forall _ _) Hpre e), (elem_of_list_lookup_2 _ _ _ E)|].
    destruct (fturns_case i) as [(k & ->)|[(k & ->)|[(k & ->)|(lt & x & ->)]]]; (split; [done|]; split; [done|]; intros f Hf; inversion Hf). }
  constructor; [done|exists h; done|done|intros i; apply Hev| |intros i; apply Hev|].
  - induction i as [|i IH]; [exact Ho|]. cbn [frun_of]. apply stays_open; [apply Hev|exact IH].
  - exists (length pre). intros i Hl. unfold fevs_of. rewrite (lookup_ge_None_2 _ _ Hl).
    destruct (fturns_case i) as [(k & ->)|[(k & ->)|[(k & ->)|(lt & x & ->)]]]; done.
Qed.

(** A gateway with nothing to do stays as it is. *)
Record quiet_gw (s : gw) : Prop := {
  qg_line : queue (q s) = []; qg_time : timers (q s) = ∅; qg_busy : busy s = ∅; qg_open : closed (q s) = false;
  qg_task : forall k, tasks (q s) !! k = None \/ tasks (q s) !! k = Some Blocked }.
Lemma quiet_turn cf s i : quiet_gw s -> quiet_gw (fstep cf s (fturns i)).1 /\ objs (fstep cf s (fturns i)).1 = objs s.
Proof.
  intros HQ. pose proof HQ as [H1 H2 H3 H4 H5]. destruct (fturns_case i) as [(k & ->)|[(k & ->)|[(k & ->)|(lt & x & ->)]]]; cbn [fstep].
  - destruct (decide _); [|done]. rewrite H3, lookup_empty. destruct (tasks (q s) !! k) eqn:Hk; [done|]. cbn [WorkQueue_Model.step]. rewrite Hk.
    unfold get_turn. rewrite H1, H4. cbn [as_out fgot fst]. split; [|done]. constructor; try done.
    intros j. cbn. destruct (decide (k = j)) as [<-|]; [rewrite lookup_insert; auto|]. rewrite lookup_insert_ne by done. apply H5.
  - cbn [WorkQueue_Model.step]. destruct (H5 k) as [-> | ->]; cbn [fgot fst]; (split; [constructor; done|done]).
  - unfold fresume. rewrite H3, lookup_empty. done.
  - cbn [WorkQueue_Model.step]. rewrite H2, lookup_empty. cbn [fst]. split; [constructor; done|done].
Qed.
Lemma quiet_forever cf s i : quiet_gw s -> quiet_gw (frun_of cf s fturns i) /\ objs (frun_of cf s fturns i) = objs s.
Proof.
  intros Hs. induction i as [|i [IH1 IH2]]; [done|]. cbn [frun_of]. destruct (quiet_turn cf _ i IH1) as [H1 H2]. split; [done|]. congruence.
Qed.
