(** What one event (not a restart) can do to a cluster and to a worker. *)
From Coq Require Import ZArith Lia.
From stdpp Require Import prelude gmap.
From Verif Require Import Trace WorkQueue_Model WorkQueue_Proofs Router_Model Gateway_Model Gateway_Inv
  Gateway_Steps Gateway_Steps2 Gateway_Steps3 Gateway_Steps4 Gateway_Sync Gateway_Restart Gateway_Acts.
Open Scope Z_scope.

Lemma insert_cases (m : gmap nat cluster) n c m0 d : <[n := c]> m !! m0 = Some d ->
  (m0 = n /\ d = c) \/ (m0 <> n /\ m !! m0 = Some d).
Proof. intros [[<- <-]|[? ?]]%lookup_insert_Some; auto. Qed.

Section track.
Context (cf : cfg) (s0 : gw) (e : event).
Hypothesis HI : Inv cf None ∅ s0.

Record cP (n : nat) (c c1 : cluster) : Prop := {
  p_state : r_state (c_row c1) = r_state (c_row c) \/
            exists k st now, e = EBackend k (Yields st) now /\ busy s0 !! k = Some (InStartCluster n);
  p_fin : is_fin (c_status c1) = true -> is_fin (c_status c) = true \/ Bof s0 (InStopCluster n);
  p_frozen : is_fin (c_status c) = true -> c_row c1 = c_row c \/ c_row c1 = rset_target FAILED (c_row c);
  p_hb : (r_sched (c_row c1) = r_sched (c_row c) /\ c_hb c1 = c_hb c) \/ is_Some (c_hb c1);
  p_count : is_hb e = true \/ r_count (c_row c1) = r_count (c_row c);
  p_len : length (c_workers c1) = length (c_workers c) \/
          (is_hb e = false /\ Z.of_nat (length (c_workers c1)) <=
             Z.of_nat (length (c_workers c)) + (r_count (c_row c) - Z.of_nat (length (active_workers c)))) }.
Record wP (n : nat) (x x1 : worker) : Prop := {
  q_name : w_name x1 = w_name x;
  q_state : w_state x1 = w_state x \/
            exists k st now, e = EBackend k (Yields st) now /\ busy s0 !! k = Some (InStartWorker n (w_name x));
  q_fin : is_fin (w_status x1) = true -> is_fin (w_status x) = true \/ Bof s0 (InStopWorker n (w_name x)) \/
          (w_status x = CREATED /\ ~ Bof s0 (InStartWorker n (w_name x))) \/ Bof s0 (InStopCluster n);
  q_frozen : is_fin (w_status x) = true -> ~ Bof s0 (InStopWorker n (w_name x)) -> x1 = x \/ x1 = wset_target FAILED x;
  q_run : w_status x1 = RUNNING -> w_status x = RUNNING \/ reports e n (w_name x);
  q_end : is_fin (w_status x1) = true -> is_fin (w_status x) = true \/ wends s0 e n (w_name x) \/ Bof s0 (InStopCluster n) }.
Definition wnew (x1 : worker) : Prop := (uuid s0 <= w_name x1)%nat /\ w_state x1 = 0%nat /\ w_status x1 = CREATED.
Record tracked (s1 : gw) : Prop := {
  t_uuid : (uuid s0 <= uuid s1)%nat;
  t_old : forall n c c1, objs s0 !! n = Some c -> objs s1 !! n = Some c1 ->
          cP n c c1 /\ forall x1, x1 ∈ c_workers c1 -> (exists x, x ∈ c_workers c /\ wP n x x1) \/ wnew x1;
  t_new : forall n c1, objs s0 !! n = None -> objs s1 !! n = Some c1 ->
          (uuid s0 <= n)%nat /\ r_state (c_row c1) = 0%nat /\ is_fin (c_status c1) = false /\
          (r_sched (c_row c1) = [] \/ is_Some (c_hb c1)) /\ forall x1, x1 ∈ c_workers c1 -> wnew x1 }.

Lemma wP_refl n x : wP n x x. Proof. constructor; auto. Qed.
Lemma cP_refl n c : cP n c c. Proof. constructor; auto. Qed.
Lemma tracked_refl : tracked s0.
Proof.
  constructor; [lia| |].
  - intros n c c1 H1 H2. assert (c1 = c) by congruence. subst. split; [apply cP_refl|]. intros x Hx. left. exists x. split; [done|apply wP_refl].
  - intros. congruence.
Qed.
Lemma tracked_same s1 s2 : objs s2 = objs s1 -> uuid s2 = uuid s1 -> tracked s1 -> tracked s2.
Proof. intros E1 E2 []. constructor; rewrite ?E1, ?E2; auto. Qed.

(** A change of one object. *)
Lemma tracked_upd s1 s2 m g : (forall c1, objs s1 !! m = Some c1 -> objs s2 = <[m := g c1]> (objs s1)) -> (objs s1 !! m = None -> objs s2 = objs s1) ->
  (uuid s1 <= uuid s2)%nat -> tracked s1 ->
  (forall c c1, objs s0 !! m = Some c -> objs s1 !! m = Some c1 -> cP m c c1 ->
     (forall x1, x1 ∈ c_workers c1 -> (exists x, x ∈ c_workers c /\ wP m x x1) \/ wnew x1) ->
     cP m c (g c1) /\ forall x1, x1 ∈ c_workers (g c1) -> (exists x, x ∈ c_workers c /\ wP m x x1) \/ wnew x1) ->
  (forall c1, objs s0 !! m = None -> objs s1 !! m = Some c1 -> r_state (c_row c1) = 0%nat -> is_fin (c_status c1) = false ->
     (r_sched (c_row c1) = [] \/ is_Some (c_hb c1)) -> (forall x1, x1 ∈ c_workers c1 -> wnew x1) ->
     r_state (c_row (g c1)) = 0%nat /\ is_fin (c_status (g c1)) = false /\ (r_sched (c_row (g c1)) = [] \/ is_Some (c_hb (g c1))) /\
     forall x1, x1 ∈ c_workers (g c1) -> wnew x1) ->
  tracked s2.
Proof.
  intros HS HN Hu [] Ho Hn. destruct (objs s1 !! m) as [c1|] eqn:Hm.
  2:{ constructor; [lia| |]; rewrite (HN eq_refl); auto. }
  specialize (HS c1 eq_refl). constructor; [lia| |]; rewrite HS.
  - intros n c d Hc [[-> ->]|[E Hd]]%insert_cases; [|eauto]. destruct (t_old0 m c c1 Hc Hm). eauto.
  - intros n d Hc [[-> ->]|[E Hd]]%insert_cases; [|eauto]. destruct (t_new0 m c1 Hc Hm) as (H1 & H2 & H3 & H4 & H5). eauto.
Qed.
Lemma tracked_row s1 m f : tracked s1 ->
  (forall c c1, objs s0 !! m = Some c -> objs s1 !! m = Some c1 -> cP m c c1 -> cP m c (cset_row (f (c_row c1)) c1)) ->
  (objs s0 !! m = None -> forall r, r_state (f r) = r_state r /\ r_status (f r) = r_status r /\ r_sched (f r) = r_sched r) ->
  tracked (update_cluster m f s1).
Proof.
  intros Ht Ho Hn. apply (tracked_upd s1 _ m (fun c1 => cset_row (f (c_row c1)) c1)); auto.
  - intros c1. apply row_upd.
  - intros E. unfold update_cluster. rewrite E. done.
  - unfold update_cluster. destruct (objs s1 !! m); done.
  - intros c1 H0 H1 H2 H3 H4 H5. destruct (Hn H0 (c_row c1)) as (E1 & E2 & E3). simpl. unfold c_status in *. simpl. rewrite E1, E2, E3. auto.
Qed.
Lemma worker_upd s1 m w f c1 : objs s1 !! m = Some c1 ->
  objs (update_worker m w f s1) = <[m := cset_workers (map_worker w f (c_workers c1)) c1]> (objs s1).
Proof. intros H. destruct (update_worker_spec m w f s1 c1 H) as [-> _]. done. Qed.
Lemma tracked_wk s1 m w f : tracked s1 ->
  (forall c c1 x x1, objs s0 !! m = Some c -> x ∈ c_workers c -> w_name x = w -> objs s1 !! m = Some c1 -> x1 ∈ c_workers c1 ->
     wP m x x1 -> wP m x (f x1)) ->
  (forall x, w_name (f x) = w_name x) ->
  ((forall c x, objs s0 !! m = Some c -> x ∈ c_workers c -> w_name x <> w) -> forall x, w_state (f x) = w_state x /\ w_status (f x) = w_status x) ->
  tracked (update_worker m w f s1).
Proof.
  intros Ht Ho Hnm Hn.
  assert (forall c c1 x1, objs s0 !! m = Some c -> objs s1 !! m = Some c1 -> x1 ∈ c_workers c1 -> (exists x, x ∈ c_workers c /\ wP m x x1) \/ wnew x1 -> w_name x1 = w ->
          (exists x, x ∈ c_workers c /\ wP m x (f x1)) \/ wnew (f x1)) as Hstep.
  { intros c c1 x1 Hc Hc1 Hx1 [(x & Hx & Hp)|Hw] E.
    - left. exists x. split; [done|]. eapply (Ho c c1); eauto. rewrite <- E. symmetry. apply Hp.
    - right. destruct Hw as (W1 & W2 & W3). unfold wnew. rewrite Hnm.
      destruct (Hn) with (x := x1) as [-> ->]; [|done].
      intros c' x' Hc' Hx' E'. destruct (g_fresh _ _ _ _ HI _ _ Hc') as [_ Hf].
      specialize (Hf (w_name x')). unfold names in Hf. rewrite E', <- E in Hf.
      assert (w_name x1 < uuid s0)%nat; [|lia]. apply Hf. apply elem_of_list_fmap. exists x'. split; [congruence|done]. }
  apply (tracked_upd s1 _ m (fun c1 => cset_workers (map_worker w f (c_workers c1)) c1)); auto.
  - intros c1. apply worker_upd.
  - intros E. unfold update_worker, get_worker. rewrite E. done.
  - unfold update_worker. destruct (get_worker m w s1); done.
  - intros c c1 Hc Hc1 Hp Hx. split; [destruct Hp; constructor; try done; simpl; unfold map_worker; rewrite map_length; done|]. intros x1 (y & -> & Hy)%elem_of_list_fmap.
    case_decide as E; [|auto]. eapply Hstep; eauto.
  - intros c1 Hc Hc1 H1 H2 H3 H4. repeat (split; [done|]). intros x1 (y & -> & Hy)%elem_of_list_fmap.
    case_decide as E; [|auto]. specialize (H4 y Hy). destruct H4 as (W1 & W2 & W3). unfold wnew. rewrite Hnm.
    destruct Hn with (x := y) as [-> ->]; [|done]. intros c' x' Hc'. congruence.
Qed.

Lemma worker_by_name n c x y : objs s0 !! n = Some c -> x ∈ c_workers c -> y ∈ c_workers c -> w_name x = w_name y -> x = y.
Proof.
  intros Hc Hx Hy E. apply (nodup_map_inj w_name (c_workers c)); auto. apply (k_nodup _ _ _ _ _ _ (g_cok _ _ _ _ HI _ _ Hc)).
Qed.
Lemma busy_cluster n p : Bof s0 p -> (pc_item p).1 = n -> exists c, objs s0 !! n = Some c /\ cok cf (Dof ∅ s0) (Bof s0) (routes s0) n c.
Proof. intros (k & Hk) <-. destruct (g_pcs _ _ _ _ HI _ _ Hk) as (c & Hc & _). exists c. split; [done|]. apply (g_cok _ _ _ _ HI). done. Qed.
Lemma busy_worker n w p : Bof s0 p -> pc_item p = (n, Some w) ->
  exists c x, objs s0 !! n = Some c /\ x ∈ c_workers c /\ w_name x = w /\ wk_ok cf (Dof ∅ s0) (Bof s0) n (c_status c) x.
Proof.
  intros (k & Hk) E. destruct (g_pcs _ _ _ _ HI _ _ Hk) as (c & Hc & Hw). rewrite E in *. simpl in *.
  specialize (Hw w eq_refl). apply elem_of_list_fmap in Hw as (x & -> & Hx). exists c, x. repeat (split; [done|]).
  pose proof (k_workers _ _ _ _ _ _ (g_cok _ _ _ _ HI _ _ Hc)) as H. rewrite Forall_forall in H. auto.
Qed.

Lemma act_tracked s1 s2 : act cf s0 e s1 s2 -> tracked s1 -> tracked s2.
Proof.
  intros Ha Ht. destruct Ha as [s2 Hd|n g Hg Hh|n|n f Hl Hf Hsc Hst Hct|n k st now He Hk|n now Hb|n w|n w f Hl Hf Hst Hrn|n w k st now He Hk|n w now Hwt Hb Hwe|n w Hb Hl|
    user info mx now|n now cc dd Hhb Hcc Hlf Hdd Hroom|now].
  - destruct Hd as (H1 & _ & _ & _ & _ & _ & H2 & _). eapply tracked_same; eauto.
  - apply (tracked_upd s1 _ n g); auto.
    + intros c1 H. apply (upd_obj_spec n g s1 c1 H).
    + intros E. simpl. apply map_eq. intros m. destruct (decide (n = m)) as [<-|]; [rewrite lookup_alter, E; done|rewrite lookup_alter_ne; done].
    + intros c c1 Hc Hc1 [P1 P2 P3 P4 P5 P6] Hx. destruct (Hg c1) as (G1 & G2 & G3). rewrite G3. split; [|done].
      constructor; unfold c_status in *; rewrite ?G2, ?G3; auto. destruct (Hh c1) as [->|?]; auto.
    + intros c1 Hc Hc1 H1 H2 H3 H4. destruct (Hg c1) as (G1 & G2 & G3). unfold c_status in *. rewrite G2, G3.
      repeat (split; [done|]). split; [|done]. destruct (Hh c1) as [->|?]; auto.
  - apply tracked_row; auto. intros c c1 Hc Hc1 [P1 P2 P3 P4 P5 P6]. constructor; auto. simpl. intros Hfin.
    destruct (P3 Hfin) as [->| ->]; auto.
  - apply tracked_row; auto.
    + intros c c1 Hc Hc1 [P1 P2 P3 P4 P5 P6]. destruct Hl as (c' & Hc' & Hlf). assert (c' = c) by congruence. subst c'.
      destruct (Hst (c_row c1)) as (S1 & S2 & S3). constructor; simpl.
      * rewrite S1. done.
      * unfold c_status in *. simpl. destruct S3 as [->|E]; [auto|congruence].
      * intros E. congruence.
      * destruct Hsc as [Hsc|(d & Hd & Hh)]; [rewrite Hsc; done|]. right. assert (d = c1) by congruence. subst. done.
      * destruct Hct as [?|Hct]; [by left|rewrite Hct; done].
      * done.
    + intros E. destruct Hl as (c' & Hc' & _). congruence.
  - assert (Bof s0 (InStartCluster n)) as Hb by (exists k; done).
    destruct (busy_cluster n _ Hb eq_refl) as (c0 & Hc0 & Hok). apply tracked_row; auto.
    + intros c c1 Hc Hc1 [P1 P2 P3 P4 P5 P6]. constructor; simpl; auto.
      * right. eauto.
      * intros Hfin. assert (c = c0) by congruence. subst c0. rewrite (b_start _ _ _ _ _ _ Hok Hb) in Hfin. done.
    + intros E. congruence.
  - destruct (busy_cluster n _ Hb eq_refl) as (c0 & Hc0 & Hok). apply tracked_row; auto.
    + intros c c1 Hc Hc1 [P1 P2 P3 P4 P5 P6]. constructor; simpl; auto.
      intros Hfin. assert (c = c0) by congruence. subst c0. destruct (b_stop _ _ _ _ _ _ Hok Hb) as [E _]. rewrite E in Hfin. done.
    + intros E. congruence.
  - apply tracked_wk; auto.
    intros c c1 x x1 Hc Hx E Hc1 Hx1 [Q1 Q2 Q3 Q4 Q5 Q6]. constructor; simpl; auto.
    intros Hfin Hb. destruct (Q4 Hfin Hb) as [->| ->]; auto.
  - destruct Hl as (c0 & x0 & Hc0 & Hx0 & E0 & Hlf). apply tracked_wk; auto.
    + intros c c1 x x1 Hc Hx E Hc1 Hx1 [Q1 Q2 Q3 Q4 Q5 Q6]. assert (c = c0) by congruence. subst c0.
      assert (x = x0) by (eapply worker_by_name; eauto; congruence). subst x0.
      destruct (Hf x1) as [F1 F2], (Hst x1) as (S1 & S2 & S3). constructor; simpl.
      * congruence.
      * rewrite S1. done.
      * destruct S3 as [->|E3]; [auto|congruence].
      * congruence.
      * intros Er. destruct (Hrn x1 Er) as [?|?]; [auto|]. right. rewrite E. done.
      * destruct S3 as [->|E3]; [auto|congruence].
    + intros x. apply Hf.
    + intros H. exfalso. eapply H; eauto.
  - assert (Bof s0 (InStartWorker n w)) as Hb by (exists k; done).
    destruct (busy_worker n w _ Hb eq_refl) as (c0 & x0 & Hc0 & Hx0 & E0 & Hok). apply tracked_wk; auto.
    + intros c c1 x x1 Hc Hx E Hc1 Hx1 [Q1 Q2 Q3 Q4 Q5 Q6]. assert (c = c0) by congruence. subst c0.
      assert (x = x0) by (eapply worker_by_name; eauto; congruence). subst x0. constructor; simpl; auto.
      * right. rewrite E. eauto.
      * rewrite <- E in Hb. destruct (wb_start _ _ _ _ _ _ Hok Hb) as [[Es|Es] _]; rewrite Es; done.
    + intros H. exfalso. eapply H; eauto.
  - unfold worker_stopped.
    assert (exists c0 x0, objs s0 !! n = Some c0 /\ x0 ∈ c_workers c0 /\ w_name x0 = w /\
      (Bof s0 (InStopWorker n w) \/ (w_status x0 = CREATED /\ ~ Bof s0 (InStartWorker n w)))) as (c0 & x0 & Hc0 & Hx0 & E0 & Hreason).
    { destruct Hb as [Hb|((c0 & x0 & ? & ? & ? & ?) & ?)].
      - destruct (busy_worker n w _ Hb eq_refl) as (c0 & x0 & Hc0 & Hx0 & E0 & _). exists c0, x0. tauto.
      - exists c0, x0. tauto. }
    apply tracked_wk; auto.
    + intros c c1 x x1 Hc Hx E Hc1 Hx1 [Q1 Q2 Q3 Q4 Q5 Q6]. assert (c = c0) by congruence. subst c0.
      assert (x = x0) by (eapply worker_by_name; eauto; congruence). subst x0. constructor; simpl; auto.
      * intros _. right. rewrite E0. tauto.
      * rewrite E0. intros Hfin Hnb. destruct Hreason as [?|[Ec _]]; [done|]. rewrite Ec in Hfin. done.
      * intros Er. specialize (Hwt c1 x1 Hc1 Hx1). rewrite Er in Hwt. discriminate Hwt. rewrite Q1. done.
      * intros _. right. left. rewrite E0. done.
    + intros H. exfalso. eapply H; eauto.
  - destruct Hl as (c0 & x0 & Hc0 & Hx0 & E0 & Hlf). apply tracked_wk; auto.
    + intros c c1 x x1 Hc Hx E Hc1 Hx1 [Q1 Q2 Q3 Q4 Q5 Q6]. assert (c = c0) by congruence. subst c0.
      assert (x = x0) by (eapply worker_by_name; eauto; congruence). subst x0. constructor; simpl; auto.
      * congruence.
      * done.
    + intros H. exfalso. eapply H; eauto.
  - unfold create_cluster. simpl. set (id := alloc_c _ _ _). set (r := Row _ _ _ _ _ _ _ _ _ _ _ _ _).
    destruct Ht as [T1 T2 T3]. constructor; simpl; [lia| |].
    + intros n c d Hc [[-> ->]|[E Hd]]%insert_cases; [|eauto]. destruct (g_fresh _ _ _ _ HI _ _ Hc). lia.
    + intros n d Hc [[-> ->]|[E Hd]]%insert_cases; [|eauto]. split; [lia|]. simpl. repeat (split; [done|]). split; [auto|].
      intros x Hx. inversion Hx.
  - unfold create_worker. set (x := Wk _ _ _ _ _ _ _ _). simpl snd.
    match goal with |- tracked (upd_obj n ?g ?sx) => apply (tracked_upd s1 _ n g) end; auto.
    + intros c1 H. match goal with |- objs (upd_obj n ?g ?sx) = _ => pose proof (upd_obj_spec n g sx c1 H) as [-> _] end. done.
    + intros E. simpl. apply map_eq. intros m. destruct (decide (n = m)) as [<-|]; [rewrite lookup_alter, E; done|rewrite lookup_alter_ne; done].
    + simpl. lia.
    + intros c c1 Hc Hc1 Hp Hx. assert (c = cc) by congruence. subst cc. assert (c1 = dd) by congruence. subst dd. split.
      { destruct Hp; constructor; try done. right. split; [done|]. simpl. rewrite app_length. simpl. unfold room in Hroom. lia. } simpl. intros x1 [Hx1| ->%elem_of_list_singleton]%elem_of_app; [auto|].
      right. unfold wnew. simpl. split; [apply (t_uuid _ Ht)|done].
    + intros c1 Hc Hc1 H1 H2 H3 H4. repeat (split; [done|]). simpl. intros x1 [Hx1| ->%elem_of_list_singleton]%elem_of_app; [auto|].
      unfold wnew. simpl. split; [apply (t_uuid _ Ht)|done].
  - destruct (cleanup_expired_objs cf now s1) as [E1 (_ & _ & _ & E2 & _)]. eapply tracked_same; eauto.
Qed.
Lemma acts_tracked s1 : rtc (act cf s0 e) s0 s1 -> tracked s1.
Proof.
  intros H. assert (forall a b, rtc (act cf s0 e) a b -> tracked a -> tracked b) as Hall.
  { induction 1; [done|]. eauto using act_tracked. }
  eapply Hall; [exact H|]. apply tracked_refl.
Qed.
Lemma step_tracked : is_restart e = false -> tracked (step cf s0 e).1.
Proof. intros He. apply acts_tracked, A_all; done. Qed.
End track.
