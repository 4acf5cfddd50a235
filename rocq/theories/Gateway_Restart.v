(** A restart: what is loaded from the database is what was in memory. *)
From Coq Require Import ZArith Lia.
From stdpp Require Import prelude gmap.
From Verif Require Import Trace WorkQueue_Model WorkQueue_Proofs Router_Model Gateway_Model Gateway_Inv
  Gateway_Steps Gateway_Steps2 Gateway_Steps3 Gateway_Steps4 Gateway_Sync.
Open Scope Z_scope.

(** * Loading *)
Lemma load_workers_spec (dw : gmap nat (nat * worker)) id x :
  x ∈ map (fun p : nat * (nat * worker) => p.2.2) (List.filter (fun p : nat * (nat * worker) => bool_decide (p.2.1 = id)) (map_to_list dw)) <->
  exists wid, dw !! wid = Some (id, x).
Proof.
  rewrite elem_of_list_fmap. split.
  - intros ([wid [i y]] & -> & H). apply elem_of_list_In, filter_In in H as [H1 H2]. apply bool_decide_eq_true in H2. simpl in *. subst.
    exists wid. apply elem_of_map_to_list, elem_of_list_In. done.
  - intros (wid & H). exists (wid, (id, x)). split; [done|]. apply elem_of_list_In, filter_In. split.
    + apply elem_of_list_In, elem_of_map_to_list. done.
    + apply bool_decide_eq_true. done.
Qed.
Lemma nodup_map_on {A B} (f : A -> B) (l : list A) : NoDup l -> (forall x y, x ∈ l -> y ∈ l -> f x = f y -> x = y) -> NoDup (map f l).
Proof.
  induction 1 as [|x l Hx Hl IH]; intros Hf; simpl; constructor.
  - intros (y & E & Hy)%elem_of_list_fmap. apply Hx. rewrite (Hf x y); [done|by left|by right|done].
  - apply IH. intros. apply Hf; auto; by right.
Qed.
Lemma filter_nodup_l {A} (f : A -> bool) (l : list A) : NoDup l -> NoDup (List.filter f l).
Proof. intros. apply NoDup_ListNoDup, List.NoDup_filter, NoDup_ListNoDup. done. Qed.

(** What a restart keeps of a cluster. *)
Record reloaded (now : Z) (c c' : cluster) : Prop := {
  rl_id : c_id c' = c_id c; rl_row : c_row c' = c_row c;
  rl_workers : Permutation (c_workers c') (c_workers c);
  rl_hb : c_hb c' = if decide (c_status c = RUNNING) then Some now else None;
  rl_fails : c_fails c' = 0%nat; rl_proxied : c_proxied c' = false;
  rl_ready : c_ready c' = jge (c_status c) RUNNING; rl_shut : c_shutdown c' = jge (c_status c) STOPPED }.

Section restart.
Context (cf : cfg) (fc fw : nat -> nat).
Notation Sync := (Sync fc fw).

Lemma load_reloaded now s n c : Sync s -> n ∈ by_name s -> objs s !! n = Some c ->
  reloaded now c (load_cluster now (db_w s) (c_id c) (c_row c)).
Proof.
  intros Hy Hn Hc. constructor; try done. simpl. apply NoDup_Permutation.
  - apply (nodup_map_on (fun p : nat * (nat * worker) => p.2.2)); [apply filter_nodup_l, NoDup_map_to_list|].
    intros [i [j x]] [i' [j' x']] H H' E. simpl in E. subst x'.
    apply elem_of_list_In, filter_In in H as [H1 H2], H' as [H1' H2']. apply bool_decide_eq_true in H2, H2'. simpl in *. subst.
    apply elem_of_list_In, elem_of_map_to_list in H1, H1'.
    apply (y_wk _ _ _ Hy n c) in H1 as [_ <-]; auto. apply (y_wk _ _ _ Hy n c) in H1' as [_ <-]; auto.
  - destruct (y_names _ _ _ Hy n c Hc) as [H _]. unfold names in H. eapply NoDup_fmap_1. exact H.
  - intros x. rewrite load_workers_spec. split.
    + intros (wid & H). apply (y_wk _ _ _ Hy n c) in H; tauto.
    + intros H. exists (w_id x). apply (y_wk _ _ _ Hy n c); auto.
Qed.

Lemma load_lookup now s n d : Sync s ->
  load_objs now (db_c s) (db_w s) !! n = Some d <->
  exists c, n ∈ by_name s /\ objs s !! n = Some c /\ d = load_cluster now (db_w s) (c_id c) (c_row c).
Proof.
  intros Hy. unfold load_objs. rewrite <- elem_of_list_to_map.
  - rewrite elem_of_list_fmap. split.
    + intros ([id r] & [= -> ->] & H). apply elem_of_map_to_list in H. simpl.
      destruct (y_db _ _ _ Hy id r H) as (m & c & Hm & Hc & E).
      pose proof (y_row _ _ _ Hy m c Hm Hc) as Hr. rewrite E in Hr. assert (r = c_row c) as -> by congruence.
      destruct (y_name _ _ _ Hy m c Hc) as [<- _]. unfold c_name in *. exists c. rewrite E. auto.
    + intros (c & Hn & Hc & ->). exists (c_id c, c_row c). destruct (y_name _ _ _ Hy n c Hc) as [<- _]. split; [done|].
      apply elem_of_map_to_list. eapply (y_row _ _ _ Hy); eauto.
  - rewrite map_map. apply nodup_map_on; [apply NoDup_map_to_list|].
    intros [i r] [j r'] H1 H2 E. simpl in E. apply elem_of_map_to_list in H1, H2.
    destruct (y_db _ _ _ Hy i r H1) as (m & c & Hm & Hc & <-). destruct (y_db _ _ _ Hy j r' H2) as (m' & c' & Hm' & Hc' & <-).
    rewrite (y_row _ _ _ Hy m c Hm Hc) in H1. rewrite (y_row _ _ _ Hy m' c' Hm' Hc') in H2. injection H1 as <-. injection H2 as <-.
    destruct (y_name _ _ _ Hy m c Hc) as [E1 _], (y_name _ _ _ Hy m' c' Hc') as [E2 _]. unfold c_name in *.
    assert (m = m') by congruence. subst m'. assert (c = c') by congruence. subst c'. done.
Qed.
Definition load_names (s : gw) : list nat := map (fun p : nat * crow => r_name p.2) (map_to_list (db_c s)).
Lemma load_names_spec s n : Sync s -> n ∈ load_names s <-> n ∈ by_name s.
Proof.
  intros Hy. unfold load_names. rewrite elem_of_list_fmap. split.
  - intros ([id r] & -> & H). apply elem_of_map_to_list in H. simpl.
    destruct (y_db _ _ _ Hy id r H) as (m & c & Hm & Hc & E).
    pose proof (y_row _ _ _ Hy m c Hm Hc) as Hr. rewrite E in Hr. assert (r = c_row c) as -> by congruence.
    destruct (y_name _ _ _ Hy m c Hc) as [E1 _]. unfold c_name in E1. rewrite E1. done.
  - intros Hn. destruct (x_obj _ (y_idx _ _ _ Hy) n Hn) as [c Hc]. exists (c_id c, c_row c).
    destruct (y_name _ _ _ Hy n c Hc) as [<- _]. split; [done|]. apply elem_of_map_to_list. eapply (y_row _ _ _ Hy); eauto.
Qed.
Lemma load_names_nodup s : Sync s -> NoDup (load_names s).
Proof.
  intros Hy. apply nodup_map_on; [apply NoDup_map_to_list|].
  intros [i r] [j r'] H1 H2 E. simpl in E. apply elem_of_map_to_list in H1, H2.
  destruct (y_db _ _ _ Hy i r H1) as (m & c & Hm & Hc & <-). destruct (y_db _ _ _ Hy j r' H2) as (m' & c' & Hm' & Hc' & <-).
  rewrite (y_row _ _ _ Hy m c Hm Hc) in H1. rewrite (y_row _ _ _ Hy m' c' Hm' Hc') in H2. injection H1 as <-. injection H2 as <-.
  destruct (y_name _ _ _ Hy m c Hc) as [E1 _], (y_name _ _ _ Hy m' c' Hc') as [E2 _]. unfold c_name in *.
  assert (m = m') by congruence. subst m'. assert (c = c') by congruence. subst c'. done.
Qed.
Lemma load_by_user_spec (l : list (nat * crow)) (m0 : gmap nat (list nat)) u :
  default [] (fold_left (fun m p => <[r_user p.2 := default [] (m !! r_user p.2) ++ [r_name p.2]]> m) l m0 !! u) =
  default [] (m0 !! u) ++ map (fun p : nat * crow => r_name p.2) (List.filter (fun p : nat * crow => bool_decide (r_user p.2 = u)) l).
Proof.
  revert m0. induction l as [|[i r] l IH]; intros m0; simpl; [by rewrite app_nil_r|]. rewrite IH. simpl.
  destruct (decide (r_user r = u)) as [<-|E].
  - rewrite lookup_insert, bool_decide_true by done. simpl. rewrite <- app_assoc. done.
  - rewrite lookup_insert_ne, bool_decide_false by done. done.
Qed.
Lemma load_by_user_some (l : list (nat * crow)) (m0 : gmap nat (list nat)) u ns : (forall u ns, m0 !! u = Some ns -> ns <> []) ->
  fold_left (fun m p => <[r_user p.2 := default [] (m !! r_user p.2) ++ [r_name p.2]]> m) l m0 !! u = Some ns -> ns <> [].
Proof.
  revert m0. induction l as [|[i r] l IH]; intros m0 Hm; simpl; [apply Hm|]. apply IH. simpl.
  intros v ms [[<- <-]|[_ H]]%lookup_insert_Some; [|eauto]. intros E. apply app_eq_nil in E as [_ ?]. done.
Qed.

Definition restart0 (now : Z) (s : gw) : gw :=
  GW (load_objs now (db_c s) (db_w s)) (load_names s) ((fun r => r_name r) <$> db_c s) (load_by_user (db_c s)) (db_c s) (db_w s)
     (uuid s) (n_cins s) (n_wins s) (init (q_base cf) (q_max cf)) ∅ None None ∅ None.
Definition restart_items (s0 : gw) : list item :=
  flat_map (fun c => (c_name c, None) ::
           map (fun w => (c_name c, Some (w_name w))) (List.filter (fun w => jlt (w_status w) STOPPED) (c_workers c)))
    (List.filter (fun c => jlt (c_status c) STOPPED) (all_clusters s0)).
Lemma restart_eq now s : restart cf now s = qputs (restart_items (restart0 now s)) (restart0 now s).
Proof. reflexivity. Qed.

Lemma restart0_sync now s : Sync s -> Sync (restart0 now s).
Proof.
  intros Hy.
  assert (forall n c, n ∈ by_name s -> objs s !! n = Some c -> exists d, objs (restart0 now s) !! n = Some d /\ reloaded now c d) as Hfwd.
  { intros n c Hn Hc. exists (load_cluster now (db_w s) (c_id c) (c_row c)). split; [|by eapply load_reloaded].
    apply load_lookup; eauto. }
  assert (forall n d, objs (restart0 now s) !! n = Some d -> exists c, n ∈ by_name s /\ objs s !! n = Some c /\ reloaded now c d) as Hback.
  { intros n d H. apply load_lookup in H as (c & Hn & Hc & ->); [|done]. exists c. split; [done|]. split; [done|]. by eapply load_reloaded. }
  assert (forall n, n ∈ by_name (restart0 now s) <-> n ∈ by_name s) as Hin by (intros; by apply load_names_spec).
  assert (forall c d x, reloaded now c d -> x ∈ c_workers d <-> x ∈ c_workers c) as Hw.
  { intros c d x H. rewrite (rl_workers _ _ _ H). done. }
  constructor; change (uuid (restart0 now s)) with (uuid s); change (n_cins (restart0 now s)) with (n_cins s);
    change (n_wins (restart0 now s)) with (n_wins s); change (db_c (restart0 now s)) with (db_c s); change (db_w (restart0 now s)) with (db_w s).
  - constructor.
    + apply load_names_nodup. done.
    + intros n Hn%Hin. destruct (x_obj _ (y_idx _ _ _ Hy) n Hn) as [c Hc]. destruct (Hfwd n c Hn Hc) as (d & -> & _). eauto.
    + intros id n. simpl. rewrite lookup_fmap. split.
      * destruct (db_c s !! id) as [r|] eqn:E; [|done]. intros [= <-]. destruct (purge_indexes fc fw s id r Hy E) as (n & c & _ & Hn & Hc & Hi & <- & _).
        destruct (y_name _ _ _ Hy n c Hc) as [E1 _]. unfold c_name in E1. rewrite E1.
        split; [by apply Hin|]. destruct (Hfwd n c Hn Hc) as (d & Hd & Hr). exists d. split; [done|]. rewrite (rl_id _ _ _ Hr). done.
      * intros (Hn%Hin & d & Hd & E). destruct (Hback n d Hd) as (c & _ & Hc & Hr). rewrite (rl_id _ _ _ Hr) in E. rewrite <- E.
        rewrite (y_row _ _ _ Hy n c Hn Hc). simpl. destruct (y_name _ _ _ Hy n c Hc) as [E1 _]. unfold c_name in E1. rewrite E1. done.
    + intros u n. simpl. unfold load_by_user. rewrite load_by_user_spec, lookup_empty. simpl. rewrite elem_of_list_fmap. split.
      * intros ([id r] & -> & H). apply elem_of_list_In, filter_In in H as [H1 H2]. apply bool_decide_eq_true in H2.
        apply elem_of_list_In, elem_of_map_to_list in H1. simpl in *.
        destruct (purge_indexes fc fw s id r Hy H1) as (n & c & _ & Hn & Hc & Hi & E & _). rewrite <- E.
        destruct (y_name _ _ _ Hy n c Hc) as [E1 _]. unfold c_name in E1. rewrite E1.
        split; [by apply Hin|]. destruct (Hfwd n c Hn Hc) as (d & Hd & Hr). exists d. split; [done|]. rewrite (rl_row _ _ _ Hr). congruence.
      * intros (Hn%Hin & d & Hd & E). destruct (Hback n d Hd) as (c & _ & Hc & Hr). exists (c_id c, c_row c).
        destruct (y_name _ _ _ Hy n c Hc) as [E1 _]. unfold c_name in E1. split; [done|].
        apply elem_of_list_In, filter_In. split.
        -- apply elem_of_list_In, elem_of_map_to_list. eapply (y_row _ _ _ Hy); eauto.
        -- apply bool_decide_eq_true. simpl. rewrite (rl_row _ _ _ Hr) in E. done.
    + intros u l H. split; [|eapply load_by_user_some; [|exact H]; intros ? ?; rewrite lookup_empty; done].
      pose proof (load_by_user_spec (map_to_list (db_c s)) ∅ u) as E. simpl in H. unfold load_by_user in H. rewrite H in E. simpl in E. rewrite E, lookup_empty. simpl.
      pose proof (load_names_nodup s Hy) as Hnd. unfold load_names in Hnd. clear -Hnd.
      induction (map_to_list (db_c s)) as [|p l IH]; simpl in *; [constructor|]. apply NoDup_cons in Hnd as [H1 H2].
      destruct (bool_decide _); simpl; [|auto]. constructor; [|auto]. intros (y & E & Hy)%elem_of_list_fmap. apply H1.
      apply elem_of_list_fmap. exists y. split; [done|]. apply elem_of_list_In in Hy. apply elem_of_list_In. apply filter_In in Hy. tauto.
  - intros n d Hd. destruct (Hback n d Hd) as (c & Hn & Hc & Hr). destruct (y_name _ _ _ Hy n c Hc). unfold c_name in *.
    rewrite (rl_row _ _ _ Hr). done.
  - intros n d Hd. destruct (Hback n d Hd) as (c & Hn & Hc & Hr). destruct (y_names _ _ _ Hy n c Hc). unfold names in *.
    split; [eapply NoDup_Permutation_proper; [|eassumption]|intros w]; rewrite (rl_workers _ _ _ Hr); auto.
  - intros n m d d' Hd Hd' E. destruct (Hback n d Hd) as (c & Hn & Hc & Hr), (Hback m d' Hd') as (c' & Hm & Hc' & Hr').
    rewrite (rl_id _ _ _ Hr), (rl_id _ _ _ Hr') in E. eapply (y_inj _ _ _ Hy); eauto.
  - intros n d Hd. destruct (Hback n d Hd) as (c & Hn & Hc & Hr). rewrite (rl_id _ _ _ Hr). eapply (y_cids _ _ _ Hy); eauto.
  - intros n d Hn Hd. destruct (Hback n d Hd) as (c & Hn' & Hc & Hr). rewrite (rl_id _ _ _ Hr), (rl_row _ _ _ Hr). eapply (y_row _ _ _ Hy); eauto.
  - intros id r H. destruct (y_db _ _ _ Hy id r H) as (n & c & Hn & Hc & E). destruct (Hfwd n c Hn Hc) as (d & Hd & Hr).
    exists n, d. rewrite (rl_id _ _ _ Hr). split; [by apply Hin|done].
  - intros n d x Hd Hx. destruct (Hback n d Hd) as (c & Hn & Hc & Hr). rewrite (Hw _ _ _ Hr) in Hx. eapply (y_wids _ _ _ Hy); eauto.
  - intros n m d d' x y Hd Hd' Hx Hx' E. destruct (Hback n d Hd) as (c & Hn & Hc & Hr), (Hback m d' Hd') as (c' & Hm & Hc' & Hr').
    rewrite (Hw _ _ _ Hr) in Hx. rewrite (Hw _ _ _ Hr') in Hx'. eapply (y_winj _ _ _ Hy); eauto.
  - intros n d wid x Hn Hd. destruct (Hback n d Hd) as (c & Hn' & Hc & Hr). rewrite (rl_id _ _ _ Hr), (Hw _ _ _ Hr). eapply (y_wk _ _ _ Hy); eauto.
  - intros wid p Hp. destruct (y_wdb _ _ _ Hy wid p Hp) as (n & c & Hn & Hc & E). destruct (Hfwd n c Hn Hc) as (d & Hd & Hr).
    exists n, d. rewrite (rl_id _ _ _ Hr). split; [by apply Hin|done].
  - apply (y_wdbid _ _ _ Hy).
Qed.

Lemma same_data_puts xs s : same_data s (qputs xs s).
Proof. revert s. induction xs as [|x xs IH]; intros s; [done|]. simpl. specialize (IH (qput x s)). exact IH. Qed.
Lemma restart_sync now s : Sync s -> Sync (restart cf now s).
Proof. intros Hy. rewrite restart_eq. eapply Sync_same; [apply same_data_puts|]. apply restart0_sync. done. Qed.

(** The relation between memory before and after. *)
Lemma restart_objs now s n : Sync s ->
  match objs (restart cf now s) !! n with
  | Some d => exists c, n ∈ by_name s /\ objs s !! n = Some c /\ reloaded now c d
  | None => n ∉ by_name s
  end.
Proof.
  intros Hy. rewrite restart_eq. rewrite (proj1 (qputs_objs _ _)). change (objs (restart0 now s)) with (load_objs now (db_c s) (db_w s)).
  destruct (load_objs now (db_c s) (db_w s) !! n) as [d|] eqn:E.
  - apply load_lookup in E as (c & Hn & Hc & ->); [|done]. exists c. split; [done|]. split; [done|]. by eapply load_reloaded.
  - intros Hn. destruct (x_obj _ (y_idx _ _ _ Hy) n Hn) as [c Hc].
    assert (load_objs now (db_c s) (db_w s) !! n = Some (load_cluster now (db_w s) (c_id c) (c_row c))) as H by (apply load_lookup; eauto).
    congruence.
Qed.
Lemma restart_names now s n : Sync s -> n ∈ by_name (restart cf now s) <-> n ∈ by_name s.
Proof.
  intros Hy. rewrite restart_eq. destruct (same_data_puts (restart_items (restart0 now s)) (restart0 now s)) as (_ & -> & _).
  by apply load_names_spec.
Qed.

Lemma restart_inv now s : Sync s -> Inv cf None ∅ s -> Inv cf None ∅ (restart cf now s).
Proof.
  intros Hy HI. rewrite restart_eq. apply Inv_puts. set (X := list_to_set _ ∪ ∅). set (s0 := restart0 now s) in *.
  assert (forall n d, objs s0 !! n = Some d -> exists c, n ∈ by_name s /\ objs s !! n = Some c /\ reloaded now c d) as Hback.
  { intros n d H. apply load_lookup in H as (c & Hn & Hc & ->); [|done]. exists c. split; [done|]. split; [done|]. by eapply load_reloaded. }
  constructor; try done.
  - apply qok_init.
  - intros x. split; [set_solver|]. intros [(k & p & H & _)|?]; done.
  - intros n d Hd. destruct (Hback n d Hd) as (c & Hn & Hc & Hr). destruct (g_fresh _ _ _ _ HI n c Hc) as [H1 H2]. split; [done|].
    intros w. unfold names in *. rewrite (rl_workers _ _ _ Hr). apply H2.
  - intros n d Hd. destruct (Hback n d Hd) as (c & Hn & Hc & Hr). pose proof (g_cok _ _ _ _ HI n c Hc) as Hk.
    assert (c_status d = c_status c) as Es by (unfold c_status; rewrite (rl_row _ _ _ Hr); done).
    assert (c_target d = c_target c) as Et by (unfold c_target; rewrite (rl_row _ _ _ Hr); done).
    assert (c_name d = n) as En. { unfold c_name. rewrite (rl_row _ _ _ Hr). apply (k_name _ _ _ _ _ _ Hk). }
    assert (is_fin (c_status d) = false -> d ∈ List.filter (fun c => jlt (c_status c) STOPPED) (all_clusters s0)) as Hlist.
    { intros E. apply elem_of_list_In, filter_In. split.
      - apply elem_of_list_In. unfold all_clusters. apply elem_of_list_omap. exists n. split; [|done]. by apply load_names_spec.
      - unfold is_fin, jge, jlt in *. destruct (c_status d); done. }
    assert (is_fin (c_status d) = false -> Dof X s0 (n, None)) as HD.
    { intros E. right. unfold X. rewrite right_id_L by apply _. apply elem_of_list_to_set. apply elem_of_list_In, in_flat_map. exists d.
      split; [apply elem_of_list_In; auto|]. left. rewrite En. done. }
    assert (forall w, w ∈ c_workers d -> is_fin (c_status d) = false -> is_fin (w_status w) = false -> Dof X s0 (n, Some (w_name w))) as HDw.
    { intros w Hw E Ew. right. unfold X. rewrite right_id_L by apply _. apply elem_of_list_to_set. apply elem_of_list_In, in_flat_map. exists d.
      split; [apply elem_of_list_In; auto|]. right. rewrite En. apply (in_map (fun w => (n, Some (w_name w)))). apply filter_In.
      split; [apply elem_of_list_In; done|]. unfold is_fin, jge, jlt in *. destruct (w_status w); done. }
    assert (forall p, ~ Bof s0 p) as HB by (intros p (k & H); done).
    pose proof (k_row _ _ _ _ _ _ Hk) as Hro.
    constructor; rewrite ?Es, ?Et, ?(rl_row _ _ _ Hr), ?(rl_proxied _ _ _ Hr); try done.
    + apply Hr.
    + apply Hr.
    + unfold names. rewrite (rl_workers _ _ _ Hr). apply Hk.
    + apply Forall_forall. intros w Hw. pose proof Hw as Hw1. rewrite (rl_workers _ _ _ Hr) in Hw1.
      pose proof (k_workers _ _ _ _ _ _ Hk) as Hall. rewrite Forall_forall in Hall. specialize (Hall w Hw1). destruct Hall.
      rewrite <- Es in *.
      assert (is_fin (w_status w) = false -> Dof X s0 (n, Some (w_name w))) as HDw2.
      { intros E. apply HDw; auto. destruct (is_fin (c_status d)) eqn:Ef; [|done]. rewrite wo_done in E; done. }
      constructor; auto.
      * intros E _. left. apply HDw2. rewrite E. done.
      * intros E _. apply HDw2. unfold is_fin, jge, jlt in *. destruct (w_status w); done.
      * intros H. apply HB in H. done.
      * intros H. apply HB in H. done.
    + intros w Hw. rewrite (rl_workers _ _ _ Hr) in Hw. apply (k_bulk _ _ _ _ _ _ Hk w Hw).
    + intros mx Hmx. pose proof (k_cap _ _ _ _ _ _ Hk mx Hmx) as Hcap. unfold active_workers in *.
      replace (length (List.filter w_active (c_workers d))) with (length (List.filter w_active (c_workers c))); [done|].
      apply Permutation_length. pose proof (rl_workers _ _ _ Hr) as Hp. clear -Hp. induction Hp; simpl; auto.
      * destruct (w_active x); auto.
      * destruct (w_active x), (w_active y); auto. constructor.
      * etrans; eauto.
    + intros E _. left. apply HD. rewrite Es, E. done.
    + intros E _. apply HD. rewrite Es. unfold is_fin, jge, jlt in *. destruct (c_status c); done.
    + intros E _. left. apply HD. rewrite Es, E. done.
    + intros E _ _. apply HD. rewrite Es, E. done.
    + intros E _. right. apply HD. rewrite Es, E. done.
    + intros H. apply HB in H. done.
    + intros H. apply HB in H. done.
Qed.
End restart.
