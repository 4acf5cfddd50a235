(** Every step of the gateway model preserves the invariant. *)
From Coq Require Import ZArith Lia.
From stdpp Require Import prelude gmap.
From Verif Require Import Trace WorkQueue_Model WorkQueue_Proofs Router_Model Gateway_Model Gateway_Inv.
Open Scope Z_scope.

(** Everything the invariant looks at, except the clusters. *)
Definition same_rest (s s' : gw) : Prop :=
  q s' = q s /\ busy s' = busy s /\ routes s' = routes s /\ uuid s' = uuid s /\ down s' = down s.
Lemma same_rest_refl s : same_rest s s. Proof. done. Qed.
Lemma same_rest_trans a b c : same_rest a b -> same_rest b c -> same_rest a c.
Proof. unfold same_rest. intuition congruence. Qed.

Lemma upd_obj_spec n f s c : objs s !! n = Some c ->
  objs (upd_obj n f s) = <[n := f c]> (objs s) /\ same_rest s (upd_obj n f s).
Proof.
  intros Hn. split; [|done]. simpl. apply map_eq. intros m. destruct (decide (n = m)) as [<-|].
  - rewrite lookup_alter, Hn, lookup_insert. done.
  - rewrite lookup_alter_ne, lookup_insert_ne; done.
Qed.
Lemma update_cluster_spec n f s c : objs s !! n = Some c ->
  objs (update_cluster n f s) = <[n := cset_row (f (c_row c)) c]> (objs s) /\ same_rest s (update_cluster n f s).
Proof.
  intros Hn. unfold update_cluster. rewrite Hn. simpl.
  destruct (upd_obj_spec n (fun c => cset_row (f (c_row c)) c) s c Hn) as [Ho Hs]. split; [exact Ho|done].
Qed.
Lemma update_cluster_None n f s : objs s !! n = None -> update_cluster n f s = s.
Proof. intros Hn. unfold update_cluster. rewrite Hn. done. Qed.

Definition at_worker (w : nat) (f : worker -> worker) (x : worker) : worker := if decide (w_name x = w) then f x else x.
Definition at_workers (ws : list nat) (f : worker -> worker) (x : worker) : worker := if decide (w_name x ∈ ws) then f x else x.

Lemma map_worker_absent w f ws : find_worker w ws = None -> map_worker w f ws = ws.
Proof.
  induction ws as [|x ws IH]; simpl; [done|]. case_bool_decide; [done|]. intros Hf.
  unfold map_worker in *. rewrite IH by done. simpl. rewrite decide_False by done. done.
Qed.
Lemma cset_workers_id c : cset_workers (c_workers c) c = c.
Proof. destruct c; done. Qed.
Lemma cset_row_id c : cset_row (c_row c) c = c.
Proof. destruct c; done. Qed.
Lemma update_worker_spec n w f s c : objs s !! n = Some c ->
  objs (update_worker n w f s) = <[n := cset_workers (map (at_worker w f) (c_workers c)) c]> (objs s) /\
  same_rest s (update_worker n w f s).
Proof.
  intros Hn. unfold update_worker. unfold get_worker. rewrite Hn. simpl.
  destruct (find_worker w (c_workers c)) as [x|] eqn:Hf; simpl.
  - destruct (upd_obj_spec n (fun c => cset_workers (map_worker w f (c_workers c)) c) s c Hn) as [Ho Hs].
    split; [exact Ho|done].
  - split; [|done]. fold (map_worker w f (c_workers c)). unfold at_worker.
    change (map (fun x => if decide (w_name x = w) then f x else x) (c_workers c)) with (map_worker w f (c_workers c)).
    rewrite (map_worker_absent _ f _ Hf), cset_workers_id, insert_id; done.
Qed.
Lemma update_worker_None n w f s : objs s !! n = None -> update_worker n w f s = s.
Proof. intros Hn. unfold update_worker, get_worker. rewrite Hn. done. Qed.
Lemma update_workers_spec n ws f s c : objs s !! n = Some c -> NoDup ws -> (forall x, w_name (f x) = w_name x) ->
  objs (update_workers n ws f s) = <[n := cset_workers (map (at_workers ws f) (c_workers c)) c]> (objs s) /\
  same_rest s (update_workers n ws f s).
Proof.
  intros Hn Hd Hf. unfold update_workers. revert s c Hn. induction Hd as [|w ws Hw Hd IH]; intros s c Hn; simpl.
  - split; [|done]. unfold at_workers. rewrite (map_ext _ id).
    + rewrite map_id, cset_workers_id, insert_id; done.
    + intros x. rewrite decide_False; [done|]. apply not_elem_of_nil.
  - destruct (update_worker_spec n w f s c Hn) as [Ho Hs].
    destruct (IH (update_worker n w f s) (cset_workers (map (at_worker w f) (c_workers c)) c)) as [Ho2 Hs2].
    { rewrite Ho. apply lookup_insert. }
    split; [|eapply same_rest_trans; eauto]. rewrite Ho2, Ho, insert_insert. f_equal. simpl.
    unfold cset_workers at 1. simpl. unfold cset_workers. f_equal. rewrite map_map. apply map_ext. intros x.
    unfold at_workers, at_worker. destruct (decide (w_name x = w)) as [E|E].
    + rewrite decide_False by (rewrite Hf; congruence). rewrite decide_True by (rewrite E; left). done.
    + destruct (decide (w_name x ∈ ws)) as [Hi|Hi].
      * rewrite decide_True by (by right). done.
      * rewrite decide_False; [done|]. rewrite elem_of_cons. tauto.
Qed.

Lemma nodup_map_inj {A B} (f : A -> B) l x y : NoDup (map f l) -> x ∈ l -> y ∈ l -> f x = f y -> x = y.
Proof.
  induction l as [|z l IH]; simpl; [intros _ []%elem_of_nil|]. intros [Hz Hd]%NoDup_cons Hx Hy E.
  apply elem_of_cons in Hx as [-> |Hx], Hy as [-> |Hy]; auto.
  - exfalso. apply Hz. rewrite E. apply (elem_of_list_fmap_1 f). done.
  - exfalso. apply Hz. rewrite <- E. apply (elem_of_list_fmap_1 f). done.
Qed.

Section steps.
Context (cf : cfg) (s0 : gw).
Hypothesis Hrow0 : forall n c, objs s0 !! n = Some c -> row_ok (c_row c).

Definition Good (cur : option item) (X : gset item) (s : gw) : Prop := Inv cf cur X s /\ Evolve s0 s.

Lemma Good_put cur X x s : Good cur ({[x]} ∪ X) s -> Good cur X (qput x s).
Proof. intros [H1 H2]. split; [by apply Inv_put|]. eapply Evolve_same; [exact H2|done]. Qed.
Lemma qputs_objs xs s : objs (qputs xs s) = objs s /\ busy (qputs xs s) = busy s /\ routes (qputs xs s) = routes s /\
  uuid (qputs xs s) = uuid s /\ down (qputs xs s) = down s.
Proof.
  unfold qputs. revert s. induction xs as [|x xs IH]; intros s; simpl; [done|].
  destruct (IH (qput x s)) as (H1 & H2 & H3 & H4 & H5). rewrite H1, H2, H3, H4, H5. done.
Qed.
Lemma Good_puts cur X xs s : Good cur (list_to_set xs ∪ X) s -> Good cur X (qputs xs s).
Proof. intros [H1 H2]. split; [by apply Inv_puts|]. eapply Evolve_same; [exact H2|apply qputs_objs]. Qed.
Lemma Good_more cur X X' s : X ⊆ X' -> Good cur X s -> Good cur X' s.
Proof. intros HX [H1 H2]. split; [by eapply Inv_more|done]. Qed.

Lemma Dof_rest X s s' : q s' = q s -> Dof X s' = Dof X s.
Proof. intros E. unfold Dof. rewrite E. done. Qed.

Lemma Good_set cur X X' s s' n c c' :
  Good cur X s -> objs s !! n = Some c -> objs s' = <[n := c']> (objs s) -> same_rest s s' ->
  (forall x, x.1 <> n -> x ∈ X -> x ∈ X') -> names c' = names c -> evolve c c' ->
  (cok cf (Dof X s) (Bof s) (routes s) n c -> cok cf (Dof X' s) (Bof s) (routes s) n c') ->
  Good cur X' s'.
Proof.
  intros [HI HE] Hn Ho (Hq & Hb & Hr & Hu & _) HX Hw He Hc. split; [|eapply Evolve_set; eauto].
  eapply Inv_set; eauto.
  - intros k m _. rewrite Hr. done.
  - lia.
  - intros w. rewrite Hw. done.
  - intros w. rewrite Hw, Hu. apply (g_fresh _ _ _ _ HI _ _ Hn).
  - rewrite (Dof_rest X' _ _ Hq), Hr. apply Hc. apply (g_cok _ _ _ _ HI _ _ Hn).
Qed.

(** ** Changes of workers *)
Definition same_level (x y : worker) : Prop :=
  jge (w_status y) CLOSING = jge (w_status x) CLOSING /\ jge (w_status y) STOPPED = jge (w_status x) STOPPED.
Lemma all_at_least_map j c g : (forall x, x ∈ c_workers c -> jge (w_status (g x)) j = jge (w_status x) j) ->
  all_at_least j (cset_workers (map g (c_workers c)) c) = all_at_least j c.
Proof.
  intros Hg. unfold all_at_least. simpl. induction (c_workers c) as [|x ws IH]; simpl; [done|].
  rewrite Hg by left. rewrite IH; [done|]. intros y Hy. apply Hg. by right.
Qed.
Lemma ready_map c g : (forall x, x ∈ c_workers c -> same_level x (g x)) ->
  ready_to_close cf (cset_workers (map g (c_workers c)) c) = ready_to_close cf c.
Proof.
  intros Hg. unfold ready_to_close. rewrite !all_at_least_map; [done| |]; intros x Hx; apply Hg; done.
Qed.
Lemma filter_map_le (p : worker -> bool) g ws : (forall x, x ∈ ws -> p x = true -> p (g x) = true) ->
  (length (List.filter p ws) <= length (List.filter p (map g ws)))%nat.
Proof.
  induction ws as [|x ws IH]; simpl; intros Hp; [done|].
  assert (length (List.filter p ws) <= length (List.filter p (map g ws)))%nat by (apply IH; intros y Hy; apply Hp; by right).
  destruct (p x) eqn:Hx.
  - rewrite Hp; [simpl; lia|left|done].
  - destruct (p (g x)); simpl; lia.
Qed.
Lemma filter_map_ge (p : worker -> bool) g ws : (forall x, x ∈ ws -> p (g x) = true -> p x = true) ->
  (length (List.filter p (map g ws)) <= length (List.filter p ws))%nat.
Proof.
  induction ws as [|x ws IH]; simpl; intros Hp; [done|].
  assert (length (List.filter p (map g ws)) <= length (List.filter p ws))%nat by (apply IH; intros y Hy; apply Hp; by right).
  destruct (p (g x)) eqn:Hx.
  - rewrite (Hp x); [simpl; lia|left|done].
  - destruct (p x); simpl; lia.
Qed.
Lemma names_map c g : (forall x, x ∈ c_workers c -> w_name (g x) = w_name x) ->
  names (cset_workers (map g (c_workers c)) c) = names c.
Proof.
  intros Hg. unfold names. simpl. induction (c_workers c) as [|x ws IH]; simpl; [done|].
  rewrite Hg by left. f_equal. apply IH. intros y Hy. apply Hg. by right.
Qed.
Lemma evolve_map c g : (forall x, x ∈ c_workers c -> wevolve x (g x)) -> evolve c (cset_workers (map g (c_workers c)) c).
Proof.
  intros Hg. constructor; try done. simpl. exists (map g (c_workers c)), []. split; [by rewrite app_nil_r|].
  split; [|done]. induction (c_workers c) as [|x ws IH]; simpl; constructor.
  - apply Hg. left.
  - apply IH. intros y Hy. apply Hg. by right.
Qed.

Definition clos (x : worker) : Prop := w_status x = CLOSING \/ w_target x = CLOSING.
Lemma cok_workers (D D' : item -> Prop) (B : pc -> Prop) R n c g :
  cok cf D B R n c -> (forall y, y.1 = n -> D y -> D' y) ->
  (forall x, x ∈ c_workers c -> w_name (g x) = w_name x /\
      (wk_ok cf D B n (c_status c) x -> wk_ok cf D' B n (c_status c) (g x)) /\
      (w_active (g x) = true -> w_active x = true)) ->
  (c_status c = CLOSING -> ready_to_close cf (cset_workers (map g (c_workers c)) c) = true ->
     D' (n, None) \/ B (InStopCluster n)) ->
  (c_status c = RUNNING -> c_target c = RUNNING ->
     r_count (c_row c) <= Z.of_nat (n_covers (cset_workers (map g (c_workers c)) c)) \/ D' (n, None)) ->
  (B (InStopCluster n) -> ready_to_close cf (cset_workers (map g (c_workers c)) c) = true) ->
  (forall x, x ∈ c_workers c -> clos (g x) -> clos x \/ c_target c <> RUNNING) ->
  cok cf D' B R n (cset_workers (map g (c_workers c)) c).
Proof.
  intros [] HD Hg Hr Hs Hb Hcl. constructor; simpl; auto.
  - rewrite names_map; [done|]. intros x Hx. apply Hg. done.
  - apply Forall_forall. intros y Hy. apply elem_of_list_fmap in Hy as (x & -> & Hx).
    apply Hg; [done|]. rewrite Forall_forall in k_workers. auto.
  - intros y (x & -> & Hx)%elem_of_list_fmap Hy. destruct (Hcl x Hx Hy) as [H|H]; [|done]. apply (k_bulk x Hx H).
  - intros mx Hmx. specialize (k_cap mx Hmx). unfold active_workers in *. simpl.
    pose proof (filter_map_ge w_active g (c_workers c) (fun x Hx => proj2 (proj2 (Hg x Hx)))). lia.
  - intros H1 H2. destruct (o_start H1 H2); auto.
  - intros H. split; [apply b_stop; done|auto].
Qed.
(** No worker gets ready, covered workers stay covered. *)
Lemma cok_workers_same (D D' : item -> Prop) (B : pc -> Prop) R n c g :
  cok cf D B R n c -> (forall y, y.1 = n -> D y -> D' y) ->
  (forall x, x ∈ c_workers c -> w_name (g x) = w_name x /\
      (wk_ok cf D B n (c_status c) x -> wk_ok cf D' B n (c_status c) (g x)) /\
      (w_active (g x) = true -> w_active x = true) /\ same_level x (g x) /\ (covers x = true -> covers (g x) = true)) ->
  (forall x, x ∈ c_workers c -> clos (g x) -> clos x \/ c_target c <> RUNNING) ->
  cok cf D' B R n (cset_workers (map g (c_workers c)) c).
Proof.
  intros Hc HD Hg Hcl. eapply cok_workers; eauto.
  - intros x Hx. destruct (Hg x Hx) as (? & ? & ? & _). auto.
  - rewrite ready_map by (intros x Hx; apply Hg; done). intros H1 H2.
    destruct (o_ready _ _ _ _ _ _ Hc H1 H2); auto.
  - intros H1 H2. destruct (o_scale _ _ _ _ _ _ Hc H1 H2) as [H|]; [left|auto].
    unfold n_covers in *. simpl. pose proof (filter_map_le covers g (c_workers c)) as Hle.
    specialize (Hle (fun x Hx => proj2 (proj2 (proj2 (proj2 (Hg x Hx)))))). lia.
  - intros Hb. rewrite ready_map by (intros x Hx; apply Hg; done). apply (b_stop _ _ _ _ _ _ Hc Hb).
Qed.

Lemma Good_workers cur X X' s s' n c g :
  Good cur X s -> objs s !! n = Some c -> objs s' = <[n := cset_workers (map g (c_workers c)) c]> (objs s) -> same_rest s s' ->
  (forall x, x.1 <> n -> x ∈ X -> x ∈ X') -> (forall x, x ∈ c_workers c -> wevolve x (g x)) ->
  (cok cf (Dof X s) (Bof s) (routes s) n c -> cok cf (Dof X' s) (Bof s) (routes s) n (cset_workers (map g (c_workers c)) c)) ->
  Good cur X' s'.
Proof.
  intros HG Hn Ho Hs HX Hg Hc. eapply Good_set; eauto.
  - apply names_map. intros x Hx. apply Hg. done.
  - apply evolve_map. done.
Qed.

(** A worker gets a final target. *)
Lemma Good_wtarget cur X s n w t : is_fin t = true -> Good cur X s ->
  Good cur ({[(n, Some w)]} ∪ X) (update_worker n w (wset_target t) s).
Proof.
  intros Ht HG. destruct (objs s !! n) as [c|] eqn:Hn.
  2:{ rewrite update_worker_None by done. eapply Good_more; [|exact HG]. set_solver. }
  destruct (update_worker_spec n w (wset_target t) s c Hn) as [Ho Hs].
  eapply Good_workers; eauto.
  - set_solver.
  - intros x _. unfold at_worker. case_decide; [|apply wevolve_refl]. constructor; simpl; auto.
    intros _. destruct t; simpl; try discriminate; lia.
  - intros Hc. eapply cok_workers_same; [exact Hc| | |].
    3:{ intros x _. unfold at_worker, clos. case_decide; simpl; [|auto]. intros [?| ->]; [auto|done]. }
    + intros y _. unfold Dof. set_solver.
    + intros x _. unfold at_worker. case_decide as E.
      2:{ split; [done|]. split; [|done]. apply wk_ok_mono; [|done]. intros y _. unfold Dof. set_solver. }
      split; [done|]. split; [|split; [|done]].
      * assert (Dof ({[(n, Some w)]} ∪ X) s (n, Some w)) as HDw by (right; set_solver).
        intros []. constructor; simpl; auto.
        -- destruct t; done.
        -- intros _. destruct t, (bulk cf); done.
        -- intros [?| ->]; [|done]. apply wo_bulk. auto.
        -- intros _. destruct t, (bulk cf); done.
        -- intros _ ->. done.
        -- intros _ _. left. rewrite E. done.
        -- intros _ ->. done.
        -- intros Hb. split; [apply wb_start; done|]. right. rewrite E. done.
        -- intros Hb. split; [done|]. apply wb_stop. done.
      * unfold w_active. simpl. destruct t; done.
Qed.

Lemma Good_same cur X s s' : Good cur X s -> objs s' = objs s -> same_rest s s' -> Good cur X s'.
Proof.
  intros [HI HE] Ho (Hq & Hb & Hr & Hu & Hdn). split; [|eapply Evolve_same; eauto].
  destruct HI. constructor; rewrite ?Hq, ?Hb, ?Hr, ?Hu, ?Ho; auto.
  unfold Bof, Dof in *. rewrite Hq, Hb. auto.
Qed.

(** Attributes the invariant does not look at. *)
Lemma Good_attr cur X s n g :
  (forall c, names (g c) = names c /\ c_row (g c) = c_row c /\ c_id (g c) = c_id c /\ c_proxied (g c) = c_proxied c /\
             c_ready (g c) = c_ready c /\ c_shutdown (g c) = c_shutdown c /\ c_workers (g c) = c_workers c) ->
  Good cur X s -> Good cur X (upd_obj n g s).
Proof.
  intros Hg HG. destruct (objs s !! n) as [c|] eqn:Hn.
  2:{ eapply Good_same; [exact HG| |done]. simpl. apply map_eq. intros m. destruct (decide (n = m)) as [<-|].
      - rewrite lookup_alter, Hn. done.
      - rewrite lookup_alter_ne; done. }
  destruct (upd_obj_spec n g s c Hn) as [Ho Hs]. specialize (Hg c). destruct Hg as (G1 & G2 & G3 & G4 & G5 & G6 & G7).
  eapply Good_set; eauto.
  - pose proof (evolve_refl c) as []. constructor; unfold c_name, c_status, c_target in *; rewrite ?G2, ?G3, ?G7; auto.
  - intros []. constructor; unfold c_name, c_status, c_target, active_workers, n_covers, ready_to_close, all_at_least, c_status, names in *;
      rewrite ?G2, ?G4, ?G5, ?G6, ?G7; auto.
Qed.
Lemma Good_hb cur X s n v : Good cur X s -> Good cur X (upd_obj n (cset_hb v) s).
Proof. apply Good_attr. intros c. done. Qed.
Lemma Good_fails cur X s n (h : cluster -> nat) : Good cur X s -> Good cur X (upd_obj n (fun c => cset_fails (h c) c) s).
Proof. apply Good_attr. intros c. done. Qed.

Lemma ready_row c r : r_status r = c_status c -> ready_to_close cf (cset_row r c) = ready_to_close cf c.
Proof. intros E. unfold ready_to_close, all_at_least. f_equal. f_equal. apply bool_decide_ext. unfold c_status at 1. simpl. rewrite E. done. Qed.

(** A cluster gets a final target. *)
Lemma Good_ctarget cur X s n t :
  (forall c, objs s !! n = Some c -> t = FAILED \/ (t = STOPPED /\ c_target c = RUNNING)) -> Good cur X s ->
  Good cur ({[(n, None)]} ∪ X) (update_cluster n (rset_target t) s).
Proof.
  intros Ht HG. destruct (objs s !! n) as [c|] eqn:Hn.
  2:{ rewrite update_cluster_None by done. eapply Good_more; [|exact HG]. set_solver. }
  specialize (Ht c eq_refl). destruct (update_cluster_spec n (rset_target t) s c Hn) as [Ho Hs].
  assert (t <> RUNNING) as Htr by (destruct Ht as [-> |[-> _]]; done).
  pose proof (g_cok _ _ _ _ (proj1 HG) _ _ Hn) as Hc0.
  eapply Good_set; eauto.
  - set_solver.
  - pose proof (evolve_refl c) as []. constructor; try done.
    unfold c_target in *. simpl. destruct (k_row _ _ _ _ _ _ Hc0) as [T _ _ _ _ _ _].
    destruct Ht as [-> |[-> ->]], T as [E|[E|E]]; simpl; rewrite ?E; simpl; lia.
  - intros []. assert (Dof ({[(n, None)]} ∪ X) s (n, None)) as HDn by (right; set_solver).
    assert (forall y, Dof X s y -> Dof ({[(n, None)]} ∪ X) s y) as HD by (intros y; unfold Dof; rewrite elem_of_union; tauto).
    constructor; simpl; auto.
    + destruct k_row. constructor; simpl; auto.
      * destruct Ht as [-> |[-> _]]; auto.
      * intros E. unfold c_target in *. destruct Ht as [-> |[-> E2]]; [done|]. rewrite ro_failed in E2; done.
    + eapply Forall_impl; [exact k_workers|]. intros w. apply wk_ok_mono; [|done]. auto.
Qed.

(** A row update that keeps status and target. *)
Lemma Good_row cur X s n c f :
  objs s !! n = Some c -> c_target c = RUNNING -> (c_status c = RUNNING -> r_sched (f (c_row c)) = r_sched (c_row c) /\ r_dash (f (c_row c)) = r_dash (c_row c)) ->
  r_name (f (c_row c)) = r_name (c_row c) -> r_user (f (c_row c)) = r_user (c_row c) ->
  r_max (f (c_row c)) = r_max (c_row c) -> r_info (f (c_row c)) = r_info (c_row c) ->
  r_start (f (c_row c)) = r_start (c_row c) -> r_status (f (c_row c)) = r_status (c_row c) ->
  r_target (f (c_row c)) = r_target (c_row c) -> r_stop (f (c_row c)) = r_stop (c_row c) ->
  (forall mx, r_max (c_row c) = Some mx -> r_count (f (c_row c)) <= Z.max 0 mx) ->
  Good cur X s -> Good cur ({[(n, None)]} ∪ X) (update_cluster n f s).
Proof.
  intros Hn Htr Hr F1 F2 F3 F4 F5 F6 F7 F8 Hcap HG.
  destruct (update_cluster_spec n f s c Hn) as [Ho Hs].
  pose proof (g_cok _ _ _ _ (proj1 HG) _ _ Hn) as Hc0.
  eapply Good_set; eauto.
  - set_solver.
  - pose proof (evolve_refl c) as []. constructor; unfold c_name, c_status, c_target in *; simpl; rewrite ?F1, ?F2, ?F3, ?F4, ?F5, ?F6, ?F7, ?F8; auto.
  - intros []. assert (Dof ({[(n, None)]} ∪ X) s (n, None)) as HDn by (right; set_solver).
    assert (forall y, Dof X s y -> Dof ({[(n, None)]} ∪ X) s y) as HD by (intros y; unfold Dof; rewrite elem_of_union; tauto).
    assert (live_route (c_status c) = true -> c_status c = RUNNING) as Hl.
    { unfold live_route, c_status, c_target in *. destruct k_row. destruct (r_status (c_row c)) eqn:E; try done.
      intros _. exfalso. apply ro_closing; auto. }
    constructor; unfold c_name, c_status, c_target in *; simpl; rewrite ?F1, ?F6, ?F7; auto.
    + destruct k_row. constructor; rewrite ?F1, ?F2, ?F3, ?F4, ?F5, ?F6, ?F7, ?F8; auto.
      intros E. destruct (Hr E) as [-> _]. auto.
    + eapply Forall_impl; [exact k_workers|]. intros w. apply wk_ok_mono; [|done]. auto.
    + intros mx. rewrite F3. apply k_cap.
    + intros Hcl. rewrite k_sni by done. destruct (c_proxied c); simpl; [|done]. destruct (live_route _); [|done].
      destruct Hr as [-> _]; auto.
    + intros Hcl. rewrite k_path by done. destruct (c_proxied c); simpl; [|done]. destruct (live_route _); [|done].
      destruct Hr as [_ ->]; auto.
    + intros Hb. rewrite ready_row by done. auto.
Qed.

(** ** Batches *)
Lemma Good_wtargets cur X s n (ts : list (nat * job)) :
  (forall t, t ∈ ts -> is_fin t.2 = true) -> Good cur X s ->
  Good cur (list_to_set (map (fun t : nat * job => (n, Some t.1)) ts) ∪ X) (set_targets n ts s).
Proof.
  unfold set_targets. revert X s. induction ts as [|[w t] ts IH]; intros X s Ht HG; simpl.
  - eapply Good_more; [|exact HG]. set_solver.
  - eapply Good_more; [|apply IH; [intros u Hu; apply Ht; by right|apply Good_wtarget; [apply (Ht (w, t)); left|exact HG]]].
    set_solver.
Qed.
Lemma Good_fail_workers cur X s (ws : list (nat * nat)) : Good cur X s ->
  Good cur (list_to_set (map (fun p : nat * nat => (p.1, Some p.2)) ws) ∪ X)
    (fold_left (fun s p => update_worker p.1 p.2 (wset_target FAILED) s) ws s).
Proof.
  revert X s. induction ws as [|[n w] ws IH]; intros X s HG; simpl.
  - eapply Good_more; [|exact HG]. set_solver.
  - eapply Good_more; [|apply IH; apply Good_wtarget; [done|exact HG]]. set_solver.
Qed.
Lemma Good_fail_clusters cur X s (ns : list nat) : Good cur X s ->
  Good cur (list_to_set (map (fun n => (n, None)) ns) ∪ X) (update_clusters ns (rset_target FAILED) s).
Proof.
  unfold update_clusters. revert X s. induction ns as [|n ns IH]; intros X s HG; simpl.
  - eapply Good_more; [|exact HG]. set_solver.
  - eapply Good_more; [|apply IH; apply Good_ctarget; [auto|exact HG]]. set_solver.
Qed.
Lemma fail_clusters_good s ns : Good None ∅ s -> Good None ∅ (fail_clusters ns s).
Proof. intros HG. apply Good_puts. apply Good_fail_clusters. done. Qed.
Lemma fail_workers_good s ws : Good None ∅ s -> Good None ∅ (fail_workers ws s).
Proof. intros HG. apply Good_puts. apply Good_fail_workers. done. Qed.
Lemma check_timeouts_good now s : Good None ∅ s -> Good None ∅ (check_timeouts cf now s).1.
Proof.
  intros HG. unfold check_timeouts. destruct (find_late _ _ _) as [[cs ws]|]; [|done]. simpl.
  apply fail_workers_good, fail_clusters_good, HG.
Qed.
Lemma check_clusters_end_good oks s : Good None ∅ s -> Good None ∅ (check_clusters_end oks s).
Proof.
  intros HG. unfold check_clusters_end. destruct (chk_c s); [|done]. apply fail_clusters_good.
  eapply Good_same; [exact HG|done|done].
Qed.
Lemma check_workers_end_good oks s : Good None ∅ s -> Good None ∅ (check_workers_end oks s).
Proof.
  intros HG. unfold check_workers_end. destruct (chk_w s) as [ws|]; [|done].
  set (bad := failed_of ws oks).
  assert (Good None ∅ (set_chk_w None s)) as HG0 by (eapply Good_same; [exact HG|done|done]).
  pose proof (Good_fail_workers None ∅ (set_chk_w None s) bad HG0) as HG1. clear HG0.
  revert HG1. generalize (fold_left (fun s p => update_worker p.1 p.2 (wset_target FAILED) s) bad (set_chk_w None s)).
  clear HG s. intros s. rewrite (right_id_L ∅ (∪)).
  revert s. induction bad as [|[n w] bad IH]; intros s HG; simpl in *; [done|].
  apply IH. apply Good_put. apply Good_fails. done.
Qed.
Lemma stop_cluster_good n b s : Good None ∅ s -> Good None ∅ (stop_cluster n b s).
Proof.
  intros HG. unfold stop_cluster, lookup_cluster. case_decide; [|done]. destruct (objs s !! n) as [c|] eqn:Hn; [|done].
  destruct (jge RUNNING (c_target c)) eqn:Hj; [|done]. apply Good_put. apply Good_ctarget; [|done].
  intros c' Hc'. assert (c' = c) by congruence. subst. destruct b; [auto|]. right. split; [done|].
  pose proof (k_row _ _ _ _ _ _ (g_cok _ _ _ _ (proj1 HG) _ _ Hn)) as Hr.
  destruct (ro_tgt _ Hr) as [E|[E|E]]; unfold c_target in *; [done| |]; rewrite E in Hj; done.
Qed.
Lemma shutdown_good s : Good None ∅ s -> Good None ∅ (shutdown cf s).
Proof.
  intros HG. unfold shutdown. destruct (stop_on_shutdown cf).
  - pose proof (fail_clusters_good (set_chk_w None (set_chk_c None s)) (map c_name (active_clusters (set_chk_w None (set_chk_c None s))))) as H.
    destruct H as [HI HE]; [eapply Good_same; [exact HG|done|done]|].
    split; [|exact HE]. destruct HI. constructor; simpl in *; auto.
  - destruct HG as [HI HE]. split; [|exact HE]. destruct HI. constructor; simpl in *; auto.
Qed.

(** ** Heartbeats *)
Lemma Good_wclose cur X s n w : Good cur X s -> Good cur X (update_worker n w (wset_close true) s).
Proof.
  intros HG. destruct (objs s !! n) as [c|] eqn:Hn.
  2:{ rewrite update_worker_None by done. done. }
  destruct (update_worker_spec n w (wset_close true) s c Hn) as [Ho Hs].
  eapply Good_workers; eauto.
  - intros x _. unfold at_worker. case_decide; [|apply wevolve_refl]. constructor; simpl; auto.
  - intros Hc. eapply cok_workers_same; [exact Hc|auto| |intros x _; unfold at_worker, clos; case_decide; auto]. intros x _. unfold at_worker. case_decide as E.
    + split; [done|]. split; [|done]. intros []. constructor; auto.
    + split; [done|]. split; [auto|done].
Qed.
Lemma Good_wcloses cur X s n ws : Good cur X s -> Good cur X (update_workers n ws (wset_close true) s).
Proof.
  unfold update_workers. revert s. induction ws as [|w ws IH]; intros s HG; simpl; [done|]. apply IH, Good_wclose, HG.
Qed.
Lemma Good_wstate cur X s n w st : Good cur X s -> Good cur X (update_worker n w (wset_state st) s).
Proof.
  intros HG. destruct (objs s !! n) as [c|] eqn:Hn.
  2:{ rewrite update_worker_None by done. done. }
  destruct (update_worker_spec n w (wset_state st) s c Hn) as [Ho Hs].
  eapply Good_workers; eauto.
  - intros x _. unfold at_worker. case_decide; [|apply wevolve_refl]. constructor; simpl; auto.
  - intros Hc. eapply cok_workers_same; [exact Hc|auto| |intros x _; unfold at_worker, clos; case_decide; auto]. intros x _. unfold at_worker. case_decide as E.
    + split; [done|]. split; [|done]. intros []. constructor; auto.
    + split; [done|]. split; [auto|done].
Qed.
Lemma Good_cstate cur X s n st : Good cur X s -> Good cur X (update_cluster n (rset_state st) s).
Proof.
  intros HG. destruct (objs s !! n) as [c|] eqn:Hn.
  2:{ rewrite update_cluster_None by done. done. }
  destruct (update_cluster_spec n (rset_state st) s c Hn) as [Ho Hs]. eapply Good_set; eauto.
  - pose proof (evolve_refl c) as []. constructor; auto.
  - intros []. constructor; simpl; auto.
    destruct k_row. constructor; auto.
Qed.

Lemma target_running_low c : row_ok (c_row c) -> c_target c = RUNNING -> jlt (c_status c) CLOSING = true.
Proof.
  intros [] E. unfold c_status, c_target in *. destruct (r_status (c_row c)) eqn:Es; try done; exfalso.
  - apply ro_closing; done.
  - apply ro_stopped; done.
  - specialize (ro_failed eq_refl). congruence.
Qed.

Lemma Good_wrun cur X s n ws :
  NoDup ws ->
  (forall c, objs s !! n = Some c -> c_target c = RUNNING /\
     forall x, x ∈ c_workers c -> w_name x ∈ ws -> jlt (w_status x) RUNNING = true) ->
  Good cur X s -> Good cur X (update_workers n ws (wset_status RUNNING) s).
Proof.
  intros Hd Hg HG. destruct (objs s !! n) as [c|] eqn:Hn.
  2:{ unfold update_workers. clear Hd Hg. induction ws as [|w ws IH]; simpl; [done|]. rewrite update_worker_None; done. }
  destruct (update_workers_spec n ws (wset_status RUNNING) s c Hn Hd) as [Ho Hs]; [done|].
  destruct (Hg c eq_refl) as [Ht Hw]. clear Hg.
  eapply Good_workers; eauto.
  - intros x Hx. unfold at_workers. case_decide as E; [|apply wevolve_refl].
    specialize (Hw x Hx E). constructor; simpl; auto.
    all: destruct (w_status x); done.
  - intros Hc. pose proof (target_running_low c (k_row _ _ _ _ _ _ Hc) Ht) as Hlow.
    eapply cok_workers_same; [exact Hc|auto| |].
    2:{ intros x _. unfold at_workers, clos. case_decide; simpl; [|auto]. intros [?|?]; [done|auto]. }
    intros x Hx. unfold at_workers. case_decide as E; [|done].
    specialize (Hw x Hx E).
    split; [done|]. split; [|split; [done|split]].
    + intros []. constructor; simpl; auto; try done.
      * intros [?|?]; [done|]. apply wo_bulk. auto.
      * intros Hf. unfold is_fin in Hf. destruct (c_status c); done.
      * intros _ Hf. apply wo_stop; [|done]. destruct (w_status x); done.
      * intros _ Hf. apply wo_close; [|done]. destruct (w_status x); done.
      * intros Hb. split; [auto|]. apply wb_start. done.
      * intros Hb. split; [|done]. apply wb_stop. done.
    + unfold same_level. simpl. destruct (w_status x); done.
    + unfold covers. simpl. destruct (w_close x); done.
Qed.

(** Steps that keep the status of the workers and the target of the cluster. *)
Definition statuses (c : cluster) : list (nat * job) := map (fun w => (w_name w, w_status w)) (c_workers c).
Definition wsame (n : nat) (s s' : gw) : Prop :=
  forall c', objs s' !! n = Some c' -> exists c, objs s !! n = Some c /\ c_target c' = c_target c /\ statuses c' = statuses c.
Lemma wsame_refl n s : wsame n s s. Proof. intros c Hc. eauto. Qed.
Lemma wsame_trans n a b c : wsame n a b -> wsame n b c -> wsame n a c.
Proof.
  intros H1 H2 c' Hc. destruct (H2 c' Hc) as (c1 & Hc1 & E1 & E2). destruct (H1 c1 Hc1) as (c2 & Hc2 & E3 & E4).
  exists c2. split; [done|]. split; congruence.
Qed.
Lemma wsame_puts n xs s : wsame n s (qputs xs s).
Proof. intros c'. rewrite (proj1 (qputs_objs xs s)). eauto. Qed.
Lemma wsame_upd n g s : (forall c, c_target (g c) = c_target c /\ statuses (g c) = statuses c) -> wsame n s (upd_obj n g s).
Proof.
  intros Hg c'. simpl. rewrite lookup_alter. intros (c & Hc & ->)%fmap_Some. exists c. split; [done|]. apply Hg.
Qed.
Lemma wsame_row n f s : (forall r, r_target (f r) = r_target r) -> wsame n s (update_cluster n f s).
Proof.
  intros Hf c'. unfold update_cluster. destruct (objs s !! n) as [c|] eqn:Hn; [|rewrite Hn; done].
  simpl. rewrite lookup_alter, Hn. intros [= <-]. exists c. split; [done|]. split; [|done]. unfold c_target. simpl. apply Hf.
Qed.
Lemma statuses_map w f l : (forall x, w_name (f x) = w_name x /\ w_status (f x) = w_status x) ->
  map (fun x => (w_name x, w_status x)) (map_worker w f l) = map (fun x => (w_name x, w_status x)) l.
Proof.
  intros Hf. unfold map_worker. rewrite map_map. apply map_ext. intros x. case_decide; [|done]. destruct (Hf x) as [-> ->]. done.
Qed.
Lemma wsame_worker n w f s : (forall x, w_name (f x) = w_name x /\ w_status (f x) = w_status x) -> wsame n s (update_worker n w f s).
Proof.
  intros Hf. unfold update_worker. destruct (get_worker n w s); [|apply wsame_refl].
  intros c'. simpl. rewrite lookup_alter. intros (c & Hc & ->)%fmap_Some. exists c. split; [done|]. split; [done|].
  unfold statuses. simpl. apply statuses_map. done.
Qed.
Lemma wsame_targets n ts s : wsame n s (set_targets n ts s).
Proof.
  unfold set_targets. revert s. induction ts as [|t ts IH]; intros s; simpl; [apply wsame_refl|].
  eapply wsame_trans; [|apply IH]. apply wsame_worker. done.
Qed.
Lemma wsame_guard n s s' c (ws : list nat) (P : job -> bool) : wsame n s s' -> objs s !! n = Some c -> c_target c = RUNNING ->
  (forall x, x ∈ c_workers c -> w_name x ∈ ws -> P (w_status x) = true) ->
  forall c', objs s' !! n = Some c' -> c_target c' = RUNNING /\
    forall x, x ∈ c_workers c' -> w_name x ∈ ws -> P (w_status x) = true.
Proof.
  intros Hs Hn Ht Hw c' Hc'. destruct (Hs c' Hc') as (c1 & Hc1 & E1 & E2). assert (c1 = c) by congruence. subst c1.
  split; [congruence|]. intros x Hx Hin.
  assert ((w_name x, w_status x) ∈ statuses c) as Hxs.
  { rewrite <- E2. unfold statuses. apply (elem_of_list_fmap_1 (fun w => (w_name w, w_status w))). done. }
  unfold statuses in Hxs. apply elem_of_list_fmap in Hxs as (y & E & Hy). injection E as E3 E4.
  rewrite E4. apply Hw; [done|]. congruence.
Qed.

Lemma classify_spec m ws z : classify m ws = Some z -> NoDup (map w_name ws) ->
  NoDup (z_running z) /\
  (forall x, x ∈ z_running z -> exists w, w ∈ ws /\ w_name w = x /\ jlt (w_status w) RUNNING = true) /\
  (forall t, t ∈ z_targets z -> is_fin t.2 = true).
Proof.
  revert z. induction ws as [|w ws IH]; intros z; simpl.
  - intros [= <-] _. simpl. split; [constructor|]. split; intros ? ?%elem_of_nil; done.
  - destruct (classify m ws) as [[cr su ta ru cl]|] eqn:Hc; [|done]. simpl.
    intros Hz Hd. apply NoDup_cons in Hd as [Hw Hd]. destruct (IH _ eq_refl Hd) as (H1 & H2 & H3). simpl in *. clear IH.
    assert (w_name w ∉ ru) as Hwr.
    { intros Hin. destruct (H2 _ Hin) as (w' & Hw' & E & _). apply Hw. rewrite <- E.
      apply (elem_of_list_fmap_1 w_name). done. }
    assert (forall x, x ∈ ru -> exists w0, w0 ∈ w :: ws /\ w_name w0 = x /\ jlt (w_status w0) RUNNING = true) as H2'.
    { intros x Hx. destruct (H2 x Hx) as (w' & ? & ?). exists w'. split; [by right|done]. }
    assert (jlt (w_status w) RUNNING = true ->
       NoDup (w_name w :: ru) /\ forall x, x ∈ w_name w :: ru -> exists w0, w0 ∈ w :: ws /\ w_name w0 = x /\ jlt (w_status w0) RUNNING = true) as Hmore.
    { intros Hl. split; [by constructor|]. intros x [-> |Hx]%elem_of_cons; [|auto]. exists w. split; [left|done]. }
    destruct (jge (w_status w) STOPPED) eqn:Hs; [injection Hz as <-; simpl; auto|].
    destruct (decide (w_name w ∈ m_closing m)).
    { injection Hz as <-; simpl. destruct (jlt (w_status w) RUNNING) eqn:Hl; [|auto]. destruct (Hmore eq_refl). auto. }
    destruct (decide (w_name w ∈ m_active m)).
    { injection Hz as <-; simpl. destruct (jlt (w_status w) RUNNING) eqn:Hl; [|auto]. destruct (Hmore eq_refl). auto. }
    destruct (decide (w_name w ∈ m_closed m)).
    { injection Hz as <-; simpl. split; [done|]. split; [done|]. intros t [-> |Ht]%elem_of_cons; [|auto].
      simpl. destruct (w_close w); done. }
    destruct (decide (w_status w = SUBMITTED)); [injection Hz as <-; simpl; auto|].
    destruct (decide (w_status w = CREATED)); [injection Hz as <-; simpl; auto|done].
Qed.

Lemma heartbeat_good n m now s : Good None ∅ s -> Good None ∅ (heartbeat n m now s).1.
Proof.
  intros HG. unfold heartbeat, lookup_cluster. case_decide; [|done]. destruct (objs s !! n) as [c|] eqn:Hn; [|done].
  destruct (jlt RUNNING (c_target c)) eqn:Hj; [done|].
  pose proof (g_cok _ _ _ _ (proj1 HG) _ _ Hn) as Hc.
  assert (c_target c = RUNNING) as Ht.
  { destruct (ro_tgt _ (k_row _ _ _ _ _ _ Hc)) as [E|[E|E]]; unfold c_target in *; [done| |]; rewrite E in Hj; done. }
  set (s1 := upd_obj n (cset_hb (Some now)) s).
  assert (Good None ∅ s1) as HG1 by (apply Good_hb, HG).
  assert (wsame n s s1) as Hs1 by (apply wsame_upd; done).
  assert (exists c1, objs s1 !! n = Some c1 /\ c_row c1 = c_row c) as (c1 & Hn1 & Hr1).
  { unfold s1. simpl. rewrite lookup_alter, Hn. eexists. split; [done|]. done. }
  destruct (classify m (c_workers c)) as [z|] eqn:Hz; [|done]. simpl.
  destruct (classify_spec _ _ _ Hz (k_nodup _ _ _ _ _ _ Hc)) as (Z1 & Z2 & Z3).
  set (count := match r_max (c_row c) with Some mx => if mx <? m_count m then mx else m_count m | None => m_count m end).
  set (changed := negb (count =? r_count (c_row c))).
  set (f := fun r : crow => let r1 := if decide (c_status c = RUNNING) then r else rset_addresses (m_api m) (m_sched m) (m_dash m) r in
                if changed then rset_count count r1 else r1).
  match goal with |- context [qputs (map _ (z_targets z ++ ?l)) _] => set (extra := l) end.
  match goal with |- context [set_targets n _ ?t] => set (s2 := t) end.
  assert (forall t, t ∈ z_targets z ++ extra -> is_fin t.2 = true) as Hfin.
  { intros t [Ht'|Ht']%elem_of_app; [auto|]. unfold extra in Ht'. destruct (0 <? _); [|by apply elem_of_nil in Ht'].
    apply elem_of_list_fmap in Ht' as (w & -> & _). done. }
  assert (forall r, r_name (f r) = r_name r /\ r_user (f r) = r_user r /\ r_max (f r) = r_max r /\ r_info (f r) = r_info r /\
     r_start (f r) = r_start r /\ r_status (f r) = r_status r /\ r_target (f r) = r_target r /\ r_stop (f r) = r_stop r) as Hf.
  { intros r. unfold f. destruct (decide _), changed; done. }
  assert (Good None ∅ s2 /\ wsame n s s2) as [HG2 Hs2].
  { unfold s2. destruct (_ || _); [|done].
    split; [|eapply wsame_trans; [exact Hs1|]; apply (wsame_row n f); intros r; apply Hf].
    apply Good_put. destruct (Hf (c_row c1)) as (? & ? & ? & ? & ? & ? & ? & ?).
    eapply Good_row; eauto.
    - unfold c_target. rewrite Hr1. done.
    - unfold c_status. rewrite Hr1. intros E. unfold f. rewrite decide_True by done. destruct changed; done.
    - rewrite Hr1. intros mx Hmx. pose proof (ro_count _ (k_row _ _ _ _ _ _ Hc) mx Hmx) as Hcap.
      unfold f. assert (r_count (if changed then rset_count count (if decide (c_status c = RUNNING) then c_row c
          else rset_addresses (m_api m) (m_sched m) (m_dash m) (c_row c)) else
          (if decide (c_status c = RUNNING) then c_row c else rset_addresses (m_api m) (m_sched m) (m_dash m) (c_row c))) =
          if changed then count else r_count (c_row c)) as ->.
      { destruct changed; [done|]. destruct (decide _); done. }
      destruct changed; [|done]. unfold count. rewrite Hmx. destruct (Z.ltb_spec mx (m_count m)); lia. }
  clearbody s2. clear Hs1 HG1 Hn1 Hr1 c1. clear s1.
  set (s3 := qputs _ (set_targets n (z_targets z ++ extra) s2)).
  assert (Good None ∅ s3) as HG3 by (apply Good_puts, Good_wtargets; done).
  assert (wsame n s s3) as Hs3.
  { eapply wsame_trans; [exact Hs2|]. eapply wsame_trans; [apply wsame_targets|apply wsame_puts]. }
  clearbody s3. apply Good_wcloses.
  destruct (z_running z) as [|w0 ws] eqn:Hzr; [done|].
  change (Good None ∅ (update_workers n (w0 :: ws) (wset_status RUNNING) (upd_obj n (cset_fails 0) s3))).
  rewrite <- Hzr in *. clear Hzr.
  apply Good_wrun; [done| |apply (Good_fails _ _ _ _ (fun _ => 0%nat)), HG3].
  apply (wsame_guard n s _ c _ (fun j => jlt j RUNNING)); auto.
  - eapply wsame_trans; [exact Hs3|]. apply wsame_upd. done.
  - intros x Hx Hin. destruct (Z2 _ Hin) as (w & Hw & E & Hl).
    assert (w = x); [|by subst]. pose proof (k_nodup _ _ _ _ _ _ Hc) as Hnd. unfold names in Hnd.
    eapply nodup_map_inj; eauto.
Qed.
End steps.
