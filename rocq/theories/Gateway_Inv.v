(** The invariant of the gateway model and the lemmas for its elementary
    updates. *)
From Coq Require Import ZArith Lia.
From stdpp Require Import prelude gmap.
From Verif Require Import Trace WorkQueue_Model WorkQueue_Proofs Router_Model Gateway_Model.
Open Scope Z_scope.

Definition is_fin (j : job) : bool := jge j STOPPED.
Definition live_route (j : job) : bool := bool_decide (j = RUNNING) || bool_decide (j = CLOSING).

Definition names (c : cluster) : list nat := map w_name (c_workers c).
(** Workers that are not finished, or whose end was announced. *)
Definition covers (w : worker) : bool := w_close w || jlt (w_status w) STOPPED.
Definition n_covers (c : cluster) : nat := length (List.filter covers (c_workers c)).

Section inv.
Context (cf : cfg).

Record row_ok (r : crow) : Prop := {
  ro_tgt : r_target r = RUNNING \/ r_target r = STOPPED \/ r_target r = FAILED;
  ro_closing : r_status r = CLOSING -> r_target r <> RUNNING;
  ro_stopped : r_status r = STOPPED -> r_target r <> RUNNING;
  ro_failed : r_status r = FAILED -> r_target r = FAILED;
  ro_stop : is_Some (r_stop r) <-> is_fin (r_status r) = true;
  ro_sched : r_status r = RUNNING -> r_sched r <> [];
  ro_count : forall mx, r_max r = Some mx -> r_count r <= Z.max 0 mx }.

Section local.
(** [D x]: item x will be reconciled; [B p]: some reconciler is suspended at p;
    [R]: the proxy's table. *)
Context (D : item -> Prop) (B : pc -> Prop) (R : gmap (rkind * nat) bytes) (n : nat).

(** What holds for a worker of a cluster with status [cs]. *)
Record wk_ok (cs : job) (w : worker) : Prop := {
  wo_tgt : w_target w <> CREATED /\ w_target w <> SUBMITTED;
  wo_fin : is_fin (w_status w) = true -> is_fin (w_target w) = true;
  wo_cl : w_status w = CLOSING -> jge (w_target w) CLOSING = true;
  wo_bulk : w_status w = CLOSING \/ w_target w = CLOSING -> bulk cf = true;
  wo_closing : jge cs CLOSING = true -> jge (w_target w) (if bulk cf then CLOSING else STOPPED) = true;
  wo_done : is_fin cs = true -> is_fin (w_status w) = true;
  wo_start : w_status w = CREATED -> w_target w = RUNNING -> D (n, Some (w_name w)) \/ B (InStartWorker n (w_name w));
  wo_stop : is_fin (w_status w) = false -> is_fin (w_target w) = true ->
            D (n, Some (w_name w)) \/ B (InStopWorker n (w_name w));
  wo_close : jlt (w_status w) CLOSING = true -> w_target w = CLOSING -> D (n, Some (w_name w));
  wb_start : B (InStartWorker n (w_name w)) -> (w_status w = CREATED \/ w_status w = RUNNING) /\
             (w_target w = RUNNING \/ D (n, Some (w_name w)));
  wb_stop : B (InStopWorker n (w_name w)) -> is_fin (w_target w) = true /\ w_status w <> CREATED }.

Record cok (c : cluster) : Prop := {
  k_name : c_name c = n;
  k_row : row_ok (c_row c);
  k_ready : c_ready c = jge (c_status c) RUNNING;
  k_shut : c_shutdown c = is_fin (c_status c);
  k_nodup : NoDup (names c);
  k_workers : Forall (wk_ok (c_status c)) (c_workers c);
  k_bulk : forall w, w ∈ c_workers c -> w_status w = CLOSING \/ w_target w = CLOSING -> c_target c <> RUNNING;
  k_cap : forall mx, r_max (c_row c) = Some mx -> Z.of_nat (length (active_workers c)) <= Z.max 0 mx;
  k_proxied : c_proxied c = true -> jge (c_status c) RUNNING = true;
  k_sni : c_status c <> CLOSING \/ is_Some (R !! (RSNI, n)) -> R !! (RSNI, n) = if c_proxied c && live_route (c_status c) then Some (r_sched (c_row c)) else None;
  k_path : c_status c <> CLOSING \/ is_Some (R !! (RPATH, n)) -> R !! (RPATH, n) = if c_proxied c && live_route (c_status c)
             then match r_dash (c_row c) with [] => None | d => Some d end else None;
  o_start : c_status c = CREATED -> c_target c = RUNNING -> D (n, None) \/ B (InStartCluster n);
  o_close : jlt (c_status c) CLOSING = true -> c_target c <> RUNNING -> D (n, None);
  o_ready : c_status c = CLOSING -> ready_to_close cf c = true -> D (n, None) \/ B (InStopCluster n);
  o_proxy : c_status c = RUNNING -> c_target c = RUNNING -> c_proxied c = false -> D (n, None);
  o_scale : c_status c = RUNNING -> c_target c = RUNNING ->
            r_count (c_row c) <= Z.of_nat (n_covers c) \/ D (n, None);
  b_start : B (InStartCluster n) -> c_status c = CREATED;
  b_stop : B (InStopCluster n) -> c_status c = CLOSING /\ ready_to_close cf c = true }.
End local.

(** [x] was put, or is due to be put after a delay (the second happens only when
    database calls fail, see Fault_Model). *)
Definition pend (qq : wq item) (x : item) : Prop := x ∈ dirty qq \/ is_Some (timers qq !! x).
Definition Dof (X : gset item) (s : gw) (x : item) : Prop := pend (q s) x \/ x ∈ X.
Definition Bof (s : gw) (p : pc) : Prop := exists k, busy s !! k = Some p.

Record qok (qq : wq item) : Prop := {
  qo_line : forall x, x ∈ queue qq <-> x ∈ dirty qq /\ x ∉ processing qq;
  qo_nodup : NoDup (queue qq) }.

(** [cur]: the item held by the reconciler that is running right now;
    [X]: items that are about to be put, or that are [cur]. *)
Record Inv (cur : option item) (X : gset item) (s : gw) : Prop := {
  g_q : qok (q s);
  g_proc : forall x, x ∈ processing (q s) <-> (exists k p, busy s !! k = Some p /\ pc_item p = x) \/ cur = Some x;
  g_inj : forall k k' p p', busy s !! k = Some p -> busy s !! k' = Some p' -> pc_item p = pc_item p' -> k = k';
  g_cur : forall k p, busy s !! k = Some p -> cur <> Some (pc_item p);
  g_tasks : forall k p, busy s !! k = Some p -> tasks (q s) !! k = None;
  g_pcs : forall k p, busy s !! k = Some p ->
          exists c, objs s !! (pc_item p).1 = Some c /\ forall w, (pc_item p).2 = Some w -> w ∈ names c;
  g_fresh : forall n c, objs s !! n = Some c -> (n < uuid s)%nat /\ forall w, w ∈ names c -> (w < uuid s)%nat;
  g_routes : forall k n a, routes s !! (k, n) = Some a -> is_Some (objs s !! n);
  g_cok : forall n c, objs s !! n = Some c -> cok (Dof X s) (Bof s) (routes s) n c }.

(** * How a cluster can change *)

Record wevolve (w w' : worker) : Prop := {
  we_id : w_id w' = w_id w; we_name : w_name w' = w_name w; we_start : w_start w' = w_start w;
  we_created : w_status w <> CREATED -> w_status w' <> CREATED;
  we_fin : is_fin (w_status w) = true -> is_fin (w_status w') = true;
  we_closing : jge (w_status w) CLOSING = true -> jge (w_status w') CLOSING = true;
  we_target : (jnum RUNNING < jnum (w_target w))%nat -> (jnum RUNNING < jnum (w_target w'))%nat;
  we_target2 : is_fin (w_target w) = true -> is_fin (w_target w') = true;
  we_close : w_close w = true -> w_close w' = true }.
Record evolve (c c' : cluster) : Prop := {
  e_id : c_id c' = c_id c;
  e_name : c_name c' = c_name c;
  e_user : r_user (c_row c') = r_user (c_row c);
  e_max : r_max (c_row c') = r_max (c_row c);
  e_info : r_info (c_row c') = r_info (c_row c);
  e_begin : r_start (c_row c') = r_start (c_row c);
  e_status : (jnum (c_status c) <= jnum (c_status c'))%nat;
  e_fin : is_fin (c_status c) = true -> c_status c' = c_status c /\ r_stop (c_row c') = r_stop (c_row c);
  e_target : (jnum (c_target c) <= jnum (c_target c'))%nat;
  e_workers : exists ws1 ws2, c_workers c' = ws1 ++ ws2 /\ Forall2 wevolve (c_workers c) ws1 /\
              (c_target c <> RUNNING -> ws2 = []) }.
Definition Evolve (s s' : gw) : Prop :=
  forall n c, objs s !! n = Some c -> exists c', objs s' !! n = Some c' /\ evolve c c'.

Lemma wevolve_refl w : wevolve w w. Proof. constructor; auto. Qed.
Lemma wevolve_trans a b c : wevolve a b -> wevolve b c -> wevolve a c.
Proof. intros [] []. constructor; try congruence; auto. Qed.
Lemma evolve_refl c : evolve c c.
Proof.
  constructor; auto. exists (c_workers c), []. split; [by rewrite app_nil_r|]. split; [|auto].
  apply Forall_Forall2_diag, Forall_forall. intros; apply wevolve_refl.
Qed.
Lemma jle_running a b : (jnum a <= jnum b)%nat -> a = STOPPED \/ a = FAILED -> b = STOPPED \/ b = FAILED.
Proof. destruct a, b; simpl; intros; try lia; intuition congruence. Qed.
Lemma evolve_trans a b c : row_ok (c_row a) -> evolve a b -> evolve b c -> evolve a c.
Proof.
  intros Hro H1 H2. destruct H1, H2. constructor; try congruence; try lia.
  - intros Hf. destruct (e_fin0 Hf) as [E1 E2]. rewrite <- E1, <- E2 in *. apply e_fin1. congruence.
  - destruct e_workers0 as (w1 & w2 & Hw & Hf & He), e_workers1 as (v1 & v2 & Hv & Hg & Hh).
    rewrite Hw in Hg. apply Forall2_app_inv_l in Hg as (v11 & v12 & Hg1 & Hg2 & ->).
    exists v11, (v12 ++ v2). split; [by rewrite Hv, app_assoc|]. split.
    + clear -Hf Hg1. revert v11 Hg1. induction Hf; intros v11 Hg; inversion Hg; subst; constructor; eauto using wevolve_trans.
    + intros Ht. rewrite (He Ht) in Hg2. inversion Hg2; subst. rewrite Hh; [done|].
      destruct (ro_tgt _ Hro) as [E|E]; [unfold c_target in *; congruence|].
      pose proof (jle_running _ _ e_target0 E) as E'. unfold c_target in *. intuition congruence.
Qed.

(** * Frame *)

Lemma wk_ok_mono (D D' : item -> Prop) (B B' : pc -> Prop) n cs w :
  (forall x, x.1 = n -> D x -> D' x) -> (forall p, (pc_item p).1 = n -> B p <-> B' p) ->
  wk_ok D B n cs w -> wk_ok D' B' n cs w.
Proof.
  intros HD HB []. constructor; auto.
  - intros H1 H2. destruct (wo_start0 H1 H2); [left; apply HD; auto|right; apply HB; auto].
  - intros H1 H2. destruct (wo_stop0 H1 H2); [left; apply HD; auto|right; apply HB; auto].
  - intros Hb. apply HB in Hb; auto. destruct (wb_start0 Hb) as [? [?|?]]; auto.
  - intros Hb. apply HB in Hb; auto.
Qed.
Lemma cok_mono (D D' : item -> Prop) (B B' : pc -> Prop) R R' n c :
  (forall x, x.1 = n -> D x -> D' x) -> (forall p, (pc_item p).1 = n -> B p <-> B' p) ->
  (forall k, R' !! (k, n) = R !! (k, n)) ->
  cok D B R n c -> cok D' B' R' n c.
Proof.
  intros HD HB HR []. constructor; auto; try (rewrite HR; done).
  - eapply Forall_impl; [exact k_workers0|]. intros w. apply wk_ok_mono; auto.
  - intros H1 H2. destruct (o_start0 H1 H2); [left; apply HD; auto|right; apply HB; auto].
  - intros H1 H2. destruct (o_ready0 H1 H2); [left; apply HD; auto|right; apply HB; auto].
  - intros H1 H2. destruct (o_scale0 H1 H2); auto.
  - intros Hb. apply HB in Hb; auto.
  - intros Hb. apply HB in Hb; auto.
Qed.

(** * The queue *)

Lemma qok_init b m : qok (init b m).
Proof. constructor; simpl; [|constructor]. set_solver. Qed.
Lemma put_tasks_None (x : item) (qq : wq item) k : tasks qq !! k = None -> tasks (put x qq) !! k = None.
Proof.
  intros Hk. unfold put, wakeup_next.
  assert (tasks (put_ x qq) = tasks qq) as E by (unfold put_; repeat (case_decide; simpl; auto)).
  rewrite <- E in Hk. clear E.
  destruct (wakeup_next_aux (waiting (put_ x qq)) (tasks (put_ x qq))) as [w t] eqn:Ha. simpl.
  revert w t Ha Hk. generalize (tasks (put_ x qq)) as t0.
  induction (waiting (put_ x qq)) as [|c l IH]; intros t0 w t; simpl; [intros [= <- <-]; auto|].
  destruct (t0 !! c) as [[]|] eqn:Hc; intros Ha Hk; try (eapply IH; eauto; fail).
  injection Ha as <- <-. rewrite lookup_insert_ne; congruence.
Qed.
Lemma wakeup_tasks_None (qq : wq item) k : tasks qq !! k = None -> tasks (wakeup_next qq) !! k = None.
Proof.
  intros Hk. unfold wakeup_next.
  destruct (wakeup_next_aux (waiting qq) (tasks qq)) as [w t] eqn:Ha. simpl.
  revert w t Ha Hk. generalize (tasks qq) as t0.
  induction (waiting qq) as [|c l IH]; intros t0 w t; simpl; [intros [= <- <-]; auto|].
  destruct (t0 !! c) as [[]|] eqn:Hc; intros Ha Hk; try (eapply IH; eauto; fail).
  injection Ha as <- <-. rewrite lookup_insert_ne; congruence.
Qed.
Lemma qok_put (x : item) (qq : wq item) : qok qq -> qok (put x qq).
Proof.
  intros [Hl Hn]. destruct (put_core x qq) as (Hp & Ht' & Hd & Hq).
  assert (x ∈ dirty qq -> x ∈ queue qq \/ x ∈ processing qq) as Hx.
  { intros Hi. destruct (decide (x ∈ processing qq)); [auto|]. left. apply Hl. auto. }
  constructor.
  - intros y. specialize (Hl y). rewrite Hq, Hp, Hd. clear Hq Hp Hd Hn Ht'. destruct (decide (x ∈ dirty qq)) as [Hi|Hi].
    + rewrite Hl. destruct (decide (y = x)) as [->|]; [|set_solver].
      set_solver.
    + destruct (decide (x ∈ processing qq)).
      * rewrite Hl. destruct (decide (y = x)) as [->|]; set_solver.
      * rewrite elem_of_app, Hl, elem_of_list_singleton. destruct (decide (y = x)) as [->|]; set_solver.
  - rewrite Hq. repeat case_decide; auto. apply NoDup_app. split; [auto|]. split; [|apply NoDup_singleton].
    intros y Hy Hy2. apply elem_of_list_singleton in Hy2 as ->. apply Hl in Hy. tauto.
Qed.
Lemma done_core (x : item) (qq : wq item) : dirty (task_done x (reset_backoff x qq)) = dirty qq /\
  processing (task_done x (reset_backoff x qq)) = processing qq ∖ {[x]} /\
  timers (task_done x (reset_backoff x qq)) = timers qq /\
  queue (task_done x (reset_backoff x qq)) = (if decide (x ∈ dirty qq) then queue qq ++ [x] else queue qq).
Proof.
  unfold task_done. simpl. case_decide; [|done].
  rewrite dirty_wakeup, processing_wakeup, timers_wakeup, queue_wakeup. done.
Qed.
Lemma qok_done (x : item) (qq : wq item) : qok qq -> x ∈ processing qq -> qok (task_done x (reset_backoff x qq)).
Proof.
  intros [Hl Hn] Hp. destruct (done_core x qq) as (Hd & Hp' & Ht' & Hq).
  constructor.
  - intros y. specialize (Hl y). rewrite Hq, Hp', Hd. clear Hq Hp' Hd Hn Ht'. destruct (decide (x ∈ dirty qq)).
    + rewrite elem_of_app, Hl, elem_of_list_singleton. destruct (decide (y = x)) as [->|]; set_solver.
    + rewrite Hl. destruct (decide (y = x)) as [->|]; set_solver.
  - rewrite Hq. case_decide; auto. apply NoDup_app. split; [auto|]. split; [|apply NoDup_singleton].
    intros y Hy Hy2. apply elem_of_list_singleton in Hy2 as ->. apply Hl in Hy. tauto.
Qed.
Lemma done_tasks_None (x : item) (qq : wq item) k : tasks qq !! k = None -> tasks (task_done x (reset_backoff x qq)) !! k = None.
Proof. intros Hk. unfold task_done. case_decide; [|done]. apply wakeup_tasks_None. done. Qed.

Lemma Inv_put cur X (x : item) s : Inv cur ({[x]} ∪ X) s -> Inv cur X (qput x s).
Proof.
  intros []. destruct (put_core x (q s)) as (Hp & Ht & Hd & Hq). unfold qput.
  constructor; simpl; auto.
  - apply qok_put; auto.
  - rewrite Hp. auto.
  - intros k p Hk. apply put_tasks_None. eauto.
  - intros n c Hn. eapply cok_mono; [| | |apply g_cok0; exact Hn]; auto.
    intros y Hy. unfold Dof, pend; simpl. rewrite Hd, Ht, !elem_of_union. tauto.
Qed.
Lemma Inv_puts cur X xs s : Inv cur (list_to_set xs ∪ X) s -> Inv cur X (qputs xs s).
Proof.
  unfold qputs. revert s. induction xs as [|x xs IH]; intros s Hi; simpl in *.
  - replace X with (∅ ∪ X) by set_solver. exact Hi.
  - apply IH. apply Inv_put. replace ({[x]} ∪ (list_to_set xs ∪ X)) with ({[x]} ∪ list_to_set xs ∪ X) by set_solver. exact Hi.
Qed.
Lemma Inv_more cur X X' s : X ⊆ X' -> Inv cur X s -> Inv cur X' s.
Proof.
  intros HX []. constructor; auto. intros n c Hn. eapply cok_mono; [| | |apply g_cok0; exact Hn]; auto.
  intros y _. unfold Dof. intros [?|?]; [auto|right; apply HX; auto].
Qed.

(** A change of one cluster. *)
Lemma Inv_set cur X X' s s' n c c' :
  Inv cur X s -> objs s !! n = Some c -> objs s' = <[n := c']> (objs s) ->
  q s' = q s -> busy s' = busy s -> (forall k m, m <> n -> routes s' !! (k, m) = routes s !! (k, m)) ->
  (uuid s <= uuid s')%nat -> (forall x, x.1 <> n -> x ∈ X -> x ∈ X') ->
  (forall w, w ∈ names c -> w ∈ names c') -> (forall w, w ∈ names c' -> (w < uuid s')%nat) ->
  cok (Dof X' s') (Bof s) (routes s') n c' -> Inv cur X' s'.
Proof.
  intros [] Hn Ho Hq Hb Hr Hu HX Hw Hw' Hc.
  assert (Bof s' = Bof s) as HB by (unfold Bof; rewrite Hb; done).
  constructor; rewrite ?Hq, ?Hb; auto.
  - intros k p Hk. destruct (g_pcs0 k p Hk) as (c1 & H1 & H2). rewrite Ho.
    destruct (decide ((pc_item p).1 = n)) as [E|E].
    + rewrite E in *. rewrite lookup_insert. exists c'. split; [done|]. assert (c1 = c) by congruence. subst. eauto.
    + rewrite lookup_insert_ne by done. eauto.
  - intros m d. rewrite Ho. destruct (decide (n = m)) as [<-|E].
    + rewrite lookup_insert. intros [= <-]. split; [|auto]. apply (proj1 (g_fresh0 _ _ Hn)) || idtac.
      pose proof (proj1 (g_fresh0 _ _ Hn)). lia.
    + rewrite lookup_insert_ne by done. intros Hm. destruct (g_fresh0 _ _ Hm) as [Ha Hb']. split; [lia|].
      intros w Hww. specialize (Hb' w Hww). lia.
  - intros k m a Hk. rewrite Ho. destruct (decide (n = m)) as [<-|E]; [rewrite lookup_insert; eauto|].
    rewrite lookup_insert_ne by done. rewrite Hr in Hk by done. eauto.
  - intros m d. rewrite Ho. destruct (decide (n = m)) as [<-|E].
    + rewrite lookup_insert. intros [= <-]. rewrite HB. exact Hc.
    + rewrite lookup_insert_ne by done. intros Hm. eapply cok_mono; [| | |apply g_cok0; exact Hm].
      * intros x Hx. unfold Dof. rewrite Hq. intros [?|?]; [auto|]. right. apply HX; [congruence|auto].
      * intros p _. rewrite HB. done.
      * intros k. apply Hr. done.
Qed.

(** A reconciler gets an item from the queue. *)
Lemma Inv_get cur s q' x : cur = None -> Inv cur ∅ s ->
  (exists l, queue (q s) = x :: l /\ queue q' = l) -> processing q' = {[x]} ∪ processing (q s) ->
  dirty q' = dirty (q s) ∖ {[x]} -> timers q' = timers (q s) ->
  (forall k p, busy s !! k = Some p -> tasks q' !! k = None) ->
  Inv (Some x) {[x]} (set_q q' s).
Proof.
  intros -> [] (l & Hl & Hl') Hp Hd Ht Htk. destruct g_q0 as [Hline Hnd].
  assert (x ∈ dirty (q s) /\ x ∉ processing (q s)) as [Hx1 Hx2] by (apply Hline; rewrite Hl; left).
  rewrite Hl in Hnd. apply NoDup_cons in Hnd as [Hxl Hnd].
  constructor; simpl; auto.
  - constructor; [|by rewrite Hl']. intros y. specialize (Hline y). rewrite Hl, elem_of_cons in Hline.
    rewrite Hl', Hp, Hd. rewrite elem_of_difference, elem_of_union, elem_of_singleton.
    destruct (decide (y = x)) as [->|Hne]; [tauto|]. tauto.
  - intros y. rewrite Hp, elem_of_union, elem_of_singleton, g_proc0. naive_solver.
  - intros k p Hk [= E]. apply Hx2. apply g_proc0. left. eauto.
  - intros n c Hn. eapply cok_mono; [| | |apply g_cok0; exact Hn]; auto.
    intros y _. unfold Dof, pend. simpl. rewrite Hd, Ht, elem_of_difference, elem_of_singleton.
    intros [[?|?]|Hy]; [|by auto|by apply elem_of_empty in Hy]. destruct (decide (y = x)); auto.
Qed.
(** The running reconciler suspends with its item. *)
Lemma Inv_suspend s k p c : let n := (pc_item p).1 in
  Inv (Some (pc_item p)) {[pc_item p]} s -> busy s !! k = None -> tasks (q s) !! k = None ->
  objs s !! n = Some c -> (forall w, (pc_item p).2 = Some w -> w ∈ names c) ->
  cok (Dof ∅ s) (fun p' => Bof s p' \/ p' = p) (routes s) n c ->
  Inv None ∅ (suspend k p s).
Proof.
  intros n [] Hk Htk Hn Hw Hc. unfold suspend.
  assert (forall p', Bof (set_busy (<[k:=p]> (busy s)) s) p' <-> Bof s p' \/ p' = p) as HB.
  { intros p'. unfold Bof; simpl. split.
    - intros (j & Hj). destruct (decide (k = j)) as [<-|]; [rewrite lookup_insert in Hj; injection Hj; auto|].
      rewrite lookup_insert_ne in Hj by done. eauto.
    - intros [(j & Hj)| ->]; [|exists k; apply lookup_insert]. exists j. rewrite lookup_insert_ne; [done|].
      intros ->. congruence. }
  constructor; simpl; auto.
  - intros x. rewrite g_proc0. split.
    + intros [(j & p' & Hj & Hp)|[= <-]]; left.
      * exists j, p'. rewrite lookup_insert_ne; [done|]. intros ->; congruence.
      * exists k, p. rewrite lookup_insert. done.
    + intros [(j & p' & Hj & Hp)|[=]]. destruct (decide (k = j)) as [<-|].
      * rewrite lookup_insert in Hj. injection Hj as <-. subst. auto.
      * rewrite lookup_insert_ne in Hj by done. left. eauto.
  - intros j j' p1 p2 H1 H2 E. destruct (decide (k = j)) as [<-|], (decide (k = j')) as [<-|]; [done| | |];
      rewrite ?lookup_insert in *; rewrite ?lookup_insert_ne in * by done.
    + injection H1 as <-. exfalso. eapply (g_cur0 j'); [exact H2|congruence].
    + injection H2 as <-. exfalso. eapply (g_cur0 j); [exact H1|congruence].
    + eauto.
  - intros j p' Hj. destruct (decide (k = j)) as [<-|]; [done|]. rewrite lookup_insert_ne in Hj by done. eauto.
  - intros j p' Hj. destruct (decide (k = j)) as [<-|].
    + rewrite lookup_insert in Hj. injection Hj as <-. eauto.
    + rewrite lookup_insert_ne in Hj by done. eauto.
  - intros m d Hm. destruct (decide (m = n)) as [->|Hne].
    + assert (d = c) by congruence. subst d. eapply cok_mono; [| | |exact Hc]; [intros y _ Hy; exact Hy| |done].
      intros p' _. rewrite HB. done.
    + eapply cok_mono; [| | |apply g_cok0; exact Hm].
      * intros y Hy. unfold Dof; simpl. rewrite elem_of_singleton. intros [?| ->]; [auto|]. exfalso. apply Hne. symmetry. exact Hy.
      * intros p' Hp'. rewrite HB. split; [auto|]. intros [?| ->]; [done|]. exfalso. apply Hne. symmetry. exact Hp'.
      * done.
Qed.
(** A suspended reconciler goes on, changing its cluster. *)
Lemma Inv_resume X' s s' k p c c' : let n := (pc_item p).1 in
  Inv None ∅ s -> busy s !! k = Some p -> objs s !! n = Some c -> objs s' = <[n := c']> (objs s) ->
  q s' = q s -> busy s' = delete k (busy s) -> (forall k m, m <> n -> routes s' !! (k, m) = routes s !! (k, m)) ->
  uuid s' = uuid s -> names c' = names c ->
  cok (Dof X' s') (fun p' => Bof s p' /\ p' <> p) (routes s') n c' ->
  Inv (Some (pc_item p)) X' s'.
Proof.
  intros n [] Hk Hn Ho Hq Hb Hr Hu Hw Hc.
  assert (forall p', Bof s' p' <-> Bof s p' /\ p' <> p) as HB.
  { intros p'. unfold Bof. rewrite Hb. split.
    - intros (j & Hj). apply lookup_delete_Some in Hj as [Hne Hj]. split; [eauto|]. intros ->.
      apply Hne. eauto.
    - intros ((j & Hj) & Hne). exists j. apply lookup_delete_Some. split; [|done]. intros ->. congruence. }
  constructor; rewrite ?Hq, ?Hb, ?Hu; auto.
  - intros x. rewrite g_proc0. split.
    + intros [(j & p' & Hj & Hp)|[=]]. destruct (decide (k = j)) as [<-|Hne].
      * right. congruence.
      * left. exists j, p'. rewrite lookup_delete_ne by done. done.
    + intros [(j & p' & Hj & Hp)|[= <-]]; left; [|eauto]. apply lookup_delete_Some in Hj as [? ?]. eauto.
  - intros j j' p1 p2 H1 H2. apply lookup_delete_Some in H1 as [_ H1], H2 as [_ H2]. eauto.
  - intros j p' Hj [= E]. apply lookup_delete_Some in Hj as [Hne Hj]. apply Hne. eauto.
  - intros j p' Hj. apply lookup_delete_Some in Hj as [Hne Hj]. eauto.
  - intros j p' Hj. apply lookup_delete_Some in Hj as [_ Hj]. destruct (g_pcs0 j p' Hj) as (c1 & H1 & H2). rewrite Ho.
    destruct (decide ((pc_item p').1 = n)) as [E|E].
    + rewrite E in *. rewrite lookup_insert. exists c'. split; [done|]. assert (c1 = c) by congruence. subst.
      rewrite Hw. eauto.
    + rewrite lookup_insert_ne by done. eauto.
  - intros m d. rewrite Ho. destruct (decide (n = m)) as [<-|E].
    + rewrite lookup_insert. intros [= <-]. rewrite Hw. eauto.
    + rewrite lookup_insert_ne by done. eauto.
  - intros r m a Hm. rewrite Ho. destruct (decide (n = m)) as [<-|E]; [rewrite lookup_insert; eauto|].
    rewrite lookup_insert_ne by done. rewrite Hr in Hm by done. eauto.
  - intros m d. rewrite Ho. destruct (decide (n = m)) as [<-|E].
    + rewrite lookup_insert. intros [= <-]. eapply cok_mono; [| | |exact Hc]; [done| |done]. intros p' _. rewrite HB. done.
    + rewrite lookup_insert_ne by done. intros Hm. eapply cok_mono; [| | |apply g_cok0; exact Hm].
      * intros x Hx. unfold Dof. rewrite Hq. intros [?|Hy]; [auto|]. by apply elem_of_empty in Hy.
      * intros p' Hp'. rewrite HB. split; [|tauto]. intros ?. split; [done|]. intros ->. apply E. exact Hp'.
      * intros r. apply Hr. done.
Qed.
(** The running reconciler is done with its item. *)
Lemma Inv_finish x s : Inv (Some x) ∅ s -> Inv None ∅ (finish x s).
Proof.
  intros []. unfold finish. destruct (done_core x (q s)) as (Hd & Hp & Ht & Hq).
  assert (x ∈ processing (q s)) as Hx by (apply g_proc0; auto).
  constructor; simpl; auto.
  - apply qok_done; auto.
  - intros y. rewrite Hp, elem_of_difference, elem_of_singleton, g_proc0. split.
    + intros [[?|[= ->]] ?]; [auto|done].
    + intros [(j & p & Hj & E)|[=]]. split; [left; eauto|]. intros ->. eapply g_cur0; [exact Hj|congruence].
  - intros k p Hk. apply done_tasks_None. eauto.
  - intros n c Hn. eapply cok_mono; [| | |apply g_cok0; exact Hn]; [|done|done].
    intros y _. unfold Dof, pend. simpl. rewrite Hd, Ht. done.
Qed.

Lemma Evolve_refl s : Evolve s s.
Proof. intros n c Hn. exists c. split; [done|]. apply evolve_refl. Qed.
Lemma Evolve_set s0 s s' n c c' : (forall n c, objs s0 !! n = Some c -> row_ok (c_row c)) ->
  Evolve s0 s -> objs s !! n = Some c -> objs s' = <[n := c']> (objs s) -> evolve c c' -> Evolve s0 s'.
Proof.
  intros Hr He Hn Ho Hc m d Hm. destruct (He m d Hm) as (d' & H1 & H2). rewrite Ho.
  destruct (decide (n = m)) as [<-|E].
  - rewrite lookup_insert. exists c'. split; [done|]. assert (d' = c) by congruence. subst.
    eapply evolve_trans; eauto.
  - rewrite lookup_insert_ne by done. eauto.
Qed.
Lemma Evolve_same s0 s s' : Evolve s0 s -> objs s' = objs s -> Evolve s0 s'.
Proof. intros He Ho n c Hn. rewrite Ho. auto. Qed.

(** * Lists of workers *)

Lemma find_worker_split w ws x : NoDup (map w_name ws) -> find_worker w ws = Some x ->
  exists l1 l2, ws = l1 ++ x :: l2 /\ w_name x = w /\
    (forall f, map_worker w f ws = l1 ++ f x :: l2).
Proof.
  induction ws as [|y ws IH]; intros Hn Hf; simpl in *; [done|].
  apply NoDup_cons in Hn as [Hy Hn]. case_bool_decide as E.
  - injection Hf as <-. exists [], ws. split; [done|]. split; [done|]. intros f. simpl.
    rewrite decide_True by done. f_equal. clear -Hy E. subst w. induction ws as [|z ws IH]; simpl in *; [done|].
    apply not_elem_of_cons in Hy as [H1 H2]. rewrite decide_False by congruence. f_equal. auto.
  - destruct (IH Hn Hf) as (l1 & l2 & -> & H1 & H2). exists (y :: l1), l2. split; [done|]. split; [done|].
    intros f. simpl. rewrite decide_False by done. rewrite H2. done.
Qed.
Lemma find_worker_in w ws : w ∈ map w_name ws -> exists x, find_worker w ws = Some x.
Proof.
  induction ws as [|y ws IH]; simpl; intros Hw; [by apply elem_of_nil in Hw|].
  case_bool_decide; [eauto|]. apply elem_of_cons in Hw as [->|Hw]; [done|]. auto.
Qed.
Lemma find_worker_some w ws x : find_worker w ws = Some x -> x ∈ ws /\ w_name x = w.
Proof.
  induction ws as [|y ws IH]; simpl; [done|]. case_bool_decide.
  - intros [= <-]. split; [left|done].
  - intros Hf. destruct (IH Hf). split; [by right|done].
Qed.
Lemma names_map_worker w f c : (forall x, w_name (f x) = w_name x) ->
  map w_name (map_worker w f (c_workers c)) = names c.
Proof.
  intros Hf. unfold names, map_worker. rewrite map_map. apply map_ext. intros x. case_decide; auto.
Qed.
Lemma Forall2_map_worker w f ws : (forall x, wevolve x (f x)) -> Forall2 wevolve ws (map_worker w f ws).
Proof.
  intros Hf. induction ws as [|x ws IH]; simpl; constructor; [case_decide; [apply Hf|apply wevolve_refl]|auto].
Qed.
End inv.
