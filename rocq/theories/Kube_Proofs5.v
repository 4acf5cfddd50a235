(** Proofs for C99: no shortage of workers is overlooked; the view at rest. *)
From Coq Require Import ZArith Lia.
From stdpp Require Import gmap.
From Verif Require Import Trace Kube_Model Kube_Spec Kube_Proofs Kube_Proofs2 Kube_Proofs3 Kube_Proofs4.
Local Open Scope Z_scope.

(** * Wake-ups *)
(** [ok b s]: with [b] true, a run is still owed or the run at work will ask for another. *)
Definition settled (r : Z) (i : info) : Prop :=
  r <= Z.of_nat (size (workers i)) /\ succeeded i ∪ failed i = ∅ /\
  (Z.of_nat (size (workers i)) = r \/ Z.of_nat (size (pending i)) <= Z.of_nat (size (workers i)) - r).
Definition content (r : Z) (s : state) : Prop :=
  match pc s with
  | Idle => fulfilled (inf s) = false \/ settled r (inf s)
  | Creating _ _ _ bad _ | Deleting _ bad => fulfilled (inf s) = false \/ bad = true
  end.
Lemma call_content b c i o w : let '(c', i', o') := call false b (c, i, o) w in
  (exists put, o' = o ++ [OCall w put] /\ (put = false -> i' = i \/ fulfilled i' = false)).
Proof.
  unfold call. destruct w as [p st|p].
  - unfold on_pod_update. destruct (ignored st); [eexists; split; [done|by left]|]. destruct (recognise st) as [k|].
    + destruct (update i k p) as [i1 ch]. eexists. split; [done|]. rewrite andb_true_r. intros H. right. unfold should_trigger in H.
      destruct (fulfilled i1); [|done]. by destruct (match k with KFailed => ch | _ => false end).
    + eexists. split; [done|by left].
  - unfold on_pod_delete. eexists. split; [done|]. rewrite andb_true_r. unfold should_trigger. intros H. right. by destruct (fulfilled _).
Qed.
Lemma content_inf r s s' : pc s' = pc s -> (inf s' = inf s \/ fulfilled (inf s') = false) -> content r s -> content r s'.
Proof. intros E [Hi|Hi]; unfold content; rewrite E; [by rewrite Hi|]. destruct (pc s); by left. Qed.
Lemma content_deliver r s b s' o : step s (EDeliver false b) = (s', o) -> (forall x, x ∈ o -> wakes x = false) -> content r s -> content r s'.
Proof.
  cbn [step]. destruct (wq s) as [|w q]; [by intros [= <- <-]|]. pose proof (call_content b (cached s) (inf s) [] w) as Hc.
  destruct (call false b _ w) as [[c i] o1]. intros [= <- <-] Hw. destruct Hc as (put & -> & Hp). apply content_inf; [done|]. cbn [inf]. apply Hp.
  specialize (Hw (OCall w put)). destruct put; [|done]. discriminate Hw. left.
Qed.
Lemma content_relist r s b s' o : relist false b s = (s', o) -> (forall x, x ∈ o -> wakes x = false) -> content r s -> content r s'.
Proof.
  intros Hr. eapply (relist_ind false b (fun t o => (forall x, x ∈ o -> wakes x = false) -> content r s -> content r t) s s' o Hr).
  - intros _. by apply content_inf; [|left].
  - intros t o1 t' o2 w q IH _ Hs Hw Hc. eapply content_deliver; [exact Hs|intros x Hx; apply Hw, elem_of_app; by right|].
    apply IH; [intros x Hx; apply Hw, elem_of_app; by left|done].
Qed.
Lemma content_deletes r s i todel bad s' o : start_deletes s i todel bad = (s', o) -> (forall x, x ∈ o -> wakes x = false) -> fulfilled i = false \/ bad = true -> content r s'.
Proof.
  unfold start_deletes. destruct todel; intros [= <- <-] Hw Hi; unfold content; cbn [pc inf]; [|done].
  destruct Hi as [Hi| ->]; [by left|]. specialize (Hw (OReturn true)). discriminate Hw. left.
Qed.
Lemma content_answered r s ok s' o : answered s ok = (s', o) -> (forall x, x ∈ o -> wakes x = false) -> content r s -> content r s'.
Proof.
  unfold answered. destruct (pc s) as [|rest batch [|n] bad todel|] eqn:Hp; try by intros [= <- <-].
  intros H Hw Hc. assert (Hc' : ok = true -> fulfilled (inf s) = false \/ bad = true) by (intros _; unfold content in Hc; by rewrite Hp in Hc).
  destruct ok; cbn [negb] in H; rewrite ?orb_false_r, ?orb_true_r in H.
  - destruct n as [|n].
    + destruct bad.
      * eapply content_deletes; [exact H|done|by right].
      * destruct rest; [eapply content_deletes; [exact H|done|by auto]|]. injection H as <- <-. unfold content. cbn [pc inf]. auto.
    + injection H as <- <-. unfold content. cbn [pc inf]. auto.
  - destruct n as [|n]; [eapply content_deletes; [exact H|done|by right]|]. injection H as <- <-. unfold content. cbn [pc inf]. by right.
Qed.
Lemma content_step r s e s' o : step s e = (s', o) -> starts (e, o) = false -> unstopped e -> (forall x, x ∈ o -> wakes x = false) -> content r s -> content r s'.
Proof.
  intros Hs Hst Hu Hw Hc. destruct e as [p st|p|a b|a b|a b|r' x order|cr|p ok]; cbn [step] in Hs.
  - destruct (srv s !! p) as [[? d]|]; [|by injection Hs as <- <-]. destruct (d && alive st); [by injection Hs as <- <-|]. injection Hs as <- <-. by apply (content_inf r s); [|left|].
  - destruct (srv s !! p); injection Hs as <- <-; [|done]. by apply (content_inf r s); [|left|].
  - destruct a; [done|]. by eapply content_deliver.
  - destruct a; [done|]. by eapply content_relist.
  - destruct a; [done|]. destruct (relist _ _ _) as [s1 o1]. injection Hs as <- <-. specialize (Hw OReset). discriminate Hw. left.
  - assert (o = [] /\ s' = s) as [-> ->]; [|done]. destruct o; [|done]. split; [done|]. destruct (pc s); try by injection Hs as <-.
    destruct (lists _ _); [|by injection Hs as <-]. unfold reconcile in Hs. destruct (negb _); [done|]. destruct (0 <? _); [done|]. destruct (_ ++ _); [done|]. done.
  - destruct (pc s) as [|rest batch [|n] bad todel|] eqn:Hp; try by injection Hs as <- <-.
    assert (Hcr : forall q, content r (created s q)) by (intros q; by apply (content_inf r s); [|left|]).
    destruct cr as [q| |q]; [destruct (decide _); [by injection Hs as <- <-|]; by eapply content_answered|by eapply content_answered|
                             destruct (decide _); [by injection Hs as <- <-|]; by eapply content_answered].
  - unfold answered_delete in Hs. destruct (pc s) as [| |todel bad] eqn:Hp; try by injection Hs as <- <-.
    destruct (decide _); [|by injection Hs as <- <-]. unfold content in Hc. rewrite Hp in Hc.
    assert (Hf : fulfilled (if ok then inf s else sub_deletes (inf s)) = false \/ bad || negb ok = true).
    { destruct ok; cbn [negb]; [by rewrite orb_false_r|right; apply orb_true_r]. }
    destruct (List.filter _ _); injection Hs as <- <-; unfold content; cbn [pc inf]; [|done].
    destruct Hf as [Hf|Hf]; [by left|]. specialize (Hw (OReturn (bad || negb ok))). rewrite Hf in Hw. discriminate Hw. left.
Qed.
Lemma content_start r s x order s' o : step s (EReconcile r x order) = (s', o) -> o <> [] -> (forall x, x ∈ o -> wakes x = false) -> content r s'.
Proof.
  cbn [step]. destruct (pc s) eqn:Hp; try by intros [= <- <-]. destruct (lists _ _) eqn:Hl; [|by intros [= <- <-]]. unfold reconcile.
  apply andb_true_iff in Hl as [Hnd%bool_decide_eq_true Hset%bool_decide_eq_true].
  destruct (should_trigger x (inf s)) eqn:Ht; cbn [negb].
  2:{ intros [= <- <-] _ _. unfold content. rewrite Hp. left. unfold should_trigger in Ht. by destruct (fulfilled _). }
  destruct (0 <? _) eqn:Hd.
  { intros [= <- <-] _ _. unfold content. cbn [pc inf]. left. unfold fulfilled, set_expectations. cbn [creates deletes]. apply andb_false_iff. left. apply Z.leb_gt. by apply Z.ltb_lt in Hd. }
  destruct (_ ++ _) as [|q ps] eqn:El.
  - intros [= <- <-] _ _. unfold content. rewrite Hp. right. fold (workers (inf s)) in *. apply Z.ltb_ge in Hd. apply app_eq_nil in El as [Ep Es].
    split; [lia|]. split; [apply set_eq; intros q; rewrite <- elem_of_elements, Es; by rewrite elem_of_nil, elem_of_empty|].
    unfold py_slice in Ep. destruct (Z.eqb_spec (r - Z.of_nat (size (workers (inf s)))) 0) as [E|E]; [left; lia|right].
    apply (f_equal length) in Ep. rewrite take_length in Ep. cbn [length] in Ep. rewrite <- Hset, size_list_to_set by done. lia.
  - intros H _ Hw. eapply content_deletes; [exact H|done|]. left. unfold fulfilled, set_expectations. cbn [creates deletes length]. apply andb_false_iff. right. apply Z.leb_gt. lia.
Qed.
Lemma content_exec r s h s' : exec step s h s' -> Forall (fun eo => starts eo = false) h -> Forall (fun eo => unstopped (fst eo)) h -> (forall b, b ∈ obs_of h -> wakes b = false) -> content r s -> content r s'.
Proof.
  induction 1 as [|s e o s1 h s2 He _ IH]; [done|]. intros H1 H2 Hw Hc. inversion_clear H1. inversion_clear H2. rewrite obs_of_cons in Hw. apply IH; [done..| |].
  - intros b Hb. apply Hw, elem_of_app. by right.
  - eapply content_step; [exact He|done..| |done]. intros b Hb. apply Hw, elem_of_app. by left.
Qed.
Lemma none_owed h1 r x order o h2 s : exec step init (h1 ++ (EReconcile r x order, o) :: h2) s -> nothing_owed o h2 s ->
  creates (inf s) <= 0 -> deletes (inf s) <= 0 -> settled r (inf s).
Proof.
  intros (m & _ & Hx)%exec_app (Ho & H1 & H2 & Hw & Hp) Hc Hd. inversion Hx as [|? ? ? s1 ? ? He Hr]; subst.
  assert (content r s) as Hk.
  { eapply content_exec; [exact Hr|done..| |].
    - intros b Hb. apply Hw, elem_of_app. by right.
    - eapply content_start; [exact He|done|]. intros b Hb. apply Hw, elem_of_app. by left. }
  unfold content in Hk. rewrite Hp in Hk. destruct Hk as [Hk|]; [|done]. unfold fulfilled in Hk. lia.
Qed.
Lemma none_overlooked h1 r x order o h2 s : exec step init (h1 ++ (EReconcile r x order, o) :: h2) s -> nothing_owed o h2 s ->
  creates (inf s) <= 0 -> deletes (inf s) <= 0 -> r <= Z.of_nat (size (workers (inf s))).
Proof. intros Hx Hn Hc Hd. by destruct (none_owed _ _ _ _ _ _ _ Hx Hn Hc Hd). Qed.

(** * The view when every event has been delivered *)
Definition quiet_on (p : pod) (q : list wev) : Prop := forall w, w ∈ q -> pod_of w <> p.
Record synced (s : state) : Prop := {
  sy_known : all_pods (inf s) ⊆ cached s;
  sy_last : forall p st d, srv s !! p = Some (st, d) ->
    (exists q1 q2, wq s = q1 ++ Upd p st :: q2 /\ quiet_on p q2) \/ (quiet_on p (wq s) /\ forall k, recognise st = Some k -> p ∈ pods_of (inf s) k) }.
Lemma synced_frame s s' : srv s' = srv s -> wq s' = wq s -> cached s' = cached s -> all_pods (inf s') = all_pods (inf s) -> (forall k, pods_of (inf s') k = pods_of (inf s) k) -> synced s -> synced s'.
Proof. intros E1 E2 E3 E4 E5 [H1 H2]. split; rewrite ?E1, ?E2, ?E3, ?E4; [done|]. intros p st d Hp. destruct (H2 p st d Hp) as [H|[? H]]; [by left|right]. split; [done|]. intros k. by rewrite E5; auto. Qed.
Lemma call_sets a b c i o w : let '(c', i', o') := call a b (c, i, o) w in
  (all_pods i ⊆ c -> all_pods i' ⊆ c') /\ (forall q k, q <> pod_of w -> q ∈ pods_of i k -> q ∈ pods_of i' k) /\
  (forall p st k, w = Upd p st -> recognise st = Some k -> p ∈ pods_of i' k).
Proof.
  unfold call. destruct w as [p st|p].
  - unfold on_pod_update. destruct (ignored st) eqn:Hi.
    + split; [set_solver|]. split; [done|]. intros p' st' k [= <- <-] Hk. by rewrite (ignored_recognise _ Hi) in Hk.
    + destruct (recognise st) as [k|] eqn:Hk.
      * pose proof (update_sets i k p) as Hu. destruct (update i k p) as [i1 ch]. cbn [fst] in Hu. destruct Hu as (U1 & U2 & U3 & _).
        split; [rewrite U3; set_solver|]. split; [intros q n Hq; by apply U1|]. intros p' st' k' [= <- <-] E. rewrite Hk in E. injection E as <-. by apply U2.
      * split; [set_solver|]. split; [done|]. intros p' st' k' [= <- <-] E. by rewrite Hk in E.
  - unfold on_pod_delete. pose proof (deleted_sets i p) as (D1 & D2 & D3 & _). split; [rewrite D3; set_solver|]. split; [intros q n Hq; by apply D1|]. done.
Qed.
Lemma synced_deliver s a b s' o : ordered s -> synced s -> step s (EDeliver a b) = (s', o) -> synced s'.
Proof.
  intros Hor [H1 H2]. cbn [step]. destruct (wq s) as [|w q] eqn:Hq; [intros [= <- <-]; split; rewrite ?Hq; auto|].
  pose proof (call_sets a b (cached s) (inf s) [] w) as Hc. destruct (call a b _ w) as [[c i] o1]. intros [= <- <-]. destruct Hc as (C1 & C2 & C3).
  split; cbn [inf cached srv wq]; [auto|]. intros p st d Hp. destruct (H2 p st d Hp) as [(q1 & q2 & E & Hn)|[Hn Hk]].
  - destruct q1 as [|w' q1]; cbn in E; injection E as -> ->; [right; split; [done|]; intros k Hk; by eapply C3|left; eauto].
  - right. split; [intros w' Hw'; apply Hn; by right|]. intros k Hr. apply C2; [|auto]. intros E. by apply (Hn w); [left|].
Qed.
Lemma last_of_map (l : list (pod * (status * bool))) p st d : NoDup l.*1 -> (p, (st, d)) ∈ l ->
  exists q1 q2, map (fun '(p, (st, _)) => Upd p st) l = q1 ++ Upd p st :: q2 /\ quiet_on p q2.
Proof.
  intros Hn Hp. apply elem_of_list_split in Hp as (l1 & l2 & ->). rewrite map_app. cbn [map]. eexists _, _. split; [done|].
  intros w Hw. apply elem_of_list_fmap in Hw as ([p' [st' d']] & -> & Hin). cbn [pod_of]. intros ->.
  rewrite fmap_app in Hn. apply NoDup_app in Hn as (_ & _ & Hn). rewrite fmap_cons in Hn. apply NoDup_cons in Hn as [Hn _]. apply Hn. apply elem_of_list_fmap. by exists (p, (st', d')).
Qed.
Lemma synced_requeue s : all_pods (inf s) ⊆ cached s -> synced (requeue s).
Proof.
  intros H1. split; cbn [requeue inf cached srv wq]; [done|]. intros p st d Hp. left. unfold relist_calls.
  destruct (last_of_map (map_to_list (srv s)) p st d) as (q1 & q2 & E & Hq); [apply NoDup_fst_map_to_list|by apply elem_of_map_to_list|].
  rewrite E. eexists _, q2. by rewrite app_assoc.
Qed.
Lemma synced_relist s a b s' o : ordered s -> all_pods (inf s) ⊆ cached s -> relist a b s = (s', o) -> synced s'.
Proof.
  intros Hor H1 Hr. eapply (relist_ind a b (fun t _ => ordered t /\ synced t) s s' o Hr).
  - destruct Hor. split; [by apply ordered_requeue|by apply synced_requeue].
  - intros t o1 t' o2 w q [Ht Hy] _ Hs. split; [by eapply ordered_deliver|by eapply synced_deliver].
Qed.
Lemma synced_step s e s' o : ordered s -> synced s -> step s e = (s', o) -> synced s'.
Proof.
  intros Hor Hsy Hs. destruct e as [p st|p|a b|a b|a b|r x order|cr|p ok]; cbn [step] in Hs.
  - destruct (srv s !! p) as [[st0 d]|] eqn:Hp; [|by injection Hs as <- <-]. destruct (d && alive st); [by injection Hs as <- <-|]. injection Hs as <- <-.
    destruct Hsy as [H1 H2]. split; cbn [inf cached srv wq]; [done|]. intros q st' d' Hq. destruct (decide (q = p)) as [->|Hne].
    + rewrite lookup_insert in Hq. injection Hq as <- <-. left. exists (wq s), []. split; [done|]. intros w Hw. by apply elem_of_nil in Hw.
    + rewrite lookup_insert_ne in Hq by done. destruct (H2 q st' d' Hq) as [(q1 & q2 & E & Hn)|[Hn Hk]].
      * left. exists q1, (q2 ++ [Upd p st]). rewrite E, <- app_assoc. split; [done|]. intros w [Hw|Hw]%elem_of_app; [auto|]. apply elem_of_list_singleton in Hw as ->. cbn. congruence.
      * right. split; [|done]. intros w [Hw|Hw]%elem_of_app; [auto|]. apply elem_of_list_singleton in Hw as ->. cbn. congruence.
  - destruct (srv s !! p) as [[st0 d]|] eqn:Hp; [|by injection Hs as <- <-]. injection Hs as <- <-.
    destruct Hsy as [H1 H2]. split; cbn [inf cached srv wq]; [done|]. intros q st' d' Hq. destruct (decide (q = p)) as [->|Hne]; [by rewrite lookup_delete in Hq|].
    rewrite lookup_delete_ne in Hq by done. destruct (H2 q st' d' Hq) as [(q1 & q2 & E & Hn)|[Hn Hk]].
    + left. exists q1, (q2 ++ [Del p]). rewrite E, <- app_assoc. split; [done|]. intros w [Hw|Hw]%elem_of_app; [auto|]. apply elem_of_list_singleton in Hw as ->. cbn. congruence.
    + right. split; [|done]. intros w [Hw|Hw]%elem_of_app; [auto|]. apply elem_of_list_singleton in Hw as ->. cbn. congruence.
  - by eapply (synced_deliver s a b).
  - destruct Hsy. by eapply synced_relist.
  - destruct (relist _ _ _) as [s1 o1] eqn:Hr. injection Hs as <- <-. destruct Hor as [O1 O2 O3 O4 O5 O6].
    eapply (synced_relist _ a b); [|..|exact Hr]; [|by cbn [inf cached all_pods info0]].
    split; cbn [srv used wq cached]; [done|apply empty_subseteq|by intros w ?%elem_of_nil|by intros p _ ?%elem_of_nil| |by intros [] ? ? ?].
    intros p Hp [?%elem_of_empty|(w & ?%elem_of_nil & _)]; done.
  - pose proof (step_quiet s (EReconcile r x order) s' o Hs I) as (Q1 & Q2 & _). pose proof (frames s (EReconcile r x order) s' o Hs I) as (F1 & F2 & F3 & F4).
    by eapply synced_frame.
  - destruct (pc s) as [|rest batch [|n] bad todel|] eqn:Hp; try by injection Hs as <- <-.
    assert (HA : forall t, synced t -> forall ok, answered t ok = (s', o) -> synced s').
    { intros t Ht ok Ha. pose proof (answered_keeps _ _ _ _ Ha) as (K1 & K2 & _). pose proof (answered_frames _ _ _ _ Ha) as (F1 & F2 & F3 & F4). by eapply synced_frame. }
    assert (HC : forall q, q ∉ used s -> synced (created s q)).
    { intros q Hq. destruct Hsy as [H1 H2]. destruct Hor as [O1 O2 O3 _ _ _]. split; unfold created; cbn [inf cached srv wq]; [done|].
      intros p' st' d' Hp'. destruct (decide (p' = q)) as [->|Hne].
      - rewrite lookup_insert in Hp'. injection Hp' as <- <-. left. exists (wq s), []. split; [done|]. intros w Hw. by apply elem_of_nil in Hw.
      - rewrite lookup_insert_ne in Hp' by done. destruct (H2 p' st' d' Hp') as [(q1 & q2 & E & Hn)|[Hn Hk]].
        + left. exists q1, (q2 ++ [Upd q (Status Pending None)]). rewrite E, <- app_assoc. split; [done|]. intros w [Hw|Hw]%elem_of_app; [auto|]. apply elem_of_list_singleton in Hw as ->. cbn. congruence.
        + right. split; [|done]. intros w [Hw|Hw]%elem_of_app; [auto|]. apply elem_of_list_singleton in Hw as ->. cbn. congruence. }
    destruct cr as [q| |q]; [destruct (decide _); [by injection Hs as <- <-|]; eapply HA; [|exact Hs]; auto|by eapply HA|
                             destruct (decide _); [by injection Hs as <- <-|]; eapply HA; [|exact Hs]; auto].
  - pose proof (answered_delete_keeps _ _ _ _ _ Hs) as (K1 & K2 & _). pose proof (frames s (EDelete p ok) s' o Hs I) as (F1 & F2 & F3 & F4). by eapply synced_frame.
Qed.
Lemma exec_synced h s : exec step init h s -> synced s.
Proof.
  intros Hx. eapply (exec_ind_r step init (fun _ s => synced s)); [| |exact Hx].
  - by split.
  - intros h1 t e o s' Hx1 Ht He. eapply synced_step; [by eapply exec_ordered|done|exact He].
Qed.
Lemma view_at_rest h s p : exec step init h s -> wq s = [] ->
  (p ∈ all_pods (inf s) -> p ∈ dom (srv s)) /\ forall st d k, srv s !! p = Some (st, d) -> says st k -> p ∈ pods_of (inf s) k.
Proof.
  intros Hx Hw. pose proof (exec_synced _ _ Hx) as [S1 S2]. pose proof (exec_ordered _ _ Hx) as [_ _ _ _ O5 _]. split.
  - intros Hp. destruct (decide (p ∈ dom (srv s))) as [|Hn]; [done|]. specialize (O5 p Hn (or_introl (S1 _ Hp))). rewrite Hw in O5. by apply elem_of_nil in O5.
  - intros st d k Hp Hs. apply recognise_says in Hs. destruct (S2 p st d Hp) as [(q1 & q2 & E & _)|[_ Hk]]; [rewrite Hw in E; by destruct q1|auto].
Qed.
