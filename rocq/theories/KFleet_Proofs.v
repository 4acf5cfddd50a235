(** Proofs for C119 and C120. *)
From Coq Require Import ZArith Lia.
From stdpp Require Import prelude gmap.
From Verif Require Import Trace Kube_Model Kube_Spec Kube_Proofs Kube_Proofs3 Kube_Proofs4 Kube_Proofs5 KFleet_Model KFleet_Spec.
Open Scope Z_scope.

(** * The reconciler and the queue *)
Lemma call_obs a b x w : let '(_, _, o) := x in let '(_, _, o') := call a b x w in exists put, o' = o ++ [OCall w put].
Proof.
  destruct x as [[c i] o]. unfold call. destruct w; [destruct (on_pod_update _ _ _ _ _)|destruct (on_pod_delete _ _ _ _)]; eauto.
Qed.
Lemma relist_obs a b s s' o : relist a b s = (s', o) -> pc s' = pc s /\ Forall (fun x => exists w put, x = OCall w put) o.
Proof.
  unfold relist. assert (forall l c i o0, Forall (fun x => exists w put, x = OCall w put) o0 -> let '(_, _, o1) := foldl (call a b) (c, i, o0) l in Forall (fun x => exists w put, x = OCall w put) o1) as H.
  { induction l as [|w l IH]; intros c i o0 H0; cbn [foldl]; [done|]. pose proof (call_obs a b (c, i, o0) w) as Hc. destruct (call a b (c, i, o0) w) as [[c1 i1] o1].
    destruct Hc as [put ->]. apply IH. apply Forall_app. split; [done|]. constructor; [eauto|constructor]. }
  specialize (H (relist_calls s) (cached s) (inf s) [] ltac:(constructor)). destruct (foldl _ _ _) as [[c i] o1]. by intros [= <- <-].
Qed.
Lemma calls_ends o : Forall (fun x => exists w put, x = OCall w put) o -> ends o = false.
Proof. induction 1 as [|x l (w & put & ->) _ IH]; [done|]. by destruct put. Qed.
Lemma deletes_ends s i l b s' o : start_deletes s i l b = (s', o) -> o <> [] /\ (pc s' = Idle <-> ends o = true).
Proof. unfold start_deletes. destruct l; intros [= <- <-]; cbn; (split; [done|]); [by destruct b|by split]. Qed.
Lemma pc_answered s ok s' o : answered s ok = (s', o) -> pc s <> Idle -> (pc s' = Idle <-> ends o = true).
Proof.
  unfold answered. destruct (pc s) as [|rest batch [|n] bad todel|] eqn:Hp; try (by intros [= <- <-] Hn; rewrite Hp; split).
  intros H _. destruct n as [|n]; [|by injection H as <- <-; cbn; split]. destruct (bad || negb ok).
  - by apply deletes_ends in H as [_ H].
  - destruct rest; [by apply deletes_ends in H as [_ H]|]. by injection H as <- <-; cbn; split.
Qed.
Lemma pc_pod s e s' o : step s e = (s', o) -> pod_event e = true -> (pc s = Idle -> pc s' = Idle) /\ (pc s <> Idle -> (pc s' = Idle <-> ends o = true)).
Proof.
  intros Hs He. assert (forall t : state, pc t = pc s -> ends o = false -> (pc s = Idle -> pc t = Idle) /\ (pc s <> Idle -> (pc t = Idle <-> ends o = true))) as K.
  { intros t E Ho. rewrite E, Ho. split; [done|]. intros Hn. split; [by intros|done]. }
  destruct e as [p st|p|a b|a b|a b|r x order|cr|p ok]; cbn [step] in Hs; try discriminate He.
  - destruct (srv s !! p) as [[? d]|]; [destruct (d && alive st)|]; injection Hs as <- <-; by apply K.
  - destruct (srv s !! p); injection Hs as <- <-; by apply K.
  - destruct (wq s) as [|w q]; [injection Hs as <- <-; by apply K|]. pose proof (call_obs a b (cached s, inf s, []) w) as Hc. destruct (call _ _ _ _) as [[c i] o1].
    destruct Hc as [put ->]. injection Hs as <- <-. apply K; [done|]. by destruct put.
  - apply relist_obs in Hs as [E Ho]. apply K; [done|]. by apply calls_ends.
  - destruct (pc s) as [|rest batch [|n] bad todel|] eqn:Hp; try (injection Hs as <- <-; apply K; [by rewrite Hp|done]). split; [done|]. intros _.
    assert (forall t ok, pc t = Creating rest batch (S n) bad todel -> answered t ok = (s', o) -> (pc s' = Idle <-> ends o = true)) as A.
    { intros t ok Ht Ha. eapply pc_answered; [exact Ha|]. by rewrite Ht. }
    assert (s = s' -> o = [] -> (pc s' = Idle <-> ends o = true)) as B. { intros <- ->. by rewrite Hp. }
    destruct cr as [p| |p]; [|by eapply A|]; (destruct (decide _); [injection Hs as <- <-; by apply B|]); (eapply A; [|exact Hs]); cbn [created pc]; exact Hp.
  - unfold answered_delete in Hs. destruct (pc s) as [| |todel bad] eqn:Hp; try (injection Hs as <- <-; apply K; [by rewrite Hp|done]).
    split; [done|]. intros _. destruct (decide (p ∈ todel)); [|injection Hs as <- <-; by rewrite Hp].
    destruct (List.filter _ todel); injection Hs as <- <-; cbn; [by destruct (bad || negb ok)|by split].
Qed.
Lemma pc_start s r x order s' o : pc s = Idle -> lists order (pending (inf s)) = true -> step s (EReconcile r x order) = (s', o) -> o <> [] /\ (pc s' = Idle <-> ends o = true).
Proof.
  intros Hp Hl. cbn [step]. rewrite Hp, Hl. unfold reconcile. destruct (negb _); [intros [= <- <-]; by cbn|]. destruct (0 <? _); [intros [= <- <-]; by cbn|].
  destruct (_ ++ _); [intros [= <- <-]; by cbn|]. apply deletes_ends.
Qed.
Lemma no_reset s e s' o : step s e = (s', o) -> (forall a b, e <> ERestart a b) -> OReset ∉ o.
Proof.
  intros Hs He. assert (forall t i l b t' o', start_deletes t i l b = (t', o') -> OReset ∉ o') as D.
  { intros t i l b t' o'. unfold start_deletes. destruct l; intros [= <- <-]; by rewrite elem_of_list_singleton. }
  assert (forall t ok t' o', answered t ok = (t', o') -> OReset ∉ o') as A.
  { intros t ok t' o'. unfold answered. destruct (pc t) as [|rest batch [|n] bad todel|]; try (intros [= <- <-]; apply not_elem_of_nil).
    destruct n; [|intros [= <- <-]; apply not_elem_of_nil]. destruct (bad || negb ok); [apply D|]. destruct rest; [apply D|]. intros [= <- <-]. by rewrite elem_of_list_singleton. }
  assert (forall l, Forall (fun x => exists w put, x = OCall w put) l -> OReset ∉ l) as F.
  { intros l Hl Hin. rewrite Forall_forall in Hl. by destruct (Hl _ Hin) as (? & ? & ?). }
  destruct e as [p st|p|a b|a b|a b|r x order|cr|p ok]; cbn [step] in Hs.
  - destruct (srv s !! p) as [[? d]|]; [destruct (d && alive st)|]; injection Hs as <- <-; apply not_elem_of_nil.
  - destruct (srv s !! p); injection Hs as <- <-; apply not_elem_of_nil.
  - destruct (wq s) as [|w q]; [injection Hs as <- <-; apply not_elem_of_nil|]. pose proof (call_obs a b (cached s, inf s, []) w) as Hc. destruct (call _ _ _ _) as [[c i] o1].
    destruct Hc as [put ->]. injection Hs as <- <-. by rewrite elem_of_list_singleton.
  - apply relist_obs in Hs as [_ Ho]. by apply F.
  - by destruct (He a b).
  - destruct (pc s); [|injection Hs as <- <-; apply not_elem_of_nil..]. destruct (lists _ _); [|injection Hs as <- <-; apply not_elem_of_nil]. unfold reconcile in Hs.
    destruct (negb _); [injection Hs as <- <-; by rewrite elem_of_list_singleton|]. destruct (0 <? _); [injection Hs as <- <-; by rewrite elem_of_list_singleton|].
    destruct (_ ++ _); [injection Hs as <- <-; by rewrite elem_of_list_singleton|]. by eapply D.
  - destruct (pc s) as [|rest batch [|n] bad todel|]; try (injection Hs as <- <-; apply not_elem_of_nil).
    destruct cr as [p| |p]; [|by eapply A|]; (destruct (decide _); [injection Hs as <- <-; apply not_elem_of_nil|by eapply A]).
  - unfold answered_delete in Hs. destruct (pc s); try (injection Hs as <- <-; apply not_elem_of_nil). destruct (decide _); [|injection Hs as <- <-; apply not_elem_of_nil].
    destruct (List.filter _ _); injection Hs as <- <-; [by rewrite elem_of_list_singleton|apply not_elem_of_nil].
Qed.
(** What wakes the controller is on the queue or scheduled. *)
Lemma woken o : OReset ∉ o -> puts o = false -> requeues o = false -> forall b, b ∈ o -> wakes b = false.
Proof.
  intros H0 H1 H2 b Hb. destruct b as [|w [|]| | |[|]]; try done.
  - exfalso. assert (puts o = true) as E; [|by rewrite E in H1]. apply existsb_exists. exists (OCall w true). split; [by apply elem_of_list_In|done].
  - exfalso. assert (requeues o = true) as E; [|by rewrite E in H2]. apply existsb_exists. exists (OReturn true). split; [by apply elem_of_list_In|done].
Qed.

(** * The invariant *)
Definition owed_free (kh : list (Kube_Model.event * list Kube_Model.obs)) (r : Z) : Prop :=
  exists h1 x order o h2, kh = h1 ++ (EReconcile r x order, o) :: h2 /\ o <> [] /\ Forall (fun eo => starts eo = false) h2 /\ Forall (fun eo => unstopped (fst eo)) h2 /\
    (forall b, b ∈ o ++ obs_of h2 -> wakes b = false).
Record inv (h : dhistory) (s : depot) : Prop := {
  i_kube : exec step init (kube_part h) (d_kube s);
  i_seen : (1 <= d_seen s <= length (d_vers s))%nat;
  i_busy : d_busy s = true <-> pc (d_kube s) <> Idle;
  i_owed : d_dirty s = true \/ d_timer s = true \/ owed_free (kube_part h) (replicas s) }.
Lemma kube_part_snoc h e o : kube_part (h ++ [(e, o)]) = kube_part h ++ o_kube o.
Proof. unfold kube_part. rewrite map_app, concat_app. cbn. by rewrite app_nil_r. Qed.
Lemma owed_free_snoc kh r e o : owed_free kh r -> starts (e, o) = false -> unstopped e -> (forall b, b ∈ o -> wakes b = false) -> owed_free (kh ++ [(e, o)]) r.
Proof.
  intros (h1 & x & order & o0 & h2 & -> & H0 & H1 & H2 & H3) Ha Hb Hc. exists h1, x, order, o0, (h2 ++ [(e, o)]). split; [by rewrite <- app_assoc|]. split; [done|].
  split; [apply Forall_app; split; [done|by constructor]|]. split; [apply Forall_app; split; [done|by constructor]|].
  intros b Hin. unfold obs_of in Hin. rewrite map_app, concat_app in Hin. cbn in Hin. rewrite app_nil_r, app_assoc in Hin. apply elem_of_app in Hin as [Hin|Hin]; [by apply H3|by apply Hc].
Qed.
(** A step that does not concern the pods. *)
Lemma inv_quiet h s e o s' : inv h s -> o_kube o = [] -> d_kube s' = d_kube s -> d_busy s' = d_busy s -> (1 <= d_seen s' <= length (d_vers s'))%nat ->
  (d_dirty s' = true \/ (d_dirty s' = d_dirty s /\ d_timer s' = d_timer s /\ replicas s' = replicas s)) -> inv (h ++ [(e, o)]) s'.
Proof.
  intros [I1 I2 I3 I4] Ho E1 E2 Hn Hq. split; rewrite ?kube_part_snoc, ?Ho, ?app_nil_r, ?E1, ?E2; try done. destruct Hq as [Hq|(-> & -> & ->)]; [by left|done].
Qed.
Lemma patch_seen v s : (1 <= d_seen s <= length (d_vers s))%nat -> (1 <= d_seen (patch v s) <= length (d_vers (patch v s)))%nat /\ replicas (patch v s) = replicas s.
Proof. intros H. unfold replicas. cbn [patch d_seen d_vers]. rewrite app_length. cbn. split; [lia|]. by rewrite lookup_app_l by lia. Qed.
Lemma inv_patch h s e o v s0 : inv h s -> o_kube o = [] -> d_kube s0 = d_kube s -> d_busy s0 = d_busy s -> d_seen s0 = d_seen s -> d_vers s0 = d_vers s -> d_dirty s0 = d_dirty s -> d_timer s0 = d_timer s ->
  inv (h ++ [(e, o)]) (patch v s0).
Proof.
  intros Hi Ho E1 E2 E3 E4 E5 E6. destruct (patch_seen v s0) as [P1 P2]; [rewrite E3, E4; apply Hi|]. apply (inv_quiet h s); try done. right. split; [done|]. split; [done|]. rewrite P2. unfold replicas. by rewrite E3, E4.
Qed.
Lemma inv_step lim h s e o s' : inv h s -> dstep lim s e = (s', o) -> inv (h ++ [(e, o)]) s'.
Proof.
  intros Hi Hs. destruct e as [k| |i r|i| |k|e|x order| |x]; cbn [dstep] in Hs.
  - injection Hs as <- <-. apply (inv_quiet h s); try done; [apply Hi|]. by right.
  - injection Hs as <- <-. apply (inv_quiet h s); try done; [apply Hi|]. by right.
  - destruct (d_wire s !! i) as [[k n]|].
    + destruct r; injection Hs as <- <-; try (apply (inv_quiet h s); try done; [apply Hi|by right]).
      * unfold patch_replicas. destruct (_ =? _); [apply (inv_quiet h s); try done; [apply Hi|by right]|by apply (inv_patch h s)].
      * unfold patch_replicas. destruct (_ =? _); [apply (inv_quiet h s); try done; [apply Hi|by right]|by apply (inv_patch h s)].
    + injection Hs as <- <-. apply (inv_quiet h s); try done; [apply Hi|]. by right.
  - injection Hs as <- <-. apply (inv_quiet h s); try done; [apply Hi|]. by right.
  - injection Hs as <- <-. by apply (inv_patch h s).
  - injection Hs as <- <-. apply (inv_quiet h s); try done; [|by left]. cbn [set_dirty d_seen d_vers]. pose proof (i_seen _ _ Hi). lia.
  - destruct (pod_event e) eqn:He; [|injection Hs as <- <-; apply (inv_quiet h s); try done; [apply Hi|by right]].
    unfold in_kube in Hs. destruct (step (d_kube s) e) as [k os] eqn:Hk. injection Hs as <- <-. destruct Hi as [I1 I2 I3 I4].
    destruct (pc_pod _ _ _ _ Hk He) as [P1 P2]. split; cbn [d_kube d_seen d_vers d_busy d_dirty d_timer]; rewrite ?kube_part_snoc; cbn [o_kube].
    + apply exec_app. exists (d_kube s). split; [done|]. econstructor; [exact Hk|constructor].
    + done.
    + destruct (d_busy s) eqn:Hb; cbn [andb].
      * assert (pc (d_kube s) <> Idle) as Hn by by apply I3. specialize (P2 Hn). destruct (ends os); cbn [negb]; split; intros H; try done; [exfalso; apply H; by apply P2|intros H'; by apply P2 in H'].
      * split; [done|]. intros H. exfalso. apply H, P1. destruct (pc (d_kube s)); [done|..]; by (assert (false = true) by (apply I3; done)).
    + destruct (puts os) eqn:Hp; [left; by rewrite orb_true_r|]. destruct (requeues os) eqn:Hq; [right; left; by rewrite orb_true_r|]. rewrite !orb_false_r.
      destruct I4 as [I4|[I4|I4]]; [by left|by right; left|right; right]. apply owed_free_snoc; [exact I4|..].
      * by destruct e.
      * by destruct e as [| |[] ?|[] ?|[] ?| | |].
      * apply woken; [|done..]. eapply no_reset; [exact Hk|]. intros a b ->. done.
  - destruct (d_dirty s && negb (d_busy s) && lists order (pending (inf (d_kube s)))) eqn:Hc; [|injection Hs as <- <-; apply (inv_quiet h s); try done; [apply Hi|by right]].
    apply andb_true_iff in Hc as [[Hd Hb]%andb_true_iff Hl]. unfold in_kube in Hs. destruct (step (d_kube s) _) as [k os] eqn:Hk. injection Hs as <- <-. destruct Hi as [I1 I2 I3 I4].
    assert (pc (d_kube s) = Idle) as Hp. { destruct (d_busy s); [done|]. destruct (pc (d_kube s)); [done|..]; by (assert (false = true) by (apply I3; done)). }
    destruct (pc_start _ _ _ _ _ _ Hp Hl Hk) as [P0 P1]. split; cbn [d_kube d_seen d_vers d_busy d_dirty d_timer]; rewrite ?kube_part_snoc; cbn [o_kube].
    + apply exec_app. exists (d_kube s). split; [done|]. econstructor; [exact Hk|constructor].
    + done.
    + cbn [andb]. destruct (ends os); cbn [negb]; split; intros H; try done; [exfalso; apply H; by apply P1|intros H'; by apply P1 in H'].
    + destruct (puts os) eqn:Hp'; [by left|]. destruct (requeues os) eqn:Hq; [right; left; by rewrite orb_true_r|]. right. right.
      exists (kube_part h), x, order, os, []. split; [done|]. split; [done|]. split; [constructor|]. split; [constructor|]. unfold obs_of. cbn [map concat]. rewrite app_nil_r.
      apply woken; [|done..]. eapply no_reset; [exact Hk|]. done.
  - destruct (d_timer s); injection Hs as <- <-; apply (inv_quiet h s); try done; try apply Hi; [by left|by right].
  - unfold in_kube in Hs. destruct (step (d_kube s) _) as [k os] eqn:Hk. injection Hs as <- <-. destruct Hi as [I1 I2 I3 I4].
    split; cbn [d_kube d_seen d_vers d_busy d_dirty d_timer]; rewrite ?kube_part_snoc; cbn [o_kube].
    + apply exec_app. exists (d_kube s). split; [done|]. econstructor; [exact Hk|constructor].
    + lia.
    + cbn [step] in Hk. destruct (relist _ _ _) as [k1 o1] eqn:Hr. injection Hk as <- <-. apply relist_obs in Hr as [Hr _]. rewrite Hr. by cbn.
    + by left.
Qed.
Lemma inv_reach lim h s : dreach lim h s -> inv h s.
Proof.
  intros Hx. eapply (exec_ind_r (dstep lim) dinit inv); [| |exact Hx].
  - split; cbn; [constructor|lia|by split|by left].
  - intros. by eapply inv_step.
Qed.

(** * What the gateway was told *)
Lemma limited_at_most lim k : limited lim k = at_most lim k.
Proof. destruct lim as [m|]; [|done]. cbn. destruct (Z.ltb_spec m k); lia. Qed.
Definition numbered (s : depot) : Prop := forall k n, (k, n) ∈ d_wire s -> (k <= d_sent s)%nat.
Lemma elem_delete {A} (l : list A) i x : x ∈ delete i l -> x ∈ l.
Proof. intros H. apply elem_of_list_lookup in H as [j Hj]. destruct (decide (j < i)%nat); [rewrite lookup_delete_lt in Hj by lia|rewrite lookup_delete_ge in Hj by lia]; by eapply elem_of_list_lookup_2. Qed.
(** The heartbeats under way only become fewer, except for those sent. *)
Lemma wire_step lim s e s' o : dstep lim s e = (s', o) -> (d_sent s <= d_sent s')%nat /\ forall k n, (k, n) ∈ d_wire s' -> (k, n) ∈ d_wire s \/ (e = DBeat /\ k = S (d_sent s) /\ d_sent s' = k /\ n = d_size s).
Proof.
  intros Hs. assert (forall t, d_wire t = d_wire s -> d_sent t = d_sent s -> (d_sent s <= d_sent t)%nat /\ forall k n, (k, n) ∈ d_wire t -> (k, n) ∈ d_wire s \/ (e = DBeat /\ k = S (d_sent s) /\ d_sent t = k /\ n = d_size s)) as K.
  { intros t -> ->. split; [lia|]. by left. }
  assert (forall t i, d_wire t = delete i (d_wire s) -> d_sent t = d_sent s -> (d_sent s <= d_sent t)%nat /\ forall k n, (k, n) ∈ d_wire t -> (k, n) ∈ d_wire s \/ (e = DBeat /\ k = S (d_sent s) /\ d_sent t = k /\ n = d_size s)) as L.
  { intros t i -> ->. split; [lia|]. intros k n H. left. by eapply elem_delete. }
  destruct e as [k| |i r|i| |k|e|x order| |x]; cbn [dstep] in Hs.
  - injection Hs as <- <-. by apply K.
  - injection Hs as <- <-. cbn [d_sent d_wire]. split; [lia|]. intros k n [H|H%elem_of_list_singleton]%elem_of_app; [by left|right]. by injection H as -> ->.
  - destruct (d_wire s !! i) as [[k n]|]; [|injection Hs as <- <-; by apply K]. destruct r; injection Hs as <- <-; try by apply (L _ i).
    + unfold patch_replicas. destruct (_ =? _); by apply (L _ i).
    + unfold patch_replicas. destruct (_ =? _); by apply (L _ i).
  - injection Hs as <- <-. by apply (L _ i).
  - injection Hs as <- <-. by apply K.
  - injection Hs as <- <-. by apply K.
  - destruct (pod_event e); [|injection Hs as <- <-; by apply K]. unfold in_kube in Hs. destruct (step _ _). injection Hs as <- <-. by apply K.
  - destruct (_ && _); [|injection Hs as <- <-; by apply K]. unfold in_kube in Hs. destruct (step _ _). injection Hs as <- <-. by apply K.
  - destruct (d_timer s); injection Hs as <- <-; by apply K.
  - unfold in_kube in Hs. destruct (step _ _). injection Hs as <- <-. by apply K.
Qed.
Lemma size_step lim s e s' o : dstep lim s e = (s', o) -> (forall n, e <> DSize n) -> d_size s' = d_size s.
Proof.
  intros Hs He. destruct e as [k| |i r|i| |k|e|x order| |x]; cbn [dstep] in Hs; try (by injection Hs as <- <-).
  - by destruct (He k).
  - destruct (d_wire s !! i) as [[k n]|]; [|by injection Hs as <- <-]. destruct r; injection Hs as <- <-; try done; unfold patch_replicas; by destruct (_ =? _).
  - destruct (pod_event e); [|by injection Hs as <- <-]. unfold in_kube in Hs. destruct (step _ _). by injection Hs as <- <-.
  - destruct (_ && _); [|by injection Hs as <- <-]. unfold in_kube in Hs. destruct (step _ _). by injection Hs as <- <-.
  - destruct (d_timer s); by injection Hs as <- <-.
  - unfold in_kube in Hs. destruct (step _ _). by injection Hs as <- <-.
Qed.
Lemma newest_step lim s e s' o : dstep lim s e = (s', o) -> (forall i r, e <> DArrive i r) -> newest s' = newest s.
Proof.
  intros Hs He. destruct e as [k| |i r|i| |k|e|x order| |x]; cbn [dstep] in Hs; try (by injection Hs as <- <-).
  - by destruct (He i r).
  - injection Hs as <- <-. unfold newest at 1. cbn [patch d_vers]. by rewrite last_snoc.
  - destruct (pod_event e); [|by injection Hs as <- <-]. unfold in_kube in Hs. destruct (step _ _). by injection Hs as <- <-.
  - destruct (_ && _); [|by injection Hs as <- <-]. unfold in_kube in Hs. destruct (step _ _). by injection Hs as <- <-.
  - destruct (d_timer s); by injection Hs as <- <-.
  - unfold in_kube in Hs. destruct (step _ _). by injection Hs as <- <-.
Qed.
Lemma numbered_reach lim h s : dreach lim h s -> numbered s.
Proof.
  intros Hx. eapply (exec_ind_r (dstep lim) dinit (fun _ s => numbered s)); [| |exact Hx].
  - intros k n H. by apply elem_of_nil in H.
  - intros h1 t e o s' _ IH He k n Hk. destruct (wire_step _ _ _ _ _ He) as [W1 W2]. destruct (W2 k n Hk) as [H|(_ & _ & H & _)]; [specialize (IH k n H)|]; lia.
Qed.
(** The heartbeat with number [k] carries [z]. *)
Definition carries (k : nat) (z : Z) (s : depot) : Prop := (k <= d_sent s)%nat /\ forall n, (k, n) ∈ d_wire s -> n = z.
Lemma carries_exec lim k z s h s' : exec (dstep lim) s h s' -> carries k z s -> carries k z s'.
Proof.
  induction 1 as [|s e o s1 h s2 He _ IH]; [done|]. intros [C1 C2]. apply IH. destruct (wire_step _ _ _ _ _ He) as [W1 W2]. split; [lia|].
  intros n Hn. destruct (W2 k n Hn) as [H|(_ & H & _)]; [by apply C2|lia].
Qed.
Lemma size_exec lim s h s' : exec (dstep lim) s h s' -> (forall n o, (DSize n, o) ∉ h) -> d_size s' = d_size s.
Proof.
  induction 1 as [|s e o s1 h s2 He _ IH]; [done|]. intros Hn. rewrite IH; [|intros n o' H; apply (Hn n o'); by right]. eapply size_step; [exact He|]. intros n ->. apply (Hn n o). left.
Qed.
Lemma newest_exec lim s h s' : exec (dstep lim) s h s' -> (forall i r o, (DArrive i r, o) ∉ h) -> newest s' = newest s.
Proof.
  induction 1 as [|s e o s1 h s2 He _ IH]; [done|]. intros Hn. rewrite IH; [|intros i r o' H; apply (Hn i r o'); by right]. eapply newest_step; [exact He|]. intros i r ->. apply (Hn i r o). left.
Qed.
Lemma told_newest lim h s : dreach lim h s -> KFleet_Spec.told h -> newest s = at_most lim (d_size s).
Proof.
  intros Hx (h1 & k & o1 & h2 & i & r & o2 & v & h3 & -> & Ho1 & Ho2 & Hn & Ha). apply exec_app in Hx as (s1 & X1 & Hx). inversion Hx as [|? ? ? s2 ? ? He X2]; subst; clear Hx.
  apply exec_app in X2 as (s3 & X2 & Hx). inversion Hx as [|? ? ? s4 ? ? Hr X3]; subst; clear Hx.
  pose proof (numbered_reach _ _ _ X1) as Hnum. cbn [dstep] in He. injection He as <- <-. cbn in Ho1. injection Ho1 as <-.
  assert (carries (S (d_sent s1)) (d_size s1) s3) as [_ C].
  { eapply carries_exec; [exact X2|]. split; cbn [d_sent d_wire]; [lia|]. intros n [H|H%elem_of_list_singleton]%elem_of_app; [specialize (Hnum _ _ H); lia|by injection H]. }
  assert (d_size s3 = d_size s1) as E3. { eapply size_exec in X2; [exact X2|]. intros n o H. apply (Hn n o), elem_of_app. by left. }
  assert (d_size s4 = d_size s3) as E4. { eapply size_step; [exact Hr|done]. }
  assert (d_size s = d_size s4) as E5. { eapply size_exec; [exact X3|]. intros n o H. apply (Hn n o), elem_of_app. by right. }
  rewrite (newest_exec _ _ _ _ X3 Ha), E5, E4, E3. cbn [dstep] in Hr. destruct (d_wire s3 !! i) as [[k' n]|] eqn:Hw; [|by injection Hr as <- <-].
  apply elem_of_list_lookup_2 in Hw.
  assert (k' = S (d_sent s1) /\ newest s4 = limited lim n) as [-> ->].
  { destruct r; injection Hr as <- <-; try discriminate Ho2; cbn [o_out] in Ho2; injection Ho2 as -> _; (split; [done|]); unfold patch_replicas; destruct (Z.eqb_spec (limited lim n) (newest (set_wire (delete i (d_wire s3)) s3))) as [E|_]; try (by rewrite E); unfold newest; cbn [patch d_vers]; by rewrite last_snoc. }
  rewrite (C n Hw). apply limited_at_most.
Qed.
Lemma at_rest_replicas s : d_seen s = length (d_vers s) -> replicas s = newest s.
Proof. intros E. unfold replicas, newest. rewrite E, last_lookup. by replace (length (d_vers s) - 1)%nat with (pred (length (d_vers s))) by lia. Qed.
Lemma rest_nothing_owed h s : inv h s -> at_rest s -> exists h1 x order o h2, kube_part h = h1 ++ (EReconcile (newest s) x order, o) :: h2 /\ nothing_owed o h2 (d_kube s).
Proof.
  intros Hi [R1 R2 (Q1 & Q2 & Q3) R4]. destruct Hi as [I1 I2 I3 I4]. rewrite Q1, Q3 in I4. destruct I4 as [?|[?|(h1 & x & order & o & h2 & E & H1 & H2 & H3 & H4)]]; [done..|].
  rewrite (at_rest_replicas s) in E by done.
  exists h1, x, order, o, h2. split; [done|]. split; [done|]. split; [done|]. split; [done|]. split; [done|]. destruct (pc (d_kube s)); [done|..]; by (assert (d_busy s = true) as E' by (apply I3; done); rewrite E' in Q2).
Qed.
Lemma pods_follow lim h s : dreach lim h s -> KFleet_Spec.told h -> at_rest s ->
  (exists W : gset pod, at_most lim (d_size s) <= Z.of_nat (size W) /\ forall p, p ∈ W -> a_worker s p) /\
  (forall p st d k, srv (d_kube s) !! p = Some (st, d) -> says st k -> k = KPending \/ k = KRunning).
Proof.
  intros Hx Ht Hr. pose proof (inv_reach _ _ _ Hx) as Hi. pose proof (told_newest _ _ _ Hx Ht) as Hn. destruct (rest_nothing_owed _ _ Hi Hr) as (h1 & x & order & o & h2 & E & Hno).
  pose proof (i_kube _ _ Hi) as Hk. pose proof Hk as Hk'. rewrite E in Hk'. destruct Hr as [_ R2 _ [R4 R5]]. destruct (none_owed _ _ _ _ _ _ _ Hk' Hno R4 R5) as (S1 & S2 & _).
  apply empty_union_L in S2 as [E1 E2]. rewrite Hn in S1. destruct (sets_disjoint _ _ Hk) as [D1 D2].
  assert (forall p st d k, srv (d_kube s) !! p = Some (st, d) -> says st k -> k = KPending \/ k = KRunning) as Hl.
  { intros p st d k Hp Hs. destruct (view_at_rest _ _ p Hk R2) as [_ V]. specialize (V st d k Hp Hs). destruct k; [by left|by right|..]; cbn [pods_of] in V; rewrite ?E1, ?E2 in V; by apply elem_of_empty in V. }
  split; [|exact Hl]. exists (workers (inf (d_kube s))). split; [done|]. intros p Hp. destruct (view_at_rest _ _ p Hk R2) as [V1 _].
  assert (p ∈ dom (srv (d_kube s))) as Hdom. { apply V1, D1. apply elem_of_union in Hp as [Hp|Hp]; [by exists KRunning|by exists KPending]. }
  apply elem_of_dom in Hdom as [[st d] Hst]. exists st, d. split; [done|]. intros k. by apply (Hl p st d).
Qed.

(** * The limit *)
Definition capped (m : Z) (h : dhistory) (s : depot) : Prop := Forall (fun v => v <= m) (d_vers s) /\ asks_at_most m (kube_part h).
Lemma limited_le m k : limited (Some m) k <= m.
Proof. cbn. destruct (Z.ltb_spec m k); lia. Qed.
Lemma newest_le m s : 0 <= m -> Forall (fun v => v <= m) (d_vers s) -> newest s <= m.
Proof. intros Hm Hv. unfold newest. destruct (last (d_vers s)) as [v|] eqn:E; cbn; [|done]. rewrite Forall_forall in Hv. apply Hv. by apply last_Some_elem_of. Qed.
Lemma replicas_le m s : 0 <= m -> Forall (fun v => v <= m) (d_vers s) -> replicas s <= m.
Proof. intros Hm Hv. unfold replicas. destruct (_ !! _) as [v|] eqn:E; cbn; [|done]. rewrite Forall_forall in Hv. apply Hv. by eapply elem_of_list_lookup_2. Qed.
Lemma capped_step m h s e o s' : 0 <= m -> capped m h s -> dstep (Some m) s e = (s', o) -> capped m (h ++ [(e, o)]) s'.
Proof.
  intros Hm [C1 C2] Hs. unfold capped. rewrite kube_part_snoc.
  assert (forall t, d_vers t = d_vers s -> o_kube o = [] -> Forall (fun v => v <= m) (d_vers t) /\ asks_at_most m (kube_part h ++ o_kube o)) as K.
  { intros t -> ->. by rewrite app_nil_r. }
  assert (forall t v, d_vers t = d_vers s ++ [v] -> v <= m -> o_kube o = [] -> Forall (fun v => v <= m) (d_vers t) /\ asks_at_most m (kube_part h ++ o_kube o)) as P.
  { intros t v -> Hv ->. rewrite app_nil_r. split; [|done]. apply Forall_app. split; [done|]. by constructor. }
  assert (forall t ke os, d_vers t = d_vers s -> match ke with EReconcile r _ _ => r <= m | _ => True end -> o_kube o = [(ke, os)] -> Forall (fun v => v <= m) (d_vers t) /\ asks_at_most m (kube_part h ++ o_kube o)) as Q.
  { intros t ke os -> Hke ->. split; [done|]. apply Forall_app. split; [exact C2|]. by constructor. }
  destruct e as [k| |i r|i| |k|e|x order| |x]; cbn [dstep] in Hs; try (injection Hs as <- <-; by apply K).
  - destruct (d_wire s !! i) as [[k n]|]; [|injection Hs as <- <-; by apply K]. destruct r; injection Hs as <- <-; try (by apply K);
      unfold patch_replicas; (destruct (_ =? _); [by apply K|]); (eapply P; [reflexivity|apply limited_le|done]).
  - injection Hs as <- <-. eapply P; [reflexivity|by apply newest_le|done].
  - destruct (pod_event e) eqn:He; [|injection Hs as <- <-; by apply K]. unfold in_kube in Hs. destruct (step _ _). injection Hs as <- <-. eapply Q; [done| |done]. by destruct e.
  - destruct (_ && _); [|injection Hs as <- <-; by apply K]. unfold in_kube in Hs. destruct (step _ _). injection Hs as <- <-. eapply Q; [done| |done]. by apply replicas_le.
  - destruct (d_timer s); injection Hs as <- <-; by apply K.
  - unfold in_kube in Hs. destruct (step _ _) as [k os]. injection Hs as <- <-. by apply (Q _ (ERestart false x) os).
Qed.
Lemma capped_reach m h s : 0 <= m -> dreach (Some m) h s -> capped m h s.
Proof.
  intros Hm Hx. eapply (exec_ind_r (dstep (Some m)) dinit (capped m)); [| |exact Hx].
  - split; [by repeat constructor|constructor].
  - intros. by eapply capped_step.
Qed.
Lemma pods_limited m h s : 0 <= m -> dreach (Some m) h s -> calm (kube_part h) -> Z.of_nat (size (live (d_kube s))) <= m.
Proof. intros Hm Hx Hc. destruct (capped_reach _ _ _ Hm Hx) as [_ Ha]. eapply never_more; [exact Hm|apply (i_kube _ _ (inv_reach _ _ _ Hx))|done..]. Qed.
