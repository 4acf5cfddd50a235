(** Proofs for C49: the bookkeeping. *)
From Coq Require Import ZArith Lia.
From stdpp Require Import gmap.
From Verif Require Import Trace Kube_Model Kube_Spec.
Local Open Scope Z_scope.

Lemma recognise_says st k : recognise st = Some k <-> says st k.
Proof.
  split.
  - destruct st as [[] [[| |c]|]]; cbn; try done; try (intros [= <-]; constructor).
    destruct (Z.eqb_spec c 0) as [->|]; [intros [= <-]; constructor|done].
  - by destruct 1.
Qed.
Lemma ignored_recognise st : ignored st = true -> recognise st = None.
Proof. by destruct st as [[] [[]|]]. Qed.

(** * What a callback does to the information *)
Definition told_kind (o : obs) (p : pod) (acc : option kind) : option kind :=
  match o with
  | OReset => None
  | OCall (Upd q st) _ => if decide (q = p) then match recognise st with Some k => Some k | None => acc end else acc
  | OCall (Del q) _ => if decide (q = p) then None else acc
  | _ => acc
  end.
Definition rep (os : list obs) (p : pod) : option kind := foldl (fun acc o => told_kind o p acc) None os.
(** The sets agree with the function [f]. *)
Definition books (i : info) (f : pod -> option kind) : Prop :=
  (forall p k, p ∈ pods_of i k <-> f p = Some k) /\ (forall p, p ∈ all_pods i <-> f p <> None).

Lemma books_ext i f g : (forall p, f p = g p) -> books i f -> books i g.
Proof. intros E [H1 H2]. split; [intros p k|intros p]; rewrite <- E; auto. Qed.
Lemma books_same i i' f : all_pods i' = all_pods i -> (forall k, pods_of i' k = pods_of i k) -> books i f -> books i' f.
Proof. intros E E' [H1 H2]. split; [intros p k; rewrite E'; auto|intros p; rewrite E; auto]. Qed.
Lemma update_books i k p f : books i f -> books (fst (update i k p)) (fun q => if decide (p = q) then Some k else f q).
Proof.
  intros [H1 H2]. unfold update. cbn [fst].
  assert (Ha : forall q, q ∈ all_pods (if decide (p ∈ all_pods i) then i else Info ({[p]} ∪ all_pods i) (pending i) (running i) (succeeded i) (failed i) (creates i - 1) (deletes i)) <-> q = p \/ q ∈ all_pods i).
  { intros q. destruct (decide (p ∈ all_pods i)); cbn [all_pods]; set_solver. }
  assert (Hs : forall n, pods_of (if decide (p ∈ all_pods i) then i else Info ({[p]} ∪ all_pods i) (pending i) (running i) (succeeded i) (failed i) (creates i - 1) (deletes i)) n = pods_of i n).
  { intros n. by destruct (decide (p ∈ all_pods i)). }
  set (i1 := if decide (p ∈ all_pods i) then _ else _) in *. clearbody i1. split.
  - intros q n.
    assert (E : pods_of (Info (all_pods i1) (if kind_eqb KPending k then {[p]} ∪ pending i1 else pending i1 ∖ {[p]})
        (if kind_eqb KRunning k then {[p]} ∪ running i1 else running i1 ∖ {[p]})
        (if kind_eqb KSucceeded k then {[p]} ∪ succeeded i1 else succeeded i1 ∖ {[p]})
        (if kind_eqb KFailed k then {[p]} ∪ failed i1 else failed i1 ∖ {[p]}) (creates i1) (deletes i1)) n =
      if kind_eqb n k then {[p]} ∪ pods_of i n else pods_of i n ∖ {[p]}).
    { rewrite <- (Hs n). by destruct n. }
    rewrite E. destruct (decide (p = q)) as [<-|Hne].
    + destruct n, k; cbn [kind_eqb]; split; try done; try set_solver.
    + rewrite <- H1. destruct (kind_eqb n k); set_solver.
  - intros q. cbn [all_pods]. rewrite Ha. destruct (decide (p = q)) as [<-|Hne]; [naive_solver|]. rewrite H2. naive_solver.
Qed.
Lemma deleted_books i p f : books i f -> books (worker_deleted i p) (fun q => if decide (p = q) then None else f q).
Proof.
  intros [H1 H2]. unfold worker_deleted. destruct (decide (p ∈ all_pods i)) as [Hp|Hp].
  - split.
    + intros q k. assert (E : pods_of (Info (all_pods i ∖ {[p]}) (pending i ∖ {[p]}) (running i ∖ {[p]}) (succeeded i ∖ {[p]}) (failed i ∖ {[p]}) (creates i) (deletes i - 1)) k = pods_of i k ∖ {[p]}) by by destruct k.
      rewrite E, elem_of_difference, H1, elem_of_singleton. destruct (decide (p = q)); naive_solver.
    + intros q. cbn [all_pods]. rewrite elem_of_difference, H2, elem_of_singleton. destruct (decide (p = q)); naive_solver.
  - assert (f p = None). { destruct (f p) eqn:E; [|done]. exfalso. apply Hp. apply H2. by rewrite E. }
    apply (books_ext _ f); [|by split]. intros q. by destruct (decide (p = q)) as [<-|].
Qed.
Lemma call_books stopping expired c i o w f : books i f ->
  let '(c', i', o') := call stopping expired (c, i, o) w in
  exists put, o' = o ++ [OCall w put] /\ books i' (fun p => told_kind (OCall w put) p (f p)).
Proof.
  intros Hb. unfold call. destruct w as [p st|p].
  - unfold on_pod_update. destruct (ignored st) eqn:Hi.
    + eexists. split; [done|]. apply (books_ext _ f); [|done]. intros q. cbn [told_kind]. rewrite (ignored_recognise _ Hi). by destruct (decide _).
    + destruct (recognise st) as [k|] eqn:Hr.
      * destruct (update i k p) as [i1 change] eqn:Hu. eexists. split; [done|]. pose proof (update_books i k p f Hb) as Hb'. rewrite Hu in Hb'.
        apply (books_ext _ _ _ (fun q => eq_refl)) in Hb'. eapply books_ext; [|exact Hb']. intros q. cbn [told_kind]. rewrite Hr. by destruct (decide _).
      * eexists. split; [done|]. apply (books_ext _ f); [|done]. intros q. cbn [told_kind]. rewrite Hr. by destruct (decide _).
  - unfold on_pod_delete. eexists. split; [done|]. eapply books_ext; [|by apply deleted_books]. intros q. done.
Qed.
Lemma calls_books stopping expired ws c i o f : books i f ->
  let '(c', i', o') := foldl (call stopping expired) (c, i, o) ws in
  exists os, o' = o ++ os /\ books i' (fun p => foldl (fun acc o => told_kind o p acc) (f p) os).
Proof.
  revert c i o f. induction ws as [|w ws IH]; intros c i o f Hb; cbn [foldl].
  - exists []. by rewrite app_nil_r.
  - pose proof (call_books stopping expired c i o w f Hb) as Hc. destruct (call stopping expired (c, i, o) w) as [[c1 i1] o1].
    destruct Hc as (put & -> & Hb1). specialize (IH c1 i1 (o ++ [OCall w put]) _ Hb1).
    destruct (foldl (call stopping expired) (c1, i1, o ++ [OCall w put]) ws) as [[c2 i2] o2]. destruct IH as (os & -> & Hb2).
    exists (OCall w put :: os). by rewrite <- app_assoc.
Qed.
Lemma told_id os p acc : (forall o, o ∈ os -> forall a, told_kind o p a = a) -> foldl (fun acc o => told_kind o p acc) acc os = acc.
Proof.
  revert acc. induction os as [|o os IH]; intros acc H; [done|]. cbn [foldl]. rewrite H by left. apply IH. intros o' Ho'. apply H. by right.
Qed.
Definition quiet (o : obs) : Prop := match o with OReset | OCall _ _ => False | _ => True end.
Lemma quiet_id os p acc : Forall quiet os -> foldl (fun acc o => told_kind o p acc) acc os = acc.
Proof. intros H. apply told_id. intros o Ho a. rewrite Forall_forall in H. specialize (H o Ho). by destruct o. Qed.
(** All other parts of a step leave the sets alone. *)
Lemma start_deletes_keeps s i todel bad : forall s' o, start_deletes s i todel bad = (s', o) -> inf s' = i /\ Forall quiet o.
Proof. unfold start_deletes. destruct todel; intros s' o [= <- <-]; cbn; (split; [done|]); by repeat constructor. Qed.
Lemma reconcile_keeps s r x order s' o : reconcile s r x order = (s', o) -> all_pods (inf s') = all_pods (inf s) /\ (forall k, pods_of (inf s') k = pods_of (inf s) k) /\ Forall quiet o.
Proof.
  unfold reconcile. destruct (negb _); [intros [= <- <-]; by repeat constructor|]. destruct (0 <? _).
  - intros [= <- <-]. cbn [inf]. split; [done|]. split; [by intros []|]. by repeat constructor.
  - destruct (_ ++ _) as [|p ps]; [intros [= <- <-]; by repeat constructor|]. intros H. apply start_deletes_keeps in H as [-> ?]. split; [done|]. split; [by intros []|done].
Qed.
Lemma answered_keeps s ok s' o : answered s ok = (s', o) -> all_pods (inf s') = all_pods (inf s) /\ (forall k, pods_of (inf s') k = pods_of (inf s) k) /\ Forall quiet o.
Proof.
  unfold answered. destruct (pc s) as [|rest batch [|n] bad todel|]; try (intros [= <- <-]; by repeat constructor).
  assert (E : forall i, all_pods (if ok then i else add_creates i (-1)) = all_pods i /\ forall k, pods_of (if ok then i else add_creates i (-1)) k = pods_of i k) by (intros i; destruct ok; split; try done; by intros []).
  destruct (E (inf s)) as [E1 E2]. destruct n as [|n].
  - destruct (bad || negb ok).
    + intros H. apply start_deletes_keeps in H as [-> ?]. split; [done|]. split; [|done]. intros k. rewrite <- E2. by destruct k.
    + destruct rest.
      * intros H. apply start_deletes_keeps in H as [-> ?]. done.
      * intros [= <- <-]. cbn [inf]. split; [done|]. split; [done|]. by repeat constructor.
  - intros [= <- <-]. cbn [inf]. split; [done|]. split; [done|]. constructor.
Qed.
Lemma answered_delete_keeps s p ok s' o : answered_delete s p ok = (s', o) -> all_pods (inf s') = all_pods (inf s) /\ (forall k, pods_of (inf s') k = pods_of (inf s) k) /\ Forall quiet o.
Proof.
  unfold answered_delete. destruct (pc s); try (intros [= <- <-]; by repeat constructor). destruct (decide _); [|intros [= <- <-]; by repeat constructor].
  assert (E : forall i, all_pods (if ok then i else sub_deletes i) = all_pods i /\ forall k, pods_of (if ok then i else sub_deletes i) k = pods_of i k) by (intros i; destruct ok; split; try done; by intros []).
  destruct (E (inf s)) as [E1 E2]. destruct (List.filter _ _); intros [= <- <-]; cbn [inf]; (split; [done|]); (split; [done|]); by repeat constructor.
Qed.
Lemma step_quiet s e s' o : step s e = (s', o) -> match e with EDeliver _ _ | ERelist _ _ | ERestart _ _ => False | _ => True end ->
  all_pods (inf s') = all_pods (inf s) /\ (forall k, pods_of (inf s') k = pods_of (inf s) k) /\ Forall quiet o.
Proof.
  destruct e as [p st|p|a b|a b|a b|r x order|r|p ok]; cbn [step]; intros H ?; try done.
  - destruct (srv s !! p) as [[? d]|]; [|injection H as <- <-; by repeat constructor]. destruct (d && _); injection H as <- <-; by repeat constructor.
  - destruct (srv s !! p); injection H as <- <-; by repeat constructor.
  - destruct (pc s); try (injection H as <- <-; by repeat constructor). destruct (lists _ _); [|injection H as <- <-; by repeat constructor]. by eapply reconcile_keeps.
  - destruct (pc s) as [|? ? [|n] ? ?|]; try (injection H as <- <-; by repeat constructor). destruct r as [p| |p].
    + destruct (decide _); [injection H as <- <-; by repeat constructor|]. apply answered_keeps in H. done.
    + by eapply answered_keeps.
    + destruct (decide _); [injection H as <- <-; by repeat constructor|]. apply answered_keeps in H. done.
  - by eapply answered_delete_keeps.
Qed.
Lemma books0 : books info0 (fun _ => None).
Proof. split; [intros p k; destruct k; cbn; set_solver|intros p; cbn; set_solver]. Qed.
Lemma step_books s e s' o f : step s e = (s', o) -> books (inf s) f -> books (inf s') (fun p => foldl (fun acc o => told_kind o p acc) (f p) o).
Proof.
  intros Hs Hb. destruct (match e with EDeliver _ _ | ERelist _ _ | ERestart _ _ => true | _ => false end) eqn:He.
  - destruct e; try done; cbn [step] in Hs.
    + destruct (wq s) as [|w q]; [injection Hs as <- <-; done|]. pose proof (call_books stopping expired (cached s) (inf s) [] w f Hb) as Hc.
      destruct (call _ _ _ w) as [[c i] o1]. injection Hs as <- <-. destruct Hc as (put & -> & Hc). done.
    + unfold relist in Hs. pose proof (calls_books stopping expired (relist_calls s) (cached s) (inf s) [] f Hb) as Hc.
      destruct (foldl _ _ _) as [[c i] o1]. injection Hs as <- <-. destruct Hc as (os & -> & Hc). done.
    + unfold relist in Hs. set (s1 := State _ _ _ _ _ _) in Hs.
      pose proof (calls_books stopping expired (relist_calls s1) (cached s1) (inf s1) [] (fun _ => None) books0) as Hc.
      destruct (foldl _ _ _) as [[c i] o1]. injection Hs as <- <-. destruct Hc as (os & -> & Hc). done.
  - apply step_quiet in Hs as (E1 & E2 & Hq); [|by destruct e]. eapply books_ext; [|by eapply books_same]. intros p. by rewrite quiet_id.
Qed.
Lemma obs_of_snoc h e o : obs_of (h ++ [(e, o)]) = obs_of h ++ o.
Proof. unfold obs_of. rewrite map_app, concat_app. cbn. by rewrite app_nil_r. Qed.
Lemma exec_books h s : exec step init h s -> books (inf s) (rep (obs_of h)).
Proof.
  revert h s. apply (exec_ind_r step init (fun h s => books (inf s) (rep (obs_of h)))).
  - apply books0.
  - intros h s e o s' _ IH Hs. eapply step_books in Hs; [|exact IH]. eapply books_ext; [|exact Hs]. intros p. unfold rep. by rewrite obs_of_snoc, foldl_app.
Qed.
(** * [rep] is the last thing said *)
Lemma silent_told p o : silent_on p o <-> forall a, told_kind o p a = a.
Proof.
  split.
  - intros (H1 & H2 & H3) a. destruct o as [|[q st|q] put| | |]; cbn [told_kind]; try done.
    + destruct (decide (q = p)) as [->|]; [|done]. destruct (recognise st) as [k|] eqn:E; [|done]. apply recognise_says in E. by destruct (H3 st put k eq_refl).
    + destruct (decide (q = p)) as [->|]; [|done]. by destruct (H2 put).
  - intros H. repeat split.
    + intros ->. by specialize (H (Some KPending)).
    + intros put ->. specialize (H (Some KPending)). cbn in H. by rewrite decide_True in H.
    + intros st put k -> Hk%recognise_says. specialize (H None). cbn in H. by rewrite decide_True, Hk in H.
Qed.
Lemma rep_last os p k : rep os p = Some k <-> last_said os p k.
Proof.
  unfold rep. split.
  - induction os as [|o os IH] using rev_ind; [done|]. rewrite foldl_app. cbn [foldl]. intros H.
    assert (HS : (forall a, told_kind o p a = a) \/ (exists st put k', o = OCall (Upd p st) put /\ recognise st = Some k') \/ (forall a, told_kind o p a = None)).
    { destruct o as [|[q st|q] put| | |]; cbn [told_kind]; auto.
      - destruct (decide (q = p)) as [->|]; [|auto]. destruct (recognise st) eqn:E; eauto 10.
      - destruct (decide (q = p)) as [->|]; auto. }
    destruct HS as [HS|[(st & put & k' & -> & Hk)|HS]].
    + rewrite HS in H. destruct (IH H) as (o1 & st & put & o2 & -> & Hk & Hf). exists o1, st, put, (o2 ++ [o]). rewrite <- app_assoc. split; [done|].
      split; [done|]. apply Forall_app. split; [done|]. constructor; [by apply silent_told|constructor].
    + cbn [told_kind] in H. rewrite decide_True, Hk in H by done. injection H as ->. exists os, st, put, []. split; [done|]. split; [by apply recognise_says|constructor].
    + by rewrite HS in H.
  - intros (o1 & st & put & o2 & -> & Hk%recognise_says & Hf). rewrite foldl_app. cbn [foldl told_kind]. rewrite decide_True, Hk by done. apply told_id.
    intros o Ho a. rewrite Forall_forall in Hf. by apply silent_told, Hf.
Qed.
Lemma sets_last h s p k : exec step init h s -> p ∈ pods_of (inf s) k <-> last_said (obs_of h) p k.
Proof. intros Hx. rewrite <- rep_last. apply (exec_books _ _ Hx). Qed.
Lemma sets_disjoint h s : exec step init h s ->
  (forall p, p ∈ all_pods (inf s) <-> exists k, p ∈ pods_of (inf s) k) /\ (forall p k k', p ∈ pods_of (inf s) k -> p ∈ pods_of (inf s) k' -> k = k').
Proof.
  intros [H1 H2]%exec_books. split.
  - intros p. rewrite H2. split; [|intros (k & Hk%H1); by rewrite Hk]. destruct (rep (obs_of h) p) as [k|] eqn:E; [|done]. intros _. exists k. by apply H1.
  - intros p k k' Hk%H1 Hk'%H1. congruence.
Qed.

(** * Counting *)
Definition pod_of (w : wev) : pod := match w with Upd p _ | Del p => p end.
Definition counts (i i' : info) : Prop :=
  creates i' = creates i - Z.of_nat (size (all_pods i' ∖ all_pods i)) /\ deletes i' = deletes i - Z.of_nat (size (all_pods i ∖ all_pods i')).
Lemma size_singleton' (p : pod) : size ({[p]} : gset pod) = 1%nat.
Proof. apply size_singleton. Qed.
Lemma counts_refl i : counts i i.
Proof. unfold counts. rewrite difference_diag_L, size_empty. lia. Qed.
Lemma call_counts a b c i o w : let '(c', i', o') := call a b (c, i, o) w in counts i i' /\ forall q, q <> pod_of w -> q ∈ all_pods i' <-> q ∈ all_pods i.
Proof.
  unfold call. destruct w as [p st|p]; cbn [pod_of].
  - unfold on_pod_update. destruct (ignored st); [by split; [apply counts_refl|]|]. destruct (recognise st) as [k|]; [|by split; [apply counts_refl|]].
    unfold update. destruct (decide (p ∈ all_pods i)) as [Hp|Hp]; cbn.
    + split; [|done]. unfold counts. cbn. rewrite difference_diag_L, size_empty. lia.
    + split; [|set_solver]. unfold counts. cbn. replace (({[p]} ∪ all_pods i) ∖ all_pods i) with ({[p]} : gset pod) by set_solver.
      replace (all_pods i ∖ ({[p]} ∪ all_pods i)) with (∅ : gset pod) by set_solver. rewrite size_singleton', size_empty. lia.
  - unfold on_pod_delete, worker_deleted. destruct (decide (p ∈ all_pods i)) as [Hp|Hp]; [|by split; [apply counts_refl|]].
    cbn. split; [|set_solver]. unfold counts. cbn. replace ((all_pods i ∖ {[p]}) ∖ all_pods i) with (∅ : gset pod) by set_solver.
    replace (all_pods i ∖ (all_pods i ∖ {[p]})) with ({[p]} : gset pod).
    + rewrite size_singleton', size_empty. lia.
    + apply set_eq. intros q. rewrite !elem_of_difference, elem_of_singleton. destruct (decide (q = p)); [subst; naive_solver|]. destruct (decide (q ∈ all_pods i)); naive_solver.
Qed.
Lemma size_split (a b c : gset pod) : (forall q, q ∈ c ∖ a <-> q ∈ c ∖ b \/ q ∈ b ∖ a) -> (forall q, q ∈ c ∖ b -> q ∈ b ∖ a -> False) ->
  size (c ∖ a) = (size (c ∖ b) + size (b ∖ a))%nat.
Proof.
  intros H1 H2. rewrite <- size_union; [|set_solver]. f_equal. apply set_eq. intros q. rewrite H1. set_solver.
Qed.
Lemma calls_counts a b ws c i o : NoDup (map pod_of ws) ->
  let '(c', i', o') := foldl (call a b) (c, i, o) ws in counts i i' /\ forall q, ~ q ∈ map pod_of ws -> q ∈ all_pods i' <-> q ∈ all_pods i.
Proof.
  revert c i o. induction ws as [|w ws IH]; intros c i o Hn; cbn [foldl map].
  - by split; [apply counts_refl|].
  - inversion Hn as [|? ? Hw Hn']; subst. pose proof (call_counts a b c i o w) as Hc. destruct (call a b (c, i, o) w) as [[c1 i1] o1]. destruct Hc as [[C1 C2] Cq].
    specialize (IH c1 i1 o1 Hn'). destruct (foldl (call a b) (c1, i1, o1) ws) as [[c2 i2] o2]. destruct IH as [[I1 I2] Iq].
    pose proof (Iq (pod_of w) Hw) as Hpw. split.
    + split.
      * rewrite I1, C1. rewrite (size_split (all_pods i) (all_pods i1) (all_pods i2)); [lia| |].
        -- intros q. rewrite !elem_of_difference. destruct (decide (q = pod_of w)) as [->|Hq]; [rewrite Hpw; destruct (decide (pod_of w ∈ all_pods i1)), (decide (pod_of w ∈ all_pods i)); naive_solver|].
           specialize (Cq q Hq). rewrite Cq. destruct (decide (q ∈ all_pods i)), (decide (q ∈ all_pods i2)); naive_solver.
        -- intros q. rewrite !elem_of_difference. naive_solver.
      * rewrite I2, C2. rewrite (size_split (all_pods i2) (all_pods i1) (all_pods i)); [lia| |].
        -- intros q. rewrite !elem_of_difference. destruct (decide (q = pod_of w)) as [->|Hq]; [rewrite Hpw; destruct (decide (pod_of w ∈ all_pods i1)), (decide (pod_of w ∈ all_pods i)); naive_solver|].
           specialize (Cq q Hq). rewrite Cq. destruct (decide (q ∈ all_pods i)), (decide (q ∈ all_pods i2)); naive_solver.
        -- intros q. rewrite !elem_of_difference. naive_solver.
    + intros q Hq. rewrite not_elem_of_cons in Hq. destruct Hq as [Hq1 Hq2]. rewrite (Iq q Hq2). by apply Cq.
Qed.
Lemma relist_pods s : map pod_of (relist_calls s) = elements (cached s ∖ dom (srv s)) ++ (map_to_list (srv s)).*1.
Proof.
  unfold relist_calls. rewrite map_app. f_equal.
  - rewrite map_map. cbn. apply map_id.
  - rewrite map_map. apply map_ext. intros [p [st d]]. done.
Qed.
Lemma relist_nodup s : NoDup (map pod_of (relist_calls s)).
Proof.
  rewrite relist_pods. apply NoDup_app. split; [apply NoDup_elements|]. split; [|apply NoDup_fst_map_to_list].
  intros p Hp Hp'. apply elem_of_elements in Hp. apply elem_of_list_fmap in Hp' as ([q x] & -> & Hq). apply elem_of_map_to_list in Hq.
  apply elem_of_difference in Hp as [_ Hp]. apply Hp. apply elem_of_dom. eauto.
Qed.
Lemma step_counts s e s' o : step s e = (s', o) -> match e with EDeliver _ _ | ERelist _ _ => True | _ => False end -> counts (inf s) (inf s').
Proof.
  destruct e; cbn [step]; intros H ?; try done.
  - destruct (wq s) as [|w q]; [injection H as <- <-; apply counts_refl|]. pose proof (call_counts stopping expired (cached s) (inf s) [] w) as Hc.
    destruct (call _ _ _ _) as [[c i] o1]. injection H as <- <-. apply Hc.
  - unfold relist in H. pose proof (calls_counts stopping expired (relist_calls s) (cached s) (inf s) [] (relist_nodup s)) as Hc.
    destruct (foldl _ _ _) as [[c i] o1]. injection H as <- <-. apply Hc.
Qed.

(** * A relist is the delivery of its calls *)
Definition requeue (s : state) : state := State (srv s) (used s) (relist_calls s) (cached s) (inf s) (pc s).
Lemma relist_ind a b (P : state -> list obs -> Prop) s s' o : relist a b s = (s', o) -> P (requeue s) [] ->
  (forall t o t' o' w q, P t o -> wq t = w :: q -> step t (EDeliver a b) = (t', o') -> P t' (o ++ o')) -> P s' o.
Proof.
  unfold relist, requeue. intros Hr H0 Hs.
  assert (HG : forall ws c i o0 c' i' o', foldl (call a b) (c, i, o0) ws = (c', i', o') -> P (State (srv s) (used s) ws c i (pc s)) o0 -> P (State (srv s) (used s) [] c' i' (pc s)) o').
  { clear H0. induction ws as [|w ws IH]; intros c i o0 c' i' o'; cbn [foldl]; [by intros [= <- <- <-]|].
    intros Hf Hp. destruct (call a b (c, i, o0) w) as [[c1 i1] o1] eqn:Hc. apply (IH _ _ _ _ _ _ Hf).
    destruct (call a b (c, i, []) w) as [[c2 i2] o2] eqn:Hc2.
    assert (c2 = c1 /\ i2 = i1 /\ o1 = o0 ++ o2) as (-> & -> & ->).
    { unfold call in Hc, Hc2. destruct w as [p st|p].
      - destruct (on_pod_update a b i p st). by simplify_eq/=.
      - destruct (on_pod_delete a b i p). by simplify_eq/=. }
    eapply Hs; [exact Hp|done|]. cbn [step wq cached inf]. by rewrite Hc2. }
  destruct (foldl _ _ _) as [[c i] o1] eqn:Hf. injection Hr as <- <-. by eapply HG.
Qed.

(** * Order of the watch events *)
Record ordered (s : state) : Prop := {
  or_srv : dom (srv s) ⊆ used s;
  or_cached : cached s ⊆ used s;
  or_wq : forall w, w ∈ wq s -> pod_of w ∈ used s;
  or_live : forall p, p ∈ dom (srv s) -> ~ Del p ∈ wq s;
  or_gone : forall p, p ∉ dom (srv s) -> p ∈ cached s \/ (exists w, w ∈ wq s /\ pod_of w = p) -> Del p ∈ wq s;
  or_last : forall q1 p q2 w, wq s = q1 ++ Del p :: q2 -> w ∈ q2 -> pod_of w <> p }.
Lemma ordered_frame s s' : srv s' = srv s -> used s' = used s -> wq s' = wq s -> cached s' = cached s -> ordered s -> ordered s'.
Proof. intros E1 E2 E3 E4 []. split; rewrite ?E1, ?E2, ?E3, ?E4; auto. Qed.
(** What reconciling does to the server's side: nothing, or one new pod. *)
Lemma frames s e s' o : step s e = (s', o) -> match e with EReconcile _ _ _ | ECreate Refused | EDelete _ _ => True | _ => False end ->
  srv s' = srv s /\ used s' = used s /\ wq s' = wq s /\ cached s' = cached s.
Proof.
  assert (HS : forall s i t b s' o, start_deletes s i t b = (s', o) -> srv s' = srv s /\ used s' = used s /\ wq s' = wq s /\ cached s' = cached s).
  { intros ? ? t ? ? ?. unfold start_deletes. destruct t; by intros [= <- <-]. }
  destruct e as [p st|p|a b|a b|a b|r x order|r|p ok]; cbn [step]; intros H ?; try done.
  - destruct (pc s); try by injection H as <- <-. destruct (lists _ _); [|by injection H as <- <-]. unfold reconcile in H.
    destruct (negb _); [by injection H as <- <-|]. destruct (0 <? _); [by injection H as <- <-|]. destruct (_ ++ _); [by injection H as <- <-|]. by apply HS in H.
  - destruct r; try done. destruct (pc s) as [|rest batch [|n] bad todel|] eqn:Hp; try by injection H as <- <-. unfold answered in H. rewrite Hp in H.
    destruct n; [|by injection H as <- <-]. destruct (bad || _); [by apply HS in H|]. destruct rest; [by apply HS in H|by injection H as <- <-].
  - unfold answered_delete in H. destruct (pc s); try by injection H as <- <-. destruct (decide _); [|by injection H as <- <-]. destruct (List.filter _ _); by injection H as <- <-.
Qed.
Lemma answered_frames s ok s' o : answered s ok = (s', o) -> srv s' = srv s /\ used s' = used s /\ wq s' = wq s /\ cached s' = cached s.
Proof.
  assert (HS : forall s i t b s' o, start_deletes s i t b = (s', o) -> srv s' = srv s /\ used s' = used s /\ wq s' = wq s /\ cached s' = cached s).
  { intros ? ? t ? ? ?. unfold start_deletes. destruct t; by intros [= <- <-]. }
  unfold answered. destruct (pc s) as [|rest batch [|n] bad todel|] eqn:Hp; try by intros [= <- <-].
  destruct n; [|by intros [= <- <-]]. destruct (bad || _); [by apply HS|]. destruct rest; [by apply HS|by intros [= <- <-]].
Qed.
Lemma call_cached a b c i o w : let '(c', i', o') := call a b (c, i, o) w in
  c' = (match w with Upd p _ => {[p]} ∪ c | Del p => c ∖ {[p]} end) /\ exists put, o' = o ++ [OCall w put].
Proof.
  unfold call. destruct w as [p st|p]; [destruct (on_pod_update a b i p st)|destruct (on_pod_delete a b i p)]; eauto.
Qed.
Lemma ordered_deliver s a b s' o : ordered s -> step s (EDeliver a b) = (s', o) -> ordered s'.
Proof.
  intros [H1 H2 H3 H4 H5 H6]. cbn [step]. destruct (wq s) as [|w q] eqn:Hq; [intros [= <- <-]; split; rewrite ?Hq; auto|].
  pose proof (call_cached a b (cached s) (inf s) [] w) as Hc. destruct (call a b _ w) as [[c i] o1]. intros [= <- <-]. destruct Hc as [-> _].
  assert (Hw : pod_of w ∈ used s) by (apply H3; left).
  split; cbn [srv used wq cached].
  - done.
  - destruct w as [p st|p]; cbn [pod_of] in Hw; set_solver.
  - intros w' Hw'. apply H3. by right.
  - intros p Hp Hd. apply (H4 p Hp). by right.
  - intros p Hp Hc.
    assert (Hne : w <> Del p).
    { intros ->. destruct Hc as [Hc|(w & Hw' & Hpw)]; [set_solver|]. by eapply (H6 [] p q w). }
    assert (HD : Del p ∈ w :: q).
    { apply H5; [done|]. destruct Hc as [Hc|(w' & Hw' & Hpw)]; [|right; exists w'; split; [by right|done]].
      destruct w as [q' st|q']; [|left; set_solver]. destruct (decide (q' = p)) as [->|]; [right; exists (Upd p st); split; [left|done]|left; set_solver]. }
    apply elem_of_cons in HD as [HD|HD]; [by destruct Hne|done].
  - intros q1 p q2 w' E. apply (H6 (w :: q1) p q2 w'). by rewrite E.
Qed.
Lemma ordered_requeue s : dom (srv s) ⊆ used s -> cached s ⊆ used s -> ordered (requeue s).
Proof.
  intros H1 H2.
  assert (HD : forall p, Del p ∈ relist_calls s <-> p ∈ cached s /\ p ∉ dom (srv s)).
  { intros p. unfold relist_calls. rewrite elem_of_app. split.
    - intros [Hp|Hp]; [apply elem_of_list_fmap in Hp as (q & [= <-] & Hq); apply elem_of_elements in Hq; set_solver|].
      apply elem_of_list_fmap in Hp as ([? [? ?]] & ? & _). done.
    - intros Hp. left. apply elem_of_list_fmap. exists p. split; [done|]. apply elem_of_elements. set_solver. }
  assert (HP : forall w, w ∈ relist_calls s -> pod_of w ∈ cached s \/ pod_of w ∈ dom (srv s)).
  { intros w Hw. apply (elem_of_list_fmap_1 pod_of) in Hw. fold (map pod_of (relist_calls s)) in Hw. change (pod_of w ∈ map pod_of (relist_calls s)) in Hw.
    rewrite relist_pods, elem_of_app in Hw. destruct Hw as [Hw|Hw]; [apply elem_of_elements in Hw; set_solver|].
    apply elem_of_list_fmap in Hw as ([p x] & -> & Hp). apply elem_of_map_to_list in Hp. right. apply elem_of_dom. eauto. }
  split; cbn [requeue srv used wq cached].
  - done.
  - done.
  - intros w [?|?]%HP; set_solver.
  - intros p Hp [_ Hn]%HD. done.
  - intros p Hp [Hc|(w & Hw & <-)]; [by apply HD|]. apply HP in Hw as [?|?]; [by apply HD|done].
  - intros q1 p q2 w E Hw Hp. pose proof (relist_nodup s) as Hn. rewrite E, map_app in Hn. cbn [map pod_of] in Hn. apply NoDup_app in Hn as (_ & _ & Hn).
    inversion Hn as [|? ? Hx _]; subst. apply Hx. apply elem_of_list_fmap. eauto.
Qed.
Lemma ordered_relist s a b s' o : ordered s -> relist a b s = (s', o) -> ordered s'.
Proof.
  intros Ho Hr. apply (relist_ind a b (fun t _ => ordered t) s s' o Hr).
  - apply ordered_requeue; apply Ho.
  - intros t o0 t' o' w q Ht _ Hst. by eapply ordered_deliver.
Qed.
Lemma ordered_created s p : ordered s -> p ∉ used s -> ordered (created s p).
Proof.
  intros [H1 H2 H3 H4 H5 H6] Hp. split; cbn [created srv used wq cached].
  - rewrite dom_insert_L. set_solver.
  - set_solver.
  - intros w [Hw|Hw]%elem_of_app; [set_solver|]. apply elem_of_list_singleton in Hw as ->. cbn. set_solver.
  - intros q Hq [Hd|Hd]%elem_of_app; [|by apply elem_of_list_singleton in Hd]. rewrite dom_insert_L in Hq. apply elem_of_union in Hq as [->%elem_of_singleton|Hq]; [|by eapply H4].
    apply Hp. by apply (H3 _ Hd).
  - intros q Hq Hc. rewrite dom_insert_L in Hq. apply elem_of_app. left. apply H5; [set_solver|]. destruct Hc as [Hc|(w & Hw & <-)]; [by left|].
    apply elem_of_app in Hw as [Hw|Hw]; [eauto|]. apply elem_of_list_singleton in Hw as ->. cbn in Hq. set_solver.
  - intros q1 q q2 w E Hw.
    destruct q2 as [|w0 q2 _] using rev_ind; [by apply elem_of_nil in Hw|]. rewrite app_comm_cons, app_assoc in E. apply app_inj_tail in E as [E <-].
    apply elem_of_app in Hw as [Hw|Hw]; [by eapply H6|]. apply elem_of_list_singleton in Hw as ->. cbn [pod_of]. intros ->. apply Hp. apply (H3 (Del q)). rewrite E. apply elem_of_app. right. left.
Qed.
Lemma ordered_snoc_upd s p st x : ordered s -> p ∈ dom (srv s) -> ordered (State (<[p := x]> (srv s)) (used s) (wq s ++ [Upd p st]) (cached s) (inf s) (pc s)).
Proof.
  intros [H1 H2 H3 H4 H5 H6] Hp. split; cbn [srv used wq cached].
  - rewrite dom_insert_L. set_solver.
  - done.
  - intros w [Hw|Hw]%elem_of_app; [auto|]. apply elem_of_list_singleton in Hw as ->. cbn. set_solver.
  - intros q Hq [Hd|Hd]%elem_of_app; [|by apply elem_of_list_singleton in Hd]. rewrite dom_insert_L in Hq. apply (H4 q); [set_solver|done].
  - intros q Hq Hc. rewrite dom_insert_L in Hq. apply elem_of_app. left. apply H5; [set_solver|]. destruct Hc as [Hc|(w & Hw & <-)]; [by left|].
    apply elem_of_app in Hw as [Hw|Hw]; [eauto|]. apply elem_of_list_singleton in Hw as ->. cbn in Hq. set_solver.
  - intros q1 q q2 w E Hw.
    destruct q2 as [|w0 q2 _] using rev_ind; [by apply elem_of_nil in Hw|]. rewrite app_comm_cons, app_assoc in E. apply app_inj_tail in E as [E <-].
    apply elem_of_app in Hw as [Hw|Hw]; [by eapply H6|]. apply elem_of_list_singleton in Hw as ->. cbn [pod_of]. intros ->. apply (H4 q Hp). rewrite E. apply elem_of_app. right. left.
Qed.
Lemma ordered_snoc_del s p : ordered s -> p ∈ dom (srv s) -> ordered (State (delete p (srv s)) (used s) (wq s ++ [Del p]) (cached s) (inf s) (pc s)).
Proof.
  intros [H1 H2 H3 H4 H5 H6] Hp. split; cbn [srv used wq cached].
  - rewrite dom_delete_L. set_solver.
  - done.
  - intros w [Hw|Hw]%elem_of_app; [auto|]. apply elem_of_list_singleton in Hw as ->. cbn. set_solver.
  - intros q Hq [Hd|Hd]%elem_of_app; rewrite dom_delete_L in Hq; [apply (H4 q); [set_solver|done]|]. apply elem_of_list_singleton in Hd as [= ->]. set_solver.
  - intros q Hq Hc. rewrite dom_delete_L in Hq. apply elem_of_app. destruct (decide (q = p)) as [->|Hne]; [right; by left|]. left. apply H5; [set_solver|].
    destruct Hc as [Hc|(w & Hw & <-)]; [by left|]. apply elem_of_app in Hw as [Hw|Hw]; [eauto|]. by apply elem_of_list_singleton in Hw as ->.
  - intros q1 q q2 w E Hw.
    destruct q2 as [|w0 q2 _] using rev_ind; [by apply elem_of_nil in Hw|]. rewrite app_comm_cons, app_assoc in E. apply app_inj_tail in E as [E <-].
    apply elem_of_app in Hw as [Hw|Hw]; [by eapply H6|]. apply elem_of_list_singleton in Hw as ->. cbn [pod_of]. intros ->. apply (H4 q Hp). rewrite E. apply elem_of_app. right. left.
Qed.
Lemma ordered_step s e s' o : ordered s -> step s e = (s', o) -> ordered s'.
Proof.
  intros Ho Hs. destruct e as [p st|p|a b|a b|a b|r x order|r|p ok]; cbn [step] in Hs.
  - destruct (srv s !! p) as [[st0 d]|] eqn:E; [|by injection Hs as <- <-]. destruct (d && _); injection Hs as <- <-; [done|].
    apply ordered_snoc_upd; [done|]. apply elem_of_dom. eauto.
  - destruct (srv s !! p) as [x|] eqn:E; [|by injection Hs as <- <-]. injection Hs as <- <-. apply ordered_snoc_del; [done|]. apply elem_of_dom. eauto.
  - by eapply (ordered_deliver s a b).
  - by eapply ordered_relist.
  - destruct (relist a b _) as [s1 o1] eqn:Hr. injection Hs as <- <-. apply (relist_ind a b (fun t _ => ordered t) _ s1 o1 Hr).
    + apply ordered_requeue; cbn; [apply Ho|set_solver].
    + intros t o0 t' o' w q Ht _ Hst. by eapply ordered_deliver.
  - pose proof (frames s (EReconcile r x order) s' o Hs I) as (?&?&?&?). by eapply ordered_frame.
  - destruct r as [p| |p].
    + destruct (pc s) as [|rest batch [|n] bad todel|]; try by injection Hs as <- <-. destruct (decide _); [by injection Hs as <- <-|].
      apply answered_frames in Hs as (?&?&?&?). eapply ordered_frame; [done..|]. by apply ordered_created.
    + pose proof (frames s (ECreate Refused) s' o Hs I) as (?&?&?&?). by eapply ordered_frame.
    + destruct (pc s) as [|rest batch [|n] bad todel|]; try by injection Hs as <- <-. destruct (decide _); [by injection Hs as <- <-|].
      apply answered_frames in Hs as (?&?&?&?). eapply ordered_frame; [done..|]. by apply ordered_created.
  - pose proof (frames s (EDelete p ok) s' o Hs I) as (?&?&?&?). by eapply ordered_frame.
Qed.
Lemma ordered_init : ordered init.
Proof.
  split; cbn [init srv used wq cached]; try set_solver. intros q1 p q2 w E. by destruct q1.
Qed.
Lemma exec_ordered h s : exec step init h s -> ordered s.
Proof. revert h s. apply (exec_ind_r step init (fun _ s => ordered s)); [apply ordered_init|]. intros h s e o s' _ IH Hs. by eapply ordered_step. Qed.

(** A pod whose deletion was told is never heard of again. *)
Definition dead (s : state) (p : pod) : Prop := p ∈ used s /\ p ∉ dom (srv s) /\ p ∉ cached s /\ forall w, w ∈ wq s -> pod_of w <> p.
Definition mute (p : pod) (o : obs) : Prop := match o with OCall w _ => pod_of w <> p | _ => True end.
Lemma quiet_mute p os : Forall quiet os -> Forall (mute p) os.
Proof. intros H. eapply Forall_impl; [exact H|]. by intros []. Qed.
Lemma dead_deliver s a b s' o p : dead s p -> step s (EDeliver a b) = (s', o) -> dead s' p /\ Forall (mute p) o.
Proof.
  intros (D1 & D2 & D3 & D4). cbn [step]. destruct (wq s) as [|w q] eqn:Hq; [intros [= <- <-]; repeat split; rewrite ?Hq; auto; set_solver|].
  pose proof (call_cached a b (cached s) (inf s) [] w) as Hc. destruct (call a b _ w) as [[c i] o1]. intros [= <- <-]. destruct Hc as [-> (put & ->)].
  assert (pod_of w <> p) by (apply D4; left). split; [|by repeat constructor].
  split; [done|]. split; [done|]. cbn [cached wq]. split; [destruct w; cbn in *; set_solver|]. intros w' Hw'. apply D4. by right.
Qed.
Lemma dead_relist s a b s' o p : dead s p -> relist a b s = (s', o) -> dead s' p /\ Forall (mute p) o.
Proof.
  intros (D1 & D2 & D3 & D4) Hr. apply (relist_ind a b (fun t o => dead t p /\ Forall (mute p) o) s s' o Hr).
  - split; [|constructor]. repeat split; try done. cbn [requeue wq]. intros w Hw. apply (elem_of_list_fmap_1 pod_of) in Hw. change (pod_of w ∈ map pod_of (relist_calls s)) in Hw.
    rewrite relist_pods, elem_of_app in Hw. intros <-. destruct Hw as [Hw|Hw]; [apply elem_of_elements in Hw; set_solver|].
    apply elem_of_list_fmap in Hw as ([q x] & Eq & Hq). apply elem_of_map_to_list in Hq. apply D2. rewrite Eq. apply elem_of_dom. eauto.
  - intros t o0 t' o' w q [Ht Ho] _ Hst. eapply dead_deliver in Hst as [? ?]; [|done]. split; [done|]. by apply Forall_app.
Qed.
Lemma dead_step s e s' o p : dead s p -> step s e = (s', o) -> dead s' p /\ Forall (mute p) o.
Proof.
  intros HD Hs. pose proof HD as (D1 & D2 & D3 & D4). destruct e as [q st|q|a b|a b|a b|r x order|r|q ok].
  - split; [|eapply quiet_mute, (step_quiet s (EStatus q st)); [exact Hs|done]]. cbn [step] in Hs.
    destruct (srv s !! q) as [[st0 d]|] eqn:E; [|by injection Hs as <- <-]. destruct (d && _); injection Hs as <- <-; [done|].
    assert (q <> p) by (intros ->; apply D2, elem_of_dom; eauto). repeat split; cbn [srv used wq cached]; try done; [rewrite dom_insert_L; set_solver|].
    intros w [Hw|Hw]%elem_of_app; [auto|]. by apply elem_of_list_singleton in Hw as ->.
  - split; [|eapply quiet_mute, (step_quiet s (EGone q)); [exact Hs|done]]. cbn [step] in Hs.
    destruct (srv s !! q) as [x|] eqn:E; [|by injection Hs as <- <-]. injection Hs as <- <-.
    assert (q <> p) by (intros ->; apply D2, elem_of_dom; eauto). repeat split; cbn [srv used wq cached]; try done; [rewrite dom_delete_L; set_solver|].
    intros w [Hw|Hw]%elem_of_app; [auto|]. by apply elem_of_list_singleton in Hw as ->.
  - by eapply dead_deliver.
  - by eapply dead_relist.
  - cbn [step] in Hs. destruct (relist a b _) as [s1 o1] eqn:Hr. injection Hs as <- <-. eapply (dead_relist _ a b s1 o1 p) in Hr as [? ?]; [split; [done|]; by constructor|].
    split; [done|]. split; [done|]. split; [cbn; set_solver|]. intros w Hw. by apply elem_of_nil in Hw.
  - split; [|eapply quiet_mute, (step_quiet s (EReconcile r x order)); [exact Hs|done]].
    pose proof (frames s (EReconcile r x order) s' o Hs I) as (E1&E2&E3&E4). unfold dead. by rewrite E1, E2, E3, E4.
  - split; [|eapply quiet_mute, (step_quiet s (ECreate r)); [exact Hs|done]].
    assert (HC : forall q ok, q ∉ used s -> answered (created s q) ok = (s', o) -> dead s' p).
    { intros q ok Hq Ha. apply answered_frames in Ha as (E1&E2&E3&E4). unfold dead. rewrite E1, E2, E3, E4. assert (q <> p) by (intros ->; done).
      cbn [created srv used wq cached]. split; [set_solver|]. split; [rewrite dom_insert_L; set_solver|]. split; [done|].
      intros w [Hw|Hw]%elem_of_app; [auto|]. by apply elem_of_list_singleton in Hw as ->. }
    destruct r as [q| |q]; [| |]; cycle 1.
    { pose proof (frames s (ECreate Refused) s' o Hs I) as (E1&E2&E3&E4). unfold dead. by rewrite E1, E2, E3, E4. }
    all: cbn [step] in Hs; destruct (pc s) as [|rest batch [|n] bad todel|]; try by injection Hs as <- <-.
    all: destruct (decide _); [by injection Hs as <- <-|by eapply HC].
  - split; [|eapply quiet_mute, (step_quiet s (EDelete q ok)); [exact Hs|done]].
    pose proof (frames s (EDelete q ok) s' o Hs I) as (E1&E2&E3&E4). unfold dead. by rewrite E1, E2, E3, E4.
Qed.
(** Within a step, the deletion of [p] is told only when it is dead after that call. *)
Definition once_in (p : pod) (os : list obs) : Prop := forall o1 put o2, os = o1 ++ OCall (Del p) put :: o2 -> Forall (mute p) o2.
Definition tells (p : pod) (os : list obs) : Prop := exists put, OCall (Del p) put ∈ os.
Lemma once_snoc p os o : once_in p os -> (tells p os -> Forall (mute p) o) -> once_in p o -> once_in p (os ++ o).
Proof.
  intros H1 H2 H3 o1 put o2 E. apply app_eq_inv in E as [(l & -> & E)|(l & -> & E)].
  - destruct l as [|x l]; cbn in E.
    + apply (H3 [] put o2). by rewrite <- E.
    + injection E as <- ->. apply Forall_app. split; [by apply (H1 o1 put l)|]. apply H2. exists put. apply elem_of_app. right. left.
  - by apply (H3 l put o2).
Qed.
Lemma tells_deliver s a b s' o p : ordered s -> step s (EDeliver a b) = (s', o) -> once_in p o /\ (tells p o -> dead s' p).
Proof.
  intros Ho. cbn [step]. destruct (wq s) as [|w q] eqn:Hq.
  { intros [= <- <-]. split; [intros [] ? ?; done|]. intros (put & Hp). by apply elem_of_nil in Hp. }
  pose proof (call_cached a b (cached s) (inf s) [] w) as Hc. destruct (call a b _ w) as [[c i] o1]. intros [= <- <-]. destruct Hc as [-> (put & ->)].
  cbn [app]. split.
  - intros l1 put' l2 E. destruct l1 as [|? [|]]; cbn in E; try done. injection E as -> -> <-. constructor.
  - intros (put' & Hp). apply elem_of_list_singleton in Hp as [= <- ->]. destruct Ho as [H1 H2 H3 H4 H5 H6]. rewrite Hq in *.
    split; [apply (H3 (Del p)); left|]. cbn [srv cached wq]. split; [intros Hd; apply (H4 p Hd); left|]. split; [set_solver|]. intros w Hw. by eapply (H6 [] p q w).
Qed.
Lemma tells_relist s a b s' o p : dom (srv s) ⊆ used s -> cached s ⊆ used s -> relist a b s = (s', o) -> once_in p o /\ (tells p o -> dead s' p).
Proof.
  intros Hs1 Hs2 Hr. apply (relist_ind a b (fun t o => ordered t /\ once_in p o /\ (tells p o -> dead t p)) s s' o Hr).
  - split; [by apply ordered_requeue|]. split; [intros [] ? ?; done|]. intros (put & Hp). by apply elem_of_nil in Hp.
  - intros t o0 t' o' w q (Ht & H1 & H2) _ Hst. split; [by eapply ordered_deliver|]. pose proof (tells_deliver _ _ _ _ _ p Ht Hst) as [H3 H4]. split.
    + apply once_snoc; [done| |done]. intros HT. by eapply dead_deliver; [apply H2|].
    + intros (put & [Hp|Hp]%elem_of_app); [|apply H4; by exists put]. eapply dead_deliver; [|exact Hst]. apply H2. by exists put.
Qed.
Lemma quiet_tells p o : Forall quiet o -> once_in p o /\ ~ tells p o.
Proof.
  intros Hq. rewrite Forall_forall in Hq. split.
  - intros o1 put o2 ->. exfalso. apply (Hq (OCall (Del p) put)). apply elem_of_app. right. left.
  - intros (put & Hp). by apply (Hq _ Hp).
Qed.
Lemma tells_step s e s' o p : ordered s -> step s e = (s', o) -> once_in p o /\ (tells p o -> dead s' p).
Proof.
  intros Ho Hs. destruct (match e with EDeliver _ _ | ERelist _ _ | ERestart _ _ => true | _ => false end) eqn:He.
  - destruct e; try done.
    + by eapply tells_deliver.
    + cbn [step] in Hs. eapply tells_relist; [apply Ho|apply Ho|done].
    + cbn [step] in Hs. destruct (relist _ _ _) as [s1 o1] eqn:Hr. injection Hs as <- <-. eapply (tells_relist _ _ _ _ _ p) in Hr as [H1 H2]; [|apply Ho|cbn; set_solver]. split.
      * intros l1 put l2 E. destruct l1 as [|x l1]; [done|]. injection E as <- E. by eapply H1.
      * intros (put & [Hp|Hp]%elem_of_cons); [done|]. apply H2. by exists put.
  - apply step_quiet in Hs as (_ & _ & Hq); [|by destruct e]. destruct (quiet_tells p _ Hq) as [? ?]. done.
Qed.
Lemma deleted_once h s p : exec step init h s -> once_in p (obs_of h) /\ (tells p (obs_of h) -> dead s p).
Proof.
  intros Hx. cut (exec step init h s /\ once_in p (obs_of h) /\ (tells p (obs_of h) -> dead s p)); [tauto|]. revert h s Hx.
  apply (exec_ind_r step init (fun h s => exec step init h s /\ once_in p (obs_of h) /\ (tells p (obs_of h) -> dead s p))).
  - split; [constructor|]. split; [intros [] ? ?; done|]. intros (put & Hp). by apply elem_of_nil in Hp.
  - intros h s e o s' Hx (_ & H1 & H2) Hs. split; [apply exec_app; exists s; split; [done|]; econstructor; [exact Hs|constructor]|].
    rewrite obs_of_snoc. pose proof (tells_step s e s' o p (exec_ordered _ _ Hx) Hs) as [H3 H4]. split.
    + apply once_snoc; [done| |done]. intros HT. by eapply dead_step; [apply H2|].
    + intros (put & [Hp|Hp]%elem_of_app); [|apply H4; by exists put]. eapply dead_step; [|exact Hs]. apply H2. by exists put.
Qed.
