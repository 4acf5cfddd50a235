From Coq Require Import Ascii String ZArith Lia.
From stdpp Require Import prelude gmap.
From Verif Require Import Trace Router_Model Router_Spec Router_Proofs ProxyLog_Model ProxyLog_Spec ProxyLog_Proofs
  Sni_Model Sni_Spec Sni_Proofs WorkQueue_Model Gateway_Model Gateway_Spec Gateway_Inv Gateway_Steps4 Gateway_Sync Gateway_Restart Gateway_Hist
  World_Gw World_Model World_Spec World_Net.
Open Scope Z_scope.

(** ** the gateway: marks and addresses *)
Lemma past_running c : row_ok (c_row c) -> jge (c_status c) RUNNING = true -> c_status c <> RUNNING -> jlt RUNNING (c_target c) = true.
Proof.
  intros [H1 H2 H3 H4 _ _ _] Hg Hn. unfold c_status, c_target in *. destruct (r_status (c_row c)); try done.
  - specialize (H2 eq_refl). destruct H1 as [E|[E|E]]; rewrite E in *; done.
  - specialize (H3 eq_refl). destruct H1 as [E|[E|E]]; rewrite E in *; done.
  - rewrite (H4 eq_refl). done.
Qed.
Lemma face_inv s s' n c : face s' !! n = face s !! n -> objs s !! n = Some c -> exists c', objs s' !! n = Some c' /\ fc c' = fc c.
Proof. rewrite !face_lookup. intros H Hc. rewrite Hc in H. destruct (objs s' !! n) as [c'|]; [|done]. simpl in H. exists c'. split; [done|congruence]. Qed.
Lemma face_get s n f : face s !! n = Some f -> exists c, objs s !! n = Some c /\ fc c = f.
Proof. rewrite face_lookup. destruct (objs s !! n) as [c|]; [|done]. simpl. intros [= <-]. eauto. Qed.

Lemma proxied_stays cf s e s' : Inv cf None ∅ s -> vcase s s' e ->
  forall n c, objs s !! n = Some c -> c_proxied c = true -> exists c', objs s' !! n = Some c' /\ c_proxied c' = true /\ adr c' = adr c.
Proof.
  intros HI HV n c Hc Hp.
  assert (Hsame : face s' !! n = face s !! n -> exists c', objs s' !! n = Some c' /\ c_proxied c' = true /\ adr c' = adr c).
  { intros H. apply (face_inv _ _ _ c) in H as (c' & Hc' & E); [|done]. unfold fc in E. injection E as E1 E2 E3 E4.
    exists c'. split; [done|]. split; [congruence|]. unfold adr. congruence. }
  destruct HV as [H|user info mx now He H _|n0 m now c0 He Hc0 Hst Ht H _|n0 c0 He Hc0 Hp0 H _|k o now n0 He Ho Hk H _].
  - apply Hsame. injection H as H _. by rewrite H.
  - apply Hsame. rewrite H, lookup_insert_ne; [done|]. destruct (g_fresh _ _ _ _ HI n c Hc) as [Hlt _]. intros E. lia.
  - destruct (decide (n0 = n)) as [->|Hn].
    + assert (c0 = c) as -> by congruence. pose proof (g_cok _ _ _ _ HI n c Hc) as Hok.
      rewrite (past_running c (k_row _ _ _ _ _ _ Hok) (k_proxied _ _ _ _ _ _ Hok Hp) Hst) in Ht. done.
    + apply Hsame. rewrite H, lookup_insert_ne; done.
  - destruct (decide (n0 = n)) as [->|Hn]; [congruence|]. apply Hsame. rewrite H, lookup_insert_ne; done.
  - apply Hsame. by rewrite H.
Qed.

Lemma filter_one {A} (f : A -> bool) l x : NoDup l -> x ∈ l -> (forall y, y ∈ l -> f y = true <-> y = x) -> List.filter f l = [x].
Proof.
  induction l as [|y l IH]; intros Hn Hx Hf; [by apply elem_of_nil in Hx|]. apply NoDup_cons in Hn as [Hy Hn]. simpl.
  pose proof (Hf y ltac:(left)) as Hfy. destruct (f y) eqn:E.
  - assert (y = x) as -> by (by apply Hfy). f_equal.
    assert (forall z, z ∈ l -> f z = false) as Hz.
    { intros z Hz. destruct (f z) eqn:Ez; [|done]. apply Hf in Ez; [|by right]. subst. done. }
    clear -Hz. induction l as [|z l IH]; [done|]. simpl. rewrite Hz by left. apply IH. intros z' ?. apply Hz. by right.
  - apply elem_of_cons in Hx as [->|Hx]; [discriminate (proj2 Hfy eq_refl)|]. apply IH; [done|done|].
    intros z Hz. apply Hf. by right.
Qed.
Lemma filter_none {A} (f : A -> bool) l : (forall y, y ∈ l -> f y = false) -> List.filter f l = [].
Proof. induction l as [|y l IH]; intros Hf; [done|]. simpl. rewrite Hf by left. apply IH. intros z Hz. apply Hf. by right. Qed.
Lemma newly_same s s' : face s' = face s -> newly s s' = [].
Proof.
  intros H. apply filter_none. intros [n c] Hin%elem_of_map_to_list. simpl. unfold marked.
  destruct (face_inv s' s n c) as (c0 & Hc0 & E); [by rewrite H|done|]. rewrite Hc0. injection E as _ _ _ E. rewrite E. destruct (c_proxied c); done.
Qed.
Lemma newly_one s s' n c : objs s !! n = Some c -> c_proxied c = false -> face s' = <[n := (adr c, true)]> (face s) ->
  exists c', newly s s' = [(n, c')] /\ adr c' = adr c /\ objs s' !! n = Some c' /\ c_proxied c' = true.
Proof.
  intros Hc Hp H. destruct (face_get s' n (adr c, true)) as (c' & Hc' & E); [by rewrite H, lookup_insert|].
  injection E as E1 E2 E3 E4. exists c'. split; [|split; [unfold adr; congruence|done]].
  apply filter_one; [apply NoDup_map_to_list|by apply elem_of_map_to_list|].
  intros [n1 c1] Hin%elem_of_map_to_list. simpl. unfold marked. destruct (decide (n1 = n)) as [->|Hn].
  - rewrite Hc, Hp. assert (c1 = c') as -> by congruence. rewrite E4. done.
  - destruct (face_inv s' s n1 c1) as (c0 & Hc0 & E); [by rewrite H, lookup_insert_ne|done|]. rewrite Hc0. injection E as _ _ _ E. rewrite E.
    split; [destruct (c_proxied c1); done|congruence].
Qed.

(** ** the log of changes under a list of calls *)
Section calls.
Context (parse : bytes -> option goURL) (prefix : bytes) (mx : Z).
Definition grow (L : list change) (es : list ProxyLog_Model.event) : list change := fold_left (change_of prefix) es L.
Definition is_call (e : ProxyLog_Model.event) : bool := match e with SAdd _ _ _ | SRemove _ _ => true | _ => false end.
Lemma grow_sub L es c : c ∈ L -> c ∈ grow L es.
Proof.
  revert L. induction es as [|e es IH]; intros L Hc; [done|]. simpl. apply IH. destruct (change_of_cases prefix L e) as [->|[d ->]]; [done|].
  apply elem_of_app. by left.
Qed.
Lemma grow_mem L es c : c ∈ grow L es -> c ∈ L \/ (exists k n t, SAdd k n t ∈ es /\ c = (TPut, Route k (reg prefix k n) t)) \/
  (exists k n, SRemove k n ∈ es /\ c = (TDelete, Route k (reg prefix k n) [])).
Proof.
  revert L. induction es as [|e es IH]; intros L Hc; [by left|]. simpl in Hc. apply IH in Hc as [Hc|[(k & n & t & H & ->)|(k & n & H & ->)]].
  - destruct e as [k n t|k n| | | | | | | | | | | |]; simpl in Hc; try (by left).
    + apply elem_of_app in Hc as [Hc|Hc%elem_of_list_singleton]; [by left|]. right. left. exists k, n, t. split; [left|done].
    + destruct (tab L _); [|by left]. apply elem_of_app in Hc as [Hc|Hc%elem_of_list_singleton]; [by left|]. right. right. exists k, n. split; [left|done].
  - right. left. exists k, n, t. split; [by right|done].
  - right. right. exists k, n. split; [by right|done].
Qed.
Lemma tab_add L k n t key : tab (change_of prefix L (SAdd k n t)) key = if decide (key = (k, reg prefix k n)) then Some t else tab L key.
Proof. simpl. rewrite tab_snoc. unfold tab_step, key_of. simpl. done. Qed.
Lemma tab_remove L k n key : tab (change_of prefix L (SRemove k n)) key = if decide (key = (k, reg prefix k n)) then None else tab L key.
Proof.
  simpl. destruct (tab L (k, reg prefix k n)) eqn:E.
  - rewrite tab_snoc. unfold tab_step, key_of. simpl. done.
  - destruct (decide _) as [->|]; done.
Qed.
Lemma calls_ginv L y es : 0 <= mx -> ginv prefix mx L (s_gw y) -> (forall e, e ∈ es -> is_call e = true) ->
  ginv prefix mx (grow L es) (s_gw (ProxyLog_Model.runs parse y es)).
Proof.
  intros Hmx. revert L y. induction es as [|e es IH]; intros L y Hg Hc; [done|]. simpl. apply IH; [|intros; apply Hc; by right].
  apply ginv_step_any; [done|done|]. specialize (Hc e ltac:(left)). by intros ->.
Qed.
Lemma calls_sinv base old L y es : 0 <= mx -> sinv parse prefix mx base old L y -> okL parse (grow L es) -> (forall e, e ∈ es -> is_call e = true) ->
  sinv parse prefix mx base old (grow L es) (ProxyLog_Model.runs parse y es).
Proof.
  intros Hmx. revert L y. induction es as [|e es IH]; intros L y Hs Hok Hc; [done|]. simpl. apply IH; [|done|intros; apply Hc; by right].
  apply step_sinv; [done|done| |specialize (Hc e ltac:(left)); by intros ->].
  eapply okL_sub; [|exact Hok]. intros c Hin. by apply grow_sub.
Qed.
Lemma full_call L y e : ginv prefix mx L (s_gw y) -> is_call e = true -> g_prefix (s_gw (ProxyLog_Model.step parse y e)) = g_prefix (s_gw y).
Proof.
  intros Hg He. destruct e; try done; simpl.
  - unfold add_route, append_event. destruct (_ <=? _); done.
  - unfold remove_route. destruct (dget _ _); [|done]. unfold append_event. destruct (_ <=? _); done.
Qed.
Lemma calls_P P L y es : 0 <= mx -> ginv prefix mx L (s_gw y) -> sP parse P y -> (forall e, e ∈ es -> is_call e = true) ->
  (forall k n t, SAdd k n t ∈ es -> P k (reg prefix k n) t) -> sP parse P (ProxyLog_Model.runs parse y es).
Proof.
  intros Hmx. revert L y. induction es as [|e es IH]; intros L y Hg Hs Hc HP; [done|]. simpl.
  apply (IH (change_of prefix L e)); [| |intros; apply Hc; by right|intros; apply HP; by right].
  - apply ginv_step_any; [done|done|]. specialize (Hc e ltac:(left)). by intros ->.
  - apply step_P; [done|]. intros k n t ->. unfold full. rewrite (gi_prefix _ _ _ _ Hg). apply (HP k n t). left.
Qed.
End calls.
