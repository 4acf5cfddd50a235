(** Proofs for C143, part 2: endless runs. *)
From Coq Require Import ZArith Lia.
From stdpp Require Import prelude gmap.
From Verif Require Import Trace Kube_Model Kube_Spec Kube_Proofs Kube_Proofs2 Kube_Proofs3 Kube_Proofs4 Kube_Proofs5 KFleet_Model KFleet_Spec KFleet_Proofs KFlow_Spec KFlow_Proofs.
Open Scope Z_scope.

(** * Single steps of the pods *)
Lemma wq_step s e s' o : step s e = (s', o) -> (forall a b, e <> ERestart a b) ->
  (exists l, wq s' = wq s ++ l) \/ (exists a b w, e = EDeliver a b /\ wq s = w :: wq s') \/ (exists a b, e = ERelist a b /\ wq s' = []).
Proof.
  intros Hs Hr. destruct e as [p st|p|a b|a b|a b|r x order|cr|p ok].
  - left. cbn [step] in Hs. destruct (srv s !! p) as [[? d]|]; [|injection Hs as <- <-; exists []; by rewrite app_nil_r]. destruct (d && alive st); injection Hs as <- <-; [exists []; by rewrite app_nil_r|eauto].
  - left. cbn [step] in Hs. destruct (srv s !! p); injection Hs as <- <-; [eauto|exists []; by rewrite app_nil_r].
  - cbn [step] in Hs. destruct (wq s) as [|w q] eqn:Hq; [left; injection Hs as <- <-; exists []; by rewrite Hq|]. right. left. destruct (call _ _ _ _) as [[c i] o1]. injection Hs as <- <-. by exists a, b, w.
  - right. right. cbn [step] in Hs. apply relist_frame in Hs as (_ & _ & _ & Hw & _). eauto.
  - by destruct (Hr a b).
  - left. pose proof (frames s (EReconcile r x order) s' o Hs I) as (_ & _ & E & _). exists []. by rewrite E, app_nil_r.
  - left. destruct cr as [p| |p].
    2:{ pose proof (frames s (ECreate Refused) s' o Hs I) as (_ & _ & E & _). exists []. by rewrite E, app_nil_r. }
    all: cbn [step] in Hs; destruct (pc s) as [|? ? [|n] ? ?|]; try (injection Hs as <- <-; exists []; by rewrite app_nil_r); destruct (decide _); try (injection Hs as <- <-; exists []; by rewrite app_nil_r);
      apply answered_frames in Hs as (_ & _ & E & _); rewrite E; cbn [created wq]; eauto.
  - left. pose proof (frames s (EDelete p ok) s' o Hs I) as (_ & _ & E & _). exists []. by rewrite E, app_nil_r.
Qed.
(** Names are not used again. *)
Lemma srv_step s e s' o p : step s e = (s', o) -> p ∈ used s -> p ∈ used s' /\ (p ∈ dom (srv s') -> p ∈ dom (srv s)) /\ (p ∈ live s' -> p ∈ live s).
Proof.
  assert (forall s p, p ∈ live s <-> exists st, srv s !! p = Some (st, false)) as L.
  { clear. intros s p. unfold live. rewrite elem_of_dom. split.
    - intros [[st d] [H1 H2]%map_filter_lookup_Some]. cbn in H2. subst d. eauto.
    - intros [st H]. exists (st, false). by apply map_filter_lookup_Some. }
  intros Hs Hu. assert (srv s' = srv s /\ used s' = used s -> p ∈ used s' /\ (p ∈ dom (srv s') -> p ∈ dom (srv s)) /\ (p ∈ live s' -> p ∈ live s)) as K. { intros [E1 E2]. unfold live. by rewrite E1, E2. }
  destruct e as [q st|q|a b|a b|a b|r x order|cr|q ok].
  - cbn [step] in Hs. destruct (srv s !! q) as [[? d]|] eqn:Hq; [|injection Hs as <- <-; by apply K]. destruct (d && alive st); injection Hs as <- <-; [by apply K|]. cbn [used srv]. split; [done|]. split.
    + rewrite dom_insert_L. intros [->%elem_of_singleton|?]%elem_of_union; [apply elem_of_dom; eauto|done].
    + rewrite !L. cbn [srv]. intros [st' H]. destruct (decide (q = p)) as [->|]; [rewrite lookup_insert in H; injection H as _ H; destruct d; [done|eauto]|rewrite lookup_insert_ne in H by done; eauto].
  - cbn [step] in Hs. destruct (srv s !! q) eqn:Hq; injection Hs as <- <-; [|by apply K]. cbn [used srv]. split; [done|]. split; [rewrite dom_delete_L; set_solver|].
    rewrite !L. cbn [srv]. intros [st' [_ H]%lookup_delete_Some]. eauto.
  - cbn [step] in Hs. destruct (wq s); [injection Hs as <- <-; by apply K|]. destruct (call _ _ _ _) as [[c i] o1]. injection Hs as <- <-. by apply K.
  - cbn [step] in Hs. apply relist_frame in Hs as (E1 & E2 & _). by apply K.
  - cbn [step] in Hs. destruct (relist _ _ _) as [s1 o1] eqn:Hr. injection Hs as <- <-. apply relist_frame in Hr as (E1 & E2 & _). by apply K.
  - pose proof (frames s (EReconcile r x order) s' o Hs I) as (E1 & E2 & _). by apply K.
  - assert (forall q ok, q ∉ used s -> answered (created s q) ok = (s', o) -> p ∈ used s' /\ (p ∈ dom (srv s') -> p ∈ dom (srv s)) /\ (p ∈ live s' -> p ∈ live s)) as C.
    { intros q ok Hq Ha. apply answered_frames in Ha as (E1 & E2 & _). assert (q <> p) by (intros ->; done). rewrite E1, E2. cbn [created used srv]. split; [set_solver|]. split; [rewrite dom_insert_L; set_solver|].
      rewrite !L, E1. cbn [created srv]. by rewrite lookup_insert_ne. }
    destruct cr as [q| |q].
    2:{ pose proof (frames s (ECreate Refused) s' o Hs I) as (E1 & E2 & _). by apply K. }
    all: cbn [step] in Hs; destruct (pc s) as [|? ? [|n] ? ?|]; try (injection Hs as <- <-; by apply K); destruct (decide _); [injection Hs as <- <-; by apply K|by eapply C].
  - pose proof (frames s (EDelete q ok) s' o Hs I) as (E1 & E2 & _). by apply K.
Qed.
(** A pod that exists is not forgotten. *)
Lemma known_deliver s a b s' o p : ordered s -> step s (EDeliver a b) = (s', o) -> p ∈ dom (srv s) -> p ∈ all_pods (inf s) -> p ∈ all_pods (inf s').
Proof.
  intros Ho Hs Hp Hk. cbn [step] in Hs. destruct (wq s) as [|w q] eqn:Hq; [by injection Hs as <- <-|]. destruct w as [p' st|p'].
  - unfold call in Hs. destruct (on_pod_update a b (inf s) p' st) as [i1 put] eqn:E. injection Hs as <- <-. cbn [inf]. unfold on_pod_update in E.
    destruct (ignored st); [by injection E as <- <-|]. destruct (recognise st) as [k|]; [|by injection E as <- <-]. pose proof (update_sets (inf s) k p') as (_ & _ & U & _).
    destruct (update (inf s) k p') as [i2 ch]. injection E as <- <-. cbn [fst] in U. rewrite U. set_solver.
  - assert (p <> p') as Hne. { intros ->. apply (or_live _ Ho p' Hp). rewrite Hq. by left. }
    unfold call, on_pod_delete in Hs. injection Hs as <- <-. cbn [inf]. pose proof (deleted_sets (inf s) p') as (_ & _ & U & _). rewrite U. set_solver.
Qed.
Lemma known_step s e s' o p : ordered s -> step s e = (s', o) -> (forall a b, e <> ERestart a b) -> p ∈ used s -> p ∈ dom (srv s') -> p ∈ all_pods (inf s) -> p ∈ all_pods (inf s').
Proof.
  intros Ho Hs Hr Hu Hp Hk. pose proof (proj1 (proj2 (srv_step _ _ _ _ _ Hs Hu)) Hp) as Hp0. destruct e as [q st|q|a b|a b|a b|r x order|cr|q ok].
  - cbn [step] in Hs. destruct (srv s !! q) as [[? d]|]; [destruct (d && alive st)|]; by injection Hs as <- <-.
  - cbn [step] in Hs. destruct (srv s !! q); by injection Hs as <- <-.
  - by eapply known_deliver.
  - cbn [step] in Hs. eapply (relist_ind a b (fun t _ => ordered t /\ srv t = srv s /\ p ∈ all_pods (inf t)) s s' o Hs).
    + split; [apply ordered_requeue; apply Ho|]. done.
    + intros t o1 t' o' w q (T1 & T2 & T3) Hw Ht. split; [by eapply ordered_step|]. split.
      * rewrite <- T2. cbn [step] in Ht. rewrite Hw in Ht. destruct (call _ _ _ _) as [[c i] o2]. by injection Ht as <- <-.
      * eapply known_deliver; [exact T1|exact Ht|by rewrite T2|done].
  - by destruct (Hr a b).
  - assert (match EReconcile r x order with EDeliver _ _ | ERelist _ _ | ERestart _ _ => False | _ => True end) as _ by done. cbn [step] in Hs. destruct (pc s); [|by injection Hs as <- <-..]. destruct (lists _ _); [|by injection Hs as <- <-].
    by apply reconcile_keeps in Hs as [-> _].
  - assert (forall t ok, all_pods (inf t) = all_pods (inf s) -> answered t ok = (s', o) -> p ∈ all_pods (inf s')) as C. { intros t ok E Ha. apply answered_keeps in Ha as [-> _]. by rewrite E. }
    cbn [step] in Hs. destruct (pc s) as [|? ? [|n] ? ?|]; try (by injection Hs as <- <-). destruct cr as [q| |q]; [destruct (decide _); [by injection Hs as <- <-|]; by eapply (C (created s q))|by eapply C|destruct (decide _); [by injection Hs as <- <-|]; by eapply (C (created s q))].
  - cbn [step] in Hs. by apply answered_delete_keeps in Hs as [-> _].
Qed.

(** * Searching a stretch of a run *)
Lemma first_such (P : nat -> Prop) `{HP : forall k, Decision (P k)} i j : (i <= j)%nat ->
  (exists k, (i <= k <= j)%nat /\ P k /\ forall m, (i <= m < k)%nat -> ~ P m) \/ (forall k, (i <= k <= j)%nat -> ~ P k).
Proof.
  intros Hij. induction Hij as [|j Hij IH].
  - destruct (decide (P i)) as [H|H]; [left; exists i; split; [lia|]; split; [done|]; lia|right]. intros k Hk. by replace k with i by lia.
  - destruct IH as [(k & Hk & HPk & Hm)|IH]; [left; exists k; split; [lia|done]|]. destruct (decide (P (S j))) as [H|H].
    + left. exists (S j). split; [lia|]. split; [done|]. intros m Hm. apply IH. lia.
    + right. intros k Hk. destruct (decide (k = S j)) as [->|]; [done|]. apply IH. lia.
Qed.

Lemma filter_le (f : pod -> bool) l : (length (List.filter f l) <= length l)%nat.
Proof. induction l as [|a l IH]; cbn; [lia|]. destruct (f a); cbn; lia. Qed.
Lemma filter_shorter p l : p ∈ l -> (length (List.filter (fun q : pod => negb (bool_decide (q = p))) l) < length l)%nat.
Proof.
  induction l as [|a l IH]; intros Hp; [by apply elem_of_nil in Hp|]. cbn [List.filter]. destruct (decide (a = p)) as [->|Hne].
  - rewrite bool_decide_true by done. cbn. pose proof (filter_le (fun q : pod => negb (bool_decide (q = p))) l). lia.
  - rewrite bool_decide_false by done. cbn. apply elem_of_cons in Hp as [->|Hp]; [done|]. specialize (IH Hp). lia.
Qed.

Section run.
Context (lim : option Z) (run : nat -> depot) (ev : nat -> devent) (HE : endless lim run ev) (HF : fair run ev).
Notation K i := (d_kube (run i)).

Lemma next i : exists o, dstep lim (run i) (ev i) = (run (S i), o).
Proof. rewrite (en_step _ _ _ HE). destruct (dstep _ _ _) as [s o]. by exists o. Qed.
Lemma reached i : exists h, dreach lim h (run i).
Proof.
  induction i as [|i [h Hx]]; [exists []; rewrite (en_from _ _ _ HE); constructor|]. destruct (next i) as [o Ho]. exists (h ++ [(ev i, o)]). apply exec_app. exists (run i). split; [done|]. econstructor; [exact Ho|constructor].
Qed.
Lemma kube_exec i : exists h, exec step init h (K i).
Proof. destruct (reached i) as [h Hx]. eexists. apply (i_kube _ _ (inv_reach _ _ _ Hx)). Qed.
Lemma ord i : ordered (K i).
Proof. destruct (kube_exec i) as [h Hx]. by eapply exec_ordered. Qed.
Lemma syn i : synced (K i).
Proof. destruct (kube_exec i) as [h Hx]. by eapply exec_synced. Qed.
Lemma par i : parted (inf (K i)).
Proof. destruct (kube_exec i) as [h Hx]. by eapply exec_parted. Qed.
Lemma enc i : Kube_Proofs2.ends (K i).
Proof. destruct (kube_exec i) as [h Hx]. by eapply exec_ends. Qed.
Lemma busy_pc i : d_busy (run i) = true <-> pc (K i) <> Idle.
Proof. destruct (reached i) as [h Hx]. apply (i_busy _ _ (inv_reach _ _ _ Hx)). Qed.
Lemma seen_le i : (1 <= d_seen (run i) <= length (d_vers (run i)))%nat.
Proof. destruct (reached i) as [h Hx]. apply (i_seen _ _ (inv_reach _ _ _ Hx)). Qed.

(** The step of the pods in a step. *)
Inductive kind_of (i : nat) : option event -> Prop :=
| k_none : K (S i) = K i -> (forall e, ev i = DPod e -> pod_event e = false) -> (forall x, ev i <> DRestart x) -> kind_of i None
| k_pod e : ev i = DPod e -> pod_event e = true -> kind_of i (Some e)
| k_get x order : ev i = DGet x order -> d_dirty (run i) = true -> pc (K i) = Idle -> lists order (pending (inf (K i))) = true -> kind_of i (Some (EReconcile (replicas (run i)) x order))
| k_restart x : ev i = DRestart x -> kind_of i (Some (ERestart false x)).
Lemma kstep i : exists me, kind_of i me /\ forall e, me = Some e -> exists o, step (K i) e = (K (S i), o).
Proof.
  destruct (next i) as [o Ho]. destruct (ev i) as [k| |n r|n| |k|e|x order| |x] eqn:He; cbn [dstep] in Ho.
  - exists None. split; [|done]. apply k_none; [by injection Ho as <- <-|by rewrite He..].
  - exists None. split; [|done]. apply k_none; [by injection Ho as <- <-|by rewrite He..].
  - exists None. split; [|done]. apply k_none; [|by rewrite He..]. destruct (d_wire (run i) !! n) as [[? ?]|]; [|by injection Ho as <- <-]. destruct r; injection Ho as <- <-; try done; unfold patch_replicas; by destruct (_ =? _).
  - exists None. split; [|done]. apply k_none; [by injection Ho as <- <-|by rewrite He..].
  - exists None. split; [|done]. apply k_none; [by injection Ho as <- <-|by rewrite He..].
  - exists None. split; [|done]. apply k_none; [by injection Ho as <- <-|by rewrite He..].
  - destruct (pod_event e) eqn:Hp.
    + exists (Some e). split; [by apply k_pod|]. intros e' [= <-]. unfold in_kube in Ho. destruct (step _ e) as [k os]. injection Ho as <- <-. by exists os.
    + exists None. split; [|done]. apply k_none; [by injection Ho as <- <-| |by rewrite He]. rewrite He. by intros ? [= <-].
  - destruct (d_dirty (run i) && negb (d_busy (run i)) && lists order (pending (inf (K i)))) eqn:Hc.
    + apply andb_true_iff in Hc as [[Hd Hb]%andb_true_iff Hl]. exists (Some (EReconcile (replicas (run i)) x order)). split.
      * eapply k_get; [exact He|done| |done]. destruct (pc (K i)) eqn:Hp; [done|..]; by (assert (d_busy (run i) = true) as E by (apply busy_pc; by rewrite Hp); rewrite E in Hb).
      * intros e' [= <-]. unfold in_kube in Ho. destruct (step _ _) as [k os]. injection Ho as <- <-. by exists os.
    + exists None. split; [|done]. apply k_none; [by injection Ho as <- <-|by rewrite He..].
  - exists None. split; [|done]. apply k_none; [destruct (d_timer (run i)); by injection Ho as <- <-|by rewrite He..].
  - exists (Some (ERestart false x)). split; [by apply k_restart|]. intros e' [= <-]. unfold in_kube in Ho. destruct (step _ _) as [k os]. injection Ho as <- <-. by exists os.
Qed.

(** Accepted deletions. *)
Fixpoint Es (i : nat) : gset pod := match i with O => ∅ | S i => Es i ∪ (match ev i with DPod e => grants e (K i) | _ => ∅ end) end.
Lemma Es_granted i p : p ∈ Es i <-> granted run ev i p.
Proof.
  induction i as [|i IH]; cbn [Es].
  - split; [set_solver|]. intros (j & Hj & _). lia.
  - rewrite elem_of_union, IH. split.
    + intros [(j & Hj & H)|H]; [exists j; split; [lia|done]|]. exists i. split; [lia|]. destruct (ev i) as [| | | | | |e| | |]; try set_solver. unfold grants, asked in *. destruct e as [| | | | | | |q []]; try set_solver.
      destruct (pc (K i)) as [| |l b]; try set_solver. destruct (decide (q ∈ l)); [|set_solver]. apply elem_of_singleton in H as ->. done.
    + intros (j & Hj & He & Ha). destruct (decide (j = i)) as [->|]; [right|left; exists j; split; [lia|done]]. rewrite He. unfold asked in Ha. cbn [grants]. destruct (pc (K i)) as [| |l b]; try (by apply elem_of_nil in Ha). rewrite decide_True by done. set_solver.
Qed.
Lemma su i : sums (Es i) (K i).
Proof.
  induction i as [|i IH].
  - rewrite (en_from _ _ _ HE). split; cbn; try done; set_solver.
  - destruct (kstep i) as (me & Hk & Hs). cbn [Es]. inversion Hk as [E1 E2 E3 Em|e E1 E2 Em|x order E1 E2 E3 E4 Em|x E1 Em]; subst me.
    + assert (match ev i with DPod e => grants e (K i) | _ => ∅ end = ∅) as ->. { destruct (ev i) as [| | | | | |e| | |]; try done. specialize (E2 e eq_refl). by destruct e as [| | | | | | |? []]. } by rewrite union_empty_r_L, E1.
    + destruct (Hs e eq_refl) as [o Ho]. rewrite E1. eapply sums_step; [apply ord|apply syn|apply par|exact IH|exact Ho|]. intros p -> Hp. by apply (fa_known _ _ HF i p).
    + destruct (Hs _ eq_refl) as [o Ho]. rewrite E1. eapply (sums_step (Es i)) in Ho; [exact Ho|apply ord|apply syn|apply par|exact IH|done].
    + destruct (Hs _ eq_refl) as [o Ho]. rewrite E1. eapply (sums_step (Es i)) in Ho; [exact Ho|apply ord|apply syn|apply par|exact IH|done].
Qed.

(** * Without restarts *)
Context (n0 : nat) (r : Z) (HS : steady run ev n0 r).
Lemma kstep' i : (n0 <= i)%nat -> K (S i) = K i \/ exists e o, step (K i) e = (K (S i), o) /\ (forall a b, e <> ERestart a b) /\ kind_of i (Some e).
Proof.
  intros Hi. destruct (kstep i) as ([e|] & Hk & Hs); [|left; by inversion Hk]. right. destruct (Hs e eq_refl) as [o Ho]. exists e, o. split; [done|]. split; [|done].
  intros a b ->. inversion Hk as [|? E1 E2| |? E1]; [by destruct a|]. by apply (proj1 (HS i Hi) _ E1).
Qed.
Lemma used_mono i j p : (i <= j)%nat -> p ∈ used (K i) -> p ∈ used (K j).
Proof.
  induction 1 as [|j Hij IH]; [done|]. intros Hp. specialize (IH Hp). destruct (kstep j) as ([e|] & Hk & Hs); [destruct (Hs e eq_refl) as [o Ho]; by apply (srv_step _ _ _ _ _ Ho IH)|inversion Hk as [E| | |]; by rewrite E].
Qed.
Lemma gone_mono i j p : (i <= j)%nat -> p ∈ used (K i) -> p ∉ dom (srv (K i)) -> p ∉ dom (srv (K j)).
Proof.
  induction 1 as [|j Hij IH]; [done|]. intros Hp Hn. specialize (IH Hp Hn). pose proof (used_mono i j p Hij Hp) as Hu. destruct (kstep j) as ([e|] & Hk & Hs); [destruct (Hs e eq_refl) as [o Ho]; intros H; by apply IH, (srv_step _ _ _ _ _ Ho Hu)|inversion Hk as [E| | |]; by rewrite E].
Qed.
Definition takes (i : nat) : Prop := match ev i with DPod (EDeliver false _) | DPod (ERelist false _) => True | _ => False end.
Global Instance takes_dec i : Decision (takes i).
Proof. unfold takes. destruct (ev i) as [| | | | | |[]| | |]; try apply _; destruct stopping; apply _. Defined.
Lemma untaken i j : (n0 <= i <= j)%nat -> (forall m, (i <= m < j)%nat -> ~ takes m) -> exists l, wq (K j) = wq (K i) ++ l.
Proof.
  intros [Hi Hij]. induction Hij as [|j Hij IH]; intros Hm; [exists []; by rewrite app_nil_r|]. destruct IH as [l Hl]; [intros m ?; apply Hm; lia|].
  destruct (kstep' j ltac:(lia)) as [->|(e & o & Ho & Hr & Hk)]; [eauto|]. assert (~ takes j) as Ht by (apply Hm; lia).
  destruct (wq_step _ _ _ _ Ho Hr) as [[l' ->]|[(a & b & w & -> & Hw)|(a & b & -> & Hw)]]; [rewrite Hl, <- app_assoc; eauto|exfalso..].
  - apply Ht. unfold takes. inversion Hk as [|? E1 E2| |]. rewrite E1. by destruct a.
  - apply Ht. unfold takes. inversion Hk as [|? E1 E2| |]. rewrite E1. by destruct a.
Qed.
Lemma delivered n : forall i w, (n0 <= i)%nat -> wq (K i) !! n = Some w -> exists j, (i <= j)%nat /\
  ((exists x q, ev j = DPod (EDeliver false x) /\ wq (K j) = w :: q) \/ (exists x, ev j = DPod (ERelist false x))).
Proof.
  induction n as [n IHn] using lt_wf_ind. intros i w Hi Hw. destruct (fa_pods _ _ HF i) as (j & x & Hij & Hj); [by intros E; rewrite E in Hw|].
  destruct (first_such takes i j Hij) as [(k & Hk & Ht & Hm)|Hno].
  2:{ exfalso. apply (Hno j ltac:(lia)). unfold takes. by destruct Hj as [-> | ->]. }
  destruct (untaken i k ltac:(lia) Hm) as [l Hl]. assert (wq (K k) !! n = Some w) as Hwk by (rewrite Hl; by apply lookup_app_l_Some).
  unfold takes in Ht. destruct (ev k) as [| | | | | |[| |[]|[]| | | |]| | |] eqn:Hev; try done; [|exists k; split; [lia|]; right; eauto].
  destruct (wq (K k)) as [|w0 q] eqn:Hq; [done|]. destruct n as [|n].
  - injection Hwk as ->. exists k. split; [lia|]. left. eauto.
  - destruct (IHn n ltac:(lia) (S k) w) as (j' & Hj' & H); [lia| |exists j'; split; [lia|done]].
    destruct (kstep k) as (me & Hkk & Hs). inversion Hkk as [E1 E2 E3 Em|e E1 E2 Em|? ? E1|? E1]; subst me; try congruence; [by specialize (E2 _ Hev)|]. rewrite Hev in E1. injection E1 as <-. destruct (Hs _ eq_refl) as [o Ho].
    cbn [step] in Ho. rewrite Hq in Ho. destruct (call _ _ _ _) as [[c i1] o1]. assert (wq (K (S k)) = q) as ->; [|done]. by injection Ho as <- <-.
Qed.
(** [p] is known if it exists. *)
Definition fine (i : nat) (p : pod) : Prop := p ∈ used (K i) /\ (p ∈ dom (srv (K i)) -> p ∈ all_pods (inf (K i))).
Lemma fine_mono i j p : (n0 <= i <= j)%nat -> fine i p -> fine j p.
Proof.
  intros [Hi Hij]. induction Hij as [|j Hij IH]; [done|]. intros Hf. destruct (IH Hf) as [F1 F2]. split; [eapply (used_mono j); [lia|done]|]. intros Hp.
  destruct (kstep' j ltac:(lia)) as [E|(e & o & Ho & Hr & Hk)]; [rewrite E in *; auto|]. eapply known_step; [apply ord|exact Ho|done|done|done|]. apply F2. by apply (srv_step _ _ _ _ _ Ho F1).
Qed.
Lemma pods_all i k p : p ∈ pods_of (inf (K i)) k -> p ∈ all_pods (inf (K i)).
Proof. destruct (par i) as [f [H1 H2]]. intros Hp%H1. apply H2. by rewrite Hp. Qed.
Lemma pod_step i e : ev i = DPod e -> pod_event e = true -> exists o, step (K i) e = (K (S i), o).
Proof.
  intros He Hp. destruct (kstep i) as (me & Hk & Hs). inversion Hk as [E1 E2 E3 Em|e' E1 E2 Em|? ? E1|? E1]; subst me; try congruence; [by rewrite (E2 _ He) in Hp|]. rewrite He in E1. injection E1 as ->. by apply Hs.
Qed.
Lemma reported i p : (n0 <= i)%nat -> p ∈ used (K i) -> exists j, (i <= j)%nat /\ fine j p.
Proof.
  intros Hi Hu. destruct (decide (p ∈ dom (srv (K i)))) as [Hp|]; [|by exists i].
  destruct (fa_report _ _ HF i p Hp) as (j & Hij & Hj). pose proof (used_mono i j p Hij Hu) as Huj. destruct (decide (p ∈ dom (srv (K j)))) as [Hpj|]; [|by exists j].
  apply elem_of_dom in Hpj as [[st d] Hst]. destruct (Hj j st d (le_n _) Hst) as [m Hm]. apply recognise_says in Hm.
  destruct (sy_last _ (syn j) p st d Hst) as [(q1 & q2 & Hq & _)|[_ Hk]]; [|exists j; split; [lia|]; split; [done|]; intros _; eapply pods_all; by apply Hk].
  destruct (delivered (length q1) j (Upd p st)) as (j1 & Hj1 & H); [lia|rewrite Hq; by rewrite list_lookup_middle|]. exists (S j1). split; [lia|]. split; [eapply (used_mono j); [lia|done]|]. intros Hp1.
  destruct H as [(x & q & He & Hq1)|(x & He)].
  - destruct (pod_step _ _ He eq_refl) as [o Ho]. cbn [step] in Ho. rewrite Hq1 in Ho. pose proof (call_sets false x (cached (K j1)) (inf (K j1)) [] (Upd p st)) as Hc. destruct (call _ _ _ _) as [[c i1] o1]. destruct Hc as (_ & _ & Hc).
    assert (inf (K (S j1)) = i1) as Hi1 by (by injection Ho as <- <-). apply (pods_all (S j1) m p). rewrite Hi1. by eapply Hc.
  - destruct (pod_step _ _ He eq_refl) as [o Ho]. cbn [step] in Ho. apply relist_frame in Ho as (_ & _ & _ & Hw & _). apply elem_of_dom in Hp1 as [[st1 d1] Hst1].
    destruct (Hj (S j1) st1 d1 ltac:(lia) Hst1) as [m1 Hm1%recognise_says]. destruct (sy_last _ (syn (S j1)) p st1 d1 Hst1) as [(l1 & l2 & Hl & _)|[_ Hk]]; [rewrite Hw in Hl; by destruct l1|]. eapply pods_all. by apply Hk.
Qed.
Lemma all_fine (l : list pod) : forall i, (n0 <= i)%nat -> (forall p, p ∈ l -> p ∈ used (K i)) -> exists j, (i <= j)%nat /\ forall p, p ∈ l -> fine j p.
Proof.
  induction l as [|p l IH]; intros i Hi Hu; [exists i; split; [lia|]; intros p Hp; by apply elem_of_nil in Hp|]. destruct (IH i Hi) as (j & Hij & Hj); [intros q Hq; apply Hu; by right|].
  destruct (reported j p) as (k & Hjk & Hk); [lia|apply (used_mono i); [done|apply Hu; by left]|]. exists k. split; [lia|]. intros q [->|Hq]%elem_of_cons; [done|]. apply (fine_mono j); [lia|by apply Hj].
Qed.
Lemma dead_mono i j p : (i <= j)%nat -> dead (K i) p -> dead (K j) p.
Proof.
  induction 1 as [|j Hij IH]; [done|]. intros Hp. specialize (IH Hp). destruct (kstep j) as ([e|] & Hk & Hs); [destruct (Hs e eq_refl) as [o Ho]; by apply (dead_step _ _ _ _ _ IH Ho)|inversion Hk as [E| | |]; by rewrite E].
Qed.
Lemma buried i p : (n0 <= i)%nat -> p ∈ Es i -> exists j, (i <= j)%nat /\ dead (K j) p.
Proof.
  intros Hi Hp. assert (p ∈ used (K i)) as Hu by (apply (su_used _ _ (su i)); set_solver). apply Es_granted in Hp. destruct (fa_gone _ _ HF i p Hp) as (j & Hij & Hj). unfold exists_ in Hj. pose proof (used_mono i j p Hij Hu) as Huj.
  destruct (decide (p ∈ cached (K j) \/ p ∈ map pod_of (wq (K j)))) as [H|H].
  - assert (Del p ∈ wq (K j)) as Hd. { apply (or_gone _ (ord j) p Hj). destruct H as [H|H]; [by left|right]. change (p ∈ pod_of <$> wq (K j)) in H. apply elem_of_list_fmap in H as (w & -> & Hw). eauto. }
    apply elem_of_list_lookup in Hd as [n Hn]. destruct (delivered n j (Del p)) as (j1 & Hj1 & [(x & q & He & Hq1)|(x & He)]); [lia|done|..]; exists (S j1); (split; [lia|]).
    + destruct (pod_step _ _ He eq_refl) as [o Ho]. destruct (tells_deliver _ _ _ _ _ p (ord j1) Ho) as [_ Ht]. apply Ht. cbn [step] in Ho. rewrite Hq1 in Ho. unfold call, on_pod_delete in Ho. eexists. injection Ho as _ <-. by left.
    + destruct (pod_step _ _ He eq_refl) as [o Ho]. cbn [step] in Ho. apply relist_frame in Ho as (_ & _ & _ & Hw & _). assert (p ∉ dom (srv (K (S j1)))) as Hn1 by (apply (gone_mono j); [lia|done|done]).
      split; [apply (used_mono j); [lia|done]|]. split; [done|]. split; [|rewrite Hw; intros w Hw'; by apply elem_of_nil in Hw']. intros Hc. pose proof (or_gone _ (ord (S j1)) p Hn1 (or_introl Hc)) as Hd. rewrite Hw in Hd. by apply elem_of_nil in Hd.
  - exists j. split; [done|]. split; [done|]. split; [done|]. split; [tauto|]. intros w Hw E. apply H. right. change (p ∈ pod_of <$> wq (K j)). apply elem_of_list_fmap. by exists w.
Qed.
Lemma all_buried (l : list pod) : forall i, (n0 <= i)%nat -> (forall p, p ∈ l -> p ∈ Es i) -> exists j, (i <= j)%nat /\ forall p, p ∈ l -> dead (K j) p.
Proof.
  induction l as [|p l IH]; intros i Hi Hu; [exists i; split; [lia|]; intros p Hp; by apply elem_of_nil in Hp|]. destruct (IH i Hi) as (j & Hij & Hj); [intros q Hq; apply Hu; by right|].
  destruct (buried i p) as (k & Hjk & Hk); [lia|apply Hu; by left|]. exists (j `max` k)%nat. split; [lia|]. intros q [->|Hq]%elem_of_cons; [apply (dead_mono k); [lia|done]|]. apply (dead_mono j); [lia|by apply Hj].
Qed.

(** * The object *)
Lemma vers_step i : (n0 <= i)%nat -> (d_vers (run (S i)) = d_vers (run i) \/ exists v, d_vers (run (S i)) = d_vers (run i) ++ [v]) /\ (d_seen (run i) <= d_seen (run (S i)))%nat.
Proof.
  intros Hi. destruct (next i) as [o Ho]. pose proof (seen_le i) as Hse. destruct (ev i) as [k| |n r'|n| |k|e|x order| |x] eqn:He; cbn [dstep] in Ho; try (injection Ho as <- <-; cbn; split; [by left|lia]).
  - destruct (d_wire (run i) !! n) as [[? ?]|]; [|injection Ho as <- <-; split; [by left|lia]]. destruct r'; injection Ho as <- <-; try (cbn; split; [by left|lia]); unfold patch_replicas; (destruct (_ =? _); cbn; split; [by left|lia|right; eauto|lia]).
  - injection Ho as <- <-. cbn. split; [right; eauto|lia].
  - destruct (pod_event e); [unfold in_kube in Ho; destruct (step _ e)|]; injection Ho as <- <-; cbn; (split; [by left|lia]).
  - destruct (_ && _); [unfold in_kube in Ho; destruct (step _ _)|]; injection Ho as <- <-; cbn; (split; [by left|lia]).
  - destruct (d_timer (run i)); injection Ho as <- <-; cbn; (split; [by left|lia]).
  - by destruct (proj1 (HS i Hi) x).
Qed.
Lemma settled_vers k : (n0 <= k)%nat -> (length (d_vers (run n0)) <= length (d_vers (run k)))%nat /\ forall m, (length (d_vers (run n0)) - 1 <= m < length (d_vers (run k)))%nat -> d_vers (run k) !! m = Some r.
Proof.
  induction 1 as [|k Hk [IH1 IH2]].
  - split; [lia|]. intros m Hm. replace m with (pred (length (d_vers (run n0)))) by lia. pose proof (proj2 (HS n0 (le_n _))) as Hn. unfold newest in Hn. rewrite last_lookup in Hn.
    destruct (d_vers (run n0) !! pred (length (d_vers (run n0)))) as [v|] eqn:E; [cbn in Hn; by subst|]. apply lookup_ge_None in E. lia.
  - destruct (vers_step k Hk) as [[->|[v Hv]] _]; [done|]. rewrite Hv, app_length. cbn [length]. split; [lia|]. intros m Hm. destruct (decide (m < length (d_vers (run k)))%nat); [rewrite lookup_app_l by lia; apply IH2; lia|].
    replace m with (length (d_vers (run k))) by lia. rewrite list_lookup_middle by done. pose proof (proj2 (HS (S k) ltac:(lia))) as Hn. unfold newest in Hn. rewrite Hv, last_snoc in Hn. cbn in Hn. by subst.
Qed.
Lemma seen_mono i j : (n0 <= i <= j)%nat -> (d_seen (run i) <= d_seen (run j))%nat.
Proof. intros [Hi Hij]. induction Hij as [|j Hij IH]; [done|]. destruct (vers_step j ltac:(lia)) as [_ ?]. lia. Qed.
Lemma asks : exists i, (n0 <= i)%nat /\ forall k, (i <= k)%nat -> replicas (run k) = r.
Proof.
  destruct (fa_watch _ _ HF n0) as (i & Hi & Hl). exists i. split; [done|]. intros k Hk. unfold replicas. pose proof (seen_mono i k ltac:(lia)). pose proof (seen_le k). pose proof (seen_le n0). destruct (settled_vers k ltac:(lia)) as [_ H2]. rewrite H2 by lia. done.
Qed.

(** * Nobody is overlooked *)
Definition goal (k : nat) : Prop := r <= counted_on (run k) \/ (0 < outstanding (K k))%nat.
Global Instance goal_dec k : Decision (goal k).
Proof. unfold goal. apply _. Defined.
Lemma idle_step k : (n0 <= k)%nat -> replicas (run k) = r -> pc (K k) = Idle -> ~ goal k -> ~ goal (S k) ->
  pc (K (S k)) = Idle /\ Es (S k) = Es k /\ dom (srv (K (S k))) ⊆ dom (srv (K k)) /\ creates (inf (K (S k))) <= creates (inf (K k)) /\ deletes (inf (K (S k))) <= deletes (inf (K k)).
Proof.
  intros Hk Hr Hp Hg Hg'. assert (Es (S k) = Es k) as HEs.
  { cbn [Es]. destruct (ev k) as [| | | | | |e| | |]; try (by rewrite union_empty_r_L). assert (grants e (K k) = ∅) as ->; [|by rewrite union_empty_r_L]. unfold grants. rewrite Hp. by destruct e as [| | | | | | |? []]. }
  destruct (kstep' k Hk) as [E|(e & o & Ho & Hre & Hki)]; [rewrite E; repeat split; try done; lia|]. inversion Hki as [|e' E1 E2|x order E1 E2 E3 E4|? E1]; subst.
  - destruct e as [q st|q|a b|a b|a b|? x order|cr|q ok]; try done; cbn [step] in Ho.
    + destruct (srv (K k) !! q) as [[st0 d]|] eqn:Hq; [|injection Ho as <- <-; repeat split; try done; lia]. destruct (d && alive st); injection Ho as <- <-; [repeat split; try done; lia|]. cbn [pc srv inf]. repeat split; try done; try lia.
      rewrite dom_insert_L. assert (q ∈ dom (srv (K k))) by (apply elem_of_dom; eauto). set_solver.
    + destruct (srv (K k) !! q); injection Ho as <- <-; cbn [pc srv inf]; repeat split; try done; try lia. rewrite dom_delete_L. set_solver.
    + pose proof (step_counts (K k) (EDeliver a b) _ o Ho I) as [C1 C2]. assert (pc (K (S k)) = Idle /\ srv (K (S k)) = srv (K k)) as [F1 F2]. { destruct (wq (K k)); [by injection Ho as <- <-|]. destruct (call _ _ _ _) as [[c i] o1]. by injection Ho as <- <-. }
      rewrite F2. repeat split; try done; lia.
    + apply relist_frame in Ho as (F1 & F2 & F3 & _ & C1 & C2). rewrite F1, F3. repeat split; try done; lia.
    + rewrite Hp in Ho. injection Ho as <- <-. repeat split; try done; lia.
    + unfold answered_delete in Ho. rewrite Hp in Ho. injection Ho as <- <-. repeat split; try done; lia.
  - cbn [step] in Ho. rewrite E3, E4 in Ho. unfold reconcile in Ho. destruct (negb _); [injection Ho as <- <-; repeat split; try done; lia|]. destruct (0 <? _) eqn:Hd.
    + exfalso. apply Hg'. right. injection Ho as <- <-. unfold outstanding. cbn [pc]. lia.
    + exfalso. apply Hg. left. apply Z.ltb_ge in Hd. unfold counted_on, workers. rewrite Hr in Hd. lia.
  - by apply (proj1 (HS k Hk)) in E1.
Qed.
Lemma idle_until i j : (n0 <= i <= j)%nat -> (forall k, (i <= k)%nat -> replicas (run k) = r) -> pc (K i) = Idle -> (forall k, (i <= k <= j)%nat -> ~ goal k) ->
  pc (K j) = Idle /\ Es j = Es i /\ dom (srv (K j)) ⊆ dom (srv (K i)) /\ creates (inf (K j)) <= creates (inf (K i)) /\ deletes (inf (K j)) <= deletes (inf (K i)).
Proof.
  intros [Hi Hij] Hr Hp. induction Hij as [|j Hij IH]; intros Hg; [repeat split; try done; lia|]. destruct IH as (I1 & I2 & I3 & I4 & I5); [intros k ?; apply Hg; lia|].
  destruct (idle_step j) as (J1 & J2 & J3 & J4 & J5); [lia|apply Hr; lia|done|apply Hg; lia|apply Hg; lia|]. rewrite J2. split; [done|]. split; [done|]. split; [by etrans|]. lia.
Qed.
(** * Deletions are answered *)
Lemma deleting_step k l b : (n0 <= k)%nat -> pc (K k) = Deleting l b ->
  (pc (K (S k)) = Idle \/ exists l' b', pc (K (S k)) = Deleting l' b' /\ (l' = l \/ (length l' < length l)%nat)) /\
  (forall p ok, ev k = DPod (EDelete p ok) -> p ∈ l -> asked (run (S k)) <> l).
Proof.
  intros Hk Hp. assert (pc (K (S k)) = pc (K k) -> (forall p ok, ev k = DPod (EDelete p ok) -> p ∉ l) ->
    (pc (K (S k)) = Idle \/ exists l' b', pc (K (S k)) = Deleting l' b' /\ (l' = l \/ (length l' < length l)%nat)) /\ (forall p ok, ev k = DPod (EDelete p ok) -> p ∈ l -> asked (run (S k)) <> l)) as Same.
  { intros E Hn. split; [right; exists l, b; split; [by rewrite E|by left]|]. intros p ok He Hin. by destruct (Hn p ok He). }
  destruct (kstep' k Hk) as [E|(e & o & Ho & Hre & Hki)].
  - apply Same; [by rewrite E|]. intros p ok He Hin. destruct (pod_step _ _ He eq_refl) as [o Ho]. rewrite E in Ho. cbn [step] in Ho. unfold answered_delete in Ho. rewrite Hp, decide_True in Ho by done.
    assert (length (List.filter (fun q => negb (bool_decide (q = p))) l) < length l)%nat as Hlt by (by apply filter_shorter).
    destruct (List.filter _ l) as [|a l'] eqn:Hf; injection Ho as Ho _; rewrite <- Ho in Hp; cbn [pc] in Hp; [done|]. injection Hp as Hp _. rewrite Hp in Hlt. lia.
  - inversion Hki as [|e' E1 E2|x order E1 E2 E3 E4|? E1]; subst.
    + destruct e as [q st|q|a c|a c|a c|? x order|cr|q ok]; try done; cbn [step] in Ho.
      * apply Same; [|by rewrite E1]. destruct (srv (K k) !! q) as [[st0 d]|]; [destruct (d && alive st)|]; by injection Ho as <- <-.
      * apply Same; [|by rewrite E1]. destruct (srv (K k) !! q); by injection Ho as <- <-.
      * apply Same; [|by rewrite E1]. destruct (wq (K k)); [by injection Ho as <- <-|]. destruct (call _ _ _ _) as [[? ?] ?]. by injection Ho as <- <-.
      * apply Same; [|by rewrite E1]. by apply relist_frame in Ho as (_ & _ & F & _).
      * apply Same; [|by rewrite E1]. rewrite Hp in Ho. by injection Ho as <- <-.
      * unfold answered_delete in Ho. rewrite Hp in Ho. destruct (decide (q ∈ l)) as [Hq|Hq].
        2:{ apply Same; [by injection Ho as <- <-|]. rewrite E1. by intros p ok' [= -> ->]. }
        assert (length (List.filter (fun q' => negb (bool_decide (q' = q))) l) < length l)%nat as Hlt by (by apply filter_shorter).
        destruct (List.filter _ l) as [|a l'] eqn:Hf; injection Ho as Ho _.
        -- split; [left; by rewrite <- Ho|]. intros p ok' He Hin. unfold asked. rewrite <- Ho. cbn [pc]. intros <-. by apply elem_of_nil in Hin.
        -- split; [right; rewrite <- Ho; cbn [pc]; do 2 eexists; split; [done|by right]|]. intros p ok' He Hin. unfold asked. rewrite <- Ho. cbn [pc]. intros E. rewrite E in Hlt. lia.
    + by rewrite Hp in E3.
    + by apply (proj1 (HS k Hk)) in E1.
Qed.
Lemma deletions_end : forall n i l b, (length l < n)%nat -> (n0 <= i)%nat -> pc (K i) = Deleting l b -> exists j, (i <= j)%nat /\ pc (K j) = Idle.
Proof.
  induction n as [|n IH]; intros i l b Hn Hi Hp; [lia|]. assert (l <> []) as Hl by (pose proof (su_formed _ _ (su i)) as F; unfold formed in F; by rewrite Hp in F).
  destruct l as [|p l0] eqn:El; [done|]. rewrite <- El in *. clear Hl. assert (p ∈ asked (run i)) as Ha by (unfold asked; rewrite Hp, El; by left).
  destruct (fa_delete _ _ HF i p Ha) as (j & ok & Hij & Hj). assert (forall k, Decision (asked (run k) <> l)) as Hdec by (intros; apply _).
  destruct (first_such (fun k => asked (run k) <> l) i (S j) ltac:(lia)) as [(k & Hk & Hne & Hbe)|Hno].
  - destruct k as [|k]; [assert (i = 0)%nat as -> by lia; unfold asked in Hne; by rewrite Hp in Hne|]. destruct (decide (i = S k)) as [->|]; [unfold asked in Hne; by rewrite Hp in Hne|].
    assert (asked (run k) = l) as Hk1. { destruct (decide (asked (run k) = l)) as [|H]; [done|]. by destruct (Hbe k ltac:(lia)). }
    assert (exists b', pc (K k) = Deleting l b') as [b' Hpk]. { unfold asked in Hk1. destruct (pc (K k)) as [| |l' b'] eqn:Hpk; [by rewrite <- Hk1 in El..|]. subst l'. eauto. }
    destruct (deleting_step k l b' ltac:(lia) Hpk) as [[HI|(l' & b1 & HD & [->|Hlt])] _]; [exists (S k); split; [lia|done]|by (unfold asked in Hne; rewrite HD in Hne)|].
    destruct (IH (S k) l' b1) as (m & Hm & HI); [lia|lia|done|]. exists m. split; [lia|done].
  - assert (forall k, (i <= k <= S j)%nat -> asked (run k) = l) as Hall. { intros k Hk. destruct (decide (asked (run k) = l)) as [|H]; [done|]. by destruct (Hno k Hk). }
    pose proof (Hall j ltac:(lia)) as Hk1. assert (exists b', pc (K j) = Deleting l b') as [b' Hpk]. { unfold asked in Hk1. destruct (pc (K j)) as [| |l' b'] eqn:Hpk; [by rewrite <- Hk1 in El..|]. subst l'. eauto. }
    destruct (deleting_step j l b' ltac:(lia) Hpk) as [_ H]. exfalso. apply (H p ok Hj); [rewrite El; by left|]. apply Hall. lia.
Qed.
Lemma idle_again i : (n0 <= i)%nat -> exists j, (i <= j)%nat /\ (pc (K j) = Idle \/ goal j).
Proof.
  intros Hi. destruct (pc (K i)) as [|rest bt n bad td|l b] eqn:Hp; [exists i; split; [lia|by left]| |].
  - exists i. split; [lia|]. right. right. pose proof (su_formed _ _ (su i)) as F. unfold formed in F. unfold outstanding. rewrite Hp in *. lia.
  - destruct (deletions_end (S (length l)) i l b) as (j & Hj & HI); [lia|done|done|]. exists j. split; [done|by left].
Qed.

(** * The key is taken from the queue *)
Definition effective (j : nat) : Prop := match ev j with DGet x order => d_dirty (run j) && negb (d_busy (run j)) && lists order (pending (inf (K j))) = true | _ => False end.
Global Instance effective_dec j : Decision (effective j).
Proof. unfold effective. destruct (ev j); apply _. Defined.
Lemma dirty_step k : (n0 <= k)%nat -> d_dirty (run k) = true -> ~ effective k -> d_dirty (run (S k)) = true.
Proof.
  intros Hk Hd He. destruct (next k) as [o Ho]. unfold effective in He. destruct (ev k) as [v| |n r'|n| |v|e|x order| |x] eqn:Hev; cbn [dstep] in Ho; try (by injection Ho as <- <-).
  - destruct (d_wire (run k) !! n) as [[? ?]|]; [|by injection Ho as <- <-]. destruct r'; injection Ho as <- <-; try done; unfold patch_replicas; by destruct (_ =? _).
  - destruct (pod_event e); [unfold in_kube in Ho; destruct (step _ e)|]; injection Ho as <- <-; cbn [d_dirty]; [by rewrite Hd|done].
  - destruct (_ && _); [done|]. by injection Ho as <- <-.
  - destruct (d_timer (run k)); by injection Ho as <- <-.
  - by destruct (proj1 (HS k Hk) x).
Qed.
Lemma taken i : (n0 <= i)%nat -> d_dirty (run i) = true -> exists j, (i <= j)%nat /\ effective j.
Proof.
  intros Hi Hd. destruct (fa_get _ _ HF i Hd) as (j & x & order & Hij & Hj & Hb & Hl). destruct (first_such effective i j Hij) as [(k & Hk & He & _)|Hno]; [exists k; split; [lia|done]|].
  assert (forall k, (i <= k)%nat -> (k <= j)%nat -> d_dirty (run k) = true) as Hall. { intros k Hk. induction Hk as [|k Hk IH]; intros Hkj; [done|]. apply dirty_step; [lia|apply IH; lia|apply Hno; lia]. }
  exists j. split; [done|]. unfold effective. rewrite Hj, (Hall j), Hb, Hl by lia. done.
Qed.
Lemma effective_goal k : (n0 <= k)%nat -> replicas (run k) = r -> effective k -> fulfilled (inf (K k)) = true -> goal k \/ goal (S k).
Proof.
  intros Hk Hr He Hf. destruct (next k) as [o Ho]. unfold effective in He. destruct (ev k) as [| | | | | | |x order| |] eqn:Hev; try done. cbn [dstep] in Ho. rewrite He in Ho. apply andb_true_iff in He as [[_ Hb]%andb_true_iff Hl].
  assert (pc (K k) = Idle) as Hp. { destruct (pc (K k)) eqn:Hp; [done|..]; by (assert (d_busy (run k) = true) as E by (apply busy_pc; by rewrite Hp); rewrite E in Hb). }
  unfold in_kube in Ho. cbn [step] in Ho. rewrite Hp, Hl in Ho. unfold reconcile, should_trigger in Ho. rewrite Hf in Ho. cbn [orb negb] in Ho. destruct (0 <? _) eqn:Hd.
  - right. right. injection Ho as Ho _. rewrite <- Ho. unfold outstanding. cbn [d_kube pc]. lia.
  - left. left. apply Z.ltb_ge in Hd. unfold counted_on, workers. lia.
Qed.
Lemma attended i : (n0 <= i)%nat -> exists j, (i <= j)%nat /\ goal j.
Proof.
  intros Hi. destruct asks as (i0 & Hi0 & Hr). destruct (idle_again (i `max` i0)) as (i1 & Hi1 & [Hp|Hg]); [lia| |exists i1; split; [lia|done]].
  destruct (all_fine (elements (dom (srv (K i1)))) i1) as (j1 & Hj1 & H1); [lia|intros p Hp'%elem_of_elements; by apply (or_srv _ (ord i1))|].
  destruct (all_buried (elements (Es i1)) i1) as (j2 & Hj2 & H2); [lia|intros p Hp'%elem_of_elements; done|].
  set (j := (j1 `max` j2)%nat).
  assert (forall k, (i1 <= k)%nat -> replicas (run k) = r) as Hr' by (intros; apply Hr; lia).
  assert (forall k, (j <= k)%nat -> (exists g, (i <= g)%nat /\ goal g) \/ (fulfilled (inf (K k)) = true /\ pc (K k) = Idle)) as Hq.
  { intros k Hk. destruct (first_such goal i1 k ltac:(lia)) as [(g & Hg & HG & _)|Hno]; [left; exists g; split; [lia|done]|]. right.
    destruct (idle_until i1 k ltac:(lia) Hr' Hp Hno) as (I1 & I2 & I3 & _). split; [|done]. pose proof (su k) as [C1 C2 _ _]. unfold fulfilled. apply andb_true_iff. split; apply Z.leb_le.
    - unfold outstanding in C1. rewrite I1 in C1. assert (dom (srv (K k)) ∖ all_pods (inf (K k)) = ∅) as E; [|rewrite E, size_empty in C1; lia].
      apply elem_of_equiv_empty_L. intros p [Hp1 Hp2]%elem_of_difference. apply Hp2. assert (fine k p) as [_ Hf]; [|by apply Hf]. apply (fine_mono j1); [lia|]. apply H1. apply elem_of_elements. by apply I3.
    - unfold todo, todel in C2. rewrite I1, I2 in C2. cbn [list_to_set] in C2. rewrite union_empty_r_L in C2. assert (Es i1 ∩ all_pods (inf (K k)) = ∅) as E; [|rewrite E, size_empty in C2; lia].
      apply elem_of_equiv_empty_L. intros p [Hp1 Hp2]%elem_of_intersection. assert (dead (K k) p) as (_ & _ & Hc & _). { apply (dead_mono j2); [lia|]. apply H2. by apply elem_of_elements. } by apply Hc, (sy_known _ (syn k)). }
  assert (forall k, (j <= k)%nat -> (exists g, (i <= g)%nat /\ goal g) \/ d_dirty (run k) = true \/ d_timer (run k) = true) as Ho.
  { intros k Hk. destruct (Hq k Hk) as [|[Hf Hpk]]; [by left|]. destruct (reached k) as [h Hx]. pose proof (inv_reach _ _ _ Hx) as Hinv. destruct (i_owed _ _ Hinv) as [?|[?|(h1 & x & order & o & h2 & E & O1 & O2 & O3 & O4)]]; [right; by left|right; by right|].
    left. exists k. split; [lia|]. left. rewrite (Hr' k) in E by lia. pose proof (i_kube _ _ Hinv) as Hk'. rewrite E in Hk'. unfold fulfilled in Hf. apply andb_true_iff in Hf as [F1%Z.leb_le F2%Z.leb_le].
    by destruct (none_owed _ _ _ _ _ _ _ Hk' (conj O1 (conj O2 (conj O3 (conj O4 Hpk)))) F1 F2). }
  assert ((exists g, (i <= g)%nat /\ goal g) \/ exists k, (j <= k)%nat /\ d_dirty (run k) = true) as [|(k & Hk & Hd)]; [|done|].
  { destruct (Ho j (le_n _)) as [|[Hd|Ht]]; [by left|right; by exists j|]. destruct (fa_timer _ _ HF j Ht) as (m & Hm & He). destruct (Ho m Hm) as [|[Hd|Ht']]; [by left|right; by exists m|].
    right. exists (S m). split; [lia|]. destruct (next m) as [o Hs]. rewrite He in Hs. cbn [dstep] in Hs. rewrite Ht' in Hs. by injection Hs as <- <-. }
  destruct (taken k ltac:(lia) Hd) as (m & Hm & He). destruct (Hq m ltac:(lia)) as [|[Hf _]]; [done|]. destruct (effective_goal m ltac:(lia) (Hr' m ltac:(lia)) He Hf); [exists m|exists (S m)]; (split; [lia|done]).
Qed.
(** * When pods are made and stay *)
Context (HM : smooth run ev n0).
Lemma in_live s p : p ∈ live s <-> exists st, srv s !! p = Some (st, false).
Proof.
  unfold live. rewrite elem_of_dom. split.
  - intros [[st d] [H1 H2]%map_filter_lookup_Some]. cbn in H2. subst d. eauto.
  - intros [st H]. exists (st, false). by apply map_filter_lookup_Some.
Qed.
Definition enough (k : nat) : Prop := r <= counted_on (run k).
Global Instance enough_dec k : Decision (enough k).
Proof. unfold enough. apply _. Defined.
Definition marked (k : nat) : gset pod := Es k ∪ todo (K k).
Lemma todo_answered s ok s' o : answered s ok = (s', o) -> todo s' ⊆ todo s.
Proof.
  unfold answered. destruct (pc s) as [|rest b [|[|n]] bad td|] eqn:Hp; try (intros [= <- <-]; unfold todo, todel; cbn [pc]; rewrite ?Hp; set_solver); try (intros [= <- <-]; reflexivity).
  assert (forall i c s1 o1, start_deletes s i td c = (s1, o1) -> todo s1 ⊆ todo s) as D. { intros i c s1 o1. unfold start_deletes. destruct td; intros [= <- <-]; unfold todo, todel; cbn [pc]; [set_solver|by rewrite Hp]. }
  destruct (bad || negb ok); [apply D|]. destruct rest; [apply D|]. intros [= <- <-]. unfold todo, todel. cbn [pc]. rewrite Hp. set_solver.
Qed.
Lemma marked_step k : (n0 <= k)%nat -> replicas (run k) = r -> ~ enough k -> marked (S k) ⊆ marked k ∪ (succeeded (inf (K k)) ∪ failed (inf (K k))).
Proof.
  intros Hk Hr Hn. unfold marked. assert (Es (S k) ⊆ Es k ∪ todo (K k)) as HEs.
  { cbn [Es]. destruct (ev k) as [| | | | | |e| | |]; try set_solver. unfold grants, todo, todel. destruct e as [| | | | | | |q []]; try set_solver. destruct (pc (K k)) as [| |l b]; try set_solver. destruct (decide (q ∈ l)); [|set_solver]. set_solver. }
  assert (todo (K (S k)) ⊆ todo (K k) ∪ (succeeded (inf (K k)) ∪ failed (inf (K k)))) as Ht; [|set_solver].
  assert (pc (K (S k)) = pc (K k) -> todo (K (S k)) ⊆ todo (K k) ∪ (succeeded (inf (K k)) ∪ failed (inf (K k)))) as Same by (intros E; unfold todo, todel; rewrite E; set_solver).
  destruct (kstep' k Hk) as [E|(e & o & Ho & Hre & Hki)]; [apply Same; by rewrite E|]. inversion Hki as [|e' E1 E2|x order E1 E2 E3 E4|? E1]; subst.
  - destruct e as [q st|q|a b|a b|a b|? x order|cr|q ok]; try done; cbn [step] in Ho.
    + apply Same. destruct (srv (K k) !! q) as [[st0 d]|]; [destruct (d && alive st)|]; by injection Ho as <- <-.
    + apply Same. destruct (srv (K k) !! q); by injection Ho as <- <-.
    + apply Same. destruct (wq (K k)); [by injection Ho as <- <-|]. destruct (call _ _ _ _) as [[? ?] ?]. by injection Ho as <- <-.
    + apply Same. by apply relist_frame in Ho as (_ & _ & F & _).
    + destruct (pc (K k)) as [|? ? [|n] ? ?|] eqn:Hp; try (apply Same; injection Ho as <- <-; first [by rewrite Hp|done]).
      assert (forall t ok s1 o1, todo t = todo (K k) -> answered t ok = (s1, o1) -> todo s1 ⊆ todo (K k) ∪ (succeeded (inf (K k)) ∪ failed (inf (K k)))) as A. { intros t ok s1 o1 E Ha. apply todo_answered in Ha. rewrite E in Ha. set_solver. }
      destruct cr as [q| |q]; [destruct (decide _); [apply Same; injection Ho as <- <-; by rewrite Hp|]; by eapply (A (created (K k) q))|by eapply A|destruct (decide _); [apply Same; injection Ho as <- <-; by rewrite Hp|]; by eapply (A (created (K k) q))].
    + unfold answered_delete in Ho. destruct (pc (K k)) as [| |l b] eqn:Hp; try (apply Same; injection Ho as <- <-; first [by rewrite Hp|done]). destruct (decide (q ∈ l)); [|apply Same; injection Ho as <- <-; by rewrite Hp].
      assert (list_to_set (List.filter (fun q' => negb (bool_decide (q' = q))) l) ⊆@{gset pod} todo (K k)) as Hf.
      { unfold todo, todel. rewrite Hp. intros x. rewrite !elem_of_list_to_set, !elem_of_list_In. by intros [? _]%filter_In. }
      destruct (List.filter _ l) as [|a l'] eqn:Ef; injection Ho as Ho _; unfold todo at 1, todel at 1; rewrite <- Ho; cbn [pc]; set_solver.
  - cbn [step] in Ho. rewrite E3, E4 in Ho. unfold reconcile in Ho. destruct (negb _); [apply Same; by injection Ho as <- <-|]. destruct (0 <? _) eqn:Hd.
    + injection Ho as Ho _. unfold todo at 1, todel at 1. rewrite <- Ho. cbn [pc]. rewrite list_to_set_elements_L. set_solver.
    + exfalso. apply Hn. apply Z.ltb_ge in Hd. unfold enough, counted_on, workers. lia.
  - by apply (proj1 (HS k Hk)) in E1.
Qed.
Lemma used_marked k : marked k ⊆ used (K k).
Proof. apply (su_used _ _ (su k)). Qed.
Lemma not_live k p : p ∈ succeeded (inf (K k)) ∪ failed (inf (K k)) -> p ∈ used (K k) /\ p ∉ live (K k).
Proof.
  intros Hp. split; [apply elem_of_union in Hp as [Hp|Hp]; [by eapply (en_used _ (enc k) p KSucceeded)|by eapply (en_used _ (enc k) p KFailed)]|].
  intros [st Hst]%in_live. destruct (en_info _ (enc k) p Hp) as [_ H]. by specialize (H _ _ Hst).
Qed.
(** Of the pods outside [D] none is marked while it lives. *)
Definition clear (D : gset pod) (k : nat) : Prop := D ⊆ used (K k) /\ forall p, p ∈ marked k -> p ∈ D \/ p ∉ live (K k).
Lemma dead_stays k p : (n0 <= k)%nat -> p ∈ used (K k) -> p ∉ live (K k) -> p ∉ live (K (S k)).
Proof. intros Hk Hu Hl. destruct (kstep' k Hk) as [->|(e & o & Ho & _)]; [done|]. intros H. by apply Hl, (srv_step _ _ _ _ _ Ho Hu). Qed.
Lemma clear_step D k : (n0 <= k)%nat -> replicas (run k) = r -> ~ enough k -> clear D k -> clear D (S k).
Proof.
  intros Hk Hr Hn [C1 C2]. split; [intros p Hp; apply (used_mono k); [lia|by apply C1]|]. intros p Hp%(marked_step k Hk Hr Hn). apply elem_of_union in Hp as [Hp|Hp].
  - destruct (C2 p Hp) as [|Hl]; [by left|right]. apply dead_stays; [done|by apply used_marked|done].
  - destruct (not_live k p Hp) as [Hu Hl]. right. by apply dead_stays.
Qed.
Lemma live_step D k : (n0 <= k)%nat -> clear D k -> live (K k) ∖ D ⊆ live (K (S k)) ∖ D.
Proof.
  intros Hk [_ C2] p [Hp HD]%elem_of_difference. apply elem_of_difference. split; [|done]. destruct (kstep' k Hk) as [->|(e & o & Ho & Hre & Hki)]; [done|].
  assert (srv (K (S k)) = srv (K k) -> p ∈ live (K (S k))) as Same by (intros E; unfold live; by rewrite E). apply in_live in Hp as [st Hst].
  destruct e as [q st'|q|a b|a b|a b|? x order|cr|q ok].
  - cbn [step] in Ho. assert (ev k = DPod (EStatus q st')) as E1 by (by inversion Hki). destruct (srv (K k) !! q) as [[st0 d]|] eqn:Hq; [|apply Same; by injection Ho as <- <-]. destruct (d && alive st'); [apply Same; by injection Ho as <- <-|].
    injection Ho as Ho _. apply in_live. rewrite <- Ho. cbn [srv]. destruct (decide (q = p)) as [->|Hne]; [|rewrite lookup_insert_ne by done; eauto]. rewrite lookup_insert. rewrite Hst in Hq. injection Hq as <- <-. exists st'. cbn [orb].
    destruct (ended st') eqn:He; [|done]. exfalso. unfold ended in He. destruct (recognise st') as [m|] eqn:Hm; [|done]. apply recognise_says in Hm. destruct (proj1 (proj2 (HM k Hk)) _ _ _ E1 Hm); by subst m.
  - cbn [step] in Ho. assert (ev k = DPod (EGone q)) as E1 by (by inversion Hki). destruct (srv (K k) !! q) as [y|] eqn:Hq; [|apply Same; by injection Ho as <- <-]. injection Ho as Ho _. destruct (decide (q = p)) as [->|Hne].
    + exfalso. assert (exists_ (run k) p) as Hex by (apply elem_of_dom; eauto). pose proof (proj2 (proj2 (HM k Hk)) _ E1 Hex) as Hg. apply Es_granted in Hg. destruct (C2 p) as [|Hl]; [unfold marked; set_solver|done|]. apply Hl, in_live. eauto.
    + apply in_live. rewrite <- Ho. cbn [srv]. rewrite lookup_delete_ne by done. eauto.
  - apply Same. cbn [step] in Ho. destruct (wq (K k)); [by injection Ho as <- <-|]. destruct (call _ _ _ _) as [[? ?] ?]. by injection Ho as <- <-.
  - apply Same. cbn [step] in Ho. by apply relist_frame in Ho as (F & _).
  - by destruct (Hre a b).
  - apply Same. by pose proof (frames (K k) (EReconcile replicas x order) _ o Ho I) as (E & _).
  - assert (forall q ok, q ∉ used (K k) -> answered (created (K k) q) ok = (K (S k), o) -> p ∈ live (K (S k))) as C.
    { intros q ok Hq Ha. apply answered_frames in Ha as (E & _). apply in_live. rewrite E. cbn [created srv]. rewrite lookup_insert_ne; [eauto|]. intros ->. apply Hq, (or_srv _ (ord k)). apply elem_of_dom. eauto. }
    destruct cr as [q| |q].
    2:{ apply Same. by pose proof (frames (K k) (ECreate Refused) _ o Ho I) as (E & _). }
    all: cbn [step] in Ho; destruct (pc (K k)) as [|? ? [|n] ? ?|]; try (apply Same; injection Ho as <- <-; first [by rewrite Hp|done]); destruct (decide _); [apply Same; injection Ho as <- <-; done|by eapply C].
  - apply Same. by pose proof (frames (K k) (EDelete q ok) _ o Ho I) as (E & _).
Qed.
Lemma clear_until D i j : (n0 <= i <= j)%nat -> (forall k, (i <= k)%nat -> replicas (run k) = r) -> (forall k, (i <= k <= j)%nat -> ~ enough k) -> clear D i -> clear D j /\ live (K i) ∖ D ⊆ live (K j) ∖ D.
Proof.
  intros [Hi Hij] Hr Hn HC. induction Hij as [|j Hij IH]; [done|]. destruct IH as [I1 I2]; [intros k ?; apply Hn; lia|]. split; [apply clear_step; [lia|apply Hr; lia|apply Hn; lia|done]|]. etrans; [exact I2|]. apply live_step; [lia|done].
Qed.
(** A create request is answered with a pod. *)
Definition makes (k : nat) : Prop := match ev k with DPod (ECreate (Made p)) => p ∉ used (K k) | _ => False end.
Global Instance makes_dec k : Decision (makes k).
Proof. unfold makes. destruct (ev k) as [| | | | | |[| | | | | |[]|]| | |]; apply _. Defined.
Lemma creating_step k : (n0 <= k)%nat -> (0 < outstanding (K k))%nat -> ~ makes k -> (0 < outstanding (K (S k)))%nat.
Proof.
  intros Hk Hp Hm. assert (pc (K (S k)) = pc (K k) -> (0 < outstanding (K (S k)))%nat) as Same by (intros E; unfold outstanding in *; by rewrite E).
  destruct (kstep' k Hk) as [E|(e & o & Ho & Hre & Hki)]; [apply Same; by rewrite E|]. inversion Hki as [|e' E1 E2|x order E1 E2 E3 E4|? E1]; subst.
  - apply Same. destruct e as [q st|q|a b|a b|a b|? x order|cr|q ok]; try done; cbn [step] in Ho.
    + destruct (srv (K k) !! q) as [[st0 d]|]; [destruct (d && alive st)|]; by injection Ho as <- <-.
    + destruct (srv (K k) !! q); by injection Ho as <- <-.
    + destruct (wq (K k)); [by injection Ho as <- <-|]. destruct (call _ _ _ _) as [[? ?] ?]. by injection Ho as <- <-.
    + by apply relist_frame in Ho as (_ & _ & F & _).
    + destruct (proj1 (HM k Hk) _ E1) as [p ->]. unfold makes in Hm. rewrite E1 in Hm. destruct (pc (K k)) as [|? ? [|n] ? ?|] eqn:Hpc; try (by injection Ho as <- <-). rewrite decide_True in Ho by (destruct (decide (p ∈ used (K k))); [done|by destruct Hm]). by injection Ho as <- <-.
    + unfold answered_delete in Ho. unfold outstanding in Hp. destruct (pc (K k)) eqn:Hpc; [lia| |lia]. by injection Ho as <- <-.
  - unfold outstanding in Hp. rewrite E3 in Hp. lia.
  - by apply (proj1 (HS k Hk)) in E1.
Qed.
Lemma made k : (n0 <= k)%nat -> (0 < outstanding (K k))%nat -> exists j p, (k <= j)%nat /\ p ∉ used (K j) /\ p ∈ live (K (S j)).
Proof.
  intros Hk Ho. destruct (fa_create _ _ HF k Ho) as (j & cr & Hkj & Hj & Hfr).
  assert (exists m, (k <= m)%nat /\ makes m /\ (0 < outstanding (K m))%nat) as (m & Hm & Hmk & Hmo).
  { destruct (first_such makes k j Hkj) as [(m & Hm & Hmk & Hbe)|Hno].
    - exists m. split; [lia|]. split; [done|]. assert (forall l, (k <= l)%nat -> (l <= m)%nat -> (0 < outstanding (K l))%nat) as H; [|apply H; lia]. intros l Hl. induction Hl as [|l Hl IH]; intros Hlm; [done|]. apply creating_step; [lia|apply IH; lia|apply Hbe; lia].
    - exfalso. apply (Hno j ltac:(lia)). destruct (proj1 (HM j ltac:(lia)) _ Hj) as [p ->]. unfold makes. rewrite Hj. apply Hfr. by left. }
  unfold makes in Hmk. destruct (ev m) as [| | | | | |[| | | | | |[p| |]|]| | |] eqn:Hev; try done. exists m, p. split; [done|]. split; [done|].
  destruct (pod_step _ _ Hev eq_refl) as [o Hs]. cbn [step] in Hs. pose proof (su_formed _ _ (su m)) as F. unfold formed, outstanding in *. destruct (pc (K m)) as [|rest b [|n] bad td|] eqn:Hpc; try lia. rewrite decide_False in Hs by done.
  apply answered_frames in Hs as (E & _). apply in_live. rewrite E. cbn [created srv]. rewrite lookup_insert. eauto.
Qed.
Lemma enough_live D k : (n0 <= k)%nat -> (forall j, (k <= j)%nat -> replicas (run j) = r) -> clear D k -> r <= Z.of_nat (size (live (K k) ∖ D)) -> exists j, (k <= j)%nat /\ enough j.
Proof.
  intros Hk Hr HC Hs. destruct (all_fine (elements (live (K k) ∖ D)) k Hk) as (j & Hj & Hf).
  { intros p [Hp _]%elem_of_elements%elem_of_difference. apply (or_srv _ (ord k)). apply in_live in Hp as [st Hst]. apply elem_of_dom. eauto. }
  destruct (first_such enough k j Hj) as [(m & Hm & He & _)|Hno]; [exists m; split; [lia|done]|]. destruct (clear_until D k j ltac:(lia) Hr Hno HC) as [_ Hsub]. exists j. split; [done|]. unfold enough, counted_on.
  etrans; [exact Hs|]. apply size_le. intros p Hp. pose proof (Hsub p Hp) as [Hl _]%elem_of_difference. pose proof (Hf p (proj2 (elem_of_elements _ _) Hp)) as [_ Hfp]. pose proof Hl as [st Hst]%in_live.
  assert (p ∈ all_pods (inf (K j))) as Hall. { apply Hfp. apply elem_of_dom. eauto. } destruct (par j) as [f [H1 H2]]. apply H2 in Hall as Hkn.
  destruct (f p) as [m|] eqn:Hfpm; [|by destruct Hkn]. apply H1 in Hfpm. unfold workers. destruct m; cbn [pods_of] in Hfpm; [set_solver|set_solver|exfalso..]; by apply (not_live j p); [set_solver|].
Qed.
Lemma filled D : forall n k, (n0 <= k)%nat -> (forall j, (k <= j)%nat -> replicas (run j) = r) -> clear D k -> r <= Z.of_nat (size (live (K k) ∖ D)) + Z.of_nat n -> exists j, (k <= j)%nat /\ enough j.
Proof.
  induction n as [|n IH]; intros k Hk Hr HC Hs; [eapply enough_live; eauto; lia|]. destruct (attended k Hk) as (g & Hg & [He|Ho]); [by exists g|].
  destruct (made g ltac:(lia) Ho) as (j & p & Hj & Hu & Hl). destruct (first_such enough k (S j) ltac:(lia)) as [(m & Hm & He & _)|Hno]; [exists m; split; [lia|done]|].
  destruct (clear_until D k j ltac:(lia) Hr ltac:(intros; apply Hno; lia) HC) as [HCj Hsub]. assert (clear D (S j)) as HCS by (apply clear_step; [lia|apply Hr; lia|apply Hno; lia|done]). pose proof (live_step D j ltac:(lia) HCj) as Hsub2.
  destruct (IH (S j)) as (m & Hm & He); [lia|intros; apply Hr; lia|done| |exists m; split; [lia|done]].
  assert (p ∉ D) as HpD by (intros H; by apply Hu, (proj1 HCj)). assert (p ∉ live (K k) ∖ D) as Hpk.
  { intros [H _]%Hsub%elem_of_difference. apply Hu, (or_srv _ (ord j)). apply in_live in H as [st Hst]. apply elem_of_dom. eauto. }
  pose proof (size_le ({[p]} ∪ live (K k) ∖ D) (live (K (S j)) ∖ D) ltac:(set_solver)) as Hle. rewrite size_union, size_singleton in Hle by set_solver. lia.
Qed.
Lemma enough_again i : (n0 <= i)%nat -> exists j, (i <= j)%nat /\ enough j.
Proof.
  intros Hi. destruct asks as (i0 & Hi0 & Hr). destruct (filled (marked (i `max` i0)) (Z.to_nat r) (i `max` i0)%nat) as (j & Hj & He); [lia|intros; apply Hr; lia| |lia|exists j; split; [lia|done]].
  split; [apply used_marked|]. intros p Hp. by left.
Qed.
End run.
