(** Proofs for C116 and C117. *)
From Coq Require Import ZArith Lia.
From stdpp Require Import prelude gmap.
From Verif Require Import Trace Router_Model Gateway_Model Gateway_Spec Gateway_Spec3 Adapt_Model Report_Model Fleet_Model Fleet_Spec Ask_Model Ask_Spec.
Open Scope Z_scope.

(** * The fleet's part *)
Lemma fpart_app h1 h2 : fleet_part (h1 ++ h2) = fleet_part h1 ++ fleet_part h2.
Proof. unfold fleet_part. by rewrite map_app, concat_app. Qed.
Lemma in_fleet_eq kc e s : in_fleet kc e s = (Sys (fst (fstep (k_fleet kc) (y_fleet s) e)) (y_adapt s) (y_calls s) (y_wire s) (y_serial s), [(e, snd (fstep (k_fleet kc) (y_fleet s) e))]).
Proof. unfold in_fleet. by destruct (fstep _ _ _). Qed.
Lemma in_fleet_run kc e s s' fl : in_fleet kc e s = (s', fl) -> fleads (k_fleet kc) (y_fleet s) fl (y_fleet s').
Proof. rewrite in_fleet_eq. intros [= <- <-]. cbn. econstructor; [|constructor]. by destruct (fstep _ _ _). Qed.
Lemma serve_run kc n e s s' o : serve kc n e s = (s', o) -> fleads (k_fleet kc) (y_fleet s) (o_fleet o) (y_fleet s').
Proof.
  unfold serve. destruct (Adapt_Model.step _ _ _) as [a' ao]. destruct (_ =? _); [intros [= <- <-]; constructor|].
  destruct (in_fleet _ _ _) as [s2 fl] eqn:E. intros [= <- <-]. by apply in_fleet_run in E.
Qed.
Lemma step_run kc s e s' o : kstep kc s e = (s', o) -> fleads (k_fleet kc) (y_fleet s) (o_fleet o) (y_fleet s').
Proof.
  destruct e as [e|n a|i|i|r ok|r|n|n x sl|n]; cbn [kstep]; try apply serve_run.
  - destruct (fleet_event e); [|intros [= <- <-]; constructor]. destruct (in_fleet _ _ _) as [s1 fl] eqn:E. apply in_fleet_run in E. intros [= <- <-]. by destruct (restarts e).
  - destruct (lookup_cluster _ _) as [c|]; [|intros [= <- <-]; constructor]. destruct (_ && _); intros [= <- <-]; constructor.
  - destruct (y_wire s !! i) as [p|]; [|intros [= <- <-]; constructor]. unfold comm. destruct (p_ask p); try (intros H; apply serve_run in H; done).
    destruct (serve _ _ _ _) as [s1 o1] eqn:E. apply serve_run in E. intros [= <- <-]. done.
  - intros [= <- <-]. constructor.
  - destruct (y_calls s !! r) as [c|]; [|intros [= <- <-]; constructor]. destruct (k_stage c), ok; try (intros [= <- <-]; constructor).
    all: destruct (decide _); [intros [= <- <-]; constructor|]; destruct (in_fleet _ _ _) as [s1 fl] eqn:E; apply in_fleet_run in E; intros [= <- <-]; done.
  - destruct (y_calls s !! r) as [c|]; [|intros [= <- <-]; constructor]. destruct (k_stage c); intros [= <- <-]; constructor.
Qed.
Lemma leads_fleet kc s h s' : kleads kc s h s' -> fleads (k_fleet kc) (y_fleet s) (fleet_part h) (y_fleet s').
Proof.
  intros Hx. induction Hx as [|s e o s1 h s2 Hs Hx IH]; [constructor|]. unfold fleet_part. cbn [map concat snd]. apply exec_app. exists (y_fleet s1). split; [|done]. by apply step_run in Hs.
Qed.

(** * The two counts *)
Definition Cnt (s : sys) : Prop := forall n, Adapt_Model.count (adapter s n) = size_wanted s n.
Definition Aok (a : Adapt_Model.state) : Prop := (ad a = AOff -> waiting a = []) /\ (ad a = AEnding -> waiting a <> []).
Lemma Aok_step w a e a' o : Adapt_Model.step w a e = (a', o) -> Aok a -> Aok a'.
Proof.
  intros Hs [H1 H2]. destruct e as [mn mx|r|r k| |x sl|]; cbn [Adapt_Model.step] in Hs; unfold off, ended, turn in Hs; destruct (ad a) eqn:Ea; try destruct x; injection Hs as <- <-; unfold Aok; cbn; rewrite ?Ea; split; try done; auto.
  all: try (intros _ E; by apply app_eq_nil in E as [_ ?]). all: destruct (_ && _); done.
Qed.
Lemma sch_set n m x s : sch (set_sch n x s) m = if decide (n = m) then x else sch s m.
Proof. unfold sch, set_sch. cbn. case_decide as E; [subst; by rewrite lookup_insert|by rewrite lookup_insert_ne]. Qed.
Lemma rep_count r e r' o : (forall k, e <> Report_Model.EScale k) -> Report_Model.step r e = (r', o) -> Report_Model.count r' = Report_Model.count r.
Proof.
  intros He. unfold Report_Model.step. destruct (possible r e); cbn [negb]; [|intros [= <- <-]; done].
  destruct e; try (intros [= <- <-]; done).
  - destruct (Report_Model.workers r !! a); intros [= <- <-]; done.
  - by destruct (He n).
  - destruct (hb r); intros [= <- <-]; done.
  - destruct (hb r) as [|c|]; [intros [= <- <-]; done| |intros [= <- <-]; done]. destruct ok; [destruct c|]; intros [= <- <-]; done.
  - destruct (hb r) as [| |c]; [intros [= <- <-]; done..|]. destruct ok; intros [= <- <-]; done.
Qed.
Lemma fleet_count fc s e s' o : fleet_event e = true -> fstep fc s e = (s', o) -> forall n, Report_Model.count (s_rep (sch s' n)) = Report_Model.count (s_rep (sch s n)).
Proof.
  intros He Hs n. destruct e as [e|m e|m ch|m i now|m i|m ok]; cbn [fstep] in Hs.
  - destruct (own_event e); [|by injection Hs as <- <-]. destruct (Gateway_Model.step _ _ _). by injection Hs as <- <-.
  - destruct (sched_event s e); [|by injection Hs as <- <-]. destruct (Report_Model.step _ _) as [r ro] eqn:E. injection Hs as <- <-. rewrite sch_set. case_decide; [subst|done].
    eapply rep_count; [|exact E]. intros k ->. done.
  - destruct (decide _); [|by injection Hs as <- <-]. destruct (Report_Model.step _ _) as [r ro] eqn:E. apply rep_count in E; [|done].
    destruct ro; injection Hs as <- <-; rewrite sch_set; case_decide; subst; done.
  - destruct (s_wire _ !! i) as [[k m']|]; [|by injection Hs as <- <-]. destruct (Gateway_Model.step _ _ _). injection Hs as <- <-. rewrite sch_set. case_decide; subst; done.
  - injection Hs as <- <-. rewrite sch_set. case_decide; subst; done.
  - destruct (decide _); [|by injection Hs as <- <-]. destruct (Report_Model.step _ _) as [r ro] eqn:E. apply rep_count in E; [|done]. injection Hs as <- <-. rewrite sch_set. case_decide; subst; done.
Qed.
Lemma fleet_scale fc s n k n' : Report_Model.count (s_rep (sch (fst (fstep fc s (FSched n (Report_Model.EScale k)))) n')) = if decide (n = n') then k else Report_Model.count (s_rep (sch s n')).
Proof. cbn. rewrite sch_set. by case_decide. Qed.
Definition Base (s : sys) : Prop := Cnt s /\ forall n, Aok (adapter s n).
(** What a step of a service does. *)
Lemma serve_does kc n e s s' o a' ao : Adapt_Model.step (k_window kc) (adapter s n) e = (a', ao) -> serve kc n e s = (s', o) ->
  y_wire s' = y_wire s /\ y_serial s' = y_serial s /\ y_adapt s' = <[n := a']> (y_adapt s) /\
  y_calls s' = map (reply n (match ao with Adapt_Model.OAnswer l => l | _ => [] end)) (y_calls s) /\
  (forall m, adapter s' m = if decide (n = m) then a' else adapter s m) /\ (Cnt s -> Cnt s').
Proof.
  intros Ha. unfold serve. rewrite Ha. destruct (Z.eqb_spec (Adapt_Model.count a') (Adapt_Model.count (adapter s n))) as [Ec|Ec].
  - intros [= <- <-]. cbn. do 4 (split; [done|]). assert (forall m, adapter (Sys (y_fleet s) (<[n:=a']> (y_adapt s)) (map (reply n match ao with OAnswer l => l | _ => [] end) (y_calls s)) (y_wire s) (y_serial s)) m = (if decide (n = m) then a' else adapter s m)) as H.
    { intros m. unfold adapter. cbn. case_decide as E; [subst; by rewrite lookup_insert|by rewrite lookup_insert_ne]. }
    split; [done|]. intros HC m. rewrite H. unfold size_wanted. cbn. case_decide; [subst; rewrite Ec|]; apply HC.
  - rewrite in_fleet_eq. intros [= <- <-]. cbn [y_wire y_serial y_adapt y_calls]. do 4 (split; [done|]).
    match goal with |- (forall m, adapter ?t m = _) /\ _ => assert (forall m, adapter t m = (if decide (n = m) then a' else adapter s m)) as H end.
    { intros m. unfold adapter. cbn. case_decide as E; [subst; by rewrite lookup_insert|by rewrite lookup_insert_ne]. }
    split; [done|]. intros HC m. rewrite H. unfold size_wanted. cbn [y_fleet]. rewrite sch_set. case_decide; [done|]. apply HC.
Qed.

Lemma Cnt_same s s' : y_fleet s' = y_fleet s -> y_adapt s' = y_adapt s -> Base s -> Base s'.
Proof. intros E1 E2 [H1 H2]. unfold Base, Cnt, adapter, size_wanted in *. by rewrite E1, E2. Qed.
Lemma serve_Base kc n e s s' o : serve kc n e s = (s', o) -> Base s -> Base s'.
Proof.
  intros Hs [H1 H2]. destruct (Adapt_Model.step (k_window kc) (adapter s n) e) as [a' ao] eqn:E. destruct (serve_does kc n e s s' o a' ao E Hs) as (_ & _ & _ & _ & H & HC).
  split; [auto|]. intros m. rewrite H. case_decide; [subst|done]. by apply (Aok_step _ _ _ _ _ E).
Qed.
Lemma in_fleet_Base kc e s s' fl : fleet_event e = true -> in_fleet kc e s = (s', fl) -> Base s -> Base s'.
Proof.
  rewrite in_fleet_eq. intros He [= <- <-] [H1 H2]. split; [|done]. intros n. unfold size_wanted. cbn [y_fleet]. destruct (fstep _ _ _) as [f o] eqn:E. cbn [fst].
  rewrite (fleet_count _ _ _ _ _ He E n). apply H1.
Qed.
Lemma step_Base kc s e s' o : kstep kc s e = (s', o) -> Base s -> Base s'.
Proof.
  destruct e as [e|n a|i|i|r ok|r|n|n x sl|n]; cbn [kstep]; try apply serve_Base.
  - destruct (fleet_event e) eqn:He; [|by intros [= <- <-]]. destruct (in_fleet _ _ _) as [s1 fl] eqn:E. intros [= <- <-] HB. apply (in_fleet_Base _ _ _ _ _ He E) in HB. destruct (restarts e); [|done]. by apply (Cnt_same s1).
  - destruct (lookup_cluster _ _) as [c|]; [|by intros [= <- <-]]. destruct (_ && _); intros [= <- <-]; [|done]. by apply Cnt_same.
  - destruct (y_wire s !! i) as [p|]; [|by intros [= <- <-]]. intros Hc HB. assert (Base (set_wire (delete i (y_wire s)) s)) as HB' by (revert HB; by apply Cnt_same). clear HB. unfold comm in Hc.
    destruct (p_ask p); try (apply serve_Base in Hc; done). destruct (serve _ _ _ _) as [s1 o1] eqn:E. apply serve_Base in E; [|done]. injection Hc as <- <-. revert E. by apply Cnt_same.
  - intros [= <- <-]. by apply Cnt_same.
  - destruct (y_calls s !! r) as [c|]; [|by intros [= <- <-]]. destruct (k_stage c), ok; try (by intros [= <- <-]); try (intros [= <- <-]; by apply Cnt_same).
    all: destruct (decide _); [intros [= <- <-]; by apply Cnt_same|]; destruct (in_fleet _ _ _) as [s1 fl] eqn:E; intros [= <- <-] HB; apply in_fleet_Base in E; [|done..]; revert E; by apply Cnt_same.
  - destruct (y_calls s !! r) as [c|]; [|by intros [= <- <-]]. destruct (k_stage c); intros [= <- <-]; by apply Cnt_same.
Qed.
Lemma init_Base kc : Base (kinit kc).
Proof. split; [|done]. intros n. unfold adapter, size_wanted, sch, finit, kinit. cbn. by rewrite !lookup_empty. Qed.
Lemma leads_Base kc s h s' : kleads kc s h s' -> Base s -> Base s'.
Proof. intros Hx. induction Hx as [|s e o s1 h s2 Hs Hx IH]; [done|]. intros HB. apply IH. by apply (step_Base _ _ _ _ _ Hs). Qed.

(** * One request alone *)
Definition settled (a : ask) (x : Adapt_Model.state) : Prop :=
  match a with
  | KScale k => ad x = AOff /\ Adapt_Model.count x = k
  | KOff => ad x = AOff
  | KAdapt mn mx => (ad x = ASleep \/ ad x = AScaling) /\ minimum x = mn /\ maximum x = mx
  end.
Definition wait_ok (a : ask) (x : Adapt_Model.state) : Prop :=
  Forall (fun y => snd y = match a with KScale k => Some k | _ => None end) (waiting x) /\
  match a with KAdapt _ _ => waiting x = [] | _ => True end.
(** The event that the message [a] causes. *)
Definition ask_event (x : nat) (a : ask) : Adapt_Model.event :=
  match a with KScale k => Adapt_Model.EScale x k | KOff => Adapt_Model.EOff x | KAdapt mn mx => Adapt_Model.EAdapt mn mx end.
Definition inner (e : Adapt_Model.event) : Prop := match e with EEnd | ETick _ _ | EResume => True | _ => False end.
Lemma all_sizes k l c : l <> [] -> Forall (fun y : nat * option Z => snd y = Some k) l -> fold_left set_size (map snd l) c = k.
Proof.
  intros Hn Hf. destruct l as [|y l]; [done|]. apply Forall_cons in Hf as [Hy Hf]. cbn. rewrite Hy. cbn. clear Hn Hy. induction Hf as [|z l Hz Hf IH]; cbn; [done|]. rewrite Hz. exact IH.
Qed.
Lemma settle_ask w x a st st' o : Aok st -> wait_ok a st -> Adapt_Model.step w st (ask_event x a) = (st', o) ->
  wait_ok a st' /\ (settled a st -> settled a st') /\ (forall l, o = OAnswer l -> settled a st') /\ (match a with KAdapt _ _ => settled a st' | _ => True end).
Proof.
  intros [HA1 HA2] [HW1 HW2] Hs. destruct a as [k|mn mx|]; cbn [ask_event Adapt_Model.step] in Hs; unfold off in Hs.
  - destruct (ad st) eqn:Ea; injection Hs as <- <-; unfold wait_ok, settled; cbn; rewrite ?Ea; [done|..].
    all: split; [split; [|done]; apply Forall_app; split; [done|by apply Forall_singleton]|]; split; [by intros [? _]|done].
  - destruct (ad st) eqn:Ea; injection Hs as <- <-; unfold wait_ok, settled; cbn; rewrite ?Ea; [..|exfalso; by apply HA2].
    all: (split; [done|]); (split; [auto|]); (split; [done|]); auto.
  - destruct (ad st) eqn:Ea; injection Hs as <- <-; unfold wait_ok, settled; cbn; rewrite ?Ea; [done|..].
    all: split; [split; [|done]; apply Forall_app; split; [done|by apply Forall_singleton]|]; done.
Qed.
Lemma settle_inner w e a st st' o : inner e -> Aok st -> wait_ok a st -> Adapt_Model.step w st e = (st', o) ->
  wait_ok a st' /\ (settled a st -> settled a st') /\ (forall l, o = OAnswer l -> settled a st').
Proof.
  intros Hi [HA1 HA2] [HW1 HW2] Hs. destruct e as [| | | |x sl|]; try done; cbn [Adapt_Model.step] in Hs.
  - destruct (ad st) eqn:Ea; try (injection Hs as <- <-; done). unfold ended in Hs. injection Hs as <- <-. unfold wait_ok, settled. cbn. rewrite Ea. destruct a as [k|mn mx|]; (split; [done|]).
    + split; [by intros [? ?]|]. intros l _. split; [done|]. by apply all_sizes; [apply HA2|].
    + exfalso. by apply HA2.
    + done.
  - destruct (ad st) eqn:Ea; try (injection Hs as <- <-; done). unfold turn in Hs. destruct x; injection Hs as <- <-; [|done]. unfold wait_ok, settled. cbn. rewrite Ea. split; [done|]. split; [|done].
    destruct a as [k|mn mx|]; [by intros [? ?]| |done]. intros [_ H]. split; [|done]. destruct (_ && _); auto.
  - destruct (ad st) eqn:Ea; try (injection Hs as <- <-; done). injection Hs as <- <-. unfold wait_ok, settled. cbn. rewrite Ea. split; [done|]. split; [|done]. destruct a as [k|mn mx|]; [by intros [? ?]| |done]. intros [_ H]. auto.
Qed.

Definition carried (c : call) : Prop := k_stage c = Handled \/ k_stage c = Over (Some true).
Definition Calls (n : nat) (a : ask) (r : nat) (P : Prop) (l : list call) : Prop :=
  (exists c, l !! r = Some c /\ k_cluster c = n /\ k_ask c = a /\ (carried c -> P)) /\
  (forall r' c', r' <> r -> l !! r' = Some c' -> k_cluster c' = n -> exists b, k_stage c' = Over b).
Definition Wire (n : nat) (a : ask) (l : list post) : Prop := forall p, p ∈ l -> p_cluster p = n -> p_ask p = a.
Definition Own (n : nat) (a : ask) (r : nat) (s : sys) : Prop :=
  Wire n a (y_wire s) /\ wait_ok a (adapter s n) /\ Calls n a r (settled a (adapter s n)) (y_calls s).

Lemma reply_spec n l c : reply n l c = c \/ reply n l c = set_stage Handled c /\ k_stage c = Posted /\ k_cluster c = n /\ l <> [].
Proof.
  unfold reply. case_bool_decide as H; [|by left]. destruct (k_stage c) eqn:E; [|by left..]. right. destruct H as [H1 H2]. split; [done|]. split; [done|]. split; [done|]. intros ->. by apply elem_of_nil in H2.
Qed.
Lemma Calls_reply n a r (P Q : Prop) m l cs : (P -> Q) -> (m = n -> l <> [] -> Q) -> Calls n a r P cs -> Calls n a r Q (map (reply m l) cs).
Proof.
  intros HPQ HQ [(c & Hc & H1 & H2 & H3) Ho]. split.
  - exists (reply m l c). rewrite list_lookup_fmap, Hc. split; [done|]. destruct (reply_spec m l c) as [->|(-> & Hst & Hm & Hl)]; [auto|]. do 2 (split; [done|]). intros _. apply HQ; congruence.
  - intros r' c' Hr Hl Hn. rewrite list_lookup_fmap in Hl. destruct (cs !! r') as [c0|] eqn:E; [|done]. injection Hl as <-. destruct (reply_spec m l c0) as [X|(X & Hst & Hm & _)]; rewrite X in *; [by apply (Ho r')|].
    destruct (Ho r' c0 Hr E Hn) as [b Hb]. congruence.
Qed.
Lemma Calls_impl n a r (P Q : Prop) cs : (P -> Q) -> Calls n a r P cs -> Calls n a r Q cs.
Proof. intros H [(c & H1 & H2 & H3 & H4) Ho]. split; [|done]. exists c. do 3 (split; [done|]). auto. Qed.
Lemma Calls_set n a r (P : Prop) cs r0 c0 c1 : Calls n a r P cs -> cs !! r0 = Some c0 -> k_cluster c1 = k_cluster c0 -> k_ask c1 = k_ask c0 ->
  (forall b, k_stage c0 = Over b -> exists b', k_stage c1 = Over b') -> (carried c1 -> carried c0) -> Calls n a r P (<[r0 := c1]> cs).
Proof.
  intros [(c & H1 & H2 & H3 & H4) Ho] E E1 E2 E3 E4. split.
  - destruct (decide (r0 = r)) as [->|Hr].
    + rewrite E in H1. injection H1 as <-. exists c1. rewrite list_lookup_insert by (by eapply lookup_lt_Some). rewrite E1, E2. do 3 (split; [done|]). auto.
    + exists c. by rewrite list_lookup_insert_ne.
  - intros r' c' Hr Hl Hn. destruct (decide (r0 = r')) as [->|Hr0].
    + rewrite list_lookup_insert in Hl by (by eapply lookup_lt_Some). injection Hl as <-. destruct (Ho r' c0 Hr E) as [b Hb]; [congruence|]. by apply (E3 b).
    + rewrite list_lookup_insert_ne in Hl by done. by apply (Ho r').
Qed.
Lemma serve_own kc n a r m e s s' o : Base s -> Own n a r s -> serve kc m e s = (s', o) -> m <> n \/ inner e \/ (exists x, e = ask_event x a) ->
  Own n a r s' /\ (match a with KAdapt _ _ => m = n -> (exists x, e = ask_event x a) -> settled a (adapter s' n) | _ => True end).
Proof.
  intros [HC HA] (HW & Hwt & HCl) Hs He. destruct (Adapt_Model.step (k_window kc) (adapter s m) e) as [a' ao] eqn:E. destruct (serve_does kc m e s s' o a' ao E Hs) as (W1 & _ & _ & W2 & W3 & _).
  unfold Own. rewrite W1, W2. destruct (decide (m = n)) as [->|Hm].
  - rewrite (W3 n), decide_True by done. destruct He as [He|He]; [done|].
    assert (wait_ok a a' /\ (settled a (adapter s n) -> settled a a') /\ (forall l, ao = OAnswer l -> settled a a') /\ ((exists x, e = ask_event x a) -> match a with KAdapt _ _ => settled a a' | _ => True end)) as (X1 & X2 & X3 & X4).
    { destruct He as [He|[x ->]].
      - destruct (settle_inner _ _ _ _ _ _ He (HA n) Hwt E) as (? & ? & ?). split; [done|]. split; [done|]. split; [done|]. intros [x ->]. by destruct a.
      - destruct (settle_ask _ _ _ _ _ _ (HA n) Hwt E) as (? & ? & ? & ?). done. }
    split; [|destruct a; try done; intros _ Hx; by apply X4]. split; [done|]. split; [done|]. eapply Calls_reply; [exact X2| |exact HCl]. intros _ Hl. destruct ao; try done. by apply (X3 l).
  - rewrite (W3 n), decide_False by done. split; [|by destruct a]. split; [done|]. split; [done|]. eapply Calls_reply; [| |exact HCl]; done.
Qed.
Lemma Own_same n a r s s' : y_wire s' = y_wire s -> y_adapt s' = y_adapt s -> y_calls s' = y_calls s -> Own n a r s -> Own n a r s'.
Proof. unfold Own, adapter. intros -> -> ->. done. Qed.
Lemma Wire_delete n a i l : Wire n a l -> Wire n a (delete i l).
Proof. intros H p Hp. apply H. apply elem_of_list_lookup in Hp as [j Hj]. destruct (decide (j < i)%nat) as [?|?]; [rewrite lookup_delete_lt in Hj by lia|rewrite lookup_delete_ge in Hj by lia]; by eapply elem_of_list_lookup_2. Qed.
Lemma Calls_cut n a r P cs : Calls n a r P cs -> Calls n a r P (map cut cs).
Proof.
  intros [(c & Hc & H1 & H2 & H3) Ho]. split.
  - exists (cut c). rewrite list_lookup_fmap, Hc. split; [done|]. unfold cut. destruct (k_stage c) eqn:E; try (cbn; (do 2 (split; [done|])); intros [?|?]; done). auto.
  - intros r' c' Hr Hl Hn. rewrite list_lookup_fmap in Hl. destruct (cs !! r') as [c0|] eqn:E; [|done]. injection Hl as <-. unfold cut in *. destruct (k_stage c0) eqn:E0; try (cbn; by eexists).
Qed.
Lemma own_step kc n a r s e s' o : Base s -> (forall x, e <> KAsk n x) -> kstep kc s e = (s', o) -> Own n a r s -> Own n a r s'.
Proof.
  intros HB Hne Hs HO. destruct e as [e|m x|i|i|r0 ok|r0|m|m x sl|m]; cbn [kstep] in Hs.
  7-9: (destruct (serve_own _ _ _ _ _ _ _ _ _ HB HO Hs) as [H _]; [by right; left|exact H]).
  - destruct (fleet_event e) eqn:He; [|by injection Hs as <- <-]. rewrite in_fleet_eq in Hs. injection Hs as <- <-. destruct (restarts e); [|revert HO; by apply Own_same]. destruct HO as (H1 & H2 & H3). split; [done|]. split; [done|]. by apply Calls_cut.
  - destruct (lookup_cluster _ _) as [c|]; [|by injection Hs as <- <-]. destruct (_ && _); injection Hs as <- <-; [|done].
    assert (m <> n) as Hm by (intros ->; by apply (Hne x)). destruct HO as (H1 & H2 & H3). unfold send, set_calls. cbn. split; [|split; [done|]].
    + intros p Hp Hn. apply elem_of_app in Hp as [Hp|Hp]; [by apply H1|]. apply elem_of_list_singleton in Hp as ->. done.
    + rewrite insert_app_r_alt by lia. rewrite Nat.sub_diag. cbn. destruct H3 as [(c0 & E & Hc0) Ho]. split; [exists c0; split; [by apply lookup_app_l_Some|done]|].
      intros r' c' Hr Hl Hn. apply lookup_app_Some in Hl as [Hl|[_ Hl]]; [by apply (Ho r')|]. apply list_lookup_singleton_Some in Hl as [_ <-]. done.
  - destruct (y_wire s !! i) as [p|] eqn:Ep; [|by injection Hs as <- <-]. set (s0 := set_wire (delete i (y_wire s)) s) in *.
    assert (Base s0) as HB0 by (revert HB; by apply Cnt_same). assert (Own n a r s0) as HO0 by (destruct HO as (H1 & H2); split; [by apply Wire_delete|done]).
    assert (p_cluster p <> n \/ p_ask p = a) as Hp. { destruct (decide (p_cluster p = n)) as [Hn|]; [|by left]. right. destruct HO as [H1 _]. apply H1; [by eapply elem_of_list_lookup_2|done]. }
    unfold comm in Hs. destruct (p_ask p) as [k|mn mx|] eqn:Ea.
    + destruct (serve_own _ _ _ _ _ _ _ _ _ HB0 HO0 Hs) as [H _]; [|exact H]. destruct Hp as [?|<-]; [by left|]. right; right. by exists (p_serial p).
    + destruct (serve _ _ _ _) as [s1 o1] eqn:Es. injection Hs as <- <-.
      assert (p_cluster p <> n \/ inner (EAdapt mn mx) \/ (exists x, EAdapt mn mx = ask_event x a)) as Hq. { destruct Hp as [?|<-]; [by left|]. right; right. by exists 0%nat. }
      destruct (serve_own _ _ _ _ _ _ _ _ _ HB0 HO0 Es Hq) as [(X1 & X2 & X3) X4]. split; [done|]. split; [done|]. unfold set_calls. cbn [y_calls]. eapply Calls_reply; [|..|exact X3]; [done|].
      intros Hn _. destruct Hp as [?|<-]; [done|]. apply X4; [done|]. by exists 0%nat.
    + destruct (serve_own _ _ _ _ _ _ _ _ _ HB0 HO0 Hs) as [H _]; [|exact H]. destruct Hp as [?|<-]; [by left|]. right; right. by exists (p_serial p).
  - injection Hs as <- <-. destruct HO as (H1 & H2). split; [by apply Wire_delete|done].
  - destruct (y_calls s !! r0) as [c|] eqn:Ec; [|by injection Hs as <- <-]. destruct HO as (H1 & H2 & H3). destruct (k_stage c) eqn:Est, ok; try (injection Hs as <- <-; done).
    + destruct (decide _); [injection Hs as <- <-|rewrite in_fleet_eq in Hs; injection Hs as <- <-]; (split; [done|]; split; [done|]); eapply Calls_set; try done; try (intros b Hb; congruence); intros [?|?]; done.
    + injection Hs as <- <-. split; [done|]. split; [done|]. eapply Calls_set; try done; [intros b Hb; congruence|]. intros _. by left.
    + destruct (decide _); [injection Hs as <- <-|rewrite in_fleet_eq in Hs; injection Hs as <- <-]; (split; [done|]; split; [done|]); eapply Calls_set; try done; try (intros b Hb; congruence); intros [?|?]; done.
  - destruct (y_calls s !! r0) as [c|] eqn:Ec; [|by injection Hs as <- <-]. destruct HO as (H1 & H2 & H3). destruct (k_stage c) eqn:Est; injection Hs as <- <-; try done. unfold send. split; [|split; [done|]].
    + intros p Hp Hn. apply elem_of_app in Hp as [Hp|Hp]; [by apply H1|]. apply elem_of_list_singleton in Hp as ->. cbn in *. destruct H3 as [(c0 & E & E1 & E2 & _) Ho]. destruct (decide (r0 = r)) as [->|Hr]; [congruence|]. destruct (Ho r0 c Hr Ec Hn) as [b Hb]. congruence.
    + eapply Calls_set; try done; [intros b Hb; congruence|]. intros [?|?]; done.
Qed.
