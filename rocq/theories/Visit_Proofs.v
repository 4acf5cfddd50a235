(** Proofs of C121, C122 and C124. *)
From Coq Require Import ZArith Lia.
From stdpp Require Import prelude gmap.
From Verif Require Import Trace WorkQueue_Model Gateway_Model Gateway_Inv Gateway_Hist Gateway_Spec Gateway_Spec3 Gateway_Proofs Visit_Model Visit_Spec.
Open Scope Z_scope.

Lemma vstep_gw cf s e s' o : vstep cf s e = (s', o) -> step cf (v_gw s) o.1 = (v_gw s', o.2) /\ o.1 = gevent cf s e.
Proof. unfold vstep. destruct (step cf (v_gw s) (gevent cf s e)) as [g' os] eqn:E. intros H. injection H as <- <-. done. Qed.
Lemma vstep_calls cf s e s' o : vstep cf s e = (s', o) -> v_calls s' = calls_after s e o.2.
Proof. unfold vstep. destruct (step cf (v_gw s) (gevent cf s e)) as [g' os] eqn:E. intros H. injection H as <- <-. done. Qed.
Lemma vleads_gw cf s h s' : vleads cf s h s' -> leads cf (v_gw s) (gw_part h) (v_gw s').
Proof.
  unfold vleads, leads. induction 1 as [s|s e [ge o] s1 h s2 Hs _ IH]; [constructor|].
  apply vstep_gw in Hs as [Hs _]. econstructor; [exact Hs|exact IH].
Qed.
Lemma vreach_gw cf h s : vreach cf h s -> reach cf (gw_part h) (v_gw s).
Proof. intros H. apply vleads_gw in H. exact H. Qed.
Lemma gw_part_app h1 h2 : gw_part (h1 ++ h2) = gw_part h1 ++ gw_part h2. Proof. apply map_app. Qed.
Lemma nothing_step cf g : step cf g (nothing cf) = (g, []).
Proof. unfold nothing. cbn [step]. rewrite decide_False by lia. done. Qed.

(** * How the stage of a call changes *)
(** The stage of a call that is there before and after an event. *)
Inductive turn (cf : cfg) (s : vgw) (k : nat) (v : visit) : vevent -> list obs -> stage -> Prop :=
| t_stay e o : turn cf s k v e o (v_stage v)
| t_move now o : turn cf s k v (VMove k now) o (move (v_gw s) o v)
| t_late o : turn cf s k v (VLate k) o (late (v_gw s) v)
| t_refuse code o : turn cf s k v (VRefuse k code) o (refuse code v)
| t_timeout o : turn cf s k v (VTimeout k) o (timeout v)
| t_break o : turn cf s k v (VBreak k) o (break v)
| t_cut now o : turn cf s k v (VGateway (ERestart now)) o (cut v).

Lemma set_stage_same v : set_stage (v_stage v) v = v. Proof. destruct v; done. Qed.
Lemma on_call_turn (k j : nat) f vs v : vs !! k = Some v -> on_call j f vs !! k = Some (if decide (j = k) then set_stage (f v) v else v).
Proof.
  intros H. unfold on_call. destruct (decide (j = k)) as [->|Hn]; [rewrite list_lookup_alter, H; done|rewrite list_lookup_alter_ne by done; done].
Qed.
Lemma calls_turn cf s e o k v : v_calls s !! k = Some v -> exists st, calls_after s e o !! k = Some (set_stage st v) /\ turn cf s k v e o st.
Proof.
  intros Hk.
  assert (exists st, v_calls s !! k = Some (set_stage st v) /\ turn cf s k v e o st) as Hstay
    by (exists (v_stage v); rewrite set_stage_same; split; [done|constructor]).
  assert (forall x, exists st, (v_calls s ++ [x]) !! k = Some (set_stage st v) /\ turn cf s k v e o st) as Hnew.
  { intros x. exists (v_stage v). rewrite set_stage_same. split; [apply lookup_app_l_Some; done|constructor]. }
  assert (forall (j : nat) f, (forall st, st = f v -> j = k -> turn cf s k v e o st) -> exists st, on_call j f (v_calls s) !! k = Some (set_stage st v) /\ turn cf s k v e o st) as Hon.
  { intros j f Hf. rewrite (on_call_turn k j f _ v Hk). destruct (decide (j = k)) as [E|E].
    - exists (f v). split; [done|]. apply Hf; done.
    - exists (v_stage v). rewrite set_stage_same. split; [done|constructor]. }
  unfold calls_after. destruct e as [ge|user close info mx|user close n|j now|j|j code|j|j].
  - destruct ge; try exact Hstay. rewrite list_lookup_fmap, Hk. exists (cut v). split; [done|constructor].
  - apply Hnew.
  - apply Hnew.
  - apply Hon. intros st -> ->. constructor.
  - apply Hon. intros st -> ->. constructor.
  - apply Hon. intros st -> ->. constructor.
  - apply Hon. intros st -> ->. constructor.
  - apply Hon. intros st -> ->. constructor.
Qed.
(** A call that was not there before. *)
Lemma calls_new s e o k v : calls_after s e o !! k = Some v -> v_calls s !! k = None ->
  (exists user close info mx, v = Visit user close true (Submitting info mx)) \/ exists user close n, v = Visit user close false (Asking n).
Proof.
  intros H Hk.
  assert (forall (j : nat) f, on_call j f (v_calls s) !! k = None) as Hon.
  { intros j f. unfold on_call. destruct (decide (j = k)) as [->|Hn]; [rewrite list_lookup_alter, Hk; done|rewrite list_lookup_alter_ne by done; done]. }
  assert (forall x, (v_calls s ++ [x]) !! k = Some v -> v = x) as Hnew.
  { intros x Hx. apply lookup_app_Some in Hx as [Hx|[_ Hx]]; [congruence|]. apply list_lookup_singleton_Some in Hx as [_ <-]. done. }
  unfold calls_after in H. destruct e as [ge|user close info mx|user close n|j now|j|j code|j|j]; try (rewrite Hon in H; done).
  - destruct ge; try congruence. rewrite list_lookup_fmap, Hk in H. done.
  - apply Hnew in H. left. eauto 6.
  - apply Hnew in H. right. eauto 6.
Qed.

(** * Why a call is where it is *)
(** Where the answer came from. *)
Definition source (user n : nat) (a : answer) (g : gw) : Prop :=
  (a = AStatus 404 /\ lookup_cluster n g = None) \/ exists c, objs g !! n = Some c /\ a = answer_of user c.
(** A broken call. *)
Definition told_error (cf : cfg) (h : vhistory) (k user n : nat) (er : error) : Prop :=
  (exists code, er = error_of code /\ during cf h k (source user n (AStatus code))) \/
  (er = ECluster /\ exists r, (rp_status r = PFAILED \/ rp_status r = PSTOPPED) /\ during cf h k (source user n (AReport r))) \/
  (er = EBroken /\ broken h k).
Definition why (cf : cfg) (h : vhistory) (k : nat) (v : visit) : Prop :=
  match v_stage v with
  | Told n a => during cf h k (source (v_user v) n a)
  | Started n r => rp_status r = PRUNNING /\ during cf h k (source (v_user v) n (AReport r))
  | Closing n er => v_close v = true /\ told_error cf h k (v_user v) n er
  | Failed (Some n) er => told_error cf h k (v_user v) n er
  | Failed None er => (exists code o, (VRefuse k code, o) ∈ h /\ 400 <= code /\ er = error_of code) \/ (er = EBroken /\ exists o, (VBreak k, o) ∈ h)
  | _ => True
  end.
Lemma during_mono cf h x k P : during cf h k P -> during cf (h ++ x) k P.
Proof.
  intros (h1 & e & o & h2 & s1 & v & -> & H). exists h1, e, o, (h2 ++ x), s1, v. rewrite <- app_assoc. done.
Qed.
Lemma broken_mono h x k : broken h k -> broken (h ++ x) k.
Proof. intros [(o & H)|(now & o & H)]; [left; exists o|right; exists now, o]; apply elem_of_app; auto. Qed.
Lemma told_error_mono cf h x k user n er : told_error cf h k user n er -> told_error cf (h ++ x) k user n er.
Proof.
  intros [(code & H1 & H2)|[(H1 & r & H2 & H3)|(H1 & H2)]].
  - left. exists code. split; [done|]. by apply during_mono.
  - right. left. split; [done|]. exists r. split; [done|]. by apply during_mono.
  - right. right. split; [done|]. by apply broken_mono.
Qed.
Lemma why_mono cf h x k v : why cf h k v -> why cf (h ++ x) k v.
Proof.
  unfold why. destruct (v_stage v) as [| | | |n a| |n r|n er|[n|] er]; try done.
  - apply during_mono.
  - intros [H1 H2]. split; [done|]. by apply during_mono.
  - intros [H1 H2]. split; [done|]. by apply told_error_mono.
  - apply told_error_mono.
  - intros [(code & o & H1 & H2)|(H1 & o & H2)].
    + left. exists code, o. split; [apply elem_of_app; auto|done].
    + right. split; [done|]. exists o. apply elem_of_app; auto.
Qed.
Lemma why_fail cf h k v n er : told_error cf h k (v_user v) n er -> why cf h k (set_stage (fail v n er) v).
Proof. intros H. unfold why, fail. cbn [v_stage set_stage]. destruct (v_close v) eqn:E; [split; done|done]. Qed.

Lemma why_all cf h s : vreach cf h s -> forall k v, v_calls s !! k = Some v -> why cf h k v.
Proof.
  intros Hx. revert h s Hx. apply (exec_ind_r (vstep cf) (vinit cf) (fun h s => forall k v, v_calls s !! k = Some v -> why cf h k v)).
  { intros k v H. done. }
  intros h s e o s' Hx IH Hs k v' Hk'. pose proof (vstep_calls _ _ _ _ _ Hs) as Hc. rewrite Hc in Hk'.
  destruct (v_calls s !! k) as [v|] eqn:Hk.
  2:{ destruct (calls_new _ _ _ _ _ Hk' Hk) as [(user & close & info & mx & ->)|(user & close & n & ->)]; done. }
  destruct (calls_turn cf s e o.2 k v Hk) as (st & H1 & Ht). rewrite H1 in Hk'. injection Hk' as <-.
  specialize (IH k v Hk). pose proof (why_mono cf h [(e, o)] k v IH) as IH'.
  set (h' := h ++ [(e, o)]) in *.
  assert (forall P : gw -> Prop, ~ over (v_stage v) -> P (v_gw s) -> during cf h' k P) as Hnow.
  { intros P Ho HP. exists h, e, o, [], s, v. split; [done|]. split; [exact Hx|]. done. }
  assert (In : (e, o) ∈ h') by (unfold h'; apply elem_of_app; right; by left).
  destruct Ht as [e os|now os|os|code os|os|os|now os].
  - rewrite set_stage_same. exact IH'.
  - unfold move. unfold why in IH'. destruct (v_stage v) as [info mx|n|n|n|n a|n|n r|n er|[n|] er] eqn:Est; try (unfold why; cbn [v_stage set_stage]; exact IH' || exact I).
    + destruct os as [|[] [|]]; exact I.
    + unfold arrive. destruct (lookup_cluster n (v_gw s)) as [c|] eqn:El; [destruct (c_ready c)|].
      * unfold why. cbn [v_stage v_user set_stage]. apply Hnow; [intros [(? & ? & ?)|(? & ? & ?)]; done|]. right. exists c. split; [apply (lookup_obj _ _ _ El)|done].
      * exact I.
      * unfold why. cbn [v_stage v_user set_stage]. apply Hnow; [intros [(? & ? & ?)|(? & ? & ?)]; done|]. left. done.
    + destruct (objs (v_gw s) !! n) as [c|] eqn:El; [destruct (c_ready c)|]; try exact I.
      unfold why. cbn [v_stage v_user set_stage]. apply Hnow; [intros [(? & ? & ?)|(? & ? & ?)]; done|]. right. exists c. done.
    + unfold receive. destruct a as [r|code].
      * destruct (rp_status r) eqn:Er; try exact I.
        -- unfold why. cbn [v_stage v_user set_stage]. done.
        -- apply why_fail. right. left. split; [done|]. exists r. split; [auto|done].
        -- apply why_fail. right. left. split; [done|]. exists r. split; [auto|done].
      * apply why_fail. left. exists code. done.
    + unfold why. cbn [v_stage v_user set_stage]. apply IH'.
  - unfold late. unfold why in IH'. destruct (v_stage v) as [info mx|n|n|n|n a|n|n r|n er|[n|] er] eqn:Est; try (unfold why; cbn [v_stage set_stage]; exact IH' || exact I).
    unfold wait_over. destruct (objs (v_gw s) !! n) as [c|] eqn:El; [|exact I]. cbn [fmap option_fmap option_map].
    unfold why. cbn [v_stage v_user set_stage]. apply Hnow; [intros [(? & ? & ?)|(? & ? & ?)]; done|]. right. exists c. done.
  - unfold refuse. unfold why in IH'. destruct (v_stage v) as [info mx|n|n|n|n a|n|n r|n er|[n|] er] eqn:Est; try (unfold why; cbn [v_stage set_stage]; exact IH' || exact I).
    destruct (400 <=? code) eqn:E4; [|exact I]. unfold why. cbn [v_stage set_stage]. left. exists code, o. split; [done|]. split; [lia|done].
  - unfold timeout. unfold why in IH'. destruct (v_stage v) as [info mx|n|n|n|n a|n|n r|n er|[n|] er] eqn:Est; try (unfold why; cbn [v_stage set_stage]; exact IH' || exact I).
  - unfold break. unfold why in IH'. destruct (v_stage v) as [info mx|n|n|n|n a|n|n r|n er|[n|] er] eqn:Est; try (unfold why; cbn [v_stage set_stage]; exact IH' || exact I).
    + unfold why. cbn [v_stage set_stage]. right. eauto.
    + unfold why. cbn [v_stage set_stage]. right. eauto.
    + apply why_fail. right. right. split; [done|]. left. eauto.
    + apply why_fail. right. right. split; [done|]. left. eauto.
    + apply why_fail. right. right. split; [done|]. left. eauto.
    + apply why_fail. right. right. split; [done|]. left. eauto.
    + unfold why. cbn [v_stage v_user set_stage]. apply IH'.
  - unfold cut. unfold why in IH'. destruct (v_stage v) as [info mx|n|n|n|n a|n|n r|n er|[n|] er] eqn:Est; try (unfold why; cbn [v_stage set_stage]; exact IH' || exact I).
    apply why_fail. right. right. split; [done|]. right. eauto.
Qed.

(** * C121 *)
Lemma reach_at cf h k P : ids_ok cf (gw_part h) -> during cf h k P -> exists h1 h2 s1, h = h1 ++ h2 /\ vreach cf h1 s1 /\
  ids_ok cf (gw_part h1) /\ reach cf (gw_part h1) (v_gw s1) /\ P (v_gw s1).
Proof.
  intros Hi (h1 & e & o & h2 & s1 & v & -> & Hr & _ & _ & HP). exists h1, ((e, o) :: h2), s1. rewrite gw_part_app in Hi.
  apply ids_ok_app in Hi as [Hi _]. repeat split; try done. by apply vreach_gw.
Qed.
Lemma during_impl cf h k (P P' : gw -> Prop) : ids_ok cf (gw_part h) -> during cf h k P ->
  (forall h1 g, ids_ok cf h1 -> reach cf h1 g -> P g -> P' g) -> during cf h k P'.
Proof.
  intros Hi (h1 & e & o & h2 & s1 & v & -> & Hr & H1 & H2 & HP) H. exists h1, e, o, h2, s1, v. repeat split; try done.
  eapply H; [|apply vreach_gw; exact Hr|exact HP]. rewrite gw_part_app in Hi. apply ids_ok_app in Hi as [Hi _]. exact Hi.
Qed.

Lemma answer_report user c r : answer_of user c = AReport r -> exists p, model_status c = Some p /\ r_user (c_row c) = user /\ r = report_of c p.
Proof.
  unfold answer_of. destruct (model_status c) as [p|]; [|done]. case_decide; [|done]. intros E. injection E as <-. eauto.
Qed.
Lemma answer_code user c code : answer_of user c = AStatus code -> (code = 500 /\ model_status c = None) \/
  (code = 403 /\ r_user (c_row c) <> user).
Proof.
  unfold answer_of. destruct (model_status c) as [p|]; [|intros H; injection H as <-; auto]. case_decide; [done|]. intros E. injection E as <-. auto.
Qed.

Lemma started_running cf h s k user new close n r : ids_ok cf (gw_part h) -> vreach cf h s ->
  at_stage s k user new close (Started n r) -> during cf h k (running_for user n r).
Proof.
  intros Hi Hr Hk. destruct (why_all cf h s Hr _ _ Hk) as [Hs Hd]. cbn [v_user] in Hd.
  eapply during_impl; [exact Hi|exact Hd|]. intros h1 g Hi1 Hr1 [[? _]|(c & Hc & Ha)]; [done|].
  symmetry in Ha. apply answer_report in Ha as (p & Hp & Hu & ->). cbn [report_of rp_status] in Hs. subst p.
  pose proof (reach_cok _ _ _ _ _ Hi1 Hr1 Hc) as Hok. pose proof (k_row _ _ _ _ _ _ Hok) as Hrow.
  assert (c_status c = RUNNING) as Es by (unfold model_status in Hp; destruct (c_status c), (c_target c); simpl in Hp; done).
  exists c. split; [done|]. split; [done|]. split; [done|]. split; [apply (ro_sched _ Hrow Es)|].
  unfold full_report, report_of. cbn [rp_name rp_status rp_addr rp_link rp_creds rp_start rp_stop]. rewrite bool_decide_eq_true_2 by done. cbn [andb].
  split; [apply Hok|]. do 3 (split; [done|]). split; [|split; [done|]].
  - rewrite negb_true_iff, bool_decide_eq_false. done.
  - destruct (r_stop (c_row c)) as [t|] eqn:Et; [|done]. exfalso.
    pose proof (proj1 (ro_stop _ Hrow) (ex_intro _ t Et)) as Hf. unfold c_status in Es. rewrite Es in Hf. done.
Qed.

(** * Which cluster *)
Definition named (st : stage) : option nat :=
  match st with
  | Submitting _ _ | Failed None _ => None
  | Created n | Asking n | Held n | Told n _ | Sleeping n | Started n _ | Closing n _ | Failed (Some n) _ => Some n
  end.
Lemma named_fail v n er : named (fail v n er) = Some n. Proof. unfold fail. destruct (v_close v); done. Qed.
Lemma named_turn cf s k v e o st : turn cf s k v e o st -> forall n, named st = Some n ->
  named (v_stage v) = Some n \/ exists now info mx, e = VMove k now /\ v_stage v = Submitting info mx /\ o = [OCreated n].
Proof.
  intros [e' os|now os|os|code os|os|os|now os] m; [auto| | | | | |].
  - unfold move. destruct (v_stage v) as [info mx|n|n|n|n a|n|n r|n er|[n|] er] eqn:Est; try (cbn [named]; auto; fail).
    + destruct os as [|[x| | | | | | | |] [|]]; try done. cbn [named]. intros E. injection E as ->. right. eauto 6.
    + destruct (arrive _ _ _); cbn [named]; auto.
    + destruct (objs _ !! _) as [c|]; [destruct (c_ready c)|]; cbn [named]; auto.
    + unfold receive. destruct a as [r|code]; [destruct (rp_status r)|]; rewrite ?named_fail; cbn [named]; auto.
  - unfold late. destruct (v_stage v) as [info mx|n|n|n|n a|n|n r|n er|[n|] er] eqn:Est; try (cbn [named]; auto; fail).
    destruct (wait_over _ _ _); cbn [named]; auto.
  - unfold refuse. destruct (v_stage v) as [info mx|n|n|n|n a|n|n r|n er|[n|] er] eqn:Est; try (cbn [named]; auto; fail).
    destruct (400 <=? code); cbn [named]; auto.
  - unfold timeout. destruct (v_stage v) as [info mx|n|n|n|n a|n|n r|n er|[n|] er] eqn:Est; cbn [named]; auto.
  - unfold break. destruct (v_stage v) as [info mx|n|n|n|n a|n|n r|n er|[n|] er] eqn:Est; rewrite ?named_fail; cbn [named]; auto; done.
  - unfold cut. destruct (v_stage v) as [info mx|n|n|n|n a|n|n r|n er|[n|] er] eqn:Est; rewrite ?named_fail; cbn [named]; auto.
Qed.
Lemma new_made cf h s : vreach cf h s -> forall k v n, v_calls s !! k = Some v -> v_new v = true -> named (v_stage v) = Some n -> made cf h k n.
Proof.
  intros Hx. revert h s Hx.
  apply (exec_ind_r (vstep cf) (vinit cf) (fun h s => forall k v n, v_calls s !! k = Some v -> v_new v = true -> named (v_stage v) = Some n -> made cf h k n)).
  { intros k v n H. done. }
  intros h s e o s' Hx IH Hs k v' n Hk' Hnew Hn. pose proof (vstep_calls _ _ _ _ _ Hs) as Hc. rewrite Hc in Hk'.
  destruct (v_calls s !! k) as [v|] eqn:Hk.
  2:{ destruct (calls_new _ _ _ _ _ Hk' Hk) as [(user & close & info & mx & ->)|(user & close & m & ->)]; done. }
  destruct (calls_turn cf s e o.2 k v Hk) as (st & H1 & Ht). rewrite H1 in Hk'. injection Hk' as <-. cbn [v_new v_stage set_stage] in *.
  destruct (named_turn _ _ _ _ _ _ _ Ht n Hn) as [H|(now & info & mx & -> & _ & Ho)].
  - destruct (IH k v n Hk Hnew H) as (h1 & now & ge & h2 & ->). exists h1, now, ge, (h2 ++ [(e, o)]). rewrite <- app_assoc. done.
  - destruct o as [ge os]. cbn [snd] in Ho. subst os. exists h, now, ge, []. done.
Qed.

(** Names are given once. *)
Lemma made_at cf h1 k now ge n h2 s : vreach cf (h1 ++ (VMove k now, (ge, [OCreated n])) :: h2) s -> exists s1 s2 user close new info mx,
  vreach cf h1 s1 /\ at_stage s1 k user new close (Submitting info mx) /\ vstep cf s1 (VMove k now) = (s2, (ge, [OCreated n])) /\
  at_stage s2 k user new close (Created n) /\ vleads cf s2 h2 s /\
  ge = EStart user info mx now /\ n = uuid (v_gw s1) /\ uuid (v_gw s2) = S n.
Proof.
  intros (s1 & Hr & Hl)%exec_app. inversion Hl as [|? ? ? s2 ? ? Hs Hl']; subst.
  destruct (vstep_gw _ _ _ _ _ Hs) as [Hg He]. cbn [fst snd] in Hg, He. cbn [gevent] in He.
  pose proof (vstep_calls _ _ _ _ _ Hs) as Hc. cbn [snd calls_after] in Hc.
  assert (ge <> nothing cf) as Hnn by (intros ->; rewrite nothing_step in Hg; done).
  destruct (v_calls s1 !! k) as [v|] eqn:Hk; [|done]. cbn [fmap option_fmap option_map] in He.
  assert (v = Visit (v_user v) (v_close v) (v_new v) (v_stage v)) as Ev by (destruct v; done).
  destruct (v_stage v) as [info mx|m|m|m|m a|m|m r|m er|om er] eqn:Est; try done.
  2:{ destruct (may_stop _ _ _); [|done]. subst ge. cbn [step] in Hg. done. }
  subst ge. cbn [step] in Hg. unfold start_cluster, create_cluster in Hg. injection Hg as Hg Hn. subst n.
  exists s1, s2, (v_user v), (v_close v), (v_new v), info, mx. split; [done|]. split; [unfold at_stage; rewrite Hk, Ev at 1; done|].
  split; [done|]. split.
  { unfold at_stage. rewrite Hc. rewrite (on_call_turn k k _ _ v Hk). rewrite decide_True by done. unfold move, set_stage. rewrite Est. done. }
  split; [done|]. split; [done|]. split; [done|]. rewrite <- Hg. done.
Qed.
Lemma vleads_uuid cf s h s' : ids_ok cf (gw_part h) -> GInv cf (v_gw s) -> vleads cf s h s' -> (uuid (v_gw s) <= uuid (v_gw s'))%nat.
Proof. intros Hi HG Hl. apply vleads_gw in Hl. apply (leads_Later cf _ _ _ Hi HG Hl). Qed.
Lemma app_cmp {A} (a b : list A) x y c d : a ++ x :: b = c ++ y :: d -> (a = c /\ x = y /\ b = d) \/ (exists m, c = a ++ x :: m /\ b = m ++ y :: d) \/ exists m, a = c ++ y :: m /\ d = m ++ x :: b.
Proof.
  revert c. induction a as [|z a IH]; intros [|w c] H; simpl in H.
  - injection H as -> ->. auto.
  - injection H as -> ->. right. left. exists c. done.
  - injection H as -> <-. right. right. exists a. done.
  - injection H as -> H. destruct (IH c H) as [(-> & -> & ->)|[(m & -> & ->)|(m & -> & ->)]]; [auto|right; left; exists m; done|right; right; exists m; done].
Qed.
Lemma made_once_lt cf h1 k1 k2 now1 now2 g1 g2 n m h3 s : ids_ok cf (gw_part (h1 ++ (VMove k1 now1, (g1, [OCreated n])) :: m ++ (VMove k2 now2, (g2, [OCreated n])) :: h3)) ->
  vreach cf (h1 ++ (VMove k1 now1, (g1, [OCreated n])) :: m ++ (VMove k2 now2, (g2, [OCreated n])) :: h3) s -> False.
Proof.
  intros Hi Hr. assert (Hr' := Hr). destruct (made_at _ _ _ _ _ _ _ _ Hr) as (s1 & s2 & u & cl & nw & info & mx & Hr1 & _ & Hs & _ & Hl & _ & En & Eu).
  assert (h1 ++ (VMove k1 now1, (g1, [OCreated n])) :: m ++ (VMove k2 now2, (g2, [OCreated n])) :: h3
        = (h1 ++ (VMove k1 now1, (g1, [OCreated n])) :: m) ++ (VMove k2 now2, (g2, [OCreated n])) :: h3) as E by (rewrite <- app_assoc; done).
  rewrite E in Hr'. destruct (made_at _ _ _ _ _ _ _ _ Hr') as (s3 & s4 & u' & cl' & nw' & info' & mx' & Hr3 & _ & _ & _ & _ & _ & En' & _).
  apply exec_app in Hr3 as (t & Ht & Hl3). assert (t = s1) as -> by (apply exec_run in Ht, Hr1; congruence).
  inversion Hl3 as [|? ? ? t2 ? ? Hs' Hl3']; subst. rewrite Hs in Hs'. injection Hs' as <-.
  assert (uuid (v_gw s2) <= uuid (v_gw s3))%nat; [|lia].
  change (_ ++ _) with (h1 ++ [(VMove k1 now1, (g1, [OCreated (uuid (v_gw s1))]))] ++ m ++ (VMove k2 now2, (g2, [OCreated (uuid (v_gw s1))])) :: h3) in Hi.
  rewrite app_assoc, gw_part_app in Hi. apply ids_ok_app in Hi as [Hi1 Hi2]. rewrite gw_part_app in Hi2. apply ids_ok_app in Hi2 as [Hi2 _].
  eapply vleads_uuid; [exact Hi2| |exact Hl3']. eapply reach_GInv; [exact Hi1|]. apply vreach_gw. apply exec_app. exists s1. split; [done|]. econstructor; [exact Hs|constructor].
Qed.
Lemma made_once cf h s k1 k2 n : ids_ok cf (gw_part h) -> vreach cf h s -> made cf h k1 n -> made cf h k2 n -> k1 = k2.
Proof.
  intros Hi Hr (h1 & now1 & g1 & h2 & E1) (h3 & now2 & g2 & h4 & E2). rewrite E1 in E2.
  destruct (app_cmp _ _ _ _ _ _ E2) as [(_ & E & _)|[(m & -> & ->)|(m & -> & ->)]].
  - injection E as -> _ _. done.
  - exfalso. subst h. eapply made_once_lt; eauto.
  - exfalso. rewrite <- app_assoc in E1. cbn [app] in E1. subst h. eapply made_once_lt; eauto.
Qed.

(** The cluster a call made belongs to its user. *)
Lemma new_start cf h s : vreach cf h s -> forall k v n, v_calls s !! k = Some v -> v_new v = true -> named (v_stage v) = Some n ->
  exists info mx now, (EStart (v_user v) info mx now, [OCreated n]) ∈ gw_part h.
Proof.
  intros Hx. revert h s Hx.
  apply (exec_ind_r (vstep cf) (vinit cf) (fun h s => forall k v n, v_calls s !! k = Some v -> v_new v = true -> named (v_stage v) = Some n ->
    exists info mx now, (EStart (v_user v) info mx now, [OCreated n]) ∈ gw_part h)).
  { intros k v n H. done. }
  intros h s e o s' Hx IH Hs k v' n Hk' Hnew Hn. pose proof (vstep_calls _ _ _ _ _ Hs) as Hc. rewrite Hc in Hk'.
  destruct (v_calls s !! k) as [v|] eqn:Hk.
  2:{ destruct (calls_new _ _ _ _ _ Hk' Hk) as [(user & close & info & mx & ->)|(user & close & m & ->)]; done. }
  destruct (calls_turn cf s e o.2 k v Hk) as (st & H1 & Ht). rewrite H1 in Hk'. injection Hk' as <-. cbn [v_new v_user v_stage set_stage] in *.
  rewrite gw_part_app. destruct (named_turn _ _ _ _ _ _ _ Ht n Hn) as [H|(now & info & mx & -> & Est & Ho)].
  - destruct (IH k v n Hk Hnew H) as (info & mx & now & Hin). exists info, mx, now. apply elem_of_app. auto.
  - destruct o as [ge os]. cbn [snd] in Ho. subst os. destruct (vstep_gw _ _ _ _ _ Hs) as [_ He]. cbn [fst gevent] in He.
    rewrite Hk in He. cbn [fmap option_fmap option_map] in He. rewrite Est in He. subst ge.
    exists info, mx, now. apply elem_of_app. right. left.
Qed.
Lemma new_owner cf h s k v n c : ids_ok cf (gw_part h) -> vreach cf h s -> v_calls s !! k = Some v -> v_new v = true -> named (v_stage v) = Some n ->
  objs (v_gw s) !! n = Some c -> r_user (c_row c) = v_user v.
Proof.
  intros Hi Hr Hk Hnew Hn Hc. destruct (new_start cf h s Hr k v n Hk Hnew Hn) as (info & mx & now & Hin).
  eapply created_max; [exact Hi|apply vreach_gw; exact Hr|exact Hin|exact Hc].
Qed.

(** * C122 *)
Lemma never_forbidden cf h s : vreach cf h s -> ids_ok cf (gw_part h) -> forall k v, v_calls s !! k = Some v -> v_new v = true ->
  match v_stage v with
  | Told n (AStatus c) => c <> 403
  | Closing n er | Failed (Some n) er => er <> EResponse
  | _ => True
  end.
Proof.
  intros Hx. revert h s Hx.
  apply (exec_ind_r (vstep cf) (vinit cf) (fun h s => ids_ok cf (gw_part h) -> forall k v, v_calls s !! k = Some v -> v_new v = true ->
    match v_stage v with Told n (AStatus c) => c <> 403 | Closing n er | Failed (Some n) er => er <> EResponse | _ => True end)).
  { intros _ k v H. done. }
  intros h s e o s' Hx IH Hs Hi k v' Hk' Hnew. pose proof (vstep_calls _ _ _ _ _ Hs) as Hc. rewrite Hc in Hk'.
  rewrite gw_part_app in Hi. apply ids_ok_app in Hi as [Hi _]. specialize (IH Hi).
  destruct (v_calls s !! k) as [v|] eqn:Hk.
  2:{ destruct (calls_new _ _ _ _ _ Hk' Hk) as [(user & close & info & mx & ->)|(user & close & m & ->)]; done. }
  destruct (calls_turn cf s e o.2 k v Hk) as (st & H1 & Ht). rewrite H1 in Hk'. injection Hk' as <-. cbn [v_new v_stage set_stage] in *.
  pose proof (new_owner cf h s k v) as Hown. specialize (IH k v Hk Hnew). pose proof (why_all cf h s Hx k v Hk) as Hw. unfold why in Hw.
  assert (forall n er, er <> EResponse -> match fail v n er with Told n (AStatus c) => c <> 403 | Closing n er | Failed (Some n) er => er <> EResponse | _ => True end) as Hfail
    by (intros n er; unfold fail; destruct (v_close v); done).
  destruct Ht as [e os|now os|os|code os|os|os|now os]; [exact IH| | | | | |].
  - unfold move. destruct (v_stage v) as [info mx|n|n|n|n a|n|n r|n er|[n|] er] eqn:Est; try exact IH; try exact I.
    + destruct os as [|[] [|]]; exact I.
    + unfold arrive. destruct (lookup_cluster n (v_gw s)) as [c|] eqn:El; [|done]. destruct (c_ready c); [|exact I].
      destruct (answer_of (v_user v) c) as [r|code] eqn:Ea; [exact I|]. apply answer_code in Ea as [[-> _]|[-> Hu]]; [done|].
      exfalso. apply Hu. eapply Hown; [done|exact Hx|exact Hk|done|done|apply (lookup_obj _ _ _ El)].
    + destruct (objs (v_gw s) !! n) as [c|] eqn:El; [|exact I]. destruct (c_ready c); [|exact I].
      destruct (answer_of (v_user v) c) as [r|code] eqn:Ea; [exact I|]. apply answer_code in Ea as [[-> _]|[-> Hu]]; [done|].
      exfalso. apply Hu. eapply Hown; [done|exact Hx|exact Hk|done|done|done].
    + unfold receive. destruct a as [r|code]; [destruct (rp_status r); try exact I; apply Hfail; done|]. apply Hfail.
      destruct Hw as (h1 & e1 & o1 & h2 & s1 & v1 & -> & _ & _ & _ & [[E _]|(c & _ & Ea)]); [injection E as ->; done|].
      symmetry in Ea. apply answer_code in Ea as [[-> _]|[-> Hu]]; done.
  - unfold late. destruct (v_stage v) as [info mx|n|n|n|n a|n|n r|n er|[n|] er] eqn:Est; try exact IH; try exact I.
    unfold wait_over. destruct (objs (v_gw s) !! n) as [c|] eqn:El; [|exact I]. cbn [fmap option_fmap option_map].
    destruct (answer_of (v_user v) c) as [r|code] eqn:Ea; [exact I|]. apply answer_code in Ea as [[-> _]|[-> Hu]]; [done|].
    exfalso. apply Hu. eapply Hown; [done|exact Hx|exact Hk|done|done|done].
  - unfold refuse. destruct (v_stage v) as [info mx|n|n|n|n a|n|n r|n er|[n|] er] eqn:Est; try exact IH; try exact I. destruct (400 <=? code); exact I.
  - unfold timeout. destruct (v_stage v) as [info mx|n|n|n|n a|n|n r|n er|[n|] er] eqn:Est; try exact IH; try exact I.
  - unfold break. destruct (v_stage v) as [info mx|n|n|n|n a|n|n r|n er|[n|] er] eqn:Est; try exact IH; try exact I; apply Hfail; done.
  - unfold cut. destruct (v_stage v) as [info mx|n|n|n|n a|n|n r|n er|[n|] er] eqn:Est; try exact IH; try exact I. apply Hfail; done.
Qed.

(** Why a call failed. *)
Lemma failed_why cf h s k user new close n er : ids_ok cf (gw_part h) -> vreach cf h s -> at_stage s k user new close (Failed (Some n) er) ->
  match er with
  | ECluster => during cf h k (fun g => exists c, objs g !! n = Some c /\ r_user (c_row c) = user /\ finished (c_status c))
  | EValue => during cf h k (fun g => lookup_cluster n g = None)
  | EServer => during cf h k (fun g => exists c, objs g !! n = Some c /\ finished (c_status c) /\ c_target c <> c_status c)
  | EResponse => new = false /\ during cf h k (fun g => exists c, objs g !! n = Some c /\ r_user (c_row c) <> user)
  | EBroken => broken h k
  end.
Proof.
  intros Hi Hr Hk. pose proof (why_all cf h s Hr _ _ Hk) as Hw. unfold why in Hw. cbn [v_stage v_user] in Hw.
  destruct Hw as [(code & -> & Hd)|[(-> & r & Hp & Hd)|(-> & Hb)]].
  - assert (code = 404 \/ code = 500 \/ code = 403) as Hcode.
    { destruct Hd as (h1 & e1 & o1 & h2 & s1 & v1 & -> & _ & _ & _ & [[E _]|(c & _ & Ea)]); [injection E as ->; auto|].
      symmetry in Ea. apply answer_code in Ea as [[-> _]|[-> _]]; auto. }
    destruct Hcode as [-> | [-> | ->]]; cbn.
    + eapply during_impl; [exact Hi|exact Hd|]. intros h1 g Hi1 Hr1 [[_ H]|(c & Hc & Ha)]; [done|]. symmetry in Ha. apply answer_code in Ha as [[? _]|[? _]]; done.
    + eapply during_impl; [exact Hi|exact Hd|]. intros h1 g Hi1 Hr1 [[? H]|(c & Hc & Ha)]; [done|]. symmetry in Ha. apply answer_code in Ha as [[_ Hm]|[? _]]; [|done].
      exists c. split; [done|]. pose proof (k_row _ _ _ _ _ _ (reach_cok _ _ _ _ _ Hi1 Hr1 Hc)) as [Ht H1 H2 H3 _ _ _].
      unfold model_status, c_status, c_target, finished in *. destruct (r_status (c_row c)) eqn:E1, (r_target (c_row c)) eqn:E2; simpl in Hm; try done; auto; naive_solver.
    + split.
      * destruct new; [|done]. exfalso. pose proof (never_forbidden cf h s Hr Hi _ _ Hk eq_refl) as Hf. cbn [v_stage] in Hf. apply Hf. done.
      * eapply during_impl; [exact Hi|exact Hd|]. intros h1 g Hi1 Hr1 [[? H]|(c & Hc & Ha)]; [done|]. symmetry in Ha. apply answer_code in Ha as [[? _]|[_ Hu]]; [done|]. eauto.
  - eapply during_impl; [exact Hi|exact Hd|]. intros h1 g Hi1 Hr1 [[? H]|(c & Hc & Ha)]; [done|]. symmetry in Ha. apply answer_report in Ha as (p & Hm & Hu & ->).
    cbn [report_of rp_status] in Hp. exists c. split; [done|]. split; [done|]. unfold model_status, finished in *.
    destruct (c_status c), (c_target c); simpl in Hm; try done; auto; destruct Hp; congruence.
  - done.
Qed.
(** A cluster that was reported to have failed or stopped never runs again. *)
Lemma failed_final cf h s k user new close n h2 s2 : ids_ok cf (gw_part (h ++ h2)) -> vreach cf h s -> at_stage s k user new close (Failed (Some n) ECluster) ->
  vleads cf s h2 s2 -> ~ reported n (v_gw s2) PRUNNING /\ OStartC n ∉ seen (gw_part h2) /\ forall w, OStartW n w ∉ seen (gw_part h2).
Proof.
  intros Hi Hr Hk Hl. assert (Hi' := Hi). rewrite gw_part_app in Hi'. apply ids_ok_app in Hi' as [Hi1 Hi2].
  pose proof (failed_why _ _ _ _ _ _ _ _ _ Hi1 Hr Hk) as Hd. cbn beta iota in Hd.
  destruct Hd as (ha & e & o & hb & s1 & v & -> & Hr1 & _ & _ & c & Hc & _ & Hf).
  assert (vreach cf (ha ++ ((e, o) :: hb) ++ h2) s2) as Hall by (rewrite app_assoc; apply exec_app; exists s; done).
  apply exec_app in Hall as (t & Ht & Hl2). assert (t = s1) as -> by (apply exec_run in Ht, Hr1; congruence).
  rewrite <- app_assoc in Hi. rewrite gw_part_app in Hi.
  destruct (stopped_final cf (gw_part ha) (gw_part (((e, o) :: hb) ++ h2)) (v_gw s1) (v_gw s2) n c Hi (vreach_gw _ _ _ Hr1) (vleads_gw _ _ _ _ Hl2) Hc Hf) as (H1 & H2 & H3 & _).
  rewrite gw_part_app in H2, H3. unfold seen in *. rewrite map_app, concat_app in H2.
  split; [|split].
  - unfold reported, get_cluster. intros E. destruct (lookup_cluster n (v_gw s2)) as [c2|] eqn:El; [|done]. cbn [fmap option_fmap option_map] in E. injection E as E.
    destruct (lookup_obj _ _ _ El) as [Ho _]. assert (c_status c2 = c_status c) as Es by (destruct (H1 c2 Ho) as [E'|E']; unfold c_status; rewrite E'; done).
    unfold model_status in E. rewrite Es in E. destruct Hf as [Hf|Hf]; rewrite Hf in E; destruct (c_target c2); done.
  - intros Hin. apply H2, elem_of_app. auto.
  - intros w Hin. apply (H3 w). rewrite map_app, concat_app. apply elem_of_app. auto.
Qed.

(** * C124 *)
Definition told (n : nat) (g : gw) : Prop := (n < uuid g)%nat /\ forall d, objs g !! n = Some d -> c_target d <> RUNNING.
Lemma told_step cf h s e s' o n : ids_ok cf (h ++ [(e, o)]) -> reach cf h s -> step cf s e = (s', o) -> told n s -> told n s'.
Proof.
  intros Hi Hr Hs [Hn Hd]. assert (Hi' := Hi). apply ids_ok_app in Hi' as [Hi1 Hi2].
  pose proof (reach_GInv _ _ _ Hi1 Hr) as HG. destruct (leads_Later cf s _ s' Hi2 HG (leads_Step _ _ _ _ _ Hs)) as [Hu HL].
  split; [lia|]. intros c Hc. destruct (HL n c Hn Hc) as (d & Hd' & HLd). apply (l_tgt _ _ _ HLd). auto.
Qed.
Lemma made_snoc cf h e o k n : made cf (h ++ [(e, o)]) k n -> made cf h k n \/ (o.2 = [OCreated n] /\ exists now, e = VMove k now).
Proof.
  intros (h1 & now & ge & h2 & E). destruct h2 as [|x h2 _] using rev_ind.
  - apply app_inj_tail in E as [-> E]. injection E as -> ->. right. split; [done|]. eauto.
  - rewrite app_comm_cons, app_assoc in E. apply app_inj_tail in E as [-> _]. left. exists h1, now, ge, h2. done.
Qed.
Lemma move_submits cf s k v now s' ge n : vstep cf s (VMove k now) = (s', (ge, [OCreated n])) -> v_calls s !! k = Some v ->
  exists info mx, v_stage v = Submitting info mx.
Proof.
  intros Hs Hk. destruct (vstep_gw _ _ _ _ _ Hs) as [Hg He]. cbn [fst snd gevent] in Hg, He.
  rewrite Hk in He. cbn [fmap option_fmap option_map] in He.
  assert (ge <> nothing cf) as Hnn by (intros ->; rewrite nothing_step in Hg; done).
  destruct (v_stage v) as [info mx|m|m|m|m a|m|m r|m er|om er] eqn:Est; try done; [eauto|].
  destruct (may_stop _ _ _); [|done]. subst ge. cbn [step] in Hg. done.
Qed.
Definition clean (cf : cfg) (h : vhistory) (k : nat) (g : gw) (st : stage) : Prop :=
  match st with
  | Submitting _ _ | Failed None _ => forall n, ~ made cf h k n
  | Failed (Some n) _ => told n g
  | _ => True
  end.
Lemma uuid_step cf h s e s' o : ids_ok cf (h ++ [(e, o)]) -> reach cf h s -> step cf s e = (s', o) -> (uuid s <= uuid s')%nat.
Proof.
  intros Hi Hr Hs. apply ids_ok_app in Hi as [Hi1 Hi2].
  apply (leads_Later cf s _ s' Hi2 (reach_GInv _ _ _ Hi1 Hr) (leads_Step _ _ _ _ _ Hs)).
Qed.
Lemma named_known cf h s k v n : ids_ok cf (gw_part h) -> vreach cf h s -> v_calls s !! k = Some v -> v_new v = true -> named (v_stage v) = Some n -> (n < uuid (v_gw s))%nat.
Proof.
  intros Hi Hr Hk Hnew Hn. destruct (new_made cf h s Hr k v n Hk Hnew Hn) as (h1 & now & ge & h2 & E). subst h.
  destruct (made_at _ _ _ _ _ _ _ _ Hr) as (s1 & s2 & u & cl & nw & info & mx & Hr1 & _ & Hs & _ & Hl & _ & En & Eu).
  change ((VMove k now, (ge, [OCreated n])) :: h2) with ([(VMove k now, (ge, [OCreated n]))] ++ h2) in Hi.
  rewrite app_assoc, gw_part_app in Hi. apply ids_ok_app in Hi as [Hi1 Hi2].
  assert (uuid (v_gw s2) <= uuid (v_gw s))%nat; [|lia]. eapply vleads_uuid; [exact Hi2| |exact Hl]. eapply reach_GInv; [exact Hi1|].
  apply vreach_gw. apply exec_app. exists s1. split; [done|]. econstructor; [exact Hs|constructor].
Qed.
(** The DELETE request of a call that made its cluster. *)
Lemma delete_told cf h s k v n er now s' o : fresh_ids cf -> vreach cf h s -> v_calls s !! k = Some v -> v_new v = true -> v_stage v = Closing n er ->
  vstep cf s (VMove k now) = (s', o) -> told n (v_gw s').
Proof.
  intros Hf Hr Hk Hnew Est Hs. pose proof (vreach_gw _ _ _ Hr) as Hg. assert (forall h, ids_ok cf h) as Hid by (left; done).
  assert (named (v_stage v) = Some n) as Hn by (rewrite Est; done).
  pose proof (named_known cf h s k v n (Hid _) Hr Hk Hnew Hn) as Hlt. destruct (vstep_gw _ _ _ _ _ Hs) as [Hg' He]. cbn [gevent] in He.
  rewrite Hk in He. cbn [fmap option_fmap option_map] in He. rewrite Est in He. destruct o as [ge os]. cbn [fst snd] in Hg', He.
  unfold may_stop in He. destruct (lookup_cluster n (v_gw s)) as [c|] eqn:El.
  - destruct (lookup_obj _ _ _ El) as [Hc _]. destruct (model_status c) as [p|] eqn:Em.
    + rewrite bool_decide_eq_true_2 in He by (eapply new_owner; eauto). subst ge.
      destruct (stop_sets cf n false (v_gw s) c El (reach_tgt _ _ _ _ _ (Hid _) Hg Hc)) as (c' & Hc' & Ht & _). rewrite Hg' in Hc'. cbn [fst] in Hc'.
      split; [|intros d Hd; congruence]. pose proof (uuid_step cf _ _ _ _ _ (Hid _) Hg Hg'). lia.
    + subst ge. rewrite nothing_step in Hg'. injection Hg' as Hg' _. rewrite <- Hg'. split; [done|]. intros d Hd. assert (d = c) as -> by congruence.
      pose proof (k_row _ _ _ _ _ _ (reach_cok _ _ _ _ _ (Hid _) Hg Hc)) as [Ht H1 H2 H3 _ _ _].
      unfold model_status, c_status, c_target in *. intros E. rewrite E in Em.
      destruct (r_status (c_row c)); simpl in Em; try done; [by apply H1|by apply H2|]. specialize (H3 eq_refl). congruence.
  - subst ge. rewrite nothing_step in Hg'. injection Hg' as Hg' _. rewrite <- Hg'. split; [done|]. intros d Hd E.
    assert (~ finished (c_status d)) as Hnf.
    { intros Hfin. destruct (fin_target _ _ _ _ _ (Hid _) Hg Hd Hfin) as [E'|E']; rewrite E' in E; done. }
    pose proof (live_known cf _ _ n d Hf Hg Hd Hnf). congruence.
Qed.
Lemma clean_all cf h s : fresh_ids cf -> vreach cf h s -> forall k v, v_calls s !! k = Some v -> v_new v = true -> v_close v = true ->
  (forall o, (VBreak k, o) ∉ h) -> clean cf h k (v_gw s) (v_stage v).
Proof.
  intros Hf Hx. revert h s Hx.
  apply (exec_ind_r (vstep cf) (vinit cf) (fun h s => forall k v, v_calls s !! k = Some v -> v_new v = true -> v_close v = true ->
    (forall o, (VBreak k, o) ∉ h) -> clean cf h k (v_gw s) (v_stage v))).
  { intros k v H. done. }
  intros h s e o s' Hx IH Hs k v' Hk' Hnew Hcl Hnb. pose proof (vstep_calls _ _ _ _ _ Hs) as Hc. rewrite Hc in Hk'.
  assert (forall o, (VBreak k, o) ∉ h) as Hnb1 by (intros o' H; apply (Hnb o'), elem_of_app; auto).
  assert (forall h, ids_ok cf h) as Hid by (left; done). pose proof (vreach_gw _ _ _ Hx) as Hg.
  destruct (v_calls s !! k) as [v|] eqn:Hk.
  2:{ assert (forall n, ~ made cf (h ++ [(e, o)]) k n) as Hnm.
      { intros n [H|(Ho & now & ->)]%made_snoc.
        - destruct H as (h1 & now & ge & h2 & ->). destruct (made_at _ _ _ _ _ _ _ _ Hx) as (s1 & s2 & u & cl & nw & info & mx & _ & _ & _ & Hat & Hl & _).
          assert (forall s hh s', vleads cf s hh s' -> is_Some (v_calls s !! k) -> is_Some (v_calls s' !! k)) as Hkeep.
          { intros t hh t' Ht. induction Ht as [|t e1 o1 t1 hh t2 Hst _ IH']; [done|]. intros [y Hy]. apply IH'.
            rewrite (vstep_calls _ _ _ _ _ Hst). destruct (calls_turn cf t e1 o1.2 k y Hy) as (st & H & _). rewrite H. eauto. }
          destruct (Hkeep _ _ _ Hl) as [y Hy]; [unfold at_stage in Hat; rewrite Hat; eauto|]. congruence.
        - cbn [calls_after] in Hk'. unfold on_call in Hk'. rewrite list_lookup_alter, Hk in Hk'. done. }
      destruct (calls_new _ _ _ _ _ Hk' Hk) as [(user & close & info & mx & ->)|(user & close & m & ->)]; [exact Hnm|done]. }
  destruct (calls_turn cf s e o.2 k v Hk) as (st & H1 & Ht). rewrite H1 in Hk'. injection Hk' as <-. cbn [v_new v_close v_stage set_stage] in *.
  specialize (IH k v Hk Hnew Hcl Hnb1). destruct (vstep_gw _ _ _ _ _ Hs) as [Hg' He]. destruct o as [ge os]. cbn [fst snd] in *.
  assert (forall n, told n (v_gw s) -> told n (v_gw s')) as Hkeep by (intros n; eapply told_step; [apply Hid|exact Hg|exact Hg']).
  assert ((forall n, ~ made cf h k n) -> (forall info mx, v_stage v <> Submitting info mx) \/ (forall now, e <> VMove k now) ->
          forall n, ~ made cf (h ++ [(e, (ge, os))]) k n) as Hnm.
  { intros Hm Hor n [H|(Ho & now & ->)]%made_snoc; [by apply (Hm n)|]. cbn [snd] in Ho. subst os.
    destruct (move_submits _ _ _ _ _ _ _ _ Hs Hk) as (info & mx & E). destruct Hor as [Hor|Hor]; by eapply Hor. }
  assert (forall n er, clean cf (h ++ [(e, (ge, os))]) k (v_gw s') (fail v n er)) as Hfail by (intros n er; unfold fail; rewrite Hcl; done).
  destruct Ht as [e os|now os|os|code os|os|os|now os].
  - unfold clean in *. destruct (v_stage v) as [info mx|n|n|n|n a|n|n r|n er|[n|] er] eqn:Est; try exact I.
    + apply Hnm; [done|]. right. intros now ->. cbn [calls_after] in H1. rewrite (on_call_turn k k _ _ v Hk), decide_True in H1 by done.
      injection H1 as H1. unfold move in H1. rewrite Est in H1. cbn [gevent] in He. rewrite Hk in He. cbn [fmap option_fmap option_map] in He. rewrite Est in He. subst ge.
      cbn [step] in Hg'. unfold start_cluster, create_cluster in Hg'. apply pair_equal_spec in Hg' as [_ <-]. done.
    + apply Hkeep. done.
    + apply Hnm; [done|]. left. done.
  - unfold move. unfold clean in IH. destruct (v_stage v) as [info mx|n|n|n|n a|n|n r|n er|[n|] er] eqn:Est; try exact I.
    + cbn [gevent] in He. rewrite Hk in He. cbn [fmap option_fmap option_map] in He. rewrite Est in He. subst ge.
      cbn [step] in Hg'. unfold start_cluster, create_cluster in Hg'. apply pair_equal_spec in Hg' as [_ <-]. exact I.
    + destruct (arrive _ _ _); exact I.
    + destruct (objs _ !! _) as [c|]; [destruct (c_ready c)|]; exact I.
    + unfold receive. destruct a as [r|code]; [destruct (rp_status r)|]; try exact I; apply Hfail.
    + unfold clean. eapply delete_told; eauto.
    + unfold clean. apply Hkeep. done.
    + unfold clean. apply Hnm; [done|]. left. done.
  - unfold late. unfold clean in IH. destruct (v_stage v) as [info mx|n|n|n|n a|n|n r|n er|[n|] er] eqn:Est; try exact I.
    + unfold clean. apply Hnm; [done|]. right. done.
    + destruct (wait_over _ _ _); exact I.
    + unfold clean. apply Hkeep. done.
    + unfold clean. apply Hnm; [done|]. left. done.
  - unfold refuse. unfold clean in IH. destruct (v_stage v) as [info mx|n|n|n|n a|n|n r|n er|[n|] er] eqn:Est; try exact I.
    + destruct (400 <=? code); (unfold clean; apply Hnm; [done|]; right; done).
    + unfold clean. apply Hkeep. done.
    + unfold clean. apply Hnm; [done|]. left. done.
  - unfold timeout. unfold clean in IH. destruct (v_stage v) as [info mx|n|n|n|n a|n|n r|n er|[n|] er] eqn:Est; try exact I.
    + unfold clean. apply Hnm; [done|]. right. done.
    + unfold clean. apply Hkeep. done.
    + unfold clean. apply Hnm; [done|]. left. done.
  - exfalso. eapply (Hnb (ge, os)). apply elem_of_app. right. by left.
  - unfold cut. unfold clean in IH. destruct (v_stage v) as [info mx|n|n|n|n a|n|n r|n er|[n|] er] eqn:Est; try exact I.
    + unfold clean. apply Hnm; [done|]. right. done.
    + apply Hfail.
    + unfold clean. apply Hkeep. done.
    + unfold clean. apply Hnm; [done|]. left. done.
Qed.
Lemma failed_clean cf h s k user nm er : fresh_ids cf -> vreach cf h s -> at_stage s k user true true (Failed nm er) -> (forall o, (VBreak k, o) ∉ h) ->
  match nm with
  | None => forall n, ~ made cf h k n
  | Some n => made cf h k n /\ (forall c, objs (v_gw s) !! n = Some c -> c_target c <> RUNNING) /\
              ~ reported n (v_gw s) PPENDING /\ ~ reported n (v_gw s) PRUNNING
  end.
Proof.
  intros Hf Hr Hk Hnb. pose proof (clean_all cf h s Hf Hr k _ Hk eq_refl eq_refl Hnb) as Hc. cbn [v_stage clean] in Hc.
  destruct nm as [n|]; [|exact Hc]. destruct Hc as [_ Hc]. split; [eapply new_made; [exact Hr|exact Hk|done|done]|]. split; [exact Hc|].
  assert (forall p, reported n (v_gw s) p -> exists c, objs (v_gw s) !! n = Some c /\ model_status c = Some p) as Hrep.
  { intros p. unfold reported, get_cluster. destruct (lookup_cluster n (v_gw s)) as [c|] eqn:El; [|done]. cbn [fmap option_fmap option_map]. intros E. injection E as E.
    exists c. split; [apply (lookup_obj _ _ _ El)|done]. }
  split; intros (c & Ho & Hm)%Hrep; specialize (Hc c Ho); unfold model_status in Hm; destruct (c_status c), (c_target c); simpl in Hm; done.
Qed.
