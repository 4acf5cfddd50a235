(** Property C58: closing a GatewayCluster. *)
From stdpp Require Import base list.
From Verif Require Import Trace Client_Model Client_Spec Client_Proofs.

(** A close that has run to its end with shutdown in force has asked the gateway to stop
    the cluster that was submitted, unless the submission was cut short. *)
Theorem C58_asks_partial : forall soc asyn given h s i sd n, exec (step soc asyn) (init given) h s -> calls s !! i = Some (CDone sd) -> default soc sd = true ->
  its_cluster given s n -> ~ cut soc asyn given h -> asked h n.
Proof.
  intros soc asyn given h s i sd n Hx Hi Hd Hn Hc. destruct (inv_all soc asyn given h s Hx) as [H1 H2 H3 H4 H5 H6 H7]. apply (H3 i sd n Hi Hd).
  destruct Hn as [Hn|Hn]; [destruct H2 as [-> _]; congruence|]. destruct (decide (cname s = Some n)) as [?|E]; [done|]. exfalso.
  destruct (H7 n Hn E) as [Es|?]; [|done]. destruct H5 as [? _]; [|done]. rewrite (H4 i sd Hi). done.
Qed.
Print Assumptions C58_asks_partial.
(** Whatever stopped the wait, a close gets to its end once the stop task is over. *)
Theorem C58_ends : forall soc asyn s i sd, calls s !! i = Some (CWait sd) -> sp s = TDone -> calls (fst (step soc asyn s (EResume i))) !! i = Some (CDone sd).
Proof. intros soc asyn s i sd Hi Hs. cbn. rewrite Hi, Hs. cbn. rewrite list_lookup_insert; [done|by eapply lookup_lt_Some]. Qed.
Print Assumptions C58_ends.
(** It only ever asks to stop its own cluster, and only if some close had shutdown in
    force; so never if shutdown is off in the object and not asked for. *)
Theorem C58_own : forall soc asyn given h s n, exec (step soc asyn) (init given) h s -> asked h n -> its_cluster given s n /\ exists i sd, calls s !! i = Some (CDone sd) /\ default soc sd = true.
Proof. intros soc asyn given h s n Hx. apply (i_asked _ _ _ _ _ (inv_all soc asyn given h s Hx)). Qed.
Print Assumptions C58_own.
Lemma calls_from asyn given h s : exec (step false asyn) (init given) h s -> Forall (fun eo => fst eo <> EClose (Some true)) h -> Forall (fun c => match c with CWait sd | CDone sd | CDead sd => sd <> Some true end) (calls s).
Proof.
  set (ok := fun c => match c with CWait sd | CDone sd | CDead sd => sd <> Some true end).
  assert (He : forall s, Forall ok (calls s) -> Forall ok (calls (end_start s))) by (intros s0 H; cbn; apply Forall_app; split; [done|by apply Forall_replicate]).
  assert (Hb : forall s, Forall ok (calls s) -> Forall ok (calls (begin_stop s))).
  { intros s0 H. unfold begin_stop. destruct (sp s0); try done. destruct (st s0); try done; by apply He. }
  revert h s. apply (exec_ind_r (step false asyn) (init given) (fun h s => Forall (fun eo => fst eo <> EClose (Some true)) h -> Forall ok (calls s))); [by constructor|].
  intros h s e o s' _ IH Hs Hf. apply Forall_app in Hf as [Hf Hl]. apply Forall_cons in Hl as [Hl _]. cbn in Hl. specialize (IH Hf). destruct e as [|n| | | |sd| |i|i]; cbn [step] in Hs.
  - destruct (st s); [destruct (sp s)| | | |]; injection Hs as <- <-; try done. apply Hb. cbn. apply Forall_app. split; [done|by repeat constructor].
  - destruct (st s), (created s); injection Hs as <- <-; done.
  - destruct (st s), (created s); injection Hs as <- <-; done.
  - destruct (st s); injection Hs as <- <-; done.
  - destruct (st s); injection Hs as <- <-; try done; by apply He.
  - assert (G : Forall ok (calls (begin_stop s) ++ [CWait sd])) by (apply Forall_app; split; [by apply Hb|]; constructor; [cbn; congruence|constructor]).
    destruct asyn; [by injection Hs as <- <-|]. destruct (sp s); injection Hs as <- <-; done.
  - destruct (sp s); injection Hs as <- <-; done.
  - destruct (calls s !! i) as [[sd|sd|sd]|] eqn:Ei; try (by injection Hs as <- <-). rewrite Forall_lookup in IH. pose proof (IH _ _ Ei) as Hk. rewrite <- Forall_lookup in IH.
    destruct (sp s); injection Hs as <- <-; try done; by apply Forall_insert.
  - destruct (calls s !! i) as [[sd|sd|sd]|] eqn:Ei; try (by injection Hs as <- <-). rewrite Forall_lookup in IH. pose proof (IH _ _ Ei) as Hk. rewrite <- Forall_lookup in IH.
    injection Hs as <- <-. by apply Forall_insert.
Qed.
Theorem C58_never : forall asyn given h s n, exec (step false asyn) (init given) h s -> Forall (fun eo => fst eo <> EClose (Some true)) h -> ~ asked h n.
Proof.
  intros asyn given h s n Hx Hf Ha. destruct (C58_own false asyn given h s n Hx Ha) as (_ & i & sd & Hi & Hd). pose proof (calls_from asyn given h s Hx Hf) as Hc. rewrite Forall_lookup in Hc. specialize (Hc _ _ Hi). cbn in Hc.
  destruct sd as [[]|]; cbn in Hd; congruence.
Qed.
Print Assumptions C58_never.

Definition the_state (soc asyn : bool) (es : list event) : state := fst (run (step soc asyn) (init None) es).
Definition the_history (soc asyn : bool) (es : list event) : history := snd (run (step soc asyn) (init None) es).
Lemma the_run soc asyn es : exec (step soc asyn) (init None) (the_history soc asyn es) (the_state soc asyn es).
Proof. apply (run_exec _ _ es). unfold the_state, the_history. by destruct (run (step soc asyn) (init None) es). Qed.
(** Closed while waiting for the cluster to start. *)
Definition ex_events := [EStart; ECreated 5; ESubmitted; EClose None; EClosed; EResume 1; EResume 0].
Example C58_example : map snd (the_history true true ex_events) = [ONone; ONone; ONone; ONone; ONone; OStop 5; OStop 5] /\ calls (the_state true true ex_events) = [CDone None; CDone None].
Proof. split; vm_compute; reflexivity. Qed.
Lemma ex_not_cut : ~ cut true true None (the_history true true ex_events).
Proof.
  intros (h1 & e & o & h2 & s & E & Hx & Hs & He). apply exec_run in Hx. assert (E1 : map fst h1 = take (length h1) (map fst (the_history true true ex_events))) by (rewrite E, map_app, <- (map_length fst h1), take_app; done).
  assert (E2 : map fst (the_history true true ex_events) = ex_events) by (vm_compute; reflexivity). rewrite E2 in E1.
  assert (E3 : ex_events !! length h1 = Some e) by (rewrite <- E2, E, map_app, lookup_app_r; rewrite map_length; [by rewrite Nat.sub_diag|lia]).
  rewrite E1 in Hx. destruct (length h1) as [|[|[|[|[|[|[|k]]]]]]]; cbn in E3; try (injection E3 as <-; destruct He as [He|(sd & He)]; try discriminate He); try discriminate E3.
  clear -Hx Hs. cbn in Hx. injection Hx as <- _. done.
Qed.

(** The full claims are false.  A close while the submission is under way does not ask to
    stop the cluster the gateway creates, however often it is closed. *)
Theorem C58_asks_refuted : exists h s n, exec (step true true) (init None) h s /\ created s = Some n /\ calls s !! 1%nat = Some (CDone None) /\ calls s !! 0%nat = Some (CDone None) /\
  ~ asked h n /\ cname s = None.
Proof.
  set (es := [EStart; ECreated 5; EClose None; EClosed; EResume 0; EResume 1]). exists (the_history true true es), (the_state true true es), 5%positive. split; [apply the_run|]. do 3 (split; [vm_compute; reflexivity|]). split; [|vm_compute; reflexivity].
  intros (e & H). apply (elem_of_list_fmap_1 snd) in H. assert (E : snd <$> the_history true true es = [ONone; ONone; ONone; ONone; ONone; ONone]) by (vm_compute; reflexivity). rewrite E in H. clear -H.
  repeat (apply elem_of_cons in H as [H|H]; [discriminate H|]). by apply elem_of_nil in H.
Qed.
Print Assumptions C58_asks_refuted.
(** close(shutdown=False) while the cluster is starting stops it nevertheless: the start
    that is cancelled closes with the default. *)
Theorem C58_off_refuted : exists h s n, exec (step true true) (init None) h s /\ Forall (fun eo => match fst eo with EClose sd => sd = Some false | _ => True end) h /\ asked h n.
Proof.
  set (es := [EStart; ECreated 5; ESubmitted; EClose (Some false); EClosed; EResume 0]). exists (the_history true true es), (the_state true true es), 5%positive. split; [apply the_run|]. split.
  - vm_compute. repeat constructor.
  - exists (EResume 0). assert (E : the_history true true es = [(EStart, ONone); (ECreated 5, ONone); (ESubmitted, ONone); (EClose (Some false), ONone); (EClosed, ONone); (EResume 0, OStop 5)]) by (vm_compute; reflexivity).
    rewrite E. do 5 right. left.
Qed.
Print Assumptions C58_off_refuted.
(** When a close is cancelled, later ones cannot stop the cluster any more. *)
Lemma dead soc asyn s h s' : exec (step soc asyn) s h s' -> sp s = TCancelled -> sp s' = TCancelled /\ forall n, ~ asked h n.
Proof.
  intros Hx. induction Hx as [s|s e o s1 h s2 Hs Hx IH]; intros Ht; [split; [done|]; intros n (e & H); by apply elem_of_nil in H|].
  assert (E : sp s1 = TCancelled /\ o = ONone).
  { destruct e as [|n| | | |sd| |i|i]; cbn [step] in Hs; rewrite ?Ht in Hs.
    - destruct (st s); injection Hs as <- <-; try done; unfold begin_stop; cbn; by rewrite Ht.
    - destruct (st s), (created s); injection Hs as <- <-; done.
    - destruct (st s), (created s); injection Hs as <- <-; done.
    - destruct (st s); injection Hs as <- <-; done.
    - destruct (st s); injection Hs as <- <-; try done; unfold end_start; cbn; by rewrite Ht.
    - destruct asyn; injection Hs as <- <-; unfold begin_stop; rewrite Ht; cbn; done.
    - injection Hs as <- <-; done.
    - destruct (calls s !! i) as [[sd|sd|sd]|]; injection Hs as <- <-; done.
    - destruct (calls s !! i) as [[sd|sd|sd]|]; injection Hs as <- <-; done. }
  destruct E as [E ->]. destruct (IH E) as [Hsp Hn]. split; [done|]. intros n (e' & [X|X]%elem_of_cons); [done|]. apply (Hn n). by exists e'.
Qed.
Theorem C58_cancelled_refuted : exists h s, exec (step true true) (init None) h s /\ cname s = Some 5%positive /\ (forall n, ~ asked h n) /\
  forall h2 s2 n, exec (step true true) s h2 s2 -> ~ asked h2 n.
Proof.
  set (es := [EStart; ECreated 5; ESubmitted; EStarted; EClose None; ECancel 0]). exists (the_history true true es), (the_state true true es). split; [apply the_run|]. split; [vm_compute; reflexivity|]. split.
  - intros n (e & H). apply (elem_of_list_fmap_1 snd) in H. assert (E : snd <$> the_history true true es = [ONone; ONone; ONone; ONone; ONone; ONone]) by (vm_compute; reflexivity). rewrite E in H. clear -H.
    repeat (apply elem_of_cons in H as [H|H]; [discriminate H|]). by apply elem_of_nil in H.
  - intros h2 s2 n Hx. destruct (dead _ _ _ _ _ Hx) as [_ Hn]; [vm_compute; reflexivity|apply Hn].
Qed.
Print Assumptions C58_cancelled_refuted.
