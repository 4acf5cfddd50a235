(** C121-C124: what users get from new_cluster() and connect(). *)
From Coq Require Import ZArith List.
From stdpp Require Import prelude gmap.
From Verif Require Import Trace WorkQueue_Model Gateway_Model Gateway_Spec Gateway_Spec3 Visit_Model Visit_Spec Visit_Proofs Visit_Live.
From Verif Require Import P_Gateway P_Gateway3.
Open Scope Z_scope.

Lemma vex_run cf es (P : vhistory -> vgw -> Prop) :
  P (Trace.run (vstep cf) (vinit cf) es).2 (Trace.run (vstep cf) (vinit cf) es).1 ->
  exists h s, vreach cf h s /\ map fst h = es /\ P h s.
Proof.
  intros HP. destruct (Trace.run (vstep cf) (vinit cf) es) as [s h] eqn:E. exists h, s.
  pose proof (run_exec _ _ _ _ _ E) as Hx. split; [exact Hx|]. split; [|exact HP].
  clear -E. revert s h E. generalize (vinit cf). induction es as [|e es IH]; intros s0 s h E; cbn [Trace.run] in E.
  - injection E as <- <-. done.
  - destruct (vstep cf s0 e) as [s1 o] eqn:E1. destruct (Trace.run (vstep cf) s1 es) as [s2 h2] eqn:E2. injection E as <- <-.
    cbn [map fst]. f_equal. eapply IH, E2.
Qed.

(** C121. A call that returns hands over a cluster of the caller that was running
    while the call was made, and the report says all that is needed to connect to it;
    new_cluster() hands over the cluster it made. *)
Theorem C121_started : forall cf h s k user new close n r, ids_ok cf (gw_part h) -> vreach cf h s ->
  at_stage s k user new close (Started n r) ->
  during cf h k (running_for user n r) /\ (new = true -> made cf h k n).
Proof.
  intros cf h s k user new close n r Hi Hr Hk. split; [eapply started_running; eauto|].
  intros ->. eapply new_made; [exact Hr|exact Hk|done|done].
Qed.
Print Assumptions C121_started.
(** Two calls of new_cluster() never hand over the same cluster. *)
Theorem C121_own : forall cf h s k1 k2 u1 u2 close1 close2 n r1 r2, ids_ok cf (gw_part h) -> vreach cf h s ->
  at_stage s k1 u1 true close1 (Started n r1) -> at_stage s k2 u2 true close2 (Started n r2) -> k1 = k2.
Proof.
  intros cf h s k1 k2 u1 u2 close1 close2 n r1 r2 Hi Hr H1 H2. eapply made_once; [exact Hi|exact Hr|..];
    (eapply new_made; [exact Hr| |..]; [first [exact H1|exact H2]|done|done]).
Qed.
Print Assumptions C121_own.

(** Two users make a cluster each, a third call connects to the first; the wait of
    20 seconds ends once before the cluster runs. *)
Definition vx_two : list vevent := ([VNew 1 true 7 (Some 2); VNew 2 false 8 None; VMove 0 0; VMove 1 0; VMove 0 1; VMove 0 1; VConnect 1 false 0; VMove 2 1;
  VGateway (EGet 0 1); VGateway (EGet 1 1); VGateway (EBackend 0 Ends 3); VGateway (EBackend 1 Ends 3); VLate 0; VMove 0 3; VMove 0 4; VMove 0 4;
  VGateway (EHeartbeat 1 (ex_msg 0 [] [] []) 4); VGateway (EHeartbeat 0 (ex_msg 0 [] [] []) 4);
  VGateway (EGet 0 5); VGateway (EGet 1 5); VMove 0 6; VMove 0 6; VMove 2 6; VMove 2 6; VMove 1 7; VMove 1 7; VMove 1 7])%list.
Example C121_example : exists h s, let cf := ex_cf false 3 in vreach cf h s /\ map fst h = vx_two /\
  exists r0 r1, at_stage s 0 1 true true (Started 0 r0) /\ at_stage s 1 2 true false (Started 1 r1) /\
  at_stage s 2 1 false false (Started 0 r0) /\ rp_link r0 = true /\ rp_creds r1 = Some 8%nat.
Proof. apply vex_run. vm_compute. eexists _, _. repeat split. Qed.

(** C122. A call that raises has a reason: GatewayClusterError, the caller's cluster
    had ended; ValueError, the gateway does not know the cluster; an error of the
    server (status 500), the cluster had ended as failed though it was to be stopped,
    or the other way round (see C29); another error status only from connect(), the
    cluster is somebody else's; or the connection or the gateway's process broke. *)
Theorem C122_failed_why : forall cf h s k user new close n er, ids_ok cf (gw_part h) -> vreach cf h s ->
  at_stage s k user new close (Failed (Some n) er) ->
  match er with
  | ECluster => during cf h k (fun g => exists c, objs g !! n = Some c /\ r_user (c_row c) = user /\ finished (c_status c))
  | EValue => during cf h k (fun g => lookup_cluster n g = None)
  | EServer => during cf h k (fun g => exists c, objs g !! n = Some c /\ finished (c_status c) /\ c_target c <> c_status c)
  | EResponse => new = false /\ during cf h k (fun g => exists c, objs g !! n = Some c /\ r_user (c_row c) <> user)
  | EBroken => broken h k
  end.
Proof. exact failed_why. Qed.
Print Assumptions C122_failed_why.
(** After GatewayClusterError the cluster never runs, whatever happens then: it is not
    reported as running, and nothing is started for it. *)
Theorem C122_final : forall cf h s k user new close n h2 s2, ids_ok cf (gw_part (h ++ h2)) -> vreach cf h s ->
  at_stage s k user new close (Failed (Some n) ECluster) -> vleads cf s h2 s2 ->
  ~ reported n (v_gw s2) PRUNNING /\ OStartC n ∉ seen (gw_part h2) /\ forall w, OStartW n w ∉ seen (gw_part h2).
Proof. exact failed_final. Qed.
Print Assumptions C122_final.

(** Four calls fail: the first because the cluster is stopped meanwhile, the second
    asks for a cluster that does not exist, the third for somebody else's, the
    connection of the fourth breaks. *)
Definition vx_fail : list vevent := ([VNew 1 true 7 None; VMove 0 0; VMove 0 0; VMove 0 0; VConnect 1 false 9; VConnect 2 true 0; VConnect 1 false 0; VMove 3 1;
  VMove 1 1; VMove 1 1; VGateway (EStop 0 false); VBreak 3; VMove 2 2; VGateway (EGet 0 1); VMove 0 2; VMove 0 2; VGateway (EGet 0 2); VGateway (EBackend 0 Ends 3);
  VMove 0 3; VMove 0 3; VMove 0 3; VMove 0 3; VMove 2 2; VMove 2 2; VMove 2 2])%list.
Example C122_example : exists h s, let cf := ex_cf false 3 in vreach cf h s /\ map fst h = vx_fail /\
  at_stage s 0 1 true true (Failed (Some 0%nat) ECluster) /\ at_stage s 1 1 false false (Failed (Some 9%nat) EValue) /\
  at_stage s 2 2 false true (Failed (Some 0%nat) EResponse) /\ at_stage s 3 1 false false (Failed (Some 0%nat) EBroken).
Proof. apply vex_run. vm_compute. repeat split. Qed.

(** C124. new_cluster() that raises, with shutdown_on_close, leaves no cluster behind:
    either none was made, or the one that was made is told to end, and is not reported
    as pending or running.  Missing: the exceptions of the connection. *)
Theorem C124_clean_partial : forall cf h s k user nm er, fresh_ids cf -> vreach cf h s ->
  at_stage s k user true true (Failed nm er) -> (forall o, (VBreak k, o) ∉ h) ->
  match nm with
  | None => forall n, ~ made cf h k n
  | Some n => made cf h k n /\ (forall c, objs (v_gw s) !! n = Some c -> c_target c <> RUNNING) /\
              ~ reported n (v_gw s) PPENDING /\ ~ reported n (v_gw s) PRUNNING
  end.
Proof. exact failed_clean. Qed.
Print Assumptions C124_clean_partial.
(** If the answer to the POST is lost the client does not know the name: the call
    fails, and a cluster nobody knows of runs. *)
Theorem C124_clean_refuted : exists h s, let cf := ex_cf false 3 in vreach cf h s /\ fresh_ids cf /\
  at_stage s 0 1 true true (Failed None EBroken) /\ made cf h 0 0 /\ reported 0 (v_gw s) PRUNNING.
Proof.
  assert (exists h s, let cf := ex_cf false 3 in vreach cf h s /\ map fst h = ([VNew 1 true 7 None; VMove 0 0; VBreak 0; VGateway (EGet 0 1); VGateway (EBackend 0 Ends 3);
    VGateway (EHeartbeat 0 (ex_msg 0 [] [] []) 4); VGateway (EGet 0 5)])%list /\
    (at_stage s 0 1 true true (Failed None EBroken) /\ reported 0 (v_gw s) PRUNNING /\ exists x y ge, take 2 h = [x; (y, ge)] /\ y = VMove 0 0 /\ ge.2 = [OCreated 0]))
    as (h & s & Hr & _ & H1 & H2 & x & y & [ge o] & H3 & -> & H4).
  { apply vex_run. vm_compute. split; [reflexivity|]. split; [reflexivity|]. eexists _, _, _. repeat split. }
  exists h, s. split; [exact Hr|]. split; [apply ex_fresh|]. split; [exact H1|]. split; [|exact H2].
  cbn [snd] in H4. subst o. exists [x], 0, ge, (drop 2 h). rewrite <- (take_drop 2 h) at 1. rewrite H3. done.
Qed.
Print Assumptions C124_clean_refuted.

(** A call whose cluster is stopped by somebody else, and one that the gateway refuses. *)
Example C124_example : exists h s, let cf := ex_cf false 3 in vreach cf h s /\ map fst h = ([VNew 1 true 7 None; VNew 1 true 7 (Some 2); VRefuse 1 422] ++ drop 1 vx_fail)%list /\
  at_stage s 1 1 true true (Failed None EValue).
Proof. apply vex_run. vm_compute. repeat split. Qed.

(** C123. Every call ends, whatever the users do: the cluster comes up, or the
    gateway gives it up after a while and the call raises.  Missing: runs of a
    gateway that was started again. *)
Theorem C123_ends_partial : forall cf run ev k i v, vendless cf run ev -> vfair cf run ev -> fresh_ids cf -> first_life cf (run O) ->
  served run ev k -> v_calls (run i) !! k = Some v ->
  exists j st, (i <= j)%nat /\ v_calls (run j) !! k = Some (set_stage st v) /\ over st.
Proof. intros cf run ev k i v HE HF Hf H1. exact (call_ends cf run ev HE HF Hf H1 k i v). Qed.
Print Assumptions C123_ends_partial.
(** If the cluster runs from now on and no connection breaks, the call returns it
    (in every life of the gateway). *)
Theorem C123_returns : forall cf run ev k i user close new st n, vendless cf run ev ->
  served run ev k -> at_stage (run i) k user new close st -> waits_for n st ->
  (forall j, (i <= j)%nat -> says_running (v_gw (run j)) user n) -> (forall j, (i <= j)%nat -> ev j <> VBreak k) ->
  exists j r, (i <= j)%nat /\ at_stage (run j) k user new close (Started n r).
Proof. intros cf run ev k i user close new st n HE. exact (call_returns cf run ev HE k i user close new st n). Qed.
Print Assumptions C123_returns.

(** A gateway that was started again, with cluster 0 of which it was never heard
    since: every check raises TypeError (C30), and cluster 1, which does not come up,
    is never given up. *)
Definition vx_stuck : list vevent := (map VGateway (ex_submit ++ [EHeartbeat 0 (ex_msg 0 [] [] []) 4; ERestart 20; EStart 1 7 None 21; EGet 0 22; EGet 1 22; EBackend 1 Ends 23; EGet 1 24; EGet 0 24])
  ++ [VConnect 1 false 1])%list.
Definition vx_rep : report := Rep 1 PPENDING false false None 21 None.
(** Everybody's turn, and a check, at time [now]; then the call asks, is answered
    after 20 seconds, and sleeps. *)
Definition vx_loop (r : nat) (now : Z) : vevent :=
  match r with
  | O => VGateway (EGet 0 now) | 1 => VGateway (EGet 1 now) | 2 => VGateway (EWake 0 now) | 3 => VGateway (EWake 1 now)
  | 4 => VGateway (ECheckTimeouts now) | 5 => VMove 0 now | 6 => VLate 0 | 7 => VMove 0 now | _ => VMove 0 now
  end%nat.
Definition vx_call (r : nat) : stage :=
  match r with 6 => Held 1 | 7 => Told 1 (AReport vx_rep) | 8 => Sleeping 1 | _ => Asking 1 end%nat.
Definition vx_ev (i : nat) : vevent := vx_loop (i mod 9) (Z.of_nat i).
Definition vx_state (g : gw) (r : nat) : vgw := VG g [Visit 1 false false (vx_call r)].
Definition vx_run (g : gw) (i : nat) : vgw := vx_state g (i mod 9).
Lemma blocked_get cf g k now : tasks (q g) !! k = Some Blocked -> (step cf g (EGet k now)).1 = g.
Proof. intros H. cbn [step]. rewrite H. destruct (decide _); [|done]. destruct (busy g !! k); done. Qed.
Lemma blocked_wake cf g k now : tasks (q g) !! k = Some Blocked -> (step cf g (EWake k now)).1 = g.
Proof. intros H. cbn [step WorkQueue_Model.step]. rewrite H. cbn [got fst]. destruct g. done. Qed.
Lemma vx_facts : exists h g, let cf := ex_cf false 3 in vreach cf h (vx_state g 0) /\
  tasks (q g) !! 0%nat = Some Blocked /\ tasks (q g) !! 1%nat = Some Blocked /\ (forall now, find_late cf now (active_clusters g) = None) /\
  arrive 1 1 g = None /\ wait_over 1 1 g = Some (AReport vx_rep) /\ map_to_list (busy g) = [] /\ closed (q g) = false /\ down g = None.
Proof.
  assert (exists h s, let cf := ex_cf false 3 in vreach cf h s /\ map fst h = vx_stuck /\
    (tasks (q (v_gw s)) !! 0%nat = Some Blocked /\ tasks (q (v_gw s)) !! 1%nat = Some Blocked /\ (forall now, find_late cf now (active_clusters (v_gw s)) = None) /\
     v_calls s = [Visit 1 false false (Asking 1)] /\
    arrive 1 1 (v_gw s) = None /\ wait_over 1 1 (v_gw s) = Some (AReport vx_rep) /\ map_to_list (busy (v_gw s)) = [] /\ closed (q (v_gw s)) = false /\ down (v_gw s) = None))
    as (h & [g vs] & Hr & _ & H1 & H2 & H3 & H4 & H5).
  { apply vex_run. vm_compute. repeat split. }
  cbn [v_gw v_calls] in *. subst vs. exists h, g. done.
Qed.
Theorem C123_ends_refuted : exists run ev, let cf := ex_cf false 3 in vendless cf run ev /\ vfair cf run ev /\ fresh_ids cf /\
  served run ev 0 /\ exists user new close, forall i, exists st, at_stage (run i) 0 user new close st /\ ~ over st.
Proof.
  destruct vx_facts as (h & g & Hr & B0 & B1 & Hl & Ha & Hw & Hb & Hc & Hd). set (cf := ex_cf false 3) in *. cbn zeta in Hr.
  assert (forall i, (S i mod 9 = if (i mod 9 =? 8)%nat then O else S (i mod 9))%nat) as Hm.
  { intros i. pose proof (Nat.mod_upper_bound i 9). pose proof (Nat.div_mod i 9). destruct (Nat.eqb_spec (i mod 9) 8).
    - symmetry. apply (Nat.mod_unique _ _ (S (i / 9))); lia.
    - symmetry. apply (Nat.mod_unique _ _ (i / 9)); lia. }
  assert (forall r now, (r < 9)%nat -> crash (gevent cf (vx_state g r) (vx_loop r now)) = false /\
    (vstep cf (vx_state g r) (vx_loop r now)).1 = vx_state g (if (r =? 8)%nat then O else S r)) as Hs.
  { intros r now Hlt. unfold vstep. unfold vx_state at 3.
    assert (forall e, (step cf g e).1 = g -> exists o, step cf g e = (g, o)) as Hpair by (intros e E; destruct (step cf g e) as [x y]; cbn [fst] in E; subst x; eauto).
    destruct r as [|[|[|[|[|[|[|[|[|r]]]]]]]]]; [..|exfalso; lia]; cbn [vx_loop gevent v_calls vx_state vx_call lookup list_lookup fmap option_fmap option_map v_stage v_user v_gw]; (split; [done|]).
    - destruct (Hpair _ (blocked_get cf g 0 now B0)) as (o & ->). done.
    - destruct (Hpair _ (blocked_get cf g 1 now B1)) as (o & ->). done.
    - destruct (Hpair _ (blocked_wake cf g 0 now B0)) as (o & ->). done.
    - destruct (Hpair _ (blocked_wake cf g 1 now B1)) as (o & ->). done.
    - assert (step cf g (ECheckTimeouts now) = (g, [OTypeError])) as ->; [|done]. cbn [step]. rewrite Hd. unfold check_timeouts. rewrite Hl. done.
    - rewrite nothing_step. cbn. rewrite Ha. done.
    - rewrite nothing_step. cbn. rewrite Hw. done.
    - rewrite nothing_step. done.
    - rewrite nothing_step. done. }
  assert (forall i r, (r < 9)%nat -> exists j, (i <= j)%nat /\ (j mod 9 = r)%nat) as Hex.
  { intros i r Hlt. exists (r + i * 9)%nat. split; [lia|]. rewrite Nat.mod_add by lia. apply Nat.mod_small. done. }
  assert (forall i, i mod 9 < 9)%nat as Hlt by (intros i; apply Nat.mod_upper_bound; lia).
  exists (vx_run g), vx_ev. cbn zeta. split; [constructor|split; [constructor; [constructor|]|split; [|split; [constructor|]]]].
  - exists h. split; [left; apply ex_fresh|exact Hr].
  - intros i. unfold vx_run, vx_ev. rewrite Hm. symmetry. apply Hs, Hlt.
  - intros i. apply Hs, Hlt.
  - intros i. exact Hc.
  - intros i. exact Hd.
  - unfold cf. cbn. lia.
  - intros i k Hk. cbn in Hk. destruct (Hex i k) as (j & Hij & Hj); [lia|]. exists j, (Z.of_nat j). split; [done|].
    unfold vx_ev. rewrite Hj. destruct k as [|[|k]]; [done..|lia].
  - intros i k Hk. cbn in Hk. destruct (Hex i (2 + k)%nat) as (j & Hij & Hj); [lia|]. exists j, (Z.of_nat j). split; [done|].
    unfold vx_ev. rewrite Hj. destruct k as [|[|k]]; [done..|lia].
  - intros i k [x Hx]. exfalso. apply map_to_list_empty_iff in Hb. cbn [v_gw vx_run vx_state] in Hx. rewrite Hb in Hx. done.
  - intros i t. destruct (Hex (i + Z.to_nat (t + 1))%nat 4%nat) as (j & Hij & Hj); [lia|]. exists j, (Z.of_nat j).
    split; [lia|]. split; [lia|]. unfold vx_ev. rewrite Hj. done.
  - apply ex_fresh.
  - intros i v Hv. right. change (Some (Visit 1 false false (vx_call (i mod 9))) = Some v) in Hv. apply (inj Some) in Hv. subst v.
    assert (forall x y : stage, x <> y -> Some (Visit 1 false false x) <> Some (Visit 1 false false y)) as Hne by congruence.
    destruct (Nat.eq_dec (i mod 9) 6)%nat as [E|E]; [destruct (Hex i 7%nat) as (j & Hij & Hj); [lia|]|destruct (Hex i 6%nat) as (j & Hij & Hj); [lia|]];
      exists j; (split; [done|]); change (v_calls (vx_run g j) !! 0%nat) with (Some (Visit 1 false false (vx_call (j mod 9)))); apply Hne; rewrite Hj; [rewrite E; done|].
    specialize (Hlt i). destruct (i mod 9)%nat as [|[|[|[|[|[|[|[|[|r]]]]]]]]]; try done; lia.
  - exists O. intros j _. unfold vx_ev, vx_loop. destruct (j mod 9)%nat as [|[|[|[|[|[|[|[|r]]]]]]]]; done.
  - exists 1%nat, false, false. intros i. exists (vx_call (i mod 9)%nat). split; [done|].
    unfold vx_call. intros [(? & ? & ?)|(? & ? & ?)]; destruct (i mod 9)%nat as [|[|[|[|[|[|[|[|[|r]]]]]]]]]; done.
Qed.
Print Assumptions C123_ends_refuted.

(** Endless runs for the examples: first [es]; then turns and ends for everybody, and
    checks, in a state in which they change nothing. *)
Definition vl_loop (i : nat) : vevent :=
  let now := Z.of_nat i in
  match (i mod 7)%nat with
  | 5%nat => VGateway (EBackend 0 Ends now) | 6%nat => VGateway (EBackend 1 Ends now) | r => vx_loop r now
  end.
Definition vl_ev (es : list vevent) (i : nat) : vevent := match es !! i with Some e => e | None => vl_loop i end.
Fixpoint vl_run (cf : cfg) (s : vgw) (es : list vevent) (i : nat) : vgw :=
  match i with O => s | S i => (vstep cf (vl_run cf s es i) (vl_ev es i)).1 end.
Fixpoint vl_after (cf : cfg) (s : vgw) (es : list vevent) : vgw := match es with [] => s | e :: es => vl_after cf (vstep cf s e).1 es end.
Definition vl_ok (s : vgw) : bool := negb (closed (q (v_gw s))) && bool_decide (down (v_gw s) = None) && forallb (fun x => x.1 <? 2)%nat (map_to_list (busy (v_gw s))).
Definition vl_end (cf : cfg) (g : gw) : Prop := tasks (q g) !! 0%nat = Some Blocked /\ tasks (q g) !! 1%nat = Some Blocked /\
  (forall now, (step cf g (ECheckTimeouts now)).1 = g) /\ map_to_list (busy g) = [] /\ closed (q g) = false /\ down g = None.
Lemma vl_after_app cf s es1 es2 : vl_after cf s (es1 ++ es2) = vl_after cf (vl_after cf s es1) es2.
Proof. revert s. induction es1 as [|e es1 IH]; intros s; cbn; [done|]. apply IH. Qed.
Lemma vl_take cf s es i : (i <= length es)%nat -> vl_run cf s es i = vl_after cf s (take i es).
Proof.
  induction i as [|i IH]; intros Hi; [done|]. destruct (lookup_lt_is_Some_2 es i) as [e He]; [lia|].
  rewrite (take_S_r _ _ _ He), vl_after_app. cbn [vl_run vl_after]. rewrite IH by lia. unfold vl_ev. rewrite He. done.
Qed.
Lemma vl_fix cf g vs i : vl_end cf g -> (vstep cf (VG g vs) (vl_loop i)).1 = VG g vs /\ crash (gevent cf (VG g vs) (vl_loop i)) = false.
Proof.
  intros (B0 & B1 & Hc & Hb & _). apply map_to_list_empty_iff in Hb.
  assert (exists e, vl_loop i = VGateway e /\ (step cf g e).1 = g /\ crash e = false /\ calls_after (VG g vs) (VGateway e) (step cf g e).2 = vs) as (e & -> & He & Hcr & Hca).
  { unfold vl_loop, vx_loop. assert (i mod 7 < 7)%nat by (apply Nat.mod_upper_bound; lia).
    destruct (i mod 7)%nat as [|[|[|[|[|[|[|r]]]]]]]; [..|exfalso; lia]; (eexists; split; [done|]; split; [|done]).
    - by apply blocked_get. - by apply blocked_get. - by apply blocked_wake. - by apply blocked_wake. - apply Hc.
    - cbn [step]. unfold resume. rewrite Hb. done.
    - cbn [step]. unfold resume. rewrite Hb. done. }
  unfold vstep. cbn [gevent v_gw]. destruct (step cf g e) as [g' o]. cbn [fst snd] in *. subst g'. rewrite Hca. done.
Qed.
Lemma vl_last cf s es i : vl_end cf (v_gw (vl_after cf s es)) -> (length es <= i)%nat -> vl_run cf s es i = vl_after cf s es.
Proof.
  intros He Hi. induction Hi as [|i Hi IH]; [rewrite vl_take by lia; rewrite firstn_all; done|].
  cbn [vl_run]. rewrite IH. unfold vl_ev. rewrite lookup_ge_None_2 by lia. destruct (vl_after cf s es) as [g vs]. apply vl_fix. exact He.
Qed.
Lemma vl_exists cf h s es : ids_ok cf (gw_part h) -> vreach cf h s -> parallelism cf = 2%nat -> vl_end cf (v_gw (vl_after cf s es)) ->
  forallb (fun i => vl_ok (vl_after cf s (take i es))) (seq 0 (length es)) = true ->
  Forall (fun e => match e with VGateway e => crash e = false | _ => True end) es ->
  vendless cf (vl_run cf s es) (vl_ev es) /\ vfair cf (vl_run cf s es) (vl_ev es).
Proof.
  intros Hi Hr Hp He Hok Hcr. rewrite forallb_forall in Hok.
  assert (forall i, vl_ok (vl_run cf s es i) = true) as Hall.
  { intros i. destruct (decide (i < length es)%nat) as [Hlt|Hge].
    - rewrite vl_take by lia. apply Hok. apply in_seq. lia.
    - rewrite vl_last by (done || lia). destruct He as (_ & _ & _ & Hb & Hc & Hd). unfold vl_ok. rewrite Hb, Hc, Hd. done. }
  assert (forall i r, (r < 7)%nat -> exists j, (i <= j)%nat /\ vl_ev es j = vl_loop j /\ (j mod 7 = r)%nat) as Hex.
  { intros i r Hlt. exists (r + (i + length es) * 7)%nat. split; [lia|]. split.
    - unfold vl_ev. rewrite lookup_ge_None_2 by lia. done.
    - rewrite Nat.mod_add by lia. apply Nat.mod_small. done. }
  split; constructor.
  - exists h. done.
  - intros i. done.
  - intros i. destruct (decide (i < length es)%nat) as [Hlt|Hge].
    + destruct (lookup_lt_is_Some_2 es i Hlt) as [e E]. unfold vl_ev. rewrite E.
      pose proof (proj1 (Forall_forall _ _) Hcr e (elem_of_list_lookup_2 _ _ _ E)) as H. destruct e as [e| | |k now| | | |]; try done.
      cbn [gevent]. destruct (v_calls _ !! k) as [[user close new st]|]; [|done]. cbn [fmap option_fmap option_map v_stage v_user].
      destruct st; try done. destruct (may_stop _ _ _); done.
    + rewrite vl_last by (done || lia). unfold vl_ev. rewrite lookup_ge_None_2 by lia.
      destruct (vl_after cf s es) as [g vs]. eapply vl_fix, He.
  - intros i. specialize (Hall i). unfold vl_ok in Hall. destruct (closed _); done.
  - intros i. specialize (Hall i). unfold vl_ok in Hall. apply andb_prop in Hall as [H _]. apply andb_prop in H as [_ H]. apply bool_decide_eq_true in H. done.
  - constructor.
    + lia.
    + intros i k Hk. destruct (Hex i k) as (j & Hij & Ej & Hj); [lia|]. exists j, (Z.of_nat j). split; [done|]. rewrite Ej. unfold vl_loop. rewrite Hj.
      destruct k as [|[|k]]; [done..|lia].
    + intros i k Hk. destruct (Hex i (2 + k)%nat) as (j & Hij & Ej & Hj); [lia|]. exists j, (Z.of_nat j). split; [done|]. rewrite Ej. unfold vl_loop. rewrite Hj.
      destruct k as [|[|k]]; [done..|lia].
    + intros i k [x Hx]. specialize (Hall i). unfold vl_ok in Hall. apply andb_prop in Hall as [_ H]. rewrite forallb_forall in H.
      assert (k < 2)%nat as Hk. { apply elem_of_map_to_list in Hx. apply elem_of_list_In in Hx. specialize (H _ Hx). cbn [fst] in H. apply Nat.ltb_lt. exact H. }
      destruct (Hex i (5 + k)%nat) as (j & Hij & Ej & Hj); [lia|]. exists j, Ends, (Z.of_nat j). split; [done|]. rewrite Ej. unfold vl_loop. rewrite Hj.
      destruct k as [|[|k]]; [auto..|lia].
  - intros i t. destruct (Hex (i + Z.to_nat (t + 1))%nat 4%nat) as (j & Hij & Ej & Hj); [lia|]. exists j, (Z.of_nat j).
    split; [lia|]. split; [lia|]. rewrite Ej. unfold vl_loop. rewrite Hj. done.
Qed.
(** A call that is over at the end of [es]. *)
Lemma vl_served cf s es k v : vl_end cf (v_gw (vl_after cf s es)) -> v_calls (vl_after cf s es) !! k = Some v -> over (v_stage v) ->
  Forall (fun e => e <> VTimeout k) es -> served (vl_run cf s es) (vl_ev es) k.
Proof.
  intros He Hk Ho Ht. constructor.
  - intros i v' Hv'. destruct (decide (v' = v)) as [->|Hne]; [auto|]. right. exists (Nat.max i (length es)). split; [lia|].
    rewrite vl_last by (done || lia). rewrite Hk. congruence.
  - exists O. intros j _ E. unfold vl_ev in E. destruct (es !! j) as [e|] eqn:Ej.
    + subst e. exact (proj1 (Forall_forall _ _) Ht _ (elem_of_list_lookup_2 _ _ _ Ej) eq_refl).
    + unfold vl_loop, vx_loop in E. destruct (j mod 7)%nat as [|[|[|[|[|[|[|[|[|r]]]]]]]]]; done.
Qed.

(** A call that waits for a cluster that does not come up: the gateway gives it up. *)
Definition ve_pre : list vevent := ([VNew 1 true 7 None; VMove 0 0; VGateway (EGet 0 1); VGateway (EBackend 0 Ends 3); VGateway (EGet 0 4); VGateway (EGet 1 4); VMove 0 4; VMove 0 4])%list.
Definition ve_es : list vevent := ([VGateway (ECheckTimeouts 100); VGateway (EWake 0 101); VGateway (EGet 0 101); VGateway (EBackend 0 Ends 102); VGateway (EGet 0 102);
  VMove 0 103; VMove 0 103; VMove 0 103; VGateway (EWake 1 103)])%list.
Example C123_ends_example : exists run ev, let cf := ex_cf false 3 in vendless cf run ev /\ vfair cf run ev /\ fresh_ids cf /\ first_life cf (run O) /\
  served run ev 0 /\ at_stage (run O) 0 1 true true (Held 0).
Proof.
  set (cf := ex_cf false 3).
  assert (exists h s, vreach cf h s /\ map fst h = ve_pre /\ (forallb (fun x => negb (crash x.1)) (gw_part h) = true /\ at_stage s 0 1 true true (Held 0) /\
    (let g := v_gw (vl_after cf s ve_es) in tasks (q g) !! 0%nat = Some Blocked /\ tasks (q g) !! 1%nat = Some Blocked /\ map_to_list (busy g) = [] /\ closed (q g) = false /\ down g = None /\
      active_clusters g = []) /\
    v_calls (vl_after cf s ve_es) !! 0%nat = Some (Visit 1 true true (Failed (Some 0%nat) ECluster)) /\
    forallb (fun i => vl_ok (vl_after cf s (take i ve_es))) (seq 0 (length ve_es)) = true)) as (h & s & Hr & _ & H1 & H2 & H3 & H4 & H5).
  { apply vex_run. vm_compute. repeat split. }
  cbn zeta in H3. destruct H3 as (B0 & B1 & Hb & Hc & Hd & Ha).
  assert (vl_end cf (v_gw (vl_after cf s ve_es))) as He.
  { split; [exact B0|]. split; [exact B1|]. split; [|auto]. intros now. cbn [step]. rewrite Hd. unfold check_timeouts. rewrite Ha. reflexivity. }
  exists (vl_run cf s ve_es), (vl_ev ve_es). cbn zeta.
  destruct (vl_exists cf h s ve_es) as [HE HF]; [left; apply ex_fresh|exact Hr|reflexivity|exact He|exact H5|repeat constructor|].
  split; [exact HE|]. split; [exact HF|]. split; [apply ex_fresh|]. split.
  { exists h. split; [|exact Hr]. intros e o Hin. rewrite forallb_forall in H1. apply elem_of_list_In in Hin. specialize (H1 _ Hin). cbn [fst] in H1. destruct (crash e); done. }
  split; [|exact H2]. eapply (vl_served cf s ve_es 0); [exact He|exact H4|right; eexists _, _; reflexivity|repeat constructor; discriminate].
Qed.
(** A call that connects to a running cluster. *)
Lemma vl_quiet cf s e : gevent cf s e = nothing cf -> v_gw (vstep cf s e).1 = v_gw s.
Proof. intros E. unfold vstep. rewrite E, nothing_step. done. Qed.
Example C123_returns_example : exists run ev, let cf := ex_cf false 3 in vendless cf run ev /\ served run ev 0 /\ at_stage (run O) 0 1 false false (Asking 0) /\
  waits_for 0 (Asking 0) /\ (forall j, says_running (v_gw (run j)) 1 0) /\ forall j, ev j <> VBreak 0.
Proof.
  set (cf := ex_cf false 3). set (e := VMove 0 30). set (es := [e; e]). set (pre := (removelast vx_stuck ++ [VConnect 1 false 0])%list).
  assert (exists h s, vreach cf h s /\ map fst h = pre /\ (at_stage s 0 1 false false (Asking 0) /\
    (gevent cf s e = nothing cf /\ gevent cf (vstep cf s e).1 e = nothing cf) /\
    (exists r, v_calls (vl_after cf s es) !! 0%nat = Some (Visit 1 false false (Started 0 r))) /\
    (let g := v_gw s in tasks (q g) !! 0%nat = Some Blocked /\ tasks (q g) !! 1%nat = Some Blocked /\ map_to_list (busy g) = [] /\ closed (q g) = false /\ down g = None /\
      (forall now, find_late cf now (active_clusters g) = None) /\ exists c, lookup_cluster 0 g = Some c /\ r_user (c_row c) = 1%nat /\ reported 0 g PRUNNING)))
    as (h & s & Hr & _ & H2 & [Q1 Q2] & (r & H4) & H3).
  { apply vex_run. vm_compute. split; [reflexivity|]. split; [split; reflexivity|]. split; [eexists; reflexivity|]. do 6 (split; [reflexivity|]). eexists. repeat split. }
  cbn zeta in H3. destruct H3 as (B0 & B1 & Hb & Hc & Hd & Ha & c & Hl & Hu & Hp).
  assert (v_gw (vl_after cf s es) = v_gw s) as Eg by (cbn [es vl_after]; rewrite !vl_quiet by done; done).
  assert (vl_end cf (v_gw (vl_after cf s es))) as He.
  { rewrite Eg. split; [exact B0|]. split; [exact B1|]. split; [|auto]. intros now. cbn [step]. rewrite Hd. unfold check_timeouts. rewrite Ha. reflexivity. }
  assert (forall j, v_gw (vl_run cf s es j) = v_gw s) as Hall.
  { intros [|[|j]]; [done|apply vl_quiet; exact Q1|]. rewrite (vl_last cf s es) by (done || (cbn; lia)). exact Eg. }
  exists (vl_run cf s es), (vl_ev es). cbn zeta. destruct (vl_exists cf h s es) as [HE _]; [left; apply ex_fresh|exact Hr|reflexivity|exact He| |repeat constructor|].
  { rewrite forallb_forall. intros i Hin. apply in_seq in Hin. rewrite <- vl_take by lia. unfold vl_ok. rewrite Hall, Hb, Hc, Hd. reflexivity. }
  split; [exact HE|]. split; [eapply (vl_served cf s es 0); [exact He|exact H4|left; eexists _, _; reflexivity|repeat constructor; discriminate]|].
  split; [exact H2|]. split; [right; left; reflexivity|]. split; [intros j; rewrite Hall; exists c; auto|].
  intros j E. unfold vl_ev in E. destruct (es !! j) as [x|] eqn:Ej.
  - apply elem_of_list_lookup_2 in Ej. subst x. repeat (apply elem_of_cons in Ej as [Ej|Ej]; [discriminate|]). by apply elem_of_nil in Ej.
  - unfold vl_loop, vx_loop in E. destruct (j mod 7)%nat as [|[|[|[|[|[|[|[|[|x]]]]]]]]]; discriminate.
Qed.
