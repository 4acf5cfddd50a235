(** Catching up needs nothing but deliveries. *)
From Coq Require Import Ascii String ZArith Lia.
From stdpp Require Import prelude gmap.
From Verif Require Import Trace Router_Model Router_Spec ProxyLog_Model ProxyLog_Spec ProxyLog_Proofs
  Gateway_Model Gateway_Spec Gateway_Hist World_Model World_Spec World_Proofs2 World_Proofs3 World_Proofs4.
Open Scope Z_scope.

Section drain.
Context (parse : bytes -> option goURL).
Notation runs := (ProxyLog_Model.runs parse).
Notation step := (ProxyLog_Model.step parse).
Definition resting (y : sys) : Prop := p_last (s_px y) = g_next (s_gw y) - 1 \/
  exists k, p_phase (s_px y) = Watching k [] /\ g_watch (s_gw y) !! k = Some [].

Lemma drain_reads k str y : p_phase (s_px y) = Watching k str -> g_watch (s_gw y) !! k = Some [] ->
  exists es, Forall delivery es /\ resting (runs y es).
Proof.
  revert y. induction str as [|evs str IH]; intros y Hp Hw; [exists []; split; [done|]; right; by exists k|].
  destruct (IH (step y SRead)) as (es & H1 & H2).
  - unfold ProxyLog_Model.step. rewrite Hp. destruct (last evs); done.
  - unfold ProxyLog_Model.step. rewrite Hp. destruct (last evs); done.
  - exists (SRead :: es). split; [constructor; done|]. exact H2.
Qed.
Lemma drain_writes k q str y : p_phase (s_px y) = Watching k str -> g_watch (s_gw y) !! k = Some q ->
  exists es, Forall delivery es /\ resting (runs y es).
Proof.
  revert str y. induction q as [|evs q IH]; intros str y Hp Hw; [by eapply drain_reads|].
  destruct (IH (str ++ [evs]) (step y (SWrite k))) as (es & H1 & H2).
  - unfold ProxyLog_Model.step. simpl. rewrite Hw, Hp. rewrite decide_True by done. done.
  - unfold ProxyLog_Model.step. simpl. rewrite Hw, Hp. rewrite decide_True by done. simpl. by rewrite lookup_insert.
  - exists (SWrite k :: es). split; [constructor; done|]. exact H2.
Qed.
Lemma drain_fetch y : p_phase (s_px y) = Fetching None -> exists es, Forall delivery es /\ resting (runs y es).
Proof.
  intros Hp. exists [SAnswer; SRecv]. split; [repeat constructor|]. left. unfold ProxyLog_Model.runs. cbn [fold_left].
  unfold ProxyLog_Model.step at 2 4. rewrite Hp. simpl. done.
Qed.
Lemma drain_rewatch y : p_phase (s_px y) = Rewatch -> exists es, Forall delivery es /\ resting (runs y es).
Proof.
  intros Hp. set (y1 := step y SWatch).
  assert (H : p_phase (s_px y1) = Fetching None \/ exists k q, p_phase (s_px y1) = Watching k [] /\ g_watch (s_gw y1) !! k = Some q).
  { unfold y1, ProxyLog_Model.step. rewrite Hp. simpl. destruct (events_after _ _) as [evs|]; [right|by left].
    exists (g_wnext (s_gw y)). eexists. split; [done|]. simpl. by rewrite lookup_insert. }
  destruct H as [H|(k & q & H & H')].
  - destruct (drain_fetch y1 H) as (es & H1 & H2). exists (SWatch :: es). split; [constructor; done|]. exact H2.
  - destruct (drain_writes k q [] y1 H H') as (es & H1 & H2). exists (SWatch :: es). split; [constructor; done|]. exact H2.
Qed.
Lemma drain_all y : exists es, Forall delivery es /\ resting (runs y es).
Proof.
  destruct (p_phase (s_px y)) as [[[rs id]|]| |k str] eqn:Hp.
  - destruct (drain_rewatch (step y SRecv)) as (es & H1 & H2); [unfold ProxyLog_Model.step; by rewrite Hp|].
    exists (SRecv :: es). split; [constructor; done|]. exact H2.
  - by apply drain_fetch.
  - by apply drain_rewatch.
  - destruct (g_watch (s_gw y) !! k) as [q|] eqn:Hw; [by eapply drain_writes|].
    destruct (drain_rewatch (step y SEnd)) as (es & H1 & H2); [unfold ProxyLog_Model.step; by rewrite Hp|].
    exists (SEnd :: es). split; [constructor; done|]. exact H2.
Qed.
End drain.

Section proofs.
Context (wc : wcfg).
Notation parse := (wc_parse wc).
Notation hist := (list (wevent * wobs)).
Definition quiet (es : list ProxyLog_Model.event) : hist := map (fun e => (WNet e, OQuiet)) es.
Lemma route_one req n n' : names_good wc -> prefix_good wc ->
  cluster_route wc n `prefix_of` asked req -> cluster_route wc n' `prefix_of` asked req -> n = n'.
Proof.
  intros Hn Hp [x Hx] [y Hy]. apply (croute_inj wc n n' Hn Hp). rewrite Hx in Hy. rewrite !croute_is by done. apply (app_inj_1 _ _ x y); [|done].
  unfold cluster_route. by rewrite !app_length.
Qed.
Lemma net_exec w es : Forall delivery es -> exec (wstep wc) w (quiet es) (World (w_gw w) (ProxyLog_Model.runs parse (w_sys w) es)).
Proof.
  revert w. induction es as [|e es IH]; intros w Hd; [destruct w; constructor|]. apply Forall_cons in Hd as [He Hd].
  cbn [quiet map]. eapply exec_cons; [|apply (IH (World (w_gw w) (ProxyLog_Model.step parse (w_sys w) e)) Hd)]. by destruct e.
Qed.
Lemma quiet_in x es : x ∈ quiet es -> exists e, x = (WNet e, OQuiet).
Proof. intros (e & -> & _)%elem_of_list_fmap. by exists e. Qed.
Lemma setup_quiet h es : setup_ok wc h -> setup_ok wc (h ++ quiet es).
Proof.
  intros (H1 & H2 & H3 & H4 & H5). do 4 (split; [done|]). destruct H5 as [H|H]; [by left|]. right. intros (now & o & Hin). apply H.
  apply elem_of_app in Hin as [Hin|(e & E)%quiet_in]; [by exists now, o|done].
Qed.
Lemma split_app_in {A} (h l : list A) h1 x h2 : h ++ l = h1 ++ x :: h2 -> (exists r, h = h1 ++ x :: r /\ h2 = r ++ l) \/ x ∈ l.
Proof.
  intros E. apply app_eq_inv in E as [(k & Eh & El)|(k & Eh & El)].
  - destruct k as [|y k]; simpl in El; [right; rewrite <- El; left|]. injection El as -> El. left. exists k. done.
  - right. rewrite El. apply elem_of_app. right. left.
Qed.
Lemma young_quiet h es : young_proxy wc h -> young_proxy wc (h ++ quiet es).
Proof.
  intros Hy He h1 now o h2 E. apply split_app_in in E as [(r & Eh & ->)|(e & E)%quiet_in]; [|done].
  apply elem_of_app. left. eapply Hy; eauto.
Qed.

Lemma catches_up h w : setup_ok wc h -> wreach wc h w -> young_proxy wc h ->
  exists es w', Forall delivery es /\ exec (wstep wc) w (map (fun e => (WNet e, OQuiet)) es) w' /\ w_gw w' = w_gw w /\ caught_up w'.
Proof.
  intros Hok Hr Hy. destruct (drain_all parse (w_sys w)) as (es & Hd & Hrest). pose proof (net_exec w es Hd) as Hx.
  eexists es, _. split; [done|]. split; [exact Hx|]. split; [done|]. destruct Hrest as [H|H]; [exact H|].
  eapply (drained_caught_up wc (h ++ quiet es)); [by apply setup_quiet| |by apply young_quiet|exact H].
  unfold wreach. apply exec_app. eauto.
Qed.
Lemma fresh_proxy h w : setup_ok wc h -> wreach wc h w ->
  let news := [WProxyStart; WNet SAnswer; WNet SRecv] in
  exists h' w', exec (wstep wc) w h' w' /\ map fst h' = news /\ setup_ok wc (h ++ h') /\ young_proxy wc (h ++ h') /\ caught_up w' /\ w_gw w' = w_gw w.
Proof.
  intros Hok Hr. exists ([(WProxyStart, OQuiet)] ++ quiet [SAnswer; SRecv]). eexists. split; [|split; [done|split; [|split; [|split]]]].
  - eapply exec_app. eexists. split; [eapply exec_cons; [reflexivity|constructor]|]. apply net_exec. repeat constructor.
  - rewrite app_assoc. apply setup_quiet. destruct Hok as (H1 & H2 & H3 & H4 & H5). do 4 (split; [done|]). destruct H5 as [H|H]; [by left|]. right.
    intros (now & o & Hin). apply H. apply elem_of_app in Hin as [Hin|Hin%elem_of_list_singleton]; [by exists now, o|done].
  - rewrite app_assoc. apply young_quiet. intros He h1 now o h2 E. apply split_app_in in E as [(r & Eh & ->)|E%elem_of_list_singleton]; [|done].
    apply elem_of_app. right. left.
  - unfold caught_up. simpl. done.
  - done.
Qed.
End proofs.
