From Coq Require Import Ascii String.
From stdpp Require Import prelude.
From Verif Require Import Router_Model ProxyLog_Model ProxyLog_Proofs Launch_Model Launch_Proofs Files_Model Files_Spec.
Local Open Scope nat_scope.

(** * Paths. *)
Lemma pj_abs cwd q : path_join cwd (slash :: q) = slash :: q.
Proof. unfold path_join. by rewrite decide_True. Qed.
Lemma pj_rel a x b : last a <> Some slash -> a <> [] -> x <> slash -> path_join a (x :: b) = a ++ slash :: x :: b.
Proof.
  intros Ha Hn Hx. unfold path_join. rewrite decide_False by done.
  destruct (last a) as [c|] eqn:E; [|by apply last_None in E]. rewrite decide_False by congruence. done.
Qed.
Lemma last_app_ne (a : bytes) x b : last (a ++ x :: b) = last (x :: b).
Proof. rewrite last_app. destruct (last (x :: b)) eqn:E; [done|]. by apply last_None in E. Qed.
Lemma dir_join w n : dir_ok w -> plain n -> path_join w n = w ++ slash :: n /\ dir_ok (path_join w n).
Proof.
  intros [[q ->] Hl] [Hn Hs]. destruct n as [|x n]; [done|].
  assert (Hx : x <> slash) by (intros ->; apply Hs; by left).
  assert (E : path_join (slash :: q) (x :: n) = (slash :: q) ++ slash :: x :: n) by (by apply pj_rel). split; [done|].
  split; rewrite E; [by eexists|]. rewrite last_app_ne. intros H. apply Hs.
  change (slash :: x :: n) with ([slash] ++ x :: n) in H. rewrite last_app_ne in H. apply last_Some in H as [l ->]. apply elem_of_app. right. by left.
Qed.
Lemma dir_abs cwd w : dir_ok w -> path_join cwd w = w.
Proof. intros [[q ->] _]. apply pj_abs. Qed.
Lemma prefix_app p q : has_prefix p q = true <-> exists r, q = p ++ r.
Proof.
  revert q. induction p as [|x p IH]; intros q; cbn [has_prefix].
  - split; [by exists q|done].
  - destruct q as [|y q]; [split; [done|intros [r H]; done]|]. rewrite andb_true_iff, bool_decide_eq_true, IH.
    split; [intros [-> [r ->]]; by exists r|intros [r H]; cbn in H; injection H as -> ->; eauto].
Qed.
Lemma below_iff p q : below p q = true <-> q = p \/ exists r, q = p ++ slash :: r.
Proof.
  unfold below. rewrite orb_true_iff, bool_decide_eq_true, prefix_app. split; intros [H|[r H]]; [by left| |by left|].
  - right. exists r. rewrite H, <- app_assoc. done.
  - right. exists r. rewrite H, <- app_assoc. done.
Qed.
Lemma below_self p : below p p = true.
Proof. apply below_iff. by left. Qed.
Lemma below_join w n p : dir_ok w -> plain n -> below (path_join w n) p = true -> below w p = true.
Proof.
  intros Hw Hn H. destruct (dir_join w n Hw Hn) as [E _]. rewrite E in H. apply below_iff in H as [->|[r ->]]; apply below_iff; right.
  - by eexists.
  - exists (n ++ slash :: r). by rewrite <- app_assoc.
Qed.
(** Two names in one directory: nothing is below both. *)
Lemma sep_split (a b x y : bytes) : slash ∉ a -> slash ∉ b -> a ++ slash :: x = b ++ slash :: y -> a = b.
Proof.
  revert b. induction a as [|c a IH]; intros b Ha Hb H; destruct b as [|d b]; cbn in H; [done| | |].
  - injection H as <- _. exfalso. apply Hb. by left.
  - injection H as -> _. exfalso. apply Ha. by left.
  - injection H as -> H. f_equal. apply (IH b); [set_solver|set_solver|done].
Qed.
Lemma siblings base n n' p : dir_ok base -> plain n -> plain n' -> n <> n' -> below (path_join base n) p = true -> below (path_join base n') p = false.
Proof.
  intros Hb Hn Hn' Hne H. destruct (dir_join base n Hb Hn) as [E _]. destruct (dir_join base n' Hb Hn') as [E' _]. rewrite E in H. rewrite E'.
  apply not_true_iff_false. intros H'. apply Hne.
  apply below_iff in H as [->|[r ->]]; apply below_iff in H' as [H'|[r' H']]; repeat rewrite <- app_assoc in H'; apply app_inv_head in H'; cbn in H'; injection H' as H'.
  - done.
  - exfalso. apply (proj2 Hn). rewrite H'. set_solver.
  - exfalso. apply (proj2 Hn'). rewrite <- H'. set_solver.
  - eapply sep_split; [apply Hn|apply Hn'|exact H'].
Qed.

(** * Operations. *)
Definition touched (cwd : bytes) (o : op) (q : bytes) : bool :=
  match o with
  | MkDir p _ | New p _ _ | Write p _ | Chown p _ => bool_decide (q = path_join cwd p)
  | RmTree p => below (path_join cwd p) q
  end.
Lemma fset_ne p n f q : q <> p -> fset p n f q = f q.
Proof. intros H. unfold fset. by rewrite decide_False. Qed.
Lemma fset_eq p n f : fset p n f p = n.
Proof. unfold fset. by rewrite decide_True. Qed.
Lemma exec_frame who cwd fl o f f' ok q : exec who cwd fl o f = (f', ok) -> touched cwd o q = false -> f' q = f q.
Proof.
  intros H Ht. unfold exec in H. destruct fl.
  - injection H as <- <-. destruct o; try done. cbn in Ht. apply bool_decide_eq_false in Ht.
    destruct (f (path_join cwd p)); [done|]. by apply fset_ne.
  - destruct o; cbn [touched] in Ht; try (apply bool_decide_eq_false in Ht);
      repeat (match goal with H : context [match ?x with _ => _ end] |- _ => destruct x end); try (injection H as <- <-); rewrite ?fset_ne by done; try done.
    by rewrite Ht.
Qed.
Lemma run_frame who cwd ops : forall fl f f' ok q, run who cwd fl ops f = (f', ok) -> Forall (fun o => touched cwd o q = false) ops -> f' q = f q.
Proof.
  induction ops as [|o ops IH]; intros fl f f' ok q H Hf; cbn [run] in H; [by injection H as <- <-|].
  apply Forall_cons_iff in Hf as [Ho Hf]. destruct (exec who cwd (fl 0) o f) as [f1 [|]] eqn:E.
  - rewrite (IH _ _ _ _ _ H Hf). by eapply exec_frame.
  - injection H as <- <-. by eapply exec_frame.
Qed.
Lemma run_app who cwd a b : forall fl f, run who cwd fl (a ++ b) f =
  match run who cwd fl a f with (f1, true) => run who cwd (fun n => fl (length a + n)) b f1 | (f1, false) => (f1, false) end.
Proof.
  induction a as [|o a IH]; intros fl f; [done|]. cbn [run app length]. destruct (exec who cwd (fl 0) o f) as [f1 [|]]; [|done]. rewrite IH. done.
Qed.
Lemma exec_new who cwd fl p m d f f' : exec who cwd fl (New p m d) f = (f', true) -> f' (path_join cwd p) = Some (Node who m (Some d)) /\ f (path_join cwd p) = None.
Proof.
  unfold exec. destruct fl; [by intros [=]|]. destruct (f (path_join cwd p)) eqn:E; [by intros [=]|]. intros [= <-]. by rewrite fset_eq.
Qed.
Lemma exec_chown who cwd fl p u f f' ok q : exec who cwd fl (Chown p u) f = (f', ok) -> content f' q = content f q.
Proof.
  unfold exec. destruct fl; [by intros [= <- <-]|]. destruct (f (path_join cwd p)) as [[o m d]|] eqn:E; intros [= <- <-]; [|done].
  unfold content, fset. destruct (decide (q = path_join cwd p)) as [->|]; [|done]. by rewrite E.
Qed.
Lemma run_chown who cwd u ps : forall fl f f' ok q, run who cwd fl (map (fun p => Chown p u) ps) f = (f', ok) -> content f' q = content f q.
Proof.
  induction ps as [|p ps IH]; intros fl f f' ok q H; cbn [map run] in H; [by injection H as <- <-|].
  destruct (exec who cwd (fl 0) (Chown p u) f) as [f1 [|]] eqn:E.
  - rewrite (IH _ _ _ _ _ H). by eapply exec_chown.
  - injection H as <- <-. by eapply exec_chown.
Qed.

(** * Local processes. *)
Ltac plain_ := split; [done|apply (bool_decide_unpack _); vm_compute; done].
Lemma plain_certs : plain (b_ ".certs"). Proof. plain_. Qed.
Lemma plain_logs : plain (b_ "logs"). Proof. plain_. Qed.
Lemma plain_crt : plain (b_ "dask.crt"). Proof. plain_. Qed.
Lemma plain_pem : plain (b_ "dask.pem"). Proof. plain_. Qed.
Lemma plain_log : plain (b_ "scheduler.log"). Proof. plain_. Qed.
Section local.
  Context (s : site) (user w cert key : bytes) (Hw : dir_ok w).
  Lemma certs_ok : certs_dir w = w ++ b_ "/.certs" /\ dir_ok (certs_dir w).
  Proof. destruct (dir_join w (b_ ".certs") Hw plain_certs) as [E D]. split; [exact E|exact D]. Qed.
  Lemma logs_ok : logs_dir w = w ++ b_ "/logs" /\ dir_ok (logs_dir w).
  Proof. destruct (dir_join w (b_ "logs") Hw plain_logs) as [E D]. split; [exact E|exact D]. Qed.
  Lemma cert_ok : local_cert w = w ++ b_ "/.certs/dask.crt" /\ dir_ok (local_cert w).
  Proof. destruct certs_ok as [E D]. destruct (dir_join _ _ D plain_crt) as [E' D']. split; [|exact D']. unfold local_cert. rewrite E', E, <- app_assoc. done. Qed.
  Lemma key_ok : local_key w = w ++ b_ "/.certs/dask.pem" /\ dir_ok (local_key w).
  Proof. destruct certs_ok as [E D]. destruct (dir_join _ _ D plain_pem) as [E' D']. split; [|exact D']. unfold local_key. rewrite E', E, <- app_assoc. done. Qed.
  Lemma log_ok : path_join (logs_dir w) (b_ "scheduler.log") = w ++ b_ "/logs/scheduler.log" /\ dir_ok (path_join (logs_dir w) (b_ "scheduler.log")).
  Proof. destruct logs_ok as [E D]. destruct (dir_join _ _ D plain_log) as [E' D']. split; [|exact D']. rewrite E', E, <- app_assoc. done. Qed.
  Lemma app_inv_b (a b : string) : w ++ b_ a = w ++ b_ b -> b_ a = b_ b.
  Proof. apply app_inv_head. Qed.

  (** A start that got to the end, or as far as the process. *)
  Lemma setup_done safe fl f f1 : run (s_gateway s) (s_cwd s) fl (setup_ops safe user w cert key) f = (f1, true) ->
    content f1 (local_cert w) = Some cert /\ content f1 (local_key w) = Some key /\
    (safe = false -> f1 (local_key w) = Some (Node (s_gateway s) 384 (Some key))).
  Proof.
    unfold setup_ops. rewrite app_assoc, run_app. destruct (run _ _ fl (_ ++ [_; _]) f) as [f0 [|]] eqn:E; [|by intros [=]]. intros H.
    rewrite run_app in E. destruct (run _ _ _ (map _ _) f) as [fd [|]]; [|by injection E]. cbn [run] in E.
    destruct (exec _ _ _ (New (local_cert w) _ _) fd) as [fc [|]] eqn:Ec; [|by injection E].
    destruct (exec _ _ _ (New (local_key w) _ _) fc) as [fk [|]] eqn:Ek; [|by injection E]. injection E as <-.
    destruct (exec_new _ _ _ _ _ _ _ _ Ec) as [Hc _]. destruct (exec_new _ _ _ _ _ _ _ _ Ek) as [Hk _].
    rewrite (dir_abs _ _ (proj2 cert_ok)) in Hc. rewrite (dir_abs _ _ (proj2 key_ok)) in Hk.
    assert (Hc' : fk (local_cert w) = Some (Node (s_gateway s) 384 (Some cert))).
    { rewrite (exec_frame _ _ _ _ _ _ _ (local_cert w) Ek); [done|]. cbn [touched]. apply bool_decide_eq_false.
      rewrite (dir_abs _ _ (proj2 key_ok)), (proj1 cert_ok), (proj1 key_ok). intros X%app_inv_b. vm_compute in X. congruence. }
    split_and!.
    - transitivity (content fk (local_cert w)); [|unfold content; by rewrite Hc'].
      destruct safe; [by eapply run_chown|cbn in H; by injection H as <-].
    - transitivity (content fk (local_key w)); [|unfold content; by rewrite Hk].
      destruct safe; [by eapply run_chown|cbn in H; by injection H as <-].
    - intros ->. cbn in H. by injection H as <-.
  Qed.
  Lemma local_started safe fl sp f f' st : local_start safe s user w cert key fl sp f = (f', st, true) ->
    content f' (local_cert w) = Some cert /\ content f' (local_key w) = Some key /\ l_workdir st = Some w /\ l_pid st = sp /\
    (safe = false -> f' (local_key w) = Some (Node (s_gateway s) 384 (Some key))).
  Proof.
    unfold local_start. destruct (run _ _ _ _ f) as [f1 [|]] eqn:E; [|by intros [=]].
    destruct (exec _ _ false _ f1) as [f2 [|]] eqn:El; [|by intros [=]]. destruct sp as [pid|]; [|by intros [=]]. intros [= <- <-].
    destruct (setup_done _ _ _ _ E) as (H1 & H2 & H3).
    assert (F : forall p, p <> path_join (logs_dir w) (b_ "scheduler.log") -> f2 p = f1 p).
    { intros p Hp. eapply exec_frame; [exact El|]. cbn [touched]. apply bool_decide_eq_false. by rewrite (dir_abs _ _ (proj2 log_ok)). }
    assert (N1 : local_cert w <> path_join (logs_dir w) (b_ "scheduler.log")).
    { rewrite (proj1 cert_ok), (proj1 log_ok). intros X%app_inv_b. vm_compute in X. congruence. }
    assert (N2 : local_key w <> path_join (logs_dir w) (b_ "scheduler.log")).
    { rewrite (proj1 key_ok), (proj1 log_ok). intros X%app_inv_b. vm_compute in X. congruence. }
    unfold content. rewrite !F by done. split_and!; try done.
  Qed.
  Lemma below_w x : below w (w ++ slash :: x) = true.
  Proof. apply below_iff. right. by eexists. Qed.
  Lemma not_below p q : below w p = false -> below w q = true -> p <> q.
  Proof. intros H1 H2 ->. congruence. Qed.
  Lemma in_w : below w w = true /\ below w (certs_dir w) = true /\ below w (logs_dir w) = true /\ below w (local_cert w) = true /\ below w (local_key w) = true /\
    below w (path_join (logs_dir w) (b_ "scheduler.log")) = true.
  Proof. rewrite (proj1 log_ok), (proj1 cert_ok), (proj1 key_ok), (proj1 certs_ok), (proj1 logs_ok). split; [apply below_self|]. split_and!; apply below_w. Qed.
  (** UnsafeLocalBackend touches nothing outside the directory. *)
  Lemma unsafe_frame fl sp f f' st ok : local_start false s user w cert key fl sp f = (f', st, ok) -> same_but w f f'.
  Proof.
    intros H p Hp. destruct in_w as (I1 & I2 & I3 & I4 & I5 & I6).
    assert (F : Forall (fun o => touched (s_cwd s) o p = false) (setup_ops false user w cert key)).
    { unfold setup_ops. cbn [map app]. repeat constructor; cbn [touched]; apply bool_decide_eq_false; rewrite dir_abs;
        first [apply not_below; done|done|apply certs_ok|apply logs_ok|apply cert_ok|apply key_ok]. }
    unfold local_start in H. destruct (run _ _ _ _ f) as [f1 [|]] eqn:E; [|injection H as <- <- <-; by eapply run_frame].
    assert (G : forall f2 ok2, exec (s_gateway s) (s_cwd s) false (New (path_join (logs_dir w) (b_ "scheduler.log")) 493 []) f1 = (f2, ok2) -> f2 p = f p).
    { intros f2 ok2 E2. rewrite (exec_frame _ _ _ _ _ _ _ p E2); [by eapply run_frame|]. cbn [touched]. apply bool_decide_eq_false.
      rewrite (dir_abs _ _ (proj2 log_ok)). by apply not_below. }
    destruct (exec _ _ false _ f1) as [f2 [|]] eqn:El; [destruct sp; injection H as <- <- <-|injection H as <- <- <-]; by eapply G.
  Qed.
  Lemma local_stopped st f : l_workdir st = Some w -> (forall p, below w p = true -> f p <> None -> exists u m, f w = Some (Node u m None)) ->
    gone w (local_stop s st false f) /\ same_but w f (local_stop s st false f).
  Proof.
    intros Hs Hd. unfold local_stop. rewrite Hs, (dir_abs _ _ Hw). unfold gone, same_but. destruct (f w) as [[u m d]|] eqn:E.
    - cbn [exec]. rewrite (dir_abs _ _ Hw), E. destruct d as [x|]; cbn [fst].
      + exfalso. destruct (Hd w (below_self w)) as (? & ? & X); [congruence|]. congruence.
      + split; intros p Hp; by rewrite Hp.
    - split; [|done]. intros p Hp. destruct (f p) eqn:Ep; [|done]. destruct (Hd p Hp) as (? & ? & X); congruence.
  Qed.
End local.

(** LocalBackend never gets beyond the permissions. *)
Lemma chown_stops who cwd u ps : forall fl f, (forall n, fl n = false) -> (exists a x b, ps = a ++ [x] :: b /\ f (path_join cwd [x]) = None) ->
  exists f', run who cwd fl (map (fun p => Chown p u) ps) f = (f', false).
Proof.
  induction ps as [|p ps IH]; intros fl f Hf (a & x & b & E & Hx); [by destruct a|]. cbn [map run]. rewrite (Hf 0).
  destruct a as [|p' a]; cbn in E; injection E as -> ->.
  - cbn [exec]. rewrite Hx. by eexists.
  - destruct (exec who cwd false (Chown p' u) f) as [f1 [|]] eqn:Ee; [|by eexists]. apply IH; [intros n; apply Hf|].
    exists a, x, b. split; [done|]. unfold exec in Ee. destruct (f (path_join cwd p')) as [[o m d]|] eqn:Ep; [|done]. injection Ee as <-.
    unfold fset. destruct (decide (path_join cwd [x] = path_join cwd p')) as [X|]; [|done]. rewrite X in Hx. congruence.
Qed.
Lemma ends_differ (w cwd : bytes) (e : string) x : (match rev (b_ e) with _ :: y :: _ => y <> slash | _ => False end) -> w ++ b_ e <> cwd ++ [slash; x].
Proof.
  intros H E. apply (f_equal (@rev ascii)) in E. rewrite !rev_app_distr in E. destruct (rev (b_ e)) as [|a [|b l]]; [done|done|]. cbn in E. congruence.
Qed.
Lemma local_never s user w cert key sp f : dir_ok w -> dir_ok (s_cwd s) -> no_short_names (s_cwd s) f -> (forall x, w <> path_join (s_cwd s) [x]) ->
  exists f', local_start true s user w cert key (fun _ => false) sp f = (f', LState None None, false).
Proof.
  intros Hw Hc Hn Hx. unfold local_start.
  assert (H : exists f', run (s_gateway s) (s_cwd s) (fun _ => false) (setup_ops true user w cert key) f = (f', false)); [|destruct H as [f' ->]; by eexists].
  unfold setup_ops. rewrite app_assoc, run_app. destruct (run _ _ _ (_ ++ [_; _]) f) as [f0 [|]] eqn:E; [|by eexists].
  apply chown_stops; [done|]. rewrite (proj1 (cert_ok w Hw)).
  exists ([w; certs_dir w; logs_dir w] ++ chars (w ++ b_ "/.")), "c"%char, (chars (b_ "erts/dask.crt") ++ chars (local_key w)). split.
  { unfold chars. change (b_ "/.certs/dask.crt") with (b_ "/." ++ "c"%char :: b_ "erts/dask.crt"). rewrite !map_app. cbn [map]. rewrite <- !app_assoc. cbn [app]. rewrite <- ?app_assoc. done. }
  assert (J : path_join (s_cwd s) ["c"%char] = s_cwd s ++ [slash; "c"%char]).
  { apply pj_rel; [apply Hc| |done]. destruct Hc as [[q ->] _]. done. }
  rewrite (run_frame _ _ _ _ _ _ _ (path_join (s_cwd s) ["c"%char]) E); [by apply Hn|].
  cbn [map app]. destruct (certs_ok w Hw) as [E1 D1], (logs_ok w Hw) as [E2 D2], (cert_ok w Hw) as [E3 D3], (key_ok w Hw) as [E4 D4].
  repeat constructor; cbn [touched]; apply bool_decide_eq_false; specialize (Hx "c"%char); rewrite J in *; rewrite dir_abs by done; first
    [by intros X; symmetry in X; apply Hx in X|
     rewrite ?E3, ?E4, ?E1, ?E2; intros X; symmetry in X; revert X; apply ends_differ; vm_compute; congruence].
Qed.
(** A start of UnsafeLocalBackend in a new directory works. *)
Lemma exec_mkdir who cwd p ok f : dir_ok p -> f p = None -> exec who cwd false (MkDir p ok) f = (fset p (Some (Node who 448 None)) f, true).
Proof. intros Hp H. cbn [exec]. by rewrite dir_abs, H. Qed.
Lemma exec_new_ok who cwd p m d f : dir_ok p -> f p = None -> exec who cwd false (New p m d) f = (fset p (Some (Node who m (Some d))) f, true).
Proof. intros Hp H. cbn [exec]. by rewrite dir_abs, H. Qed.
Lemma unsafe_runs s user w cert key sp f : dir_ok w -> gone w f ->
  exists f', local_start false s user w cert key (fun _ => false) sp f = (f', LState (Some w) sp, bool_decide (sp <> None)) /\ f' w = Some (Node (s_gateway s) 448 None).
Proof.
  intros Hw Hg. destruct (in_w w Hw) as (I1 & I2 & I3 & I4 & I5 & I6).
  destruct (certs_ok w Hw) as [E1 D1], (logs_ok w Hw) as [E2 D2], (cert_ok w Hw) as [E3 D3], (key_ok w Hw) as [E4 D4], (log_ok w Hw) as [E5 D5].
  assert (N : forall a b : string, b_ a <> b_ b -> w ++ b_ a <> w ++ b_ b) by (intros a b Hab X; by apply app_inv_head in X).
  assert (N0 : forall a : string, b_ a <> [] -> w ++ b_ a <> w) by (intros a Ha X; rewrite <- (app_nil_r w) in X at 2; by apply app_inv_head in X).
  unfold local_start, setup_ops. cbn [map app run].
  rewrite exec_mkdir by auto. cbv iota beta. rewrite exec_mkdir; [|done|]; cycle 1.
  { rewrite fset_ne; [by apply Hg|]. rewrite E1. apply N0. done. }
  cbv iota beta. rewrite exec_mkdir; [|done|]; cycle 1.
  { rewrite !fset_ne; [by apply Hg| |]; rewrite ?E2, ?E1; [apply N0; done|apply N; vm_compute; congruence]. }
  cbv iota beta. rewrite exec_new_ok; [|done|]; cycle 1.
  { rewrite !fset_ne; [by apply Hg| | |]; rewrite ?E3, ?E2, ?E1; [apply N0; done|apply N; vm_compute; congruence|apply N; vm_compute; congruence]. }
  cbv iota beta. rewrite exec_new_ok; [|done|]; cycle 1.
  { rewrite !fset_ne; [by apply Hg| | | |]; rewrite ?E4, ?E3, ?E2, ?E1; [apply N0; done|apply N; vm_compute; congruence|apply N; vm_compute; congruence|apply N; vm_compute; congruence]. }
  cbv iota beta. rewrite exec_new_ok; [|done|]; cycle 1.
  { rewrite !fset_ne; [by apply Hg| | | | |]; rewrite ?E5, ?E4, ?E3, ?E2, ?E1; [apply N0; done|apply N; vm_compute; congruence|apply N; vm_compute; congruence|apply N; vm_compute; congruence|apply N; vm_compute; congruence]. }
  eexists. split; [destruct sp; done|].
  do 5 (rewrite fset_ne; [|rewrite ?E5, ?E4, ?E3, ?E2, ?E1; intros X; symmetry in X; revert X; apply N0; done]). apply fset_eq.
Qed.
Lemma unsafe_works s user w cert key pid f : dir_ok w -> gone w f ->
  exists f', local_start false s user w cert key (fun _ => false) (Some pid) f = (f', LState (Some w) (Some pid), true).
Proof. intros Hw Hg. destruct (unsafe_runs s user w cert key (Some pid) f Hw Hg) as (f' & E & _). by exists f'. Qed.
(** Started, or not, and stopped. *)
Lemma unsafe_over s user w cert key sp f f' st ok : dir_ok w -> gone w f -> local_start false s user w cert key (fun _ => false) sp f = (f', st, ok) ->
  forall p, local_stop s st false f' p = f p.
Proof.
  intros Hw Hg E p. destruct (unsafe_runs s user w cert key sp f Hw Hg) as (f1 & E1 & Hd). rewrite E1 in E. injection E as <- <- <-.
  destruct (local_stopped s w Hw (LState (Some w) sp) f1) as [H1 H2]; [done|intros; by eexists _, _|].
  destruct (below w p) eqn:Hp; [by rewrite H1, Hg|]. rewrite H2 by done. by eapply (unsafe_frame s user w cert key Hw).
Qed.

(** * Batch jobs. *)
Section jobs.
  Context (user cwd dir cert key : bytes) (Hd : dir_ok dir).
  Let crt := path_join dir (b_ "dask.crt"). Let pem := path_join dir (b_ "dask.pem").
  Lemma staged_ok : crt = dir ++ b_ "/dask.crt" /\ dir_ok crt /\ pem = dir ++ b_ "/dask.pem" /\ dir_ok pem /\ crt <> pem /\ dir <> crt /\ dir <> pem.
  Proof.
    destruct (dir_join dir _ Hd plain_crt) as [E1 D1], (dir_join dir _ Hd plain_pem) as [E2 D2].
    split; [exact E1|]. split; [exact D1|]. split; [exact E2|]. split; [exact D2|]. unfold crt, pem. rewrite E1, E2. split_and!.
    - intros X. apply app_inv_head in X. vm_compute in X. congruence.
    - intros X. rewrite <- (app_nil_r dir) in X at 1. by apply app_inv_head in X.
    - intros X. rewrite <- (app_nil_r dir) in X at 1. by apply app_inv_head in X.
  Qed.
  Lemma staged fl f f1 : run user cwd fl (start_ops dir cert key) f = (f1, true) ->
    f dir = None /\ f1 dir = Some (Node user 448 None) /\ content f1 crt = Some cert /\ content f1 pem = Some key /\ same_but dir f f1 /\
    (gone dir f -> (exists m d, f1 crt = Some (Node user m d)) /\ exists m d, f1 pem = Some (Node user m d)).
  Proof.
    destruct staged_ok as (E1 & D1 & E2 & D2 & N1 & N2 & N3).
    assert (B1 : below dir crt = true) by (rewrite E1; apply (below_w dir (b_ "dask.crt"))).
    assert (B2 : below dir pem = true) by (rewrite E2; apply (below_w dir (b_ "dask.pem"))).
    unfold start_ops. cbn [run]. fold crt pem. unfold exec. rewrite (dir_abs cwd dir Hd).
    destruct (fl 0); [by intros [=]|]. destruct (f dir) as [[u m [x|]]|] eqn:Ed; [by intros [=]|by intros [=]|].
    rewrite (dir_abs cwd pem D2), (dir_abs cwd crt D1).
    destruct (fl 1); [by intros [=]|]. rewrite (fset_ne dir) by congruence.
    destruct (f pem) as [[u m [x|]]|] eqn:Ep; [|by intros [=]|].
    - destruct (fl 2); [by intros [=]|]. rewrite !fset_ne by congruence. destruct (f crt) as [[u' m' [x'|]]|] eqn:Ec; [|by intros [=]|]; intros [= <-].
      + split; [done|]. unfold content. rewrite !fset_eq, !(fset_ne crt) by congruence. rewrite fset_eq, (fset_ne pem) by congruence. rewrite fset_eq.
        split_and!; try done.
        * intros p Hp. rewrite !fset_ne; [done|intros ->; by rewrite below_self in Hp|intros ->; congruence|
            intros ->; congruence].
        * intros Hg. rewrite Hg in Ep; [done|]. rewrite E2. apply (below_w dir (b_ "dask.pem")).
      + split; [done|]. unfold content. rewrite !fset_eq, !(fset_ne crt) by congruence. rewrite fset_eq, (fset_ne pem) by congruence. rewrite fset_eq.
        split_and!; try done.
        * intros p Hp. rewrite !fset_ne; [done|intros ->; by rewrite below_self in Hp|intros ->; congruence|
            intros ->; congruence].
        * intros Hg. rewrite Hg in Ep; [done|]. rewrite E2. apply (below_w dir (b_ "dask.pem")).
    - destruct (fl 2); [by intros [=]|]. rewrite !fset_ne by congruence. destruct (f crt) as [[u' m' [x'|]]|] eqn:Ec; [|by intros [=]|]; intros [= <-].
      + split; [done|]. unfold content. rewrite !fset_eq, !(fset_ne crt) by congruence. rewrite fset_eq, (fset_ne pem) by congruence. rewrite fset_eq.
        split_and!; try done.
        * intros p Hp. rewrite !fset_ne; [done|intros ->; by rewrite below_self in Hp|intros ->; congruence|
            intros ->; congruence].
        * intros Hg. rewrite Hg in Ec; [done|]. rewrite E1. apply (below_w dir (b_ "dask.crt")).
      + split; [done|]. unfold content. rewrite !fset_eq, !(fset_ne crt) by congruence. rewrite fset_eq, (fset_ne pem) by congruence. rewrite fset_eq.
        split_and!; try done.
        * intros p Hp. rewrite !fset_ne; [done|intros ->; by rewrite below_self in Hp|intros ->; congruence|
            intros ->; congruence].
        * intros _. split; by eexists _, _.
  Qed.
  Lemma job_started fl sub w w' st : job_start user cwd dir cert key fl sub w = (w', st, true) ->
    w_fs w dir = None /\ content (w_fs w') crt = Some cert /\ content (w_fs w') pem = Some key /\ same_but dir (w_fs w) (w_fs w') /\
    (gone dir (w_fs w) -> private user (w_fs w') dir pem) /\
    j_dir st = Some dir /\ exists id, sub = Some id /\ j_id st = Some id /\ w_jobs w' = id :: w_jobs w.
  Proof.
    unfold job_start. destruct (run _ _ _ _ _) as [f1 [|]] eqn:E; [|by intros [=]]. destruct sub as [id|]; [|by intros [=]]. intros [= <- <-]. cbn [w_fs w_jobs j_dir j_id].
    destruct (staged _ _ _ E) as (H1 & H2 & H3 & H4 & H5 & H6). split_and!; try done; [|by exists id].
    intros Hg. right. split; [done|]. by apply H6.
  Qed.
  Lemma job_works w id : gone dir (w_fs w) -> exists w', job_start user cwd dir cert key (fun _ => false) (Some id) w = (w', JState (Some id) (Some dir), true).
  Proof.
    intros Hg. destruct staged_ok as (E1 & D1 & E2 & D2 & N1 & N2 & N3).
    unfold job_start, start_ops. cbn [run]. fold crt pem. cbn [exec]. rewrite (dir_abs cwd dir Hd), (dir_abs cwd crt D1), (dir_abs cwd pem D2).
    rewrite (Hg dir) by apply below_self. rewrite (fset_ne dir) by congruence. rewrite (Hg pem) by (rewrite E2; apply (below_w dir (b_ "dask.pem"))).
    rewrite !fset_ne by congruence. rewrite (Hg crt) by (rewrite E1; apply (below_w dir (b_ "dask.crt"))). by eexists.
  Qed.
  Lemma job_failed fl sub w w' st : job_start user cwd dir cert key fl sub w = (w', st, false) -> st = JState None None /\ w_jobs w' = w_jobs w.
  Proof.
    unfold job_start. destruct (run _ _ _ _ _) as [f1 [|]] eqn:E; [|by intros [= <- <-]]. destruct sub; by intros [= <- <-].
  Qed.
  Lemma job_stopped st flt c w w' id : j_id st = Some id -> j_dir st = Some dir -> job_stop user cwd st flt c w = (w', true) ->
    gone dir (w_fs w') /\ same_but dir (w_fs w) (w_fs w') /\ ((c = CDone /\ forall x, x ∈ w_jobs w' <-> x ∈ w_jobs w /\ x <> id) \/ (c = CFinished /\ w_jobs w' = w_jobs w)).
  Proof.
    intros Hi Hj. unfold job_stop. rewrite Hi, Hj, (dir_abs cwd dir Hd). destruct (w_fs w dir) as [n|] eqn:E; [|by intros [=]].
    unfold exec. rewrite (dir_abs cwd dir Hd), E. destruct flt; [by intros [=]|]. destruct n as [u m [x|]]; [by intros [=]|].
    intros H. assert (Hw : w_fs w' = fun q => if below dir q then None else w_fs w q) by (by injection H as <-).
    split_and!.
    - intros p Hp. by rewrite Hw, Hp.
    - intros p Hp. by rewrite Hw, Hp.
    - destruct c; [left|right|]; [|injection H as <-; done|injection H; done]. split; [done|]. injection H as <-. cbn [w_jobs cancel_job]. intros x.
      rewrite <- !elem_of_list_In, List.filter_In || (rewrite elem_of_list_In, List.filter_In, <- elem_of_list_In).
      rewrite negb_true_iff, bool_decide_eq_false. done.
  Qed.
  Lemma job_stop_works st c w u m : j_id st <> None -> j_dir st = Some dir -> w_fs w dir = Some (Node u m None) -> c <> CFailed -> exists w', job_stop user cwd st false c w = (w', true).
  Proof.
    intros Hi Hj E Hc. unfold job_stop. destruct (j_id st) as [id|]; [|done]. rewrite Hj, (dir_abs cwd dir Hd), E. cbn [exec]. rewrite (dir_abs cwd dir Hd), E.
    destruct c; [by eexists|by eexists|done].
  Qed.
End jobs.
Lemma worker_stopped id c w w' ok : worker_job_stop (Some id) c w = (w', ok) ->
  w_fs w' = w_fs w /\ (c = CDone -> ok = true /\ forall x, x ∈ w_jobs w' <-> x ∈ w_jobs w /\ x <> id) /\ (c <> CDone -> w_jobs w' = w_jobs w) /\ (ok = false <-> c = CFailed).
Proof.
  intros [= <- <-]. cbn [w_fs w_jobs]. split; [done|]. split.
  - intros ->. split; [done|]. intros x. cbn [cancel_job]. rewrite elem_of_list_In, List.filter_In, <- elem_of_list_In, negb_true_iff, bool_decide_eq_false. done.
  - split; [by destruct c|]. by destruct c.
Qed.
