From Coq Require Import Ascii String.
From stdpp Require Import prelude.
From Verif Require Import Router_Model ProxyLog_Model ProxyLog_Proofs Launch_Model Launch_Spec.
Local Open Scope nat_scope.

Lemma dget_dupdate {V} (l : list (bytes * V)) d k :
  dget k (dupdate d l) = match dget k (rev l) with Some v => Some v | None => dget k d end.
Proof.
  revert d. induction l as [|[k' v] l IH] using rev_ind; intros d; [done|].
  unfold dupdate in *. rewrite fold_left_app. cbn [fold_left fst snd]. rewrite dget_dset, rev_app_distr. cbn.
  destruct (decide (k = k')); [done|]. apply IH.
Qed.

Lemma dupdate_nodup {V} (l d : list (bytes * V)) : NoDup (map fst d) -> NoDup (map fst (dupdate d l)).
Proof. revert d. induction l as [|[k v] l IH]; intros d H; [done|]. cbn. apply IH. by apply dset_nodup. Qed.

Lemma inherit_get environ l env k :
  dget k (fold_left (inherit environ) l env) = if decide (k ∈ l) then match dget k environ with Some v => Some v | None => dget k env end else dget k env.
Proof.
  revert env. induction l as [|x l IH]; intros env; cbn [fold_left].
  { destruct (decide (k ∈ [])); [set_solver|done]. }
  rewrite IH. unfold inherit. destruct (dget x environ) as [v|] eqn:E.
  - rewrite dget_dset. destruct (decide (k = x)) as [->|].
    + rewrite E. destruct (decide (x ∈ l)); destruct (decide (x ∈ x :: l)); set_solver.
    + destruct (decide (k ∈ l)); destruct (decide (k ∈ x :: l)); set_solver.
  - destruct (decide (k = x)) as [->|].
    + rewrite E. destruct (decide (x ∈ l)); destruct (decide (x ∈ x :: l)); set_solver.
    + destruct (decide (k ∈ l)); destruct (decide (k ∈ x :: l)); set_solver.
Qed.

Lemma inherit_nodup environ l env : NoDup (map fst env) -> NoDup (map fst (fold_left (inherit environ) l env)).
Proof.
  revert env. induction l as [|x l IH]; intros env H; [done|]. cbn. apply IH. unfold inherit.
  destruct (dget x environ); [by apply dset_nodup|done].
Qed.

Definition gateway_keys : list bytes :=
  map b_ ["DASK_GATEWAY_API_URL"; "DASK_GATEWAY_API_TOKEN"; "DASK_GATEWAY_CLUSTER_NAME"; "DASK_DISTRIBUTED__COMM__REQUIRE_ENCRYPTION"]%string.

Lemma get_env_get b g c k : dget k (get_env b g c) =
  match b with
  | Local l environ => if decide (k = b_ "USER") then Some (c_user c)
                       else if decide (k ∈ l) then match dget k environ with Some v => Some v | None => dget k (base_env g c) end else dget k (base_env g c)
  | _ => dget k (base_env g c)
  end.
Proof.
  destruct b; try done. unfold get_env. rewrite dget_dset. destruct (decide (k = b_ "USER")); [done|]. apply inherit_get.
Qed.

Ltac keys := repeat match goal with |- context [decide (?a = ?b)] => let E := fresh in destruct (decide (a = b)) as [E|E]; [try discriminate E|try (exfalso; apply E; reflexivity)] end.

Lemma env_required b g c r k v : sane b -> (k, v) ∈ required b g c r -> dget k (process_env b g c r) = Some v.
Proof.
  intros Hs Hin. unfold process_env. destruct (tls_paths b c) as [cert key] eqn:E.
  rewrite dget_dupdate. unfold required in Hin. rewrite E in Hin. cbn [fst snd] in Hin.
  assert (Hb : dget k (rev (match r with
    | Scheduler => [(b_ "DASK_DISTRIBUTED__COMM__TLS__CA_FILE", cert); (b_ "DASK_DISTRIBUTED__COMM__TLS__SCHEDULER__KEY", key); (b_ "DASK_DISTRIBUTED__COMM__TLS__SCHEDULER__CERT", cert)]
    | Worker => [(b_ "DASK_DISTRIBUTED__COMM__TLS__CA_FILE", cert); (b_ "DASK_DISTRIBUTED__COMM__TLS__WORKER__KEY", key); (b_ "DASK_DISTRIBUTED__COMM__TLS__WORKER__CERT", cert)] end)) = Some v
    \/ (dget k (rev (match r with
    | Scheduler => [(b_ "DASK_DISTRIBUTED__COMM__TLS__CA_FILE", cert); (b_ "DASK_DISTRIBUTED__COMM__TLS__SCHEDULER__KEY", key); (b_ "DASK_DISTRIBUTED__COMM__TLS__SCHEDULER__CERT", cert)]
    | Worker => [(b_ "DASK_DISTRIBUTED__COMM__TLS__CA_FILE", cert); (b_ "DASK_DISTRIBUTED__COMM__TLS__WORKER__KEY", key); (b_ "DASK_DISTRIBUTED__COMM__TLS__WORKER__CERT", cert)] end)) = None
       /\ set_by_gateway r k /\ k <> b_ "USER" /\ dget k (base_env g c) = Some v)).
  { rewrite !elem_of_cons in Hin. destruct Hin as [Hin|[Hin|[Hin|[Hin|[Hin|[Hin|[Hin|Hin]]]]]]]; [..|by apply elem_of_nil in Hin];
      injection Hin as -> ->.
    1-4: right; split; [by destruct r|split; [left; repeat ((by left) || right)|split; [done|]]];
         unfold base_env; rewrite dget_dupdate; cbn -[dupdate]; done.
    1-3: left; by destruct r. }
  destruct Hb as [->|(-> & Hset & Hu & Hv)]; [done|]. rewrite get_env_get.
  destruct b as [| | |l environ]; try done. destruct (decide (k = b_ "USER")); [done|].
  destruct (decide (k ∈ l)) as [Hl|]; [|done]. exfalso. by apply (Hs r k Hl).
Qed.

Lemma env_rest b g c r k : ~ set_by_gateway r k -> dget k (process_env b g c r) = expected b c k.
Proof.
  intros Hn. unfold process_env. destruct (tls_paths b c) as [cert key]. rewrite dget_dupdate.
  assert (Hne : forall x, set_by_gateway r x -> k <> x) by (by intros x Hx ->).
  destruct (dget k (rev _)) as [v|] eqn:E.
  { exfalso. apply dget_in, elem_of_list_In, in_rev, elem_of_list_In in E. apply Hn.
    destruct r; rewrite !elem_of_cons in E; (destruct E as [E|[E|[E|E]]]; [..|by apply elem_of_nil in E]); injection E as -> _.
    all: first [by right; left|by right; right|left; repeat ((by left) || right)]. }
  assert (Hbase : dget k (base_env g c) = asked c k).
  { clear E. unfold base_env. rewrite dget_dupdate. destruct (dget k (rev _)) as [v|] eqn:E2; [|unfold asked; reflexivity].
    exfalso. apply dget_in, elem_of_list_In, in_rev, elem_of_list_In in E2. apply Hn. left.
    rewrite !elem_of_cons in E2. destruct E2 as [E2|[E2|[E2|[E2|E2]]]]; [..|by apply elem_of_nil in E2]; injection E2 as -> _; repeat ((by left) || right). }
  rewrite get_env_get, Hbase. by destruct b.
Qed.

Lemma env_nodup b g c r : NoDup (map fst (process_env b g c r)).
Proof.
  unfold process_env. destruct (tls_paths b c). apply dupdate_nodup.
  assert (Hb : NoDup (map fst (base_env g c))) by (unfold base_env; do 2 apply dupdate_nodup; constructor).
  destruct b; try done. cbn. by apply dset_nodup, inherit_nodup.
Qed.

Lemma yarn_worker_env g c w k : dget k (yarn_container_env g c w) =
  if decide (k = b_ "DASK_GATEWAY_WORKER_NAME") then Some w
  else if decide (k = b_ "DASK_GATEWAY_SCHEDULER_ADDRESS") then Some (c_address c) else dget k (process_env Yarn g c Worker).
Proof.
  unfold yarn_container_env. rewrite dget_dupdate. cbn [rev app dget].
  destruct (decide (k = b_ "DASK_GATEWAY_SCHEDULER_ADDRESS")) as [->|]; [done|].
  by destruct (decide (k = b_ "DASK_GATEWAY_WORKER_NAME")).
Qed.

(** * Splitting and joining. *)
Lemma split_on_plain sep l : sep ∉ l -> split_on sep l = [l].
Proof.
  induction l as [|x l IH]; intros H; [done|]. cbn. destruct (decide (x = sep)) as [->|]; [set_solver|].
  rewrite IH by set_solver. done.
Qed.
Lemma split_on_cons sep w l : sep ∉ w -> split_on sep (w ++ sep :: l) = w :: split_on sep l.
Proof.
  induction w as [|x w IH]; intros H; cbn.
  - by rewrite decide_True.
  - destruct (decide (x = sep)) as [->|]; [set_solver|]. by rewrite IH by set_solver.
Qed.
Lemma split_join sep l : l <> [] -> Forall (fun w => sep ∉ w) l -> split_on sep (join [sep] l) = l.
Proof.
  induction l as [|w l IH]; intros Hne H; [done|]. apply Forall_cons_iff in H as [Hw H].
  destruct l as [|w' l]; [by apply split_on_plain|].
  change (join [sep] (w :: w' :: l)) with (w ++ [sep] ++ join [sep] (w' :: l)). cbn [app].
  rewrite split_on_cons by done. by rewrite IH.
Qed.

Lemma sort_in_perm x l : sort_in x l ≡ₚ x :: l.
Proof. induction l as [|y l IH]; [done|]. cbn [sort_in]. destruct (str_le x y); [done|]. rewrite IH. constructor. Qed.
Lemma sorted_perm l : sorted l ≡ₚ l.
Proof. induction l as [|x l IH]; [done|]. cbn. by rewrite sort_in_perm, IH. Qed.

Lemma job_vars_get env items job k : Forall plain_name items -> NoDup items ->
  dget k (fold_left (job_var env) items job) = if decide (k ∈ items) then match dget k env with Some v => Some v | None => dget k job end else dget k job.
Proof.
  revert job. induction items as [|x items IH]; intros job Hp Hn; cbn [fold_left].
  { destruct (decide (k ∈ [])); [set_solver|done]. }
  apply Forall_cons_iff in Hp as [[_ Hx] Hp]. apply NoDup_cons in Hn as [Hnx Hn]. rewrite IH by done.
  unfold job_var. rewrite (split_on_plain _ _ Hx). destruct (dget x env) as [v|] eqn:E.
  - rewrite dget_dset. destruct (decide (k = x)) as [->|].
    + rewrite E. destruct (decide (x ∈ items)); destruct (decide (x ∈ x :: items)); set_solver.
    + destruct (decide (k ∈ items)); destruct (decide (k ∈ x :: items)); set_solver.
  - destruct (decide (k = x)) as [->|].
    + rewrite E. destruct (decide (x ∈ items)); destruct (decide (x ∈ x :: items)); set_solver.
    + destruct (decide (k ∈ items)); destruct (decide (k ∈ x :: items)); set_solver.
Qed.

Lemma dupdate_keys {V} (l d : list (bytes * V)) x : x ∈ map fst (dupdate d l) <-> x ∈ map fst d \/ x ∈ map fst l.
Proof.
  revert d. induction l as [|[k v] l IH]; intros d; cbn; [set_solver|]. setoid_rewrite IH. rewrite dset_keys. set_solver.
Qed.

Lemma env_keys_plain b g c r : b <> Yarn -> inherited b = [] -> Forall plain_name (map fst (c_env c)) -> Forall plain_name (map fst (process_env b g c r)).
Proof.
  intros Hb Hi H. apply Forall_forall. intros x Hx. unfold process_env in Hx. destruct (tls_paths b c) as [cert key].
  apply dupdate_keys in Hx as [Hx|Hx].
  - assert (Hbase : x ∈ map fst (base_env g c) -> plain_name x).
    { intros Hy. unfold base_env in Hy. apply dupdate_keys in Hy as [Hy|Hy].
      - apply dupdate_keys in Hy as [Hy|Hy]; [by apply elem_of_nil in Hy|]. rewrite Forall_forall in H. by apply H.
      - cbn [map fst] in Hy. rewrite !elem_of_cons in Hy. destruct Hy as [->|[->|[->|[->|Hy]]]]; [..|by apply elem_of_nil in Hy];
          split; apply (bool_decide_unpack _); vm_compute; done. }
    destruct b as [| | |l environ]; try by apply Hbase. cbn in Hi. subst l. cbn in Hx.
    apply dset_keys in Hx as [->|Hx]; [|by apply Hbase]. split; apply (bool_decide_unpack _); vm_compute; done.
  - destruct r; cbn [map fst] in Hx; rewrite !elem_of_cons in Hx; (destruct Hx as [->|[->|[->|Hx]]]; [..|by apply elem_of_nil in Hx]);
      split; apply (bool_decide_unpack _); vm_compute; done.
Qed.

Lemma env_nonempty b g c r : process_env b g c r <> [].
Proof.
  intros E. unfold process_env in E. destruct (tls_paths b c) as [cert key].
  assert (H : b_ "DASK_DISTRIBUTED__COMM__TLS__CA_FILE" ∈ map fst (dupdate (get_env b g c)
     (match r with
      | Scheduler => [(b_ "DASK_DISTRIBUTED__COMM__TLS__CA_FILE", cert); (b_ "DASK_DISTRIBUTED__COMM__TLS__SCHEDULER__KEY", key); (b_ "DASK_DISTRIBUTED__COMM__TLS__SCHEDULER__CERT", cert)]
      | Worker => [(b_ "DASK_DISTRIBUTED__COMM__TLS__CA_FILE", cert); (b_ "DASK_DISTRIBUTED__COMM__TLS__WORKER__KEY", key); (b_ "DASK_DISTRIBUTED__COMM__TLS__WORKER__CERT", cert)]
      end))).
  { apply dupdate_keys. right. destruct r; by left. }
  rewrite E in H. by apply elem_of_nil in H.
Qed.

Lemma job_env_ok b g c w k : b = Pbs \/ b = Slurm -> Forall plain_name (map fst (c_env c)) ->
  dget k (job_env (submit b g c w)) = dget k (process_env b g c (match w with Some _ => Worker | None => Scheduler end)).
Proof.
  intros Hb Hp. set (r := match w with Some _ => Worker | None => Scheduler end).
  set (env := process_env b g c r). unfold job_env. cbn [submit j_export j_env]. fold r env.
  assert (Hpl : Forall plain_name (map fst env)) by (apply env_keys_plain; [by destruct Hb as [-> | ->]|by destruct Hb as [-> | ->]|done]).
  pose proof (sorted_perm (map fst env)) as Hperm.
  assert (Hplain : Forall plain_name (sorted (map fst env))) by (by rewrite Hperm).
  change (b_ ",") with [comma]. rewrite split_join.
  - rewrite job_vars_get; [|done|]. 2: { rewrite Hperm. apply env_nodup. }
    cbn [dget]. destruct (decide (k ∈ sorted (map fst env))) as [Hk|Hk].
    + by destruct (dget k env).
    + rewrite Hperm in Hk. destruct (dget k env) as [v|] eqn:E; [|done]. exfalso. apply Hk.
      apply dget_in in E. change k with (fst (k, v)). by apply elem_of_list_fmap_1.
  - intros E. rewrite E in Hperm. apply Permutation_nil in Hperm. apply (env_nonempty b g c r). unfold env in Hperm.
    by destruct (process_env b g c r).
  - eapply Forall_impl; [exact Hplain|]. by intros x [? _].
Qed.

(** * The script. *)
Lemma last_app_cons {A} (l1 l2 : list A) d : l2 <> [] -> List.last (l1 ++ l2) d = List.last l2 d.
Proof. intros H. induction l1 as [|x l1 IH]; [done|]. cbn. destruct (l1 ++ l2) eqn:E; [|done]. by apply app_eq_nil in E as [_ ->]. Qed.
Lemma split_on_ne sep l : split_on sep l <> [].
Proof. induction l as [|x l IH]; [done|]. cbn. destruct (decide (x = sep)); [done|]. by destruct (split_on sep l). Qed.
Lemma last_line_app pre line : ascii_of_nat 10 ∉ line -> last_line (pre ++ ascii_of_nat 10 :: line) = line.
Proof.
  intros H. unfold last_line. induction pre as [|x pre IH].
  - cbn [app split_on]. rewrite decide_True by done. by rewrite (split_on_plain _ _ H).
  - cbn [app split_on]. destruct (decide (x = ascii_of_nat 10)).
    + cbn [List.last]. destruct (split_on (ascii_of_nat 10) (pre ++ ascii_of_nat 10 :: line)) eqn:E; [by apply split_on_ne in E|done].
    + assert (Hw : exists w ws1 ws2, split_on (ascii_of_nat 10) (pre ++ ascii_of_nat 10 :: line) = w :: ws1 :: ws2).
      { clear. induction pre as [|y pre IH].
        - cbn [app split_on]. rewrite decide_True by done. destruct (split_on (ascii_of_nat 10) line) eqn:E; [by apply split_on_ne in E|eauto].
        - cbn [app split_on]. destruct IH as (w & a & b & ->). destruct (decide (y = ascii_of_nat 10)); eauto. }
      destruct Hw as (w & a & bb & E). rewrite E in *. exact IH.
Qed.

Lemma plain_no_newline w : Forall (fun c => plain_char c = true) w -> ascii_of_nat 10 ∉ w.
Proof. intros H Hin. rewrite Forall_forall in H. apply H in Hin. vm_compute in Hin. done. Qed.
Lemma plain_no_blank w : Forall (fun c => plain_char c = true) w -> blank ∉ w.
Proof. intros H Hin. rewrite Forall_forall in H. apply H in Hin. vm_compute in Hin. done. Qed.

Lemma join_chars sep l x : x ∈ join sep l -> x ∈ sep \/ exists w, w ∈ l /\ x ∈ w.
Proof.
  induction l as [|w l IH]; intros H; [by apply elem_of_nil in H|].
  destruct l as [|w' l]; [right; exists w; set_solver|].
  change (join sep (w :: w' :: l)) with (w ++ sep ++ join sep (w' :: l)) in H.
  rewrite !elem_of_app in H. destruct H as [H|[H|H]]; [right; exists w; set_solver|by left|].
  destruct (IH H) as [?|(v & ? & ?)]; [by left|right; exists v; set_solver].
Qed.

Lemma line_words cmd : cmd <> [] -> Forall plain_word cmd -> sh_words (join (b_ " ") cmd) = Some cmd /\ ascii_of_nat 10 ∉ join (b_ " ") cmd.
Proof.
  intros Hne H. change (b_ " ") with [blank].
  assert (Hc : forall x, x ∈ join [blank] cmd -> x = blank \/ plain_char x = true).
  { intros x Hx. apply join_chars in Hx as [Hx|(w & Hw & Hx)]; [left; set_solver|right].
    rewrite Forall_forall in H. destruct (H w Hw) as [_ Hp]. rewrite Forall_forall in Hp. by apply Hp. }
  split.
  - unfold sh_words. rewrite (proj2 (forallb_forall _ _)).
    2: { intros x Hx. destruct (Hc x) as [-> | ->]; [by apply elem_of_list_In|by rewrite bool_decide_true, orb_true_r by done|done]. }
    rewrite split_join.
    2: done. 2: { eapply Forall_impl; [exact H|]. intros w [_ Hw]. by apply plain_no_blank. }
    f_equal. clear -H. induction H as [|w l [Hw _] H IH]; [done|]. cbn. destruct w; [done|]. by rewrite IH.
  - intros Hx. destruct (Hc _ Hx) as [E|E]; [discriminate E|vm_compute in E; done].
Qed.

Lemma script_lines b g c w : b <> Yarn -> exists pre, j_script (submit b g c w) = pre ++ ascii_of_nat 10 ::
  join (b_ " ") (match w with Some n => worker_command b c n None | None => scheduler_command b g c end).
Proof.
  intros Hb. unfold submit. cbn [j_script].
  set (body := join (b_ " ") _). set (setup := match w with Some _ => _ | None => _ end).
  destruct b; try done; cbn [join newline];
    first [exists setup; cbn [app]; done | exists (b_ "#!/bin/sh" ++ ascii_of_nat 10 :: setup); rewrite <- app_assoc; done].
Qed.

Lemma script_runs b g c w : b = Pbs \/ b = Slurm ->
  let cmd := match w with Some n => worker_command b c n None | None => scheduler_command b g c end in
  Forall plain_word cmd -> sh_words (last_line (j_script (submit b g c w))) = Some cmd.
Proof.
  intros Hb cmd H. destruct (script_lines b g c w) as [pre E]; [by destruct Hb as [-> | ->]|]. rewrite E.
  assert (Hne : cmd <> []).
  { unfold cmd. destruct w; [unfold worker_command; destruct (threads_memory b c)|unfold scheduler_command]; by intros [_ ?]%app_eq_nil. }
  destruct (line_words cmd Hne H) as [Hw Hn]. rewrite last_line_app by done. done.
Qed.

Lemma yarn_lines g c r : exists pre, yarn_script g c r = pre ++ ascii_of_nat 10 ::
  join (b_ " ") (match r with Scheduler => scheduler_command Yarn g c
                 | Worker => worker_command Yarn c (b_ "$DASK_GATEWAY_WORKER_NAME") (Some (b_ "$DASK_GATEWAY_SCHEDULER_ADDRESS")) end).
Proof. destruct r; [exists (c_scheduler_setup c)|exists (c_worker_setup c)]; done. Qed.
