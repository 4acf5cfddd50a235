(** Properties C59, C73, C74: what the status checks of the backends answer. *)
From Coq Require Import Ascii String.
From stdpp Require Import base list gmap strings.
From Verif Require Import Check_Model Check_Spec Check_Proofs.
Open Scope nat_scope.

(** What the answers are used for: exactly the things asked about and found not alive are
    made to fail. *)
Theorem C59_failed : forall A (P : A -> Prop) xs bs, NoDup xs -> answers P xs bs -> forall x, x ∈ failed xs (Some bs) <-> x ∈ xs /\ ~ P x.
Proof.
  intros A P xs bs Hd Ha x. rewrite (failed_spec P xs bs Ha). unfold answers in Ha. split.
  - intros (i & H1 & H2). split; [by eapply elem_of_list_lookup_2|]. destruct (Forall2_lookup_l _ _ _ _ _ Ha H1) as (b & Hb & Hi). rewrite H2 in Hb. injection Hb as <-. intros Hp. apply Hi in Hp. done.
  - intros [Hx Hp]. apply elem_of_list_lookup in Hx as (i & Hi). exists i. split; [done|]. destruct (Forall2_lookup_l _ _ _ _ _ Ha Hi) as (b & Hb & Hbi). rewrite Hb. destruct b; [exfalso; apply Hp; by apply Hbi|done].
Qed.
Print Assumptions C59_failed.

(** YARN, workers.  Missing in the partial theorem: workers of more than one cluster. *)
Theorem C59_yarn_partial : forall apps c ws, Forall (fun w => w_cluster w = c) ws -> NoDup (map w_name ws) -> reachable (apps c) = true ->
  exists bs, yarn_check_workers apps ws = Some bs /\ answers (container_alive apps) ws bs.
Proof.
  intros apps c ws Hf Hd Hr. exists (map (alive_b apps c) ws). split; [by apply yarn_single|]. apply answers_map. intros w Hw. apply alive_b_true. rewrite Forall_forall in Hf. by apply Hf.
Qed.
Print Assumptions C59_yarn_partial.
Definition ex_apps (c : positive) : application := if decide (c = 1%positive) then App true (Some [11; 12]%positive) else App true (Some [22]%positive).
Example C59_yarn_example : yarn_check_workers ex_apps [Worker 5 1 (Some 11%positive); Worker 6 1 None; Worker 7 1 (Some 13%positive); Worker 8 1 (Some 12%positive)] = Some [true; false; false; true].
Proof. vm_compute. reflexivity. Qed.
(** With two clusters a worker that is alive is made to fail in place of one that is
    not, and fewer answers than workers are given. *)
Theorem C59_yarn_refuted : exists apps ws bs w1 w2, NoDup (map w_name ws) /\ (forall c, reachable (apps c) = true) /\ yarn_check_workers apps ws = Some bs /\
  length bs < length ws /\ w1 ∈ ws /\ container_alive apps w1 /\ w1 ∈ failed ws (Some bs) /\ w2 ∈ ws /\ ~ container_alive apps w2 /\ w2 ∉ failed ws (Some bs).
Proof.
  set (w1 := Worker 5 1 (Some 11%positive)). set (w2 := Worker 6 2 (Some 21%positive)). exists ex_apps, [w1; w2], [false], w1, w2. split_and!.
  - apply (bool_decide_unpack _). vm_compute. done.
  - intros c. unfold ex_apps. by destruct (decide (c = 1%positive)).
  - vm_compute. reflexivity.
  - vm_compute. lia.
  - left.
  - exists [11; 12]%positive, 11%positive. split_and!; [done|done|left].
  - cbn. left.
  - right. left.
  - intros (l & i & Hl & Hi & H). cbn in Hl, Hi. injection Hl as <-. injection Hi as <-. apply elem_of_list_singleton in H. done.
  - cbn. intros H. apply elem_of_list_singleton in H. done.
Qed.
Print Assumptions C59_yarn_refuted.
(** An application that cannot be reached prevents every check: nothing is made to fail. *)
Theorem C59_yarn_reach_refuted : exists apps ws w, NoDup (map w_name ws) /\ w ∈ ws /\ ~ container_alive apps w /\ reachable (apps (w_cluster w)) = true /\ failed ws (yarn_check_workers apps ws) = [].
Proof.
  set (apps := fun c : positive => if decide (c = 1%positive) then App false None else App true (Some [])). set (w1 := Worker 5 1 (Some 11%positive)). set (w2 := Worker 6 2 (Some 21%positive)).
  exists apps, [w1; w2], w2. split_and!; [apply (bool_decide_unpack _); vm_compute; done|right; left| |done|vm_compute; reflexivity].
  intros (l & i & Hl & _ & H). cbn in Hl. injection Hl as <-. by apply elem_of_nil in H.
Qed.
Print Assumptions C59_yarn_reach_refuted.

(** YARN, clusters.  Missing in the partial theorem: a cluster whose application id has
    not been recorded. *)
Definition finished (st : string) : Prop := st = "FAILED"%string \/ st = "KILLED"%string \/ st = "FINISHED"%string.
Theorem C59_yarn_clusters_partial : forall report ids, (forall x, x ∈ ids -> exists a st, x = Some a /\ report a = Some st) ->
  exists bs, yarn_check_clusters report ids = Some bs /\ answers (fun x => exists a st, x = Some a /\ report a = Some st /\ ~ finished st) ids bs.
Proof.
  intros report ids. induction ids as [|x ids IH]; intros H; [exists []; split; [done|constructor]|].
  destruct (H x) as (a & st & -> & Hr); [left|]. destruct IH as (bs & E & Ha); [intros y Hy; apply H; by right|]. cbn [yarn_check_clusters]. rewrite Hr, E. eexists. split; [done|]. constructor; [|done].
  rewrite negb_true_iff, bool_decide_eq_false, !elem_of_cons. pose proof (not_elem_of_nil st). unfold finished. split.
  - intros K. exists a, st. split_and!; [done|done|tauto].
  - intros (a' & st' & Ea & Er & K). injection Ea as <-. rewrite Hr in Er. injection Er as <-. tauto.
Qed.
Print Assumptions C59_yarn_clusters_partial.
Example C59_yarn_clusters_example : yarn_check_clusters (fun a => Some (if decide (a = 1%positive) then "RUNNING" else "KILLED")%string) [Some 1%positive; Some 2%positive] = Some [true; false].
Proof. vm_compute. reflexivity. Qed.
Theorem C59_yarn_clusters_refuted : exists report ids a, Some a ∈ ids /\ report a = Some "FAILED"%string /\ failed ids (yarn_check_clusters report ids) = [].
Proof. exists (fun _ => Some "FAILED"%string), [Some 1%positive; None], 1%positive. split_and!; [left|done|vm_compute; reflexivity]. Qed.
Print Assumptions C59_yarn_clusters_refuted.

(** PBS and Slurm: one answer per object, in order; the command is asked about exactly the
    jobs of the objects, and an object is alive if the last row about its job says so. *)
Theorem C73_slurm : forall rows objs, NoDup (map j_name objs) -> (forall ids, Forall (fun r => word (fst r) /\ word (snd r)) (rows ids)) ->
  exists ids bs, ids ≡ₚ omap j_id objs /\ do_check (fun ids => Some (squeue (rows ids))) slurm_states objs = Some bs /\
  answers (fun x => exists j, j_id x = Some j /\ reported slurm_active (rows ids) j) objs bs.
Proof.
  intros rows objs Hd Hw. destruct (do_check_ok (fun ids => Some (squeue (rows ids))) slurm_states objs Hd) as (ids & Hp & H). exists ids.
  destruct (slurm_parse (rows ids) (Hw ids)) as (states & E & Hs).
  destruct ids as [|i ids'].
  - eexists. split; [done|]. split; [apply (H ∅); done|]. apply answers_map. intros x Hx. assert (Ex : j_id x = None).
    { destruct (j_id x) as [j|] eqn:Ej; [|done]. exfalso. apply (not_elem_of_nil j). rewrite Hp. apply elem_of_list_omap. by exists x. }
    rewrite Ex. split; [done|]. by intros (j & ? & _).
  - eexists. split; [done|]. split; [apply (H states); done|]. apply answers_map. intros x Hx. destruct (j_id x) as [j|]; [|split; [done|by intros (j & ? & _)]].
    rewrite Hs. split; [intros ?; by exists j|]. intros (j' & Ej & ?). injection Ej as <-. done.
Qed.
Print Assumptions C73_slurm.
Theorem C73_pbs : forall h1 h2 a b c q rows objs, one_line h1 -> one_line h2 -> word a -> word b -> word c -> word q -> NoDup (map j_name objs) ->
  (forall ids, Forall (fun r => word (fst r) /\ word (snd r)) (rows ids)) ->
  exists ids bs, ids ≡ₚ omap j_id objs /\ do_check (fun ids => Some (qstat h1 h2 (rows ids) a b c q)) pbs_states objs = Some bs /\
  answers (fun x => exists j, j_id x = Some j /\ reported pbs_active (rows ids) j) objs bs.
Proof.
  intros h1 h2 a b c q rows objs H1 H2 Ha Hb Hc Hq Hd Hw. destruct (do_check_ok (fun ids => Some (qstat h1 h2 (rows ids) a b c q)) pbs_states objs Hd) as (ids & Hp & H). exists ids.
  destruct (pbs_parse h1 h2 (rows ids) a b c q H1 H2 Ha Hb Hc Hq (Hw ids)) as (states & E & Hs).
  destruct ids as [|i ids'].
  - eexists. split; [done|]. split; [apply (H ∅); done|]. apply answers_map. intros x Hx. assert (Ex : j_id x = None).
    { destruct (j_id x) as [j|] eqn:Ej; [|done]. exfalso. apply (not_elem_of_nil j). rewrite Hp. apply elem_of_list_omap. by exists x. }
    rewrite Ex. split; [done|]. by intros (j & ? & _).
  - eexists. split; [done|]. split; [apply (H states); done|]. apply answers_map. intros x Hx. destruct (j_id x) as [j|]; [|split; [done|by intros (j & ? & _)]].
    rewrite Hs. split; [intros ?; by exists j|]. intros (j' & Ej & ?). injection Ej as <-. done.
Qed.
Print Assumptions C73_pbs.
Definition ex_jobs := [Job 1 (Some (t_ "77")); Job 2 None; Job 3 (Some (t_ "78")); Job 4 (Some (t_ "79"))].
Definition ex_rows := [(t_ "77", t_ "PD"); (t_ "78", t_ "F"); (t_ "80", t_ "R")].
Example C73_slurm_example : do_check (fun _ => Some (squeue ex_rows)) slurm_states ex_jobs = Some [true; false; false; false].
Proof. vm_compute. reflexivity. Qed.
Example C73_pbs_example : do_check (fun _ => Some (qstat (t_ "Job id Name") (t_ "------ ----") [(t_ "77", t_ "E"); (t_ "78", t_ "Q")] (t_ "dask") (t_ "alice") (t_ "00:00:01") (t_ "workq"))) pbs_states ex_jobs = Some [false; false; true; false].
Proof. vm_compute. reflexivity. Qed.

(** Local: the recorded process runs. *)
Theorem C73_local : forall running pids, answers (fun p => exists q, p = Some q /\ running q = true) pids (local_check running pids).
Proof.
  intros running pids. apply answers_map. intros [p|] _; [|split; [done|by intros (q & ? & _)]]. split; [intros H; by exists p|]. intros (q & E & H). by injection E as <-.
Qed.
Print Assumptions C73_local.
(** In-process.  Something that was never started, or forgotten, is made to fail. *)
Theorem C74_gone_partial : forall closed names n, NoDup names -> n ∈ names -> closed n = None -> n ∈ failed names (Some (inprocess_check closed names)).
Proof.
  intros closed names n Hd Hn E. assert (Ha : answers (fun n => closed n = Some true) names (inprocess_check closed names)).
  { apply answers_map. intros m _. destruct (closed m) as [[]|]; done. }
  rewrite (C59_failed _ _ _ _ Hd Ha). split; [done|congruence].
Qed.
Print Assumptions C74_gone_partial.
(** In-process: the answer is the wrong way round.  Whatever is running is made to fail,
    whatever was closed is not. *)
Theorem C74_inprocess_refuted : forall closed names n, NoDup names -> n ∈ names ->
  (closed n = Some false -> n ∈ failed names (Some (inprocess_check closed names))) /\ (closed n = Some true -> n ∉ failed names (Some (inprocess_check closed names))).
Proof.
  intros closed names n Hd Hn. assert (Ha : answers (fun n => closed n = Some true) names (inprocess_check closed names)).
  { apply answers_map. intros m _. destruct (closed m) as [[]|]; done. }
  rewrite (C59_failed _ _ _ _ Hd Ha). split; intros H; [split; [done|congruence]|intros [_ K]; done].
Qed.
Print Assumptions C74_inprocess_refuted.
Example C74_inprocess_example : failed [1; 2]%positive (Some (inprocess_check (fun n => Some (bool_decide (n = 2%positive))) [1; 2]%positive)) = [1%positive].
Proof. vm_compute. reflexivity. Qed.
