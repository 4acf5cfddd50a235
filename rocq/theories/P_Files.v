(** Properties C92-C94: credentials on disk, and what starting and stopping leaves behind. *)
From Coq Require Import Ascii String.
From stdpp Require Import prelude.
From Verif Require Import Router_Model ProxyLog_Model ProxyLog_Proofs Launch_Model Launch_Proofs Files_Model Files_Spec Files_Proofs.
Local Open Scope nat_scope.

(** C92. "The files named in the environment of a process are its cluster's certificate and
    key."  Local processes, in a working directory with an absolute path: *)
Theorem C92_local_partial : forall safe s user c inh env cert key faults spawned f f' st, dir_ok (c_workdir c) ->
  local_start safe s user (c_workdir c) cert key faults spawned f = (f', st, true) ->
  local_opens s (c_workdir c) f' (fst (tls_paths (Local inh env) c)) = Some cert /\ local_opens s (c_workdir c) f' (snd (tls_paths (Local inh env) c)) = Some key.
Proof.
  intros safe s user c inh env cert key fl sp f f' st Hw H. unfold local_opens. rewrite (dir_abs (s_cwd s) (c_workdir c) Hw). cbn [tls_paths fst snd].
  destruct (local_started _ _ _ _ _ Hw _ _ _ _ _ _ H) as (H1 & H2 & _).
  change (path_join (path_join (c_workdir c) (b_ ".certs")) (b_ "dask.crt")) with (local_cert (c_workdir c)).
  change (path_join (path_join (c_workdir c) (b_ ".certs")) (b_ "dask.pem")) with (local_key (c_workdir c)).
  rewrite (dir_abs _ _ (proj2 (cert_ok _ Hw))), (dir_abs _ _ (proj2 (key_ok _ Hw))). done.
Qed.
(** Batch jobs: *)
Theorem C92_slurm : forall user cwd home c cert key faults submitted w w' st, dir_ok (staging_dir c) ->
  job_start user cwd (staging_dir c) cert key faults submitted w = (w', st, true) ->
  job_opens home (w_fs w') (fst (tls_paths Slurm c)) = Some cert /\ job_opens home (w_fs w') (snd (tls_paths Slurm c)) = Some key.
Proof.
  intros user cwd home c cert key fl sub w w' st Hd H. destruct (staged_ok _ Hd) as (_ & D1 & _ & D2 & _). unfold job_opens. cbn [tls_paths fst snd].
  rewrite (dir_abs _ _ D1), (dir_abs _ _ D2). destruct (job_started _ _ _ _ _ Hd _ _ _ _ _ H) as (_ & H1 & H2 & _). done.
Qed.
Theorem C92_pbs : forall user cwd home c cert key faults submitted w w' st, dir_ok (staging_dir c) ->
  job_start user cwd (staging_dir c) cert key faults submitted w = (w', st, true) ->
  let opens := if c_stagein c then sandbox_opens (staging_dir c) (w_fs w') else job_opens home (w_fs w') in
  opens (fst (tls_paths Pbs c)) = Some cert /\ opens (snd (tls_paths Pbs c)) = Some key.
Proof.
  intros user cwd home c cert key fl sub w w' st Hd H. destruct (staged_ok _ Hd) as (_ & D1 & _ & D2 & _).
  destruct (job_started _ _ _ _ _ Hd _ _ _ _ _ H) as (_ & H1 & H2 & _). cbn zeta. cbn [tls_paths].
  destruct (c_stagein c); cbn [fst snd].
  - unfold sandbox_opens. rewrite !bool_decide_false; [done|apply plain_pem|apply plain_crt].
  - unfold job_opens. rewrite (dir_abs _ _ D1), (dir_abs _ _ D2). done.
Qed.
(** YARN containers, whatever files the user has localized: *)
Theorem C92_yarn : forall localize c cert key,
  yarn_opens (yarn_files localize cert key) (fst (tls_paths Yarn c)) = Some cert /\ yarn_opens (yarn_files localize cert key) (snd (tls_paths Yarn c)) = Some key /\
  forall n, n <> b_ "dask.crt" -> n <> b_ "dask.pem" -> yarn_opens (yarn_files localize cert key) n = dget n (dupdate [] localize).
Proof.
  intros localize c cert key. cbn [tls_paths fst snd]. unfold yarn_opens, yarn_files. rewrite !dget_dset.
  split; [rewrite decide_False by (vm_compute; congruence); by rewrite decide_True|]. split; [by rewrite decide_True|].
  intros n H1 H2. rewrite !dget_dset. by rewrite !decide_False.
Qed.
Print Assumptions C92_local_partial.
Print Assumptions C92_slurm.
Print Assumptions C92_pbs.
Print Assumptions C92_yarn.

Lemma triple {A B} (r : A * B * bool) b : snd r = b -> r = (fst (fst r), snd (fst r), b).
Proof. destruct r as [[x y] z]. by intros <-. Qed.
(** A concrete world: an empty machine. *)
Definition ex_site : site := Site (b_ "root") (b_ "/srv/gateway").
Definition ex_fs : fs := fun p => if bool_decide (p ∈ [b_ "/"; b_ "/srv/gateway"; b_ "/tmp"; b_ "/srv/gateway/clusters"]) then Some (Node (b_ "root") 493 None) else None.
Definition no_faults : nat -> bool := fun _ => false.
(** With a relative clusters_directory processes look for the files in the wrong place. *)
Theorem C92_local_refuted : exists s user w cert key spawned f f' st,
  local_start false s user w cert key no_faults spawned f = (f', st, true) /\ local_opens s w f' (local_cert w) = None.
Proof.
  exists ex_site, (b_ "alice"), (b_ "clusters/abc"), (b_ "CERT"), (b_ "KEY"), (Some 7), ex_fs.
  pose (r := local_start false ex_site (b_ "alice") (b_ "clusters/abc") (b_ "CERT") (b_ "KEY") no_faults (Some 7) ex_fs).
  exists (fst (fst r)), (snd (fst r)). split; [|vm_compute; done].
  assert (E : snd r = true) by (vm_compute; done). exact (triple r _ E).
Qed.
Print Assumptions C92_local_refuted.

(** C93. "Starting a cluster keeps its key private, and once it is stopped nothing of it is
    left on disk; other clusters' files are not touched."  The key: *)
Theorem C93_private_local : forall s user w cert key faults spawned f f' st, dir_ok w ->
  local_start false s user w cert key faults spawned f = (f', st, true) -> private (s_gateway s) f' (certs_dir w) (local_key w).
Proof. intros s user w cert key fl sp f f' st Hw H. left. exists (Some key). by eapply local_started. Qed.
Theorem C93_private_job : forall user cwd dir cert key faults submitted w w' st, dir_ok dir -> gone dir (w_fs w) ->
  job_start user cwd dir cert key faults submitted w = (w', st, true) -> private user (w_fs w') dir (path_join dir (b_ "dask.pem")).
Proof. intros user cwd dir cert key fl sub w w' st Hd Hg H. by eapply job_started. Qed.
(** Stopping, if the start came as far as recording its state and the removal works: *)
Theorem C93_local_partial : forall s w st f, dir_ok w -> l_workdir st = Some w ->
  (forall p, below w p = true -> f p <> None -> exists u m, f w = Some (Node u m None)) ->
  gone w (local_stop s st false f) /\ same_but w f (local_stop s st false f).
Proof. intros s w st f Hw. by apply local_stopped. Qed.
Theorem C93_job_partial : forall user cwd dir st fault c w w' id, dir_ok dir -> j_id st = Some id -> j_dir st = Some dir ->
  job_stop user cwd st fault c w = (w', true) -> gone dir (w_fs w') /\ same_but dir (w_fs w) (w_fs w').
Proof. intros user cwd dir st fault c w w' id Hd Hi Hj H. destruct (job_stopped _ _ _ Hd _ _ _ _ _ _ Hi Hj H) as (H1 & H2 & _). done. Qed.
(** Two clusters with different names under one directory: starting or stopping one does
    not touch the other's files. *)
Theorem C93_others : forall base n n' p, dir_ok base -> plain n -> plain n' -> n <> n' -> below (path_join base n') p = true ->
  (forall s user cert key faults spawned f f' st ok, local_start false s user (path_join base n) cert key faults spawned f = (f', st, ok) -> f' p = f p) /\
  (forall s st fault f, l_workdir st = Some (path_join base n) -> local_stop s st fault f p = f p) /\
  (forall user cwd cert key faults submitted w w' st, job_start user cwd (path_join base n) cert key faults submitted w = (w', st, true) -> w_fs w' p = w_fs w p) /\
  (forall user cwd st fault c w w' ok, j_dir st = Some (path_join base n) -> job_stop user cwd st fault c w = (w', ok) -> w_fs w' p = w_fs w p).
Proof.
  intros base n n' p Hb Hn Hn' Hne Hp. destruct (dir_join base n Hb Hn) as [_ D].
  assert (Hq : below (path_join base n) p = false) by (by eapply (siblings base n' n)). split_and!.
  - intros. by eapply unsafe_frame.
  - intros s st fault f Hst. unfold local_stop. rewrite Hst. destruct (f _); [|done].
    destruct (exec _ _ fault (RmTree _) f) as [f1 ok] eqn:E. cbn [fst]. eapply exec_frame; [exact E|]. cbn [touched]. by rewrite (dir_abs _ _ D).
  - intros user cwd cert key fl sub w w' st H. destruct (job_started _ _ _ _ _ D _ _ _ _ _ H) as (_ & _ & _ & Hs & _). by apply Hs.
  - intros user cwd st fault c w w' ok Hst H. unfold job_stop in H. destruct (j_id st); [|by injection H as <-]. rewrite Hst in H.
    destruct (w_fs w _); [|by injection H as <-]. destruct (exec user cwd fault (RmTree _) (w_fs w)) as [f1 [|]] eqn:E; injection H as <- <-; cbn [w_fs];
      (eapply exec_frame; [exact E|]; cbn [touched]; by rewrite (dir_abs _ _ D)).
Qed.
(** A start that fails half-way records nothing, so that stopping leaves the key there.
    Local processes: the log file cannot be the cause, the second file can. *)
Theorem C93_local_refuted : exists s user w cert key faults spawned f f' st,
  gone w f /\ dir_ok w /\ local_start false s user w cert key faults spawned f = (f', st, false) /\ content (local_stop s st false f') (local_cert w) = Some cert.
Proof.
  exists ex_site, (b_ "alice"), (b_ "/tmp/abc"), (b_ "CERT"), (b_ "KEY"), (fun n => n =? 4), (Some 7), ex_fs.
  pose (r := local_start false ex_site (b_ "alice") (b_ "/tmp/abc") (b_ "CERT") (b_ "KEY") (fun n => n =? 4) (Some 7) ex_fs).
  exists (fst (fst r)), (snd (fst r)). split.
  { intros p Hp. unfold ex_fs. rewrite bool_decide_false; [done|]. intros H.
    repeat (apply elem_of_cons in H as [->|H]; [vm_compute in Hp; congruence|]). by apply elem_of_nil in H. }
  split; [split; [by eexists|vm_compute; congruence]|]. split; [|vm_compute; done].
  assert (E : snd r = false) by (vm_compute; done). exact (triple r _ E).
Qed.
(** Batch jobs: the submission is refused. *)
Theorem C93_job_refuted : exists user cwd dir cert key w w' st,
  gone dir (w_fs w) /\ dir_ok dir /\ job_start user cwd dir cert key no_faults None w = (w', st, false) /\
  job_stop user cwd st false CDone w' = (w', true) /\ content (w_fs w') (path_join dir (b_ "dask.pem")) = Some key.
Proof.
  exists (b_ "alice"), (b_ "/srv/gateway"), (b_ "/tmp/abc"), (b_ "CERT"), (b_ "KEY"), (World ex_fs []).
  pose (r := job_start (b_ "alice") (b_ "/srv/gateway") (b_ "/tmp/abc") (b_ "CERT") (b_ "KEY") no_faults None (World ex_fs [])).
  exists (fst (fst r)), (snd (fst r)). split.
  { intros p Hp. cbn [w_fs]. unfold ex_fs. rewrite bool_decide_false; [done|]. intros H.
    repeat (apply elem_of_cons in H as [->|H]; [vm_compute in Hp; congruence|]). by apply elem_of_nil in H. }
  split; [split; [by eexists|vm_compute; congruence]|]. split.
  { assert (E : snd r = false) by (vm_compute; done). exact (triple r _ E). }
  split; [|vm_compute; done]. assert (E : j_id (snd (fst r)) = None) by (vm_compute; done). unfold job_stop. by rewrite E.
Qed.
(** LocalBackend (which runs processes as their users) never starts anything: it changes the
    owner of the characters of the paths instead of the paths.  On an ordinary machine it
    gives the root directory to the user, leaves the key behind and fails. *)
Theorem C93_never_starts : forall s user w cert key spawned f, dir_ok w -> dir_ok (s_cwd s) -> no_short_names (s_cwd s) f -> (forall x, w <> path_join (s_cwd s) [x]) ->
  exists f', local_start true s user w cert key no_faults spawned f = (f', LState None None, false).
Proof. exact local_never. Qed.
Theorem C93_root_refuted : exists s user w cert key f f', no_short_names (s_cwd s) f /\
  local_start true s user w cert key no_faults (Some 7) f = (f', LState None None, false) /\
  f (b_ "/") = Some (Node (s_gateway s) 493 None) /\ f' (b_ "/") = Some (Node user 493 None) /\ content f' (local_key w) = Some key.
Proof.
  exists ex_site, (b_ "alice"), (b_ "/tmp/abc"), (b_ "CERT"), (b_ "KEY"), ex_fs.
  pose (r := local_start true ex_site (b_ "alice") (b_ "/tmp/abc") (b_ "CERT") (b_ "KEY") no_faults (Some 7) ex_fs).
  assert (N : no_short_names (s_cwd ex_site) ex_fs).
  { intros x Hx Hy. assert (J : path_join (s_cwd ex_site) [x] = b_ "/srv/gateway/" ++ [x]).
    { rewrite pj_rel; [done|vm_compute; congruence|vm_compute; congruence|done]. }
    rewrite J. unfold ex_fs. rewrite bool_decide_false; [done|]. intros H. repeat (apply elem_of_cons in H as [H|H]; [vm_compute in H; congruence|]). by apply elem_of_nil in H. }
  destruct (local_never ex_site (b_ "alice") (b_ "/tmp/abc") (b_ "CERT") (b_ "KEY") (Some 7) ex_fs) as [f' E].
  { split; [by eexists|vm_compute; congruence]. } { split; [by eexists|vm_compute; congruence]. } { done. }
  { intros x. vm_compute. destruct (decide (x = slash)) as [->|]; [vm_compute; congruence|]. destruct x as [[] [] [] [] [] [] [] []]; vm_compute; congruence. }
  exists f'. split; [done|]. split; [exact E|]. assert (F : f' = fst (fst r)) by (unfold r, no_faults in *; by rewrite E). rewrite F. split_and!; vm_compute; done.
Qed.
Print Assumptions C93_private_local.
Print Assumptions C93_private_job.
Print Assumptions C93_local_partial.
Print Assumptions C93_job_partial.
Print Assumptions C93_others.
Print Assumptions C93_local_refuted.
Print Assumptions C93_job_refuted.
Print Assumptions C93_never_starts.
Print Assumptions C93_root_refuted.
(** Starts that work. *)
Theorem C93_starts : forall s user w cert key pid f, dir_ok w -> gone w f ->
  exists f', local_start false s user w cert key no_faults (Some pid) f = (f', LState (Some w) (Some pid), true).
Proof. exact unsafe_works. Qed.
Print Assumptions C93_starts.
(** If no file operation fails, starting in a new directory and stopping again leaves the
    disk as it was, whether or not the process could be started. *)
Theorem C93_start_stop : forall s user w cert key spawned f f' st ok, dir_ok w -> gone w f ->
  local_start false s user w cert key no_faults spawned f = (f', st, ok) -> (ok = true <-> spawned <> None) /\ forall p, local_stop s st false f' p = f p.
Proof.
  intros s user w cert key sp f f' st ok Hw Hg H. split; [|by eapply unsafe_over].
  destruct (unsafe_runs s user w cert key sp f Hw Hg) as (f1 & E & _). unfold no_faults in H. rewrite E in H. injection H as <- <- <-. apply bool_decide_eq_true.
Qed.
Print Assumptions C93_start_stop.
Example C93_start_stop_example : dir_ok (b_ "/tmp/abc") /\ gone (b_ "/tmp/abc") ex_fs /\
  let r := local_start false ex_site (b_ "alice") (b_ "/tmp/abc") (b_ "CERT") (b_ "KEY") no_faults None ex_fs in
  snd r = false /\ content (fst (fst r)) (b_ "/tmp/abc/.certs/dask.pem") = Some (b_ "KEY").
Proof.
  split; [split; [by eexists|vm_compute; congruence]|]. split; [|split; vm_compute; done].
  intros p Hp. unfold ex_fs. rewrite bool_decide_false; [done|]. intros H.
  repeat (apply elem_of_cons in H as [->|H]; [vm_compute in Hp; congruence|]). by apply elem_of_nil in H.
Qed.

(** C94. "A started cluster is one job, and stopping the cluster ends it." *)
Theorem C94_one_job : forall user cwd dir cert key faults submitted w w' st, dir_ok dir ->
  job_start user cwd dir cert key faults submitted w = (w', st, true) -> exists id, j_id st = Some id /\ submitted = Some id /\ w_jobs w' = id :: w_jobs w.
Proof.
  intros user cwd dir cert key fl sub w w' st Hd H. destruct (job_started _ _ _ _ _ Hd _ _ _ _ _ H) as (_ & _ & _ & _ & _ & _ & id & H1 & H2 & H3). by exists id.
Qed.
Theorem C94_no_job : forall user cwd dir cert key faults submitted w w' st,
  job_start user cwd dir cert key faults submitted w = (w', st, false) -> st = JState None None /\ w_jobs w' = w_jobs w.
Proof. intros user cwd dir cert key fl sub w w' st H. by eapply job_failed. Qed.
(** Starting in a new directory works, and stopping works as long as the directory is
    there; then the job is cancelled, and no other, unless it had ended. *)
Theorem C94_starts : forall user cwd dir cert key w id, dir_ok dir -> gone dir (w_fs w) ->
  exists w', job_start user cwd dir cert key no_faults (Some id) w = (w', JState (Some id) (Some dir), true).
Proof. intros user cwd dir cert key w id Hd Hg. by apply job_works. Qed.
Theorem C94_stop_partial : forall user cwd dir st fault c w w' id, dir_ok dir -> j_id st = Some id -> j_dir st = Some dir ->
  job_stop user cwd st fault c w = (w', true) -> (c = CDone /\ forall x, x ∈ w_jobs w' <-> x ∈ w_jobs w /\ x <> id) \/ (c = CFinished /\ w_jobs w' = w_jobs w).
Proof. intros user cwd dir st fault c w w' id Hd Hi Hj H. destruct (job_stopped _ _ _ Hd _ _ _ _ _ _ Hi Hj H) as (_ & _ & H1). done. Qed.
Theorem C94_stop_works_partial : forall user cwd dir st c w u m, dir_ok dir -> j_id st <> None -> j_dir st = Some dir -> w_fs w dir = Some (Node u m None) ->
  c <> CFailed -> exists w', job_stop user cwd st false c w = (w', true).
Proof. intros. by eapply job_stop_works. Qed.
(** The jobs of workers: only the job is touched, and a stop that works has cancelled it
    unless it had ended. *)
Theorem C94_worker_stop : forall id c w w' ok, worker_job_stop (Some id) c w = (w', ok) ->
  w_fs w' = w_fs w /\ (ok = false <-> c = CFailed) /\ (c = CDone -> forall x, x ∈ w_jobs w' <-> x ∈ w_jobs w /\ x <> id) /\ (c <> CDone -> w_jobs w' = w_jobs w).
Proof. intros id c w w' ok H. destruct (worker_stopped _ _ _ _ _ H) as (H1 & H2 & H3 & H4). split; [done|]. split; [done|]. split; [|done]. intros Hc. apply (H2 Hc). Qed.
Print Assumptions C94_worker_stop.
(** If the directory is gone (the user removed it, or an earlier attempt to stop did and
    then failed to cancel the job), the job is never cancelled. *)
Theorem C94_stop_refuted : exists user cwd dir st w id, dir_ok dir /\ j_id st = Some id /\ j_dir st = Some dir /\ id ∈ w_jobs w /\
  let w1 := fst (job_stop user cwd st false CFailed w) in
  w_fs w1 dir = None /\ forall fault c, job_stop user cwd st fault c w1 = (w1, false) /\ id ∈ w_jobs w1.
Proof.
  pose (w := fst (fst (job_start (b_ "alice") (b_ "/srv/gateway") (b_ "/tmp/abc") (b_ "CERT") (b_ "KEY") no_faults (Some (b_ "12.pbs")) (World ex_fs [])))).
  exists (b_ "alice"), (b_ "/srv/gateway"), (b_ "/tmp/abc"), (JState (Some (b_ "12.pbs")) (Some (b_ "/tmp/abc"))), w, (b_ "12.pbs").
  split; [split; [by eexists|vm_compute; congruence]|]. split; [done|]. split; [done|].
  split; [apply elem_of_list_In; vm_compute; auto|]. cbn zeta.
  set (w1 := fst (job_stop _ _ _ _ _ w)). assert (E : w_fs w1 (b_ "/tmp/abc") = None) by (vm_compute; done). split; [done|]. intros fault c.
  split; [|apply elem_of_list_In; vm_compute; auto]. unfold job_stop. cbn [j_id j_dir].
  assert (J : path_join (b_ "/srv/gateway") (b_ "/tmp/abc") = b_ "/tmp/abc") by (vm_compute; done). rewrite J, E. done.
Qed.
Print Assumptions C94_one_job.
Print Assumptions C94_no_job.
Print Assumptions C94_starts.
Print Assumptions C94_stop_partial.
Print Assumptions C94_stop_works_partial.
Print Assumptions C94_stop_refuted.
(** The hypotheses can be met. *)
Example C94_example : dir_ok (b_ "/home/alice/.dask-gateway/abc") /\ plain (b_ "abc") /\ path_join (b_ "/home/alice/.dask-gateway/") (b_ "abc") = b_ "/home/alice/.dask-gateway/abc" /\
  gone (b_ "/home/alice/.dask-gateway/abc") ex_fs.
Proof.
  split; [split; [by eexists|vm_compute; congruence]|]. split; [split; [done|apply (bool_decide_unpack _); vm_compute; done]|]. split; [vm_compute; done|].
  intros p Hp. unfold ex_fs. rewrite bool_decide_false; [done|]. intros H.
  repeat (apply elem_of_cons in H as [->|H]; [vm_compute in Hp; congruence|]). by apply elem_of_nil in H.
Qed.
