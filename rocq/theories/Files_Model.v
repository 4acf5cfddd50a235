(** The files and jobs of the database backends:
    S/backends/local.py 138-200 (permissions, working directory), 219-237 (start_process,
    its log file), 258-285 (do_start_cluster, do_stop_cluster);
    S/backends/jobqueue/launcher.py 39-71 (start, stop), S/backends/jobqueue/base.py
    90-148 (do_as_user, start_job, stop_job), 174-195 (do_start_cluster, do_stop_cluster);
    S/backends/yarn.py 135-142, 209-218 (the localized files).
    S = dask-gateway-server/dask_gateway_server.
    Paths, names and contents are ASCII; [path_join] is the one of Launch_Model.  A file
    system is a map from absolute paths.  os.makedirs is modelled by its last part
    (parents that are missing appear as well but hold nothing).  Symbolic links and
    "." or ".." in paths are left out. *)
From Coq Require Import Ascii String.
From stdpp Require Import prelude.
From Verif Require Import Router_Model ProxyLog_Model Launch_Model.
Local Open Scope nat_scope.

(** Owner and permission bits; [None] as content: a directory. *)
Record node := Node { n_owner : bytes; n_mode : nat; n_content : option bytes }.
Definition fs := bytes -> option node.
Definition fset (p : bytes) (n : option node) (f : fs) : fs := fun q => if decide (q = p) then n else f q.
(** [q] is [p] or lies below it. *)
Fixpoint has_prefix (p q : bytes) : bool :=
  match p, q with
  | [], _ => true
  | x :: p', y :: q' => bool_decide (x = y) && has_prefix p' q'
  | _ :: _, [] => false
  end.
Definition below (p q : bytes) : bool := bool_decide (q = p) || has_prefix (p ++ [slash]) q.

(** Operations.  MkDir: os.makedirs(p, 0o700, exist_ok); New: os.open with O_EXCL and the
    mode, then write; Write: open(p, "w"); Chown; RmTree: shutil.rmtree. *)
Inductive op :=
| MkDir (p : bytes) (exist_ok : bool) | New (p : bytes) (mode : nat) (data : bytes) | Write (p data : bytes)
| Chown (p user : bytes) | RmTree (p : bytes).
(** [who]: the user that runs the operation, [cwd] its working directory, [fault]: the
    operation fails for a reason outside of the model (disk full and the like).
    None: an exception. *)
Definition exec (who cwd : bytes) (fault : bool) (o : op) (f : fs) : fs * bool :=
  let at_ p := path_join cwd p in
  if fault then (match o with New p m _ => match f (at_ p) with None => fset (at_ p) (Some (Node who m (Some []))) f | Some _ => f end | _ => f end, false) else
  match o with
  | MkDir p exist_ok =>
      match f (at_ p) with
      | None => (fset (at_ p) (Some (Node who 448 None)) f, true)            (* 0o700 *)
      | Some (Node _ _ None) => (f, exist_ok)
      | Some (Node _ _ (Some _)) => (f, false)
      end
  | New p mode data => match f (at_ p) with None => (fset (at_ p) (Some (Node who mode (Some data))) f, true) | Some _ => (f, false) end
  | Write p data =>
      match f (at_ p) with
      | None => (fset (at_ p) (Some (Node who 420 (Some data))) f, true)     (* 0o644: umask 022 *)
      | Some (Node u m (Some _)) => (fset (at_ p) (Some (Node u m (Some data))) f, true)
      | Some (Node _ _ None) => (f, false)
      end
  | Chown p user => match f (at_ p) with Some (Node _ m d) => (fset (at_ p) (Some (Node user m d)) f, true) | None => (f, false) end
  | RmTree p => match f (at_ p) with Some (Node _ _ None) => (fun q => if below (at_ p) q then None else f q, true) | _ => (f, false) end
  end.
(** One after the other, up to the first that raises; [faults] says which one fails. *)
Fixpoint run (who cwd : bytes) (faults : nat -> bool) (ops : list op) (f : fs) : fs * bool :=
  match ops with
  | [] => (f, true)
  | o :: ops' => match exec who cwd (faults 0) o f with
                 | (f', true) => run who cwd (fun n => faults (S n)) ops' f'
                 | (f', false) => (f', false)
                 end
  end.

(** * Local processes.  [safe]: LocalBackend; otherwise UnsafeLocalBackend, which sets no
    permissions (303-324).  setup_working_directory (165-189): [paths.extend(path)] adds
    the characters of the path. *)
Record site := Site { s_gateway : bytes; s_cwd : bytes }.
Definition certs_dir (w : bytes) : bytes := path_join w (b_ ".certs").
Definition logs_dir (w : bytes) : bytes := path_join w (b_ "logs").
Definition local_cert (w : bytes) : bytes := path_join (certs_dir w) (b_ "dask.crt").
Definition local_key (w : bytes) : bytes := path_join (certs_dir w) (b_ "dask.pem").
Definition chars (p : bytes) : list bytes := map (fun x => [x]) p.
Definition setup_ops (safe : bool) (user w cert key : bytes) : list op :=
  let dirs := [w; certs_dir w; logs_dir w] in
  map (fun p => MkDir p true) dirs ++ [New (local_cert w) 384 cert; New (local_key w) 384 key] ++   (* 0o600 *)
  (if safe then map (fun p => Chown p user) (dirs ++ chars (local_cert w) ++ chars (local_key w)) else []).
(** do_start_cluster (258-269): the recorded state.  [spawned]: the process that
    create_subprocess_exec made, if it did not raise. *)
Record lstate := LState { l_workdir : option bytes; l_pid : option nat }.
Definition local_start (safe : bool) (s : site) (user w cert key : bytes) (faults : nat -> bool) (spawned : option nat) (f : fs) : fs * lstate * bool :=
  match run (s_gateway s) (s_cwd s) faults (setup_ops safe user w cert key) f with
  | (f1, false) => (f1, LState None None, false)
  | (f1, true) =>
      match exec (s_gateway s) (s_cwd s) false (New (path_join (logs_dir w) (b_ "scheduler.log")) 493 []) f1 with
      | (f2, false) => (f2, LState (Some w) None, false)
      | (f2, true) => match spawned with Some pid => (f2, LState (Some w) (Some pid), true) | None => (f2, LState (Some w) None, false) end
      end
  end.
(** do_stop_cluster (271-279) once the process has been stopped; cleanup_working_directory
    (191-197) ignores a failure.  [fault]: rmtree raises. *)
Definition local_stop (s : site) (st : lstate) (fault : bool) (f : fs) : fs :=
  match l_workdir st with
  | None => f
  | Some w => match f (path_join (s_cwd s) w) with
              | Some _ => fst (exec (s_gateway s) (s_cwd s) fault (RmTree w) f)
              | None => f
              end
  end.

(** * Batch systems.  launcher.py runs as the user (sudo).  [submitted]: what the submit
    command did: its exit code and, if that is 0, the id of the job; jobs are those the
    batch system knows and that have not ended. *)
Record world := World { w_fs : fs; w_jobs : list bytes }.
Definition start_ops (dir : bytes) (cert key : bytes) : list op :=
  [MkDir dir false; Write (path_join dir (b_ "dask.pem")) key; Write (path_join dir (b_ "dask.crt")) cert].
Record jstate := JState { j_id : option bytes; j_dir : option bytes }.
(** start_job and do_start_cluster: the new world and the recorded state. *)
Definition job_start (user cwd dir cert key : bytes) (faults : nat -> bool) (submitted : option bytes) (w : world) : world * jstate * bool :=
  match run user cwd faults (start_ops dir cert key) (w_fs w) with
  | (f1, false) => (World f1 (w_jobs w), JState None None, false)
  | (f1, true) =>
      match submitted with
      | None => (World f1 (w_jobs w), JState None None, false)
      | Some id => (World f1 (id :: w_jobs w), JState (Some id) (Some dir), true)
      end
  end.
(** stop_job and do_stop_cluster.  [cancelled]: what the cancel command did: it worked, it
    failed as the job had finished, or it failed.  stop (58-71) does nothing, and prints
    nothing, if the directory does not exist; then json.loads raises. *)
Inductive cancel := CDone | CFinished | CFailed.
Definition cancel_job (id : bytes) (c : cancel) (l : list bytes) : list bytes :=
  match c with CDone => List.filter (fun x => negb (bool_decide (x = id))) l | _ => l end.
Definition job_stop (user cwd : bytes) (st : jstate) (fault : bool) (c : cancel) (w : world) : world * bool :=
  match j_id st with
  | None => (w, true)
  | Some id =>
      let cancelled f := (World f (cancel_job id c (w_jobs w)), match c with CFailed => false | _ => true end) in
      match j_dir st with
      | None => (w, false)                                                   (* KeyError *)
      | Some dir =>
          match w_fs w (path_join cwd dir) with
          | None => (w, false)
          | Some _ => match exec user cwd fault (RmTree dir) (w_fs w) with
                      | (f1, true) => cancelled f1
                      | (f1, false) => (World f1 (w_jobs w), false)
                      end
          end
      end
  end.
(** Workers have no directory (187-195). *)
Definition worker_job_stop (id : option bytes) (c : cancel) (w : world) : world * bool :=
  match id with
  | None => (w, true)
  | Some id => (World (w_fs w) (cancel_job id c (w_jobs w)), match c with CFailed => false | _ => true end)
  end.

(** * YARN: the files of a container by name: the configured ones, then the gateway's;
    the contents are uploaded from temporary files. *)
Definition yarn_files (localize : list (bytes * bytes)) (cert key : bytes) : list (bytes * bytes) :=
  dset (b_ "dask.pem") key (dset (b_ "dask.crt") cert (dupdate [] localize)).
