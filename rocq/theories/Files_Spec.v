(** Vocabulary for C92-C94. *)
From Coq Require Import Ascii String.
From stdpp Require Import prelude.
From Verif Require Import Router_Model ProxyLog_Model Launch_Model Files_Model.
Local Open Scope nat_scope.

(** What can be read from a path (None: no file). *)
Definition content (f : fs) (p : bytes) : option bytes := match f p with Some n => n_content n | None => None end.
(** An absolute path of a directory, not written with a slash at the end. *)
Definition dir_ok (p : bytes) : Prop := (exists q, p = slash :: q) /\ last p <> Some slash.
(** The name of a cluster: no slash in it. *)
Definition plain (n : bytes) : Prop := n <> [] /\ slash ∉ n.
(** What a process finds when it opens path [p]:
    - a local process, started in the working directory [w];
    - a job of a batch system, started in the directory [home];
    - a PBS job that has copies of the files of the staging directory in its own;
    - a YARN container, with its localized files in its own directory. *)
Definition local_opens (s : site) (w : bytes) (f : fs) (p : bytes) : option bytes := content f (path_join (path_join (s_cwd s) w) p).
Definition job_opens (home : bytes) (f : fs) (p : bytes) : option bytes := content f (path_join home p).
Definition sandbox_opens (dir : bytes) (f : fs) (p : bytes) : option bytes := if bool_decide (slash ∈ p) then None else content f (path_join dir p).
Definition yarn_opens (files : list (bytes * bytes)) (p : bytes) : option bytes := dget p files.
(** Nobody but [who] may read [p]: by its own bits, or by those of the directory above. *)
Definition private (who : bytes) (f : fs) (dir p : bytes) : Prop :=
  (exists d, f p = Some (Node who 384 d)) \/ (f dir = Some (Node who 448 None) /\ exists m d, f p = Some (Node who m d)).
(** No file or directory in [cwd] has a name of one character (other than "."). *)
Definition no_short_names (cwd : bytes) (f : fs) : Prop := forall x, x <> slash -> x <> "."%char -> f (path_join cwd [x]) = None.
Definition gone (dir : bytes) (f : fs) : Prop := forall p, below dir p = true -> f p = None.
Definition same_but (dir : bytes) (f f' : fs) : Prop := forall p, below dir p = false -> f' p = f p.
