(** Under whose rights the local backend runs schedulers and workers: make_preexec_fn
    (S/backends/local.py 143-160, 309-315), getpwnam (57-59) and the part of start_process
    (219-239) that uses them.

    S = dask-gateway-server/dask_gateway_server.
    The operating system: credentials and the calls that change them as in POSIX and Linux's
    credentials(7), setuid(2), setgid(2), setgroups(2), setresuid(2), setresgid(2).
    Simplifications: the capabilities CAP_SETUID and CAP_SETGID are those of effective user 0;
    programs with a set-user-ID bit (sudo, su) are not modelled.  Whether setgroups is allowed
    at all (it may be denied in a user namespace, or the list may be too long) and whether the
    directory can be entered are parameters.  An exception of the function makes
    create_subprocess_exec raise, and no program is run. *)
From Coq Require Import Ascii String ZArith.
From stdpp Require Import prelude.
From Verif Require Import Router_Model.
Local Open Scope Z_scope.

(** * Credentials *)
Record cred := Cred { ruid : Z; euid : Z; suid : Z; rgid : Z; egid : Z; sgid : Z; groups : list Z }.
Definition setuid (u : Z) (c : cred) : option cred :=
  if euid c =? 0 then Some (Cred u u u (rgid c) (egid c) (sgid c) (groups c))
  else if (u =? ruid c) || (u =? suid c) then Some (Cred (ruid c) u (suid c) (rgid c) (egid c) (sgid c) (groups c)) else None.
Definition setgid (g : Z) (c : cred) : option cred :=
  if euid c =? 0 then Some (Cred (ruid c) (euid c) (suid c) g g g (groups c))
  else if (g =? rgid c) || (g =? sgid c) then Some (Cred (ruid c) (euid c) (suid c) (rgid c) g (sgid c) (groups c)) else None.
(** [allowed]: the kernel accepts the list. *)
Definition setgroups (allowed : list Z -> bool) (l : list Z) (c : cred) : option cred :=
  if (euid c =? 0) && allowed l then Some (Cred (ruid c) (euid c) (suid c) (rgid c) (egid c) (sgid c) l) else None.
Definition setresuid (r e s : Z) (c : cred) : option cred :=
  let ok x := (x =? ruid c) || (x =? euid c) || (x =? suid c) in
  if (euid c =? 0) || (ok r && ok e && ok s) then Some (Cred r e s (rgid c) (egid c) (sgid c) (groups c)) else None.
Definition setresgid (r e s : Z) (c : cred) : option cred :=
  let ok x := (x =? rgid c) || (x =? egid c) || (x =? sgid c) in
  if (euid c =? 0) || (ok r && ok e && ok s) then Some (Cred (ruid c) (euid c) (suid c) r e s (groups c)) else None.

(** * The backend *)
(** /etc/passwd and /etc/group: pwd.getpwnam, grp.getgrall. *)
Record account := Account { a_name : bytes; a_uid : Z; a_gid : Z }.
Record group := Group { gr_gid : Z; gr_mem : list bytes }.
Definition getpwnam (db : list account) (name : bytes) : option account := head (filter (fun a => a_name a = name) db).
(** 148 *)
Definition member_of (grs : list group) (name : bytes) : list Z := map gr_gid (filter (fun g => name ∈ gr_mem g) grs).
(** preexec (151-158). *)
Definition preexec (allowed : list Z -> bool) (enter : cred -> bool) (uid gid : Z) (l : list Z) (c : cred) : option cred :=
  c ← setgid gid c;
  let c := default c (setgroups allowed l c) in   (* the exception is printed *)
  c ← setuid uid c;
  if enter c then Some c else None.
(** The credentials of the program started for a cluster of [name]; [None]: nothing is
    started.  [c]: the gateway's.  [safe]: LocalBackend, else UnsafeLocalBackend. *)
Definition start (safe : bool) (db : list account) (grs : list group) (allowed : list Z -> bool) (enter : cred -> bool) (name : bytes) (c : cred) : option cred :=
  if safe then a ← getpwnam db name; preexec allowed enter (a_uid a) (a_gid a) (member_of grs name) c
  else if enter c then Some c else None.
