(** Whose rights a process has, and what it can do about it. *)
From Coq Require Import ZArith.
From stdpp Require Import prelude.
From Verif Require Import Router_Model Ids_Model.
Local Open Scope Z_scope.

(** A process with the rights of user [u] in group [g], and no way to others. *)
Definition only_user (u g : Z) (c : cred) : Prop := ruid c = u /\ euid c = u /\ suid c = u /\ rgid c = g /\ egid c = g /\ sgid c = g.
(** What a program can ask the kernel. *)
Inductive ask := AUid (u : Z) | AGid (g : Z) | AGroups (l : list Z) | AResUid (r e s : Z) | AResGid (r e s : Z).
Definition answer (allowed : list Z -> bool) (a : ask) (c : cred) : option cred :=
  match a with AUid u => setuid u c | AGid g => setgid g c | AGroups l => setgroups allowed l c | AResUid r e s => setresuid r e s c | AResGid r e s => setresgid r e s c end.
(** What becomes of it: a refused call changes nothing. *)
Definition fate (allowed : list Z -> bool) (asks : list ask) (c : cred) : cred := fold_left (fun c a => default c (answer allowed a c)) asks c.
(** The account and the groups of a user. *)
Definition account_of (db : list account) (name : bytes) (a : account) : Prop := exists before after, db = before ++ a :: after /\ a_name a = name /\ forall b, In b before -> a_name b <> name.
Definition in_group (grs : list group) (name : bytes) (g : Z) : Prop := exists r, In r grs /\ gr_gid r = g /\ In name (gr_mem r).
Definition privileged (c : cred) : Prop := euid c = 0.
