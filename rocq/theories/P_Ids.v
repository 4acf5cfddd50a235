(** Property C148: the local backend runs a cluster's processes with the rights of the
    cluster's user. *)
From Coq Require Import Ascii String ZArith Lia.
From stdpp Require Import prelude.
From Verif Require Import Router_Model ProxyLog_Model Ids_Model Ids_Spec.
Local Open Scope Z_scope.

Lemma getpwnam_spec db name a : getpwnam db name = Some a <-> account_of db name a.
Proof.
  unfold getpwnam, account_of. split.
  - induction db as [|b db IH]; [done|]. rewrite filter_cons. destruct (decide (a_name b = name)) as [E|E].
    + cbn [head]. intros [= ->]. exists [], db. by split_and!.
    + intros (x & y & -> & Hn & Hb)%IH. exists (b :: x), y. split_and!; [done..|]. intros d [<-|Hd]; [done|by apply Hb].
  - intros (x & y & -> & Hn & Hb). induction x as [|b x IH]; cbn [app]; rewrite filter_cons.
    + by rewrite decide_True.
    + rewrite decide_False by (apply Hb; by left). apply IH. intros d Hd. apply Hb. by right.
Qed.
Lemma member_spec grs name g : In g (member_of grs name) <-> in_group grs name g.
Proof.
  unfold member_of, in_group. rewrite in_map_iff. split.
  - intros (r & <- & Hr). apply elem_of_list_In, elem_of_list_filter in Hr as [H1 H2]. exists r. split_and!; [by apply elem_of_list_In|done|by apply elem_of_list_In].
  - intros (r & H1 & <- & H2). exists r. split; [done|]. apply elem_of_list_In, elem_of_list_filter. split; by apply elem_of_list_In.
Qed.
Lemma preexec_root allowed enter u g l c : privileged c -> exists gs, (gs = l \/ gs = groups c /\ allowed l = false) /\
  preexec allowed enter u g l c = if enter (Cred u u u g g g gs) then Some (Cred u u u g g g gs) else None.
Proof.
  unfold privileged, preexec, setgid, setgroups, setuid. intros ->. cbn [Z.eqb mbind option_bind euid andb].
  destruct (allowed l) eqn:E; cbn [default euid ruid suid rgid egid sgid groups Z.eqb mbind option_bind]; eexists; (split; [|reflexivity]); [by left|by right].
Qed.

(** C148. A privileged gateway runs the processes of a cluster as the user of that name, in
    the user's group: real, effective and saved... *)
Theorem C148_user : forall db grs allowed enter name c c', privileged c -> start true db grs allowed enter name c = Some c' ->
  exists a, account_of db name a /\ only_user (a_uid a) (a_gid a) c'.
Proof.
  intros db grs allowed enter name c c' Hp. unfold start. destruct (getpwnam db name) as [a|] eqn:E; [|done]. cbn [mbind option_bind]. apply getpwnam_spec in E.
  destruct (preexec_root allowed enter (a_uid a) (a_gid a) (member_of grs name) c Hp) as (gs & _ & ->). destruct (enter _); [|done]. intros [= <-]. exists a. by split_and!.
Qed.
(** ...with exactly the user's supplementary groups, if the kernel accepts the list... *)
Theorem C148_groups : forall db grs allowed enter name c c', privileged c -> (forall l, allowed l = true) -> start true db grs allowed enter name c = Some c' ->
  forall g, In g (groups c') <-> in_group grs name g.
Proof.
  intros db grs allowed enter name c c' Hp Hall. unfold start. destruct (getpwnam db name) as [a|] eqn:E; [|done]. cbn [mbind option_bind].
  destruct (preexec_root allowed enter (a_uid a) (a_gid a) (member_of grs name) c Hp) as (gs & [->|[_ Hf]] & ->); [|by rewrite Hall in Hf].
  destruct (enter _); [|done]. intros [= <-] g. cbn [groups]. apply member_spec.
Qed.
(** ...and whatever they ask of the kernel, they stay there... *)
Theorem C148_confined : forall allowed u g c asks, u <> 0 -> only_user u g c -> only_user u g (fate allowed asks c) /\ groups (fate allowed asks c) = groups c.
Proof.
  intros allowed u g c asks Hu. revert c. induction asks as [|a asks IH]; intros c Hc; [done|]. cbn [fate fold_left].
  assert (only_user u g (default c (answer allowed a c)) /\ groups (default c (answer allowed a c)) = groups c) as [H1 H2].
  { destruct c as [r e s r' e' s' l]. destruct Hc as (H1 & H2 & H3 & H4 & H5 & H6). cbn in H1, H2, H3, H4, H5, H6. subst.
    destruct a; cbn [answer]; unfold setuid, setgid, setgroups, setresuid, setresgid; cbn [ruid euid suid rgid egid sgid groups];
      replace (u =? 0) with false by lia; cbn [andb orb];
      try (match goal with |- context [if ?b then _ else _] => destruct b eqn:E end); cbn [default from_option id groups]; (split; [|done]); unfold only_user; cbn [ruid euid suid rgid egid sgid]; lia. }
  destruct (IH _ H1) as [H3 H4]. split; [done|]. unfold fate in *. by rewrite H4, H2.
Qed.
(** ...every user with an account who can enter the working directory is served... *)
Theorem C148_starts : forall db grs allowed enter name a c, privileged c -> account_of db name a -> (forall c', only_user (a_uid a) (a_gid a) c' -> enter c' = true) ->
  is_Some (start true db grs allowed enter name c).
Proof.
  intros db grs allowed enter name a c Hp Ha%getpwnam_spec He. unfold start. rewrite Ha. cbn [mbind option_bind].
  destruct (preexec_root allowed enter (a_uid a) (a_gid a) (member_of grs name) c Hp) as (gs & _ & ->). rewrite He; [eauto|by split_and!].
Qed.
(** ...and nobody without... *)
Theorem C148_nobody : forall db grs allowed enter name c, (forall a, ~ account_of db name a) -> start true db grs allowed enter name c = None.
Proof.
  intros db grs allowed enter name c H. unfold start. destruct (getpwnam db name) as [a|] eqn:E; [|done]. by apply getpwnam_spec, H in E.
Qed.
(** ...a gateway without privileges serves only the user as whom it was started... *)
Theorem C148_unprivileged : forall db grs allowed enter name c c', ~ privileged c -> start true db grs allowed enter name c = Some c' ->
  exists a, account_of db name a /\ (a_uid a = ruid c \/ a_uid a = suid c) /\ (a_gid a = rgid c \/ a_gid a = sgid c) /\ euid c' = a_uid a /\ egid c' = a_gid a /\ groups c' = groups c.
Proof.
  intros db grs allowed enter name c c' Hp. unfold start. destruct (getpwnam db name) as [a|] eqn:E; [|done]. cbn [mbind option_bind]. apply getpwnam_spec in E.
  unfold privileged in Hp. unfold preexec, setgid. replace (euid c =? 0) with false by lia. destruct ((a_gid a =? rgid c) || (a_gid a =? sgid c)) eqn:Eg; [|done]. cbn [mbind option_bind].
  unfold setgroups. cbn [euid]. replace (euid c =? 0) with false by lia. cbn [andb default]. unfold setuid. cbn [euid ruid suid rgid egid sgid groups]. replace (euid c =? 0) with false by lia.
  destruct ((a_uid a =? ruid c) || (a_uid a =? suid c)) eqn:Eu; [|done]. cbn [mbind option_bind]. destruct (enter _); [|done]. intros [= <-]. exists a. cbn [euid egid groups].
  split_and!; [done|lia|lia|done..].
Qed.
(** ...while the backend for tests runs everything with the gateway's rights. *)
Theorem C148_unsafe : forall db grs allowed enter name c c', start false db grs allowed enter name c = Some c' -> c' = c.
Proof. intros db grs allowed enter name c c'. unfold start. destruct (enter c); [|done]. by intros [= <-]. Qed.
(** If the kernel does not accept the groups, the processes keep the gateway's: group 0 for
    a user who is not in it... *)
Theorem C148_groups_refuted : exists db grs allowed enter name c c', privileged c /\ start true db grs allowed enter name c = Some c' /\ euid c' <> 0 /\ In 0 (groups c') /\ ~ in_group grs name 0.
Proof.
  exists [Account (b_ "root") 0 0; Account (b_ "alice") 1000 1000], [Group 0 [b_ "root"]; Group 27 [b_ "alice"]], (fun _ => false), (fun _ => true), (b_ "alice"), (Cred 0 0 0 0 0 0 [0]), (Cred 1000 1000 1000 1000 1000 1000 [0]).
  split; [done|]. split; [vm_compute; reflexivity|]. split; [done|]. split; [by left|]. intros (r & [<-|[<-|[]]] & H1 & H2); [|done]. cbn in H2. destruct H2 as [H2|[]]. done.
Qed.
(** ...and a user called root is given the gateway's rights. *)
Theorem C148_root_refuted : exists db grs allowed enter name c c', (forall l, allowed l = true) /\ privileged c /\ start true db grs allowed enter name c = Some c' /\ privileged c'.
Proof. exists [Account (b_ "root") 0 0], [Group 0 [b_ "root"]], (fun _ => true), (fun _ => true), (b_ "root"), (Cred 0 0 0 0 0 0 [0]). eexists. split; [done|]. split; [done|]. split; [vm_compute; reflexivity|done]. Qed.
Print Assumptions C148_user.
Print Assumptions C148_groups.
Print Assumptions C148_confined.
Print Assumptions C148_starts.
Print Assumptions C148_nobody.
Print Assumptions C148_unprivileged.
Print Assumptions C148_unsafe.
Print Assumptions C148_groups_refuted.
Print Assumptions C148_root_refuted.

(** Alice in group 27, started by root; she then tries to become root.  A gateway run by bob
    serves bob only. *)
Definition ex_db : list account := [Account (b_ "root") 0 0; Account (b_ "alice") 1000 1000; Account (b_ "bob") 1001 1001].
Definition ex_grs : list group := [Group 0 [b_ "root"]; Group 27 [b_ "bob"; b_ "alice"]; Group 50 [b_ "bob"]].
Definition ex_root : cred := Cred 0 0 0 0 0 0 [0; 4].
Definition ex_bob : cred := Cred 1001 1001 1001 1001 1001 1001 [27; 50].
Example C148_example :
  start true ex_db ex_grs (fun _ => true) (fun c => (euid c =? 1000) || (euid c =? 1001)) (b_ "alice") ex_root = Some (Cred 1000 1000 1000 1000 1000 1000 [27]) /\
  fate (fun _ => true) [AUid 0; AGroups [0]; AResUid 1000 1000 0; AGid 27; AResGid 1000 1000 1000] (Cred 1000 1000 1000 1000 1000 1000 [27]) = Cred 1000 1000 1000 1000 1000 1000 [27] /\
  start true ex_db ex_grs (fun _ => true) (fun _ => true) (b_ "bob") ex_bob = Some ex_bob /\ start true ex_db ex_grs (fun _ => true) (fun _ => true) (b_ "alice") ex_bob = None /\
  start true ex_db ex_grs (fun _ => true) (fun _ => true) (b_ "eve") ex_root = None.
Proof. repeat split; vm_compute; reflexivity. Qed.
