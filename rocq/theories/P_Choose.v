(** Property C158: the options a new cluster gets.  [fs] are the fields an operator
    declared, with distinct names; [l], what the local configuration says, its
    template strings filled in; [kw], the keyword arguments of new_cluster (Python
    dicts: distinct keys). *)
From Coq Require Import Ascii String ZArith QArith Qcanon.
From stdpp Require Import prelude.
From Verif Require Import Router_Model ProxyLog_Model Json_Model Template_Model Options_Model Options_Spec Options_Proofs P_Options Choose_Model Choose_Proofs.
Local Open Scope Z_scope.

(** Server: an image, a flag, cores, memory, a size and an environment (P_Options).
    Local configuration: 2 cores and an image named after the user. *)
Definition ch_env : environ := [(b_ "USER", b_ "ann")].
Definition ch_cfg : list (bytes * json) := [(b_ "cores", JInt 2); (b_ "image", JStr (b_ "img-{USER}"))].
Definition ch_local : list (bytes * json) := [(b_ "cores", JInt 2); (b_ "image", JStr (b_ "img-ann"))].
Definition ch_kw : list (bytes * json) := [(b_ "cores", JInt 4); (b_ "debug", JBool true)].
Lemma ch_ok : format_values ch_env ch_cfg = Gives ch_local /\ NoDup (map fst ch_local) /\ NoDup (map fst ch_kw).
Proof. split; [by vm_compute|]. split; apply (bool_decide_unpack _); vm_compute; exact I. Qed.

(** A keyword argument counts before what was there, that before the default. *)
Definition chosen {V} (f : field V) (kw base : list (bytes * json)) (dflt : json) : json :=
  match dget (f_name f) kw with
  | Some x => x
  | None => match dget (f_name f) base with Some x => x | None => dflt end
  end.

(** new_cluster() without options: accepted exactly when every name used is one the
    server offers and every chosen value is right; the cluster gets, for each field,
    the keyword argument, else the local default, else the server's default. *)
Theorem C158_plain float_of {V} (fs : list (field V)) env cfg l kw req res : NoDup (names fs) -> NoDup (map fst kw) ->
  format_values env cfg = Gives l -> submitted env cfg None kw = Gives req ->
  parse_options float_of fs (JObj req) = Some res <->
  (forall k, k ∈ map fst kw \/ k ∈ map fst l -> k ∈ names fs) /\ map fst res = names fs /\
  forall f, f ∈ fs -> exists v, dget (f_name f) res = Some v /\ fits (f_kind f) v /\ normal float_of (f_kind f) (chosen f kw l (f_default f)) v.
Proof.
  intros Hn Hk Hl. unfold submitted. rewrite Hl. cbn [bind]. intros [= <-]. by apply submit_spec.
Qed.
Example C158_plain_ex : exists req res, submitted ch_env ch_cfg None ch_kw = Gives req /\ parse_options ex_float ex_fs (JObj req) = Some res /\
  dget (b_ "cores") res = Some (JInt 4) /\ dget (b_ "image") res = Some (JStr (b_ "img-ann")) /\ dget (b_ "mem") res = Some (JFloat (of_Z 2)) /\ dget (b_ "debug") res = Some (JBool true).
Proof. eexists _, _. split; [by vm_compute|]. split; [by vm_compute|]. by vm_compute. Qed.

(** With an Options object, whatever was assigned to it: the keyword argument, else
    what the object holds; the local configuration is not looked at. *)
Theorem C158_options float_of {V} (fs : list (field V)) env cfg o l kw req res : NoDup (names fs) -> Forall (declared float_of) fs -> NoDup (map fst kw) ->
  options_from_spec float_of (get_specification fs) = Some o ->
  let held := as_request (osets float_of l o) in
  submitted env cfg (Some (osets float_of l o)) kw = Gives req ->
  parse_options float_of fs (JObj req) = Some res <->
  (forall k, k ∈ map fst kw -> k ∈ names fs) /\ map fst res = names fs /\
  forall f, f ∈ fs -> exists v, dget (f_name f) res = Some v /\ fits (f_kind f) v /\
    exists x, (dget (f_name f) kw = Some x \/ dget (f_name f) kw = None /\ dget (f_name f) held = Some x) /\ normal float_of (f_kind f) x v.
Proof.
  intros Hn Hd Hk Ho hd. unfold submitted. intros [= <-]. fold hd.
  destruct (options_built float_of fs Hn Hd) as (o' & Ho' & Hm0). rewrite Ho in Ho'. injection Ho' as <-.
  pose proof (osets_mirrors float_of fs l o Hn Hm0) as Hm. rewrite submit_spec by done.
  assert (Hkeys : map fst hd = names fs) by (by eapply as_request_keys).
  rewrite Hkeys. split; intros (H1 & H2 & H3); (split; [naive_solver|]); (split; [done|]); intros f Hf; destruct (H3 f Hf) as (v & Hv1 & Hv2 & Hv3);
    exists v; (split; [done|]); (split; [done|]); destruct (held float_of fs _ f Hn Hm Hf) as (w & Hw & _); fold hd in Hw; rewrite Hw in *.
  - destruct (dget (f_name f) kw) as [x|]; eauto 6.
  - destruct Hv3 as (x & [->|[-> [= ->]]] & Hx); done.
Qed.
Example C158_options_ex : exists o res, options_from_spec ex_float (get_specification ex_fs) = Some o /\
  submitted ch_env ch_cfg (Some (osets ex_float [(b_ "image", JStr (b_ "mine"))] o)) ch_kw = Gives (update (as_request (osets ex_float [(b_ "image", JStr (b_ "mine"))] o)) ch_kw) /\
  parse_options ex_float ex_fs (JObj (update (as_request (osets ex_float [(b_ "image", JStr (b_ "mine"))] o)) ch_kw)) = Some res /\
  dget (b_ "cores") res = Some (JInt 4) /\ dget (b_ "image") res = Some (JStr (b_ "mine")).
Proof. eexists _, _. split; [by vm_compute|]. split; [done|]. split; [by vm_compute|]. by vm_compute. Qed.

(** new_cluster(gateway.cluster_options(), ...) starts the same cluster as
    new_cluster(...), or is refused as it is. *)
Theorem C158_same float_of {V} (fs : list (field V)) env cfg l o kw req req' : NoDup (names fs) -> Forall (declared float_of) fs ->
  NoDup (map fst l) -> NoDup (map fst kw) -> format_values env cfg = Gives l ->
  cluster_options float_of env cfg (get_specification fs) true = Gives o ->
  submitted env cfg (Some o) kw = Gives req -> submitted env cfg None kw = Gives req' ->
  parse_options float_of fs (JObj req) = parse_options float_of fs (JObj req').
Proof.
  intros Hn Hd Hl Hk Hf. unfold cluster_options, submitted. rewrite Hf. cbn [bind].
  destruct (options_from_spec float_of (get_specification fs)) as [o0|] eqn:Ho; [|done].
  destruct (oupdate float_of l o0) as [o1|] eqn:Hu; [|done]. intros [= <-] [= <-] [= <-]. by eapply local_same.
Qed.
Example C158_same_ex : exists o req req', cluster_options ex_float ch_env ch_cfg (get_specification ex_fs) true = Gives o /\
  submitted ch_env ch_cfg (Some o) ch_kw = Gives req /\ submitted ch_env ch_cfg None ch_kw = Gives req' /\ req <> req' /\
  parse_options ex_float ex_fs (JObj req') <> None.
Proof. eexists _, _, _. split; [by vm_compute|]. split; [by vm_compute|]. split; [by vm_compute|]. by vm_compute. Qed.

(** cluster_options() raises exactly when a plain new_cluster() would be refused. *)
Theorem C158_raises float_of {V} (fs : list (field V)) env cfg l : NoDup (names fs) -> Forall (declared float_of) fs -> NoDup (map fst l) ->
  format_values env cfg = Gives l ->
  cluster_options float_of env cfg (get_specification fs) true = Raises <->
  exists req, submitted env cfg None [] = Gives req /\ parse_options float_of fs (JObj req) = None.
Proof.
  intros Hn Hd Hl Hf. unfold cluster_options, submitted. rewrite Hf. cbn [bind].
  destruct (options_built float_of fs Hn Hd) as (o & Ho & _). rewrite Ho. pose proof (local_refused float_of fs o l Hn Hd Hl Ho) as H.
  destruct (oupdate float_of l o) as [o1|].
  - split; [done|]. intros (req & [= <-] & Hp). by apply H in Hp.
  - split; [|done]. intros _. exists l. split; [done|]. by apply H.
Qed.
Example C158_raises_ex : cluster_options ex_float ch_env [(b_ "cores", JInt 9)] (get_specification ex_fs) true = Raises /\
  exists o, cluster_options ex_float ch_env ch_cfg (get_specification ex_fs) true = Gives o.
Proof. split; [by vm_compute|]. eexists. by vm_compute. Qed.

(** With use_local_defaults=False the local configuration has no effect: the cluster
    is the one the keyword arguments alone describe. *)
Theorem C158_server_only float_of {V} (fs : list (field V)) env cfg o kw req : NoDup (names fs) -> Forall (declared float_of) fs -> NoDup (map fst kw) ->
  cluster_options float_of env cfg (get_specification fs) false = Gives o -> submitted env cfg (Some o) kw = Gives req ->
  parse_options float_of fs (JObj req) = parse_options float_of fs (JObj kw).
Proof.
  intros Hn Hd Hk. unfold cluster_options, submitted.
  destruct (options_from_spec float_of (get_specification fs)) as [o0|] eqn:Ho; [|done]. intros [= <-] [= <-].
  rewrite (local_same float_of fs o0 o0 [] kw Hn Hd ltac:(apply NoDup_nil_2) Hk Ho eq_refl). unfold update. by rewrite foldl_dset.
Qed.
Example C158_server_only_ex : exists o req res, cluster_options ex_float ch_env ch_cfg (get_specification ex_fs) false = Gives o /\
  submitted ch_env ch_cfg (Some o) ch_kw = Gives req /\ parse_options ex_float ex_fs (JObj req) = Some res /\ dget (b_ "image") res = Some (JStr (b_ "base")).
Proof. eexists _, _, _. split; [by vm_compute|]. split; [by vm_compute|]. split; [by vm_compute|]. by vm_compute. Qed.

(** A local default that is wrong and overridden does not matter to new_cluster(),
    but cluster_options() raises: the two ways do not always agree. *)
Theorem C158_overridden_refuted : exists (fs : list (field json)) env cfg kw req res,
  NoDup (names fs) /\ Forall (declared ex_float) fs /\ submitted env cfg None kw = Gives req /\ parse_options ex_float fs (JObj req) = Some res /\
  cluster_options ex_float env cfg (get_specification fs) true = Raises.
Proof.
  exists ex_fs, ch_env, [(b_ "cores", JInt 9)], ch_kw. eexists _, _. split; [apply ex_nodup|]. split; [apply ex_declared|].
  split; [by vm_compute|]. split; by vm_compute.
Qed.
(** A local default for an option the server does not offer cannot be overridden:
    whatever the keyword arguments, new_cluster() is refused. *)
Theorem C158_stale_refuted : exists (fs : list (field json)) env cfg, NoDup (names fs) /\ Forall (declared ex_float) fs /\
  (exists res, parse_options ex_float fs (JObj []) = Some res) /\
  forall kw req, NoDup (map fst kw) -> submitted env cfg None kw = Gives req -> parse_options ex_float fs (JObj req) = None.
Proof.
  exists ex_fs, ch_env, [(b_ "gpus", JInt 1)]. split; [apply ex_nodup|]. split; [apply ex_declared|]. split; [eexists; by vm_compute|].
  intros kw req Hk Hs. destruct (parse_options ex_float ex_fs (JObj req)) as [res|] eqn:Hp; [exfalso|done].
  destruct (proj1 (C158_plain ex_float ex_fs ch_env [(b_ "gpus", JInt 1)] [(b_ "gpus", JInt 1)] kw req res (proj1 ex_nodup) Hk eq_refl Hs) Hp) as (H & _).
  specialize (H (b_ "gpus")). assert (Hb : b_ "gpus" ∉ names ex_fs) by (apply (bool_decide_unpack _); vm_compute; exact I). apply Hb, H. right. by left.
Qed.

Print Assumptions C158_plain.
Print Assumptions C158_options.
Print Assumptions C158_same.
Print Assumptions C158_raises.
Print Assumptions C158_server_only.
Print Assumptions C158_overridden_refuted.
Print Assumptions C158_stale_refuted.
