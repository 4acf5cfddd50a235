(** Property C159: what becomes of the options given by keyword.  [kw] are the
    keyword arguments of a program, [A] any Python objects. *)
From Coq Require Import Ascii String ZArith QArith Qcanon.
From stdpp Require Import prelude.
From Verif Require Import Router_Model ProxyLog_Model Json_Model Options_Model Options_Spec Options_Proofs P_Options Keyword_Model Keyword_Proofs.

Lemma within (r r' : list bytes) : bool_decide (Forall (fun k => k ∈ r') r) = true -> forall k, k ∈ r -> k ∈ r'.
Proof. intros H%bool_decide_eq_true k Hk. by eapply Forall_forall in H. Qed.
Ltac sets := let k := fresh in intros k; rewrite <- ?elem_of_app; split; apply within; by vm_compute.

(** gateway.submit raises for the names self and func, and for no other; else all
    keyword arguments but cluster_options are sent, in their order. *)
Theorem C159_submit {A} (kw : list (bytes * A)) :
  match submit_call kw with
  | Some sent => (forall k, k ∈ map fst kw -> k <> b_ "self" /\ k <> b_ "func") /\ sent = filter (fun kv => fst kv ∉ [b_ "cluster_options"]) kw
  | None => exists k, k ∈ map fst kw /\ (k = b_ "self" \/ k = b_ "func")
  end.
Proof.
  assert (H : passes (A := A) submit_call [b_ "self"; b_ "func"] [b_ "cluster_options"]).
  { eapply passes_equiv; [apply passes_bind; [apply call_passes|apply (passes_bind _ to_submit); apply call_passes]|sets|sets]. }
  specialize (H kw). destruct (submit_call kw) as [sent|].
  - destruct H as [H ->]. split; [|done]. intros k Hk. specialize (H k Hk). rewrite !elem_of_cons in H. naive_solver.
  - destruct H as (k & Hk & Hi). exists k. split; [done|]. rewrite !elem_of_cons in Hi. destruct Hi as [?|[?|Hi]]; [auto..|by apply elem_of_nil in Hi].
Qed.
(** gateway.new_cluster raises for self and for the names of the connection, and
    for no other; else all but cluster_options and shutdown_on_close are sent. *)
Definition connection : list bytes := [b_ "address"; b_ "proxy_address"; b_ "public_address"; b_ "auth"; b_ "asynchronous"; b_ "loop"].
Theorem C159_new {A} (kw : list (bytes * A)) :
  match new_cluster_call kw with
  | Some sent => (forall k, k ∈ map fst kw -> k <> b_ "self" /\ k ∉ connection) /\ sent = filter (fun kv => fst kv ∉ [b_ "cluster_options"; b_ "shutdown_on_close"]) kw
  | None => exists k, k ∈ map fst kw /\ (k = b_ "self" \/ k ∈ connection)
  end.
Proof.
  assert (H : passes (A := A) new_cluster_call (b_ "self" :: connection) [b_ "cluster_options"; b_ "shutdown_on_close"]).
  { eapply passes_equiv; [apply passes_bind; [apply call_passes|apply (passes_bind _ to_submit); apply call_passes]|sets|sets]. }
  specialize (H kw). destruct (new_cluster_call kw) as [sent|].
  - destruct H as [H ->]. split; [|done]. intros k Hk. specialize (H k Hk). rewrite elem_of_cons in H. tauto.
  - destruct H as (k & Hk & Hi). exists k. split; [done|]. by rewrite elem_of_cons in Hi.
Qed.
(** GatewayCluster raises for self only; the names of the connection it takes. *)
Theorem C159_class {A} (kw : list (bytes * A)) :
  match class_call kw with
  | Some sent => b_ "self" ∉ map fst kw /\ sent = filter (fun kv => fst kv ∉ [b_ "cluster_options"; b_ "shutdown_on_close"] ++ connection) kw
  | None => b_ "self" ∈ map fst kw
  end.
Proof.
  assert (H : passes (A := A) class_call [b_ "self"] ([b_ "cluster_options"; b_ "shutdown_on_close"] ++ connection)).
  { eapply passes_equiv; [apply (passes_bind _ to_submit); apply call_passes|sets|sets]. }
  specialize (H kw). destruct (class_call kw) as [sent|].
  - destruct H as [H ->]. split; [|done]. intros Hk. specialize (H _ Hk). apply H. by left.
  - destruct H as (k & Hk & Hi). apply elem_of_list_singleton in Hi. by subst.
Qed.
Example C159_ex : let kw := [(b_ "cores", 4); (b_ "shutdown_on_close", 0); (b_ "image", 7)] in
  new_cluster_call kw = Some [(b_ "cores", 4); (b_ "image", 7)] /\ class_call kw = Some [(b_ "cores", 4); (b_ "image", 7)] /\
  submit_call kw = Some kw /\ new_cluster_call [(b_ "loop", 1)] = None /\ submit_call [(b_ "func", 1)] = None /\ class_call [(b_ "loop", 1)] = Some [].
Proof. by vm_compute. Qed.

(** So the three ways do the same for all other names. *)
Theorem C159_agree {A} (kw : list (bytes * A)) :
  (forall k, k ∈ map fst kw -> k ∉ [b_ "self"; b_ "func"; b_ "cluster_options"; b_ "shutdown_on_close"] ++ connection) ->
  submit_call kw = Some kw /\ new_cluster_call kw = Some kw /\ class_call kw = Some kw.
Proof.
  intros H.
  assert (HF : forall kept : list bytes, (forall k, k ∈ kept -> k ∈ [b_ "self"; b_ "func"; b_ "cluster_options"; b_ "shutdown_on_close"] ++ connection) -> filter (fun kv => fst kv ∉ kept) kw = kw).
  { intros kept Hk. clear -H Hk. induction kw as [|[k x] kw IH]; [done|]. rewrite filter_cons_True.
    - f_equal. apply IH. intros k' Hk'. apply H. by right.
    - cbn. intros Hi. eapply H; [left|]. by apply Hk. }
  pose proof (C159_submit kw) as H1. pose proof (C159_new kw) as H2. pose proof (C159_class kw) as H3. split; [|split].
  - destruct (submit_call kw) as [s|]; [destruct H1 as [_ ->]; f_equal; apply HF; apply within; by vm_compute|].
    destruct H1 as (k & Hk & Hi). exfalso. apply (H k Hk). destruct Hi as [-> | ->]; apply (bool_decide_unpack _); vm_compute; exact I.
  - destruct (new_cluster_call kw) as [s|]; [destruct H2 as [_ ->]; f_equal; apply HF; apply within; by vm_compute|].
    destruct H2 as (k & Hk & Hi). exfalso. apply (H k Hk). destruct Hi as [-> |Hi]; [apply (bool_decide_unpack _); vm_compute; exact I|]. apply elem_of_app. by right.
  - destruct (class_call kw) as [s|]; [destruct H3 as [_ ->]; f_equal; apply HF; apply within; by vm_compute|].
    exfalso. apply (H _ H3). apply (bool_decide_unpack _); vm_compute; exact I.
Qed.
Example C159_agree_ex : (forall k, k ∈ map fst [(b_ "cores", 4); (b_ "image", 7)] -> k ∉ [b_ "self"; b_ "func"; b_ "cluster_options"; b_ "shutdown_on_close"] ++ connection).
Proof. apply Forall_forall. apply (bool_decide_unpack _); vm_compute; exact I. Qed.

(** An option the server offers may not be settable by keyword: one named loop.
    new_cluster raises, GatewayCluster uses it for itself; an Options object takes
    it. *)
Theorem C159_every_refuted : exists (fs : list (field json)) (f : field json) (x : json) (o o' : coptions),
  NoDup (names fs) /\ Forall (declared ex_float) fs /\ f ∈ fs /\ validate ex_float (f_kind f) x = Some x /\
  options_from_spec ex_float (get_specification fs) = Some o /\ oset ex_float (f_name f) x o = Some o' /\ dget (f_name f) (as_request o') = Some x /\
  forall kw : list (bytes * json), dget (f_name f) kw = Some x ->
    new_cluster_call kw = None /\ forall sent, class_call kw = Some sent -> f_name f ∉ map fst sent.
Proof.
  set (fs := ex_make "loop" (DBool (JBool false))). exists fs. destruct fs as [|f [|]] eqn:E; [by vm_compute in E| |by vm_compute in E].
  exists f, (JBool true). vm_compute in E. injection E as <-. eexists _, _.
  split; [apply NoDup_singleton|]. split; [apply Forall_singleton; by exists (b_ "loop"), None, (DBool (JBool false))|]. split; [by left|].
  split; [by vm_compute|]. split; [by vm_compute|]. split; [by vm_compute|]. split; [by vm_compute|].
  intros kw Hk. cbn [f_name] in *. assert (Hin : b_ "loop" ∈ map fst kw) by (apply dget_some_in; eauto). split.
  - pose proof (C159_new kw) as H. destruct (new_cluster_call kw); [|done]. destruct H as [H _]. destruct (proj2 (H _ Hin)).
    apply (bool_decide_unpack _); vm_compute; exact I.
  - intros sent Hs. pose proof (C159_class kw) as H. rewrite Hs in H. destruct H as [_ ->]. change (b_ "loop" ∉ map fst (filter (fun kv => fst kv ∉ [b_ "cluster_options"; b_ "shutdown_on_close"] ++ connection) kw)).
    rewrite filter_keys. intros [_ Hn]. apply Hn. apply (bool_decide_unpack _); vm_compute; exact I.
Qed.

Print Assumptions C159_submit.
Print Assumptions C159_new.
Print Assumptions C159_class.
Print Assumptions C159_agree.
Print Assumptions C159_every_refuted.
