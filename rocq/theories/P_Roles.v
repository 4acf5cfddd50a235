(** Properties C151 and C152: several installations of the chart, and the rights of one. *)
From Coq Require Import Ascii String ZArith Lia.
From stdpp Require Import prelude.
From Verif Require Import Router_Model ProxyLog_Model Json_Model Util_Model Util_Spec Launch_Model Manifest_Model Manifest_Spec Manifest_Proofs Manifest_Proofs2 Fit_Model Fit_Spec Fit_Proofs Roles_Model P_Fit.
Local Open Scope nat_scope.

(** * C151 *)
Definition separate (s : list (release * rbac)) : Prop :=
  forall i j x y, i < j -> s !! i = Some x -> s !! j = Some y -> clash x y = false.
Lemma separate_cons x s : separate (x :: s) <-> (forall y, y ∈ s -> clash x y = false) /\ separate s.
Proof.
  split.
  - intros H. split; [intros y [i Hi]%elem_of_list_lookup; by apply (H 0 (S i) x y); [lia|..]|]. intros i j a b Hij Ha Hb. by apply (H (S i) (S j) a b); [lia|..].
  - intros [H1 H2] [|i] [|j] a b Hij Ha Hb; [lia| |lia|]; cbn in Ha, Hb.
    + injection Ha as <-. apply H1. by eapply elem_of_list_lookup_2.
    + eapply (H2 i j); [lia|done..].
Qed.
Lemma separate_filter f s : separate s -> separate (List.filter f s).
Proof.
  induction s as [|x s IH]; [done|]. intros [H1 H2]%separate_cons. cbn [List.filter]. destruct (f x); [|by apply IH]. apply separate_cons. split; [|by apply IH].
  intros y Hy. apply H1. apply elem_of_list_In. apply elem_of_list_In, filter_In in Hy as [Hy _]. done.
Qed.
Lemma after_separate es : separate (after_helm es).
Proof.
  induction es as [|e es IH] using rev_ind; [by intros i j x y _ Hi|]. unfold after_helm. rewrite foldl_app. cbn [foldl]. fold (after_helm es). destruct e as [r b|n ns]; cbn [helm_step].
  - destruct (existsb _ _) eqn:E; [done|]. apply separate_cons. split; [|done]. intros y Hy. destruct (clash (r, b) y) eqn:Ec; [|done]. exfalso.
    apply not_true_iff_false in E. apply E. apply existsb_exists. exists y. split; [by apply elem_of_list_In|]. by rewrite Ec, orb_true_r.
  - by apply separate_filter.
Qed.
Lemma clash_iff x y : clash x y = true <-> exists i, i ∈ helm_objects (fst x) (snd x) /\ i ∈ helm_objects (fst y) (snd y).
Proof.
  unfold clash. rewrite existsb_exists. split; intros (i & H1 & H2); exists i; rewrite <- elem_of_list_In in *; rewrite bool_decide_eq_true in *; done.
Qed.
Lemma after_apart es i j x y : i <> j -> after_helm es !! i = Some x -> after_helm es !! j = Some y -> forall o, o ∈ helm_objects (fst x) (snd x) -> o ∈ helm_objects (fst y) (snd y) -> False.
Proof.
  intros Hij Hx Hy o Ho Ho'. destruct (decide (i < j)).
  - assert (clash x y = false) as H by (eapply after_separate; [|done..]; done). apply not_true_iff_false in H. apply H, clash_iff. eauto.
  - assert (clash y x = false) as H by (eapply after_separate; [|done..]; lia). apply not_true_iff_false in H. apply H, clash_iff. eauto.
Qed.

Lemma cluster_role r b p : makes_role b p = true -> ("ClusterRole"%string, None, component_name r p) ∈ helm_objects r b.
Proof.
  intros H. unfold helm_objects. rewrite !elem_of_app. assert (("ClusterRole"%string, None, component_name r p) ∈ role_objects r b p) by (unfold role_objects; rewrite H; right; left).
  destruct p; tauto.
Qed.

(** C151. Of two releases of the chart, however they came to be installed, neither looks at what
    is made for the other's clusters: not its controller, not its gateway, not its proxy, if both
    make the role of the same component (by default they make all three), or are in one
    namespace. *)
Theorem C151_apart_partial : forall es i j r b r' b' labels ann ns c cf uid uid' x, i <> j -> after_helm es !! i = Some (r, b) -> after_helm es !! j = Some (r', b') ->
  (exists p, makes_role b p = true /\ makes_role b' p = true) \/ r_ns r = r_ns r' -> keeps_labels cf Scheduler -> keeps_labels cf Worker ->
  let obj := create (controller r labels ann) ns c cf uid uid' x in
  forall labels' ann', ~ selected_by (watched (controller r' labels' ann')) obj /\ visible r' obj = false /\ ~ carries obj (b_ "gateway.dask.org/instance") (gateway_instance r').
Proof.
  intros es i j r b r' b' l a ns c cf u u' x Hij Hi Hj Hor Hs Hw obj l' a'.
  assert (fullname r <> fullname r') as Hne.
  { intros E. assert (api_name r = api_name r') as Ea by (unfold api_name; by rewrite E).
    destruct Hor as [(p & H1 & H2)|H].
    - apply (after_apart _ _ _ _ _ Hij Hi Hj ("ClusterRole"%string, None, component_name r p)); cbn [fst snd]; [by apply cluster_role|].
      replace (component_name r p) with (component_name r' p); [by apply cluster_role|]. destruct p; cbn [component_name]; unfold controller_name, traefik_name; by rewrite ?E, ?Ea.
    - apply (after_apart _ _ _ _ _ Hij Hi Hj ("ConfigMap"%string, Some (r_ns r), api_name r)); cbn [fst snd]; unfold helm_objects; rewrite !elem_of_app; do 3 right.
      + left.
      + rewrite H, Ea. left. }
  destruct (C150_watch r l a ns c cf u u' x Hs Hw) as (H1 & _ & _). fold obj in H1. change (gateway_instance r) with (fullname r) in H1.
  assert (~ carries obj (b_ "gateway.dask.org/instance") (fullname r')) as Hno by (unfold carries in *; congruence).
  split_and!; [|apply not_true_iff_false; by rewrite visible_iff|done]. intros H. apply Hno. apply H. by left.
Qed.
(** Otherwise they mix: two releases of one name in different namespaces, installed without
    roles of their own; the second looks at everything of the first. *)
Definition shared (ns : string) : release := Release (b_ "dask") (b_ ns) [] [] (b_ "/") 80 (b_ "web").
Theorem C151_apart_refuted : exists es r b r' b', after_helm es = [(r', b'); (r, b)] /\ r_ns r <> r_ns r' /\
  forall labels ann labels' ann' ns c cf uid uid' x, keeps_labels cf Scheduler -> keeps_labels cf Worker ->
    let obj := create (controller r labels ann) ns c cf uid uid' x in
    selected_by (watched (controller r' labels' ann')) obj /\ visible r' obj = true /\ carries obj (b_ "gateway.dask.org/instance") (gateway_instance r').
Proof.
  exists [Install (shared "team-a") (Rbac false [] [] []); Install (shared "team-b") (Rbac false [] [] [])], (shared "team-a"), (Rbac false [] [] []), (shared "team-b"), (Rbac false [] [] []).
  split; [vm_compute; reflexivity|]. split; [apply (bool_decide_unpack _); vm_compute; exact I|].
  intros l a l' a' ns c cf u u' x Hs Hw obj. destruct (C150_watch (shared "team-a") l a ns c cf u u' x Hs Hw) as (H1 & H2 & H3). by split_and!.
Qed.
(** With roles the second is refused, and so are some of different names. *)
Example C151_example : let on := Rbac true [] [] [] in
  after_helm [Install (shared "team-a") on; Install (shared "team-b") on] = [(shared "team-a", on)] /\
  (let r n := Release (b_ n) (b_ "gw") [] [] (b_ "/") 80 (b_ "web") in
   after_helm [Install (r "prod"%string) on; Install (r "prod-dask-gateway"%string) on] = [(r "prod"%string, on)] /\
   after_helm [Install (r "prod"%string) on; Install (r "test"%string) on] = [(r "test"%string, on); (r "prod"%string, on)] /\
   after_helm [Install (r "prod"%string) on; Uninstall (b_ "prod") (b_ "gw"); Install (r "prod-dask-gateway"%string) on] = [(r "prod-dask-gateway"%string, on)]).
Proof. vm_compute. by split_and!. Qed.

(** * C152 *)
Lemma name_head r x : exists t, component_name r x = match x with Gateway => "a" | Controller => "c" | Traefik => "t" end%char :: t.
Proof.
  destruct x; cbn [component_name]; unfold api_name, controller_name, traefik_name.
  - destruct (short_head "a"%char "p"%char (b_ "i-" ++ fullname r)) as [t H]. exists t. exact H.
  - destruct (short_head "c"%char "o"%char (b_ "ntroller-" ++ fullname r)) as [t H]. exists t. exact H.
  - destruct (short_head "t"%char "r"%char (b_ "aefik-" ++ fullname r)) as [t H]. exists t. exact H.
Qed.
Lemma name_inj r x y : component_name r x = component_name r y -> x = y.
Proof. destruct (name_head r x) as [t ->], (name_head r y) as [t' ->]. by destruct x, y. Qed.
Lemma makes_account r b x : makes_role b x = true -> account r b x = component_name r x.
Proof. unfold makes_role, account. intros [-> H]%andb_true_iff. by destruct (given b x). Qed.
Lemma authorised_own r b x q : makes_role b x = true -> authorised (bindings r b) (account r b x) (r_ns r) q = permits (role_of x) q.
Proof.
  intros H. rewrite (makes_account _ _ _ H). unfold bindings, authorised. rewrite !existsb_app.
  assert (forall y, existsb (fun z => let '(a, n, role) := z in bool_decide (a = component_name r x) && bool_decide (n = r_ns r) && permits role q)
     (if makes_role b y then [(component_name r y, r_ns r, role_of y)] else []) = match x, y with Gateway, Gateway | Controller, Controller | Traefik, Traefik => permits (role_of x) q | _, _ => false end) as Hy.
  { intros y. destruct (makes_role b y) eqn:Hm.
    - cbn [existsb]. rewrite orb_false_r. rewrite (bool_decide_eq_true_2 (r_ns r = r_ns r)) by done. rewrite andb_true_r.
      destruct (bool_decide (component_name r y = component_name r x)) eqn:E.
      + apply bool_decide_eq_true in E. apply name_inj in E. subst y. by destruct x.
      + apply bool_decide_eq_false in E. by destruct x, y.
    - cbn [existsb]. destruct x, y; congruence. }
  rewrite !Hy. by destruct x; rewrite ?orb_false_r.
Qed.

(** C152. Where the chart makes the roles, everything that the gateway and the controller ask of
    Kubernetes is allowed to the accounts their pods run under, in every namespace... *)
Theorem C152_allowed : forall r b,
  (makes_role b Gateway = true -> forall c, authorised (bindings r b) (account r b Gateway) (r_ns r) (gateway_request c) = true) /\
  (makes_role b Controller = true -> forall c, authorised (bindings r b) (account r b Controller) (r_ns r) (controller_request c) = true).
Proof.
  intros r b. split; intros H c; rewrite (authorised_own _ _ _ _ H).
  - destruct c; reflexivity.
  - destruct c as [[]|[]| | | | | | | | |]; reflexivity.
Qed.

(** ...the gateway may do nothing else than deal with cluster objects and read a secret it knows
    the name of; the controller may read no secret, change no pod, service or route and not run
    commands in pods; the proxy may change nothing; and no one may touch accounts and roles... *)
Definition reads : list string := ["get"; "list"; "watch"]%string.
Theorem C152_confined : forall r b x q, makes_role b x = true -> authorised (bindings r b) (account r b x) (r_ns r) q = true ->
  (match x with
   | Gateway => (q_group q = "" /\ q_resource q = "secrets" /\ q_verb q = "get") \/ (q_group q = "gateway.dask.org" /\ q_resource q = "daskclusters")
   | Controller => (q_group q = "gateway.dask.org" /\ (q_resource q = "daskclusters" \/ q_resource q = "daskclusters/status")) \/
       (q_group q = "traefik.io" /\ (q_resource q = "ingressroutes" \/ q_resource q = "ingressroutetcps") /\ q_verb q ∈ ["get"; "create"; "delete"]) \/
       (q_group q = "" /\ ((q_resource q = "pods" /\ (q_verb q ∈ reads \/ q_verb q ∈ ["create"; "delete"])) \/ (q_resource q = "endpoints" /\ q_verb q ∈ reads) \/
                           ((q_resource q = "secrets" \/ q_resource q = "services") /\ q_verb q ∈ ["create"; "delete"])))
   | Traefik => q_verb q ∈ reads /\ (q_group q = "" -> q_resource q ∈ ["nodes"; "secrets"; "services"])
   end)%string.
Proof.
  intros r b x q H. rewrite (authorised_own _ _ _ _ H).
  assert (forall l y, names_it l y = true <-> y ∈ l \/ "*"%string ∈ l) as N by (intros l y; unfold names_it; by rewrite orb_true_iff, !bool_decide_eq_true).
  unfold permits. destruct x; cbn [role_of]; unfold gateway_role, controller_role, traefik_role, reads; cbn [existsb ru_groups ru_resources ru_verbs]; rewrite !orb_true_iff, !andb_true_iff, !N; set_unfold; naive_solver congruence.
Qed.

(** ...but the gateway may read the secrets of everybody, not only those of clusters, and the
    proxy may even list them... *)
Theorem C152_secrets_refuted : forall r b, 
  (makes_role b Gateway = true -> forall ns name, authorised (bindings r b) (account r b Gateway) (r_ns r) (Request "get" "" "secrets" (Some ns) (Some name)) = true) /\
  (makes_role b Traefik = true -> forall verb ns name, verb ∈ reads -> authorised (bindings r b) (account r b Traefik) (r_ns r) (Request verb "" "secrets" ns name) = true).
Proof.
  intros r b. split; intros H; intros; rewrite (authorised_own _ _ _ _ H); [done|]. unfold reads in *. set_unfold. naive_solver.
Qed.
(** ...the pods of clusters get no account's token, unless the configuration asks for one... *)
Theorem C152_pods : forall t ns c cf role o, is_dict (r_pod (rconf_of cf role)) -> dget (b_ "automountServiceAccountToken") (r_pod (rconf_of cf role)) = None ->
  part (path ["spec"; "automountServiceAccountToken"]%string) (make_pod t ns c cf role o) = Some (JBool false).
Proof. intros t ns c cf role o Hd Hn. rewrite spec_part. erewrite spec_get; [|done|done|reflexivity]. by rewrite Hn. Qed.
(** ...and with rbac disabled nothing is bound: the pods have the namespace's default account. *)
Theorem C152_disabled : forall r b, rb_enabled b = false -> bindings r b = [] /\ forall x, account r b x = b_ "default".
Proof. intros r b H. unfold bindings, makes_role, account. rewrite H. done. Qed.

Example C152_example : let r := shared "gw" in let b := Rbac true [] [] [] in
  makes_role b Gateway = true /\ makes_role b Controller = true /\ account r b Gateway = b_ "api-dask-dask-gateway" /\
  authorised (bindings r b) (account r b Controller) (b_ "gw") (controller_request (CStatus (b_ "users") (b_ "c1"))) = true /\
  authorised (bindings r b) (account r b Gateway) (b_ "gw") (controller_request (CStatus (b_ "users") (b_ "c1"))) = false /\
  authorised (bindings r b) (account r b Controller) (b_ "gw") (gateway_request (GSecret (b_ "users") (b_ "s"))) = false.
Proof. vm_compute. by split_and!. Qed.

Print Assumptions C151_apart_partial.
Print Assumptions C151_apart_refuted.
Print Assumptions C152_allowed.
Print Assumptions C152_confined.
Print Assumptions C152_secrets_refuted.
Print Assumptions C152_pods.
Print Assumptions C152_disabled.
