From Coq Require Import Ascii String ZArith QArith.
From stdpp Require Import prelude.
From Verif Require Import Router_Model ProxyLog_Model ProxyLog_Proofs Json_Model Util_Model Util_Spec Util_Proofs3 Launch_Model Launch_Proofs Manifest_Model Manifest_Spec.
Local Open Scope nat_scope.

(** * Reading the objects. *)
Fixpoint sget {V} (k : string) (l : list (string * V)) : option V :=
  match l with [] => None | (k', v) :: l' => if String.eqb k k' then Some v else sget k l' end.
Lemma b_inj a b : b_ a = b_ b -> a = b.
Proof.
  unfold b_. intros H. rewrite <- (string_of_list_ascii_of_string a), <- (string_of_list_ascii_of_string b). by rewrite H.
Qed.
Lemma dget_jfields k l : dget (b_ k) (jfields l) = sget k l.
Proof.
  induction l as [|[k' v] l IH]; [done|]. cbn [jfields map fst snd dget sget].
  destruct (String.eqb_spec k k') as [->|Hne].
  - by rewrite decide_True.
  - rewrite decide_False; [exact IH|]. intros E. by apply Hne, b_inj.
Qed.
Lemma field_jobj k l : field k (jobj l) = sget k l.
Proof. exact (dget_jfields k l). Qed.
Lemma part_jobj k p l : part (b_ k :: p) (jobj l) = sget k l ≫= part p.
Proof. cbn [part jobj]. change (map _ l) with (jfields l). by rewrite dget_jfields. Qed.
Lemma dget_jdict k d : dget k (map (fun kv => (fst kv, JStr (snd kv))) d : list (bytes * json)) = JStr <$> dget k d.
Proof. induction d as [|[k' v] d IH]; [done|]. cbn. by destruct (decide (k = k')). Qed.
Lemma meta_labels labels ann name o : snd (with_meta labels ann name o) =
  jobj [("labels", jdict labels); ("annotations", jdict ann); (fst name, JStr (snd name)); ("ownerReferences", owner_ref o)]%string.
Proof. done. Qed.

Definition labels_in (obj : json) (l : list (bytes * bytes)) : Prop := forall k v, carries obj k v <-> dget k l = Some v.
Lemma meta_labels_in m rest labels ann name o : sget "metadata" rest = Some m -> m = snd (with_meta labels ann name o) -> labels_in (jobj rest) labels.
Proof.
  intros Hm -> k v. unfold carries.
  assert (E : part (path ["metadata"; "labels"]%string ++ [k]) (jobj rest) = part [k] (jdict labels)).
  { cbn [path map app]. rewrite part_jobj, Hm. reflexivity. }
  rewrite E. unfold jdict. cbn [part]. rewrite dget_jdict. destruct (dget k labels); cbn; split; congruence.
Qed.
Lemma pod_labels_in t ns c cf r o : labels_in (make_pod t ns c cf r o) (pod_labels t c cf r).
Proof. eapply meta_labels_in; reflexivity. Qed.
Lemma service_labels_in t c o : labels_in (make_service t c o) (get_labels t c (Some (b_ "dask-scheduler"))).
Proof. eapply meta_labels_in; reflexivity. Qed.
Lemma cluster_labels_in t c : labels_in (make_cluster_object t c) (get_labels t c None).
Proof.
  intros k v. unfold carries.
  assert (E : part (path ["metadata"; "labels"]%string ++ [k]) (make_cluster_object t c) = part [k] (jdict (get_labels t c None))) by reflexivity.
  rewrite E. unfold jdict. cbn [part]. rewrite dget_jdict. destruct (dget k _); cbn; split; congruence.
Qed.

Lemma get_labels_get t c comp k : dget k (get_labels t c comp) =
  if decide (k = b_ "app.kubernetes.io/component") then match comp with Some x => Some x | None => dget k (t_labels t) end
  else if decide (k = b_ "gateway.dask.org/cluster") then Some c
  else if decide (k = b_ "gateway.dask.org/instance") then Some (t_instance t) else dget k (t_labels t).
Proof.
  unfold get_labels. set (l := dupdate _ _).
  assert (Hl : dget k l = if decide (k = b_ "gateway.dask.org/cluster") then Some c else if decide (k = b_ "gateway.dask.org/instance") then Some (t_instance t) else dget k (t_labels t)).
  { unfold l. rewrite dget_dupdate. cbn [rev app dget]. by repeat case_decide. }
  destruct comp as [x|].
  - rewrite dget_dset, Hl. done.
  - rewrite Hl. destruct (decide (k = b_ "app.kubernetes.io/component")) as [->|]; [|done]. done.
Qed.
Lemma label_cluster t c comp : dget (b_ "gateway.dask.org/cluster") (get_labels t c comp) = Some c.
Proof. rewrite get_labels_get. reflexivity. Qed.
Lemma label_instance t c comp : dget (b_ "gateway.dask.org/instance") (get_labels t c comp) = Some (t_instance t).
Proof. rewrite get_labels_get. reflexivity. Qed.
Lemma label_component t c x : dget (b_ "app.kubernetes.io/component") (get_labels t c (Some x)) = Some x.
Proof. rewrite get_labels_get. reflexivity. Qed.
Lemma dget_notin {V} k (d : list (bytes * V)) : k ∉ map fst d -> dget k d = None.
Proof. intros H. destruct (dget k d) as [v|] eqn:E; [|done]. exfalso. apply H. apply dget_in in E. change k with (fst (k, v)). by apply elem_of_list_fmap_1. Qed.
Lemma pod_labels_own t c cf r k : keeps_labels cf r -> k ∈ own_labels -> dget k (pod_labels t c cf r) = dget k (get_labels t c (Some (container_name r))).
Proof.
  intros H Hk. unfold pod_labels. rewrite dget_dupdate, dget_notin; [done|].
  rewrite map_rev. intros Hin. apply (H k Hk). apply elem_of_list_In, in_rev, elem_of_list_In. done.
Qed.

Lemma serves_iff t t' ns c c' cf r o o' : keeps_labels cf r ->
  serves (make_service t c o) (make_pod t' ns c' cf r o') <-> t_instance t = t_instance t' /\ c = c' /\ r = Scheduler.
Proof.
  intros Hk.
  set (sel := jfields [("gateway.dask.org/cluster", JStr c); ("gateway.dask.org/instance", JStr (t_instance t)); ("app.kubernetes.io/component", jstr "dask-scheduler")]%string).
  assert (Hsel : part (path ["spec"; "selector"]%string) (make_service t c o) = Some (JObj sel)) by reflexivity.
  assert (Hin : forall k v, (k, v) ∈ sel <-> (k = b_ "gateway.dask.org/cluster" /\ v = JStr c) \/ (k = b_ "gateway.dask.org/instance" /\ v = JStr (t_instance t)) \/
     (k = b_ "app.kubernetes.io/component" /\ v = JStr (b_ "dask-scheduler"))).
  { intros k v. unfold sel, jfields. cbn [map fst snd]. rewrite !elem_of_cons. split.
    - intros [H|[H|[H|H]]]; [..|by apply elem_of_nil in H]; injection H as -> ->; auto.
    - intros [[-> ->]|[[-> ->]|[-> ->]]]; auto. }
  assert (Hl : forall k v, k ∈ own_labels -> carries (make_pod t' ns c' cf r o') k v <-> dget k (get_labels t' c' (Some (container_name r))) = Some v).
  { intros k v Hown. rewrite (pod_labels_in t' ns c' cf r o' k v). by rewrite pod_labels_own. }
  assert (H1 : b_ "gateway.dask.org/cluster" ∈ own_labels) by (apply (bool_decide_unpack _); vm_compute; done).
  assert (H2 : b_ "gateway.dask.org/instance" ∈ own_labels) by (apply (bool_decide_unpack _); vm_compute; done).
  assert (H3 : b_ "app.kubernetes.io/component" ∈ own_labels) by (apply (bool_decide_unpack _); vm_compute; done).
  split.
  - intros (sel' & Hs' & _ & Hall). rewrite Hsel in Hs'. injection Hs' as <-.
    destruct (Hall (b_ "gateway.dask.org/cluster") (JStr c)) as (s1 & E1 & C1); [apply Hin; auto|].
    destruct (Hall (b_ "gateway.dask.org/instance") (JStr (t_instance t))) as (s2 & E2 & C2); [apply Hin; auto|].
    destruct (Hall (b_ "app.kubernetes.io/component") (JStr (b_ "dask-scheduler"))) as (s3 & E3 & C3); [apply Hin; auto 6|].
    injection E1 as <-. injection E2 as <-. injection E3 as <-.
    apply (Hl _ _ H1) in C1. apply (Hl _ _ H2) in C2. apply (Hl _ _ H3) in C3.
    rewrite label_cluster in C1. rewrite label_instance in C2. rewrite label_component in C3.
    split; [congruence|split; [congruence|]]. destruct r; [done|]. discriminate C3.
  - intros (Hi & <- & ->). exists sel. split; [done|split; [done|]]. intros k v Hkv. apply Hin in Hkv as [[-> ->]|[[-> ->]|[-> ->]]].
    + exists c. split; [done|]. apply (Hl _ _ H1). by rewrite get_labels_get.
    + exists (t_instance t). split; [done|]. apply (Hl _ _ H2). by rewrite get_labels_get, Hi.
    + exists (b_ "dask-scheduler"). split; [done|]. apply (Hl _ _ H3). by rewrite get_labels_get.
Qed.

Lemma label_iff k obj v : label k obj = Some v <-> carries obj (b_ k) v.
Proof.
  unfold label, carries. cbn [path map app]. unfold field.
  destruct obj as [| | | | | |o]; try done. cbn [part].
  destruct (dget (b_ "metadata") o) as [m|]; [|done]. cbn [mbind option_bind]. destruct m as [| | | | | |m]; try done. cbn [part].
  destruct (dget (b_ "labels") m) as [l|]; [|done]. cbn [mbind option_bind]. destruct l as [| | | | | |l]; try done. cbn [part].
  destruct (dget (b_ k) l) as [x|]; [|done]. cbn. destruct x; split; congruence.
Qed.

Lemma pod_known t ns c cf r o : keeps_labels cf r ->
  selected_by (watched t) (make_pod t ns c cf r o) /\ cluster_key ns (make_pod t ns c cf r o) = Some (full_name ns c) /\
  label "app.kubernetes.io/component" (make_pod t ns c cf r o) = Some (container_name r).
Proof.
  intros Hk.
  assert (Hl : forall k v, k ∈ own_labels -> dget k (get_labels t c (Some (container_name r))) = Some v -> carries (make_pod t ns c cf r o) k v).
  { intros k v Hown H. rewrite (pod_labels_in t ns c cf r o k v). by rewrite pod_labels_own. }
  split; [|split].
  - intros k v Hkv. apply elem_of_list_singleton in Hkv. injection Hkv as -> ->. apply Hl; [apply (bool_decide_unpack _); vm_compute; done|]. by rewrite get_labels_get.
  - unfold cluster_key. rewrite (proj2 (label_iff _ _ c)); [done|]. apply Hl; [apply (bool_decide_unpack _); vm_compute; done|]. by rewrite get_labels_get.
  - apply label_iff. apply Hl; [apply (bool_decide_unpack _); vm_compute; done|]. by rewrite get_labels_get.
Qed.
Lemma pod_foreign t t' ns c cf r o : keeps_labels cf r -> selected_by (watched t) (make_pod t' ns c cf r o) -> t_instance t = t_instance t'.
Proof.
  intros Hk H. specialize (H (b_ "gateway.dask.org/instance") (t_instance t)). specialize (H ltac:(by left)).
  apply (pod_labels_in t' ns c cf r o) in H. rewrite pod_labels_own in H; [|done|apply (bool_decide_unpack _); vm_compute; done].
  rewrite label_instance in H. congruence.
Qed.
Lemma service_known t ns c o :
  selected_by (watched_endpoints t) (make_service t c o) /\ cluster_key ns (make_service t c o) = Some (full_name ns c).
Proof.
  split.
  - intros k v Hkv. unfold watched_endpoints, watched in Hkv. cbn [app] in Hkv. rewrite !elem_of_cons in Hkv.
    destruct Hkv as [Hkv|[Hkv|Hkv]]; [..|by apply elem_of_nil in Hkv]; injection Hkv as -> ->; apply service_labels_in; by rewrite get_labels_get.
  - unfold cluster_key. rewrite (proj2 (label_iff _ _ c)); [done|]. apply service_labels_in. by rewrite get_labels_get.
Qed.
Lemma cluster_known t c : selected_by (watched t) (make_cluster_object t c).
Proof.
  intros k v Hkv. apply elem_of_list_singleton in Hkv. injection Hkv as -> ->. apply cluster_labels_in. by rewrite get_labels_get.
Qed.

(** * Routes. *)
Lemma some_jstr a b : Some (JStr a) = Some (JStr b) -> a = b.
Proof. congruence. Qed.
Lemma target_iff c ns port route s n p : field "services" route = Some (to_service c ns port) ->
  target route n s p <-> n = ns /\ s = service_name c /\ p = port.
Proof.
  intros Hr. unfold target, item_of. rewrite Hr. unfold to_service. split.
  - intros (x & (l & El & Hx) & H1 & H2 & H3). injection El as <-. apply elem_of_list_singleton in Hx as ->.
    rewrite field_jobj in H1, H2, H3. cbn in H1, H2, H3. injection H1 as <-. injection H2 as <-. injection H3 as <-. done.
  - intros (-> & -> & ->). eexists. split; [eexists; split; [reflexivity|by left]|]. rewrite !field_jobj. cbn. done.
Qed.
Lemma web_iff t c ns o p n s port : web_to (make_ingressroute t c ns o) p n s port <->
  starts (t_prefix t ++ b_ "/clusters/" ++ full_name ns c ++ b_ "/") p /\ n = ns /\ s = service_name c /\ port = 8787%Z.
Proof.
  unfold web_to, make_ingressroute. split.
  - intros (spec & route & prefix & Hs & (l & Hl & Hin) & Hm & Hst & Ht). rewrite field_jobj in Hs. cbn [sget] in Hs. cbn -[jobj] in Hs. injection Hs as <-.
    rewrite field_jobj in Hl. cbn -[jobj] in Hl. injection Hl as <-. apply elem_of_list_singleton in Hin as ->.
    assert (Hm' : b_ "PathPrefix(`" ++ (t_prefix t ++ b_ "/clusters/" ++ full_name ns c ++ b_ "/") ++ b_ "`)" = b_ "PathPrefix(`" ++ prefix ++ b_ "`)").
    { apply some_jstr. rewrite <- Hm. rewrite field_jobj. reflexivity. }
    apply app_inv_head in Hm'. apply app_inv_tail in Hm'. subst prefix. split; [exact Hst|].
    eapply target_iff; [|exact Ht]. rewrite field_jobj. reflexivity.
  - intros (Hst & Ht). do 3 eexists. split; [rewrite field_jobj; reflexivity|]. split; [eexists; split; [rewrite field_jobj; reflexivity|by left]|].
    split; [rewrite field_jobj; reflexivity|]. split; [exact Hst|]. eapply target_iff; [rewrite field_jobj; reflexivity|]. exact Ht.
Qed.
Lemma tcp_iff t c ns o name n s port : tcp_to (make_ingressroutetcp t c ns o) name n s port <->
  name = server_name (full_name ns c) /\ n = ns /\ s = service_name c /\ port = 8786%Z.
Proof.
  unfold tcp_to, make_ingressroutetcp. split.
  - intros (spec & route & Hs & _ & (l & Hl & Hin) & Hm & Ht). rewrite field_jobj in Hs. cbn -[jobj] in Hs. injection Hs as <-.
    rewrite field_jobj in Hl. cbn -[jobj] in Hl. injection Hl as <-. apply elem_of_list_singleton in Hin as ->.
    assert (Hm' : b_ "HostSNI(`" ++ (b_ "daskgateway-" ++ full_name ns c) ++ b_ "`)" = b_ "HostSNI(`" ++ name ++ b_ "`)").
    { apply some_jstr. rewrite <- Hm. rewrite field_jobj. reflexivity. }
    apply app_inv_head in Hm'. apply app_inv_tail in Hm'. subst name. split; [done|].
    eapply target_iff; [|exact Ht]. rewrite field_jobj. reflexivity.
  - intros (-> & Ht). do 2 eexists. split; [rewrite field_jobj; reflexivity|]. split; [reflexivity|].
    split; [eexists; split; [rewrite field_jobj; reflexivity|by left]|].
    split; [rewrite field_jobj; reflexivity|]. eapply target_iff; [rewrite field_jobj; reflexivity|]. exact Ht.
Qed.

Lemma app_sep_inj (x : ascii) a b a' b' : x ∉ a -> x ∉ a' -> a ++ x :: b = a' ++ x :: b' -> a = a' /\ b = b'.
Proof.
  revert a'. induction a as [|y a IH]; intros [|y' a'] H H' E; cbn in E.
  - by injection E.
  - injection E as <- _. set_solver.
  - injection E as -> _. set_solver.
  - injection E as -> E. destruct (IH a') as [-> ->]; [set_solver|set_solver|done|done].
Qed.
Lemma full_name_inj ns c ns' c' : name_ok ns -> name_ok ns' -> full_name ns c = full_name ns' c' -> ns = ns' /\ c = c'.
Proof. intros (_ & H & _) (_ & H' & _) E. by apply (app_sep_inj "."%char) in E. Qed.
Lemma full_no_slash ns c : name_ok ns -> name_ok c -> slash ∉ full_name ns c.
Proof. intros (_ & _ & H) (_ & _ & H') Hin. unfold full_name in Hin. rewrite !elem_of_app in Hin. destruct Hin as [?|[Hin|?]]; [done| |done]. revert Hin. apply (bool_decide_unpack _). vm_compute. done. Qed.

Lemma web_one t ns c o ns' c' o' p n s port n' s' port' : name_ok ns -> name_ok c -> name_ok ns' -> name_ok c' ->
  web_to (make_ingressroute t c ns o) p n s port -> web_to (make_ingressroute t c' ns' o') p n' s' port' -> ns = ns' /\ c = c'.
Proof.
  intros H1 H2 H3 H4 [[r Hr] _]%web_iff [[r' Hr'] _]%web_iff. rewrite Hr in Hr'. rewrite <- !app_assoc in Hr'.
  apply app_inv_head in Hr'. apply app_inv_head in Hr'. change (b_ "/") with [slash] in Hr'. cbn [app] in Hr'.
  apply app_sep_inj in Hr' as [E _]; [|by apply full_no_slash..]. by apply full_name_inj.
Qed.

(** * Splitting names. *)
Lemma split_dot_plain l : "."%char ∉ l -> split_dot l = [l].
Proof.
  induction l as [|x l IH]; intros H; [done|]. cbn. destruct (decide (x = "."%char)) as [->|]; [set_solver|].
  rewrite IH by set_solver. done.
Qed.
Lemma split_dot_cons w l : "."%char ∉ w -> split_dot (w ++ "."%char :: l) = w :: split_dot l.
Proof.
  induction w as [|x w IH]; intros H; cbn.
  - by rewrite decide_True.
  - destruct (decide (x = "."%char)) as [->|]; [set_solver|]. by rewrite IH by set_solver.
Qed.
Lemma split_full ns c : name_ok ns -> name_ok c -> split_dot (full_name ns c) = [ns; c].
Proof.
  intros (_ & H & _) (_ & H' & _). unfold full_name. change (b_ "." ++ c) with ("."%char :: c). rewrite split_dot_cons by done. by rewrite split_dot_plain.
Qed.

(** * Owners. *)
Lemma owner_uids_meta rest labels ann name o : fst name <> "ownerReferences"%string -> fst name <> "labels"%string ->
  sget "metadata" rest = Some (snd (with_meta labels ann name o)) -> owner_uids (jobj rest) = [JStr (o_uid o)].
Proof.
  intros Hn Hn' Hm. unfold owner_uids. cbn [path map]. rewrite part_jobj, Hm. cbn [mbind option_bind]. rewrite meta_labels, part_jobj.
  cbn [sget]. destruct (String.eqb_spec "ownerReferences" (fst name)) as [E|]; [by rewrite E in Hn|]. reflexivity.
Qed.
Lemma create_owner t ns c cf cu pu x : owner_uids (create t ns c cf cu pu x) =
  [JStr match x with Secret _ _ _ | SchedulerPod => cu | _ => pu end].
Proof. destruct x; reflexivity. Qed.
