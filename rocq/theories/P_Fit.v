(** Property C150: the parts of an installation of the chart fit together. *)
From Coq Require Import Ascii String ZArith Lia.
From stdpp Require Import prelude.
From Verif Require Import Router_Model ProxyLog_Model Json_Model Util_Model Util_Spec Launch_Model Manifest_Model Manifest_Spec Manifest_Proofs Fit_Model Fit_Spec Fit_Proofs.
Local Open Scope nat_scope.

Lemma apply_api r path : apply (api_middleware r) path = if is_prefix (no_slash_end r) path then lead (drop (length (no_slash_end r)) path) else path.
Proof. reflexivity. Qed.
Lemma apply_clusters r path : apply (clusters_middleware r) path =
  match find_match (compiled (no_slash_end r ++ b_ "/clusters/[a-zA-Z0-9.-]+")) path with
  | Some ((_ :: _) as w) => if is_prefix w path then lead (drop (length w) path) else path | _ => path end.
Proof. reflexivity. Qed.

(** C150. A request under the installation's prefix arrives at the gateway's service without
    the prefix, however many clusters there are... *)
Theorem C150_api : forall r labels ann objs b rest, stem (v_prefix r) b -> installed r labels ann objs -> ~ starts (b_ "clusters/") rest ->
  web r objs (b ++ slash :: rest) = Some (r_ns r, api_name r, gateway_port, slash :: rest).
Proof.
  intros r l a objs b rest Hs Hi Hr. unfold web. fold (offered r objs (b ++ slash :: rest)).
  assert (own_router r ∈ offered r objs (b ++ slash :: rest)) as H1.
  { apply offered_iff. split; [|exists (r_ns r, own_route r); split; [apply Hi, in_chart_route|by eapply own_router_of]].
    cbn [rt_prefix own_router]. apply is_prefix_spec. destruct (stem_cases _ _ Hs) as [[-> ->]|(_ & _ & [->| ->])]; [by exists rest|by eexists|]. exists rest. by rewrite <- app_assoc. }
  pose proof (best_spec (offered r objs (b ++ slash :: rest))) as H. destruct (best _) as [x|]; [|rewrite H in H1; by apply elem_of_nil in H1].
  destruct H as [H _]. apply offered_iff in H as (Hp & no & Hin & Hx).
  destruct (router_inv _ _ _ _ _ _ _ Hs Hi Hin Hx) as [->|(ns & c & Hn & ->)].
  - cbn [mbind option_bind]. unfold own_router. cbn [rt_service rt_middlewares]. do 2 f_equal. unfold at_root.
    destruct (stem_cases _ _ Hs) as [[E ->]|(E & Hb & _)].
    + rewrite bool_decide_eq_true_2 by done. done.
    + rewrite bool_decide_eq_false_2 by done. cbn [foldl]. rewrite apply_api. unfold no_slash_end. rewrite (stem_trim _ _ Hs), is_prefix_app, drop_app. done.
  - exfalso. cbn [rt_prefix cluster_router] in Hp. apply is_prefix_spec in Hp as [t Ht]. unfold under in Ht. rewrite <- !app_assoc in Ht. apply app_inv_head in Ht.
    apply Hr. exists (full_name ns c ++ b_ "/" ++ t). change (b_ "/clusters/") with (slash :: b_ "clusters/") in Ht. cbn [app] in Ht. by injection Ht.
Qed.

(** ...a request under the path of a cluster arrives at that cluster's dashboard, without prefix
    and name... *)
Theorem C150_dashboard : forall r labels ann objs b ns c o rest, stem (v_prefix r) b -> installed r labels ann objs ->
  (ns, make_ingressroute (controller r labels ann) c ns o) ∈ objs -> named ns c ->
  web r objs (b ++ b_ "/clusters/" ++ full_name ns c ++ slash :: rest) = Some (ns, service_name c, 8787%Z, slash :: rest).
Proof.
  intros r l a objs b ns c o rest Hs Hi Hin Hn. unfold web. set (path := b ++ _). fold (offered r objs path).
  assert (path = under b ns c ++ rest) as Hpath by (unfold path, under; by rewrite <- !app_assoc).
  assert (cluster_router r b ns c ∈ offered r objs path) as H1.
  { apply offered_iff. split; [|exists (ns, make_ingressroute (controller r l a) c ns o); split; [done|by eapply cluster_router_of]]. cbn [rt_prefix cluster_router]. rewrite Hpath. apply is_prefix_app. }
  pose proof (best_spec (offered r objs path)) as H. destruct (best _) as [x|]; [|rewrite H in H1; by apply elem_of_nil in H1].
  destruct H as [H Hbest]. specialize (Hbest _ H1). apply offered_iff in H as (Hp & no & Hno & Hx).
  assert (x = cluster_router r b ns c) as ->.
  { destruct (router_inv _ _ _ _ _ _ _ Hs Hi Hno Hx) as [->|(ns' & c' & Hn' & ->)].
    - exfalso. cbn [rt_rule own_router cluster_router] in Hbest. unfold rule, under in Hbest. rewrite !app_length in Hbest. change (length (b_ "/clusters/")) with 10 in Hbest.
      destruct (stem_cases _ _ Hs) as [[E ->]|(_ & _ & [E|E])]; rewrite E in Hbest; rewrite ?app_length in Hbest; cbn [length] in Hbest; lia.
    - cbn [rt_prefix cluster_router] in Hp. rewrite Hpath in Hp. apply under_match in Hp as [-> ->]; done. }
  cbn [mbind option_bind]. unfold cluster_router. cbn [rt_service rt_middlewares foldl]. do 2 f_equal. rewrite apply_clusters.
  unfold no_slash_end. rewrite (stem_trim _ _ Hs). unfold path. destruct Hn as ([Hns _] & _ & W1 & W2). apply strip_dashboard.
  - destruct Hs as [[_ ->]|(q & _ & _ & _ & Hq & -> & _)]; [done|]. constructor; [by right; left|done].
  - unfold full_name. by destruct ns.
  - unfold full_name. apply Forall_app. split; [done|]. apply Forall_app. split; [|done]. constructor; [|done]. unfold word. vm_compute. tauto.
Qed.

(** ...in particular the address of the dashboard that the gateway gives out... *)
Corollary C150_status : forall r labels ann objs b ns c o, stem (v_prefix r) b -> installed r labels ann objs ->
  (ns, make_ingressroute (controller r labels ann) c ns o) ∈ objs -> named ns c ->
  web r objs (b ++ dashboard_route (full_name ns c)) = Some (ns, service_name c, 8787%Z, b_ "/status").
Proof. intros r l a objs b ns c o Hs Hi Hin Hn. unfold dashboard_route. change (b_ "/status") with (slash :: b_ "status"). by eapply C150_dashboard. Qed.

(** ...and a request goes nowhere else: to the gateway, or to the dashboard of the cluster in
    its path... *)
Theorem C150_only : forall r labels ann objs b path ns s port p, stem (v_prefix r) b -> installed r labels ann objs -> web r objs path = Some (ns, s, port, p) ->
  starts b path /\ ((ns = r_ns r /\ s = api_name r /\ port = gateway_port) \/
  exists c, starts (b ++ b_ "/clusters/" ++ full_name ns c ++ b_ "/") path /\ s = service_name c /\ port = 8787%Z).
Proof.
  intros r l a objs b path ns s port p Hs Hi. unfold web. fold (offered r objs path). pose proof (best_spec (offered r objs path)) as H. destruct (best _) as [x|]; [|done].
  cbn [mbind option_bind]. intros [= Hsv _]. destruct H as [H _]. apply offered_iff in H as (Hp & no & Hno & Hx). apply is_prefix_spec in Hp as [t Ht].
  destruct (router_inv _ _ _ _ _ _ _ Hs Hi Hno Hx) as [->|(ns' & c' & _ & ->)].
  - cbn [rt_service own_router rt_prefix] in *. injection Hsv as <- <- <-. split; [|by left].
    destruct (stem_cases _ _ Hs) as [[E ->]|(_ & _ & [E|E])]; rewrite E in Ht; [by exists path|by exists t|]. exists ([slash] ++ t). by rewrite Ht, <- app_assoc.
  - cbn [rt_service cluster_router rt_prefix] in *. injection Hsv as <- <- <-. unfold under in Ht. split; [exists (b_ "/clusters/" ++ full_name ns' c' ++ b_ "/" ++ t); by rewrite Ht, <- !app_assoc|].
    right. exists c'. split; [|done]. by exists t.
Qed.

(** ...the gateway's service leads to the gateway's pods, to no other part of the installation and
    to no pod of a cluster... *)
Theorem C150_pods : forall r, (forall x, serves (own_service r) (own_pod r x) <-> x = b_ "gateway") /\
  (forall t ns c cf role o, keeps_labels cf role -> ~ serves (own_service r) (make_pod t ns c cf role o)).
Proof.
  intros r. split.
  - intros x. split.
    + intros (sel & Hsel & _ & Hall). injection Hsel as <-. destruct (Hall (b_ "app.kubernetes.io/component") (jstr "gateway")) as (s & [= <-] & Hc); [right; right; left|].
      unfold carries in Hc. change (Some (JStr x) = Some (JStr (b_ "gateway"))) in Hc. by injection Hc.
    + intros ->. eexists. split; [reflexivity|]. split; [done|]. intros k v H.
      repeat (apply elem_of_cons in H as [H|H]; [injection H as -> ->; eexists; split; [reflexivity|reflexivity]|]). by apply elem_of_nil in H.
  - intros t ns c cf role o Hk (sel & Hsel & _ & Hall). injection Hsel as <-. destruct (Hall (b_ "app.kubernetes.io/component") (jstr "gateway")) as (s & [= <-] & Hc); [right; right; left|].
    apply (pod_labels_in t ns c cf role o) in Hc. rewrite (pod_labels_own _ _ _ _ _ Hk) in Hc by (right; right; left). rewrite label_component in Hc. destruct role; discriminate Hc.
Qed.

(** ...schedulers and workers call the gateway at that service: its name, namespace and port... *)
Theorem C150_address : forall r labels ann, exists name, part (path ["metadata"; "name"]%string) (own_service r) = Some (JStr name) /\
  part (path ["spec"; "ports"]%string) (own_service r) = Some (JList [jobj [("port", JInt 8000); ("targetPort", JInt gateway_port)]%string]) /\
  t_url (controller r labels ann) = b_ "http://" ++ name ++ b_ "." ++ r_ns r ++ b_ ":8000/api".
Proof. intros r l a. exists (api_name r). by split_and!. Qed.

(** ...controller, gateway and proxy look for the same label, which everything made for a
    cluster has... *)
Theorem C150_watch : forall r labels ann ns c cf uid uid' x, keeps_labels cf Scheduler -> keeps_labels cf Worker ->
  let t := controller r labels ann in let obj := create t ns c cf uid uid' x in
  carries obj (b_ "gateway.dask.org/instance") (gateway_instance r) /\ selected_by (watched t) obj /\ visible r obj = true.
Proof.
  intros r l a ns c cf u u' x Hs Hw t obj.
  assert (carries obj (b_ "gateway.dask.org/instance") (fullname r)) as H.
  { assert (forall labels, labels_in obj labels -> dget (b_ "gateway.dask.org/instance") labels = Some (fullname r) -> carries obj (b_ "gateway.dask.org/instance") (fullname r)) as K by (intros d Hd; apply Hd).
    destruct x; (eapply K; [first [eapply meta_labels_in; reflexivity|apply pod_labels_in]|]); try apply (label_instance t).
    - rewrite pod_labels_own by (done || by left). apply (label_instance t).
    - rewrite pod_labels_own by (done || by left). apply (label_instance t). }
  split_and!; [done| |by apply visible_iff]. intros k v Hkv. apply elem_of_list_singleton in Hkv. injection Hkv as -> ->. exact H.
Qed.

(** ...and connections to schedulers come in at a port that Traefik listens on and its service
    leads to: the web port if the two are shared, else the one given. *)
Theorem C150_tcp : forall r labels ann, exists port, (t_tcp (controller r labels ann), port) ∈ entrypoints r /\
  (v_tcp_port r = b_ "web" -> (dec (v_web_port r), port) ∈ exposed r) /\ (v_tcp_port r <> b_ "web" -> (v_tcp_port r, port) ∈ exposed r).
Proof.
  intros r l a. unfold controller, entrypoints, exposed, tcp_shared. cbn [t_tcp]. destruct (decide (v_tcp_port r = b_ "web")) as [E|E].
  - rewrite bool_decide_eq_true_2 by done. exists 8000%Z. split_and!; [right; left|intros _; left|done].
  - rewrite bool_decide_eq_false_2 by done. exists 8786%Z. split_and!; [do 2 right; left|done|intros _; right; left].
Qed.

(** A prefix the chart accepts but that does not fit: a plus sign has a meaning in regular
    expressions, and the dashboard gets the whole path; without the slash in front nothing
    is served. *)
Definition gw (prefix : string) : release := Release (b_ "prod") (b_ "gw") [] [] (b_ prefix) 80 (b_ "web").
Definition objects (r : release) : list (bytes * json) := chart_objects r ++ [(b_ "users", make_ingressroute (controller r [] []) (b_ "abc1") (b_ "users") (by_scheduler (b_ "abc1") []))].
Lemma objects_installed r : installed r [] [] (objects r).
Proof.
  split; [intros no H; apply elem_of_app; by left|]. intros ns obj [H|H]%elem_of_app _ _; [by left|]. apply elem_of_list_singleton in H. injection H as -> ->. right. eexists _, _. split; [|reflexivity].
  unfold named, name_ok. split_and!; try done; try (apply (bool_decide_unpack _); vm_compute; exact I); repeat (constructor; [unfold word; vm_compute; lia|]); constructor.
Qed.
Theorem C150_prefix_refuted : 
  web (gw "/a+b") (objects (gw "/a+b")) (b_ "/a+b/clusters/users.abc1/status") = Some (b_ "users", b_ "dask-abc1", 8787%Z, b_ "/a+b/clusters/users.abc1/status") /\
  (forall path p, web (gw "dask") (objects (gw "dask")) path = Some p -> snd (fst (fst p)) = b_ "dask-abc1").
Proof.
  split; [vm_compute; reflexivity|]. intros path p. unfold web. fold (offered (gw "dask") (objects (gw "dask")) path). pose proof (best_spec (offered (gw "dask") (objects (gw "dask")) path)) as H.
  destruct (best _) as [x|]; [|done]. destruct H as [H _]. apply offered_iff in H as (_ & no & Hno & Hx). cbn [mbind option_bind]. intros [= <-]. cbn [fst].
  repeat (apply elem_of_cons in Hno as [->|Hno]; [vm_compute in Hx; first [discriminate Hx|injection Hx as <-; reflexivity]|]). by apply elem_of_nil in Hno.
Qed.

(** An installation under /services/dask/ with one cluster. *)
Example C150_example : let r := gw "/services/dask/" in stem (v_prefix r) (b_ "/services/dask") /\ installed r [] [] (objects r) /\
  web r (objects r) (b_ "/services/dask/api/v1/clusters/") = Some (b_ "gw", b_ "api-prod-dask-gateway", 8000%Z, b_ "/api/v1/clusters/") /\
  web r (objects r) (b_ "/services/dask/clusters/users.abc1/status") = Some (b_ "users", b_ "dask-abc1", 8787%Z, b_ "/status") /\
  web r (objects r) (b_ "/other") = None.
Proof.
  split.
  { right. exists (b_ "services/dask"). split_and!; [done..| |reflexivity|right; reflexivity].
    repeat (constructor; [first [right; left; reflexivity|left; unfold word; vm_compute; lia]|]); constructor. }
  split; [apply objects_installed|]. split_and!; vm_compute; reflexivity.
Qed.

Print Assumptions C150_api.
Print Assumptions C150_dashboard.
Print Assumptions C150_status.
Print Assumptions C150_only.
Print Assumptions C150_pods.
Print Assumptions C150_address.
Print Assumptions C150_watch.
Print Assumptions C150_tcp.
Print Assumptions C150_prefix_refuted.
