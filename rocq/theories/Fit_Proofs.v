(** Proofs for C150. *)
From Coq Require Import Ascii String ZArith Lia.
From stdpp Require Import prelude.
From Verif Require Import Router_Model ProxyLog_Model Json_Model Util_Model Launch_Model Manifest_Model Manifest_Spec Manifest_Proofs Fit_Model Fit_Spec.
Local Open Scope nat_scope.

(** * Text *)
Lemma is_prefix_app a s : is_prefix a (a ++ s) = true.
Proof. induction a as [|x a IH]; [done|]. cbn [is_prefix app]. by rewrite bool_decide_eq_true_2. Qed.
Lemma is_prefix_spec a s : is_prefix a s = true <-> exists t, s = a ++ t.
Proof.
  split; [|intros [t ->]; apply is_prefix_app]. revert s. induction a as [|x a IH]; intros s; [by exists s|]. destruct s as [|y s]; [done|]. cbn [is_prefix].
  intros [E H]%andb_true_iff. apply bool_decide_eq_true in E as ->. apply IH in H as [t ->]. by exists t.
Qed.
Lemma drop_end_app a e : drop_end e (a ++ e) = a.
Proof. unfold drop_end. rewrite app_length. replace (length a + length e - length e) with (length a) by lia. apply take_app. Qed.
Lemma trim_suffix_cases x s : (trim_suffix x s = s /\ last s <> Some x) \/ s = trim_suffix x s ++ [x].
Proof.
  unfold trim_suffix. destruct (rev s) as [|y t] eqn:E.
  - apply (f_equal (@rev ascii)) in E. rewrite rev_involutive in E. subst s. by left.
  - apply (f_equal (@rev ascii)) in E. rewrite rev_involutive in E. cbn [rev] in E. subst s. destruct (decide (x = y)) as [->|Hn]; [by right|left; split; [done|]].
    rewrite last_snoc. congruence.
Qed.
Lemma trim_suffix_snoc x s : trim_suffix x (s ++ [x]) = s.
Proof. unfold trim_suffix. rewrite rev_app_distr. cbn [rev app]. rewrite decide_True by done. apply rev_involutive. Qed.
Lemma trim_suffix_id x s : last s <> Some x -> trim_suffix x s = s.
Proof. intros H. destruct (trim_suffix_cases x s) as [[? _]|E]; [done|]. rewrite E, last_snoc in H. done. Qed.
Lemma short_head x y s : exists t, short (x :: y :: s) = x :: t.
Proof.
  unfold short, trunc. change (take 63 (x :: y :: s)) with (x :: y :: take 61 s). destruct (trim_suffix_cases "-"%char (x :: y :: take 61 s)) as [[-> _]|E]; [eauto|].
  destruct (trim_suffix "-"%char (x :: y :: take 61 s)) as [|z t]; [done|]. cbn [app] in E. injection E as <- _. eauto.
Qed.
Lemma names_differ r : clusters_prefix_name r <> api_prefix_name r.
Proof.
  unfold clusters_prefix_name, api_prefix_name. destruct (short_head "c"%char "l"%char (b_ "usters-prefix-" ++ fullname r)) as [t H].
  destruct (short_head "a"%char "p"%char (b_ "i-prefix-" ++ fullname r)) as [t' H'].
  change (b_ "clusters-prefix-" ++ fullname r) with ("c"%char :: "l"%char :: b_ "usters-prefix-" ++ fullname r). rewrite H.
  change (b_ "api-prefix-" ++ fullname r) with ("a"%char :: "p"%char :: b_ "i-prefix-" ++ fullname r). rewrite H'. congruence.
Qed.
Lemma strip_l_id q : head q <> Some slash -> strip_l q = q.
Proof. destruct q as [|x q]; [done|]. cbn [head]. intros H. unfold strip_l. rewrite decide_False by congruence. done. Qed.
Lemma strip_l_slash q : strip_l (slash :: q) = strip_l q. Proof. done. Qed.
Lemma stem_trim p b : stem p b -> trim_suffix slash p = b.
Proof.
  intros [[-> ->]|(q & Hq & _ & Hl & _ & -> & [->| ->])]; [done| |apply trim_suffix_snoc].
  apply trim_suffix_id. destruct q; [done|]. cbn [last] in *. done.
Qed.
Lemma head_rev (q : bytes) : head (rev q) = last q.
Proof. destruct (decide (q = [])) as [->|H]; [done|]. apply exists_last in H as (t & x & ->). rewrite rev_app_distr, last_snoc. done. Qed.
Lemma stem_valid p b : stem p b -> valid_prefix p = b.
Proof.
  intros [[-> ->]|(q & Hq & Hh & Hl & _ & -> & Hp)]; [done|].
  assert (strip_slashes p = q) as E.
  { unfold strip_slashes. destruct Hp as [->| ->].
    - rewrite strip_l_slash, (strip_l_id q) by done. rewrite strip_l_id by (by rewrite head_rev). apply rev_involutive.
    - change ((slash :: q) ++ [slash]) with (slash :: q ++ [slash]). rewrite strip_l_slash. rewrite (strip_l_id (q ++ [slash])) by (destruct q; [done|exact Hh]).
      rewrite rev_app_distr. cbn [rev app]. rewrite strip_l_slash, strip_l_id by (by rewrite head_rev). apply rev_involutive. }
  unfold valid_prefix. rewrite E. by destruct q.
Qed.
Lemma stem_slash p b : stem p b -> exists t, p = slash :: t.
Proof. intros [[-> ->]|(q & _ & _ & _ & _ & -> & [->| ->])]; eauto. Qed.
Lemma stem_cases p b : stem p b -> (p = [slash] /\ b = []) \/ (p <> [slash] /\ b <> [] /\ (p = b \/ p = b ++ [slash])).
Proof.
  intros [H|(q & Hq & _ & _ & _ & -> & Hp)]; [by left|]. right. split_and!; [|done|done]. intros ->. destruct Hp as [H|H]; destruct q; done.
Qed.

(** * The regular expression *)
Lemma pieces_plain s : "+"%char ∉ s -> pieces s = map (fun x => One (atom x)) s.
Proof.
  intros H. induction s as [|x [|y s] IH]; [done|done|]. apply not_elem_of_cons in H as [_ H].
  change (pieces (x :: y :: s)) with (if decide (y = "+"%char) then Plus (atom x) :: pieces s else One (atom x) :: pieces (y :: s)).
  rewrite decide_False by (intros ->; apply H; by left). rewrite IH by done. done.
Qed.
Lemma atom_self x : atom x x = true.
Proof. unfold atom. destruct (decide _); [done|]. by apply bool_decide_eq_true. Qed.
Lemma at_start_ones s re z fuel : length s < fuel -> at_start fuel (map (fun x => One (atom x)) s ++ re) (s ++ z) = at_start (fuel - length s) re z.
Proof.
  revert fuel. induction s as [|x s IH]; intros fuel Hf; [cbn [length map app]; by rewrite Nat.sub_0_r|].
  destruct fuel as [|fuel]; [cbn in Hf; lia|]. cbn [map app at_start length Nat.sub]. rewrite atom_self. apply IH. cbn in Hf. lia.
Qed.
Lemma at_start_plus n rest fuel : n <> [] -> Forall (fun x => letter x = true) n -> length n + 1 < fuel -> at_start fuel [Plus letter] (n ++ slash :: rest) = Some (slash :: rest).
Proof.
  revert fuel. induction n as [|x n IH]; intros fuel Hn Hl Hf; [done|]. apply Forall_cons in Hl as [Hx Hl]. cbn [length] in Hf. destruct fuel as [|[|fuel]]; [lia|lia|].
  destruct n as [|y n].
  - cbn [app at_start]. rewrite Hx. change (letter slash) with false. done.
  - change ((x :: y :: n) ++ slash :: rest) with (x :: (y :: n) ++ slash :: rest).
    change (at_start (S (S fuel)) [Plus letter] (x :: (y :: n) ++ slash :: rest)) with
      (if letter x then match at_start (S fuel) [Plus letter] ((y :: n) ++ slash :: rest) with Some z => Some z | None => at_start (S fuel) [] ((y :: n) ++ slash :: rest) end else None).
    rewrite Hx, IH; [done|done|done|cbn [length] in *; lia].
Qed.
Lemma word_letter x : word x -> letter x = true.
Proof. unfold word, letter. intros H. rewrite !orb_true_iff, !andb_true_iff, !Nat.leb_le, !Nat.eqb_eq. tauto. Qed.
Lemma plain_plus l : Forall plain l -> "+"%char ∉ l.
Proof.
  intros H Hin. rewrite Forall_forall in H. apply H in Hin. destruct Hin as [Hw|[?|[?|?]]]; [|done..]. apply word_letter in Hw. done.
Qed.
Lemma strip_dashboard b n rest : Forall plain b -> n <> [] -> Forall word n ->
  match find_match (compiled (b ++ b_ "/clusters/[a-zA-Z0-9.-]+")) (b ++ b_ "/clusters/" ++ n ++ slash :: rest) with
  | Some ((_ :: _) as w) => if is_prefix w (b ++ b_ "/clusters/" ++ n ++ slash :: rest) then lead (drop (length w) (b ++ b_ "/clusters/" ++ n ++ slash :: rest)) else b ++ b_ "/clusters/" ++ n ++ slash :: rest
  | _ => b ++ b_ "/clusters/" ++ n ++ slash :: rest
  end = slash :: rest.
Proof.
  intros Hb Hn Hw. unfold compiled. change (b_ "/clusters/[a-zA-Z0-9.-]+") with (b_ "/clusters/" ++ class_text). rewrite app_assoc, drop_end_app.
  set (q := b ++ b_ "/clusters/").
  assert ("+"%char ∉ q) as Hq. { unfold q. rewrite elem_of_app. intros [H|H]; [by apply plain_plus in Hb|]. revert H. apply (bool_decide_unpack _). vm_compute. exact I. }
  replace (b ++ b_ "/clusters/" ++ n ++ slash :: rest) with (q ++ n ++ slash :: rest) by (unfold q; by rewrite <- app_assoc).
  assert (0 < length q) as Hlen by (unfold q; rewrite app_length; cbn; lia).
  rewrite pieces_plain by done. set (re := map _ q ++ [Plus letter]).
  assert (at_start (S (length re + length (q ++ n ++ slash :: rest))) re (q ++ n ++ slash :: rest) = Some (slash :: rest)) as E.
  { unfold re. rewrite at_start_ones by (rewrite !app_length; lia). apply at_start_plus; [done|eapply Forall_impl; [exact Hw|apply word_letter]|]. rewrite !app_length. cbn [length]. lia. }
  assert (find_match re (q ++ n ++ slash :: rest) = Some (q ++ n)) as F.
  { destruct (q ++ n ++ slash :: rest) as [|x s] eqn:Es; [by destruct q|]. unfold find_match; fold find_match. rewrite E. rewrite <- Es. f_equal.
    replace (length (q ++ n ++ slash :: rest) - length (slash :: rest)) with (length (q ++ n)) by (rewrite !app_length; cbn [length]; lia).
    rewrite app_assoc. apply take_app. }
  rewrite F. destruct (q ++ n) as [|x w] eqn:Ew; [by destruct q|]. rewrite <- Ew. clear Ew x w F E.
  rewrite app_assoc. rewrite is_prefix_app, drop_app. done.
Qed.

(** * Objects *)
Lemma visible_iff r obj : visible r obj = true <-> carries obj (b_ "gateway.dask.org/instance") (fullname r).
Proof. unfold visible. rewrite bool_decide_eq_true. apply (label_iff "gateway.dask.org/instance"). Qed.
Lemma is_kind_iff k obj : is_kind k obj = true <-> field "kind" obj = Some (jstr k).
Proof.
  unfold is_kind, jstr. destruct (field "kind" obj) as [[| | | |s| |]|]; try (split; [done|congruence]). rewrite bool_decide_eq_true. split; [by intros ->|congruence].
Qed.
Lemma chart_visible r no : no ∈ chart_objects r -> visible r (snd no) = true.
Proof.
  unfold chart_objects. intros (obj & -> & H)%elem_of_list_fmap. cbn [snd]. unfold visible. apply bool_decide_eq_true.
  apply elem_of_app in H as [H|H].
  - repeat (apply elem_of_cons in H as [->|H]; [reflexivity|]). by apply elem_of_nil in H.
  - destruct (at_root r); [by apply elem_of_nil in H|]. apply elem_of_list_singleton in H as ->. reflexivity.
Qed.
Lemma route_visible r l a c ns o : visible r (make_ingressroute (controller r l a) c ns o) = true.
Proof.
  apply visible_iff. assert (labels_in (make_ingressroute (controller r l a) c ns o) (get_labels (controller r l a) c (Some (b_ "dask-scheduler")))) as H by (eapply meta_labels_in; reflexivity).
  apply H. by rewrite label_instance.
Qed.
Lemma chart_middlewares r ns obj : (ns, obj) ∈ chart_objects r -> field "kind" obj = Some (jstr "Middleware") ->
  ns = r_ns r /\ (obj = clusters_middleware r \/ (at_root r = false /\ obj = api_middleware r)).
Proof.
  unfold chart_objects. intros (x & [= -> ->] & H)%elem_of_list_fmap Hk. split; [done|]. apply elem_of_app in H as [H|H].
  - apply elem_of_cons in H as [->|H]; [done|]. apply elem_of_cons in H as [->|H]; [done|]. apply elem_of_list_singleton in H as ->. by left.
  - destruct (at_root r); [by apply elem_of_nil in H|]. apply elem_of_list_singleton in H as ->. by right.
Qed.
Lemma chart_routes r ns obj : (ns, obj) ∈ chart_objects r -> field "kind" obj = Some (jstr "IngressRoute") -> ns = r_ns r /\ obj = own_route r.
Proof.
  unfold chart_objects. intros (x & [= -> ->] & H)%elem_of_list_fmap Hk. split; [done|]. apply elem_of_app in H as [H|H].
  - apply elem_of_cons in H as [->|H]; [done|]. apply elem_of_cons in H as [->|H]; [done|]. apply elem_of_list_singleton in H as ->. done.
  - destruct (at_root r); [by apply elem_of_nil in H|]. apply elem_of_list_singleton in H as ->. done.
Qed.
Lemma in_chart_route r : (r_ns r, own_route r) ∈ chart_objects r.
Proof. unfold chart_objects. apply elem_of_list_fmap. eexists. split; [done|]. apply elem_of_app. left. right. left. Qed.
Lemma in_chart_clusters r : (r_ns r, clusters_middleware r) ∈ chart_objects r.
Proof. unfold chart_objects. apply elem_of_list_fmap. eexists. split; [done|]. apply elem_of_app. left. right. right. left. Qed.
Lemma in_chart_api r : at_root r = false -> (r_ns r, api_middleware r) ∈ chart_objects r.
Proof. intros E. unfold chart_objects. apply elem_of_list_fmap. eexists. split; [done|]. apply elem_of_app. right. rewrite E. left. Qed.

Lemma find_clusters r l a objs : installed r l a objs -> find_middleware r objs (r_ns r) (clusters_prefix_name r) = Some (clusters_middleware r) /\
  (at_root r = false -> find_middleware r objs (r_ns r) (api_prefix_name r) = Some (api_middleware r)).
Proof.
  intros [Hc Hi].
  assert (forall name m, (r_ns r, m) ∈ objs -> visible r m = true -> is_kind "Middleware" m = true -> name_of m = Some name ->
    exists x, find_middleware r objs (r_ns r) name = Some x /\ name_of x = Some name /\ (x = clusters_middleware r \/ (at_root r = false /\ x = api_middleware r))) as K.
  { intros name m Hm Hv Hk Hn. unfold find_middleware.
    destruct (List.find _ objs) as [[ns x]|] eqn:E.
    - apply find_some in E as [Hin E]. apply elem_of_list_In in Hin. cbn [fst snd] in E. rewrite !andb_true_iff in E. destruct E as [[[Hv' Hk'] Hns] Hn'].
      apply bool_decide_eq_true in Hns as ->. apply bool_decide_eq_true in Hn'. apply visible_iff in Hv'. apply is_kind_iff in Hk'.
      exists x. split_and!; [done|done|]. destruct (Hi _ _ Hin (or_intror Hk') Hv') as [H|(c & o & _ & ->)]; [|done]. by eapply chart_middlewares.
    - exfalso. eapply find_none in E; [|apply elem_of_list_In; exact Hm]. cbn [fst snd] in E. rewrite Hv, Hk, !bool_decide_eq_true_2 in E by done. done. }
  assert (name_of (clusters_middleware r) = Some (clusters_prefix_name r)) as N1 by reflexivity.
  assert (name_of (api_middleware r) = Some (api_prefix_name r)) as N2 by reflexivity.
  pose proof (names_differ r) as Hd. split.
  - destruct (K (clusters_prefix_name r) (clusters_middleware r)) as (x & -> & Hx & [->|[_ ->]]); [apply Hc, in_chart_clusters|apply (chart_visible r (_, _) (in_chart_clusters r))|reflexivity|done|done|congruence].
  - intros Hr. destruct (K (api_prefix_name r) (api_middleware r)) as (x & -> & Hx & [->|[_ ->]]); [apply Hc, in_chart_api, Hr|apply (chart_visible r (_, _) (in_chart_api r Hr))|reflexivity|done|congruence|done].
Qed.

(** * Routers *)
Definition rule (p : bytes) : bytes := b_ "PathPrefix(`" ++ p ++ b_ "`)".
Lemma rule_prefix_rule p : is_prefix [slash] p = true -> rule_prefix (rule p) = Some p.
Proof. intros H. unfold rule_prefix, rule. rewrite is_prefix_app, drop_app, drop_end_app, H. done. Qed.
Definition own_router (r : release) : router := Route (rule (v_prefix r)) (v_prefix r) (r_ns r, api_name r, 8000%Z) (if at_root r then [] else [api_middleware r]).
Definition under (b ns c : bytes) : bytes := b ++ b_ "/clusters/" ++ full_name ns c ++ b_ "/".
Definition cluster_router (r : release) (b ns c : bytes) : router := Route (rule (under b ns c)) (under b ns c) (ns, service_name c, 8787%Z) [clusters_middleware r].

Lemma own_router_of r l a objs b : stem (v_prefix r) b -> installed r l a objs -> router_of r objs (b_ "web") (r_ns r, own_route r) = Some (own_router r).
Proof.
  intros Hs Hi. destruct (find_clusters _ _ _ _ Hi) as [_ Hf].
  transitivity (if visible r (own_route r) && is_kind "IngressRoute" (own_route r) then
    p ← rule_prefix (rule (v_prefix r)); ms ← all_some (map (fun j => name ← text (field "name" j); find_middleware r objs (default (r_ns r) (text (field "namespace" j))) name) (if at_root r then [] else [jobj [("name"%string, JStr (api_prefix_name r))]]));
    Some (Route (rule (v_prefix r)) p (r_ns r, api_name r, 8000%Z) ms) else None); [reflexivity|].
  assert (visible r (own_route r) = true) as -> by exact (chart_visible r (_, _) (in_chart_route r)). change (is_kind "IngressRoute" (own_route r)) with true. cbn [andb].
  destruct (stem_slash _ _ Hs) as [t Ht]. rewrite rule_prefix_rule by (by rewrite Ht). cbn [mbind option_bind]. unfold own_router.
  destruct (at_root r) eqn:Er; [done|]. cbn [map]. change (text (field "name" _)) with (Some (api_prefix_name r)). change (text (field "namespace" _)) with (@None bytes).
  cbn [mbind option_bind default]. rewrite Hf by done. done.
Qed.
Lemma cluster_router_of r l a objs b ns c o : stem (v_prefix r) b -> installed r l a objs ->
  router_of r objs (b_ "web") (ns, make_ingressroute (controller r l a) c ns o) = Some (cluster_router r b ns c).
Proof.
  intros Hs Hi. destruct (find_clusters _ _ _ _ Hi) as [Hf _].
  transitivity (if visible r (make_ingressroute (controller r l a) c ns o) && is_kind "IngressRoute" (make_ingressroute (controller r l a) c ns o) then
    p ← rule_prefix (rule (under (valid_prefix (v_prefix r)) ns c)); ms ← all_some [find_middleware r objs (r_ns r) (clusters_prefix_name r)];
    Some (Route (rule (under (valid_prefix (v_prefix r)) ns c)) p (ns, service_name c, 8787%Z) ms) else None); [reflexivity|].
  rewrite route_visible. change (is_kind "IngressRoute" (make_ingressroute (controller r l a) c ns o)) with true. cbn [andb].
  rewrite (stem_valid _ _ Hs). rewrite rule_prefix_rule, Hf; [done|].
  unfold under. destruct Hs as [[_ ->]|(q & _ & _ & _ & _ & -> & _)]; done.
Qed.
Lemma router_inv r l a objs b no x : stem (v_prefix r) b -> installed r l a objs -> no ∈ objs -> router_of r objs (b_ "web") no = Some x ->
  x = own_router r \/ exists ns c, named ns c /\ x = cluster_router r b ns c.
Proof.
  intros Hs Hi Hin H. destruct no as [ns obj]. destruct (visible r obj) eqn:Hv; [|cbn [router_of] in H; by rewrite Hv in H].
  destruct (is_kind "IngressRoute" obj) eqn:Hk; [|cbn [router_of] in H; by rewrite Hv, Hk in H].
  apply visible_iff in Hv. apply is_kind_iff in Hk. destruct Hi as [Hc Hi0]. assert (installed r l a objs) as Hi by done.
  destruct (Hi0 _ _ Hin (or_introl Hk) Hv) as [H1|(c & o & Hn & ->)].
  - apply chart_routes in H1 as [-> ->]; [|done]. rewrite (own_router_of _ _ _ _ _ Hs Hi) in H. injection H as <-. by left.
  - rewrite (cluster_router_of _ _ _ _ _ _ _ _ Hs Hi) in H. injection H as <-. right. eauto.
Qed.

(** * Choice *)
Lemma best_spec l : match best l with Some x => x ∈ l /\ (forall y, y ∈ l -> length (rt_rule y) <= length (rt_rule x)) | None => l = [] end.
Proof.
  induction l as [|x l IH]; [done|]. cbn [best foldr]. fold (best l). destruct (best l) as [y|].
  - destruct IH as [H1 H2]. destruct (length (rt_rule y) <=? length (rt_rule x)) eqn:E.
    + apply Nat.leb_le in E. split; [by left|]. intros z [->|Hz]%elem_of_cons; [done|]. specialize (H2 z Hz). lia.
    + apply Nat.leb_gt in E. split; [by right|]. intros z [->|Hz]%elem_of_cons; [lia|]. by apply H2.
  - subst l. split; [by left|]. by intros z ->%elem_of_list_singleton.
Qed.
Definition offered (r : release) (objs : list (bytes * json)) (path : bytes) : list router :=
  List.filter (fun x => is_prefix (rt_prefix x) path) (omap (router_of r objs (b_ "web")) objs).
Lemma offered_iff r objs path x : x ∈ offered r objs path <-> is_prefix (rt_prefix x) path = true /\ exists no, no ∈ objs /\ router_of r objs (b_ "web") no = Some x.
Proof.
  unfold offered. rewrite elem_of_list_In, filter_In, <- elem_of_list_In, elem_of_list_omap. tauto.
Qed.
Lemma under_match b ns c ns' c' rest : named ns c -> named ns' c' -> is_prefix (under b ns' c') (under b ns c ++ rest) = true -> ns' = ns /\ c' = c.
Proof.
  intros (H1 & H2 & _) (H3 & H4 & _) [t Ht]%is_prefix_spec. unfold under in Ht. rewrite <- !app_assoc in Ht. apply app_inv_head in Ht. apply app_inv_head in Ht.
  change (b_ "/" ++ rest) with (slash :: rest) in Ht. change (b_ "/" ++ t) with (slash :: t) in Ht.
  apply app_sep_inj in Ht as [E _]; [|by apply full_no_slash..]. apply full_name_inj in E as [-> ->]; done.
Qed.
