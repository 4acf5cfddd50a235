From Coq Require Import Ascii String ZArith Lia Sorted.
From stdpp Require Import prelude.
From Verif Require Import Router_Model ProxyLog_Model ProxyLog_Proofs Json_Model Api_Model Chart_Model Chart_Spec.
From Verif Require Manifest_Model Manifest_Proofs Launch_Model Launch_Proofs.
Local Open Scope Z_scope.

(** * Paths *)
Fixpoint lk (v : json) (p : list bytes) : option json :=
  match p with
  | [] => Some v
  | k :: q => match v with JObj o => match dget k o with Some v' => lk v' q | None => None end | _ => None end
  end.
Lemma lookup_lk v p : lookup v p = default JNull (lk v p).
Proof. revert v. induction p as [|k q IH]; intros v; [done|]. cbn [lookup lk]. destruct v; try done. destruct (dget k o); [apply IH|done]. Qed.
Lemma dget_In (k : bytes) (v : json) o : dget k o = Some v -> In (k, v) o.
Proof.
  induction o as [|[k' v'] o IH]; cbn [dget]; [done|]. destruct (decide (k = k')) as [->|].
  - intros [= ->]. by left.
  - intros H. right. by apply IH.
Qed.
Lemma In_dget (k : bytes) (v : json) o : NoDup (map fst o) -> In (k, v) o -> dget k o = Some v.
Proof.
  induction o as [|[k' v'] o IH]; cbn [dget map fst]; [done|]. intros [Hn Hd]%NoDup_cons [E|E].
  - injection E as -> ->. by rewrite decide_True.
  - destruct (decide (k = k')) as [->|]; [|by apply IH]. exfalso. apply Hn. apply elem_of_list_In. apply in_map_iff. by exists (k', v).
Qed.
Lemma lk_found v p x : lk v p = Some x -> found v p x.
Proof.
  revert v. induction p as [|k q IH]; intros v; cbn [lk]; [intros [= ->]; constructor|].
  destruct v; try done. destruct (dget k o) as [v'|] eqn:E; [|done]. intros H. econstructor; [by apply dget_In|by apply IH].
Qed.
Lemma found_lk v p x : proper v -> found v p x -> lk v p = Some x.
Proof.
  intros Hp H. induction H as [v|o k v p x HI H IH]; [done|]. cbn [lk].
  inversion Hp as [o' Hd Hs|v' Hn]; subst; [|by destruct (Hn o)].
  rewrite (In_dget k v o) by done. apply IH. by apply (Hs k).
Qed.
Lemma found_iff v p x : proper v -> found v p x <-> lk v p = Some x.
Proof. intros H. split; [by apply found_lk|apply lk_found]. Qed.

(** * What is forwarded *)
Lemma dget_ddel (k k' : bytes) (o : list (bytes * json)) : dget k (ddel k' o) = if decide (k = k') then None else dget k o.
Proof.
  induction o as [|[a v] o IH]; cbn [ddel dget]; [by destruct (decide _)|].
  destruct (decide (k' = a)) as [->|Ha].
  - rewrite IH. destruct (decide (k = a)); done.
  - cbn [dget]. rewrite IH. destruct (decide (k = a)) as [->|]; [|done]. by rewrite decide_False.
Qed.
Lemma In_ddel (k k' : bytes) (v : json) o : In (k, v) (ddel k' o) -> In (k, v) o.
Proof.
  induction o as [|[a b] o IH]; cbn [ddel]; [done|]. destruct (decide (k' = a)); [intros H; right; by apply IH|].
  intros [H|H]; [by left|right; by apply IH].
Qed.
Lemma In_dset (k k' : bytes) (v x : json) o : In (k, v) (dset k' x o) -> In (k, v) o \/ v = x.
Proof.
  induction o as [|[a b] o IH]; cbn [dset].
  - intros [[= _ ->]|[]]. by right.
  - destruct (decide (k' = a)); intros [H|H].
    + injection H as _ ->. by right.
    + left. by right.
    + left. by left.
    + destruct (IH H); [left; by right|by right].
Qed.
Lemma keys_ddel (k' : bytes) (o : list (bytes * json)) : NoDup (map fst o) -> NoDup (map fst (ddel k' o)).
Proof.
  induction o as [|[a b] o IH]; cbn [ddel map fst]; [done|]. intros [Hn Hd]%NoDup_cons. destruct (decide (k' = a)); [by apply IH|].
  cbn [map fst]. apply NoDup_cons. split; [|by apply IH]. intros H. apply Hn. apply elem_of_list_In in H. apply in_map_iff in H as ([c d] & <- & H).
  apply elem_of_list_In, in_map_iff. exists (c, d). split; [done|]. by apply In_ddel in H.
Qed.
Lemma keys_dset (k' : bytes) (x : json) o : NoDup (map fst o) -> NoDup (map fst (dset k' x o)).
Proof.
  induction o as [|[a b] o IH]; cbn [dset map fst]; intros H; [by apply NoDup_singleton|]. apply NoDup_cons in H as [Hn Hd].
  destruct (decide (k' = a)) as [->|Hk]; cbn [map fst]; apply NoDup_cons; (split; [|by (done || apply IH)]); [done|].
  intros H. apply Hn. clear -H Hk. induction o as [|[c d] o IH]; cbn [dset map fst] in *.
  - apply elem_of_list_singleton in H. by destruct Hk.
  - destruct (decide (k' = c)) as [->|]; cbn [map fst] in *; [done|]. apply elem_of_cons in H as [->|H]; [left|right; by apply IH].
Qed.
Lemma proper_obj_inv o : proper (JObj o) -> NoDup (map fst o) /\ forall k v, In (k, v) o -> proper v.
Proof. intros H. inversion H as [o' Hd Hs|v Hn]; subst; [done|by destruct (Hn o)]. Qed.
Lemma proper_dget o k v : proper (JObj o) -> dget k o = Some v -> proper v.
Proof. intros [_ H]%proper_obj_inv E%dget_In. by apply (H k). Qed.
Lemma proper_ddel k o : proper (JObj o) -> proper (JObj (ddel k o)).
Proof. intros [Hd Hs]%proper_obj_inv. constructor; [by apply keys_ddel|]. intros k' v H%In_ddel. by apply (Hs k'). Qed.
Lemma proper_dset k x o : proper (JObj o) -> proper x -> proper (JObj (dset k x o)).
Proof. intros [Hd Hs]%proper_obj_inv Hx. constructor; [by apply keys_dset|]. intros k' v [H| ->]%In_dset; [by apply (Hs k')|done]. Qed.
Lemma proper_one k x : proper x -> proper (JObj [(k, x)]).
Proof. intros H. constructor; [apply NoDup_singleton|]. by intros k' v [[= _ <-]|[]]. Qed.

Lemma forwarded_inv v p : forwarded v = Some p -> exists g a h,
  dget (b_ "gateway") v = Some (JObj g) /\ dget (b_ "auth") g = Some (JObj a) /\ dget (b_ "jupyterhub") a = Some (JObj h) /\
  p = JObj [(b_ "gateway", JObj (if truthy (jget (b_ "apiToken") JNull h)
        then dset (b_ "auth") (JObj (dset (b_ "jupyterhub") (JObj (ddel (b_ "apiToken") h)) a)) (ddel (b_ "extraConfig") g) else ddel (b_ "extraConfig") g))].
Proof.
  unfold forwarded. destruct (dget (b_ "gateway") v) as [[| | | | | |g]|] eqn:Eg; try done. rewrite dget_ddel. rewrite decide_False by done.
  destruct (dget (b_ "auth") g) as [[| | | | | |a]|] eqn:Ea; try done.
  destruct (dget (b_ "jupyterhub") a) as [[| | | | | |h]|] eqn:Eh; try done. intros [= <-]. exists g, a, h. done.
Qed.
Lemma forwarded_proper v p : proper (JObj v) -> forwarded v = Some p -> proper p.
Proof.
  intros Hv (g & a & h & Eg & Ea & Eh & ->)%forwarded_inv.
  pose proof (proper_dget _ _ _ Hv Eg) as Hg. pose proof (proper_dget _ _ _ Hg Ea) as Ha. pose proof (proper_dget _ _ _ Ha Eh) as Hh.
  apply proper_one. destruct (truthy _); [apply proper_dset|]; try by apply proper_ddel. apply proper_dset; [done|by apply proper_ddel].
Qed.
Lemma lk_cons o k q : lk (JObj o) (k :: q) = dget k o ≫= fun v => lk v q.
Proof. cbn [lk]. by destruct (dget k o). Qed.
Lemma forwarded_lk v p path : forwarded v = Some p -> apart path -> lk p path = lk (JObj v) path.
Proof.
  intros (g & a & h & Eg & Ea & Eh & ->)%forwarded_inv ((k & q & -> & Hk) & H1 & H2).
  rewrite !lk_cons, Eg. cbn [dget]. rewrite decide_True by done. cbn [mbind option_bind]. rewrite !lk_cons.
  destruct (truthy _).
  2: { rewrite dget_ddel. by rewrite decide_False. }
  rewrite dget_dset. destruct (decide (k = b_ "auth")) as [->|Hka].
  2: { rewrite dget_ddel. by rewrite decide_False. }
  rewrite Ea. cbn [mbind option_bind]. destruct q as [|k3 q]; [by destruct (H1 [b_ "jupyterhub"; b_ "apiToken"])|].
  rewrite !lk_cons, dget_dset. destruct (decide (k3 = b_ "jupyterhub")) as [->|]; [|done].
  rewrite Eh. cbn [mbind option_bind]. destruct q as [|k4 q]; [by destruct (H1 [b_ "apiToken"])|].
  rewrite !lk_cons, dget_ddel. destruct (decide (k4 = b_ "apiToken")) as [->|]; [|done]. by destruct (H2 q).
Qed.
Lemma forwarded_token v p q x : forwarded v = Some p -> lk p (token_path ++ q) = Some x -> truthy x = false.
Proof.
  intros (g & a & h & Eg & Ea & Eh & ->)%forwarded_inv. unfold token_path. cbn [map app]. rewrite !lk_cons.
  cbn [dget]. rewrite decide_True by done. cbn [mbind option_bind]. rewrite lk_cons. destruct (truthy (jget _ _ _)) eqn:Et.
  - rewrite dget_dset. rewrite decide_True by done. cbn [mbind option_bind]. rewrite lk_cons, dget_dset. rewrite decide_True by done.
    cbn [mbind option_bind]. rewrite lk_cons, dget_ddel. rewrite decide_True by done. done.
  - rewrite dget_ddel. rewrite decide_False by done. rewrite Ea. cbn [mbind option_bind]. rewrite lk_cons, Eh. cbn [mbind option_bind].
    rewrite lk_cons. unfold jget in Et. destruct (dget (b_ "apiToken") h) as [y|]; [|done]. cbn [default mbind option_bind] in *.
    destruct q as [|k q]; [by intros [= <-]|]. cbn [lk]. destruct y; try done. destruct o as [|[] o]; [|done]. done.
Qed.
Lemma forwarded_extra v p q : forwarded v = Some p -> lk p (b_ "gateway" :: b_ "extraConfig" :: q) = None.
Proof.
  intros (g & a & h & Eg & Ea & Eh & ->)%forwarded_inv. rewrite !lk_cons. cbn [dget]. rewrite decide_True by done. cbn [mbind option_bind].
  rewrite lk_cons. destruct (truthy _); rewrite ?dget_dset, ?(decide_False (P := b_ "extraConfig" = b_ "auth")) by done; rewrite dget_ddel; by rewrite decide_True.
Qed.
Lemma forwarded_gateway v p k q : forwarded v = Some p -> k <> b_ "gateway" -> lk p (k :: q) = None.
Proof. intros (g & a & h & Eg & Ea & Eh & ->)%forwarded_inv Hk. rewrite lk_cons. cbn [dget]. by rewrite decide_False. Qed.

(** * Properties *)
Lemma property v p key path : forwarded v = Some p -> Manifest_Model.split_dot key = map b_ path -> apart (map b_ path) ->
  get_property p key = default JNull (lk (JObj v) (map b_ path)).
Proof. intros Hf Hs Ha. unfold get_property. rewrite Hs, lookup_lk. by rewrite (forwarded_lk v p). Qed.
Lemma given_lk v path x : proper v -> given v path x <-> default JNull (lk v (map b_ path)) = x /\ x <> JNull.
Proof.
  intros Hp. unfold given. rewrite (found_iff v) by done. destruct (lk v (map b_ path)) as [y|]; cbn [default]; split.
  - intros [[= ->] H2]. done.
  - intros [E H2]. change (y = x) in E. by subst y.
  - intros [H1 _]. done.
  - intros [<- H2]. done.
Qed.
Lemma unset_lk v path : proper v -> unset v path <-> default JNull (lk v (map b_ path)) = JNull.
Proof.
  intros Hp. unfold unset. split.
  - intros H. destruct (default JNull (lk v (map b_ path))) eqn:E; [done|..]; exfalso; eapply H; (apply given_lk; [done|]); (split; [exact E|done]).
  - intros E x H%given_lk; [|done]. destruct H as [<- H]. done.
Qed.

(** * Fields *)
Lemma forward_none p rows c f : f ∉ map (fun r => b_ (fst r)) rows -> dget f (foldl (forward p) c rows) = dget f c.
Proof.
  revert c. induction rows as [|[a b] rows IH]; intros c; cbn [map foldl fst]; [done|]. intros [H1 H2]%not_elem_of_cons. rewrite IH by done.
  unfold forward. cbn [fst snd]. destruct (get_property _ _); [done|..]; rewrite dget_dset; by rewrite decide_False.
Qed.
Lemma forward_some p rows c f q : NoDup (map fst rows) -> (f, q) ∈ rows ->
  dget (b_ f) (foldl (forward p) c rows) = match get_property p (b_ "gateway.backend." ++ b_ q) with JNull => dget (b_ f) c | x => Some x end.
Proof.
  revert c. induction rows as [|[a b] rows IH]; intros c; cbn [map foldl fst]; [by intros _ ?%elem_of_nil|].
  intros [Hn Hd]%NoDup_cons [E|E]%elem_of_cons.
  - injection E as <- <-. rewrite forward_none.
    + unfold forward. cbn [fst snd]. destruct (get_property _ _); [done|..]; rewrite dget_dset; by rewrite decide_True.
    + intros H. apply elem_of_list_In, in_map_iff in H as ([a' b'] & Hab & H). cbn [fst] in Hab. apply Manifest_Proofs.b_inj in Hab as ->.
      apply Hn. apply elem_of_list_In, in_map_iff. by exists (f, b').
  - rewrite (IH _ Hd E). destruct (get_property p (b_ "gateway.backend." ++ b_ q)); try done.
    unfold forward. cbn [fst snd]. assert (a <> f) as Ha. { intros ->. apply Hn. apply elem_of_list_In, in_map_iff. exists (f, q). split; [done|]. by apply elem_of_list_In. }
    destruct (get_property _ _); [done|..]; rewrite dget_dset; (rewrite decide_False; [done|]); intros ?%Manifest_Proofs.b_inj; congruence.
Qed.
Lemma table_nodup : NoDup (map fst table).
Proof. apply (bool_decide_unpack _). vm_compute. exact I. Qed.
Lemma options_table f path : (f, path) ∈ options -> exists q, (f, q) ∈ table /\ Manifest_Model.split_dot (b_ "gateway.backend." ++ b_ q) = map b_ ("gateway"%string :: "backend"%string :: path).
Proof.
  assert (forallb (fun o => existsb (fun r => bool_decide (fst r = fst o) && bool_decide (Manifest_Model.split_dot (b_ "gateway.backend." ++ b_ (snd r)) = map b_ ("gateway"%string :: "backend"%string :: snd o))) table) options = true) as H
    by (vm_compute; reflexivity).
  intros Ho%elem_of_list_In. apply (proj1 (forallb_forall _ _) H) in Ho. apply existsb_exists in Ho as ([f' q] & Hi & He). cbn [fst snd] in He.
  apply andb_true_iff in He as [E1%bool_decide_eq_true E2%bool_decide_eq_true]. subst f'. exists q. split; [by apply elem_of_list_In|done].
Qed.
Lemma table_options : map fst table ≡ₚ map fst options.
Proof. apply (bool_decide_unpack _). vm_compute. exact I. Qed.
Lemma apart_backend path : apart (map b_ ("gateway"%string :: "backend"%string :: path)).
Proof.
  split; [eexists _, _; split; [reflexivity|done]|]. split; intros q; unfold token_path; cbn [map app]; intros H; injection H; intros; done.
Qed.
Lemma image_keys sh p f : f <> b_ "image" -> f <> b_ "image_pull_secrets" -> dget f (image_part sh p) = None.
Proof. intros H1 H2. unfold image_part. destruct (truthy _); [|done]. cbn [dget]. by rewrite !decide_False. Qed.
Lemma options_image f path : (f, path) ∈ options -> b_ f <> b_ "image" /\ b_ f <> b_ "image_pull_secrets".
Proof.
  assert (forallb (fun o => bool_decide (b_ (fst o) <> b_ "image") && bool_decide (b_ (fst o) <> b_ "image_pull_secrets")) options = true) as H by (vm_compute; reflexivity).
  intros Ho%elem_of_list_In. apply (proj1 (forallb_forall _ _) H) in Ho. cbn [fst] in Ho. by apply andb_true_iff in Ho as [E1%bool_decide_eq_true E2%bool_decide_eq_true].
Qed.
Lemma config_inv sh env v c : config sh env v = Some c -> exists p cls sec st, forwarded v = Some p /\ authentication env p = Some (cls, sec, st) /\
  c = Conf (foldl (forward p) (image_part sh p) table) cls sec st.
Proof.
  unfold config, python. generalize table. intros rows. destruct (forwarded v) as [p|]; [|done]. cbn [mbind option_bind].
  destruct (authentication env p) as [[[cls sec] st]|] eqn:E; [|done]. cbn [mbind option_bind fst snd]. intros H. exists p, cls, sec, st.
  split; [done|]. split; [done|]. congruence.
Qed.
Lemma fields sh env v c f path x : proper (JObj v) -> config sh env v = Some c -> (f, path) ∈ options ->
  dget (b_ f) (f_cluster c) = Some x <-> given (JObj v) ("gateway"%string :: "backend"%string :: path) x.
Proof.
  intros Hp (p & cls & sec & st & Hf & _ & ->)%config_inv Ho. cbn [f_cluster]. destruct (options_table f path Ho) as (q & Ht & Hs).
  rewrite (forward_some p table _ f q table_nodup Ht). rewrite (property v p _ _ Hf Hs (apart_backend path)).
  destruct (options_image f path Ho) as [H1 H2]. rewrite (image_keys sh p (b_ f)) by done. rewrite given_lk by done.
  destruct (default JNull _) eqn:E; split; try (intros [= <-]); try done; try (intros [<- H]; done); try done.
Qed.
Lemma only sh env v c f x : config sh env v = Some c -> dget f (f_cluster c) = Some x ->
  f = b_ "image" \/ f = b_ "image_pull_secrets" \/ exists g path, (g, path) ∈ options /\ f = b_ g.
Proof.
  intros (p & cls & sec & st & Hf & _ & ->)%config_inv. cbn [f_cluster]. intros H.
  destruct (decide (f = b_ "image")) as [|H1]; [by left|]. destruct (decide (f = b_ "image_pull_secrets")) as [|H2]; [by right; left|].
  right. right. destruct (decide (f ∈ map (fun r => b_ (fst r)) table)) as [Hi|Hi].
  - apply elem_of_list_In, in_map_iff in Hi as ([a b] & <- & Hi). cbn [fst].
    assert (a ∈ map fst options) as Ha. { rewrite <- table_options. apply elem_of_list_In, in_map_iff. by exists (a, b). }
    apply elem_of_list_In, in_map_iff in Ha as ([a' path] & <- & Ha). exists a', path. split; [by apply elem_of_list_In|done].
  - rewrite forward_none in H by done. by rewrite image_keys in H.
Qed.
Lemma image_get sh env v c p : config sh env v = Some c -> forwarded v = Some p ->
  dget (b_ "image") (f_cluster c) = dget (b_ "image") (image_part sh p) /\
  dget (b_ "image_pull_secrets") (f_cluster c) = dget (b_ "image_pull_secrets") (image_part sh p).
Proof.
  intros (p' & cls & sec & st & Hf & _ & ->)%config_inv Hf'. assert (p' = p) as -> by congruence. cbn [f_cluster].
  split; apply forward_none; apply (bool_decide_unpack _); vm_compute; exact I.
Qed.
Lemma prop_of v p (key : string) path : forwarded v = Some p -> Manifest_Model.split_dot (b_ key) = map b_ ("gateway"%string :: path) ->
  apart (map b_ ("gateway"%string :: path)) -> get_property p (b_ key) = default JNull (lk (JObj v) (map b_ ("gateway"%string :: path))).
Proof. intros Hf Hs Ha. by apply property. Qed.

(** * Image *)
Lemma apart_two (k : string) (path : list string) : b_ k <> b_ "extraConfig" -> b_ k <> b_ "auth" -> apart (map b_ ("gateway"%string :: k :: path)).
Proof.
  intros H1 H2. split; [eexists _, _; split; [reflexivity|done]|]. split; intros q; unfold token_path; cbn [map app]; intros H; injection H; intros; done.
Qed.
Lemma apart_auth (k l : string) (path : list string) : b_ k <> b_ "jupyterhub" \/ b_ l <> b_ "apiToken" -> apart (map b_ ("gateway"%string :: "auth"%string :: k :: l :: path)).
Proof.
  intros H1. split; [eexists _, _; split; [reflexivity|done]|]. split; intros q; unfold token_path; cbn [map app]; intros H; injection H; intros; subst; destruct H1; done.
Qed.
Lemma apart_type : apart (map b_ ["gateway"; "auth"; "type"]%string).
Proof. split; [eexists _, _; split; [reflexivity|done]|]. split; intros q; unfold token_path; cbn [map app]; intros H; injection H; intros; done. Qed.

Lemma authentication_hub env p : get_property p (b_ "gateway.auth.type") = JStr (b_ "jupyterhub") -> get_property p (b_ "gateway.auth.jupyterhub.apiUrl") = JNull ->
  forall cls sec st, authentication env p = Some (cls, sec, st) -> exists host port, dget (b_ "HUB_SERVICE_HOST") env = Some host /\ dget (b_ "HUB_SERVICE_PORT") env = Some port /\
  exists r, st = (b_ "jupyterhub_api_url", JStr (b_ "http://" ++ host ++ b_ ":" ++ port ++ b_ "/hub/api")) :: r.
Proof.
  intros Hty E3 cls sec st Ha. unfold authentication in Ha. rewrite Hty, E3 in Ha. destruct (decide _) as [E|_] in Ha; [done|]. destruct (decide _) as [E|_] in Ha; [done|].
  destruct (decide _) as [_|E] in Ha; [|done].
  destruct (dget (b_ "HUB_SERVICE_HOST") env) as [host|]; [|done]. destruct (dget (b_ "HUB_SERVICE_PORT") env) as [port|]; [|done].
  exists host, port. split; [done|]. split; [done|]. cbn [mbind option_bind] in Ha. eexists. apply (inj Some) in Ha. apply (f_equal snd) in Ha. symmetry. exact Ha.
Qed.

Section values.
Context (sh : json -> bytes) (env : list (bytes * bytes)) (v : list (bytes * json)) (Hv : proper (JObj v)).
Notation at_ path := (default JNull (lk (JObj v) (map b_ path))).

Lemma image_at p : forwarded v = Some p ->
  get_property p (b_ "gateway.backend.image.name") = at_ ["gateway"; "backend"; "image"; "name"]%string /\
  get_property p (b_ "gateway.backend.image.tag") = at_ ["gateway"; "backend"; "image"; "tag"]%string /\
  get_property p (b_ "gateway.backend.imagePullSecrets") = at_ ["gateway"; "backend"; "imagePullSecrets"]%string.
Proof. intros Hf. split_and!; (apply prop_of; [done|vm_compute; reflexivity|by apply apart_two]). Qed.

Lemma image_tagged c n x t y : config sh env v = Some c -> given (JObj v) ["gateway"; "backend"; "image"; "name"]%string (JStr (n :: x)) ->
  given (JObj v) ["gateway"; "backend"; "image"; "tag"]%string (JStr (t :: y)) -> dget (b_ "image") (f_cluster c) = Some (JStr ((n :: x) ++ b_ ":" ++ (t :: y))).
Proof.
  intros Hc [Hn _]%given_lk [Ht _]%given_lk; [|done..]. pose proof Hc as (p & cls & sec & st & Hf & _)%config_inv.
  destruct (image_get sh env v c p Hc Hf) as [-> _]. destruct (image_at p Hf) as (E1 & E2 & E3). unfold image_part. rewrite E1, E2, Hn, Ht. reflexivity.
Qed.
Lemma image_untagged c n x : config sh env v = Some c -> given (JObj v) ["gateway"; "backend"; "image"; "name"]%string (JStr (n :: x)) ->
  unset (JObj v) ["gateway"; "backend"; "image"; "tag"]%string \/ given (JObj v) ["gateway"; "backend"; "image"; "tag"]%string (JStr []) -> dget (b_ "image") (f_cluster c) = Some (JStr (n :: x)).
Proof.
  intros Hc [Hn _]%given_lk Ht; [|done..]. pose proof Hc as (p & cls & sec & st & Hf & _)%config_inv.
  destruct (image_get sh env v c p Hc Hf) as [-> _]. destruct (image_at p Hf) as (E1 & E2 & E3). unfold image_part. rewrite E1, E2, Hn.
  destruct Ht as [Ht%unset_lk|[Ht _]%given_lk]; try exact Hv; rewrite Ht; reflexivity.
Qed.
Lemma image_none c : config sh env v = Some c ->
  unset (JObj v) ["gateway"; "backend"; "image"; "name"]%string \/ given (JObj v) ["gateway"; "backend"; "image"; "name"]%string (JStr []) ->
  dget (b_ "image") (f_cluster c) = None /\ dget (b_ "image_pull_secrets") (f_cluster c) = None.
Proof.
  intros Hc Hn. pose proof Hc as (p & cls & sec & st & Hf & _)%config_inv.
  destruct (image_get sh env v c p Hc Hf) as [-> ->]. destruct (image_at p Hf) as (E1 & E2 & E3). unfold image_part. rewrite E1.
  destruct Hn as [Hn%unset_lk|[Hn _]%given_lk]; try exact Hv; rewrite Hn; split; reflexivity.
Qed.
Lemma image_secrets c n x y : config sh env v = Some c -> given (JObj v) ["gateway"; "backend"; "image"; "name"]%string (JStr (n :: x)) ->
  given (JObj v) ["gateway"; "backend"; "imagePullSecrets"]%string y -> dget (b_ "image_pull_secrets") (f_cluster c) = Some y.
Proof.
  intros Hc [Hn _]%given_lk [Ht _]%given_lk; [|done..]. pose proof Hc as (p & cls & sec & st & Hf & _)%config_inv.
  destruct (image_get sh env v c p Hc Hf) as [_ ->]. destruct (image_at p Hf) as (E1 & E2 & E3). unfold image_part. rewrite E1, E3, Hn, Ht. reflexivity.
Qed.

(** * Authentication *)
Lemma auth_at p : forwarded v = Some p ->
  get_property p (b_ "gateway.auth.type") = at_ ["gateway"; "auth"; "type"]%string /\
  get_property p (b_ "gateway.auth.simple.password") = at_ ["gateway"; "auth"; "simple"; "password"]%string /\
  get_property p (b_ "gateway.auth.kerberos.keytab") = at_ ["gateway"; "auth"; "kerberos"; "keytab"]%string /\
  get_property p (b_ "gateway.auth.jupyterhub.apiUrl") = at_ ["gateway"; "auth"; "jupyterhub"; "apiUrl"]%string /\
  get_property p (b_ "gateway.auth.jupyterhub.jupyterhubServiceName") = at_ ["gateway"; "auth"; "jupyterhub"; "jupyterhubServiceName"]%string /\
  get_property p (b_ "gateway.auth.custom.class") = at_ ["gateway"; "auth"; "custom"; "class"]%string /\
  get_property p (b_ "gateway.auth.custom.config") = at_ ["gateway"; "auth"; "custom"; "config"]%string.
Proof. intros Hf. split_and!; (apply prop_of; [done|vm_compute; reflexivity|try apply apart_type; apply apart_auth; (by left) || (by right)]). Qed.
Lemma set_if_get k x y : dget k (set_if k x) = Some y <-> x = y /\ y <> JNull.
Proof. destruct x; cbn [set_if dget]; rewrite ?decide_True by done; split; try (intros [= <-]); try done; try (intros [<- ?]; done). Qed.
Lemma auth_ty c ty : config sh env v = Some c -> given (JObj v) ["gateway"; "auth"; "type"]%string (JStr (b_ ty)) ->
  exists p, forwarded v = Some p /\ get_property p (b_ "gateway.auth.type") = JStr (b_ ty) /\ authentication env p = Some (f_class c, f_section c, f_settings c).
Proof.
  intros Hc [Ht _]%given_lk; [|done]. pose proof Hc as (p & cls & sec & st & Hf & Ha & ->)%config_inv. exists p. split; [done|].
  destruct (auth_at p Hf) as (-> & _). done.
Qed.
Lemma auth_known c ty cls sec rows f k x : config sh env v = Some c -> (ty, cls, sec, rows) ∈ kinds -> given (JObj v) ["gateway"; "auth"; "type"]%string (JStr (b_ ty)) ->
  f_class c = b_ cls /\ f_section c = b_ sec /\
  ((f, k) ∈ rows -> (f <> "jupyterhub_api_url"%string -> dget (b_ f) (f_settings c) = Some x <-> given (JObj v) ["gateway"; "auth"; ty; k]%string x) /\
                    (given (JObj v) ["gateway"; "auth"; ty; k]%string x -> dget (b_ f) (f_settings c) = Some x)).
Proof.
  intros Hc Hk Ht. destruct (auth_ty c ty Hc Ht) as (p & Hf & Hty & Ha). destruct (auth_at p Hf) as (_ & E1 & E2 & E3 & E4 & _ & _).
  unfold authentication in Ha. rewrite Hty, E1, E2, E3, E4 in Ha. clear E1 E2 E3 E4 Hty.
  repeat (apply elem_of_cons in Hk as [Hk|Hk]); [..|by apply elem_of_nil in Hk]; injection Hk as -> -> -> ->.
  - rewrite decide_True in Ha by done. injection Ha as <- <- <-. do 2 (split; [done|]).
    intros Hr%elem_of_list_singleton. injection Hr as -> ->. rewrite given_lk, set_if_get by done. done.
  - rewrite decide_False in Ha by done. rewrite decide_True in Ha by done. injection Ha as <- <- <-. do 2 (split; [done|]).
    intros Hr%elem_of_list_singleton. injection Hr as -> ->. rewrite given_lk, set_if_get by done. done.
  - rewrite decide_False in Ha by done. rewrite decide_False in Ha by done. rewrite decide_True in Ha by done.
    destruct (match at_ _ with JNull => _ | x => Some x end) as [u|] eqn:Eu in Ha; [|done]. cbn [mbind option_bind] in Ha. injection Ha as <- <- <-.
    do 2 (split; [done|]). intros Hr. repeat (apply elem_of_cons in Hr as [Hr|Hr]); [..|by apply elem_of_nil in Hr]; injection Hr as -> ->.
    + split; [done|]. intros [Hg Hn]%given_lk; [|done]. rewrite Hg in Eu. cbn [dget]. rewrite decide_True by done. destruct x; try done; congruence.
    + cbn [dget]. rewrite decide_False by done. rewrite given_lk, set_if_get by done. done.
Qed.
Lemma auth_hub_url c : config sh env v = Some c -> given (JObj v) ["gateway"; "auth"; "type"]%string (JStr (b_ "jupyterhub")) ->
  unset (JObj v) ["gateway"; "auth"; "jupyterhub"; "apiUrl"]%string -> exists host port, dget (b_ "HUB_SERVICE_HOST") env = Some host /\ dget (b_ "HUB_SERVICE_PORT") env = Some port /\
  dget (b_ "jupyterhub_api_url") (f_settings c) = Some (JStr (b_ "http://" ++ host ++ b_ ":" ++ port ++ b_ "/hub/api")).
Proof.
  intros Hc Ht Hu%unset_lk; [|done]. destruct (auth_ty c _ Hc Ht) as (p & Hf & Hty & Ha). destruct (auth_at p Hf) as (_ & _ & _ & E3 & _).
  rewrite Hu in E3. destruct (authentication_hub env p Hty E3 _ _ _ Ha) as (host & port & H1 & H2 & r & ->). exists host, port. split; [done|]. split; [done|].
  cbn [dget]. destruct (decide _) as [_|E]; [done|by destruct E].
Qed.
Lemma auth_custom c : config sh env v = Some c -> given (JObj v) ["gateway"; "auth"; "type"]%string (JStr (b_ "custom")) ->
  given (JObj v) ["gateway"; "auth"; "custom"; "class"]%string (JStr (f_class c)) /\ list.last (Manifest_Model.split_dot (f_class c)) = Some (f_section c) /\
  (forall o, given (JObj v) ["gateway"; "auth"; "custom"; "config"]%string (JObj o) -> f_settings c = o) /\
  (unset (JObj v) ["gateway"; "auth"; "custom"; "config"]%string -> f_settings c = []).
Proof.
  intros Hc Ht. destruct (auth_ty c _ Hc Ht) as (p & Hf & Hty & Ha). destruct (auth_at p Hf) as (_ & _ & _ & _ & _ & E5 & E6).
  unfold authentication in Ha. rewrite Hty, E5, E6 in Ha. do 3 (rewrite decide_False in Ha by done). rewrite decide_True in Ha by done.
  destruct (at_ ["gateway"; "auth"; "custom"; "class"]%string) as [| | | |s| |] eqn:Ec; try done. cbv zeta in Ha.
  destruct (match at_ _ with JObj o => _ | _ => _ end) as [st|] eqn:Es in Ha; [|done]. cbn [mbind option_bind] in Ha. injection Ha as Ha1 Ha2 Ha3. rewrite <- Ha1, <- Ha2, <- Ha3.
  split; [by apply given_lk|]. split.
  { assert (Manifest_Model.split_dot s <> []) as Hne. { destruct s as [|a s]; cbn [Manifest_Model.split_dot]; [done|]. destruct (decide _); [done|]. by destruct (Manifest_Model.split_dot s). }
    destruct (list.last (Manifest_Model.split_dot s)) as [w|] eqn:El; [done|]. by apply last_None in El. }
  split.
  - intros o [Ho _]%given_lk; [|done]. rewrite Ho in Es. by injection Es.
  - intros Hu%unset_lk; [|done]. rewrite Hu in Es. by injection Es.
Qed.
Lemma auth_unknown : (forall ty, given (JObj v) ["gateway"; "auth"; "type"]%string (JStr (b_ ty)) -> ty ∉ ["simple"; "kerberos"; "jupyterhub"; "custom"]%string) -> config sh env v = None.
Proof.
  intros H. destruct (config sh env v) as [c|] eqn:Hc; [|done]. exfalso. apply config_inv in Hc as (p & cls & sec & st & Hf & Ha & _).
  destruct (auth_at p Hf) as (Et & _). unfold authentication in Ha. rewrite Et in Ha. clear Et. destruct (at_ ["gateway"; "auth"; "type"]%string) as [| | | |s| |] eqn:Es; try done.
  assert (forall ty, s = b_ ty -> ty ∉ ["simple"; "kerberos"; "jupyterhub"; "custom"]%string) as H'. { intros ty ->. apply H. by apply given_lk. }
  repeat match type of Ha with context [decide (s = b_ ?t)] => destruct (decide (s = b_ t)) as [E|_]; [apply (H' _ E); repeat (first [apply elem_of_list_here|apply elem_of_list_further])|] end. done.
Qed.
Lemma starts p : forwarded v = Some p -> is_Some (config sh env v) <-> sufficient env (JObj v).
Proof.
  intros Hf. assert (is_Some (config sh env v) <-> is_Some (authentication env p)) as ->.
  { unfold config, python. rewrite Hf. cbn [mbind option_bind]. destruct (authentication env p); cbn [mbind option_bind]; split; intros [x Hx]; done. }
  destruct (auth_at p Hf) as (E0 & _ & _ & E3 & _ & E5 & E6). unfold authentication, sufficient. rewrite E0, E3, E5, E6. clear E0 E3 E5 E6. cbv zeta.
  assert (forall path x, given (JObj v) path x <-> at_ path = x /\ x <> JNull) as Hg by (intros path x; by apply given_lk).
  rewrite !Hg. setoid_rewrite Hg. clear Hg.
  generalize (at_ ["gateway"; "auth"; "type"]%string) (at_ ["gateway"; "auth"; "jupyterhub"; "apiUrl"]%string) (at_ ["gateway"; "auth"; "custom"; "class"]%string) (at_ ["gateway"; "auth"; "custom"; "config"]%string).
  generalize (dget (b_ "HUB_SERVICE_HOST") env) (dget (b_ "HUB_SERVICE_PORT") env). intros host port ty url cls cf.
  destruct ty as [| | | |s| |]; try (split; [by intros [? ?]|intros H; decompose [or and] H; done]).
  destruct (decide (s = b_ "simple")) as [->|H1]; [split; [intros _; left; done|intros _; eauto]|].
  destruct (decide (s = b_ "kerberos")) as [->|H2]; [split; [intros _; right; left; done|intros _; eauto]|].
  destruct (decide (s = b_ "jupyterhub")) as [->|H3].
  { split.
    - intros [r Hr]. right. right. left. split; [done|]. destruct url; [|left; eauto..]. right. destruct host as [host|], port as [port|]; try done; split; eauto.
    - intros H. assert ((exists x, url = x /\ x <> JNull) \/ is_Some host /\ is_Some port) as H'.
      { destruct H as [[H _]|[[H _]|[[_ H]|[[H _] _]]]]; try done; injection H; try done. }
      destruct url; [|eexists; reflexivity..]. destruct H' as [(x & <- & Hx)|[[h ->] [q ->]]]; [done|]. eexists. reflexivity. }
  destruct (decide (s = b_ "custom")) as [->|H4].
  { split.
    - intros [r Hr]. do 3 right. split; [done|]. destruct cls as [| | | |cls| |]; try done. split; [by exists cls|]. intros x [<- Hx].
      destruct (truthy cf) eqn:Et; [|by right]. destruct cf; try done. left. eauto.
    - intros H. assert ((exists s, cls = JStr s /\ JStr s <> JNull) /\ forall x, cf = x /\ x <> JNull -> (exists o, x = JObj o) \/ truthy x = false) as [(s & -> & _) Hc].
      { destruct H as [[H _]|[[H _]|[[[H _] _]|[_ H]]]]; try done; injection H; try done. }
      destruct cf as [| | | | | |o]; try (eexists; reflexivity); (match goal with |- context [truthy ?x] => destruct (Hc x) as [[o E]|E]; [done|done|] end); rewrite E; eexists; reflexivity. }
  split; [by intros [? ?]|]. intros H. exfalso. destruct H as [[H _]|[[H _]|[[[H _] _]|[[H _] _]]]]; injection H; done.
Qed.
End values.

(** * Python reads what Go wrote *)
Lemma hexval_digit d : 0 <= d < 16 -> hexval (hexdigit d) = Some d.
Proof.
  intros H. unfold hexval, hexdigit. destruct (d <? 10) eqn:E.
  - replace ((48 <=? 48 + d) && (48 + d <=? 57)) with true by lia. f_equal. lia.
  - replace ((48 <=? 87 + d) && (87 + d <=? 57)) with false by lia. replace ((97 <=? 87 + d) && (87 + d <=? 102)) with true by lia. f_equal. lia.
Qed.
Lemma hexnum_snoc l c : hexnum (l ++ [c]) = a ← hexnum l; d ← hexval c; Some (16 * a + d).
Proof. unfold hexnum. by rewrite foldl_app. Qed.
Lemma hexnum_hex2 l a r : hexnum l = Some a -> hexnum (l ++ hex2 r) = Some (256 * a + r mod 256).
Proof.
  intros H. unfold hex2. change [?x; ?y] with ([x] ++ [y]). rewrite app_assoc, !hexnum_snoc, H. cbn [mbind option_bind].
  rewrite !hexval_digit by (apply Z.mod_pos_bound; lia). cbn [mbind option_bind]. f_equal. Z.div_mod_to_equations. lia.
Qed.
Lemma hexnum_hex4 l a r : hexnum l = Some a -> hexnum (l ++ hex4 r) = Some (65536 * a + r mod 65536).
Proof. intros H. unfold hex4. rewrite app_assoc. rewrite (hexnum_hex2 _ _ r (hexnum_hex2 _ _ (r / 256) H)). f_equal. Z.div_mod_to_equations. lia. Qed.
Lemma hexnum_hex8 r : 0 <= r < 4294967296 -> hexnum (hex8 r) = Some r.
Proof. intros H. unfold hex8. change (hex4 (r / 65536)) with ([] ++ hex4 (r / 65536)). rewrite (hexnum_hex4 _ _ r (hexnum_hex4 [] 0 (r / 65536) eq_refl)). f_equal. Z.div_mod_to_equations. lia. Qed.
Lemma body_escape p r t : rune r -> body (escape p r ++ t) = cons r <$> body t.
Proof.
  intros Hr. unfold escape. destruct ((r =? 34) || (r =? 92)) eqn:E1.
  { apply orb_true_iff in E1 as [->%Z.eqb_eq| ->%Z.eqb_eq]; reflexivity. }
  destruct (go_print p r) eqn:E2.
  { cbn [app body]. assert (r <> 10 /\ r <> 13) as [H1 H2]. { unfold go_print in E2. destruct (r <? 128) eqn:E; lia. }
    replace (r =? 34) with false by lia. replace ((r =? 10) || (r =? 13)) with false by lia. by replace (r =? 92) with false by lia. }
  do 7 (match goal with |- context [if (r =? ?k) then [92; _] else _] => destruct (Z.eqb_spec r k) as [->|]; [reflexivity|] end).
  destruct ((r <? 32) || (r =? 127)) eqn:E3.
  { pose proof (hexnum_hex2 [] 0 r eq_refl) as H. cbn [app] in H. unfold hex2 in *. cbn [app body]. cbn [Z.eqb Pos.eqb orb]. rewrite H. cbn [mbind option_bind].
    replace (256 * 0 + r mod 256) with r; [done|]. unfold rune in Hr. rewrite Z.mod_small; lia. }
  replace (negb (valid_rune r)) with false by (unfold valid_rune; unfold rune in Hr; lia).
  destruct (r <? 65536) eqn:E4.
  { pose proof (hexnum_hex4 [] 0 r eq_refl) as H. cbn [app] in H. unfold hex4, hex2 in *. cbn [app] in *. cbn [body]. cbn [Z.eqb Pos.eqb orb]. rewrite H. cbn [mbind option_bind].
    replace (65536 * 0 + r mod 65536) with r; [done|]. unfold rune in Hr. rewrite Z.mod_small; lia. }
  pose proof (hexnum_hex8 r) as H. unfold hex8, hex4, hex2 in *. cbn [app] in *. cbn [body]. cbn [Z.eqb Pos.eqb orb]. rewrite H by (unfold rune in Hr; lia). cbn [mbind option_bind].
  replace (r <=? 1114111) with true by (unfold rune in Hr; lia). done.
Qed.
Lemma literal_quote p s : Forall rune s -> literal (quote p s) = Some s.
Proof.
  intros H. unfold literal, quote. cbn [Z.eqb Pos.eqb]. induction H as [|r s Hr Hs IH]; cbn [map concat]; [reflexivity|].
  rewrite <- app_assoc, body_escape by done. by rewrite IH.
Qed.
(** What is written is one line of printable characters. *)
Lemma quote_line p s : Forall (fun c => go_print p c = true) (quote p s).
Proof.
  unfold quote. constructor; [reflexivity|]. apply Forall_app. split; [|by repeat constructor].
  assert (forall d, 0 <= d < 16 -> go_print p (hexdigit d) = true) as Hh. { intros d Hd. unfold go_print, hexdigit. destruct (d <? 10) eqn:E; [replace (48 + d <? 128) with true by lia|replace (87 + d <? 128) with true by lia]; lia. }
  assert (forall r, Forall (fun c => go_print p c = true) (hex2 r)) as H2. { intros r. unfold hex2. repeat constructor; apply Hh; apply Z.mod_pos_bound; lia. }
  assert (forall r, Forall (fun c => go_print p c = true) (hex4 r)) as H4. { intros r. apply Forall_app. split; apply H2. }
  induction s as [|r s IH]; [constructor|]. cbn [map concat]. apply Forall_app. split; [|done]. unfold escape.
  destruct ((r =? 34) || (r =? 92)) eqn:E1. { apply orb_true_iff in E1 as [->%Z.eqb_eq| ->%Z.eqb_eq]; by repeat constructor. }
  destruct (go_print p r) eqn:E2; [by repeat constructor|].
  repeat match goal with |- context [if ?b then _ else _] => destruct b; [first [by repeat constructor|repeat (constructor; [reflexivity|]); first [apply H2|apply H4|apply Forall_app; split; apply H4]]|] end.
  repeat (constructor; [reflexivity|]). apply Forall_app. split; apply H4.
Qed.

(** * Code blocks *)
Lemma str_le_total a b : Launch_Model.str_le a b = false -> Launch_Model.str_le b a = true.
Proof.
  revert b. induction a as [|x a IH]; intros [|y b]; cbn [Launch_Model.str_le]; try done. intros H. apply orb_false_iff in H as [H1 H2].
  destruct (Nat.eqb_spec (nat_of_ascii x) (nat_of_ascii y)) as [E|E].
  - rewrite E in *. cbn in H2. rewrite Nat.eqb_refl. rewrite (IH _ H2). apply orb_true_r.
  - apply orb_true_iff. left. apply Nat.ltb_ge in H1. apply Nat.ltb_lt. lia.
Qed.
Lemma sort_in_sorted x l : Sorted (fun a b => Launch_Model.str_le a b = true) l -> Sorted (fun a b => Launch_Model.str_le a b = true) (Launch_Model.sort_in x l).
Proof.
  induction l as [|y l IH]; cbn [Launch_Model.sort_in]; intros H; [by repeat constructor|].
  destruct (Launch_Model.str_le x y) eqn:E; [constructor; [done|by constructor]|]. apply Sorted_inv in H as [H1 H2]. constructor; [by apply IH|].
  apply str_le_total in E. destruct l as [|z l]; cbn [Launch_Model.sort_in]; [by constructor|]. destruct (Launch_Model.str_le x z); constructor; [done|]. by inversion H2.
Qed.
Lemma sorted_sorted l : Sorted (fun a b => Launch_Model.str_le a b = true) (Launch_Model.sorted l).
Proof. unfold Launch_Model.sorted. induction l as [|x l IH]; cbn [foldr]; [constructor|]. by apply sort_in_sorted. Qed.
Lemma extra_blocks o bs : NoDup (map fst o) -> o <> [] -> extra (JObj o) = Some bs ->
  exists ks, bs = map snd ks /\ Sorted (fun a b => Launch_Model.str_le a b = true) (map fst ks) /\ map (fun kb => (fst kb, JStr (snd kb))) ks ≡ₚ o.
Proof.
  intros Hd Hne. unfold extra. destruct o as [|kv o']; [done|]. set (o := kv :: o') in *. change (truthy (JObj o)) with true. cbn match.
  intros H%mapM_Some. exists (zip (Launch_Model.sorted (map fst o)) bs). pose proof (Forall2_length _ _ _ H) as Hl.
  split; [symmetry; by apply snd_zip, Nat.eq_le_incl|]. split; [rewrite fst_zip by lia; apply sorted_sorted|].
  assert (map (fun kb => (fst kb, JStr (snd kb))) (zip (Launch_Model.sorted (map fst o)) bs) = omap (fun k => x ← dget k o; Some (k, x)) (Launch_Model.sorted (map fst o))) as ->.
  { clear Hl. induction H as [|k b ks bs' Hk H IH]; [done|]. cbn [zip_with map fst snd omap list_omap]. unfold block_of in Hk.
    destruct (dget k o) as [[| | | |s| |]|]; try done. injection Hk as ->. cbn [mbind option_bind]. f_equal. exact IH. }
  rewrite (Launch_Proofs.sorted_perm (map fst o)). clear -Hd.
  assert (forall l, (forall k x, In (k, x) l -> dget k o = Some x) -> omap (fun k => x ← dget k o; Some (k, x)) (map fst l) = l) as Hgen.
  { induction l as [|[k x] l IH]; intros Hl; [done|]. cbn [map fst omap list_omap]. rewrite (Hl k x) by by left. cbn [mbind option_bind]. f_equal. apply IH. intros k' x' Hi. apply Hl. by right. }
  rewrite Hgen; [done|]. intros k x. by apply In_dget.
Qed.
