(** Property C147: what is set in the Helm chart's values is what the gateway runs with. *)
From Coq Require Import Ascii String ZArith Lia Sorted.
From stdpp Require Import prelude.
From Verif Require Import Router_Model ProxyLog_Model Json_Model Api_Model Chart_Model Chart_Spec Chart_Proofs.
From Verif Require Launch_Model Manifest_Model.
Local Open Scope Z_scope.

(** C147. A cluster option is set in the gateway's configuration exactly if it is set in the
    chart's values, and to that value; nothing else is set... *)
Theorem C147_fields : forall sh env v c f path x, proper (JObj v) -> config sh env v = Some c -> (f, path) ∈ options ->
  dget (b_ f) (f_cluster c) = Some x <-> given (JObj v) ("gateway"%string :: "backend"%string :: path) x.
Proof. intros sh env v c f path x. apply fields. Qed.
Theorem C147_only : forall sh env v c f x, config sh env v = Some c -> dget f (f_cluster c) = Some x ->
  f = b_ "image" \/ f = b_ "image_pull_secrets" \/ exists g path, (g, path) ∈ options /\ f = b_ g.
Proof. intros sh env v c f x. apply only. Qed.
(** ...the image is the name with the tag, or the name if there is no tag, and is left to
    its default if there is no name; a named image's pull secrets are set... *)
Theorem C147_image : forall sh env v c, proper (JObj v) -> config sh env v = Some c ->
  (forall n, n <> [] -> given (JObj v) ["gateway"; "backend"; "image"; "name"]%string (JStr n) ->
     (forall t, t <> [] -> given (JObj v) ["gateway"; "backend"; "image"; "tag"]%string (JStr t) -> dget (b_ "image") (f_cluster c) = Some (JStr (n ++ b_ ":" ++ t))) /\
     (unset (JObj v) ["gateway"; "backend"; "image"; "tag"]%string \/ given (JObj v) ["gateway"; "backend"; "image"; "tag"]%string (JStr []) -> dget (b_ "image") (f_cluster c) = Some (JStr n)) /\
     (forall y, given (JObj v) ["gateway"; "backend"; "imagePullSecrets"]%string y -> dget (b_ "image_pull_secrets") (f_cluster c) = Some y)) /\
  (unset (JObj v) ["gateway"; "backend"; "image"; "name"]%string \/ given (JObj v) ["gateway"; "backend"; "image"; "name"]%string (JStr []) -> dget (b_ "image") (f_cluster c) = None).
Proof.
  intros sh env v c Hp Hc. split; [|intros Hn; by apply (image_none sh env v Hp c Hc)]. intros [|n x] Hn Hg; [done|]. split_and!.
  - intros [|t y] Ht Hg'; [done|]. by apply (image_tagged sh env v Hp c n x t y).
  - intros Ht. by apply (image_untagged sh env v Hp c n x).
  - intros y Hy. by apply (image_secrets sh env v Hp c n x y).
Qed.
(** ...but those of the default image are not... *)
Theorem C147_pull_refuted : exists sh env v c y, proper (JObj v) /\ config sh env v = Some c /\ given (JObj v) ["gateway"; "backend"; "imagePullSecrets"]%string y /\ dget (b_ "image_pull_secrets") (f_cluster c) = None.
Proof.
  exists (fun _ => []), [], [(b_ "gateway", JObj [(b_ "auth", JObj [(b_ "type", JStr (b_ "simple")); (b_ "jupyterhub", JObj [])]);
    (b_ "backend", JObj [(b_ "image", JObj [(b_ "name", JStr []); (b_ "tag", JStr (b_ "1.0"))]); (b_ "imagePullSecrets", JList [JObj [(b_ "name", JStr (b_ "registry"))]])])])].
  eexists _, (JList [JObj [(b_ "name", JStr (b_ "registry"))]]). split.
  { assert (Hn : forall (l : list bytes), bool_decide (NoDup l) = true -> NoDup l) by (intros l; apply bool_decide_eq_true).
    repeat (first [apply proper_other; by intros ? | apply proper_obj; [apply Hn; vm_compute; reflexivity|intros k v Hi; cbn [In] in Hi; repeat (destruct Hi as [Hi|Hi]; [injection Hi as <- <-|]); try destruct Hi]]). }
  split; [vm_compute; reflexivity|]. split; [|vm_compute; reflexivity]. split; [|done]. apply lk_found. vm_compute. reflexivity.
Qed.
(** ...the authenticator is the one asked for, configured with what is given for it... *)
Theorem C147_auth : forall sh env v c ty cls sec rows, proper (JObj v) -> config sh env v = Some c -> (ty, cls, sec, rows) ∈ kinds -> given (JObj v) ["gateway"; "auth"; "type"]%string (JStr (b_ ty)) ->
  f_class c = b_ cls /\ f_section c = b_ sec /\ forall f k x, (f, k) ∈ rows -> f <> "jupyterhub_api_url"%string -> dget (b_ f) (f_settings c) = Some x <-> given (JObj v) ["gateway"; "auth"; ty; k]%string x.
Proof.
  intros sh env v c ty cls sec rows Hp Hc Hk Ht. destruct (auth_known sh env v Hp c ty cls sec rows ""%string ""%string JNull Hc Hk Ht) as (H1 & H2 & _). split; [done|]. split; [done|].
  intros f k x Hr Hf. destruct (auth_known sh env v Hp c ty cls sec rows f k x Hc Hk Ht) as (_ & _ & H). by apply H.
Qed.
(** ...JupyterHub is found where the values say, or else through its service's environment
    variables... *)
Theorem C147_hub : forall sh env v c, proper (JObj v) -> config sh env v = Some c -> given (JObj v) ["gateway"; "auth"; "type"]%string (JStr (b_ "jupyterhub")) ->
  (forall x, given (JObj v) ["gateway"; "auth"; "jupyterhub"; "apiUrl"]%string x -> dget (b_ "jupyterhub_api_url") (f_settings c) = Some x) /\
  (unset (JObj v) ["gateway"; "auth"; "jupyterhub"; "apiUrl"]%string -> exists host port, dget (b_ "HUB_SERVICE_HOST") env = Some host /\ dget (b_ "HUB_SERVICE_PORT") env = Some port /\
     dget (b_ "jupyterhub_api_url") (f_settings c) = Some (JStr (b_ "http://" ++ host ++ b_ ":" ++ port ++ b_ "/hub/api"))).
Proof.
  intros sh env v c Hp Hc Ht. split; [|by apply (auth_hub_url sh)]. intros x Hx.
  eapply (auth_known sh env v Hp c "jupyterhub" _ _ _ "jupyterhub_api_url" "apiUrl" x Hc); [do 2 apply elem_of_list_further; apply elem_of_list_here|done|apply elem_of_list_here|done].
Qed.
Theorem C147_custom : forall sh env v c, proper (JObj v) -> config sh env v = Some c -> given (JObj v) ["gateway"; "auth"; "type"]%string (JStr (b_ "custom")) ->
  given (JObj v) ["gateway"; "auth"; "custom"; "class"]%string (JStr (f_class c)) /\ list.last (Manifest_Model.split_dot (f_class c)) = Some (f_section c) /\
  (forall o, given (JObj v) ["gateway"; "auth"; "custom"; "config"]%string (JObj o) -> f_settings c = o) /\
  (unset (JObj v) ["gateway"; "auth"; "custom"; "config"]%string -> f_settings c = []).
Proof. intros sh env v c Hp. by apply (auth_custom sh env). Qed.
(** ...and with any other kind of authentication, or none, the gateway does not start... *)
Theorem C147_unknown : forall sh env v, proper (JObj v) ->
  (forall ty, given (JObj v) ["gateway"; "auth"; "type"]%string (JStr (b_ ty)) -> ty ∉ ["simple"; "kerberos"; "jupyterhub"; "custom"]%string) -> config sh env v = None.
Proof. intros sh env v Hp. by apply auth_unknown. Qed.

(** ...precisely: it starts if the values suffice for the kind of authentication chosen... *)
Theorem C147_starts : forall sh env v p, proper (JObj v) -> forwarded v = Some p -> is_Some (config sh env v) <-> sufficient env (JObj v).
Proof. intros sh env v p Hp Hf. by apply (starts sh env v Hp p). Qed.

(** ...the configuration file has the gateway's values unchanged, except for the code to
    append and the JupyterHub token, which are not in it... *)
Theorem C147_kept : forall v p path x, proper (JObj v) -> forwarded v = Some p -> apart path -> found p path x <-> found (JObj v) path x.
Proof. intros v p path x Hp Hf Ha. rewrite !found_iff by (done || by eapply forwarded_proper). by rewrite (forwarded_lk v p). Qed.
Theorem C147_secret : forall v p path x, proper (JObj v) -> forwarded v = Some p -> withheld path -> found p path x -> truthy x = false.
Proof.
  intros v p path x Hp Hf Hw H%found_iff; [|by eapply forwarded_proper]. destruct Hw as [[q ->]|[q ->]].
  - cbn [map app] in H. by rewrite (forwarded_extra v p q Hf) in H.
  - by apply (forwarded_token v p q).
Qed.
(** ...but a password for simple authentication is in it... *)
Theorem C147_password_refuted : exists v p s, proper (JObj v) /\ forwarded v = Some p /\ given (JObj v) ["gateway"; "auth"; "simple"; "password"]%string (JStr s) /\ s <> [] /\
  given p ["gateway"; "auth"; "simple"; "password"]%string (JStr s).
Proof.
  exists [(b_ "gateway", JObj [(b_ "auth", JObj [(b_ "type", JStr (b_ "simple")); (b_ "simple", JObj [(b_ "password", JStr (b_ "hunter2"))]); (b_ "jupyterhub", JObj [])])])].
  eexists _, (b_ "hunter2"). split.
  { assert (Hn : forall (l : list bytes), bool_decide (NoDup l) = true -> NoDup l) by (intros l; apply bool_decide_eq_true).
    repeat (first [apply proper_other; by intros ? | apply proper_obj; [apply Hn; vm_compute; reflexivity|intros k v Hi; cbn [In] in Hi; repeat (destruct Hi as [Hi|Hi]; [injection Hi as <- <-|]); try destruct Hi]]). }
  split; [vm_compute; reflexivity|]. split; [split; [apply lk_found; vm_compute; reflexivity|done]|]. split; [done|]. split; [apply lk_found; vm_compute; reflexivity|done].
Qed.
(** ...a JupyterHub token reaches the gateway through a Secret... *)
Theorem C147_token : forall api v x t, proper (JObj v) -> given (JObj v) ["gateway"; "auth"; "type"]%string (JStr (b_ "jupyterhub")) ->
  given (JObj v) ["gateway"; "auth"; "jupyterhub"; "apiToken"]%string (JStr (x :: t)) ->
  exists name key data, token_ref api v = Some (name, key) /\ secret api v = Some (name, data) /\ dget key data = Some (x :: t).
Proof.
  intros api v x t Hp [Ht _] [Hx _]. apply found_lk in Ht, Hx; [|done..].
  assert (exists h, hub v = Some h /\ dget (b_ "apiToken") h = Some (JStr (x :: t))) as (h & Hh & Hg).
  { cbn [map] in Ht, Hx. rewrite lk_cons in Ht, Hx. unfold hub. destruct (dget (b_ "gateway") v) as [g|]; [|done]. cbn [mbind option_bind] in Ht, Hx.
    destruct g as [| | | | | |g]; try done. rewrite lk_cons in Ht, Hx. destruct (dget (b_ "auth") g) as [a|]; [|done]. cbn [mbind option_bind] in Ht, Hx.
    destruct a as [| | | | | |a]; try done. rewrite lk_cons in Ht, Hx. destruct (dget (b_ "type") a) as [ty|]; [|done]. destruct (dget (b_ "jupyterhub") a) as [h|]; [|done].
    cbn [mbind option_bind] in Ht, Hx. destruct h as [| | | | | |h]; try done. cbn [lk] in Ht. injection Ht as ->. rewrite lk_cons in Hx. exists h.
    split; [destruct (decide _) as [_|E]; [done|by destruct E]|]. destruct (dget (b_ "apiToken") h) as [y|]; [|done]. cbn [mbind option_bind lk] in Hx. done. }
  unfold token_ref, secret. rewrite Hh. unfold jget. rewrite Hg. cbn [default truthy]. eexists _, _, _. split; [reflexivity|]. split; [reflexivity|]. cbn [dget].
  destruct (decide _) as [_|E]; [done|by destruct E].
Qed.
(** ...what Go writes as a quoted string is read by Python as the same text, and is one line
    of printable characters... *)
Theorem C147_literal : forall p s, (Forall rune s -> literal (quote p s) = Some s) /\ Forall (fun c => go_print p c = true /\ c <> 10 /\ c <> 13) (quote p s).
Proof.
  intros p s. split; [apply literal_quote|]. eapply Forall_impl; [apply quote_line|]. intros c Hc. cbn in Hc. split; [done|]. unfold go_print in Hc.
  split; intros ->; done.
Qed.
(** ...and the code blocks to append are there once each, in the order of their keys. *)
Theorem C147_extra : (forall s, s <> [] -> extra (JStr s) = Some [s]) /\
  forall o bs, NoDup (map fst o) -> o <> [] -> extra (JObj o) = Some bs ->
  exists ks, bs = map snd ks /\ Sorted (fun a b => Launch_Model.str_le a b = true) (map fst ks) /\ map (fun kb => (fst kb, JStr (snd kb))) ks ≡ₚ o.
Proof. split; [by intros [|x s] Hs|apply extra_blocks]. Qed.
Print Assumptions C147_fields.
Print Assumptions C147_only.
Print Assumptions C147_image.
Print Assumptions C147_pull_refuted.
Print Assumptions C147_auth.
Print Assumptions C147_hub.
Print Assumptions C147_custom.
Print Assumptions C147_unknown.
Print Assumptions C147_starts.
Print Assumptions C147_kept.
Print Assumptions C147_secret.
Print Assumptions C147_password_refuted.
Print Assumptions C147_token.
Print Assumptions C147_literal.
Print Assumptions C147_extra.

(** A chart with JupyterHub, an image, and some options. *)
Definition ex_values : dict :=
  [(b_ "nameOverride", JStr []);
   (b_ "gateway", JObj
     [(b_ "extraConfig", JObj [(b_ "b", JStr (b_ "y = 2")); (b_ "a", JStr (b_ "x = 1"))]);
      (b_ "auth", JObj [(b_ "type", JStr (b_ "jupyterhub")); (b_ "simple", JObj [(b_ "password", JNull)]);
                        (b_ "jupyterhub", JObj [(b_ "apiToken", JStr (b_ "secret")); (b_ "apiUrl", JNull); (b_ "jupyterhubServiceName", JStr (b_ "dask"))])]);
      (b_ "backend", JObj [(b_ "image", JObj [(b_ "name", JStr (b_ "img")); (b_ "tag", JStr (b_ "1.0")); (b_ "pullPolicy", JNull)]);
                           (b_ "imagePullSecrets", JList []); (b_ "namespace", JNull);
                           (b_ "worker", JObj [(b_ "cores", JObj [(b_ "request", JInt 0); (b_ "limit", JInt 2)])])])])].
Definition ex_hub : list (bytes * bytes) := [(b_ "HUB_SERVICE_HOST", b_ "10.0.0.1"); (b_ "HUB_SERVICE_PORT", b_ "8081")].
Example C147_example :
  config (fun _ => []) ex_hub ex_values = Some (Conf
    [(b_ "image", JStr (b_ "img:1.0")); (b_ "image_pull_secrets", JList []); (b_ "worker_cores", JInt 0); (b_ "worker_cores_limit", JInt 2)]
    (b_ "dask_gateway_server.auth.JupyterHubAuthenticator") (b_ "JupyterHubAuthenticator")
    [(b_ "jupyterhub_api_url", JStr (b_ "http://10.0.0.1:8081/hub/api")); (b_ "jupyterhub_service_name", JStr (b_ "dask"))]) /\
  config (fun _ => []) [] ex_values = None /\
  extra (JObj [(b_ "b", JStr (b_ "y = 2")); (b_ "a", JStr (b_ "x = 1"))]) = Some [b_ "x = 1"; b_ "y = 2"] /\
  secret (b_ "api") ex_values = Some (b_ "api", [(b_ "jupyterhub-api-token", b_ "secret")]) /\ token_ref (b_ "api") ex_values = Some (b_ "api", b_ "jupyterhub-api-token") /\
  quote (fun _ => false) [123; 34; 10; 233; 128512; 125] = [34; 123; 92; 34; 92; 110; 92; 117; 48; 48; 101; 57; 92; 85; 48; 48; 48; 49; 102; 54; 48; 48; 125; 34].
Proof. repeat split; vm_compute; reflexivity. Qed.
Example C147_example_proper : proper (JObj ex_values) /\ given (JObj ex_values) ["gateway"; "backend"; "worker"; "cores"; "request"]%string (JInt 0) /\
  unset (JObj ex_values) ["gateway"; "auth"; "jupyterhub"; "apiUrl"]%string /\ apart (map b_ ["gateway"; "auth"; "jupyterhub"; "apiUrl"]%string).
Proof.
  assert (proper (JObj ex_values)) as Hp.
  { assert (Hn : forall (l : list bytes), bool_decide (NoDup l) = true -> NoDup l) by (intros l; apply bool_decide_eq_true).
    repeat (first [apply proper_other; by intros ? | apply proper_obj; [apply Hn; vm_compute; reflexivity|intros k v Hi; cbn [In] in Hi; repeat (destruct Hi as [Hi|Hi]; [injection Hi as <- <-|]); try destruct Hi]]). }
  split; [done|]. split; [split; [apply lk_found; vm_compute; reflexivity|done]|]. split; [apply unset_lk; [done|vm_compute; reflexivity]|]. apply apart_auth. by right.
Qed.
