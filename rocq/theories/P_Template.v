(** C154: template strings in the client's configuration. *)
From Coq Require Import Ascii String ZArith Lia.
From stdpp Require Import prelude.
From Verif Require Import Router_Model ProxyLog_Model Launch_Model Json_Model Addr_Model Template_Model Template_Spec Template_Proofs.
Local Open Scope nat_scope.

(** A template gives a text exactly if it is a sequence of literal characters (braces doubled)
    and references to variables that are all defined, and it is then the text with the
    variables' values put in as they are: braces in a value mean nothing. *)
Theorem C154_template : forall env s t,
  format env s = Gives t <-> exists ps, Forall good ps /\ s = written ps /\ means env ps = Some t.
Proof. exact format_iff. Qed.
(** A variable that is not defined is an exception, never an empty text. *)
Theorem C154_missing : forall env ps n, Forall good ps -> Ref n ∈ ps -> dget n env = None -> format env (written ps) = Raises.
Proof.
  intros env ps n Hg Hn Hd. unfold format. rewrite markup_written by done.
  assert (means env ps = None) as ->; [|done]. clear Hg. induction ps as [|p ps IH]; [by apply elem_of_nil in Hn|].
  apply elem_of_cons in Hn as [<- |Hn]; cbn.
  - by rewrite Hd.
  - destruct (means1 env p); [|done]. cbn. by rewrite (IH Hn).
Qed.
(** A text without braces is left as it is, and so is every value that is not a text. *)
Theorem C154_plain : forall env s, no_brace s -> format env s = Gives s.
Proof. intros env s H. apply format_iff. exists (map Literal s). split; [apply literals_good|]. split; [by apply no_brace_written|apply means_literals]. Qed.
Theorem C154_others : forall env x, (forall s, x <> JStr s) -> format_template env x = Gives x.
Proof. intros env [] H; try done. by destruct (H s). Qed.
(** Only the variables named matter. *)
Theorem C154_only : forall env env' ps, Forall good ps -> (forall n, Ref n ∈ ps -> dget n env = dget n env') ->
  format env (written ps) = format env' (written ps).
Proof.
  intros env env' ps Hg H. unfold format. rewrite !markup_written by done.
  assert (means env ps = means env' ps) as ->; [|done]. clear Hg. induction ps as [|p ps IH]; [done|]. cbn.
  assert (means1 env p = means1 env' p) as -> by (destruct p; [done|apply H; left]).
  rewrite IH; [done|]. intros n Hn. apply H. by right.
Qed.
(** Every text can be had: with its braces doubled it stands for itself, whatever is defined. *)
Theorem C154_escape : forall env s, format env (written (map Literal s)) = Gives s.
Proof. intros env s. apply format_iff. exists (map Literal s). split; [apply literals_good|]. split; [done|apply means_literals]. Qed.

(** Options and keyword arguments: names and order are kept, each value is formatted by itself,
    and there is a result only if every value has one. *)
Theorem C154_values : forall env o o', format_values env o = Gives o' <->
  Forall2 (fun kv kv' => kv.1 = kv'.1 /\ format_template env kv.2 = Gives kv'.2) o o'.
Proof.
  intros env o. induction o as [|[k v] o IH]; intros o'.
  - cbn. split; [intros [= <-]; constructor|]. intros H. by inversion H.
  - cbn [format_values]. split.
    + intros (v' & Hv & (r & Hr & [= <-])%bind_gives)%bind_gives. constructor; [done|]. by apply IH.
    + intros H. inversion H as [|? [k' v'] ? r [Hk Hv] Hr]; subst. cbn in Hk, Hv. subst. rewrite Hv. cbn.
      apply IH in Hr. by rewrite Hr.
Qed.

(** The addresses of a Gateway: those in the configuration stand for what the templates mean,
    those given as arguments are used as they are. *)
Theorem C154_configured : forall env pa pp pq a p q,
  Forall good pa -> Forall good pp -> Forall good pq -> means env pa = Some a -> means env pp = Some p -> means env pq = Some q ->
  configured env (Config (JStr (written pa)) (JStr (written pp)) (JStr (written pq))) None PNone None =
  match new_gateway a (PStr q) (Some p) with Ok g => Gives g | ValueError => Raises end.
Proof.
  intros env pa pp pq a p q Ga Gp Gq Ma Mp Mq. unfold configured, text_setting, proxy_setting, format_template; cbn.
  unfold format. rewrite !markup_written, Ma, Mp, Mq by done. done.
Qed.
Theorem C154_arguments : forall env cfg a p q, q <> PNone ->
  configured env cfg (Some a) q (Some p) = match new_gateway a q (Some p) with Ok g => Gives g | ValueError => Raises end.
Proof. intros env cfg a p [] H; done. Qed.

Definition env0 : environ := [(b_ "HUB", b_ "http://hub"); (b_ "PORT", b_ "8786"); (b_ "ODD", b_ "a{PORT}b{")].
Example C154_case :
  let ps := map Ref [b_ "HUB"] ++ map Literal (b_ "/{x}/") ++ map Ref [b_ "ODD"] in
  written ps = b_ "{HUB}/{{x}}/{ODD}" /\ Forall good ps /\ means env0 ps = Some (b_ "http://hub/{x}/a{PORT}b{") /\
  format env0 (b_ "{HUB}/{{x}}/{ODD}") = Gives (b_ "http://hub/{x}/a{PORT}b{") /\
  format env0 (b_ "{NONE}/x") = Raises /\ format env0 (b_ "{}") = Raises /\ format env0 (b_ "a}") = Raises /\
  configured env0 (Config (JStr (b_ "{HUB}:80/")) JNull (JInt 8786)) None PNone None =
    Gives (Gateway (b_ "http://hub:80") (b_ "gateway://hub:8786") (b_ "http://hub:80")).
Proof.
  cbn zeta. split; [vm_compute; reflexivity|]. split.
  { repeat (apply Forall_cons; split); try exact I; try apply Forall_nil; try done.
    - split; [exists "H"%char; split; apply (bool_decide_unpack _); vm_compute; exact I|].
      intros c Hc. repeat (apply elem_of_cons in Hc as [-> |Hc]; [apply (bool_decide_unpack _); vm_compute; exact I|]). by apply elem_of_nil in Hc.
    - split; [exists "O"%char; split; apply (bool_decide_unpack _); vm_compute; exact I|].
      intros c Hc. repeat (apply elem_of_cons in Hc as [-> |Hc]; [apply (bool_decide_unpack _); vm_compute; exact I|]). by apply elem_of_nil in Hc. }
  repeat split; vm_compute; reflexivity.
Qed.

(** False: a value of auth.kwargs that is meant literally is not always kept.  A password with
    a single brace raises; one with doubled braces is changed. *)
Theorem C154_kept_refuted : exists s s' t : bytes, s' <> t /\
  format_values env0 [(b_ "password", JStr s)] = Raises /\
  format_values env0 [(b_ "password", JStr s')] = Gives [(b_ "password", JStr t)].
Proof. exists (b_ "pa}ss"), (b_ "p{{s"), (b_ "p{s"). split; [done|]. split; vm_compute; reflexivity. Qed.
(** False: "Values may be template strings" for the texts inside of a list or dict: whatever the
    environment, they are sent as they are written. *)
Theorem C154_nested_refuted : exists k s, (forall env o, format_values env [(k, JObj o)] = Gives [(k, JObj o)]) /\
  format env0 s <> Gives s /\ format_values env0 [(k, JList [JStr s])] = Gives [(k, JList [JStr s])].
Proof. exists (b_ "environment"), (b_ "{PORT}"). split; [done|]. split; [|vm_compute; reflexivity]. intros H. vm_compute in H. discriminate. Qed.
(** False: a proxy-address that is a template for a port is not the port: it is taken for a host. *)
Theorem C154_port_refuted : exists env s n g g',
  format env s = Gives (Manifest_Model.dec n) /\
  configured env (Config (JStr (b_ "http://hub")) JNull (JInt n)) None PNone None = Gives g /\ g_proxy g = b_ "gateway://hub:8786" /\
  configured env (Config (JStr (b_ "http://hub")) JNull (JStr s)) None PNone None = Gives g' /\ g_proxy g' = b_ "gateway://8786".
Proof.
  exists env0, (b_ "{PORT}"), 8786%Z, (Gateway (b_ "http://hub") (b_ "gateway://hub:8786") (b_ "http://hub")),
    (Gateway (b_ "http://hub") (b_ "gateway://8786") (b_ "http://hub")).
  repeat split; vm_compute; reflexivity.
Qed.

Print Assumptions C154_template.
Print Assumptions C154_missing.
Print Assumptions C154_plain.
Print Assumptions C154_others.
Print Assumptions C154_only.
Print Assumptions C154_escape.
Print Assumptions C154_values.
Print Assumptions C154_configured.
Print Assumptions C154_arguments.
Print Assumptions C154_kept_refuted.
Print Assumptions C154_nested_refuted.
Print Assumptions C154_port_refuted.
