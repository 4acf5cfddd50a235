(** C146: a scheduler takes orders from its own gateway only, and just as they were meant. *)
From Coq Require Import Ascii String ZArith Lia.
From stdpp Require Import prelude.
From Verif Require Import Router_Model ProxyLog_Model Json_Model Api_Model Api_Spec Comm_Model Comm_Spec.
From Verif Require P_Api ProxyCmd_Model.
Local Open Scope Z_scope.

Lemma split1_token t : split1 " "%char (b_ "token " ++ t) = Some (b_ "token", t).
Proof. reflexivity. Qed.
Lemma split1_join sep s a b : split1 sep s = Some (a, b) -> s = a ++ sep :: b.
Proof.
  revert a b. induction s as [|c s IH]; intros a b H; [discriminate|]. cbn in H. destruct (decide (c = sep)) as [->|]; [by injection H as <- <-|].
  destruct (split1 sep s) as [[a' b']|]; [|discriminate]. injection H as <- <-. cbn. by rewrite (IH _ _ eq_refl).
Qed.
Lemma starts_with_spec p s : starts_with p s = true <-> exists r, s = p ++ r.
Proof.
  unfold starts_with. rewrite bool_decide_eq_true. split; [|intros [r ->]; by rewrite take_app].
  intros H. exists (drop (length p) s). by rewrite <- H at 1; rewrite take_drop.
Qed.
Lemma jget_spec o k d v : jget (b_ k) d o = v <-> field o k d v.
Proof. unfold jget, field. destruct (dget (b_ k) o); cbn; split; [intros ->; by left|intros [[= ->]|[H _]]; done|intros <-; by right|intros [H|[_ ->]]; done]. Qed.
Lemma user_spec tok rq : current_user tok rq = Some true <-> shows tok rq.
Proof.
  unfold current_user, shows. split.
  - destruct (sr_auth rq) as [[|c h]|] eqn:E; [discriminate| |discriminate]. destruct (split1 " "%char (c :: h)) as [[a b]|] eqn:S; [|discriminate]. intros [= H]. apply andb_true_iff in H as [->%bool_decide_eq_true ->%bool_decide_eq_true].
    apply split1_join in S. by rewrite S.
  - intros ->. change (b_ "token " ++ tok) with ("t"%char :: (b_ "oken " ++ tok)). change ("t"%char :: (b_ "oken " ++ tok)) with (b_ "token " ++ tok). rewrite split1_token, !bool_decide_true by done. done.
Qed.
(** C146 (orders): the service is told something exactly by requests that show the token
    and say it. *)
Theorem C146_orders token rq ord : (exists st, comm token rq = (st, Some ord)) <-> shows token rq /\ says rq ord.
Proof.
  unfold comm. split.
  - intros [st H]. destruct (prepare rq) as [msg|] eqn:P; [|discriminate]. destruct (current_user token rq) as [[|]|] eqn:U; [|discriminate..]. apply user_spec in U. split; [done|].
    unfold prepare in P. destruct (starts_with _ _) eqn:T; [|injection P as <-; discriminate]. apply starts_with_spec in T as [rest T]. destruct (sr_type rq) as [ty|] eqn:ET; [change (default [] (Some ty)) with ty in T|discriminate].
    destruct (sr_body rq) as [b|] eqn:EB; [|discriminate]. injection P as <-. unfold post in H. destruct b; try discriminate. destruct (dget (b_ "op") o) as [[]|] eqn:D; try discriminate.
    destruct (decide (s = b_ "scale")) as [->|]; [|destruct (decide (s = b_ "adapt")) as [->|]; [|discriminate]]; injection H as <- <-; [eapply says_scale|eapply says_adapt]; first [eassumption | reflexivity | by apply jget_spec].
  - intros [U%user_spec S]. rewrite U. destruct S as [o ty rest v T1 -> B D F|o ty rest mn mx act T1 -> B D F1 F2 F3].
    + unfold prepare. rewrite T1, B. cbn [default from_option id]. rewrite (proj2 (starts_with_spec _ _)) by eauto. cbn [option_map post]. rewrite D. destruct (decide (b_ "scale" = b_ "scale")); [|done]. apply jget_spec in F as ->. eauto.
    + unfold prepare. rewrite T1, B. cbn [default from_option id]. rewrite (proj2 (starts_with_spec _ _)) by eauto. cbn [option_map post]. rewrite D. destruct (decide (b_ "adapt" = b_ "scale")) as [E|_]; [discriminate E|]. destruct (decide (b_ "adapt" = b_ "adapt")); [|done].
      apply jget_spec in F1 as ->. apply jget_spec in F2 as ->. apply jget_spec in F3 as ->. eauto.
Qed.
(** C146 (answer): 200 is answered exactly if the service was told something; otherwise the
    answer is an error. *)
Theorem C146_answer token rq : (exists ord, comm token rq = (200, Some ord)) \/ (exists st, comm token rq = (st, None) /\ 400 <= st).
Proof.
  unfold comm. destruct (prepare rq) as [msg|]; [|right; exists 500; split; [done|lia]]. destruct (current_user token rq) as [[|]|]; [|right; eexists; split; [done|lia]..].
  unfold post. destruct msg as [[]|]; try (right; eexists; split; [done|lia]). destruct (dget (b_ "op") o) as [[]|]; try (right; eexists; split; [done|lia]).
  destruct (decide (s = b_ "scale")); [left; eauto|]. destruct (decide (s = b_ "adapt")); [left; eauto|right; eexists; split; [done|lia]].
Qed.
(** C146 (gateway): a message of the gateway to the cluster's own scheduler is carried out as
    it was meant; another scheduler refuses it. *)
Theorem C146_gateway c m : comm (k_token c) (request_of c m) = (200, Some (meaning m)).
Proof.
  unfold comm. rewrite (proj2 (user_spec (k_token c) (request_of c m))) by done. unfold prepare. cbn [request_of sr_type sr_body default from_option id].
  rewrite (proj2 (starts_with_spec _ _)) by (exists []; by rewrite app_nil_r). cbn [option_map]. destruct m; vm_compute; reflexivity.
Qed.
Theorem C146_other token c m : token <> k_token c -> comm token (request_of c m) = (403, None).
Proof.
  intros Hn. unfold comm, prepare. cbn [request_of sr_type sr_body default from_option id]. rewrite (proj2 (starts_with_spec _ _)) by (exists []; by rewrite app_nil_r). cbn [option_map].
  unfold current_user. cbn [request_of sr_auth]. change (b_ "token " ++ k_token c) with ("t"%char :: (b_ "oken " ++ k_token c)). change ("t"%char :: (b_ "oken " ++ k_token c)) with (b_ "token " ++ k_token c).
  rewrite split1_token. rewrite (bool_decide_false (k_token c = token)) by congruence. by rewrite andb_false_r.
Qed.
(** C146 (user): so a request of the owner of a running cluster for [z] workers that is not
    refused makes the cluster's scheduler, and no other, be told [z], or the maximum if that
    is less. *)
Theorem C146_user max_age retries s id rq o now s' out u n c z : api_step max_age retries s (Arrive id rq o now) = (s', out) -> user_of (ao_who out) = Some u ->
  rq_ep rq = EpScale n -> o_db2 o n = Some c -> k_user c = u_name u -> is_object rq -> member rq (b_ "count") ≫= int_of = Some z -> 0 <= z -> k_status c = KRUNNING ->
  (exists c' m, sends (ao_effects out) c' m) /\
  forall c' m token st ord, sends (ao_effects out) c' m -> comm token (request_of c' m) = (st, Some ord) -> token = k_token c /\ ord = OScale (JInt (match k_max c with Some mx => Z.min z mx | None => z end)).
Proof.
  intros E U R D K O M Z1 S. destruct (P_Api.C39_scale _ _ _ _ _ _ _ _ _ _ _ _ E U R D K) as [H _]. destruct (H z O M Z1) as (H1 & H2 & _). split; [exists c, (MScale (clamped c z)); by apply H2|].
  intros c' m token st ord Hs Hc. destruct (H1 _ _ Hs) as [-> ->]. destruct (decide (token = k_token c)) as [->|N]; [|rewrite C146_other in Hc by done; discriminate]. rewrite C146_gateway in Hc. injection Hc as <- <-. split; [done|]. unfold meaning, clamped. by destruct (k_max c).
Qed.
(** C146 (start): a scheduler runs its service exactly if its name, its gateway and its token
    are set, the token can be read, and it can listen; otherwise the process exits. *)
Theorem C146_start env files can address name url tok : dask_setup env files can address = Some (name, url, tok) <->
  set_to env "DASK_GATEWAY_CLUSTER_NAME" name /\ set_to env "DASK_GATEWAY_API_URL" url /\ (exists v, set_to env "DASK_GATEWAY_API_TOKEN" v /\ stands_for files v tok) /\
  exists host port n, split_all ":"%char address = [host; port] /\ ProxyCmd_Model.py_int port = Some n /\ can host n = true.
Proof.
  assert (forall k v, getenv env (b_ k) = Some v <-> set_to env k v) as G.
  { intros k v. unfold getenv, set_to. destruct (dget (b_ k) env) as [[|x l]|]; split; try discriminate; try (intros [H1 H2]; congruence). intros [= <-]. done. }
  unfold dask_setup, make_gateway_client. split.
  - destruct (split_all ":"%char address) as [|host [|port [|]]] eqn:A; try discriminate. destruct (ProxyCmd_Model.py_int port) as [p|] eqn:P; [|discriminate].
    destruct (getenv env (b_ "DASK_GATEWAY_CLUSTER_NAME")) as [v1|] eqn:G1; [|discriminate]. destruct (getenv env (b_ "DASK_GATEWAY_API_URL")) as [v2|] eqn:G2; [|discriminate]. destruct (getenv env (b_ "DASK_GATEWAY_API_TOKEN")) as [v3|] eqn:G3; [|discriminate].
    cbn [mbind option_bind]. apply G in G1, G2, G3. intros H.
    assert (exists t, (if decide ("/"%char ∈ v3) then files v3 else Some v3) = Some t) as [t T] by (destruct (decide ("/"%char ∈ v3)); [destruct (files v3) eqn:F; [eauto|cbn in H; discriminate]|eauto]).
    rewrite T in H. cbn in H. destruct (can host p) eqn:C; [|discriminate]. injection H as <- <- <-. split; [done|]. split; [done|]. split; [exists v3; split; [done|]|exists host, port, p; done].
    unfold stands_for. destruct (decide ("/"%char ∈ v3)); [by left|right; split; [done|congruence]].
  - intros (G1%G & G2%G & (v & G3%G & St) & host & port & p & -> & -> & C). rewrite G1, G2, G3. cbn [mbind option_bind]. destruct (decide ("/"%char ∈ v)) as [D|D]; destruct St as [[N F]|[N ->]]; try done; [rewrite F|]; cbn; by rewrite C.
Qed.
(** C146 (token): the variable may hold a token of the gateway's making itself. *)
Theorem C146_token files v tok : hex v -> stands_for files v tok <-> tok = v.
Proof.
  intros [_ H]. assert ("/"%char ∉ v) as N. { intros E. rewrite Forall_forall in H. apply H in E. revert E. apply (bool_decide_unpack _). vm_compute. exact I. }
  unfold stands_for. split; [intros [[D _]|[_ ->]]; done|intros ->; by right].
Qed.
Print Assumptions C146_orders.
Print Assumptions C146_answer.
Print Assumptions C146_gateway.
Print Assumptions C146_other.
Print Assumptions C146_user.
Print Assumptions C146_start.
Print Assumptions C146_token.

(** A cluster with a token, its scheduler, and requests to it. *)
Definition ex_token : bytes := b_ "0badc0de".
Definition ex_clus : clus := Clus (b_ "c") (b_ "alice") ex_token KRUNNING [] [] [] [] (Some 4).
Definition ex_env : list (bytes * bytes) := [(b_ "HOME", b_ "/"); (b_ "DASK_GATEWAY_CLUSTER_NAME", b_ "c"); (b_ "DASK_GATEWAY_API_URL", b_ "http://gw"); (b_ "DASK_GATEWAY_API_TOKEN", b_ "/etc/dask-credentials/api-token")].
Definition ex_files (p : bytes) : option bytes := if decide (p = b_ "/etc/dask-credentials/api-token") then Some ex_token else None.
Example C146_example :
  dask_setup ex_env ex_files (fun _ _ => true) (b_ ":8788") = Some (b_ "c", b_ "http://gw", ex_token) /\ hex ex_token /\
  comm ex_token (request_of ex_clus (MScale 3)) = (200, Some (OScale (JInt 3))) /\
  comm ex_token (SRequest (Some (b_ "token 0badc0df")) (Some (b_ "application/json")) (Some (body_of (MScale 3)))) = (403, None) /\
  comm ex_token (SRequest (Some (b_ "token")) (Some (b_ "application/json")) (Some (body_of (MScale 3)))) = (500, None) /\
  comm ex_token (SRequest (Some (b_ "token 0badc0de")) None (Some (body_of (MScale 3)))) = (500, None) /\
  comm ex_token (SRequest (Some (b_ "token 0badc0de")) (Some (b_ "application/json; charset=utf-8")) (Some (JObj [(b_ "op", JStr (b_ "adapt"))]))) = (200, Some (OAdapt JNull JNull (JBool true))) /\
  comm ex_token (SRequest (Some (b_ "token 0badc0de")) (Some (b_ "application/json")) (Some (JObj [(b_ "op", JStr (b_ "stop"))]))) = (422, None).
Proof. repeat split; try (vm_compute; reflexivity); [done|]. apply (bool_decide_unpack _). vm_compute. exact I. Qed.
(** Alice asks for nine workers, of which four are allowed. *)
Definition ex_oracle : oracle := {| o_auth := inl (User (b_ "alice") [] false); o_db1 := fun _ => None; o_db2 := fun _ => Some ex_clus; o_list := fun _ _ => []; o_start := fun _ _ => None; o_posts := fun _ => true; o_hb := true |}.
Definition ex_rq : request := Request (EpScale (b_ "c")) None None (Some (JObj [(b_ "count", JInt 9)])).
Example C146_example_user : exists s' out, api_step 60 3 server_init (Arrive 0%nat ex_rq ex_oracle 0) = (s', out) /\ user_of (ao_who out) = Some (User (b_ "alice") [] false) /\ is_object ex_rq /\ member ex_rq (b_ "count") ≫= int_of = Some 9 /\
  sends (ao_effects out) ex_clus (MScale 4).
Proof. eexists _, _. split; [reflexivity|]. split; [reflexivity|]. split; [eexists; reflexivity|]. split; [reflexivity|]. vm_compute. left. Qed.
