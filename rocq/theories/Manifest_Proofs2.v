From Coq Require Import Ascii String ZArith QArith Qabs Lia.
From stdpp Require Import prelude.
From Verif Require Import Router_Model ProxyLog_Model ProxyLog_Proofs Json_Model Util_Model Util_Spec Util_Proofs3 Launch_Model Launch_Proofs Manifest_Model Manifest_Spec Manifest_Proofs.
From stdpp Require pretty.
From Verif Require Config_Model.
Local Open Scope nat_scope.

Lemma spec_part t ns c cf r o k : part (path ["spec"; k]%string) (make_pod t ns c cf r o) = dget (b_ k) (make_pod_spec t ns c cf r).
Proof.
  assert (E : part (path ["spec"; k]%string) (make_pod t ns c cf r o) = part [b_ k] (JObj (make_pod_spec t ns c cf r))) by reflexivity.
  rewrite E. cbn [part]. by destruct (dget (b_ k) (make_pod_spec t ns c cf r)).
Qed.
Lemma dget_dset_ne {V} (k k' : bytes) (v : V) d : k <> k' -> dget k (dset k' v d) = dget k d.
Proof. intros H. rewrite dget_dset. by rewrite decide_False. Qed.
Lemma spec_get t ns c cf r k v : is_dict (r_pod (rconf_of cf r)) -> k <> "imagePullSecrets"%string ->
  sget k [("containers", JList [JObj (make_container t ns c cf r)]);
     ("volumes", JList [jobj [("name", jstr "dask-credentials"); ("secret", jobj [("secretName", JStr (secret_name c))])]]);
     ("restartPolicy", match r with Worker => jstr "OnFailure" | Scheduler => jstr "Never" end);
     ("automountServiceAccountToken", JBool false)]%string = Some v ->
  dget (b_ k) (make_pod_spec t ns c cf r) = combined (Some v) (dget (b_ k) (r_pod (rconf_of cf r))).
Proof.
  intros Hd Hk Hv. unfold make_pod_spec. rewrite merge_get by done. f_equal.
  destruct (k_pull_secrets cf).
  - by rewrite dget_jfields.
  - rewrite dget_dset_ne; [by rewrite dget_jfields|]. by intros ?%b_inj.
Qed.
Lemma main_is t ns c cf r o : extras_ok cf r -> main_container (make_pod t ns c cf r o) = Some (JObj (make_container t ns c cf r)).
Proof.
  intros (Hd & _ & Ha). unfold main_container. rewrite spec_part. erewrite spec_get; [|done|done|reflexivity].
  unfold adds_only in Ha. destruct (dget (b_ "containers") _) as [[]|]; done.
Qed.
(** The container before merging. *)
Definition plain_fields (t : ctl) (ns c : bytes) (cf : kconf) (r : role) : list (string * json) :=
  let rc := rconf_of cf r in
  let port name n := jobj [("name", jstr name); ("containerPort", JInt n)]%string in
    [("name", JStr (container_name r)); ("image", JStr (k_image cf)); ("args", JList (map JStr (pod_command ns c cf r)));
     ("env", JList (pod_env t ns c cf ++ match r with Worker => [worker_name_var] | Scheduler => [] end));
     ("resources", jobj [("requests", jobj [("cpu", JStr (fixed3 (r_cores rc))); ("memory", JStr (dec (r_mem rc)))]);
                         ("limits", jobj [("cpu", JStr (fixed3 (r_cores_limit rc))); ("memory", JStr (dec (r_mem_limit rc)))])]);
     ("volumeMounts", JList [jobj [("name", jstr "dask-credentials"); ("mountPath", jstr "/etc/dask-credentials/"); ("readOnly", JBool true)]]);
     ("ports", JList [port "scheduler" 8786%Z; port "dashboard" 8787%Z; port "api" 8788%Z])]%string.
Lemma container_get t ns c cf r k v : is_dict (r_container (rconf_of cf r)) -> k <> "imagePullPolicy"%string -> k <> "readinessProbe"%string ->
  sget k (plain_fields t ns c cf r) = Some v ->
  dget (b_ k) (make_container t ns c cf r) = combined (Some v) (dget (b_ k) (r_container (rconf_of cf r))).
Proof.
  intros Hd H1 H2 Hv. unfold make_container. rewrite merge_get by done. f_equal. change (jfields _) with (jfields (plain_fields t ns c cf r)).
  assert (N1 : b_ k <> b_ "imagePullPolicy") by (by intros ?%b_inj). assert (N2 : b_ k <> b_ "readinessProbe") by (by intros ?%b_inj).
  rewrite <- Hv, <- dget_jfields.
  destruct (k_pull_policy cf) as [[|x p]|], r; rewrite ?dget_dset_ne by done; done.
Qed.

(** * Variables. *)
Lemma effective_app k l1 l2 : effective k (l1 ++ l2) = match effective k l2 with Some v => Some v | None => effective k l1 end.
Proof. induction l1 as [|e l1 IH]; cbn [app effective]; [by destruct (effective k l2)|]. rewrite IH. by destruct (effective k l2). Qed.
Lemma effective_env (d : list (bytes * bytes)) k : NoDup (map fst d) ->
  effective k (map (fun kv => jobj [("name", JStr (fst kv)); ("value", JStr (snd kv))]%string) d) = JStr <$> dget k d.
Proof.
  induction d as [|[k' v] d IH]; intros Hn; [done|]. cbn [map fst] in Hn. apply NoDup_cons in Hn as [Hx Hn].
  cbn [map effective fst snd]. rewrite (IH Hn). cbn [dget]. rewrite field_jobj. cbn [sget String.eqb Ascii.eqb Bool.eqb].
  destruct (decide (k = k')) as [E|Hne]; [subst k'|].

  - rewrite (dget_notin k d Hx). cbn. by rewrite decide_True.
  - destruct (dget k d); [done|]. cbn. by rewrite decide_False by congruence.
Qed.
Lemma variable_is t ns c cf r o k : extras_ok cf r -> quiet k (r_container (rconf_of cf r)) ->
  variable k (make_pod t ns c cf r o) = effective k (pod_env t ns c cf ++ match r with Worker => [worker_name_var] | Scheduler => [] end).
Proof.
  intros Hx Hq. unfold variable. rewrite main_is by done. cbn [mbind option_bind field].
  erewrite container_get; [|apply Hx|done|done|reflexivity].
  unfold quiet in Hq. destruct (dget (b_ "env") (r_container (rconf_of cf r))) as [[| | | | |l|]|]; try done. cbn [combined].
  by rewrite effective_app, Hq.
Qed.
Lemma env_get t ns c cf k : effective k (pod_env t ns c cf) = JStr <$> match dget k (rev (pod_required t ns c)) with Some v => Some v | None => dget k (dupdate [] (k_env cf)) end.
Proof.
  unfold pod_env. rewrite effective_env by (do 2 apply dupdate_nodup; constructor). by rewrite dget_dupdate.
Qed.
Lemma effective_name k : effective k [worker_name_var] = if decide (k = b_ "DASK_GATEWAY_WORKER_NAME") then Some (jobj [("fieldRef", jobj [("fieldPath", jstr "metadata.name")])]%string) else None.
Proof.
  cbn [effective]. unfold worker_name_var. rewrite field_jobj. cbn [sget String.eqb Ascii.eqb Bool.eqb]. unfold jstr.
  destruct (decide (k = b_ "DASK_GATEWAY_WORKER_NAME")) as [->|H]; [by rewrite decide_True|by rewrite decide_False by congruence].
Qed.
Lemma required_get t ns c k v : (k, v) ∈ pod_required t ns c -> dget k (rev (pod_required t ns c)) = Some v.
Proof.
  intros H. apply in_dget.
  - rewrite map_rev. apply NoDup_ListNoDup, NoDup_rev, NoDup_ListNoDup. apply (bool_decide_unpack _). vm_compute. done.
  - apply elem_of_list_In, in_rev. rewrite rev_involutive. by apply elem_of_list_In.
Qed.
Lemma required_not_name t ns c : b_ "DASK_GATEWAY_WORKER_NAME" ∉ map fst (pod_required t ns c).
Proof. apply (bool_decide_unpack _). vm_compute. done. Qed.

Lemma pod_variable_required t ns c cf r o k v : extras_ok cf r -> quiet k (r_container (rconf_of cf r)) -> (k, v) ∈ pod_required t ns c ->
  variable k (make_pod t ns c cf r o) = Some (JStr v).
Proof.
  intros Hx Hq Hin. rewrite variable_is by done. rewrite effective_app.
  assert (Hne : k <> b_ "DASK_GATEWAY_WORKER_NAME").
  { intros ->. apply (required_not_name t ns c). change (b_ "DASK_GATEWAY_WORKER_NAME") with (fst (b_ "DASK_GATEWAY_WORKER_NAME", v)). by apply elem_of_list_fmap_1. }
  assert (E : effective k (match r with Worker => [worker_name_var] | Scheduler => [] end) = None).
  { destruct r; [done|]. rewrite effective_name. by rewrite decide_False. }
  rewrite E, env_get. by rewrite (required_get _ _ _ _ _ Hin).
Qed.
Lemma pod_variable_asked t ns c cf r o k : extras_ok cf r -> quiet k (r_container (rconf_of cf r)) -> k ∉ map fst (pod_required t ns c) ->
  k <> b_ "DASK_GATEWAY_WORKER_NAME" -> variable k (make_pod t ns c cf r o) = JStr <$> dget k (dupdate [] (k_env cf)).
Proof.
  intros Hx Hq Hin Hne. rewrite variable_is by done. rewrite effective_app.
  assert (E : effective k (match r with Worker => [worker_name_var] | Scheduler => [] end) = None).
  { destruct r; [done|]. rewrite effective_name. by rewrite decide_False. }
  rewrite E, env_get, dget_notin; [done|]. rewrite map_rev. intros H%elem_of_list_In%in_rev%elem_of_list_In. done.
Qed.
Lemma pod_worker_name t ns c cf o : extras_ok cf Worker -> quiet (b_ "DASK_GATEWAY_WORKER_NAME") (r_container (k_worker cf)) ->
  variable (b_ "DASK_GATEWAY_WORKER_NAME") (make_pod t ns c cf Worker o) = Some (jobj [("fieldRef", jobj [("fieldPath", jstr "metadata.name")])]%string).
Proof. intros Hx Hq. rewrite variable_is by done. by rewrite effective_app, effective_name, decide_True. Qed.

(** * Files. *)
Lemma pod_mounted t ns c cf r o : extras_ok cf r -> adds_only "volumeMounts" (r_container (rconf_of cf r)) -> adds_only "volumes" (r_pod (rconf_of cf r)) ->
  mounted (make_pod t ns c cf r o) (b_ "/etc/dask-credentials/") = Some (secret_name c).
Proof.
  intros Hx Hm Hv. unfold mounted. rewrite main_is by done. cbn [mbind option_bind field].
  erewrite container_get; [|apply Hx|done|done|reflexivity]. rewrite spec_part.
  erewrite spec_get; [|apply Hx|done|reflexivity].
  unfold adds_only in Hm, Hv.
  destruct (dget (b_ "volumeMounts") (r_container (rconf_of cf r))) as [[| | | | |l1|]|]; try done;
  destruct (dget (b_ "volumes") (r_pod (rconf_of cf r))) as [[| | | | |l2|]|]; try done; reflexivity.
Qed.
Lemma pod_files t ns c cf r o o' crt pem token : extras_ok cf r -> adds_only "volumeMounts" (r_container (rconf_of cf r)) -> adds_only "volumes" (r_pod (rconf_of cf r)) ->
  let file := file_is (make_pod t ns c cf r o) (make_secret t c crt pem token o') in
  file (b_ "/etc/dask-credentials/dask.crt") crt /\ file (b_ "/etc/dask-credentials/dask.pem") pem /\ file (b_ "/etc/dask-credentials/api-token") token.
Proof.
  intros Hx Hm Hv file. unfold file, file_is. split_and!;
    [exists (b_ "/etc/dask-credentials/"), (b_ "dask.crt"), (secret_name c)|exists (b_ "/etc/dask-credentials/"), (b_ "dask.pem"), (secret_name c)|
     exists (b_ "/etc/dask-credentials/"), (b_ "api-token"), (secret_name c)];
    (split; [reflexivity|]; split; [by apply pod_mounted|split; reflexivity]).
Qed.

(** * Resources. *)
Lemma pod_resources t ns c cf r o : extras_ok cf r -> leaves "resources" (r_container (rconf_of cf r)) ->
  exists x, main_container (make_pod t ns c cf r o) = Some x /\
    part (path ["resources"; "requests"; "memory"]%string) x = Some (JStr (dec (r_mem (rconf_of cf r)))) /\
    part (path ["resources"; "limits"; "memory"]%string) x = Some (JStr (dec (r_mem_limit (rconf_of cf r)))) /\
    part (path ["resources"; "requests"; "cpu"]%string) x = Some (JStr (fixed3 (r_cores (rconf_of cf r)))) /\
    part (path ["resources"; "limits"; "cpu"]%string) x = Some (JStr (fixed3 (r_cores_limit (rconf_of cf r)))).
Proof.
  intros Hx Hl. eexists. split; [by apply main_is|]. unfold leaves in Hl. cbn [path map part].
  erewrite container_get; [|apply Hx|done|done|reflexivity]. rewrite Hl. split_and!; reflexivity.
Qed.
Lemma pod_args t ns c cf r o : extras_ok cf r -> leaves "args" (r_container (rconf_of cf r)) ->
  exists x, main_container (make_pod t ns c cf r o) = Some x /\ field "args" x = Some (JList (map JStr (pod_command ns c cf r))).
Proof.
  intros Hx Hl. eexists. split; [by apply main_is|]. unfold leaves in Hl. cbn [field].
  erewrite container_get; [|apply Hx|done|done|reflexivity]. rewrite Hl. reflexivity.
Qed.

(** * Printing numbers. *)
Lemma digits_app acc a b : digits acc (a ++ b) = x ← digits acc a; digits x b.
Proof. revert acc. induction a as [|y a IH]; intros acc; [done|]. cbn [app digits]. destruct (_ && _); [apply IH|done]. Qed.
Lemma digit_char n acc l : (0 <= n < 10)%Z -> digits acc (digit n :: l) = digits (10 * acc + n) l.
Proof.
  intros H. cbn [digits]. unfold digit. rewrite nat_ascii_embedding by lia.
  rewrite Nat2Z.inj_add, Z2Nat.id by lia. change (Z.of_nat 48) with 48%Z.
  rewrite (proj2 (Z.leb_le _ _)) by lia. rewrite (proj2 (Z.leb_le _ _)) by lia. cbn [andb]. f_equal. lia.
Qed.
Lemma pretty_char n : (n < 10)%N -> pretty.pretty_N_char n = digit (Z.of_N n).
Proof.
  intros H. assert (n = 0 \/ n = 1 \/ n = 2 \/ n = 3 \/ n = 4 \/ n = 5 \/ n = 6 \/ n = 7 \/ n = 8 \/ n = 9)%N as Hn by lia.
  repeat (destruct Hn as [->|Hn]; [vm_compute; done|]). subst. vm_compute. done.
Qed.
Lemma pretty_go_digits x : forall s v, digits 0 (list_ascii_of_string s) = Some v -> 
  (forall acc, digits acc (list_ascii_of_string s) = Some (acc * 10 ^ Z.of_nat (String.length s) + v)%Z) ->
  digits 0 (list_ascii_of_string (pretty.pretty_N_go x s)) = Some (Z.of_N x * 10 ^ Z.of_nat (String.length s) + v)%Z.
Proof.
  induction (N.lt_wf_0 x) as [x _ IH]. intros s v Hv Hacc. destruct (N.eq_dec x 0) as [->|Hx].
  - rewrite pretty.pretty_N_go_0, Hv. f_equal; lia.
  - rewrite pretty.pretty_N_go_step by lia.
    assert (Hd : (x `mod` 10 < 10)%N) by (apply N.mod_lt; lia).
    pose proof (N.div_mod x 10 ltac:(lia)) as Hdm.
    remember (x `mod` 10)%N as dn eqn:Edn. remember (x `div` 10)%N as qn eqn:Eqn.
    set (d := Z.of_N dn).
    assert (Hds : (0 <= d < 10)%Z) by (unfold d; clear -Hd; lia).
    assert (Hq : (qn < x)%N) by (subst qn; apply N.div_lt; lia).
    erewrite (IH qn Hq (String (pretty.pretty_N_char dn) s) (d * 10 ^ Z.of_nat (String.length s) + v)%Z).
    + f_equal. cbn [String.length]. rewrite Nat2Z.inj_succ, Z.pow_succ_r by lia.
      assert (Hz : Z.of_N x = (10 * Z.of_N qn + d)%Z) by (unfold d; clear -Hdm; lia). rewrite Hz. lia.
    + cbn [list_ascii_of_string]. rewrite pretty_char by done. fold d. rewrite digit_char by done. rewrite Hacc. f_equal; lia.
    + intros acc. cbn [list_ascii_of_string]. rewrite pretty_char by done. fold d. rewrite digit_char by done. rewrite Hacc. f_equal.
      cbn [String.length]. rewrite Nat2Z.inj_succ, Z.pow_succ_r by lia. lia.
Qed.
Lemma dec_digits z : (0 <= z)%Z -> digits 0 (dec z) = Some z.
Proof.
  intros H. unfold dec, pretty.pretty, pretty.pretty_Z. destruct z as [|p|p]; [done| |lia].
  change (list_ascii_of_string _) with (list_ascii_of_string (pretty.pretty_N (Npos p))). unfold pretty.pretty_N. rewrite decide_False by done.
  rewrite (pretty_go_digits (Npos p) "" 0%Z); [cbn; f_equal; lia|done|]. intros acc. cbn. f_equal; lia.
Qed.
Lemma digits_no_dot acc l v : digits acc l = Some v -> "."%char ∉ l.
Proof.
  revert acc. induction l as [|x l IH]; intros acc H; [apply not_elem_of_nil|]. cbn [digits] in H.
  destruct (_ && _) eqn:E; [|done]. apply not_elem_of_cons. split; [|by eapply IH]. intros <-. vm_compute in E. done.
Qed.

Lemma millis_bounds q : (0 <= q)%Q -> (0 <= millis q)%Z /\ (2 * Z.abs (millis q * Zpos (Qden q) - 1000 * Qnum q) <= Zpos (Qden q))%Z.
Proof.
  intros Hq. unfold millis, Config_Model.round_half_even. set (d := Zpos (Qden q)). set (n := (1000 * Qnum q)%Z).
  assert (Hn : (0 <= n)%Z). { unfold n. unfold Qle in Hq. cbn in Hq. lia. }
  assert (Hd : (0 < d)%Z) by (unfold d; lia).
  pose proof (Z.div_mod n d ltac:(lia)) as E. pose proof (Z.mod_pos_bound n d Hd) as B. pose proof (Z.div_pos n d Hn Hd) as P.
  destruct (2 * (n mod d) <? d)%Z eqn:E1; [apply Z.ltb_lt in E1; split; [done|]; nia|]. apply Z.ltb_ge in E1.
  destruct (d <? 2 * (n mod d))%Z eqn:E2; [apply Z.ltb_lt in E2; split; [lia|]; nia|]. apply Z.ltb_ge in E2.
  destruct (Z.even (n / d)); (split; [lia|]; nia).
Qed.
Lemma fixed3_value q : (0 <= q)%Q -> exists x, quantity (fixed3 q) = Some x /\ (x == inject_Z (millis q) / 1000)%Q.
Proof.
  intros Hq. destruct (millis_bounds q Hq) as [Hm _]. unfold fixed3. set (n := millis q) in *.
  assert (Hdiv : (0 <= n / 1000)%Z) by (apply Z.div_pos; lia).
  set (frac := [digit (n / 100 mod 10); digit (n / 10 mod 10); digit (n mod 10)]).
  assert (Hf : digits 0 frac = Some (n mod 1000)%Z).
  { unfold frac. pose proof (Z.mod_pos_bound (n / 100) 10 ltac:(lia)). pose proof (Z.mod_pos_bound (n / 10) 10 ltac:(lia)). pose proof (Z.mod_pos_bound n 10 ltac:(lia)).
    rewrite !digit_char by lia. cbn [digits]. f_equal. clear. Z.div_mod_to_equations. lia. }
  unfold quantity. rewrite split_dot_cons by (eapply digits_no_dot, dec_digits; done).
  rewrite split_dot_plain by (eapply digits_no_dot; exact Hf). rewrite dec_digits by done. cbn [mbind option_bind]. rewrite Hf. cbn [mbind option_bind].
  eexists. split; [reflexivity|]. change (length frac) with 3. change (10 ^ Z.of_nat 3)%Z with 1000%Z.
  pose proof (Z.div_mod n 1000 ltac:(lia)) as E. rewrite E at 3. rewrite inject_Z_plus, inject_Z_mult. field.
Qed.
Lemma fixed3_close q : (0 <= q)%Q -> exists x, quantity (fixed3 q) = Some x /\ (Qabs (x - q) <= 1 # 2000)%Q.
Proof.
  intros Hq. destruct (fixed3_value q Hq) as (x & Hx & E). exists x. split; [done|]. rewrite E.
  destruct (millis_bounds q Hq) as [_ B]. destruct q as [a d]. cbn [Qnum Qden] in B. set (m := millis (a # d)) in *. clearbody m.
  apply Qabs_Qle_condition. unfold Qle, Qminus, Qplus, Qopp, Qdiv, Qmult, Qinv, inject_Z. cbn [Qnum Qden]. split; nia.
Qed.
Lemma millis_mono p q : (p <= q)%Q -> (millis p <= millis q)%Z.
Proof.
  unfold Qle, millis, Config_Model.round_half_even. destruct p as [a b], q as [c d]. cbn [Qnum Qden]. intros H.
  set (B := Zpos b) in *. set (D := Zpos d) in *.
  assert (HB : (0 < B)%Z) by (unfold B; lia). assert (HD : (0 < D)%Z) by (unfold D; lia). clearbody B D.
  pose proof (Z.div_mod (1000 * a) B ltac:(lia)) as E1. pose proof (Z.mod_pos_bound (1000 * a) B HB) as B1.
  pose proof (Z.div_mod (1000 * c) D ltac:(lia)) as E2. pose proof (Z.mod_pos_bound (1000 * c) D HD) as B2.
  set (x := (1000 * a / B)%Z) in *. set (r := ((1000 * a) mod B)%Z) in *. set (y := (1000 * c / D)%Z) in *. set (s := ((1000 * c) mod D)%Z) in *. clearbody x r y s.
  assert (Hle : ((B * x + r) * D <= (D * y + s) * B)%Z) by nia.
  assert (Hxy : (x <= y)%Z).
  { destruct (Z_le_gt_dec x y) as [Hle'|Hgt]; [done|exfalso].
    assert (H1 : (0 <= (x - y - 1) * (B * D))%Z) by (apply Z.mul_nonneg_nonneg; [lia|apply Z.mul_nonneg_nonneg; lia]).
    assert (H2 : (0 <= r * D)%Z) by (apply Z.mul_nonneg_nonneg; lia).
    assert (H3 : (0 < (D - s) * B)%Z) by (apply Z.mul_pos_pos; lia). lia. }
  destruct (Z.eq_dec x y) as [->|Hne].
  - assert (Hrs : (r * D <= s * B)%Z) by nia.
    destruct (2 * r <? B)%Z eqn:F1; [destruct (2 * s <? D)%Z; [lia|]; destruct (D <? 2 * s)%Z; [lia|]; destruct (Z.even y); lia|]. apply Z.ltb_ge in F1.
    assert (HsD : (D <= 2 * s)%Z) by nia. rewrite (proj2 (Z.ltb_ge (2 * s) D)) by lia.
    destruct (B <? 2 * r)%Z eqn:F2.
    + apply Z.ltb_lt in F2. assert (D < 2 * s)%Z by nia. rewrite (proj2 (Z.ltb_lt D (2 * s))) by lia. lia.
    + destruct (Z.even y) eqn:Ev; destruct (D <? 2 * s)%Z; lia.
  - assert (x + 1 <= y)%Z by lia.
    repeat match goal with |- context [if ?b then _ else _] => destruct b end; lia.
Qed.
Lemma fixed3_mono p q : (0 <= p)%Q -> (p <= q)%Q -> exists x y, quantity (fixed3 p) = Some x /\ quantity (fixed3 q) = Some y /\ (x <= y)%Q.
Proof.
  intros Hp Hpq. destruct (fixed3_value p Hp) as (x & Hx & Ex). destruct (fixed3_value q) as (y & Hy & Ey); [by eapply Qle_trans|].
  exists x, y. split; [done|split; [done|]]. rewrite Ex, Ey. pose proof (millis_mono p q Hpq) as H.
  unfold Qle, Qdiv, Qmult, Qinv, inject_Z. cbn [Qnum Qden]. nia.
Qed.

(** * Collected objects. *)
Lemma settled_gone t ns c cf cu pu x u objs : settled objs -> (u, create t ns c cf cu pu x) ∈ objs ->
  match x with Secret _ _ _ | SchedulerPod => cu | _ => pu end ∈ map fst objs.
Proof.
  intros Hs Hin. destruct (Hs _ _ Hin) as [E|(v & Hv & Hin')].
  - rewrite create_owner in E. done.
  - rewrite create_owner in Hv. apply elem_of_list_singleton in Hv. injection Hv as ->. destruct x; done.
Qed.
