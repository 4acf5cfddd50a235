(** Proofs for C54. *)
From Coq Require Import ZArith Lia.
From stdpp Require Import gmap.
From Verif Require Import Trace View_Model View_Spec.

Definition related (o : option obj) (v : option view) : Prop := match o, v with Some o, Some v => shown o v | None, None => True | _, _ => False end.
Lemma shown_build o c : (ophase o = RUNNING -> ocred o = true -> c <> None) -> shown o (with_cred (build o) c).
Proof. intros H. unfold shown, with_cred, build; cbn. split_and!; try done. destruct (decide _) as [E|E]; destruct (ophase o); done. Qed.
Lemma build_with o : build o = with_cred (build o) None.
Proof. done. Qed.

Record Inv (s : state) : Prop := {
  i_rel : forall k, done_with s k -> related (cache s !! k) (clusters s !! k);
  i_proc : forall k v, proc s = Some (k, v) -> k ∈ dirty s \/ exists o, cache s !! k = Some o /\ v = build o;
  i_addr : forall k v a, clusters s !! k = Some v -> v_addr v = Some a -> v_status v = RUNNING;
  i_paddr : forall k v a, proc s = Some (k, v) -> v_addr v = Some a -> v_status v = RUNNING;
  i_user : forall u m k v, index s !! u = Some m -> m !! k = Some v -> v_user v = u }.
Lemma addr_build o a : v_addr (build o) = Some a -> ophase o = RUNNING.
Proof. cbn. by destruct (decide _). Qed.

Lemma inv_store k v c s : Inv s -> proc s = None -> (k ∈ dirty s \/ exists o, cache s !! k = Some o /\ v = build o /\ (ophase o = RUNNING -> ocred o = true -> c <> None)) -> (forall a, v_addr v = Some a -> v_status v = RUNNING) -> Inv (store k (with_cred v c) s).
Proof.
  intros [H1 H2 H3 H4 H5] Hp Hk Ha. constructor; unfold store; cbn [cache dirty proc clusters index].
  - intros k2 [Hd Hq]; cbn [dirty proc] in *. destruct (decide (k2 = k)) as [->|Hne].
    + rewrite lookup_insert. destruct Hk as [?|(o & -> & -> & Hc)]; [done|]. by apply shown_build.
    + rewrite lookup_insert_ne by done. by apply H1.
  - intros k2 v2 E. congruence.
  - intros k2 v2 a. destruct (decide (k2 = k)) as [->|Hne]; [rewrite lookup_insert; intros [= <-]; cbn; apply Ha|]. rewrite lookup_insert_ne by done. apply H3.
  - intros k2 v2 a E. congruence.
  - intros u m k2 v2. cbn [with_cred v_user]. destruct (decide (u = v_user v)) as [->|Hne].
    + rewrite lookup_insert. intros [= <-]. destruct (decide (k2 = k)) as [->|Hne2]; [rewrite lookup_insert; intros [= <-]; done|]. rewrite lookup_insert_ne by done.
      destruct (index s !! v_user v) as [m|] eqn:E; cbn; [by apply H5|by rewrite lookup_empty].
    + rewrite lookup_insert_ne by done. apply H5.
Qed.
Lemma inv_forget k s : Inv s -> cache s !! k = None -> Inv (forget k s).
Proof.
  intros HI Hk. unfold forget. destruct (clusters s !! k) as [v|] eqn:E; [|done]. destruct HI as [H1 H2 H3 H4 H5]. constructor; cbn [cache dirty proc clusters index]; try done.
  - intros k2 Hd. destruct (decide (k2 = k)) as [->|Hne]; [by rewrite lookup_delete, Hk|]. rewrite lookup_delete_ne by done. by apply H1.
  - intros k2 v2 a. destruct (decide (k2 = k)) as [->|Hne]; [by rewrite lookup_delete|]. rewrite lookup_delete_ne by done. apply H3.
  - intros u m k2 v2. destruct (index s !! v_user v) as [m0|] eqn:Em; [|by apply H5]. destruct (decide _) as [Hd|Hd].
    + destruct (decide (u = v_user v)) as [->|Hne]; [by rewrite lookup_delete|]. rewrite lookup_delete_ne by done. apply H5.
    + destruct (decide (u = v_user v)) as [->|Hne]; [|rewrite lookup_insert_ne by done; apply H5]. rewrite lookup_insert. intros [= <-] Hv. apply lookup_delete_Some in Hv as [_ Hv]. by eapply H5.
Qed.
Lemma forget_fields k s : cache (forget k s) = cache s /\ dirty (forget k s) = dirty s /\ proc (forget k s) = proc s.
Proof. unfold forget. by destruct (clusters s !! k). Qed.

(** After the key is taken from the queue everything holds except for that key. *)
Lemma inv_sync k s : Inv s -> proc s = None -> Inv (sync k (State (cache s) (dirty s ∖ {[k]}) None (clusters s) (index s))).
Proof.
  intros HI Hp. assert (HW : forall k2, k2 <> k -> done_with (State (cache s) (dirty s ∖ {[k]}) None (clusters s) (index s)) k2 -> done_with s k2).
  { intros k2 Hne [Hd Hq]. split; [|intros v; by rewrite Hp]. cbn in Hd. set_solver. }
  set (s1 := State (cache s) (dirty s ∖ {[k]}) None (clusters s) (index s)) in *. destruct HI as [H1 H2 H3 H4 H5]. unfold sync. cbn [s1 cache clusters].
  destruct (cache s !! k) as [o|] eqn:Ec.
  - (* the weak invariant at s1: all but k *)
    assert (Hst : forall c, (ophase o = RUNNING -> ocred o = true -> c <> None) -> Inv (store k (with_cred (build o) c) s1)).
    { intros c Hc. constructor; unfold store; cbn [cache dirty proc clusters index s1]; try done.
      - intros k2 Hd. destruct (decide (k2 = k)) as [->|Hne]; [rewrite lookup_insert, Ec; by apply shown_build|]. rewrite lookup_insert_ne by done. apply H1, HW; [done|]. destruct Hd as [Hd Hq]. split; done.
      - intros k2 v2 a. destruct (decide (k2 = k)) as [->|Hne]; [rewrite lookup_insert; intros [= <-]; cbn; apply addr_build|]. rewrite lookup_insert_ne by done. apply H3.
      - intros u m k2 v2. change (v_user (with_cred (build o) c)) with (username o). destruct (decide (u = username o)) as [->|Hne].
        + rewrite lookup_insert. intros [= <-]. destruct (decide (k2 = k)) as [->|Hne2]; [rewrite lookup_insert; intros [= <-]; done|]. rewrite lookup_insert_ne by done.
          destruct (index s !! username o) as [m|] eqn:E; cbn; [by apply H5|by rewrite lookup_empty].
        + rewrite lookup_insert_ne by done. apply H5. }
    assert (Hwait : Inv (State (cache s) (dirty s ∖ {[k]}) (Some (k, build o)) (clusters s) (index s))).
    { constructor; cbn [cache dirty proc clusters index]; try done.
      - intros k2 [Hd Hq]; cbn in Hd, Hq. assert (k2 <> k) by (intros ->; by apply (Hq (build o))). apply H1, HW; [done|]. split; [done|]. by intros v.
      - intros k2 v2 [= <- <-]. right. eauto.
      - intros k2 v2 a [= <- <-]. apply addr_build. }
    destruct (clusters s !! k) as [[u st a [c|] sp]|] eqn:Ek.
    + by apply Hst.
    + destruct (_ && _) eqn:Eb; [exact Hwait|]. rewrite build_with. apply Hst. intros Er Hc. rewrite Er, Hc in Eb. done.
    + destruct (_ && _) eqn:Eb; [exact Hwait|]. rewrite build_with. apply Hst. intros Er Hc. rewrite Er, Hc in Eb. done.
  - unfold forget. cbn [s1 clusters index dirty cache proc]. destruct (clusters s !! k) as [v|] eqn:E.
    + constructor; cbn [cache dirty proc clusters index]; try done.
      * intros k2 Hd. destruct (decide (k2 = k)) as [->|Hne]; [by rewrite lookup_delete, Ec|]. rewrite lookup_delete_ne by done. apply H1, HW; [done|]. by destruct Hd.
      * intros k2 v2 a. destruct (decide (k2 = k)) as [->|Hne]; [by rewrite lookup_delete|]. rewrite lookup_delete_ne by done. apply H3.
      * intros u m k2 v2. destruct (index s !! v_user v) as [m0|] eqn:Em; [|by apply H5]. destruct (decide _) as [Hd|Hd].
        -- destruct (decide (u = v_user v)) as [->|Hne]; [by rewrite lookup_delete|]. rewrite lookup_delete_ne by done. apply H5.
        -- destruct (decide (u = v_user v)) as [->|Hne]; [|rewrite lookup_insert_ne by done; apply H5]. rewrite lookup_insert. intros [= <-] Hv. apply lookup_delete_Some in Hv as [_ Hv]. by eapply H5.
    + constructor; cbn [cache dirty proc clusters index s1]; try done. intros k2 Hd. destruct (decide (k2 = k)) as [->|Hne]; [by rewrite Ec, E|]. by apply H1, HW.
Qed.
Lemma inv_change s c d k : Inv s -> (forall k2, k2 <> k -> c !! k2 = cache s !! k2) -> d = {[k]} ∪ dirty s -> Inv (State c d (proc s) (clusters s) (index s)).
Proof.
  intros [H1 H2 H3 H4 H5] Hc ->. constructor; cbn [cache dirty proc clusters index]; try done.
  - intros k2 [Hd Hq]; cbn in Hd, Hq. assert (k2 <> k) by set_solver. rewrite Hc by done. apply H1. split; [set_solver|done].
  - intros k2 v2 E. destruct (decide (k2 = k)) as [->|Hne]; [left; set_solver|]. destruct (H2 k2 v2 E) as [?|?]; [left; set_solver|]. rewrite Hc by done. by right.
Qed.
Lemma inv_step s e s' o : step s e = (s', o) -> Inv s -> Inv s'.
Proof.
  intros [= <-] HI. destruct e as [k ob|k|k|r].
  - apply (inv_change s _ _ k); [done| |done]. intros k2 Hne. by rewrite lookup_insert_ne.
  - apply (inv_change s _ _ k); [done| |done]. intros k2 Hne. by rewrite lookup_delete_ne.
  - destruct (proc s) eqn:Ep; [done|]. destruct (decide _); [|done]. by apply inv_sync.
  - destruct (proc s) as [[k v]|] eqn:Ep; [|done]. destruct r as [c|].
    + pose proof HI as [H1 H2 H3 H4 H5]. destruct (H2 k v Ep) as [Hk|(ob & Hk & ->)].
      * set (s1 := State _ _ None _ _). assert (Inv s1).
        { constructor; cbn [s1 cache dirty proc clusters index]; try done. intros k2 [Hd Hq]; cbn in Hd. apply H1. split; [done|]. intros v2 E. rewrite Ep in E. injection E as <- <-. done. }
        apply inv_store; [done|done|by left|]. intros a Ha. by eapply H4.
      * constructor; unfold store; cbn [cache dirty proc clusters index]; try done.
        -- intros k2 [Hd Hq]; cbn in Hd. destruct (decide (k2 = k)) as [->|Hne]; [rewrite lookup_insert, Hk; by apply shown_build|]. rewrite lookup_insert_ne by done. apply H1. split; [done|]. intros v2. rewrite Ep. congruence.
        -- intros k2 v2 a. destruct (decide (k2 = k)) as [->|Hne]; [rewrite lookup_insert; intros [= <-]; cbn; apply addr_build|]. rewrite lookup_insert_ne by done. apply H3.
        -- intros u m k2 v2. change (v_user (with_cred (build ob) (Some c))) with (username ob). destruct (decide (u = username ob)) as [->|Hne].
           ++ rewrite lookup_insert. intros [= <-]. destruct (decide (k2 = k)) as [->|Hne2]; [rewrite lookup_insert; intros [= <-]; done|]. rewrite lookup_insert_ne by done.
              destruct (index s !! username ob) as [m|] eqn:E; cbn; [by apply H5|by rewrite lookup_empty].
           ++ rewrite lookup_insert_ne by done. apply H5.
    + pose proof HI as [H1 H2 H3 H4 H5]. constructor; cbn [cache dirty proc clusters index]; try done. intros k2 [Hd Hq]; cbn in Hd. apply H1. split; [set_solver|]. intros v2 E. rewrite Ep in E. injection E as <- <-. set_solver.
Qed.
Lemma inv_all h s : exec step init h s -> Inv s.
Proof.
  revert h s. apply (exec_ind_r step init (fun _ => Inv)).
  - constructor; cbn; try done.
  - intros h s e o s' _ HI Hs. by eapply inv_step.
Qed.

(** The index, when the objects of a key always name the same user. *)
Record Idx (owner : key -> user) (s : state) : Prop := {
  x_cache : forall k o, cache s !! k = Some o -> username o = owner k;
  x_proc : forall k v, proc s = Some (k, v) -> v_user v = owner k;
  x_owner : forall k v, clusters s !! k = Some v -> v_user v = owner k;
  x_index : forall u k v, (exists m, index s !! u = Some m /\ m !! k = Some v) <-> clusters s !! k = Some v /\ v_user v = u }.
Lemma idx_store owner k v s : Idx owner s -> proc s = None -> v_user v = owner k -> Idx owner (store k v s).
Proof.
  intros [H1 H2 H3 H4] Hp Hv. constructor; unfold store; cbn [cache dirty proc clusters index]; try done.
  - intros k2 v2. destruct (decide (k2 = k)) as [->|Hne]; [rewrite lookup_insert; intros [= <-]; done|]. rewrite lookup_insert_ne by done. apply H3.
  - intros u k2 v2. destruct (decide (u = v_user v)) as [->|Hne].
    + rewrite lookup_insert. destruct (decide (k2 = k)) as [->|Hne2].
      * rewrite lookup_insert. split; [intros (m & [= <-] & E); rewrite lookup_insert in E; by injection E as <-|]. intros ([= <-] & _). eexists. split; [done|]. by rewrite lookup_insert.
      * rewrite lookup_insert_ne by done. rewrite <- H4. split.
        -- intros (m & [= <-] & E). rewrite lookup_insert_ne in E by done. destruct (index s !! v_user v) as [m|] eqn:Em; cbn in E; [by exists m|by rewrite lookup_empty in E].
        -- intros (m & E & Em). eexists. split; [done|]. rewrite lookup_insert_ne by done. by rewrite E.
    + rewrite lookup_insert_ne by done. rewrite H4. destruct (decide (k2 = k)) as [->|Hne2]; [|by rewrite lookup_insert_ne].
      rewrite lookup_insert. split; [|intros [[= <-] ?]; done]. intros [E <-]. rewrite (H3 _ _ E) in Hne. by rewrite Hv in Hne.
Qed.
Lemma idx_frame owner s s' : Idx owner s -> (forall k o, cache s' !! k = Some o -> username o = owner k) -> (forall k v, proc s' = Some (k, v) -> v_user v = owner k) -> clusters s' = clusters s -> index s' = index s -> Idx owner s'.
Proof. intros [H1 H2 H3 H4] Hc Hp E1 E2. constructor; rewrite ?E1, ?E2; done. Qed.
Lemma idx_sync owner k s : Idx owner s -> Idx owner (sync k (State (cache s) (dirty s ∖ {[k]}) None (clusters s) (index s))).
Proof.
  intros HI. set (s1 := State (cache s) (dirty s ∖ {[k]}) None (clusters s) (index s)). assert (H1 : Idx owner s1) by (apply (idx_frame owner s); try done; apply HI).
  unfold sync. destruct (cache s1 !! k) as [o|] eqn:Ec.
  - assert (Hu : username o = owner k) by (by eapply (x_cache owner s1)).
    assert (Hw : Idx owner (State (cache s1) (dirty s1) (Some (k, build o)) (clusters s1) (index s1))) by (apply (idx_frame owner s1); try done; [apply H1|]; by intros k2 v2 [= <- <-]).
    destruct (clusters s1 !! k) as [[u st a [c|] sp]|]; [by apply idx_store| |]; (destruct (_ && _); [exact Hw|by apply idx_store]).
  - unfold forget. destruct (clusters s1 !! k) as [v|] eqn:E; [|done]. destruct H1 as [G1 G2 G3 G4].
    constructor; cbn [cache dirty proc clusters index]; try done.
    + intros k2 v2 Hv. apply lookup_delete_Some in Hv as [_ Hv]. by apply G3.
    + intros u k2 v2. destruct (proj2 (G4 (v_user v) k v) (conj E eq_refl)) as (m & Em & Emk). rewrite Em.
      assert (Hu : (exists m0, (if decide (delete k m = ∅) then delete (v_user v) (index s1) else <[v_user v := delete k m]> (index s1)) !! u = Some m0 /\ m0 !! k2 = Some v2) <-> (exists m0, index s1 !! u = Some m0 /\ m0 !! k2 = Some v2) /\ (u = v_user v -> k2 <> k)).
      { destruct (decide (delete k m = ∅)) as [Hd|Hd]; destruct (decide (u = v_user v)) as [->|Hne]; rewrite ?lookup_delete, ?lookup_insert, ?lookup_delete_ne, ?lookup_insert_ne by done; rewrite ?Em.
        - split; [intros (? & ? & _); done|]. intros ((m0 & [= <-] & Hm) & Hk). exfalso. specialize (Hk eq_refl). assert (X : delete k m !! k2 = Some v2) by (by rewrite lookup_delete_ne). by rewrite Hd in X.
        - tauto.
        - split.
          + intros (m0 & [= <-] & Hm). apply lookup_delete_Some in Hm as [? Hm]. split; [eauto|done].
          + intros ((m0 & [= <-] & Hm) & Hk). eexists. split; [done|]. rewrite lookup_delete_ne by (apply not_eq_sym; auto). done.
        - tauto. }
      rewrite Hu, G4. rewrite lookup_delete_Some. split.
      * intros ([Hc Hv] & Hk). split_and!; try done. intros <-. rewrite E in Hc. injection Hc as <-. by apply Hk.
      * intros ([Hk Hc] & Hv). by split_and!.
Qed.
Lemma idx_all owner h s : exec step init h s -> same_user owner h -> Idx owner s.
Proof.
  revert h s. apply (exec_ind_r step init (fun h s => same_user owner h -> Idx owner s)).
  - intros _. constructor; cbn; try done. intros u k v. split; [intros (? & ? & _); done|intros [? _]; done].
  - intros h s e o s' _ IH Hs Hu. apply Forall_app in Hu as [Hu He]. apply Forall_cons in He as [He _]. cbn [fst] in He. specialize (IH Hu). injection Hs as <- _. destruct e as [k ob|k|k|r].
    + apply (idx_frame owner s); try done; [|apply IH]. cbn. intros k2 o2. destruct (decide (k2 = k)) as [->|Hne]; [rewrite lookup_insert; intros [= <-]; done|]. rewrite lookup_insert_ne by done. apply IH.
    + apply (idx_frame owner s); try done; [|apply IH]. cbn. intros k2 o2 H. apply lookup_delete_Some in H as [_ H]. by eapply IH.
    + destruct (proc s); [done|]. destruct (decide _); [|done]. by apply idx_sync.
    + destruct (proc s) as [[k v]|] eqn:Ep; [|done]. assert (Hf : forall d, Idx owner (State (cache s) d None (clusters s) (index s))) by (intros d; apply (idx_frame owner s); try done; apply IH).
      destruct r; [|apply Hf]. apply idx_store; [apply Hf|done|]. cbn. by apply (x_proc owner s).
Qed.

Lemma select_wanted sts v : select sts v = true <-> wanted sts v.
Proof. destruct sts as [l|]; cbn; [by rewrite bool_decide_eq_true|]. destruct (v_status v); cbn; split; intros H; try done; try tauto; destruct H; done. Qed.
Lemma listed_in (m : gmap key view) sts v : v ∈ List.filter (select sts) (map snd (map_to_list m)) <-> wanted sts v /\ exists k, m !! k = Some v.
Proof.
  rewrite elem_of_list_In, List.filter_In, select_wanted, in_map_iff. split.
  - intros (([k v2] & <- & Hin) & Hw). apply elem_of_list_In, elem_of_map_to_list in Hin. eauto.
  - intros (Hw & k & Hk). split; [|done]. exists (k, v). split; [done|]. by apply elem_of_list_In, elem_of_map_to_list.
Qed.
Lemma listed_user s u sts v : v ∈ list_clusters s (Some u) sts <-> wanted sts v /\ exists k m, index s !! u = Some m /\ m !! k = Some v.
Proof.
  unfold list_clusters. destruct (index s !! u) as [m|] eqn:E.
  - rewrite listed_in. split; [intros (? & k & ?); eauto 6|intros (? & k & m2 & [= <-] & ?); eauto].
  - split; [by intros ?%elem_of_nil|intros (_ & k & m & ? & _); done].
Qed.
Lemma listed_all s sts v : v ∈ list_clusters s None sts <-> wanted sts v /\ exists k, get_cluster s k = Some v.
Proof. apply listed_in. Qed.

Lemma current h s k : exec step init h s -> done_with s k ->
  match cache s !! k, get_cluster s k with Some o, Some v => shown o v | None, None => True | _, _ => False end.
Proof. intros Hx Hd. exact (i_rel s (inv_all h s Hx) k Hd). Qed.
Lemma private h s u sts v : exec step init h s -> v ∈ list_clusters s (Some u) sts -> v_user v = u.
Proof. intros Hx (_ & k & m & H1 & H2)%listed_user. by eapply (i_user s (inv_all h s Hx)). Qed.
Lemma addressed h s k v a : exec step init h s -> get_cluster s k = Some v -> v_addr v = Some a -> v_status v = RUNNING.
Proof. intros Hx. apply (i_addr s (inv_all h s Hx)). Qed.
Lemma own owner h s u sts v : exec step init h s -> same_user owner h -> settled s ->
  v ∈ list_clusters s (Some u) sts <-> wanted sts v /\ exists k o, cache s !! k = Some o /\ username o = u /\ get_cluster s k = Some v.
Proof.
  intros Hx Hu Hs. pose proof (idx_all owner h s Hx Hu) as HI. rewrite listed_user. unfold get_cluster. split.
  - intros (Hw & k & m & Hm & Hk). split; [done|]. destruct (proj1 (x_index _ _ HI u k v) (ex_intro _ m (conj Hm Hk))) as [Hc Hv]. pose proof (current h s k Hx (Hs k)) as Hcur. unfold get_cluster in Hcur. rewrite Hc in Hcur.
    destruct (cache s !! k) as [o|] eqn:Eo; [|done]. exists k, o. split_and!; [done| |done]. destruct Hcur as [Hcur _]. congruence.
  - intros (Hw & k & o & Ho & Hou & Hc). split; [done|]. assert (Hv : v_user v = u) by (rewrite (x_owner _ _ HI _ _ Hc), <- (x_cache _ _ HI _ _ Ho); done).
    destruct (proj2 (x_index _ _ HI u k v) (conj Hc Hv)) as (m & ? & ?). eauto.
Qed.
Lemma listed_owner owner h s u sts v : exec step init h s -> same_user owner h ->
  v ∈ list_clusters s (Some u) sts <-> v ∈ list_clusters s None sts /\ v_user v = u.
Proof.
  intros Hx Hu. pose proof (idx_all owner h s Hx Hu) as HI. rewrite listed_user, listed_all. unfold get_cluster. split.
  - intros (Hw & k & m & Hm & Hk). destruct (proj1 (x_index _ _ HI u k v) (ex_intro _ m (conj Hm Hk))) as [Hc Hv]. eauto.
  - intros ((Hw & k & Hc) & Hv). split; [done|]. destruct (proj2 (x_index _ _ HI u k v) (conj Hc Hv)) as (m & ? & ?). eauto.
Qed.

(** Work drains when the secrets can be read. *)
Lemma store_fields k v s : cache (store k v s) = cache s /\ dirty (store k v s) = dirty s /\ proc (store k v s) = proc s.
Proof. done. Qed.
Lemma sync_dirty k s : dirty (sync k s) = dirty s /\ cache (sync k s) = cache s.
Proof.
  unfold sync. destruct (cache s !! k) as [o|] eqn:E; [|split; apply forget_fields].
  destruct (clusters s !! k) as [[u st a [c|] sp]|]; [done| |]; by destruct (_ && _).
Qed.
Lemma drains s : exists es, Forall (fun e => match e with EGet _ | ESecret (Some _) => True | _ => False end) es /\ settled (fst (run step s es)) /\ cache (fst (run step s es)) = cache s.
Proof.
  remember (size (dirty s)) as n eqn:En. revert s En. induction n as [|n IH]; intros s En.
  - exists [ESecret (Some 1%positive)]. split; [by repeat constructor|]. symmetry in En. apply size_empty_inv in En. cbn.
    destruct (proc s) as [[k v]|] eqn:Ep; cbn; (split; [|done]); intros k2; (split; cbn; [rewrite En; apply not_elem_of_empty|intros v2; by rewrite ?Ep]).
  - destruct (decide (dirty s = ∅)) as [He|He]; [rewrite He, size_empty in En; lia|]. apply set_choose_L in He as [k Hk].
    destruct (step s (ESecret (Some 1%positive))) as [s1 o1] eqn:Es1. assert (H1 : dirty s1 = dirty s /\ proc s1 = None /\ cache s1 = cache s) by (injection Es1 as <- _; destruct (proc s) as [[k2 v2]|] eqn:Ep; by rewrite ?Ep).
    destruct H1 as (Hd & Hp & Hc). set (s2 := fst (step s1 (EGet k))).
    assert (H2 : dirty s2 = dirty s ∖ {[k]} /\ cache s2 = cache s).
    { unfold s2. cbn. rewrite Hp, decide_True by (by rewrite Hd). destruct (sync_dirty k (State (cache s1) (dirty s1 ∖ {[k]}) None (clusters s1) (index s1))) as [-> ->]. cbn. by rewrite Hd. }
    destruct H2 as [Hd2 Hc2]. destruct (IH s2) as (es & He1 & He2 & He3).
    { rewrite Hd2, size_difference, size_singleton by set_solver. lia. }
    exists (ESecret (Some 1%positive) :: EGet k :: es). split; [by repeat constructor|].
    assert (E : fst (run step s (ESecret (Some 1%positive) :: EGet k :: es)) = fst (run step s2 es)).
    { unfold s2. cbn [run]. rewrite Es1. destruct (step s1 (EGet k)) as [a2 o2]. cbn [fst]. by destruct (run step a2 es). }
    rewrite E. split; [done|congruence].
Qed.
