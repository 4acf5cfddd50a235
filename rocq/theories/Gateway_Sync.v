(** The objects in memory, the lookup tables and the database agree, provided
    the database never hands out a primary key twice. *)
From Coq Require Import ZArith Lia.
From stdpp Require Import prelude gmap.
From Verif Require Import Trace WorkQueue_Model WorkQueue_Proofs Router_Model Gateway_Model Gateway_Inv
  Gateway_Steps Gateway_Steps2 Gateway_Steps3 Gateway_Steps4.
Open Scope Z_scope.

Section sync.
Context (cf : cfg) (fc fw : nat -> nat).
Hypothesis Hfc : forall i j, fc i = fc j -> i = j.
Hypothesis Hfw : forall i j, fw i = fw j -> i = j.
Hypothesis Hac : forall k ids, alloc_c cf k ids = fc k.
Hypothesis Haw : forall k ids, alloc_w cf k ids = fw k.

(** The tables of DataManager. *)
Record Idx (s : gw) : Prop := {
  x_nodup : NoDup (by_name s);
  x_obj : forall n, n ∈ by_name s -> is_Some (objs s !! n);
  x_id : forall id n, by_id s !! id = Some n <-> n ∈ by_name s /\ exists c, objs s !! n = Some c /\ c_id c = id;
  x_user : forall u n, n ∈ default [] (by_user s !! u) <-> n ∈ by_name s /\ exists c, objs s !! n = Some c /\ r_user (c_row c) = u;
  x_unodup : forall u l, by_user s !! u = Some l -> NoDup l /\ l <> [] }.

Record Sync (s : gw) : Prop := {
  y_idx : Idx s;
  y_name : forall n c, objs s !! n = Some c -> c_name c = n /\ (n < uuid s)%nat;
  y_names : forall n c, objs s !! n = Some c -> NoDup (names c) /\ forall w, w ∈ names c -> (w < uuid s)%nat;
  y_inj : forall n m c d, objs s !! n = Some c -> objs s !! m = Some d -> c_id c = c_id d -> n = m;
  y_cids : forall n c, objs s !! n = Some c -> exists k, (k < n_cins s)%nat /\ c_id c = fc k;
  y_row : forall n c, n ∈ by_name s -> objs s !! n = Some c -> db_c s !! c_id c = Some (c_row c);
  y_db : forall id r, db_c s !! id = Some r -> exists n c, n ∈ by_name s /\ objs s !! n = Some c /\ c_id c = id;
  y_wids : forall n c x, objs s !! n = Some c -> x ∈ c_workers c -> exists k, (k < n_wins s)%nat /\ w_id x = fw k;
  y_winj : forall n m c d x y, objs s !! n = Some c -> objs s !! m = Some d -> x ∈ c_workers c -> y ∈ c_workers d ->
           w_id x = w_id y -> n = m /\ w_name x = w_name y;
  y_wk : forall n c wid x, n ∈ by_name s -> objs s !! n = Some c ->
         db_w s !! wid = Some (c_id c, x) <-> x ∈ c_workers c /\ w_id x = wid;
  y_wdb : forall wid p, db_w s !! wid = Some p -> exists n c, n ∈ by_name s /\ objs s !! n = Some c /\ c_id c = p.1;
  y_wdbid : forall wid p, db_w s !! wid = Some p -> exists k, (k < n_wins s)%nat /\ wid = fw k }.

(** * Elementary changes *)
Definition same_data (s s' : gw) : Prop :=
  objs s' = objs s /\ by_name s' = by_name s /\ by_id s' = by_id s /\ by_user s' = by_user s /\
  db_c s' = db_c s /\ db_w s' = db_w s /\ uuid s' = uuid s /\ n_cins s' = n_cins s /\ n_wins s' = n_wins s.
Inductive prim (pg : bool) (s : gw) : gw -> Prop :=
| p_row n f : (forall r, r_name (f r) = r_name r /\ r_user (f r) = r_user r) -> prim pg s (update_cluster n f s)
| p_wk n w f : (forall x, w_name (f x) = w_name x /\ w_id (f x) = w_id x) -> prim pg s (update_worker n w f s)
| p_attr n g : (forall c, c_id (g c) = c_id c /\ c_row (g c) = c_row c /\ c_workers (g c) = c_workers c) -> prim pg s (upd_obj n g s)
| p_new user info mx now : prim pg s (create_cluster cf user info mx now s).2
| p_neww n now : n ∈ by_name s -> prim pg s (create_worker cf n now s).2
| p_same s' : same_data s s' -> prim pg s s'
| p_purge now : pg = true -> prim pg s (cleanup_expired cf now s).

Lemma Sync_same s s' : same_data s s' -> Sync s -> Sync s'.
Proof.
  intros (H1 & H2 & H3 & H4 & H5 & H6 & H7 & H8 & H9) [[] ? ? ? ? ? ? ? ? ? ? ?].
  constructor; [constructor|..]; rewrite ?H1, ?H2, ?H3, ?H4, ?H5, ?H6, ?H7, ?H8, ?H9; auto.
Qed.

(** A change of one object that keeps its id, name, user, and the names and ids of the workers. *)
Definition keeps (c c' : cluster) : Prop :=
  c_id c' = c_id c /\ c_name c' = c_name c /\ r_user (c_row c') = r_user (c_row c) /\
  map (fun x => (w_name x, w_id x)) (c_workers c') = map (fun x => (w_name x, w_id x)) (c_workers c).
Lemma lookup_set (m : gmap nat cluster) n c m0 d : <[n := c]> m !! m0 = Some d ->
  (m0 = n /\ d = c) \/ (m0 <> n /\ m !! m0 = Some d).
Proof. intros [[<- <-]|[? ?]]%lookup_insert_Some; auto. Qed.
Lemma keeps_names c c' : keeps c c' -> names c' = names c.
Proof.
  intros (_ & _ & _ & E). unfold names. apply (f_equal (map fst)) in E. rewrite !map_map in E. exact E.
Qed.
Lemma keeps_worker c c' x : keeps c c' -> x ∈ c_workers c' -> exists y, y ∈ c_workers c /\ w_name y = w_name x /\ w_id y = w_id x.
Proof.
  intros (_ & _ & _ & E) Hx. assert ((w_name x, w_id x) ∈ map (fun x => (w_name x, w_id x)) (c_workers c)) as H.
  { rewrite <- E. apply (elem_of_list_fmap_1 (fun x => (w_name x, w_id x))). done. }
  apply elem_of_list_fmap in H as (y & [= E1 E2] & Hy). eauto.
Qed.

Lemma Sync_obj s s' n c c' : Sync s -> objs s !! n = Some c -> objs s' = <[n := c']> (objs s) -> keeps c c' ->
  by_name s' = by_name s -> by_id s' = by_id s -> by_user s' = by_user s ->
  uuid s' = uuid s -> n_cins s' = n_cins s -> n_wins s' = n_wins s ->
  db_c s' = alter (fun _ => c_row c') (c_id c) (db_c s) ->
  (forall wid p, db_w s' !! wid = Some p -> exists p0, db_w s !! wid = Some p0 /\ p0.1 = p.1) ->
  (forall wid cid x, cid <> c_id c -> db_w s' !! wid = Some (cid, x) <-> db_w s !! wid = Some (cid, x)) ->
  (n ∈ by_name s -> forall wid x, db_w s' !! wid = Some (c_id c, x) <-> x ∈ c_workers c' /\ w_id x = wid) ->
  Sync s'.
Proof.
  intros [[] ? ? ? ? ? ? ? ? ? ? ?] Hn Ho Hk B1 B2 B3 U1 U2 U3 Hdc Hdw1 Hdw2 Hdw3.
  pose proof Hk as (K1 & K2 & K3 & K4).
  assert (forall m d, objs s' !! m = Some d -> exists e, objs s !! m = Some e /\ keeps e d) as Hback.
  { intros m d. rewrite Ho. intros [[-> ->]|[? ?]]%lookup_set; [eauto|]. exists d. split; [done|]. done. }
  assert (forall m e, objs s !! m = Some e -> exists d, objs s' !! m = Some d /\ keeps e d) as Hfwd.
  { intros m e He. rewrite Ho. destruct (decide (n = m)) as [<-|].
    - rewrite lookup_insert. assert (e = c) by congruence. subst. eauto.
    - rewrite lookup_insert_ne by done. exists e. split; [done|]. done. }
  constructor; rewrite ?B1, ?U1, ?U2, ?U3.
  - constructor; rewrite ?B1, ?B2, ?B3; auto.
    + intros m Hm. destruct (x_obj0 m Hm) as [e He]. destruct (Hfwd m e He) as (d & -> & _). eauto.
    + intros id m. rewrite x_id0. split; intros (Hm & d & Hd & E); (split; [done|]).
      * destruct (Hfwd m d Hd) as (e & He & (E1 & _)). exists e. split; [done|]. congruence.
      * destruct (Hback m d Hd) as (e & He & (E1 & _)). exists e. split; [done|]. congruence.
    + intros u m. rewrite x_user0. split; intros (Hm & d & Hd & E); (split; [done|]).
      * destruct (Hfwd m d Hd) as (e & He & (_ & _ & E1 & _)). exists e. split; [done|]. congruence.
      * destruct (Hback m d Hd) as (e & He & (_ & _ & E1 & _)). exists e. split; [done|]. congruence.
  - intros m d Hd. destruct (Hback m d Hd) as (e & He & (_ & E1 & _)). destruct (y_name0 m e He). split; congruence.
  - intros m d Hd. destruct (Hback m d Hd) as (e & He & E). rewrite (keeps_names _ _ E). eauto.
  - intros m m' d d' Hd Hd' E. destruct (Hback m d Hd) as (e & He & (E1 & _)), (Hback m' d' Hd') as (e' & He' & (E2 & _)).
    eapply y_inj0; eauto. congruence.
  - intros m d Hd. destruct (Hback m d Hd) as (e & He & (E1 & _)). rewrite E1. eauto.
  - intros m d Hm. rewrite Ho, Hdc. intros [[-> ->]|[E Hd]]%lookup_set.
    + rewrite K1, lookup_alter, (y_row0 n c Hm Hn). done.
    + rewrite lookup_alter_ne; [eauto|]. intros E2. apply E. eapply y_inj0; eauto.
  - intros id r. rewrite Hdc. intros Hid.
    assert (is_Some (db_c s !! id)) as [r0 Hr0].
    { destruct (decide (c_id c = id)) as [<-|]; [rewrite lookup_alter in Hid; destruct (db_c s !! c_id c); [eauto|done]|].
      rewrite lookup_alter_ne in Hid by done. eauto. }
    destruct (y_db0 id r0 Hr0) as (m & e & Hm & He & E). destruct (Hfwd m e He) as (d & Hd & (E1 & _)).
    exists m, d. split; [done|]. split; [done|]. congruence.
  - intros m d x Hd Hx. destruct (Hback m d Hd) as (e & He & E). destruct (keeps_worker _ _ _ E Hx) as (y & Hy & _ & E2).
    rewrite <- E2. eauto.
  - intros m m' d d' x y Hd Hd' Hx Hy E. destruct (Hback m d Hd) as (e & He & E1), (Hback m' d' Hd') as (e' & He' & E2).
    destruct (keeps_worker _ _ _ E1 Hx) as (x1 & Hx1 & N1 & I1), (keeps_worker _ _ _ E2 Hy) as (y1 & Hy1 & N2 & I2).
    destruct (y_winj0 m m' e e' x1 y1 He He' Hx1 Hy1) as [? ?]; [congruence|]. split; congruence.
  - intros m d wid x Hm. rewrite Ho. intros [[-> ->]|[E Hd]]%lookup_set.
    + rewrite K1. auto.
    + rewrite Hdw2; [eauto|]. intros E2. apply E. eapply y_inj0; eauto.
  - intros wid p Hp. destruct (Hdw1 wid p Hp) as (p0 & Hp0 & <-). destruct (y_wdb0 wid p0 Hp0) as (m & e & Hm & He & E).
    destruct (Hfwd m e He) as (d & Hd & (E1 & _)). exists m, d. split; [done|]. split; [done|]. congruence.
  - intros wid p Hp. destruct (Hdw1 wid p Hp) as (p0 & Hp0 & _). eauto.
Qed.

Lemma alter_same {A} (m : gmap nat A) i f : (forall x, m !! i = Some x -> f x = x) -> alter f i m = m.
Proof.
  intros Hf. apply map_eq. intros j. destruct (decide (i = j)) as [<-|].
  - rewrite lookup_alter. destruct (m !! i) eqn:E; [|done]. simpl. rewrite Hf; done.
  - rewrite lookup_alter_ne; done.
Qed.
Lemma alter_eq {A} (m : gmap nat A) i f g : (forall x, m !! i = Some x -> f x = g x) -> alter f i m = alter g i m.
Proof.
  intros Hf. apply map_eq. intros j. destruct (decide (i = j)) as [<-|].
  - rewrite !lookup_alter. destruct (m !! i) eqn:E; [|done]. simpl. rewrite Hf; done.
  - rewrite !lookup_alter_ne; done.
Qed.

(** The row in the database, if the object has one. *)
Lemma db_row s n c r : Sync s -> objs s !! n = Some c -> db_c s !! c_id c = Some r -> n ∈ by_name s /\ r = c_row c.
Proof.
  intros Hy Hn Hr. destruct (y_db _ Hy _ _ Hr) as (m & d & Hm & Hd & E).
  assert (m = n) as -> by (eapply (y_inj _ Hy); eauto).
  split; [done|]. pose proof (y_row _ Hy n c Hm Hn). congruence.
Qed.

Lemma prim_row_sync s n f : (forall r, r_name (f r) = r_name r /\ r_user (f r) = r_user r) -> Sync s -> Sync (update_cluster n f s).
Proof.
  intros Hf Hy. destruct (objs s !! n) as [c|] eqn:Hn; [|rewrite update_cluster_None; done].
  destruct (update_cluster_spec n f s c Hn) as [Ho _].
  assert (db_c (update_cluster n f s) = alter f (c_id c) (db_c s)) as Hd by (unfold update_cluster; rewrite Hn; done).
  assert (same_data (set_db_c (db_c s) (set_objs (objs s) (update_cluster n f s))) s) as Hsame.
  { unfold update_cluster. rewrite Hn. done. }
  destruct Hsame as (_ & B1 & B2 & B3 & _ & B4 & B5 & B6 & B7). simpl in *.
  eapply (Sync_obj s _ n c); eauto.
  - destruct (Hf (c_row c)). done.
  - rewrite Hd. apply alter_eq. intros r Hr. simpl. destruct (db_row s n c r Hy Hn Hr) as [_ ->]. done.
  - intros wid p. rewrite <- B4. eauto.
  - intros. rewrite <- B4. done.
  - intros Hm wid x. rewrite <- B4. simpl. apply (y_wk _ Hy n c wid x); auto.
Qed.
Lemma prim_attr_sync s n g : (forall c, c_id (g c) = c_id c /\ c_row (g c) = c_row c /\ c_workers (g c) = c_workers c) -> Sync s -> Sync (upd_obj n g s).
Proof.
  intros Hg Hy. destruct (objs s !! n) as [c|] eqn:Hn.
  2:{ eapply Sync_same; [|exact Hy]. split; [|done]. simpl. apply map_eq. intros m. destruct (decide (n = m)) as [<-|].
      - rewrite lookup_alter, Hn. done.
      - rewrite lookup_alter_ne; done. }
  destruct (upd_obj_spec n g s c Hn) as [Ho _]. destruct (Hg c) as (G1 & G2 & G3).
  eapply (Sync_obj s _ n c); eauto.
  - unfold keeps, c_name. rewrite G1, G2, G3. done.
  - rewrite G2. simpl. symmetry. apply alter_same. intros r Hr. destruct (db_row s n c r Hy Hn Hr) as [_ ->]. done.
  - intros Hm wid x. simpl. rewrite G3. apply (y_wk _ Hy n c wid x); auto.
Qed.
Lemma prim_wk_sync s n w f : (forall x, w_name (f x) = w_name x /\ w_id (f x) = w_id x) -> Sync s -> Sync (update_worker n w f s).
Proof.
  intros Hf Hy. unfold update_worker, get_worker. destruct (objs s !! n) as [c|] eqn:Hn; [|done]. simpl.
  destruct (find_worker w (c_workers c)) as [x|] eqn:Hx; [|done].
  destruct (find_worker_some _ _ _ Hx) as [Hx1 Hx2]. destruct (y_names _ Hy n c Hn) as [Hnd _].
  set (h := fun c => cset_workers (map_worker w f (c_workers c)) c).
  destruct (upd_obj_spec n h s c Hn) as [Ho _].
  eapply (Sync_obj s _ n c (h c)); eauto; simpl.
  - split; [done|]. split; [done|]. split; [done|]. simpl. unfold map_worker. rewrite map_map. apply map_ext. intros y.
    case_decide; [|done]. destruct (Hf y) as [-> ->]. done.
  - symmetry. apply alter_same. intros r Hr. destruct (db_row s n c r Hy Hn Hr) as [_ ->]. done.
  - intros wid p Hp. destruct (decide (w_id x = wid)) as [<-|].
    + rewrite lookup_alter in Hp. destruct (db_w s !! w_id x) as [p0|]; [|done]. injection Hp as <-. eauto.
    + rewrite lookup_alter_ne in Hp by done. eauto.
  - intros wid cid z Hc. destruct (decide (w_id x = wid)) as [<-|]; [|rewrite lookup_alter_ne by done; done].
    rewrite lookup_alter. destruct (db_w s !! w_id x) as [[cid0 x0]|] eqn:E; [|done]. simpl.
    destruct (y_wdb _ Hy _ _ E) as (m & d & Hm & Hd & Ed). simpl in Ed. subst cid0.
    pose proof (proj1 (y_wk _ Hy m d (w_id x) x0 Hm Hd) E) as [H1 H2].
    destruct (y_winj _ Hy m n d c x0 x) as [-> _]; auto. assert (d = c) by congruence. subst d.
    split; intros [= ? ?]; congruence.
  - intros Hm wid z.
    assert (db_w s !! w_id x = Some (c_id c, x)) as Hdx by (apply (y_wk _ Hy n c (w_id x) x Hm Hn); done).
    assert (forall y, y ∈ c_workers c -> w_name y = w -> y = x) as Huniq.
    { intros y Hy1 E. eapply (nodup_map_inj w_name); [exact Hnd|done|done|congruence]. }
    assert (forall y, y ∈ c_workers c -> w_id y = w_id x -> y = x) as Huid.
    { intros y Hy1 E. apply Huniq; [done|]. destruct (y_winj _ Hy n n c c y x) as [_ ?]; auto. congruence. }
    destruct (decide (w_id x = wid)) as [<-|E].
    + rewrite lookup_alter, Hdx. simpl. split.
      * intros [= <-]. split; [|apply Hf]. apply elem_of_list_fmap. exists x. rewrite decide_True by done. done.
      * intros [Hz Hid]. apply elem_of_list_fmap in Hz as (y & -> & Hy1). case_decide as E.
        -- rewrite (Huniq y Hy1 E). done.
        -- rewrite (Huid y Hy1 Hid) in E. done.
    + rewrite lookup_alter_ne by done. rewrite (y_wk _ Hy n c wid z Hm Hn). split; intros [Hz Hid].
      * split; [|done]. apply elem_of_list_fmap. exists z. split; [|done]. rewrite decide_False; [done|].
        intros E2. apply E. rewrite <- (Huniq z Hz E2). done.
      * apply elem_of_list_fmap in Hz as (y & -> & Hy1). case_decide as E2; [|done].
        exfalso. apply E. rewrite <- Hid, (Huniq y Hy1 E2). symmetry. apply Hf.
Qed.
Lemma prim_neww_sync s n now : n ∈ by_name s -> Sync s -> Sync (create_worker cf n now s).2.
Proof.
  intros Hm Hy. destruct (x_obj _ (y_idx _ Hy) n Hm) as [c Hn]. unfold create_worker. rewrite Hn. rewrite Haw.
  set (w := uuid s). set (x := Wk _ _ _ _ _ _ _ _).
  set (h := fun c => cset_workers (c_workers c ++ [x]) c). set (s2 := set_db_w _ _).
  assert (objs s2 !! n = Some c) as Hn2 by done.
  destruct (upd_obj_spec n h s2 c Hn2) as [Ho _]. change (objs s2) with (objs s) in Ho. simpl snd.
  set (s' := upd_obj n h s2) in *.
  assert (db_w s' = <[fw (n_wins s) := (c_id c, x)]> (db_w s)) as Hdw by done.
  assert (forall m d y, objs s !! m = Some d -> y ∈ c_workers d -> w_id y <> fw (n_wins s)) as Hfresh.
  { intros m d y Hd Hy1 E. destruct (y_wids _ Hy m d y Hd Hy1) as (k & Hk & E2). rewrite E2 in E. apply Hfw in E. lia. }
  destruct Hy as [[] ? ? ? ? ? ? ? ? ? ? ?].
  assert (forall m d, objs s' !! m = Some d -> (m = n /\ d = h c) \/ (m <> n /\ objs s !! m = Some d)) as Hback.
  { intros m d. rewrite Ho. apply lookup_set. }
  assert (forall m d, objs s' !! m = Some d -> exists e, objs s !! m = Some e /\ c_id d = c_id e /\ c_row d = c_row e) as Hback2.
  { intros m d Hd. destruct (Hback m d Hd) as [[-> ->]|[? ?]]; eauto. }
  assert (forall m e, objs s !! m = Some e -> exists d, objs s' !! m = Some d /\ c_id d = c_id e /\ c_row d = c_row e) as Hfwd.
  { intros m e He. rewrite Ho. destruct (decide (n = m)) as [<-|].
    - rewrite lookup_insert. assert (e = c) by congruence. subst. exists (h c). done.
    - rewrite lookup_insert_ne by done. eauto. }
  constructor; change (by_name s') with (by_name s); change (uuid s') with (S (uuid s)); change (n_cins s') with (n_cins s);
    change (n_wins s') with (S (n_wins s)); change (db_c s') with (db_c s).
  - constructor; change (by_name s') with (by_name s); change (by_id s') with (by_id s); change (by_user s') with (by_user s); auto.
    + intros m Hm1. destruct (x_obj0 m Hm1) as [e He]. destruct (Hfwd m e He) as (d & -> & _). eauto.
    + intros id m. rewrite x_id0. split; intros (Hm1 & d & Hd & E); (split; [done|]).
      * destruct (Hfwd m d Hd) as (e & He & (E1 & _)). exists e. split; [done|]. congruence.
      * destruct (Hback2 m d Hd) as (e & He & (E1 & _)). exists e. split; [done|]. congruence.
    + intros u m. rewrite x_user0. split; intros (Hm1 & d & Hd & E); (split; [done|]).
      * destruct (Hfwd m d Hd) as (e & He & (_ & E1)). exists e. split; [done|]. congruence.
      * destruct (Hback2 m d Hd) as (e & He & (_ & E1)). exists e. split; [done|]. congruence.
  - intros m d Hd. destruct (Hback2 m d Hd) as (e & He & (_ & E1)). destruct (y_name0 m e He). unfold c_name in *. split; [congruence|lia].
  - intros m d Hd. destruct (Hback m d Hd) as [[-> ->]|[? Hd0]].
    + destruct (y_names0 n c Hn) as [H1 H2]. unfold names in *. simpl. rewrite map_app. simpl. split.
      * apply NoDup_app. split; [done|]. split; [|apply NoDup_singleton]. intros v Hv ->%elem_of_list_singleton. specialize (H2 _ Hv). unfold w in H2. lia.
      * intros v [Hv| ->%elem_of_list_singleton]%elem_of_app; [specialize (H2 _ Hv); lia|unfold w; lia].
    + destruct (y_names0 m d Hd0) as [H1 H2]. split; [done|]. intros v Hv. specialize (H2 v Hv). lia.
  - intros m m' d d' Hd Hd' E. destruct (Hback2 m d Hd) as (e & He & (E1 & _)), (Hback2 m' d' Hd') as (e' & He' & (E2 & _)).
    eapply y_inj0; eauto. congruence.
  - intros m d Hd. destruct (Hback2 m d Hd) as (e & He & (E1 & _)). rewrite E1. eauto.
  - intros m d Hm1 Hd. destruct (Hback2 m d Hd) as (e & He & (E1 & E2)). rewrite E1, E2. eauto.
  - intros id r Hr. destruct (y_db0 id r Hr) as (m & e & Hm1 & He & E). destruct (Hfwd m e He) as (d & Hd & (E1 & _)).
    exists m, d. split; [done|]. split; [done|]. congruence.
  - intros m d y Hd Hy1. destruct (Hback m d Hd) as [[-> ->]|[? Hd0]].
    + simpl in Hy1. apply elem_of_app in Hy1 as [Hy1| ->%elem_of_list_singleton].
      * destruct (y_wids0 n c y Hn Hy1) as (k & Hk & E). exists k. split; [lia|done].
      * exists (n_wins s). split; [lia|done].
    + destruct (y_wids0 m d y Hd0 Hy1) as (k & Hk & E). exists k. split; [lia|done].
  - assert (forall m d y, objs s' !! m = Some d -> y ∈ c_workers d ->
       (m = n /\ y = x) \/ (w_id y <> fw (n_wins s) /\ exists e, objs s !! m = Some e /\ y ∈ c_workers e)) as Hcase.
    { intros m d y Hd Hy1. destruct (Hback m d Hd) as [[-> ->]|[? Hd0]].
      - simpl in Hy1. apply elem_of_app in Hy1 as [Hy1| ->%elem_of_list_singleton]; [|auto]. right. split; eauto.
      - right. split; eauto. }
    intros m m' d d' y z Hd Hd' Hy1 Hz E.
    destruct (Hcase m d y Hd Hy1) as [[-> ->]|(F1 & e & He & Hy2)], (Hcase m' d' z Hd' Hz) as [[-> ->]|(F2 & e' & He' & Hz2)].
    + done.
    + exfalso. apply F2. rewrite <- E. done.
    + exfalso. apply F1. rewrite E. done.
    + eapply y_winj0; eauto.
  - intros m d wid y Hm1 Hd. rewrite Hdw. destruct (decide (wid = fw (n_wins s))) as [->|E].
    + rewrite lookup_insert. destruct (Hback m d Hd) as [[-> ->]|[E Hd0]].
      * simpl. split.
        -- intros [= <-]. split; [|done]. apply elem_of_app. right. by apply elem_of_list_singleton.
        -- intros [[Hy1| ->%elem_of_list_singleton]%elem_of_app E]; [|done]. exfalso. eapply Hfresh; eauto.
      * split.
        -- intros [= E1 E2]. exfalso. apply E. eapply y_inj0; eauto.
        -- intros [Hy1 E1]. exfalso. eapply Hfresh; eauto.
    + rewrite lookup_insert_ne by done. destruct (Hback m d Hd) as [[-> ->]|[E2 Hd0]].
      * simpl. rewrite (y_wk0 n c wid y Hm1 Hn). split.
        -- intros [Hy1 E1]. split; [|done]. apply elem_of_app. auto.
        -- intros [[Hy1| ->%elem_of_list_singleton]%elem_of_app E1]; [done|]. simpl in E1. congruence.
      * eauto.
  - intros wid p. rewrite Hdw. destruct (decide (wid = fw (n_wins s))) as [->|E].
    + rewrite lookup_insert. intros [= <-]. simpl. destruct (Hfwd n c Hn) as (d & Hd & E1 & _). exists n, d. done.
    + rewrite lookup_insert_ne by done. intros Hp. destruct (y_wdb0 wid p Hp) as (m & e & Hm1 & He & E2).
      destruct (Hfwd m e He) as (d & Hd & E1 & _). exists m, d. split; [done|]. split; [done|]. congruence.
  - intros wid p. rewrite Hdw. destruct (decide (wid = fw (n_wins s))) as [->|E].
    + intros _. exists (n_wins s). split; [lia|done].
    + rewrite lookup_insert_ne by done. intros Hp. destruct (y_wdbid0 wid p Hp) as (k & ? & ?). exists k. split; [lia|done].
Qed.

Lemma prim_new_sync s user info mx now : Sync s -> Sync (create_cluster cf user info mx now s).2.
Proof.
  intros Hy. unfold create_cluster. rewrite Hac. set (n := uuid s). set (r := Row _ _ _ _ _ _ _ _ _ _ _ _ _).
  set (c := new_cluster now (fc (n_cins s)) r). simpl snd.
  set (s' := set_index _ _ _ _).
  assert (objs s' = <[n := c]> (objs s)) as Ho by done.
  destruct Hy as [[] ? ? ? ? ? ? ? ? ? ? ?].
  assert (objs s !! n = None) as Hn.
  { destruct (objs s !! n) as [d|] eqn:E; [|done]. destruct (y_name0 n d E). unfold n in *. lia. }
  assert (n ∉ by_name s) as Hnn. { intros Hm. destruct (x_obj0 n Hm) as [d Hd]. congruence. }
  assert (forall m d, objs s !! m = Some d -> c_id d <> fc (n_cins s)) as Hfresh.
  { intros m d Hd E. destruct (y_cids0 m d Hd) as (k & Hk & E2). rewrite E2 in E. apply Hfc in E. lia. }
  assert (forall m d, objs s' !! m = Some d -> (m = n /\ d = c) \/ (m <> n /\ objs s !! m = Some d)) as Hback.
  { intros m d. rewrite Ho. apply lookup_set. }
  assert (forall m e, objs s !! m = Some e -> objs s' !! m = Some e) as Hfwd.
  { intros m e He. rewrite Ho, lookup_insert_ne; [done|]. congruence. }
  assert (objs s' !! n = Some c) as Hnew by (rewrite Ho; apply lookup_insert).
  assert (by_name s' = by_name s ++ [n]) as Hbn by done.
  assert (by_id s' = <[fc (n_cins s) := n]> (by_id s)) as Hbi by done.
  assert (by_user s' = <[user := default [] (by_user s !! user) ++ [n]]> (by_user s)) as Hbu by done.
  assert (db_c s' = <[fc (n_cins s) := r]> (db_c s)) as Hdc by done.
  assert (db_w s' = db_w s) as Hdw by done.
  assert (forall m, m ∈ by_name s' -> m = n \/ (m <> n /\ m ∈ by_name s)) as Hin.
  { intros m. rewrite Hbn, elem_of_app, elem_of_list_singleton. destruct (decide (m = n)); [auto|]. intros [?| ?]; [auto|done]. }
  assert (forall m, m ∈ by_name s -> m ∈ by_name s') as Hin2.
  { intros m Hm. rewrite Hbn. apply elem_of_app. auto. }
  assert (n ∈ by_name s') as Hin3. { rewrite Hbn. apply elem_of_app. right. by apply elem_of_list_singleton. }
  constructor; change (uuid s') with (S (uuid s)); change (n_cins s') with (S (n_cins s)); change (n_wins s') with (n_wins s);
    rewrite ?Hdw.
  - constructor.
    + rewrite Hbn. apply NoDup_app. split; [done|]. split; [|apply NoDup_singleton]. intros v Hv ->%elem_of_list_singleton. done.
    + intros m [->|[_ Hm]]%Hin; [rewrite Hnew; eauto|]. destruct (x_obj0 m Hm) as [e He]. rewrite (Hfwd m e He). eauto.
    + intros id m. rewrite Hbi. destruct (decide (id = fc (n_cins s))) as [->|E].
      * rewrite lookup_insert. split.
        -- intros [= <-]. split; [done|]. exists c. done.
        -- intros (Hm & d & Hd & E). destruct (Hback m d Hd) as [[-> ->]|[? Hd0]]; [done|]. exfalso. eapply Hfresh; eauto.
      * rewrite lookup_insert_ne by done. rewrite x_id0. split.
        -- intros (Hm & d & Hd & E1). split; [auto|]. eauto.
        -- intros (Hm & d & Hd & E1). destruct (Hback m d Hd) as [[-> ->]|[? Hd0]]; [exfalso; apply E; symmetry; exact E1|].
           destruct (Hin m Hm) as [?|[_ ?]]; [done|]. eauto.
    + intros u m. rewrite Hbu. destruct (decide (u = user)) as [->|E].
      * rewrite lookup_insert. simpl. rewrite elem_of_app, x_user0, elem_of_list_singleton. split.
        -- intros [(Hm & d & Hd & E)| ->]; [split; [auto|]; eauto|]. split; [done|]. exists c. done.
        -- intros (Hm & d & Hd & E). destruct (Hback m d Hd) as [[-> ->]|[? Hd0]]; [auto|]. left.
           destruct (Hin m Hm) as [?|[_ ?]]; [done|]. eauto.
      * rewrite lookup_insert_ne by done. rewrite x_user0. split.
        -- intros (Hm & d & Hd & E1). split; [auto|]. eauto.
        -- intros (Hm & d & Hd & E1). destruct (Hback m d Hd) as [[-> ->]|[? Hd0]]; [exfalso; apply E; symmetry; exact E1|].
           destruct (Hin m Hm) as [?|[_ ?]]; [done|]. eauto.
    + intros u l. rewrite Hbu. intros [[<- <-]|[? Hl]]%lookup_insert_Some; [|eauto]. split.
      * apply NoDup_app. split; [|split; [|apply NoDup_singleton]].
        -- destruct (by_user s !! user) as [l|] eqn:E; [apply (x_unodup0 _ _ E)|constructor].
        -- intros v Hv ->%elem_of_list_singleton. apply x_user0 in Hv as [? _]. done.
      * intros E. apply app_eq_nil in E as [_ ?]. done.
  - intros m d Hd. destruct (Hback m d Hd) as [[-> ->]|[? Hd0]]; [split; [done|unfold n; lia]|].
    destruct (y_name0 m d Hd0). split; [done|lia].
  - intros m d Hd. destruct (Hback m d Hd) as [[-> ->]|[? Hd0]].
    + split; [constructor|]. intros v Hv. inversion Hv.
    + destruct (y_names0 m d Hd0) as [H1 H2]. split; [done|]. intros v Hv. specialize (H2 v Hv). lia.
  - intros m m' d d' Hd Hd' E.
    destruct (Hback m d Hd) as [[-> ->]|[? Hd0]], (Hback m' d' Hd') as [[-> ->]|[? Hd0']]; [done|..].
    + exfalso. eapply Hfresh; [exact Hd0'|]. symmetry. exact E.
    + exfalso. eapply Hfresh; [exact Hd0|]. exact E.
    + eauto.
  - intros m d Hd. destruct (Hback m d Hd) as [[-> ->]|[? Hd0]]; [exists (n_cins s); split; [lia|done]|].
    destruct (y_cids0 m d Hd0) as (k & ? & ?). exists k. split; [lia|done].
  - intros m d Hm Hd. rewrite Hdc. destruct (Hback m d Hd) as [[-> ->]|[? Hd0]]; [apply lookup_insert|].
    rewrite lookup_insert_ne by (intros E; eapply Hfresh; eauto). destruct (Hin m Hm) as [?|[_ ?]]; [done|]. eauto.
  - intros id r0. rewrite Hdc. intros [[<- <-]|[? Hl]]%lookup_insert_Some; [exists n, c; done|].
    destruct (y_db0 id r0 Hl) as (m & d & Hm & Hd & E). exists m, d. auto.
  - intros m d x Hd Hx. destruct (Hback m d Hd) as [[-> ->]|[? Hd0]]; [inversion Hx|eauto].
  - intros m m' d d' x y Hd Hd' Hx Hy E.
    destruct (Hback m d Hd) as [[-> ->]|[? Hd0]], (Hback m' d' Hd') as [[-> ->]|[? Hd0']];
      [inversion Hx|inversion Hx|inversion Hy|eauto].
  - intros m d wid x Hm Hd. destruct (Hback m d Hd) as [[-> ->]|[? Hd0]].
    + split; [|intros [Hx _]; inversion Hx]. intros Hw. exfalso. destruct (y_wdb0 _ _ Hw) as (m & d & Hm1 & Hd1 & E1).
      eapply Hfresh; eauto.
    + destruct (Hin m Hm) as [?|[_ ?]]; [done|]. eauto.
  - intros wid p Hp. destruct (y_wdb0 wid p Hp) as (m & d & Hm & Hd & E). exists m, d. auto.
  - eauto.
Qed.

(** * The purge *)
Lemma elem_filter_ne (l : list nat) (n m : nat) : m ∈ List.filter (fun m => negb (bool_decide (m = n))) l <-> m ∈ l /\ m <> n.
Proof. rewrite !elem_of_list_In, filter_In, negb_true_iff, bool_decide_eq_false. done. Qed.
Definition same_but_index (s s' : gw) : Prop :=
  objs s' = objs s /\ db_c s' = db_c s /\ db_w s' = db_w s /\ uuid s' = uuid s /\ n_cins s' = n_cins s /\ n_wins s' = n_wins s.
Lemma forget_idx s n : Idx s -> (forall n m c d, objs s !! n = Some c -> objs s !! m = Some d -> c_id c = c_id d -> n = m) ->
  is_Some (objs s !! n) ->
  Idx (forget n s) /\ same_but_index s (forget n s) /\
  by_name (forget n s) = List.filter (fun m => negb (bool_decide (m = n))) (by_name s).
Proof.
  intros [] Hinj [c Hc]. unfold forget. rewrite Hc. split; [|done].
  set (rest := List.filter _ (default [] _)). constructor; simpl.
  - apply NoDup_ListNoDup, List.NoDup_filter, NoDup_ListNoDup. done.
  - intros m [Hm _]%elem_filter_ne. auto.
  - intros id m. rewrite elem_filter_ne, lookup_delete_Some, x_id0. split.
    + intros (E & Hm & d & Hd & E1). split; [|eauto]. split; [done|]. intros ->. apply E. congruence.
    + intros ((Hm & E) & d & Hd & E1). split; [|eauto]. intros E2. apply E. eapply Hinj; eauto. congruence.
  - intros u m. rewrite elem_filter_ne. destruct (decide (u = r_user (c_row c))) as [->|E].
    + assert (default [] ((if decide (rest = []) then delete (r_user (c_row c)) (by_user s) else <[r_user (c_row c) := rest]> (by_user s)) !! r_user (c_row c)) = rest) as ->.
      { destruct (decide (rest = [])) as [->|]; [rewrite lookup_delete; done|rewrite lookup_insert; done]. }
      unfold rest. rewrite elem_filter_ne, x_user0. tauto.
    + assert ((if decide (rest = []) then delete (r_user (c_row c)) (by_user s) else <[r_user (c_row c) := rest]> (by_user s)) !! u = by_user s !! u) as ->.
      { destruct (decide (rest = [])); [rewrite lookup_delete_ne; done|rewrite lookup_insert_ne; done]. }
      rewrite x_user0. split; [|tauto]. intros (Hm & d & Hd & E1). split; [|eauto]. split; [done|]. intros ->. congruence.
  - intros u l Hl. destruct (decide (rest = [])) as [E|E].
    + apply lookup_delete_Some in Hl as [_ Hl]. eauto.
    + apply lookup_insert_Some in Hl as [[<- <-]|[_ Hl]]; [|eauto]. split; [|done]. apply NoDup_ListNoDup, List.NoDup_filter, NoDup_ListNoDup.
      destruct (by_user s !! r_user (c_row c)) as [l|] eqn:El; [apply (x_unodup0 _ _ El)|constructor].
Qed.
Lemma forgets_idx ns s : Idx s -> (forall n m c d, objs s !! n = Some c -> objs s !! m = Some d -> c_id c = c_id d -> n = m) ->
  (forall n, n ∈ ns -> is_Some (objs s !! n)) ->
  let s' := fold_left (fun s n => forget n s) ns s in
  Idx s' /\ same_but_index s s' /\ (forall m, m ∈ by_name s' <-> m ∈ by_name s /\ m ∉ ns) /\ sublist (by_name s') (by_name s).
Proof.
  revert s. induction ns as [|n ns IH]; intros s Hi Hinj Hs; simpl.
  - split; [done|]. split; [done|]. split; [|done]. intros m. split; [|tauto]. intros Hm. split; [done|]. intros E. inversion E.
  - destruct (forget_idx s n Hi Hinj) as (H1 & H2 & H3); [apply Hs; left|].
    pose proof H2 as (O1 & O2 & O3 & O4 & O5 & O6).
    destruct (IH (forget n s)) as (J1 & J2 & J3 & J4); [done|rewrite O1; done|rewrite O1; intros; apply Hs; by right|].
    split; [done|]. split; [|split].
    + destruct J2 as (K1 & K2 & K3 & K4 & K5 & K6). repeat split; etrans; eauto.
    + intros m. rewrite J3, H3, elem_filter_ne, not_elem_of_cons. tauto.
    + etrans; [exact J4|]. rewrite H3. clear. induction (by_name s) as [|x l IHl]; [done|]. simpl. destruct (negb _).
      * by apply sublist_skip.
      * by apply sublist_cons.
Qed.

Definition expired (now : Z) (r : crow) : Prop := exists t, r_stop r = Some t /\ t < now - max_age cf.
Lemma is_expired_iff now r : is_expired (now - max_age cf) r = true <-> expired now r.
Proof.
  unfold is_expired, expired. destruct (r_stop r) as [t|]; [rewrite Z.ltb_lt|]; split; intros H; [eauto| |done|].
  - destruct H as (t' & [= ->] & ?). done.
  - destruct H as (t' & ? & ?). done.
Qed.
Record purged (now : Z) (s s' : gw) : Prop := {
  pg_idx : Idx s'; pg_objs : objs s' = objs s; pg_uuid : uuid s' = uuid s; pg_cins : n_cins s' = n_cins s; pg_wins : n_wins s' = n_wins s;
  pg_names : forall n, n ∈ by_name s' <-> n ∈ by_name s /\ forall c, objs s !! n = Some c -> ~ expired now (c_row c);
  pg_sub : sublist (by_name s') (by_name s);
  pg_dbc : forall id r, db_c s' !! id = Some r <-> db_c s !! id = Some r /\ ~ expired now r;
  pg_dbw : forall wid p, db_w s' !! wid = Some p <-> db_w s !! wid = Some p /\ (exists r, db_c s !! p.1 = Some r /\ ~ expired now r) }.
Lemma purge_spec s now : Sync s -> purged now s (cleanup_expired cf now s).
Proof.
  intros Hy. pose proof Hy as [Hi ? ? ? ? ? ? ? ? ? ? ?]. pose proof Hi as [].
  unfold cleanup_expired. set (dead := filter (fun kv => is_expired _ kv.2 = true) (db_c s)).
  set (ns := omap _ _). set (s2 := set_db_w _ _).
  assert (forall n, n ∈ ns <-> n ∈ by_name s /\ exists c, objs s !! n = Some c /\ expired now (c_row c)) as Hns.
  { intros n. unfold ns. rewrite elem_of_list_omap. split.
    - intros (id & Hid & Hb). apply elem_of_list_fmap in Hid as ([id' r] & -> & Hr). apply elem_of_map_to_list in Hr.
      unfold dead in Hr. apply map_filter_lookup_Some in Hr as [Hr1 Hr2]. simpl in *.
      apply x_id0 in Hb as (Hn & c & Hc & E). split; [done|]. exists c. split; [done|].
      rewrite <- E in Hr1. destruct (db_row s n c r Hy Hc Hr1) as [_ ->]. apply is_expired_iff. done.
    - intros (Hn & c & Hc & He). exists (c_id c). split.
      + apply elem_of_list_fmap. exists (c_id c, c_row c). split; [done|]. apply elem_of_map_to_list.
        unfold dead. apply map_filter_lookup_Some. split; [eauto|]. simpl. apply is_expired_iff. done.
      + apply x_id0. eauto. }
  destruct (forgets_idx ns s2) as (J1 & (K1 & K2 & K3 & K4 & K5 & K6) & J3 & J4).
  - constructor; simpl; auto.
  - simpl. auto.
  - intros n [Hn _]%Hns. simpl. auto.
  - constructor; auto.
    + intros n. rewrite J3, Hns. change (by_name s2) with (by_name s). split.
      * intros [Hn Hd]. split; [done|]. intros c Hc He. apply Hd. eauto.
      * intros [Hn Hd]. split; [done|]. intros (_ & c & Hc & He). eapply Hd; eauto.
    + intros id r. rewrite K2. simpl. rewrite map_filter_lookup_Some. simpl. rewrite <- is_expired_iff, not_true_iff_false. done.
    + intros wid p. rewrite K3. simpl. rewrite map_filter_lookup_Some. simpl. split; intros [Hp Hd]; (split; [done|]).
      * destruct (y_wdb0 wid p Hp) as (n & c & Hn & Hc & E). exists (c_row c). rewrite <- E. split; [eauto|].
        rewrite <- is_expired_iff. intros Hex. apply Hd. apply elem_of_dom. exists (c_row c).
        apply map_filter_lookup_Some. rewrite <- E. split; [eauto|done].
      * destruct Hd as (r & Hr & Hex). rewrite <- is_expired_iff in Hex. intros [r' Hr']%elem_of_dom.
        apply map_filter_lookup_Some in Hr' as [Hr1 Hr2]. simpl in *. congruence.
Qed.
(** Every pop of db_base.py:400-406 finds its entry. *)
Lemma purge_indexes s id r : Sync s -> db_c s !! id = Some r ->
  exists n c, by_id s !! id = Some n /\ n ∈ by_name s /\ objs s !! n = Some c /\ c_id c = id /\ c_row c = r /\
              n ∈ default [] (by_user s !! r_user r).
Proof.
  intros Hy Hr. destruct (y_db _ Hy id r Hr) as (n & c & Hn & Hc & E). exists n, c.
  pose proof (y_row _ Hy n c Hn Hc) as Hrow. rewrite E in Hrow. assert (r = c_row c) as -> by congruence.
  split; [apply (x_id _ (y_idx _ Hy)); eauto|]. repeat split; auto. apply (x_user _ (y_idx _ Hy)). eauto.
Qed.
Lemma prim_purge_sync s now : Sync s -> Sync (cleanup_expired cf now s).
Proof.
  intros Hy. destruct (purge_spec s now Hy) as [P1 P2 P3 P4 P5 P6 P7 P8 P9].
  destruct Hy as [[] ? ? ? ? ? ? ? ? ? ? ?].
  constructor; rewrite ?P2, ?P3, ?P4, ?P5; auto.
  - intros n c [Hn Hd]%P6 Hc. apply P8. split; [eauto|]. auto.
  - intros id r [Hr Hd]%P8. destruct (y_db0 id r Hr) as (n & c & Hn & Hc & E). exists n, c. split; [|done]. apply P6. split; [done|].
    intros d Hd1. assert (d = c) by congruence. subst d. pose proof (y_row0 n c Hn Hc) as H. rewrite E in H. congruence.
  - intros n c wid x [Hn Hd]%P6 Hc. rewrite <- (y_wk0 n c wid x Hn Hc). rewrite P9. simpl. split; [tauto|].
    intros Hw. split; [done|]. exists (c_row c). split; [eauto|]. auto.
  - intros wid p [Hp (r & Hr & Hd)]%P9. destruct (y_wdb0 wid p Hp) as (n & c & Hn & Hc & E). exists n, c. split; [|done].
    apply P6. split; [done|]. intros d Hd1. assert (d = c) by congruence. subst d.
    pose proof (y_row0 n c Hn Hc) as H. rewrite E in H. congruence.
  - intros wid p [Hp _]%P9. eauto.
Qed.

Lemma prim_sync pg s s' : prim pg s s' -> Sync s -> Sync s'.
Proof.
  destruct 1; [apply prim_row_sync|apply prim_wk_sync|apply prim_attr_sync|apply prim_new_sync|apply prim_neww_sync|
               apply Sync_same|apply prim_purge_sync]; auto.
Qed.
Lemma prims_sync pg s s' : rtc (prim pg) s s' -> Sync s -> Sync s'.
Proof. induction 1; [done|]. eauto using prim_sync. Qed.
End sync.

(** * Every event but a restart is a sequence of elementary changes *)
Definition Out (s : gw) : Prop := forall n c, objs s !! n = Some c -> n ∉ by_name s -> is_fin (c_status c) = true.

Section prims.
Context (cf : cfg) (pg : bool) (s0 : gw).
Notation R := (rtc (prim cf pg) s0).
Definition frow (f : crow -> crow) : Prop := forall r, r_name (f r) = r_name r /\ r_user (f r) = r_user r.
Definition fwk (f : worker -> worker) : Prop := forall x, w_name (f x) = w_name x /\ w_id (f x) = w_id x.
Definition fattr (g : cluster -> cluster) : Prop := forall c, c_id (g c) = c_id c /\ c_row (g c) = c_row c /\ c_workers (g c) = c_workers c.
Lemma R_same s s' : same_data s s' -> R s -> R s'.
Proof. intros H Hs. eapply rtc_r; [exact Hs|]. by apply p_same. Qed.
Lemma R_row n f s : frow f -> R s -> R (update_cluster n f s).
Proof. intros H Hs. eapply rtc_r; [exact Hs|]. by apply p_row. Qed.
Lemma R_wk n w f s : fwk f -> R s -> R (update_worker n w f s).
Proof. intros H Hs. eapply rtc_r; [exact Hs|]. by apply p_wk. Qed.
Lemma R_attr n g s : fattr g -> R s -> R (upd_obj n g s).
Proof. intros H Hs. eapply rtc_r; [exact Hs|]. by apply p_attr. Qed.
Lemma R_put x s : R s -> R (qput x s).
Proof. apply R_same. done. Qed.
Lemma R_puts xs s : R s -> R (qputs xs s).
Proof. revert s. induction xs as [|x xs IH]; intros s Hs; simpl; [done|]. apply IH, R_put, Hs. Qed.
Lemma R_finish x s : R s -> R (finish x s). Proof. apply R_same. done. Qed.
Lemma R_suspend k p s : R s -> R (suspend k p s). Proof. apply R_same. done. Qed.
Lemma R_release k s : R s -> R (release k s). Proof. apply R_same. done. Qed.
Lemma R_setq v s : R s -> R (set_q v s). Proof. apply R_same. done. Qed.
Lemma R_routes v s : R s -> R (set_routes v s). Proof. apply R_same. done. Qed.
Lemma R_chk_c v s : R s -> R (set_chk_c v s). Proof. apply R_same. done. Qed.
Lemma R_chk_w v s : R s -> R (set_chk_w v s). Proof. apply R_same. done. Qed.
Lemma R_down v s : R s -> R (set_down v s). Proof. apply R_same. done. Qed.
Lemma R_wks n ws f s : fwk f -> R s -> R (update_workers n ws f s).
Proof. intros Hf. revert s. unfold update_workers. induction ws as [|w ws IH]; intros s Hs; simpl; [done|]. apply IH, R_wk; done. Qed.
Lemma R_rows ns f s : frow f -> R s -> R (update_clusters ns f s).
Proof. intros Hf. revert s. unfold update_clusters. induction ns as [|w ws IH]; intros s Hs; simpl; [done|]. apply IH, R_row; done. Qed.
Lemma R_targets n ts s : R s -> R (set_targets n ts s).
Proof. revert s. unfold set_targets. induction ts as [|t ts IH]; intros s Hs; simpl; [done|]. apply IH, R_wk; done. Qed.
Lemma R_fold_wk (ws : list (nat * nat)) f s : fwk f -> R s -> R (fold_left (fun s p => update_worker p.1 p.2 f s) ws s).
Proof. intros Hf. revert s. induction ws as [|w ws IH]; intros s Hs; simpl; [done|]. apply IH, R_wk; done. Qed.
Lemma R_fold_fails (ws : list (nat * nat)) s : R s ->
  R (fold_left (fun s (p : nat * nat) => qput (p.1, Some p.2) (upd_obj p.1 (fun c => cset_fails (S (c_fails c)) c) s)) ws s).
Proof. revert s. induction ws as [|w ws IH]; intros s Hs; simpl; [done|]. apply IH, R_put, R_attr; done. Qed.
Lemma R_fail_clusters ns s : R s -> R (fail_clusters ns s).
Proof. intros. unfold fail_clusters. apply R_puts, R_rows; done. Qed.
Lemma R_fail_workers ws s : R s -> R (fail_workers ws s).
Proof. intros. unfold fail_workers. apply R_puts, R_fold_wk; done. Qed.

Lemma by_name_row n f s : by_name (update_cluster n f s) = by_name s.
Proof. unfold update_cluster. destruct (objs s !! n); done. Qed.
Lemma R_create_workers k n now s : n ∈ by_name s -> R s -> R (create_workers cf k n now s).
Proof.
  revert s. induction k as [|k IH]; intros s Hn Hs; [done|]. cbn [create_workers].
  destruct (create_worker cf n now s) as [w s1] eqn:E. apply IH.
  - unfold create_worker in E. injection E as <- <-. done.
  - apply R_put. eapply rtc_r; [exact Hs|]. replace s1 with (create_worker cf n now s).2 by (rewrite E; done). by apply p_neww.
Qed.
Lemma R_scale n now s : n ∈ by_name s -> R s -> R (check_scale cf n now s).
Proof.
  intros Hn Hs. unfold check_scale. destruct (objs s !! n); [|done]. case_decide; [apply R_put, R_row; done|].
  apply R_create_workers; done.
Qed.
Lemma R_proxied n s : R s -> R (check_proxied n s).
Proof. intros Hs. unfold check_proxied. destruct (objs s !! n); [|done]. destruct (c_proxied c); [done|]. apply R_attr; [done|]. apply R_routes. done. Qed.
Lemma by_name_proxied n s : by_name (check_proxied n s) = by_name s.
Proof. unfold check_proxied. destruct (objs s !! n); [|done]. destruct (c_proxied c); done. Qed.
Lemma R_stopped n now s : R s -> R (cluster_stopped n now s).
Proof. intros Hs. unfold cluster_stopped. destruct (objs s !! n); [|done]. apply R_attr; [done|]. apply R_row; [done|]. apply R_wks; done. Qed.
Lemma R_closing n c s : R s -> R (cluster_to_closing cf n c s).
Proof.
  intros Hs. unfold cluster_to_closing. apply R_attr; [done|].
  assert (forall ws f, fwk f -> R (update_cluster n (rset_status CLOSING) (qputs (map (fun w => (n, Some w)) ws) (update_workers n ws f s)))) as H.
  { intros. apply R_row; [done|]. apply R_puts, R_wks; done. }
  destruct (map w_name _) as [|w ws]; [apply R_put|]; apply H; done.
Qed.
Lemma R_heartbeat n m now s : R s -> R (heartbeat n m now s).1.
Proof.
  intros Hs. unfold heartbeat. destruct (lookup_cluster n s) as [c|]; [|done]. destruct (jlt _ _); [done|].
  destruct (classify _ _) as [z|]; [|apply R_attr; done]. cbn [fst].
  apply R_wks; [done|]. set (targets := z_targets z ++ _). match goal with |- context [set_targets n targets ?x] => set (s2 := x) end.
  assert (R s2) as H2.
  { unfold s2. destruct (_ || _); [|apply R_attr; done]. apply R_put, R_row; [|apply R_attr; done].
    intros r. destruct (decide (c_status c = RUNNING)), (negb _); done. }
  assert (R (qputs (map (fun t : nat * job => (n, Some t.1)) targets) (set_targets n targets s2))) as H3 by (apply R_puts, R_targets; done).
  destruct (z_running z); [done|]. apply R_wks; [done|]. apply R_attr; done.
Qed.
Lemma R_reconcile_cluster k n now s : Out s -> R s -> R (reconcile_cluster cf k n now s).1.
Proof.
  intros Ho Hs. unfold reconcile_cluster. destruct (objs s !! n) as [c|] eqn:Hn; [|apply R_finish; done].
  destruct (jge (c_status c) STOPPED) eqn:Hf; [apply R_finish; done|].
  assert (n ∈ by_name s) as Hin.
  { destruct (decide (n ∈ by_name s)); [done|]. change (is_fin (c_status c) = false) in Hf. rewrite (Ho n c) in Hf; done. }
  case_decide.
  - case_decide; [|apply R_finish, R_closing; done]. destruct (ready_to_close cf c); [|apply R_finish; done].
    destruct (jlt _ _); [apply R_suspend; done|]. apply R_finish, R_stopped; done.
  - case_decide; [|apply R_finish; done]. case_decide; [apply R_suspend; done|]. cbn [fst].
    set (s1 := if decide _ then _ else s).
    assert (R s1 /\ by_name s1 = by_name s) as [Hr1 Hb1].
    { unfold s1. destruct (decide _); [|done]. split; [apply R_attr; [done|]; apply R_row; done|]. apply by_name_row. }
    apply R_finish. destruct (objs s1 !! n) as [c1|]; [|done]. case_decide; [|done].
    apply R_scale; [rewrite by_name_proxied, Hb1; done|]. apply R_proxied; done.
Qed.
Lemma R_rest n w s : R s -> R (worker_stopped_rest cf n w s).
Proof.
  intros Hs. unfold worker_stopped_rest. destruct (objs s !! n) as [c|]; [|done]. destruct (get_worker n w s); [|done].
  destruct (ready_to_close cf c); [apply R_put; done|]. case_decide; [apply R_put|]; done.
Qed.
Lemma R_reconcile_worker k n w now s : R s -> R (reconcile_worker cf k n w now s).1.
Proof.
  intros Hs. unfold reconcile_worker. destruct (get_worker n w s) as [x|]; [|apply R_finish; done].
  destruct (jge (w_status x) STOPPED); [apply R_finish; done|]. case_decide.
  - cbn [fst]. apply R_finish. set (s1 := if decide _ then s else _).
    assert (R s1) by (unfold s1; destruct (decide _); [done|apply R_wk; done]).
    destruct (is_ready cf n s1); [apply R_put|]; done.
  - case_decide.
    + destruct (jlt _ _); [apply R_suspend; done|]. apply R_finish, R_rest, R_wk; done.
    + case_decide; [apply R_suspend|apply R_finish]; done.
Qed.
Lemma R_got k now s r : Out s -> R s -> R (got cf k now s r).1.
Proof.
  intros Ho Hs. destruct r as [q' [[]|]]; simpl; try (apply R_setq; done).
  destruct (_ : result item); try (apply R_setq; done). unfold reconcile.
  destruct x as [n [w|]]; [apply R_reconcile_worker, R_setq; done|]. apply R_reconcile_cluster; [done|]. apply R_setq. done.
Qed.
Lemma R_resume k o now s : R s -> R (resume cf k o now s).1.
Proof.
  intros Hs. unfold resume. destruct (busy s !! k) as [[]|]; [..|done]; destruct o; cbn [fst]; try done;
    repeat first [apply R_finish | apply R_put | apply R_rest | apply R_stopped | apply R_row; [done|] | apply R_wk; [done|]
                 | apply R_attr; [done|] | apply R_routes | apply R_release | done].
Qed.
Definition is_cleanup (e : event) : bool := match e with ECleanup _ => true | _ => false end.
Lemma R_step e s : is_restart e = false -> (is_cleanup e = true -> pg = true) -> Out s -> R s -> R (step cf s e).1.
Proof.
  intros He Hpg Ho Hs. destruct e; try discriminate He; cbn [step fst].
  - unfold start_cluster. destruct (create_cluster cf user info mx now s) as [n s1] eqn:E. apply R_put. eapply rtc_r; [exact Hs|].
    replace s1 with (create_cluster cf user info mx now s).2 by (rewrite E; done). apply p_new.
  - unfold stop_cluster. destruct (lookup_cluster n s); [|done]. destruct (jge _ _); [|done]. apply R_put, R_row; done.
  - apply R_heartbeat. done.
  - destruct (down s); [done|]. unfold check_timeouts. destruct (find_late _ _ _) as [[cs ws]|]; [|done].
    apply R_fail_workers, R_fail_clusters; done.
  - destruct (down s); [done|]. destruct (chk_c s); [done|]. apply R_chk_c; done.
  - destruct oks; [|apply R_chk_c; done]. cbn [fst]. unfold check_clusters_end. destruct (chk_c s); [|done].
    apply R_fail_clusters, R_chk_c. done.
  - destruct (down s); [done|]. destruct (chk_w s); [done|]. apply R_chk_w; done.
  - destruct oks; [|apply R_chk_w; done]. cbn [fst]. unfold check_workers_end. destruct (chk_w s); [|done].
    apply R_fold_fails, R_fold_wk; [done|]. apply R_chk_w. done.
  - destruct (down s); [done|]. eapply rtc_r; [exact Hs|]. apply p_purge. auto.
  - case_decide; [|done]. destruct (busy s !! k); [done|]. destruct (tasks (q s) !! k); [done|]. apply R_got; done.
  - apply R_got; done.
  - apply R_resume; done.
  - destruct (down s); [done|]. unfold shutdown. destruct (stop_on_shutdown cf); [|apply R_down, R_chk_w, R_chk_c; done].
    apply R_down, R_fail_clusters, R_chk_w, R_chk_c; done.
  - unfold close_queue. destruct (down s); [|done]. destruct (forallb _ _); [apply R_setq|]; done.
Qed.
End prims.

(** * Objects that are no longer listed *)
Definition grows (s0 s : gw) : Prop :=
  (forall n, n ∈ by_name s0 -> n ∈ by_name s) /\
  (forall n, is_Some (objs s !! n) -> is_Some (objs s0 !! n) \/ n ∈ by_name s).
Lemma grows_same s0 s s' : grows s0 s -> by_name s' = by_name s -> (forall n, is_Some (objs s' !! n) -> is_Some (objs s !! n)) -> grows s0 s'.
Proof. intros [H1 H2] E Ho. split; [rewrite E; done|]. intros n Hn. rewrite E. auto. Qed.
Lemma prim_grows cf s0 s s' : prim cf false s s' -> grows s0 s -> grows s0 s'.
Proof.
  intros [n f Hf|n w f Hf|n g Hg|user info mx now|n now Hn|? Hd|? ?] Hgr; [..|done].
  - eapply grows_same; [exact Hgr|apply by_name_row|]. unfold update_cluster. destruct (objs s !! n) eqn:E; [|done].
    intros m. simpl. rewrite lookup_alter_is_Some. done.
  - eapply grows_same; [exact Hgr|unfold update_worker; destruct (get_worker n w s); done|].
    unfold update_worker. destruct (get_worker n w s); [|done]. intros m. simpl. rewrite lookup_alter_is_Some. done.
  - eapply grows_same; [exact Hgr|done|]. intros m. simpl. rewrite lookup_alter_is_Some. done.
  - destruct Hgr as [H1 H2]. unfold create_cluster. simpl. split.
    + intros n Hn. simpl. apply elem_of_app. auto.
    + intros n. simpl. rewrite lookup_insert_is_Some. rewrite elem_of_app, elem_of_list_singleton. intros [->|[_ Hn]]; [auto|].
      destruct (H2 n Hn); auto.
  - eapply grows_same; [exact Hgr|done|]. intros m. simpl. rewrite lookup_alter_is_Some. done.
  - destruct Hd as (H1 & H2 & _). eapply grows_same; [exact Hgr|done|]. rewrite H1. done.
Qed.
Lemma prims_grow cf s s' : rtc (prim cf false) s s' -> grows s s'.
Proof.
  intros H. assert (forall s0, grows s0 s -> grows s0 s') as Hall; [|apply Hall; split; auto].
  induction H as [|x y z Hxy Hyz IH]; intros s0 Hg; [done|]. apply IH. eapply prim_grows; eauto.
Qed.
Lemma step_out cf fc fw e s s' o : Sync fc fw s -> is_restart e = false -> Inv cf None ∅ s -> Out s -> step cf s e = (s', o) -> Out s'.
Proof.
  intros Hy He HI Ho Hs. destruct (is_cleanup e) eqn:Hc.
  - destruct e; try discriminate Hc. simpl in Hs. destruct (down s); injection Hs as <- <-; [done|].
    destruct (purge_spec cf fc fw s now Hy) as [P1 P2 P3 P4 P5 P6 P7 P8 P9].
    intros n c. rewrite P2. intros Hn Hin. destruct (decide (n ∈ by_name s)) as [Hin'|Hin']; [|exact (Ho n c Hn Hin')].
    destruct (is_fin (c_status c)) eqn:Hf; [done|]. exfalso. apply Hin, P6. split; [done|]. intros d Hd (t & Ht & _).
    assert (d = c) as -> by congruence.
    pose proof (k_row _ _ _ _ _ _ (g_cok _ _ _ _ HI _ _ Hn)) as Hro. destruct (ro_stop _ Hro) as [H _].
    unfold c_status in Hf. rewrite H in Hf; [done|]. rewrite Ht. eauto.
  - pose proof (R_step cf false s e s He) as HR. rewrite Hs in HR. destruct (prims_grow cf s s') as [G1 G2].
    { apply HR; auto; [rewrite Hc; done|apply rtc_refl]. }
    destruct (step_inv cf e s s' o He HI Hs) as [_ HE].
    intros n c' Hn Hin. destruct (G2 n) as [[c Hc0]|]; [by exists c'| |done].
    destruct (HE n c Hc0) as (c'' & Hn' & Hev). assert (c'' = c') as -> by congruence.
    assert (is_fin (c_status c) = true) as Hf by (eapply Ho; eauto).
    destruct (e_fin _ _ Hev Hf) as [-> _]. done.
Qed.
