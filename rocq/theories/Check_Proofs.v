(** Lemmas for P_Check.v. *)
From Coq Require Import Ascii String.
From stdpp Require Import base list gmap strings.
From Verif Require Import Check_Model Check_Spec.
Open Scope nat_scope.

(** YARN. *)
Lemma group_one c ws : Forall (fun w => w_cluster w = c) ws -> forall g, fold_left group1 ws [(c, g)] = [(c, g ++ ws)].
Proof.
  induction 1 as [|w ws Hw _ IH]; intros g; cbn [fold_left]; [by rewrite app_nil_r|].
  assert (E : group1 [(c, g)] w = [(c, g ++ [w])]).
  { unfold group1. cbn. rewrite Hw, bool_decide_eq_true_2, decide_True by done. done. }
  rewrite E, IH, <- app_assoc. done.
Qed.
Lemma group_single c ws : ws <> [] -> Forall (fun w => w_cluster w = c) ws -> group ws = [(c, ws)].
Proof.
  intros Hn Hf. destruct ws as [|w ws]; [done|]. apply Forall_cons in Hf as [Hw Hf]. unfold group. cbn [fold_left].
  assert (E : group1 [] w = [(c, [w])]) by (unfold group1; cbn; by rewrite Hw). by rewrite E, (group_one c ws Hf).
Qed.
Lemma fill_lookup (f : worker -> bool) ws : NoDup (map w_name ws) -> forall (r : gmap positive bool) w, w ∈ ws -> fold_left (fun r w => <[w_name w := f w]> r) ws r !! w_name w = Some (f w).
Proof.
  assert (K : forall ws (r : gmap positive bool) n, n ∉ map w_name ws -> fold_left (fun r w => <[w_name w := f w]> r) ws r !! n = r !! n).
  { clear ws. intros ws. induction ws as [|v ws IH]; intros r n Hn; cbn; [done|]. cbn in Hn. apply not_elem_of_cons in Hn as [H1 H2]. rewrite IH by done. by rewrite lookup_insert_ne. }
  induction ws as [|v ws IH]; intros Hd r w Hw; [by apply elem_of_nil in Hw|]. cbn in Hd |- *. apply NoDup_cons in Hd as [Hv Hd].
  apply elem_of_cons in Hw as [->|Hw]; [|by apply IH]. rewrite K by done. by rewrite lookup_insert.
Qed.
Definition alive_b (apps : positive -> application) (c : positive) (w : worker) : bool :=
  match containers (apps c) with Some l => match w_id w with Some i => bool_decide (i ∈ l) | None => false end | None => false end.
Lemma alive_b_true apps c w : w_cluster w = c -> alive_b apps c w = true <-> container_alive apps w.
Proof.
  intros Hc. unfold alive_b, container_alive. rewrite Hc. split.
  - destruct (containers (apps c)) as [l|], (w_id w) as [i|]; intros H; try done. apply bool_decide_eq_true_1 in H. by exists l, i.
  - intros (l & i & -> & -> & H). by apply bool_decide_eq_true_2.
Qed.
Lemma yarn_single apps c ws : Forall (fun w => w_cluster w = c) ws -> NoDup (map w_name ws) -> reachable (apps c) = true ->
  yarn_check_workers apps ws = Some (map (alive_b apps c) ws).
Proof.
  intros Hf Hd Hr. destruct ws as [|w0 ws0]; [done|]. set (ws := w0 :: ws0) in *. unfold yarn_check_workers. rewrite (group_single c ws) by done. cbn [groups_loop]. unfold check_group. rewrite Hr.
  apply mapM_Some. apply Forall2_fmap_r, Forall_Forall2_diag. apply Forall_forall. intros w Hw. apply (fill_lookup (alive_b apps c) ws Hd ∅ w Hw).
Qed.
Lemma answers_map {A} (P : A -> Prop) (f : A -> bool) xs : (forall x, x ∈ xs -> f x = true <-> P x) -> answers P xs (map f xs).
Proof. intros H. unfold answers. apply Forall2_fmap_r, Forall_Forall2_diag, Forall_forall. done. Qed.
Lemma failed_spec {A} (P : A -> Prop) xs bs : answers P xs bs -> forall x, x ∈ failed xs (Some bs) <-> exists i, xs !! i = Some x /\ bs !! i = Some false.
Proof.
  intros _ x. cbn. rewrite elem_of_list_fmap. split.
  - intros ([y b] & -> & H). apply elem_of_list_In, filter_In in H as [H E]. apply elem_of_list_In, elem_of_list_lookup in H as (i & Hi). rewrite lookup_zip_with in Hi.
    destruct (xs !! i) eqn:E1; [|done]. cbn in Hi. destruct (bs !! i) eqn:E2; [|done]. cbn in Hi. injection Hi as -> ->. exists i. cbn in *. destruct b; done.
  - intros (i & H1 & H2). exists (x, false). split; [done|]. apply elem_of_list_In, filter_In. split; [|done]. apply elem_of_list_In, elem_of_list_lookup. exists i. rewrite lookup_zip_with, H1. cbn. by rewrite H2.
Qed.

(** Words and lines. *)
Definition plain (t : text) : Prop := Forall (fun c => is_space c = false) t.
Lemma break_space c : is_break c = true -> is_space c = true.
Proof. unfold is_break, is_space. intros H. apply orb_true_iff in H as [H|H]; apply andb_true_iff in H as [H1 H2]; apply Nat.leb_le in H1, H2; apply orb_true_iff; [left|right]; apply andb_true_iff; split; apply Nat.leb_le; lia. Qed.
Lemma plain_nobreak c : is_space c = false -> is_break c = false.
Proof. intros H. destruct (is_break c) eqn:E; [|done]. apply break_space in E. congruence. Qed.
Lemma words_plain w : plain w -> forall acc t, words_acc acc (w ++ t) = words_acc (acc ++ w) t.
Proof. induction 1 as [|c w Hc _ IH]; intros acc t; cbn; [by rewrite app_nil_r|]. rewrite Hc, IH. by rewrite <- app_assoc. Qed.
Lemma words_cons w t : word w -> words (w ++ space :: t) = w :: words t.
Proof. intros [Hn Hp]. unfold words. rewrite words_plain by done. cbn. destruct w; done. Qed.
Lemma words_last w : word w -> words w = [w].
Proof. intros [Hn Hp]. unfold words. rewrite <- (app_nil_r w) at 1. rewrite words_plain by done. cbn. destruct w; done. Qed.
Lemma lines_plain l : one_line l -> forall acc t, lines_acc acc (l ++ t) = lines_acc (acc ++ l) t.
Proof. induction 1 as [|c l Hc _ IH]; intros acc t; cbn [lines_acc app]; [by rewrite app_nil_r|]. rewrite Hc, IH. by rewrite <- app_assoc. Qed.
Lemma lines_cons l t : one_line l -> lines (l ++ newline :: t) = l :: lines t.
Proof. intros H. unfold lines. rewrite lines_plain by done. cbn [app lines_acc]. replace (is_break newline) with true by done. destruct t as [|d t]; done. Qed.
Lemma word_line w : word w -> one_line w.
Proof. intros [_ H]. eapply Forall_impl; [exact H|]. intros c. apply plain_nobreak. Qed.
Lemma lines_concat {A} (f : A -> text) rows rest : Forall (fun r => one_line (f r)) rows -> lines (List.concat (map (fun r => f r ++ [newline]) rows) ++ rest) = map f rows ++ lines rest.
Proof. induction 1 as [|r rows Hr _ IH]; cbn; [done|]. rewrite <- !app_assoc. cbn. rewrite lines_cons by done. by rewrite IH. Qed.
Lemma collect_map {A} (row : text -> option (text * bool)) (f : A -> text) (g : A -> text * bool) rows : Forall (fun r => row (f r) = Some (g r)) rows ->
  forall m, collect row (map f rows) m = Some (fold_left (fun m r => <[fst (g r) := snd (g r)]> m) rows m).
Proof. induction 1 as [|r rows Hr _ IH]; intros m; cbn; [done|]. rewrite Hr. destruct (g r) as [j ok]. cbn. apply IH. Qed.
Lemma fold_last (alive : text -> bool) (P : text -> Prop) rows j : (forall st, alive st = true <-> P st) -> forall m : gmap text bool,
  (default false (fold_left (fun m r => <[fst r := alive (snd r)]> m) rows m !! j) = true) <-> (reported P rows j \/ (forall st, (j, st) ∉ rows) /\ default false (m !! j) = true).
Proof.
  intros Ha. induction rows as [|[k st] rows IH] using rev_ind; intros m.
  - cbn. split; [intros H; right; split; [intros st; apply not_elem_of_nil|done]|]. intros [(r1 & st & r2 & E & _)|[_ H]]; [by destruct r1|done].
  - rewrite fold_left_app. cbn [fold_left fst snd]. destruct (decide (k = j)) as [->|Hk].
    + rewrite lookup_insert. cbn. rewrite Ha. split.
      * intros H. left. exists rows, st, []. split; [done|]. split; [intros st'; apply not_elem_of_nil|done].
      * intros [(r1 & st1 & r2 & E & Hn & Hp)|[Hn _]]; [|exfalso; apply (Hn st); apply elem_of_app; right; by apply elem_of_list_singleton].
        destruct r2 as [|x r2 _] using rev_ind; [apply app_inj_tail in E as [_ E]; injection E as ->; done|].
        exfalso. rewrite app_comm_cons, app_assoc in E. apply app_inj_tail in E as [_ <-]. apply (Hn st). apply elem_of_app. right. by apply elem_of_list_singleton.
    + rewrite lookup_insert_ne by done. rewrite IH. split.
      * intros [(r1 & st1 & r2 & -> & Hn & Hp)|[Hn Hm]].
        -- left. exists r1, st1, (r2 ++ [(k, st)]). split; [by rewrite <- app_assoc|]. split; [|done]. intros st' [H|H%elem_of_list_singleton]%elem_of_app; [by apply (Hn st')|congruence].
        -- right. split; [|done]. intros st' [H|H%elem_of_list_singleton]%elem_of_app; [by apply (Hn st')|congruence].
      * intros [(r1 & st1 & r2 & E & Hn & Hp)|[Hn Hm]].
        -- left. destruct r2 as [|x r2 _] using rev_ind; [apply app_inj_tail in E as [_ E]; congruence|]. rewrite app_comm_cons, app_assoc in E. apply app_inj_tail in E as [-> _].
           exists r1, st1, r2. split; [done|]. split; [|done]. intros st' H. apply (Hn st'). apply elem_of_app. by left.
        -- right. split; [|done]. intros st' H. apply (Hn st'). apply elem_of_app. by left.
Qed.
Lemma slurm_alive_true st : slurm_alive st = true <-> slurm_active st.
Proof. unfold slurm_alive, slurm_active. rewrite bool_decide_eq_true. cbn [map]. rewrite !elem_of_cons. pose proof (not_elem_of_nil st). tauto. Qed.
Lemma pbs_alive_true st : pbs_alive st = true <-> pbs_active st.
Proof. unfold pbs_alive, pbs_active. rewrite bool_decide_eq_true. cbn [map]. rewrite !elem_of_cons. pose proof (not_elem_of_nil st). tauto. Qed.
Lemma space_line : is_break space = false.
Proof. done. Qed.
Lemma slurm_parse rows : Forall (fun r => word (fst r) /\ word (snd r)) rows ->
  exists states, slurm_states (squeue rows) = Some states /\ forall j, default false (states !! j) = true <-> reported slurm_active rows j.
Proof.
  intros Hf. set (f := fun r : text * text => fst r ++ space :: snd r).
  assert (E : squeue rows = List.concat (map (fun r => f r ++ [newline]) rows) ++ []).
  { rewrite app_nil_r. unfold squeue, f. f_equal. apply map_ext. intros r. by rewrite <- !app_assoc. }
  unfold slurm_states. rewrite E, lines_concat.
  2: { eapply Forall_impl; [exact Hf|]. intros r [H1 H2]. unfold f, one_line. apply Forall_app. split; [by apply word_line|]. constructor; [done|by apply word_line]. }
  cbn [lines lines_acc]. unfold lines. cbn [lines_acc cons_word]. rewrite app_nil_r.
  rewrite (collect_map slurm_row f (fun r => (fst r, slurm_alive (snd r)))).
  2: { eapply Forall_impl; [exact Hf|]. intros r [H1 H2]. unfold slurm_row, f. rewrite words_cons by done. by rewrite words_last. }
  eexists. split; [done|]. intros j. cbn [fst snd]. rewrite (fold_last slurm_alive slurm_active rows j slurm_alive_true). rewrite lookup_empty. cbn. split; [intros [H|[_ H]]; done|by left].
Qed.
Lemma pbs_parse h1 h2 rows a b c q : one_line h1 -> one_line h2 -> word a -> word b -> word c -> word q -> Forall (fun r => word (fst r) /\ word (snd r)) rows ->
  exists states, pbs_states (qstat h1 h2 rows a b c q) = Some states /\ forall j, default false (states !! j) = true <-> reported pbs_active rows j.
Proof.
  intros H1 H2 Ha Hb Hc Hq Hf. set (f := fun r : text * text => fst r ++ space :: a ++ space :: b ++ space :: c ++ space :: snd r ++ space :: q).
  assert (E : qstat h1 h2 rows a b c q = h1 ++ newline :: h2 ++ newline :: List.concat (map (fun r => f r ++ [newline]) rows) ++ []).
  { rewrite app_nil_r. unfold qstat, f. cbn [app]. do 4 f_equal. apply f_equal. apply map_ext. intros r. repeat (rewrite <- app_assoc; cbn [app]). done. }
  unfold pbs_states. rewrite E, !lines_cons by done. cbn [drop]. rewrite lines_concat.
  2: { eapply Forall_impl; [exact Hf|]. intros r [K1 K2]. unfold f, one_line. repeat (apply Forall_app; split; [by apply word_line|]; constructor; [done|]). by apply word_line. }
  unfold lines. cbn [lines_acc cons_word]. rewrite app_nil_r, drop_0.
  rewrite (collect_map pbs_row f (fun r => (fst r, pbs_alive (snd r)))).
  2: { eapply Forall_impl; [exact Hf|]. intros r [K1 K2]. unfold pbs_row, f. rewrite !words_cons by done. by rewrite words_last. }
  eexists. split; [done|]. intros j. cbn [fst snd]. rewrite (fold_last pbs_alive pbs_active rows j pbs_alive_true). rewrite lookup_empty. cbn. split; [intros [H|[_ H]]; done|by left].
Qed.

(** _do_check. *)
Lemma id_map_acc objs : NoDup (map j_name objs) -> forall m : gmap positive text, (forall x, x ∈ objs -> m !! j_name x = None) ->
  let m' := fold_left (fun m x => match j_id x with Some j => <[j_name x := j]> m | None => m end) objs m in
  (forall x, x ∈ objs -> m' !! j_name x = j_id x) /\ (forall n, n ∉ map j_name objs -> m' !! n = m !! n) /\ map snd (map_to_list m') ≡ₚ omap j_id objs ++ map snd (map_to_list m).
Proof.
  induction objs as [|x objs IH]; intros Hd m Hm; cbn; [split_and!; [intros x H; by apply elem_of_nil in H|done|done]|]. cbn in Hd. apply NoDup_cons in Hd as [Hx Hd].
  set (m1 := match j_id x with Some j => <[j_name x := j]> m | None => m end).
  assert (Hne : forall y, y ∈ objs -> j_name y <> j_name x) by (intros y Hy E; apply Hx; rewrite <- E; by apply elem_of_list_fmap_1).
  assert (Hx0 : m !! j_name x = None) by (apply Hm; left).
  destruct (IH Hd m1) as (I1 & I2 & I3).
  { intros y Hy. unfold m1. destruct (j_id x); [rewrite lookup_insert_ne by (intros E; by apply (Hne y Hy))|]; apply Hm; by right. }
  split_and!.
  - intros y [->|Hy]%elem_of_cons; [|by apply I1]. rewrite I2 by done. unfold m1. destruct (j_id x); [by rewrite lookup_insert|done].
  - intros n Hn. cbn in Hn. apply not_elem_of_cons in Hn as [Hn1 Hn2]. rewrite I2 by done. unfold m1. destruct (j_id x); [by rewrite lookup_insert_ne|done].
  - rewrite I3. unfold m1. destruct (j_id x) as [j|]; [|done]. cbn. rewrite (Permutation_map snd (map_to_list_insert m (j_name x) j Hx0)). cbn. by rewrite Permutation_middle.
Qed.
Lemma do_check_ok status parse objs : NoDup (map j_name objs) ->
  exists ids, ids ≡ₚ omap j_id objs /\ forall states, check_jobs status parse ids = Some states ->
  do_check status parse objs = Some (map (fun x => match j_id x with Some j => default false (states !! j) | None => false end) objs).
Proof.
  intros Hd. destruct (id_map_acc objs Hd ∅) as (I1 & _ & I3); [intros; apply lookup_empty|]. fold (id_map objs) in I1, I3. exists (map snd (map_to_list (id_map objs))). split.
  - by rewrite I3, map_to_list_empty, app_nil_r.
  - intros states Hs. unfold do_check. rewrite Hs. f_equal. apply map_ext_in. intros x Hx. apply elem_of_list_In in Hx. by rewrite I1.
Qed.
