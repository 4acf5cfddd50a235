(** Proofs about the proxy router model. *)
From Coq Require Import Ascii Lia.
From stdpp Require Import prelude.
From Verif Require Import Router_Model Router_Spec.

Local Arguments slice_from : simpl never.
Local Arguments slice : simpl never.
Local Arguments slice_to : simpl never.
Local Arguments getSegment : simpl never.

(** ** paths *)
Lemma reverse_snoc_cases {X} (l : list X) : l = [] \/ exists l' x, l = l' ++ [x].
Proof. destruct l using rev_ind; eauto. Qed.

Lemma strip_trail_nil : strip_trail [] = [].
Proof. reflexivity. Qed.
Lemma strip_trail_snoc l c : strip_trail (l ++ [c]) = if decide (c = slash) then l else l ++ [c].
Proof.
  unfold strip_trail. rewrite reverse_snoc. simpl. case_decide; rewrite ?reverse_cons, ?reverse_involutive; done.
Qed.

Lemma strip_trail_cases l : strip_trail l = l \/ l = strip_trail l ++ [slash].
Proof.
  destruct (reverse_snoc_cases l) as [->|(l'&c&->)]; [auto|]. rewrite strip_trail_snoc.
  case_decide as Hc; [subst; auto|auto].
Qed.

Lemma strip_trail_suffix x y : strip_trail (x ++ y) = x ++ y -> strip_trail y = y.
Proof.
  destruct (reverse_snoc_cases y) as [->|(y'&c&->)]; [done|]. rewrite app_assoc, !strip_trail_snoc.
  case_decide as Hc; [|done]. intros E. exfalso. apply (f_equal length) in E. rewrite !app_length in E. simpl in E. lia.
Qed.

Lemma slice_from_ok p i : i <= length p -> slice_from p i = Some (drop i p).
Proof. intros Hi. unfold slice_from. rewrite decide_True; done. Qed.
Lemma slice_ok p i j : i <= j -> j <= length p -> slice p i j = Some (take (j - i) (drop i p)).
Proof. intros Hi Hj. unfold slice. rewrite decide_True; auto. Qed.

(** normalizePath never panics, strips, and reports the offset of what is left. *)
Lemma normalizePath_spec p : exists off, normalizePath p = Some (strip p, off) /\
  exists lead trail, p = lead ++ strip p ++ trail /\ length lead = off /\
  (lead = [] \/ lead = [slash]) /\ ((trail = [] /\ strip_trail (strip p) = strip p) \/ trail = [slash]).
Proof.
  unfold normalizePath. case_decide as H0.
  - destruct H0 as [-> | ->]; exists 0; (split; [reflexivity|]).
    + exists [], []. repeat (split; [auto|]). left. auto.
    + exists [], [slash]. repeat (split; [auto|]). auto.
  - destruct p as [|c p]; [tauto|]. simpl.
    assert (Hgen : forall q (off : nat), q <> [] ->
      (last ← (if decide (length q = 0) then None else q !! (length q - 1));
       if decide (last = slash) then p' ← slice_to q (length q - 1); Some (p', off) else Some (q, off)) = Some (strip_trail q, off) /\
      exists trail, q = strip_trail q ++ trail /\ ((trail = [] /\ strip_trail (strip_trail q) = strip_trail q) \/ trail = [slash])).
    { intros q off Hq. destruct (reverse_snoc_cases q) as [->|(q'&d&->)]; [done|].
      rewrite decide_False by (rewrite app_length; simpl; lia).
      rewrite app_length. simpl. replace (length q' + 1 - 1) with (length q') by lia.
      rewrite list_lookup_middle by done. simpl. rewrite strip_trail_snoc. split.
      - case_decide; [|done]. unfold slice_to. rewrite slice_ok by (rewrite ?app_length; simpl; lia). simpl.
        f_equal. f_equal. rewrite drop_0. rewrite take_app_alt; [done|lia].
      - case_decide as Hd; [exists [slash]; subst; auto|exists []; rewrite app_nil_r; split; [done|left; split; [done|]; rewrite strip_trail_snoc, decide_False by done; done]]. }
    unfold strip. simpl. case_decide as Hc.
    + subst c.
    rewrite drop_0. simpl.
      destruct (Hgen p 1) as [E (trail & Ht & Hcase)]; [intros ->; tauto|].
      exists 1. split; [exact E|]. exists [slash], trail. split; [simpl; congruence|auto].
    + destruct (Hgen (c :: p) 0) as [E (trail & Ht & Hcase)]; [done|].
      exists 0. split; [exact E|]. exists [], trail. auto.
Qed.

(** ** segments *)
Lemma indexSlash_none l : indexSlash l = None -> split_slash l = [l].
Proof.
  induction l as [|c l IH]; simpl; [done|]. case_decide; [done|].
  destruct (indexSlash l); [done|]. intros _. rewrite IH; done.
Qed.
Lemma indexSlash_some l e : indexSlash l = Some e ->
  e < length l /\ split_slash l = take e l :: split_slash (drop (e + 1) l) /\ l = take e l ++ slash :: drop (e + 1) l.
Proof.
  revert e. induction l as [|c l IH]; intros e; simpl; [done|]. case_decide as Hc.
  - intros [= <-]. subst. simpl. rewrite drop_0. auto with lia.
  - destruct (indexSlash l) as [e'|] eqn:He; simpl; [|done]. intros [= <-].
    destruct (IH e' eq_refl) as (Hl & Hs & Hd). simpl. rewrite Hs. split; [lia|]. split; [done|].
    rewrite <- Hd. done.
Qed.

Lemma getSegment_spec path n : n <= length path -> exists seg i, getSegment path n = Some (seg, i) /\
  match i with
  | None => split_slash (drop n path) = [seg] /\ drop n path = seg
  | Some i => n < i <= length path /\ split_slash (drop n path) = seg :: split_slash (drop i path) /\
              drop n path = seg ++ slash :: drop i path
  end.
Proof.
  intros Hn. unfold getSegment. case_decide as H0.
  - apply nil_length_inv in H0. subst. exists [], None. rewrite drop_nil. done.
  - rewrite slice_from_ok by done. simpl. destruct (indexSlash (drop n path)) as [e|] eqn:He.
    + destruct (indexSlash_some _ _ He) as (Hl & Hs & Hd). rewrite drop_length in Hl.
      rewrite slice_ok by lia. simpl. replace (n + e - n) with e by lia.
      exists (take e (drop n path)), (Some (n + e + 1)). split; [done|].
      rewrite drop_drop in Hs, Hd. replace (n + (e + 1)) with (n + e + 1) in Hs, Hd by lia.
      split; [lia|]. auto.
    + exists (drop n path), None. split; [done|]. split; [apply indexSlash_none; done|done].
Qed.

Lemma split_nonempty l : split_slash l <> [].
Proof. induction l as [|c l IH]; simpl; [done|]. case_decide; [done|]. destruct (split_slash l); done. Qed.

Lemma join_split l : join_slash (split_slash l) = l.
Proof.
  induction l as [|c l IH]; simpl; [done|]. pose proof (split_nonempty l) as Hn.
  case_decide as Hc.
  - subst c. simpl. destruct (split_slash l) as [|s k]; [done|]. simpl in *. rewrite IH. done.
  - destruct (split_slash l) as [|s k]; [done|]. simpl in *. rewrite IH. done.
Qed.

Lemma split_no_slash l : Forall (fun s => slash ∉ s) (split_slash l).
Proof.
  induction l as [|c l IH]; simpl.
  - constructor; [apply not_elem_of_nil|constructor].
  - case_decide as Hc; [constructor; [apply not_elem_of_nil|done]|].
    destruct (split_slash l); inversion IH; subst; constructor; try done; intros [?|?]%elem_of_cons; try congruence.
    by apply elem_of_nil in H.
Qed.

Lemma split_single_nil l : split_slash l = [[]] -> l = [].
Proof. destruct l as [|c l]; [done|]. simpl. case_decide; [|destruct (split_slash l); done].
  intros [= Hs]. exfalso. by eapply split_nonempty.
Qed.

(** ** association lists *)
Section assoc.
Context {U : Type}.
Implicit Types (m : list (bytes * router U)) (r : router U).

Lemma map_get_set k k' r m : map_get k' (map_set k r m) = if decide (k' = k) then Some r else map_get k' m.
Proof.
  induction m as [|[k0 r0] m IH]; simpl.
  - repeat case_decide; done.
  - destruct (decide (k = k0)) as [H1|H1]; simpl.
    + subst k0. repeat case_decide; congruence.
    + rewrite IH. repeat case_decide; congruence.
Qed.
Lemma map_get_delete k k' m : map_get k' (map_delete k m) = if decide (k' = k) then None else map_get k' m.
Proof.
  induction m as [|[k0 r0] m IH]; simpl.
  - case_decide; done.
  - destruct (decide (k = k0)) as [H1|H1]; simpl.
    + subst k0. rewrite IH. repeat case_decide; congruence.
    + rewrite IH. repeat case_decide; congruence.
Qed.
Lemma map_get_in k r m : map_get k m = Some r -> (k, r) ∈ m.
Proof.
  induction m as [|[k0 r0] m IH]; simpl; [done|]. case_decide; [intros [= <-]; subst; left|]. intros Hm. right. auto.
Qed.
Lemma map_get_in_nodup k r m : NoDup (map fst m) -> (k, r) ∈ m -> map_get k m = Some r.
Proof.
  induction m as [|[k0 r0] m IH]; simpl; [intros _ Hx; by apply elem_of_nil in Hx|].
  intros [Hn Hnd]%NoDup_cons [Hx|Hx]%elem_of_cons.
  - injection Hx as -> ->. rewrite decide_True; done.
  - case_decide as Hk; [|auto]. subst. exfalso. apply Hn. apply elem_of_list_fmap. exists (k0, r). auto.
Qed.
Lemma map_set_keys k r m : map fst (map_set k r m) = if decide (k ∈ map fst m) then map fst m else map fst m ++ [k].
Proof.
  induction m as [|[k0 r0] m IH].
  - rewrite decide_False; [done|apply not_elem_of_nil].
  - cbn [map map_set fst]. destruct (decide (k = k0)) as [H1|H1]; cbn [map fst].
    + subst. rewrite decide_True by left. done.
    + rewrite IH. destruct (decide (k ∈ map fst m)) as [H2|H2].
      * rewrite decide_True; [done|]. right. done.
      * rewrite decide_False; [done|]. rewrite elem_of_cons. tauto.
Qed.
Lemma map_set_nodup k r m : NoDup (map fst m) -> NoDup (map fst (map_set k r m)).
Proof.
  intros Hn. rewrite map_set_keys. case_decide as Hk; [done|]. apply NoDup_app. split; [done|].
  split; [|apply NoDup_singleton]. intros x Hx ->%elem_of_list_singleton. done.
Qed.
Lemma map_delete_keys k m x : x ∈ map fst (map_delete k m) -> x ∈ map fst m.
Proof.
  induction m as [|[k0 r0] m IH]; simpl; [done|]. case_decide; simpl; rewrite !elem_of_cons; tauto.
Qed.
Lemma map_delete_nodup k m : NoDup (map fst m) -> NoDup (map fst (map_delete k m)).
Proof.
  induction m as [|[k0 r0] m IH]; simpl; [done|]. intros [Hn Hnd]%NoDup_cons. case_decide; simpl; [auto|].
  apply NoDup_cons. split; [|auto]. intros Hx%map_delete_keys. done.
Qed.

(** ** the table held by a tree *)
Definition lookup_route r (k : list bytes) : option U := node_at r k ≫= r_url.

Lemma lookup_nil r : lookup_route r [] = r_url r.
Proof. reflexivity. Qed.
Lemma lookup_cons r s k : lookup_route r (s :: k) = map_get s (r_branches r) ≫= fun c => lookup_route c k.
Proof. unfold lookup_route. simpl. destruct (map_get s (r_branches r)); done. Qed.
Lemma lookup_new k : lookup_route (NewRouter : router U) k = None.
Proof. destruct k; done. Qed.

Definition live r := exists k u, lookup_route r k = Some u.
Definition clean r := forall k n, k <> [] -> node_at r k = Some n -> live n.
Definition tidy r := forall k n, node_at r k = Some n -> NoDup (map fst (r_branches n)).

Lemma clean_local r : clean r <-> forall s c, map_get s (r_branches r) = Some c -> live c /\ clean c.
Proof.
  split.
  - intros Hc s c Hs. split.
    + apply (Hc [s]); [done|]. simpl. rewrite Hs. done.
    + intros k n Hk Hn. apply (Hc (s :: k)); [done|]. simpl. rewrite Hs. done.
  - intros Hl k n Hk Hn. destruct k as [|s k]; [done|]. simpl in Hn.
    destruct (map_get s (r_branches r)) as [c|] eqn:Hs; [|done]. destruct (Hl _ _ Hs) as [Hlive Hcl].
    destruct k as [|s' k]; [simpl in Hn; injection Hn as <-; done|]. apply (Hcl (s' :: k)); done.
Qed.
Lemma tidy_local r : tidy r <-> NoDup (map fst (r_branches r)) /\ forall s c, map_get s (r_branches r) = Some c -> tidy c.
Proof.
  split.
  - intros Ht. split; [apply (Ht [] r); done|]. intros s c Hs k n Hn. apply (Ht (s :: k)). simpl. rewrite Hs. done.
  - intros [Hn Hl] k n Hk. destruct k as [|s k]; [simpl in Hk; injection Hk as <-; done|]. simpl in Hk.
    destruct (map_get s (r_branches r)) as [c|] eqn:Hs; [|done]. eapply Hl; eauto.
Qed.

Lemma clean_new : clean (NewRouter : router U).
Proof. apply clean_local. done. Qed.
Lemma tidy_new : tidy (NewRouter : router U).
Proof. apply tidy_local. split; [constructor|done]. Qed.

(** ** Put *)
Lemma put_loop_spec fuel node path n u : n <= length path -> length path - n < fuel -> exists r',
  put_loop fuel node path n u = Some r' /\
  (forall k, lookup_route r' k = if decide (k = split_slash (drop n path)) then Some u else lookup_route node k) /\
  (clean node -> clean r') /\ (tidy node -> tidy r').
Proof.
  revert node n. induction fuel as [|f IH]; intros node n Hn Hf; [lia|].
  destruct (getSegment_spec path n Hn) as (seg & i & Hg & Hi). simpl. rewrite Hg. simpl.
  set (child := default NewRouter (map_get seg (r_branches node))).
  assert (Hchild : exists c', match i with None => Some (Node (Some u) (r_branches child)) | Some i => put_loop f child path i u end = Some c' /\
     (forall k, lookup_route c' k = if decide (seg :: k = split_slash (drop n path)) then Some u else lookup_route child k) /\
     (clean child -> clean c') /\ (tidy child -> tidy c')).
  { destruct i as [i|].
    - destruct Hi as (Hlt & Hs & _). destruct (IH child i) as (c' & Hc & Hk & Hcl & Htd); [lia|lia|].
      exists c'. split; [done|]. split; [|done]. intros k. rewrite Hk, Hs. repeat case_decide; congruence.
    - destruct Hi as (Hs & _). exists (Node (Some u) (r_branches child)). split; [done|]. split; [|split].
      + intros k. rewrite Hs. destruct k as [|s k].
        * rewrite decide_True by done. done.
        * rewrite decide_False by done. rewrite !lookup_cons. done.
      + rewrite !clean_local. done.
      + rewrite !tidy_local. done. }
  destruct Hchild as (c' & -> & Hk & Hcl & Htd). simpl. eexists. split; [done|]. split; [|split].
  - intros k. destruct k as [|s k].
    + rewrite decide_False; [done|]. intros Hx. symmetry in Hx. by apply split_nonempty in Hx.
    + rewrite !lookup_cons. simpl. rewrite map_get_set. case_decide as Hs; simpl.
      * subst s. rewrite Hk. case_decide; [done|]. unfold child.
        destruct (map_get seg (r_branches node)); simpl; [done|apply lookup_new].
      * rewrite decide_False; [done|]. intros Hx. destruct i as [i|].
        -- destruct Hi as (_ & Hs' & _). congruence.
        -- destruct Hi as (Hs' & _). congruence.
  - rewrite (clean_local node). intros Hc. apply clean_local. simpl. intros s c. rewrite map_get_set.
    case_decide as Hs; [|apply Hc]. intros [= <-].
    assert (Hcc : clean child).
    { unfold child. destruct (map_get seg (r_branches node)) eqn:E; simpl; [eapply Hc; eauto|apply clean_new]. }
    split; [|auto]. destruct (split_slash (drop n path)) as [|s0 k0] eqn:Hsp; [by apply split_nonempty in Hsp|].
    exists k0, u. rewrite Hk. rewrite decide_True; [done|]. destruct i as [i|].
    + destruct Hi as (_ & Hs' & _). congruence.
    + destruct Hi as (Hs' & _). congruence.
  - rewrite (tidy_local node). intros [Hn0 Ht]. apply tidy_local. simpl. split; [apply map_set_nodup; done|].
    intros s c. rewrite map_get_set. case_decide as Hs; [|eauto]. intros [= <-]. apply Htd.
    unfold child. destruct (map_get seg (r_branches node)) eqn:E; simpl; [eauto|apply tidy_new].
Qed.

(** ** Delete *)
Lemma dead_leaf r : r_url r = None -> isLeaf r = true -> forall k, lookup_route r k = None.
Proof.
  destruct r as [o b]. unfold isLeaf. simpl. intros -> Hb. destruct b; [|done]. intros [|s k]; done.
Qed.
Lemma live_nonleaf r : clean r -> isLeaf r = false -> live r.
Proof.
  destruct r as [o b]. unfold isLeaf. simpl. intros Hc Hl. destruct b as [|[s c] b]; [done|].
  rewrite clean_local in Hc. destruct (Hc s c) as [(k & u & Hk) _]; [simpl; rewrite decide_True; done|].
  exists (s :: k), u. rewrite lookup_cons. simpl. rewrite decide_True by done. done.
Qed.

Lemma delete_loop_spec fuel node path n : n <= length path -> length path - n < fuel -> clean node -> exists res,
  delete_loop fuel node path n = Some res /\
  match res with
  | None => lookup_route node (split_slash (drop n path)) = None
  | Some (r', prune) =>
      (forall k, lookup_route r' k = if decide (k = split_slash (drop n path)) then None else lookup_route node k) /\
      clean r' /\ (tidy node -> tidy r') /\
      (prune = true -> forall k, lookup_route r' k = None) /\ (prune = false -> live r')
  end.
Proof.
  revert node n. induction fuel as [|f IH]; intros node n Hn Hf Hcn; [lia|].
  destruct (getSegment_spec path n Hn) as (seg & i & Hg & Hi). simpl. rewrite Hg. simpl.
  assert (Hsplit : exists tl, split_slash (drop n path) = seg :: tl).
  { destruct i as [i|]; [destruct Hi as (_&Hi&_)|destruct Hi as (Hi&_)]; eauto. }
  destruct Hsplit as (tl & Hsp). rewrite Hsp in *.
  destruct (map_get seg (r_branches node)) as [child|] eqn:Hm.
  2:{ exists None. split; [done|]. rewrite lookup_cons, Hm. done. }
  pose proof (proj1 (clean_local node) Hcn) as Hcl. destruct (Hcl _ _ Hm) as [_ Hcc].
  assert (Hsub : exists sub, match i with
                | None => Some (Some (Node None (r_branches child), isLeaf (Node None (r_branches child))))
                | Some i => delete_loop f child path i end = Some sub /\
    match sub with
    | None => lookup_route child tl = None
    | Some (c', prune) =>
       (forall k, lookup_route c' k = if decide (k = tl) then None else lookup_route child k) /\
       clean c' /\ (tidy child -> tidy c') /\
       (prune = true -> forall k, lookup_route c' k = None) /\ (prune = false -> live c')
    end).
  { destruct i as [i|].
    - destruct Hi as (Hlt & [= Htl] & _). destruct (IH child i) as (res & Hr & Hres); [lia|lia|done|].
      exists res. split; [done|]. rewrite Htl. exact Hres.
    - destruct Hi as ([= ->] & _). eexists. split; [done|]. split; [|split; [|split; [|split]]].
      + intros k. destruct k as [|s k]; [rewrite decide_True by done; done|].
        rewrite decide_False by done. rewrite !lookup_cons. done.
      + rewrite clean_local in *. done.
      + rewrite !tidy_local. done.
      + intros Hl. apply dead_leaf; done.
      + intros Hl. apply live_nonleaf; [rewrite clean_local in *; done|done]. }
  destruct Hsub as (sub & -> & Hsub). simpl. destruct sub as [[c' prune]|].
  2:{ exists None. split; [done|]. rewrite lookup_cons, Hm. simpl. done. }
  destruct Hsub as (Hk & Hcc' & Htd & Hdead & Hlive). destruct prune.
  - eexists. split; [done|]. simpl.
    assert (Hclean' : clean (Node (r_url node) (map_delete seg (r_branches node)))).
    { apply clean_local. simpl. intros s c. rewrite map_get_delete. case_decide; [done|]. apply Hcl. }
    split; [|split; [|split; [|split]]].
    + intros k. destruct k as [|s k]; [rewrite decide_False by done; done|]. rewrite !lookup_cons. simpl.
      rewrite map_get_delete. case_decide as Hs; simpl.
      * subst s. rewrite Hm. simpl. case_decide as Hx; [done|]. specialize (Hk k). rewrite Hdead in Hk by done.
        rewrite decide_False in Hk by congruence. done.
      * rewrite decide_False by congruence. done.
    + exact Hclean'.
    + rewrite !tidy_local. simpl. intros [Hnd Ht]. split; [apply map_delete_nodup; done|].
      intros s c. rewrite map_get_delete. case_decide; [done|]. eauto.
    + intros Hp. destruct (r_url node) eqn:Hu; [done|]. apply dead_leaf; done.
    + intros Hp. destruct (r_url node) as [u|] eqn:Hu; [exists [], u; done|]. apply live_nonleaf; done.
  - eexists. split; [done|]. simpl. split; [|split; [|split; [|split]]].
    + intros k. destruct k as [|s k]; [rewrite decide_False by done; done|]. rewrite !lookup_cons. simpl.
      rewrite map_get_set. case_decide as Hs; simpl.
      * subst s. rewrite Hm. simpl. rewrite Hk. repeat case_decide; congruence.
      * rewrite decide_False by congruence. done.
    + apply clean_local. simpl. intros s c. rewrite map_get_set. case_decide; [|apply Hcl]. intros [= <-]. auto.
    + rewrite !tidy_local. simpl. intros [Hnd Ht]. split; [apply map_set_nodup; done|].
      intros s c. rewrite map_get_set. case_decide; [|eauto]. intros [= <-]. eauto.
    + done.
    + intros _. destruct Hlive as (k & u & Hku); [done|]. exists (seg :: k), u. rewrite lookup_cons. simpl.
      rewrite map_get_set, decide_True by done. done.
Qed.

(** ** every sequence of operations *)
Lemma strip_length p : length (strip p) <= length p.
Proof. destruct (normalizePath_spec p) as (off & _ & lead & trail & E & _). rewrite E at 2. rewrite !app_length. lia. Qed.

Lemma apply_op_spec r o : clean r -> tidy r -> exists r', apply_op r o = Some r' /\
  (forall k, lookup_route r' k = table_step (lookup_route r) o k) /\ clean r' /\ tidy r'.
Proof.
  intros Hc Ht. destruct o as [p u|p]; simpl.
  - unfold Put. pose proof (strip_length p) as Hlen. remember (S (length p)) as fuel eqn:Hfuel. destruct (normalizePath_spec p) as (off & -> & _). simpl. unfold route_of. case_decide as Hs.
    + eexists. split; [done|]. split; [|split].
      * intros k. destruct k as [|s k]; [rewrite decide_True by done; done|].
        rewrite decide_False by done. rewrite !lookup_cons. done.
      * rewrite clean_local in *. done.
      * rewrite tidy_local in *. done.
    + destruct (put_loop_spec fuel r (strip p) 0 u) as (r' & E & Hk & Hcl & Htd); [lia|lia|].
      exists r'. split; [exact E|]. rewrite drop_0 in Hk. auto.
  - unfold Delete. pose proof (strip_length p) as Hlen. remember (S (length p)) as fuel eqn:Hfuel. destruct (normalizePath_spec p) as (off & -> & _). simpl. unfold route_of. case_decide as Hs.
    + eexists. split; [done|]. split; [|split].
      * intros k. destruct k as [|s k]; [rewrite decide_True by done; done|].
        rewrite decide_False by done. rewrite !lookup_cons. done.
      * rewrite clean_local in *. done.
      * rewrite tidy_local in *. done.
    + destruct (delete_loop_spec fuel r (strip p) 0) as (res & E & Hres); [lia|lia|done|].
      rewrite E. simpl.
      rewrite drop_0 in Hres. destruct res as [[r' pr]|].
      * destruct Hres as (Hk & Hcl & Htd & _). exists r'. auto.
      * exists r. split; [done|]. split; [|auto]. intros k. case_decide as Hx; [subst; done|done].
Qed.

Lemma table_step_ext (T T' : list bytes -> option U) o : (forall k, T k = T' k) -> forall k, table_step T o k = table_step T' o k.
Proof. intros HT k. destruct o; simpl; case_decide; auto. Qed.

Lemma fold_table_ext ops (T T' : list bytes -> option U) : (forall k, T k = T' k) ->
  forall k, fold_left table_step ops T k = fold_left table_step ops T' k.
Proof.
  revert T T'. induction ops as [|o ops IH]; intros T T' HT k; simpl; [auto|]. apply IH. apply table_step_ext, HT.
Qed.

Lemma apply_ops_from r ops : clean r -> tidy r -> exists r', apply_ops r ops = Some r' /\
  (forall k, lookup_route r' k = fold_left table_step ops (lookup_route r) k) /\ clean r' /\ tidy r'.
Proof.
  revert r. induction ops as [|o ops IH]; intros r Hc Ht; simpl.
  - exists r. auto.
  - destruct (apply_op_spec r o Hc Ht) as (r1 & -> & Hk1 & Hc1 & Ht1). simpl.
    destruct (IH r1 Hc1 Ht1) as (r2 & -> & Hk2 & Hc2 & Ht2). exists r2. split; [done|]. split; [|auto].
    intros k. rewrite Hk2. apply fold_table_ext. exact Hk1.
Qed.

Lemma apply_ops_spec ops : exists r, apply_ops NewRouter ops = Some r /\
  (forall k, lookup_route r k = table ops k) /\ clean r /\ tidy r.
Proof.
  destruct (apply_ops_from NewRouter ops clean_new tidy_new) as (r & E & Hk & Hc & Ht).
  exists r. split; [done|]. split; [|auto]. intros k. rewrite Hk. apply fold_table_ext. apply lookup_new.
Qed.

Lemma route_of_not_single p : route_of p <> [[]].
Proof. unfold route_of. case_decide as Hs; [done|]. intros Hx%split_single_nil. done. Qed.

Lemma table_single (ops : list (op U)) : table ops [[]] = None.
Proof.
  unfold table. assert (Hgen : forall T : list bytes -> option U, T [[]] = None -> fold_left table_step ops T [[]] = None).
  { induction ops as [|o ops IH]; intros T HT; simpl; [done|]. apply IH. destruct o; simpl; rewrite decide_False; try done;
      intros Hx; symmetry in Hx; by eapply route_of_not_single. }
  apply Hgen. done.
Qed.

(** ** Match *)
Lemma match_loop_spec fuel node path n out off : n <= length path -> length path - n < fuel ->
  let segs := split_slash (drop n path) in
  exists out' off', match_loop fuel node path n out off = Some (out', off') /\
  ((out' = out /\ off' = off /\ forall k, k <> [] -> k `prefix_of` segs -> lookup_route node k = None) \/
   (exists k rest u, segs = k ++ rest /\ k <> [] /\ lookup_route node k = Some u /\ out' = Some u /\
      (forall k' u', k' <> [] -> k' `prefix_of` segs -> lookup_route node k' = Some u' -> length k' <= length k) /\
      ((rest = [] /\ off' = length path) \/
       (rest = split_slash (drop off' path) /\ n < off' <= length path /\ drop n path = join_slash k ++ slash :: drop off' path)))).
Proof.
  revert node n out off. induction fuel as [|f IH]; intros node n out off Hn Hf segs; [lia|].
  destruct (getSegment_spec path n Hn) as (seg & i & Hg & Hi). simpl. rewrite Hg. simpl.
  assert (Hsplit : exists tl, segs = seg :: tl).
  { unfold segs. destruct i as [i|]; [destruct Hi as (_&Hi&_)|destruct Hi as (Hi&_)]; eauto. }
  destruct Hsplit as (tl & Hsp).
  destruct (map_get seg (r_branches node)) as [child|] eqn:Hm.
  2:{ exists out, off. split; [done|]. left. split; [done|]. split; [done|]. intros k Hk Hp. rewrite Hsp in Hp.
      destruct k as [|s k]; [done|]. apply prefix_cons_inv_1 in Hp. subst s. rewrite lookup_cons, Hm. done. }
  destruct i as [i|].
  - destruct Hi as (Hlt & Hs & Hd). fold segs in Hs. rewrite Hsp in Hs. injection Hs as Htl.
    assert (Hfirst : exists o1 f1, match r_url child with Some u => (Some u, i) | None => (out, off) end = (o1, f1)).
    { destruct (r_url child); eauto. }
    destruct Hfirst as (o1 & f1 & Ef). rewrite Ef.
    destruct (IH child i o1 f1) as (out' & off' & E & Hcase); [lia|lia|]. exists out', off'. split; [exact E|].
    rewrite <- Htl in Hcase. destruct Hcase as [(-> & -> & Hnone)|(k & rest & u & Hk & Hkn & Hl & -> & Hmax & Hpos)].
    + destruct (r_url child) as [u|] eqn:Hu; injection Ef as <- <-.
      * right. exists [seg], tl, u. split; [done|]. split; [done|]. split; [rewrite lookup_cons, Hm; simpl; done|].
        split; [done|]. split.
        -- intros k' u' Hk' Hp' Hl'. rewrite Hsp in Hp'. destruct k' as [|s k']; [done|].
           apply prefix_cons_inv_1 in Hp' as Hs0. apply prefix_cons_inv_2 in Hp'. subst s.
           destruct k' as [|s' k']; [simpl; lia|]. rewrite lookup_cons, Hm in Hl'. simpl in Hl'.
           rewrite (Hnone (s' :: k')) in Hl'; done.
        -- right. split; [done|]. split; [lia|]. simpl. rewrite app_nil_r. exact Hd.
      * left. split; [done|]. split; [done|]. intros k Hk Hp. rewrite Hsp in Hp. destruct k as [|s k]; [done|].
        apply prefix_cons_inv_1 in Hp as Hs0. apply prefix_cons_inv_2 in Hp. subst s. rewrite lookup_cons, Hm. simpl.
        destruct k as [|s' k]; [done|]. apply Hnone; done.
    + right. exists (seg :: k), rest, u. split; [rewrite Hsp, Hk; done|]. split; [done|].
      split; [rewrite lookup_cons, Hm; done|]. split; [done|]. split.
      * intros k' u' Hk' Hp' Hl'. rewrite Hsp in Hp'. destruct k' as [|s k']; [done|].
        apply prefix_cons_inv_1 in Hp' as Hs0. apply prefix_cons_inv_2 in Hp'. subst s. simpl.
        destruct k' as [|s' k']; [simpl; lia|]. rewrite lookup_cons, Hm in Hl'. simpl in Hl'.
        assert (length (s' :: k') <= length k); [|simpl in *; lia]. eapply Hmax; eauto.
      * destruct Hpos as [[-> ->]|(Hr & Hoff & Hdd)]; [left; done|]. right. split; [done|]. split; [lia|].
        rewrite Hd, Hdd. destruct k as [|k0 k]; [done|]. simpl. rewrite <- !app_assoc. simpl. rewrite <- ?app_assoc. done.
  - destruct Hi as (Hs & Hd). fold segs in Hs. rewrite Hsp in Hs. injection Hs as ->.
    destruct (r_url child) as [u|] eqn:Hu.
    + exists (Some u), (length path). split; [done|]. right. exists [seg], [], u. split; [done|]. split; [done|].
      split; [rewrite lookup_cons, Hm; simpl; done|]. split; [done|]. split; [|left; done].
      intros k' u' _ Hp' _. rewrite Hsp in Hp'. apply prefix_length in Hp'. done.
    + exists out, off. split; [done|]. left. split; [done|]. split; [done|]. intros k Hk Hp. rewrite Hsp in Hp.
      destruct k as [|s k]; [done|]. apply prefix_cons_inv_1 in Hp as Hs0. apply prefix_cons_inv_2 in Hp. subst s.
      apply prefix_nil_inv in Hp. subst k. rewrite lookup_cons, Hm. simpl. done.
Qed.

(** The request as seen by the lookup: segments of the stripped path. *)
Lemma Match_spec r path : lookup_route r [[]] = None -> exists out rest, Match r path = Some (out, rest) /\
  match out with
  | None => rest = [] /\ forall k u, k `prefix_of` route_of path -> lookup_route r k <> Some u
  | Some u => exists k, longest_match (lookup_route r) (route_of path) k u /\
      exists lead sep, path = lead ++ join_slash k ++ sep ++ rest /\
      (lead = [] \/ lead = [slash]) /\ (sep = [] \/ sep = [slash]) /\
      ((k = route_of path /\ (rest = [] \/ rest = [slash])) \/
       (route_of path = k ++ split_slash (strip_trail rest) /\ (k = [] -> sep = []) /\ (k <> [] -> sep = [slash])))
  end.
Proof.
  intros Hsingle. unfold Match. pose proof (strip_length path) as Hsl. remember (S (length path)) as fuel eqn:Hfuel.
  destruct (normalizePath_spec path) as (off & -> & lead & trail & Hpath & Hlead & Hl & Htr). simpl.
  unfold route_of. set (p2 := strip path) in *.
  destruct (match_loop_spec fuel r p2 0 (r_url r) 0) as (out' & off' & E & Hcase); [lia|lia|].
  rewrite E. simpl. clear E. rewrite drop_0 in Hcase.
  set (req := if decide (p2 = []) then [] else split_slash p2).
  assert (Hprefix : forall k, k `prefix_of` req -> k <> [] -> k `prefix_of` split_slash p2).
  { intros k Hp Hk. unfold req in Hp. case_decide as H2; [|done]. apply prefix_nil_inv in Hp. done. }
  assert (Hlen : length path = length lead + length p2 + length trail) by (rewrite Hpath at 1; rewrite !app_length; lia).
  assert (Hdrop : forall n, n <= length p2 -> drop (off + n) path = drop n p2 ++ trail).
  { intros n Hn. rewrite <- drop_drop. rewrite Hpath, <- Hlead, drop_app, drop_app_le by done. done. }
  assert (Htr' : trail = [] \/ trail = [slash]) by tauto.
  destruct Hcase as [(-> & -> & Hnone)|(k & rest & u & Hk & Hkn & Hlk & -> & Hmax & Hpos)].
  - destruct (r_url r) as [u|] eqn:Hu; simpl.
    + rewrite slice_from_ok by lia. simpl. eexists _, _. split; [done|]. exists [].
      split.
      { split; [done|]. split; [apply prefix_nil|]. intros k' u' Hl' Hp'. destruct k' as [|s k']; [done|].
        rewrite Hnone in Hl'; [done|done|]. apply Hprefix; done. }
      rewrite Hdrop by lia. rewrite drop_0. exists lead, []. simpl.
      split; [done|]. split; [done|]. split; [auto|].
      unfold req. case_decide as H2.
      * left. split; [done|]. rewrite H2. simpl. done.
      * right. simpl. split; [|done]. f_equal. destruct Htr as [[-> Hs] | ->].
        -- rewrite app_nil_r. done.
        -- rewrite strip_trail_snoc, decide_True by done. done.
    + eexists _, _. split; [done|]. simpl. split; [done|]. intros k u Hp. destruct k as [|s k]; [rewrite lookup_nil; congruence|].
      rewrite Hnone; [done|done|]. apply Hprefix; done.
  - assert (Hne : p2 <> []).
    { intros H2. rewrite H2 in Hk. simpl in Hk. destruct k as [|s k]; [done|]. injection Hk as <- Hk.
      symmetry in Hk. apply app_nil in Hk as [-> _]. congruence. }
    assert (Hreq : req = split_slash p2) by (unfold req; rewrite decide_False; done).
    assert (Hoffle : off' <= length p2) by (destruct Hpos as [[_ ->]|(_&?&_)]; lia).
    rewrite slice_from_ok by lia. simpl. eexists _, _. split; [done|]. exists k. rewrite Hdrop by done.
    split.
    { split; [done|]. rewrite Hreq. split; [exists rest; done|]. intros k' u' Hl' Hp'. destruct k' as [|s k']; [simpl; lia|].
      eapply Hmax; eauto. }
    destruct Hpos as [[-> ->]|(Hr & Hoff & Hd)].
    + rewrite drop_all. simpl. exists lead, []. rewrite app_nil_r in Hk.
      assert (join_slash k = p2) as -> by (rewrite <- Hk; apply join_split).
      split; [done|]. split; [done|]. split; [auto|]. left. split; [congruence|done].
    + exists lead, [slash]. split.
      { rewrite Hpath at 1. f_equal. rewrite Hd at 1. rewrite <- !app_assoc. done. }
      split; [done|]. split; [auto|]. right. split; [|done]. rewrite Hreq, Hk, Hr. f_equal. f_equal.
      destruct Htr as [[-> Hs] | ->].
      * rewrite app_nil_r. f_equal. symmetry. eapply (strip_trail_suffix (join_slash k ++ [slash])).
        rewrite <- app_assoc. simpl. rewrite <- Hd. exact Hs.
      * rewrite strip_trail_snoc, decide_True by done. done.
Qed.

(** ** HasMatch *)
Lemma hasmatch_loop_spec fuel node path n : n <= length path -> length path - n < fuel ->
  exists b, hasmatch_loop fuel node path n = Some b /\
  (b = true <-> exists k u, k <> [] /\ k `prefix_of` split_slash (drop n path) /\ lookup_route node k = Some u).
Proof.
  revert node n. induction fuel as [|f IH]; intros node n Hn Hf; [lia|].
  destruct (getSegment_spec path n Hn) as (seg & i & Hg & Hi). simpl. rewrite Hg. simpl.
  assert (Hsplit : exists tl, split_slash (drop n path) = seg :: tl).
  { destruct i as [i|]; [destruct Hi as (_&Hi&_)|destruct Hi as (Hi&_)]; eauto. }
  destruct Hsplit as (tl & Hsp). rewrite Hsp in *.
  destruct (map_get seg (r_branches node)) as [child|] eqn:Hm.
  2:{ exists false. split; [done|]. split; [done|]. intros (k & u & Hk & Hp & Hl). destruct k as [|s k]; [done|].
      apply prefix_cons_inv_1 in Hp. subst s. rewrite lookup_cons, Hm in Hl. done. }
  destruct (r_url child) as [u|] eqn:Hu.
  { exists true. split; [done|]. split; [|done]. intros _. exists [seg], u. split; [done|].
    split; [apply prefix_cons, prefix_nil|]. rewrite lookup_cons, Hm. done. }
  assert (Hstep : forall P : Prop, (P <-> exists k u, k <> [] /\ k `prefix_of` tl /\ lookup_route child k = Some u) ->
     (P <-> exists k u, k <> [] /\ k `prefix_of` seg :: tl /\ lookup_route node k = Some u)).
  { intros P ->. split.
    - intros (k & u & Hk & Hp & Hl). exists (seg :: k), u. split; [done|]. split; [by apply prefix_cons|].
      rewrite lookup_cons, Hm. done.
    - intros (k & u & Hk & Hp & Hl). destruct k as [|s k]; [done|]. apply prefix_cons_inv_1 in Hp as Hs.
      apply prefix_cons_inv_2 in Hp. subst s. rewrite lookup_cons, Hm in Hl. simpl in Hl. exists k, u.
      split; [|done]. intros ->. rewrite lookup_nil in Hl. congruence. }
  destruct i as [i|].
  - destruct Hi as (Hlt & [= Htl] & _). destruct (IH child i) as (b & E & Hb); [lia|lia|]. exists b. split; [done|].
    apply Hstep. rewrite Htl. exact Hb.
  - destruct Hi as ([= ->] & _). exists false. split; [done|]. apply Hstep. split; [done|].
    intros (k & u & Hk & Hp & _). apply prefix_nil_inv in Hp. done.
Qed.

Lemma HasMatch_spec r path : lookup_route r [[]] = None -> exists b, HasMatch r path = Some b /\
  (b = true <-> exists k u, k `prefix_of` route_of path /\ lookup_route r k = Some u).
Proof.
  intros Hsingle. unfold HasMatch. destruct (r_url r) as [u|] eqn:Hu.
  { exists true. split; [done|]. split; [|done]. intros _. exists [], u. split; [apply prefix_nil|done]. }
  pose proof (strip_length path) as Hsl. remember (S (length path)) as fuel eqn:Hfuel.
  destruct (normalizePath_spec path) as (off & -> & _). simpl.
  destruct (hasmatch_loop_spec fuel r (strip path) 0) as (b & E & Hb); [lia|lia|].
  exists b. split; [exact E|]. rewrite Hb, drop_0. unfold route_of. split.
  - intros (k & u & Hk & Hp & Hl). exists k, u. split; [|done]. case_decide as H2; [|done].
    exfalso. rewrite H2 in Hp. simpl in Hp. destruct k as [|s k]; [done|]. apply prefix_cons_inv_1 in Hp as Hs.
    apply prefix_cons_inv_2 in Hp. apply prefix_nil_inv in Hp. subst. congruence.
  - intros (k & u & Hp & Hl). exists k, u. assert (Hk : k <> []) by (intros ->; rewrite lookup_nil in Hl; congruence).
    split; [done|]. split; [|done]. case_decide as H2; [|done]. apply prefix_nil_inv in Hp. done.
Qed.

(** ** the printed table *)
Fixpoint router_ind2 (P : router U -> Prop)
  (HN : forall u bs, Forall (fun p => P (snd p)) bs -> P (Node u bs)) (r : router U) : P r :=
  match r with
  | Node u bs => HN u bs ((fix go (bs : list (bytes * router U)) : Forall (fun p => P (snd p)) bs :=
      match bs with
      | [] => @Forall_nil_2 (bytes * router U) (fun p => P (snd p))
      | p :: bs' => @Forall_cons_2 (bytes * router U) (fun p => P (snd p)) p bs' (router_ind2 P HN (snd p)) (go bs')
      end) bs)
  end.


Lemma traverse_spec r : tidy r -> forall pre p u,
  (p, u) ∈ traverse pre r <-> exists k, lookup_route r k = Some u /\ p = pre ++ spell k.
Proof.
  induction r as [o bs IH] using router_ind2. intros Ht pre p u.
  pose proof (proj1 (tidy_local _) Ht) as [Hnd Hsub]. simpl in Hnd, Hsub.
  cbn [traverse]. rewrite elem_of_app.
  set (go := fix go (bs : list (bytes * router U)) : list (bytes * U) :=
         match bs with [] => [] | (k, r') :: bs' => traverse (pre ++ [slash] ++ k) r' ++ go bs' end).
  assert (Hgo : forall bs0, (p, u) ∈ go bs0 <-> exists s c, (s, c) ∈ bs0 /\ (p, u) ∈ traverse (pre ++ [slash] ++ s) c).
  { induction bs0 as [|[s c] bs0 IHb]; cbn [go].
    - split; [intros Hx; by apply elem_of_nil in Hx|]. intros (s & c & Hx & _). by apply elem_of_nil in Hx.
    - rewrite elem_of_app, IHb. split.
      + intros [Hx|(s' & c' & Hin & Hx)]; [exists s, c; split; [left|done]|exists s', c'; split; [right; done|done]].
      + intros (s' & c' & [Hin|Hin]%elem_of_cons & Hx); [injection Hin as -> ->; auto|right; eauto]. }
  rewrite Hgo. split.
  - intros [Hx|(s & c & Hin & Hx)].
    + destruct o as [x|]; [|by apply elem_of_nil in Hx]. apply elem_of_list_singleton in Hx as [= -> ->].
      exists []. split; [done|]. unfold spell. simpl. rewrite app_nil_r. done.
    + pose proof (map_get_in_nodup _ _ _ Hnd Hin) as Hm.
      rewrite Forall_forall in IH. apply (IH (s, c) Hin) in Hx as (k & Hl & ->); [|eapply Hsub; eauto].
      exists (s :: k). split; [rewrite lookup_cons; simpl; rewrite Hm; done|].
      unfold spell. simpl. rewrite <- !app_assoc. done.
  - intros (k & Hl & ->). destruct k as [|s k].
    + left. rewrite lookup_nil in Hl. simpl in Hl. subst o. unfold spell. simpl. rewrite app_nil_r. left.
    + right. rewrite lookup_cons in Hl. simpl in Hl. destruct (map_get s bs) as [c|] eqn:Hm; [|done]. simpl in Hl.
      exists s, c. pose proof (map_get_in _ _ _ Hm) as Hin. split; [done|].
      rewrite Forall_forall in IH. apply (IH (s, c) Hin); [eapply Hsub; eauto|].
      exists k. split; [done|]. unfold spell. simpl. rewrite <- !app_assoc. done.
Qed.

(** ** no garbage *)
Lemma lookup_app r k n k' : node_at r k = Some n -> lookup_route n k' = lookup_route r (k ++ k').
Proof.
  revert r. induction k as [|s k IH]; intros r; simpl; [intros [= <-]; done|].
  destruct (map_get s (r_branches r)) as [c|] eqn:Hm; [|done]. intros Hn. rewrite lookup_cons, Hm. simpl. auto.
Qed.
Lemma lookup_node r k k' u : lookup_route r (k ++ k') = Some u -> is_Some (node_at r k).
Proof.
  revert r. induction k as [|s k IH]; intros r; simpl; [eauto|]. rewrite lookup_cons.
  destruct (map_get s (r_branches r)) as [c|] eqn:Hm; simpl; [apply IH|done].
Qed.

Lemma nodes_are_prefixes ops r : apply_ops NewRouter ops = Some r -> forall k, k <> [] ->
  (is_Some (node_at r k) <-> exists k', is_Some (table ops (k ++ k'))).
Proof.
  intros E k Hk. destruct (apply_ops_spec ops) as (r' & E' & Hl & Hc & Ht). rewrite E in E'. injection E' as <-. split.
  - intros [n Hn]. destruct (Hc k n Hk Hn) as (k' & u & Hu). rewrite (lookup_app _ _ _ _ Hn), Hl in Hu. eauto.
  - intros (k' & u & Hu). rewrite <- Hl in Hu. eapply lookup_node; eauto.
Qed.

Lemma node_keys_unique ops r : apply_ops NewRouter ops = Some r -> forall k n, node_at r k = Some n ->
  NoDup (map fst (r_branches n)).
Proof. intros E. destruct (apply_ops_spec ops) as (r' & E' & Hl & Hc & Ht). rewrite E in E'. injection E' as <-. exact Ht. Qed.

Lemma empty_table_empty_tree ops r : apply_ops NewRouter ops = Some r -> (forall k, table ops k = None) -> r = NewRouter.
Proof.
  intros E HT. destruct (apply_ops_spec ops) as (r' & E' & Hl & Hc & Ht). rewrite E in E'. injection E' as <-.
  destruct r as [o bs]. unfold NewRouter. f_equal.
  - specialize (Hl []). rewrite HT in Hl. exact Hl.
  - destruct bs as [|[s c] bs]; [done|]. exfalso. destruct (Hc [s] c) as (k & u & Hu); [done|simpl; rewrite decide_True; done|].
    specialize (Hl (s :: k)). rewrite HT, lookup_cons in Hl. simpl in Hl. rewrite decide_True in Hl by done. simpl in Hl. congruence.
Qed.

Lemma run_total ops : exists r, apply_ops (NewRouter : router U) ops = Some r.
Proof. destruct (apply_ops_spec ops) as (r & E & _). eauto. Qed.

Lemma run_table ops r : apply_ops (NewRouter : router U) ops = Some r -> forall k, lookup_route r k = table ops k.
Proof. intros E. destruct (apply_ops_spec ops) as (r' & E' & Hl & _). rewrite E in E'. injection E' as <-. exact Hl. Qed.

Lemma run_traverse ops r : apply_ops (NewRouter : router U) ops = Some r ->
  forall p u, (p, u) ∈ traverse [] r <-> exists k, table ops k = Some u /\ p = spell k.
Proof.
  intros E p u. destruct (apply_ops_spec ops) as (r' & E' & Hl & _ & Ht). rewrite E in E'. injection E' as <-.
  rewrite traverse_spec by done. split; intros (k & Hk & ->); exists k; rewrite Hl in *; done.
Qed.

Lemma lookup_route_node r k : (n ← node_at r k; r_url n) = lookup_route r k.
Proof.
  revert r. induction k as [|s k IH]; intros r; [done|]. rewrite lookup_cons. simpl.
  destruct (map_get s (r_branches r)); simpl; auto.
Qed.
Lemma run_finite_map ops : exists r, apply_ops (NewRouter : router U) ops = Some r /\
  forall k, (n ← node_at r k; r_url n) = table ops k.
Proof.
  destruct (run_total ops) as (r & E). exists r. split; [done|]. intros k. rewrite lookup_route_node. apply run_table; done.
Qed.
Lemma apply_ops_snoc (r : router U) ops o r' r2 : apply_ops r ops = Some r' -> apply_op r' o = Some r2 -> apply_ops r (ops ++ [o]) = Some r2.
Proof.
  revert r. induction ops as [|o' ops IH]; intros r; simpl.
  - intros [= ->] ->. done.
  - destruct (apply_op r o') as [r1|]; simpl; [apply IH|done].
Qed.
Lemma op_independent ops o r r' : apply_ops (NewRouter : router U) ops = Some r -> apply_op r o = Some r' ->
  forall k, k <> route_of (match o with OPut p _ => p | ODelete p => p end) ->
  (n ← node_at r' k; r_url n) = (n ← node_at r k; r_url n).
Proof.
  intros E1 E2 k Hk. rewrite !lookup_route_node, (run_table _ _ E1), (run_table _ _ (apply_ops_snoc _ _ _ _ _ E1 E2)).
  unfold table. rewrite fold_left_app. simpl. destruct o; simpl; rewrite decide_False; done.
Qed.
Lemma history_independent ops ops' r r' :
  apply_ops (NewRouter : router U) ops = Some r -> apply_ops (NewRouter : router U) ops' = Some r' -> (forall k, table ops k = table ops' k) ->
  forall k, (r_url <$> node_at r k) = (r_url <$> node_at r' k).
Proof.
  intros E E' HT k.
  assert (Hu : (n ← node_at r k; r_url n) = (n ← node_at r' k; r_url n)).
  { rewrite !lookup_route_node, (run_table _ _ E), (run_table _ _ E'). done. }
  destruct (decide (k = [])) as [->|Hk]; [simpl in *; congruence|].
  pose proof (nodes_are_prefixes _ _ E k Hk) as H1. pose proof (nodes_are_prefixes _ _ E' k Hk) as H2.
  destruct (node_at r k) as [n|], (node_at r' k) as [n'|]; simpl in *; [congruence| | |done].
  - destruct (proj1 H1) as (k' & u & Hx); [eauto|]. rewrite HT in Hx. destruct (proj2 H2) as [? ?]; [eauto|done].
  - destruct (proj1 H2) as (k' & u & Hx); [eauto|]. rewrite <- HT in Hx. destruct (proj2 H1) as [? ?]; [eauto|done].
Qed.

Lemma longest_match_ext (T T' : list bytes -> option U) req k u : (forall k, T k = T' k) -> longest_match T req k u -> longest_match T' req k u.
Proof. intros HT (H1 & H2 & H3). split; [rewrite <- HT; done|]. split; [done|]. intros k' u' Hk'. apply H3 with u'. rewrite HT. done. Qed.

Lemma longest_unique (T : list bytes -> option U) req k u k' u' : longest_match T req k u -> longest_match T req k' u' -> k = k' /\ u = u'.
Proof.
  intros (H1 & H2 & H3) (G1 & G2 & G3). pose proof (H3 _ _ G1 G2). pose proof (G3 _ _ H1 H2).
  assert (k = k') as ->; [|split; congruence].
  destruct H2 as [r1 E1], G2 as [r2 E2]. rewrite E1 in E2. apply app_inj_1 in E2 as [-> _]; [done|lia].
Qed.

Lemma run_match ops r path : apply_ops (NewRouter : router U) ops = Some r -> exists out rest, Match r path = Some (out, rest) /\
  match out with
  | None => forall k, k `prefix_of` route_of path -> table ops k = None
  | Some u => exists k, longest_match (table ops) (route_of path) k u
  end.
Proof.
  intros E. pose proof (run_table _ _ E) as HT.
  destruct (Match_spec r path) as (out & rest & EM & Hout); [rewrite HT; apply table_single|].
  exists out, rest. split; [done|]. destruct out as [u|].
  - destruct Hout as (k & Hk & _). exists k. eapply longest_match_ext; eauto.
  - destruct Hout as [_ Hno]. intros k Hp. destruct (table ops k) as [u|] eqn:Hu; [|done]. exfalso. eapply (Hno k u); [done|].
    rewrite HT. done.
Qed.

Lemma run_has ops r path : apply_ops (NewRouter : router U) ops = Some r ->
  HasMatch r path = Some (match Match r path with Some (Some _, _) => true | _ => false end).
Proof.
  intros E. pose proof (run_table _ _ E) as HT.
  assert (Hs : lookup_route r [[]] = None) by (rewrite HT; apply table_single).
  destruct (HasMatch_spec r path Hs) as (b & Eb & Hb). destruct (run_match ops r path E) as (out & rest & EM & Hout).
  rewrite Eb, EM. f_equal. destruct out as [u|].
  - apply Hb. destruct Hout as (k & H1 & H2 & _). exists k, u. rewrite HT. done.
  - destruct b; [|done]. destruct (proj1 Hb eq_refl) as (k & u & Hp & Hl). rewrite HT, Hout in Hl; done.
Qed.

Lemma run_rest ops r path u rest : apply_ops (NewRouter : router U) ops = Some r -> Match r path = Some (Some u, rest) ->
  forall k, longest_match (table ops) (route_of path) k u ->
  exists lead sep, path = lead ++ join_slash k ++ sep ++ rest /\
  (lead = [] \/ lead = [slash]) /\ (sep = [] \/ sep = [slash]) /\
  ((k = route_of path /\ (rest = [] \/ rest = [slash])) \/
   (route_of path = k ++ split_slash (strip_trail rest) /\ (k = [] -> sep = []) /\ (k <> [] -> sep = [slash]))).
Proof.
  intros E EM k Hk. pose proof (run_table _ _ E) as HT.
  destruct (Match_spec r path) as (out & rest' & EM' & Hout); [rewrite HT; apply table_single|].
  rewrite EM in EM'. injection EM' as <- <-. destruct Hout as (k' & Hk' & Hrest).
  eapply (longest_match_ext _ (table ops)) in Hk'; [|exact HT]. destruct (longest_unique _ _ _ _ _ _ Hk Hk') as [<- _]. exact Hrest.
Qed.
End assoc.

(** ** ServeHTTP *)
Lemma join_spec a b : singleJoiningSlash a b = Some (strip_trail a ++ [slash] ++ strip_lead b).
Proof.
  unfold singleJoiningSlash, strip_trail, has_suffix_slash, has_prefix_slash.
  destruct (reverse a) as [|c a'] eqn:Ea.
  - apply (f_equal reverse) in Ea. rewrite reverse_involutive in Ea. subst a. cbn [reverse strip_lead].
    destruct b as [|d b]; cbn [strip_lead]; [done|]. destruct (decide (d = slash)) as [->|]; done.
  - apply (f_equal reverse) in Ea. rewrite reverse_involutive in Ea. subst a. cbn [strip_lead].
    destruct (decide (c = slash)) as [->|Hc].
    + rewrite reverse_cons. destruct b as [|d b]; cbn [strip_lead]; [rewrite app_nil_r, ?app_nil_r; done|].
      destruct (decide (d = slash)) as [->|]; [|rewrite <- app_assoc; done].
      unfold slice_from. rewrite decide_True by (simpl; lia). simpl. rewrite <- app_assoc. done.
    + destruct b as [|d b]; cbn [strip_lead]; [done|]. destruct (decide (d = slash)) as [->|]; done.
Qed.

Lemma serve_spec ops r req : apply_ops NewRouter ops = Some r ->
  exists out, ServeHTTP r req = Some out /\
  match out with
  | NotFound => forall k, k `prefix_of` route_of (u_path (q_url req)) -> table ops k = None
  | Forwarded req' => exists k target lead sep rest,
      longest_match (table ops) (route_of (u_path (q_url req))) k target /\
      u_path (q_url req) = lead ++ join_slash k ++ sep ++ rest /\
      (lead = [] \/ lead = [slash]) /\ (sep = [] \/ sep = [slash]) /\
      u_scheme (q_url req') = u_scheme target /\ u_host (q_url req') = u_host target /\ q_host req' = u_host target /\
      u_path (q_url req') = strip_trail (u_path target) ++ [slash] ++ strip_lead rest /\
      exists mid, u_query (q_url req') = u_query target ++ mid ++ u_query (q_url req) /\
        (mid = [amp] <-> u_query target <> [] /\ u_query (q_url req) <> []) /\ (mid = [] \/ mid = [amp])
  end.
Proof.
  intros E. unfold ServeHTTP. destruct (run_match ops r (u_path (q_url req)) E) as (out & rest & EM & Hout).
  pose proof (run_rest ops r (u_path (q_url req))) as HR. rewrite EM in *. simpl.
  destruct out as [t|]; [|exists NotFound; done]. rewrite join_spec. simpl. eexists. split; [done|].
  destruct Hout as (k & Hk). destruct (HR _ _ E eq_refl k Hk) as (lead & sep & Hp & Hl & Hs & _).
  exists k, t, lead, sep, rest. split; [done|]. split; [done|]. split; [done|]. split; [done|]. simpl.
  split; [done|]. split; [done|]. split; [done|]. split; [done|].
  destruct (decide (u_query t = [] \/ u_query (q_url req) = [])) as [Hd|Hd].
  - exists []. split; [done|]. split; [|auto]. split; [done|]. intros []. tauto.
  - exists [amp]. split; [done|]. split; [|auto]. split; [|done]. intros _. split; intros Hx; apply Hd; auto.
Qed.

Lemma route_of_inj p q : route_of p = route_of q <-> strip p = strip q.
Proof.
  split; [|unfold route_of; intros ->; done]. unfold route_of. destruct (decide (strip p = [])) as [Hp|Hp], (decide (strip q = [])) as [Hq|Hq].
  - congruence.
  - intros Hx. symmetry in Hx. apply (f_equal join_slash) in Hx. rewrite join_split in Hx. done.
  - intros Hx. apply (f_equal join_slash) in Hx. rewrite join_split in Hx. done.
  - intros Hx. apply (f_equal join_slash) in Hx. rewrite !join_split in Hx. done.
Qed.
