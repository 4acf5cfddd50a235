From Coq Require Import Ascii String ZArith Lia.
From stdpp Require Import prelude gmap.
From Verif Require Import Trace Router_Model Router_Spec Router_Proofs ProxyLog_Model ProxyLog_Spec.
Open Scope Z_scope.

(** ** association lists *)
Section dict.
Context {K V : Type} `{EqDecision K}.
Implicit Types d : list (K * V).
Lemma dget_dset k k' v d : dget k (dset k' v d) = if decide (k = k') then Some v else dget k d.
Proof.
  induction d as [|[k0 v0] d IH]; simpl.
  - destruct (decide (k = k')); done.
  - destruct (decide (k' = k0)) as [->|Hk0]; simpl.
    + destruct (decide (k = k0)); done.
    + rewrite IH. destruct (decide (k = k0)) as [Ha|Ha], (decide (k = k')) as [Hb|Hb]; try done; congruence.
Qed.
Lemma dget_ddel k k' d : dget k (ddel k' d) = if decide (k = k') then None else dget k d.
Proof.
  induction d as [|[k0 v0] d IH]; simpl.
  - destruct (decide (k = k')); done.
  - destruct (decide (k' = k0)) as [->|Hk0]; simpl.
    + rewrite IH. destruct (decide (k = k0)); done.
    + rewrite IH. destruct (decide (k = k0)) as [Ha|Ha], (decide (k = k')) as [Hb|Hb]; try done; congruence.
Qed.
Lemma dset_keys k v d : forall x, x ∈ map fst (dset k v d) <-> x = k \/ x ∈ map fst d.
Proof.
  intros x. induction d as [|[k0 v0] d IH]; simpl.
  - rewrite elem_of_cons. split; [intros [?|Hn]; [auto|by apply elem_of_nil in Hn]|intros [?|Hn]; [auto|by apply elem_of_nil in Hn]].
  - destruct (decide (k = k0)) as [->|Hk0]; simpl; rewrite !elem_of_cons; [tauto|]. rewrite IH. tauto.
Qed.
Lemma ddel_keys k d : forall x, x ∈ map fst (ddel k d) -> x ∈ map fst d.
Proof.
  intros x. induction d as [|[k0 v0] d IH]; simpl; [done|].
  destruct (decide (k = k0)) as [->|Hk0]; simpl; rewrite !elem_of_cons; tauto.
Qed.
Lemma dset_nodup k v d : NoDup (map fst d) -> NoDup (map fst (dset k v d)).
Proof.
  induction d as [|[k0 v0] d IH]; simpl; intros Hn; [apply NoDup_singleton|].
  apply NoDup_cons in Hn as [Hx Hn]. destruct (decide (k = k0)) as [->|Hk0]; simpl; apply NoDup_cons; [done|].
  split; [|auto]. rewrite dset_keys. intros [?|?]; [congruence|done].
Qed.
Lemma ddel_nodup k d : NoDup (map fst d) -> NoDup (map fst (ddel k d)).
Proof.
  induction d as [|[k0 v0] d IH]; simpl; intros Hn; [done|].
  apply NoDup_cons in Hn as [Hx Hn]. destruct (decide (k = k0)) as [->|Hk0]; simpl; [auto|]. apply NoDup_cons.
  split; [|auto]. intros Hi. apply Hx. eapply ddel_keys; eauto.
Qed.
Lemma dget_in k v d : dget k d = Some v -> (k, v) ∈ d.
Proof.
  induction d as [|[k0 v0] d IH]; simpl; [done|]. destruct (decide (k = k0)) as [->|Hk0]; [intros [= ->]; left|right; auto].
Qed.
Lemma in_dget k v d : NoDup (map fst d) -> (k, v) ∈ d -> dget k d = Some v.
Proof.
  induction d as [|[k0 v0] d IH]; simpl; intros Hn Hin; [by apply elem_of_nil in Hin|].
  apply NoDup_cons in Hn as [Hx Hn]. apply elem_of_cons in Hin as [[= -> ->]|Hin]; [rewrite decide_True; done|].
  rewrite decide_False; [auto|]. intros ->. apply Hx. apply elem_of_list_fmap. exists (k0, v). done.
Qed.
End dict.

(** ** numbered changes *)
Lemma numbered_length L : length (numbered L) = length L.
Proof. unfold numbered. apply imap_length. Qed.
Lemma numbered_snoc L c : numbered (L ++ [c]) = numbered L ++ [Ev (Z.of_nat (length L) + 1) c.1 c.2].
Proof. unfold numbered. rewrite imap_app. simpl. rewrite Nat.add_0_r. done. Qed.
Lemma numbered_app L1 L2 : numbered (L1 ++ L2) = numbered L1 ++ drop (length L1) (numbered (L1 ++ L2)).
Proof.
  unfold numbered. rewrite imap_app. rewrite drop_app_alt by (rewrite imap_length; done). done.
Qed.
Lemma numbered_take n L : take n (numbered L) = numbered (take n L).
Proof.
  rewrite <- (take_drop n L) at 1. destruct (decide (n <= length L)%nat) as [Hn|Hn].
  - unfold numbered. rewrite imap_app, take_app_le; [|rewrite imap_length, take_length; lia].
    rewrite take_ge; [done|]. rewrite imap_length, take_length. lia.
  - rewrite take_ge; [|rewrite numbered_length, take_drop; lia]. rewrite take_drop. rewrite take_ge by lia. done.
Qed.
Lemma numbered_ids L : map ev_id (numbered L) = seqZ 1 (Z.of_nat (length L)).
Proof.
  induction L as [|c L IH] using rev_ind; [done|]. rewrite numbered_snoc, map_app, IH, app_length. simpl.
  replace (Z.of_nat (length L + 1)%nat) with (Z.of_nat (length L) + 1) by lia. rewrite seqZ_app by lia. f_equal. rewrite Z.add_comm. done.
Qed.
Lemma tab_app L1 L2 key : tab (L1 ++ L2) key = fold_left tab_step L2 (tab L1) key.
Proof. unfold tab. rewrite fold_left_app. done. Qed.
Lemma tab_snoc L c key : tab (L ++ [c]) key =
  if decide (key = key_of c) then match c.1 with TPut => Some (rt_target c.2) | TDelete => None end else tab L key.
Proof. rewrite tab_app. done. Qed.
Lemma tab_snoc_ne L c key : key <> key_of c -> tab (L ++ [c]) key = tab L key.
Proof. intros Hne. rewrite tab_snoc, decide_False by done. done. Qed.
Lemma tab_in L key t : tab L key = Some t -> (TPut, Route key.1 key.2 t) ∈ L.
Proof.
  induction L as [|c L IH] using rev_ind; [done|]. rewrite tab_snoc. destruct (decide (key = key_of c)) as [->|Hk].
  - destruct c as [[] [k n tg]]; simpl; [|done]. intros [= ->]. apply elem_of_app. right. left.
  - intros Ht. apply elem_of_app. left. auto.
Qed.

(** ** the gateway's log *)
Record ginv (prefix : bytes) (mx : Z) (L : list change) (g : gateway) : Prop := {
  gi_prefix : g_prefix g = prefix;
  gi_max : g_max g = mx;
  gi_next : g_next g = Z.of_nat (length L) + 1;
  gi_off : exists o, g_offset g = Z.of_nat o /\ (o <= length L)%nat /\ g_events g = drop o (numbered L) /\
             ((0 < o)%nat -> mx - mx / 2 + 1 <= Z.of_nat (length L) - Z.of_nat o) /\ (mx < 2 -> o = 0%nat);
  gi_bound : 2 <= mx -> Z.of_nat (length (g_events g)) <= mx;
  gi_tab : forall key, dget key (g_routes g) = tab L key;
  gi_keys : NoDup (map fst (g_routes g));
  gi_fresh : forall w, (g_wnext g <= w)%nat -> g_watch g !! w = None;
}.
Definition same_log (g g' : gateway) : Prop :=
  g_prefix g' = g_prefix g /\ g_max g' = g_max g /\ g_next g' = g_next g /\ g_offset g' = g_offset g /\
  g_events g' = g_events g /\ g_routes g' = g_routes g.
Lemma ginv_same prefix mx L g g' : ginv prefix mx L g -> same_log g g' ->
  (forall w, (g_wnext g' <= w)%nat -> g_watch g' !! w = None) -> ginv prefix mx L g'.
Proof.
  intros [] (E1 & E2 & E3 & E4 & E5 & E6) Hw. constructor; try congruence; rewrite ?E4, ?E5, ?E6; auto.
Qed.
Lemma ginv_init prefix mx w : ginv prefix mx [] (ginit prefix mx w).
Proof.
  constructor; try done; simpl.
  - exists 0%nat. split; [done|]. split; [lia|]. split; [done|]. split; [lia|done].
  - lia.
  - apply NoDup_nil_2.
Qed.
Lemma append_inv prefix mx L g t r d : 0 <= mx -> ginv prefix mx L g ->
  (forall key, dget key d = tab (L ++ [(t, r)]) key) -> NoDup (map fst d) ->
  ginv prefix mx (L ++ [(t, r)]) (append_event t r (set_routes d g)).
Proof.
  intros Hmx [H1 H2 H3 (o & Ho & Hle & He & Hret & Hsmall) Hb Ht Hk Hf] Hd Hnd.
  assert (Hlen : length (g_events g) = (length L - o)%nat) by (rewrite He, drop_length, numbered_length; done).
  unfold append_event. cbn [set_routes g_events g_max g_next g_offset g_watch g_wnext g_prefix g_routes].
  rewrite H2. destruct (Z.leb_spec mx (Z.of_nat (length (g_events g)))) as [Hfull|Hroom].
  - assert (Hhalf : 0 <= mx / 2 /\ mx / 2 <= mx) by (split; [apply Z.div_pos; lia|apply Z.div_le_upper_bound; lia]).
    constructor; cbn [set_routes g_events g_max g_next g_offset g_watch g_wnext g_prefix g_routes]; try done.
    + rewrite H3, app_length. simpl. lia.
    + exists (o + Z.to_nat (mx / 2))%nat. rewrite app_length. simpl. split; [lia|]. split; [lia|]. split.
      * unfold pyslice. destruct (Z.leb_spec 0 (mx / 2)) as [_|?]; [|lia].
        rewrite He, drop_drop, H3, numbered_snoc. rewrite drop_app_le; [done|]. rewrite numbered_length. lia.
      * split; [intros _; lia|]. intros Hs2. rewrite (Hsmall Hs2). rewrite Z.div_small by lia. done.
    + intros H2mx. unfold pyslice. destruct (Z.leb_spec 0 (mx / 2)) as [_|?]; [|lia].
      rewrite app_length, drop_length. simpl. specialize (Hb H2mx).
      assert (1 <= mx / 2) by (apply Z.div_le_lower_bound; lia). lia.
    + intros w Hw. rewrite lookup_fmap, Hf by done. done.
  - constructor; cbn [set_routes g_events g_max g_next g_offset g_watch g_wnext g_prefix g_routes]; try done.
    + rewrite H3, app_length. simpl. lia.
    + exists o. rewrite app_length. simpl. split; [done|]. split; [lia|]. split.
      * rewrite He, H3, numbered_snoc. rewrite drop_app_le; [done|]. rewrite numbered_length. lia.
      * split; [|done]. intros Hpos. specialize (Hret Hpos). lia.
    + intros H2mx. rewrite app_length. simpl. lia.
    + intros w Hw. rewrite lookup_fmap, Hf by done. done.
Qed.

Lemma gstep_inv prefix mx L g c g' o : 0 <= mx -> ginv prefix mx L g -> gstep g c = (g', o) ->
  ginv prefix mx (change_step prefix L c) g'.
Proof.
  intros Hmx HI Hs. pose proof HI as [H1 H2 H3 (o' & Ho & Hle & He & Hret & Hsmall) Hb Ht Hk Hf].
  destruct c as [k n t|k n| |n|w|w]; simpl in *.
  - injection Hs as <- <-. unfold add_route, full. rewrite H1.
    replace (match k with SNI => n | PATH => prefix ++ n end) with (reg prefix k n) by done.
    apply append_inv; [done|done| |apply dset_nodup; done].
    intros key. rewrite dget_dset, tab_snoc. unfold key_of. simpl. rewrite Ht. done.
  - injection Hs as <- <-. unfold remove_route, full. rewrite H1.
    replace (match k with SNI => n | PATH => prefix ++ n end) with (reg prefix k n) by done.
    rewrite Ht. destruct (tab L (k, reg prefix k n)) as [t|]; [|done].
    apply append_inv; [done|done| |apply ddel_nodup; done].
    intros key. rewrite dget_ddel, tab_snoc. unfold key_of. simpl. rewrite Ht. done.
  - injection Hs as <- <-. done.
  - destruct (events_after n g) as [evs|]; injection Hs as <- <-; [|done].
    apply (ginv_same _ _ _ g); [done|done|]. simpl. intros w Hw. rewrite lookup_insert_ne by lia. apply Hf. lia.
  - destruct (g_watch g !! w) as [[|evs q]|] eqn:Hq; injection Hs as <- <-; try done.
    apply (ginv_same _ _ _ g); [done|done|]. simpl. intros w' Hw. rewrite lookup_insert_ne; [apply Hf; lia|].
    intros ->. rewrite Hf in Hq; done.
  - injection Hs as <- <-. apply (ginv_same _ _ _ g); [done|done|]. simpl. intros w' Hw.
    destruct (decide (w = w')) as [->|]; [apply lookup_delete|]. rewrite lookup_delete_ne by done. auto.
Qed.

Lemma change_step_grow prefix L c : exists L', change_step prefix L c = L ++ L'.
Proof.
  destruct c as [k n t|k n| |n|w|w]; simpl; try (exists []; rewrite app_nil_r; done); [eauto|].
  destruct (tab L _); [eauto|exists []; rewrite app_nil_r; done].
Qed.
Lemma changes_snoc prefix cs c : changes prefix (cs ++ [c]) = change_step prefix (changes prefix cs) c.
Proof. unfold changes. rewrite fold_left_app. done. Qed.
Lemma changes_grow prefix cs cs' : exists L', changes prefix (cs ++ cs') = changes prefix cs ++ L'.
Proof.
  induction cs' as [|c cs' IH] using rev_ind; [exists []; rewrite !app_nil_r; done|].
  destruct IH as [L' IH]. rewrite app_assoc, changes_snoc, IH. destruct (change_step_grow prefix (changes prefix cs ++ L') c) as [L2 ->].
  exists (L' ++ L2). rewrite app_assoc. done.
Qed.
Lemma exec_ginv prefix mx w0 h g : 0 <= mx -> exec gstep (ginit prefix mx w0) h g ->
  ginv prefix mx (changes prefix (map fst h)) g.
Proof.
  intros Hmx. revert h g. apply (exec_ind_r gstep (ginit prefix mx w0) (fun h g => ginv prefix mx (changes prefix (map fst h)) g)).
  - apply ginv_init.
  - intros h s e o s' _ IH Hs. rewrite map_app. cbn [map fst]. rewrite changes_snoc. eapply gstep_inv; eauto.
Qed.

Lemma append_watch t r g : g_watch (append_event t r g) = (fun q => q ++ [[Ev (g_next g) t r]]) <$> g_watch g.
Proof. unfold append_event. destruct (g_max g <=? Z.of_nat (length (g_events g))); done. Qed.
Lemma append_wnext t r g : g_wnext (append_event t r g) = g_wnext g.
Proof. unfold append_event. destruct (g_max g <=? Z.of_nat (length (g_events g))); done. Qed.

(** What a watch request gets. *)
Lemma watch_gets prefix mx L g n : ginv prefix mx L g -> 0 <= n <= Z.of_nat (length L) ->
  match events_after n g with
  | Some evs => evs = drop (Z.to_nat n) (numbered L)
  | None => mx - mx / 2 + 1 < Z.of_nat (length L) - n
  end.
Proof.
  intros [H1 H2 H3 (o & Ho & Hle & He & Hret & Hsmall) Hb Ht Hk Hf] Hn. unfold events_after, pyslice.
  rewrite Ho. destruct (Z.leb_spec 0 (n - Z.of_nat o)) as [H|H].
  - rewrite He, drop_drop. f_equal. lia.
  - assert (0 < o)%nat as Hpos by lia. lia.
Qed.

(** The state of a watcher. *)
Definition wstate (L : list change) (n : nat) (got : list gevent) (q : option (list (list gevent))) : Prop :=
  match q with
  | Some q => got ++ concat q = drop n (numbered L)
  | None => got `prefix_of` drop n (numbered L)
  end.
(** what step [c] does to watcher [w] *)
Lemma wstate_step prefix mx L g c g' o w n got : 0 <= mx -> ginv prefix mx L g -> gstep g c = (g', o) ->
  (w < g_wnext g)%nat -> (n <= length L)%nat -> wstate L n got (g_watch g !! w) ->
  wstate (change_step prefix L c) n (got ++ match o with OWrote w' evs => if decide (w' = w) then evs else [] | _ => [] end) (g_watch g' !! w) /\
  (g_watch g !! w = None -> g_watch g' !! w = None).
Proof.
  intros Hmx HI Hs Hw Hn Hst.
  assert (Happ : forall t r d, wstate (L ++ [(t, r)]) n (got ++ []) (g_watch (append_event t r (set_routes d g)) !! w) /\
     (g_watch g !! w = None -> g_watch (append_event t r (set_routes d g)) !! w = None)).
  { intros t r d. rewrite app_nil_r. unfold append_event. cbn [set_routes g_events g_max g_next g_offset g_watch g_wnext g_prefix g_routes].
    destruct (if g_max g <=? Z.of_nat (length (g_events g)) then _ else _) as [evs off].
    cbn [g_watch]. rewrite lookup_fmap. split; [|intros ->; done].
    assert (Hd : drop n (numbered (L ++ [(t, r)])) = drop n (numbered L) ++ [Ev (g_next g) t r]).
    { rewrite numbered_snoc, drop_app_le by (rewrite numbered_length; lia). rewrite (gi_next _ _ _ _ HI). done. }
    destruct (g_watch g !! w) as [q|]; simpl in *.
    - rewrite concat_app. simpl. rewrite app_assoc, Hst, Hd. done.
    - rewrite Hd. apply prefix_app_r. done. }
  destruct c as [k n0 t|k n0| |n0|w0|w0]; simpl in *.
  - injection Hs as <- <-. unfold add_route, full. rewrite (gi_prefix _ _ _ _ HI). apply Happ.
  - injection Hs as <- <-. unfold remove_route, full. rewrite (gi_prefix _ _ _ _ HI), (gi_tab _ _ _ _ HI).
    replace (match k with SNI => n0 | PATH => prefix ++ n0 end) with (reg prefix k n0) by done.
    destruct (tab L (k, reg prefix k n0)); [apply Happ|rewrite app_nil_r; done].
  - injection Hs as <- <-. rewrite app_nil_r. done.
  - destruct (events_after n0 g) as [evs|]; injection Hs as <- <-; rewrite app_nil_r; [|done]. simpl.
    rewrite lookup_insert_ne by lia. done.
  - destruct (g_watch g !! w0) as [[|evs q]|] eqn:Hq; injection Hs as <- <-; try (rewrite app_nil_r; done). simpl.
    destruct (decide (w0 = w)) as [->|Hne].
    + rewrite lookup_insert. rewrite Hq in Hst |- *. simpl in *. rewrite <- app_assoc. done.
    + rewrite lookup_insert_ne by done. rewrite app_nil_r. done.
  - injection Hs as <- <-. rewrite app_nil_r. simpl. destruct (decide (w0 = w)) as [->|Hne].
    + rewrite lookup_delete. split; [|done]. destruct (g_watch g !! w); simpl in *; [exists (concat l); done|done].
    + rewrite lookup_delete_ne by done. done.
Qed.

Lemma received_snoc w h p : received w (h ++ [p]) =
  received w h ++ match p.2 with OWrote w' evs => if decide (w' = w) then evs else [] | _ => [] end.
Proof. unfold received. rewrite map_app, concat_app. simpl. rewrite app_nil_r. done. Qed.

Lemma watch_run prefix mx w0 h1 n w h2 g : 0 <= mx ->
  exec gstep (ginit prefix mx w0) (h1 ++ (GWatch n, OStarted w) :: h2) g ->
  0 <= n <= Z.of_nat (length (changes prefix (map fst h1))) ->
  (w < g_wnext g)%nat /\
  wstate (changes prefix (map fst (h1 ++ (GWatch n, OStarted w) :: h2))) (Z.to_nat n) (received w h2) (g_watch g !! w) /\
  (g_watch g !! w = None -> GDrop w ∈ map fst h2).
Proof.
  intros Hmx Hx Hn. apply exec_app in Hx as (g1 & H1 & Hx). inversion Hx as [|? ? ? g2 ? ? Hw Hx2]; subst.
  pose proof (exec_ginv _ _ _ _ _ Hmx H1) as HI1. set (L1 := changes prefix (map fst h1)) in *.
  pose proof (gstep_inv _ _ _ _ _ _ _ Hmx HI1 Hw) as HI2. simpl in HI2.
  pose proof (watch_gets _ _ _ _ _ HI1 Hn) as Hg. simpl in Hw.
  destruct (events_after n g1) as [evs|]; [|done]. injection Hw as <- <-.
  assert (Hbase : (g_wnext g1 < S (g_wnext g1))%nat /\ wstate L1 (Z.to_nat n) [] (Some match evs with [] => [] | _ :: _ => [evs] end)).
  { split; [lia|]. simpl. rewrite <- Hg. destruct evs; simpl; [done|]. rewrite app_nil_r. done. }
  match type of Hx2 with exec _ ?s2 _ _ => set (g2 := s2) in * end.
  pose (P := fun (h2 : list (gcall * gout)) (g : gateway) =>
    ginv prefix mx (changes prefix (map fst (h1 ++ (GWatch n, OStarted (g_wnext g1)) :: h2))) g /\
    (g_wnext g1 < g_wnext g)%nat /\
    wstate (changes prefix (map fst (h1 ++ (GWatch n, OStarted (g_wnext g1)) :: h2))) (Z.to_nat n) (received (g_wnext g1) h2) (g_watch g !! g_wnext g1) /\
    (g_watch g !! g_wnext g1 = None -> GDrop (g_wnext g1) ∈ map fst h2)).
  enough (HH : P h2 g) by (unfold P in HH; tauto). clear Hx.
  revert h2 g Hx2. apply (exec_ind_r gstep g2 P); unfold P.
  - rewrite map_app. cbn [map fst]. rewrite changes_snoc. fold L1. simpl. split; [exact HI2|]. split; [lia|].
    rewrite lookup_insert. split; [apply Hbase|done].
  - intros h s e o s' Hx2 (HI & Hlt & Hst & Hd) Hs.
    replace (h1 ++ (GWatch n, OStarted (g_wnext g1)) :: h ++ [(e, o)]) with ((h1 ++ (GWatch n, OStarted (g_wnext g1)) :: h) ++ [(e, o)]) by (rewrite <- app_assoc; done).
    rewrite (map_app _ _ [(e, o)]). cbn [map fst]. rewrite changes_snoc.
    set (L := changes prefix (map fst (h1 ++ (GWatch n, OStarted (g_wnext g1)) :: h))) in *.
    assert (HnL : (Z.to_nat n <= length L)%nat).
    { unfold L. rewrite map_app. destruct (changes_grow prefix (map fst h1) (map fst ((GWatch n, OStarted (g_wnext g1)) :: h))) as [L' ->].
      rewrite app_length. fold L1. lia. }
    split; [eapply gstep_inv; eauto|].
    destruct (wstate_step _ _ _ _ _ _ _ _ _ _ Hmx HI Hs Hlt HnL Hst) as [Hst' Hnone].
    split; [|split].
    + enough (g_wnext s <= g_wnext s')%nat by lia. clear -Hs. destruct e; simpl in Hs.
      * injection Hs as <- <-. unfold add_route. rewrite append_wnext. done.
      * injection Hs as <- <-. unfold remove_route. destruct (dget _ _); [|done]. rewrite append_wnext. done.
      * injection Hs as <- <-. done.
      * destruct (events_after _ _); injection Hs as <- <-; simpl; lia.
      * destruct (g_watch s !! w) as [[|??]|]; injection Hs as <- <-; done.
      * injection Hs as <- <-. done.
    + rewrite received_snoc. simpl. exact Hst'.
    + intros Hno. rewrite map_app, elem_of_app. destruct (g_watch s !! g_wnext g1) as [q|] eqn:Hq.
      * right. clear -Hs Hq Hno. assert (e = GDrop (g_wnext g1)) as ->; [|left]. destruct e as [k n0 t|k n0| |n0|w0|w0]; simpl in Hs.
        -- injection Hs as <- <-. exfalso. revert Hno. unfold add_route. rewrite append_watch. simpl. rewrite lookup_fmap, Hq. done.
        -- injection Hs as <- <-. exfalso. revert Hno. unfold remove_route. destruct (dget _ _); [|congruence]. rewrite append_watch. simpl. rewrite lookup_fmap, Hq. done.
        -- injection Hs as <- <-. congruence.
        -- exfalso. destruct (events_after _ _); injection Hs as <- <-; simpl in Hno; [|congruence].
           destruct (decide (g_wnext s = g_wnext g1)) as [E|E]; [rewrite E, lookup_insert in Hno; done|]. rewrite lookup_insert_ne in Hno by done. congruence.
        -- exfalso. destruct (g_watch s !! w0) as [[|ev q0]|] eqn:Hq0; injection Hs as <- <-; simpl in Hno; try congruence.
           destruct (decide (w0 = g_wnext g1)) as [E|E]; [rewrite E, lookup_insert in Hno; done|]. rewrite lookup_insert_ne in Hno by done. congruence.
        -- injection Hs as <- <-. simpl in Hno. destruct (decide (w0 = g_wnext g1)) as [->|E]; [done|].
           rewrite lookup_delete_ne in Hno by done. congruence.
      * left. auto.
Qed.

(** ** the proxy's copy *)
Section px.
Context (parse : bytes -> option goURL).
Local Notation agree := (agree parse).
Local Notation in_sync := (in_sync parse).
Local Notation step := (step parse).
Local Notation runs := (runs parse).

Local Notation leads_to := (leads_to parse).
Local Notation usable := (usable parse).
Definition okL (L : list change) : Prop :=
  (forall c, c ∈ L -> rt_name c.2 <> []) /\
  (forall c1 c2, c1 ∈ L -> c2 ∈ L -> rt_kind c1.2 = PATH -> rt_kind c2.2 = PATH ->
     route_of (rt_name c1.2) = route_of (rt_name c2.2) -> rt_name c1.2 = rt_name c2.2) /\
  (forall k n t1 t2, (TPut, Route k n t1) ∈ L -> (TPut, Route k n t2) ∈ L -> usable k t1 -> usable k t2).
Lemma okL_sub L1 L2 : (forall c, c ∈ L1 -> c ∈ L2) -> okL L2 -> okL L1.
Proof. intros Hs (H1 & H2 & H3). split; [auto|]. split; [intros; apply H2; auto|]. intros k n t1 t2 ? ?. apply (H3 k n t1 t2); auto. Qed.
Lemma leads_fun t u1 u2 : leads_to t u1 -> leads_to t u2 -> u1 = u2.
Proof. intros (_ & E1 & _) (_ & E2 & _). congruence. Qed.

Definition agree' (T : kind * bytes -> option bytes) (t : tables) : Prop :=
  (forall n a, dget n (t_sni t) = Some a <-> exists tgt, T (SNI, n) = Some tgt /\ usable SNI tgt /\ a = trim_tls tgt) /\
  exists r, t_router t = Some r /\ clean r /\ tidy r /\
    forall k u, lookup_route r k = Some u <->
                exists p tgt, T (PATH, p) = Some tgt /\ route_of p = k /\ leads_to tgt u.
Lemma agree_weaken T T' t : (forall key, T key = T' key) -> agree' T t -> agree T' t.
Proof.
  intros HT (H1 & r & Hr & _ & _ & H2). split; [intros n a; rewrite <- HT; auto|]. exists r. split; [done|].
  intros k u. rewrite lookup_route_node, H2. split; intros (p & tg & Hx & ?); exists p, tg; (split; [|done]); [rewrite <- HT|rewrite HT]; done.
Qed.
Lemma agree_ext T T' t : (forall key, T key = T' key) -> agree' T t -> agree' T' t.
Proof.
  intros HT (H1 & r & Hr & Hc & Ht & H2). split; [intros n a; rewrite <- HT; auto|]. exists r. split; [done|]. split; [done|]. split; [done|].
  intros k u. rewrite H2. split; intros (p & tg & Hx & ?); exists p, tg; (split; [|done]); [rewrite <- HT|rewrite HT]; done.
Qed.
Lemma agree_empty : agree' (tab []) empty_tables.
Proof.
  split; [intros n a; split; [done|intros (? & ? & _); done]|]. exists NewRouter. split; [done|]. split; [apply clean_new|]. split; [apply tidy_new|].
  intros k u. rewrite lookup_new. split; [done|]. intros (p & tg & Hx & _). done.
Qed.

Lemma validate_sni_spec n t v : n <> [] -> validate_sni (Route SNI n t) = Some v <-> usable SNI t /\ v = trim_tls t.
Proof.
  intros Hn. unfold validate_sni, validate_name. cbn [rt_name rt_target]. rewrite decide_False by done.
  destruct (decide (t = [])) as [->|Ht]; simpl; [split; [done|intros [? _]; done]|]. split; [intros [= <-]; done|intros [_ ->]; done].
Qed.
Lemma validate_path_spec n t u : n <> [] -> validate_path parse (Route PATH n t) = Some u <-> leads_to t u.
Proof.
  intros Hn. unfold validate_path, validate_name. cbn [rt_name rt_target]. rewrite decide_False by done. unfold ProxyLog_Spec.leads_to.
  destruct (decide (t = [])) as [->|Ht]; simpl; [split; [done|intros [? _]; done]|].
  destruct (parse t) as [u0|]; simpl; [|split; [done|intros (_ & ? & _); done]].
  destruct (decide _) as [Hs|Hs]; (split; [intros E; try done|intros (_ & [= ->] & ?); done]). injection E as <-. done.
Qed.
Lemma apply_event_agree L c t i : okL (L ++ [c]) -> agree' (tab L) t -> agree' (tab (L ++ [c])) (apply_event parse t (Ev i c.1 c.2)).
Proof.
  intros (Hok & Hinj & Hsamek) (H1 & r & Hr & Hc & Ht & H2).
  assert (Hin : c ∈ L ++ [c]) by (apply elem_of_app; right; left).
  pose proof (Hok c Hin) as Hname.
  assert (Hsame : forall p tg, rt_kind c.2 = PATH -> tab L (PATH, p) = Some tg -> route_of p = route_of (rt_name c.2) -> p = rt_name c.2).
  { intros p tg Hk Hp Hro. apply tab_in in Hp. simpl in Hp.
    apply (Hinj (TPut, Route PATH p tg) c); [apply elem_of_app; left; done|done|done|done|done]. }
  assert (Hold : forall k n tg tg', c = (TPut, Route k n tg) -> tab L (k, n) = Some tg' -> usable k tg' -> usable k tg).
  { intros k n tg tg' -> Ht' Hu. apply tab_in in Ht'. simpl in Ht'. apply (Hsamek k n tg' tg); [apply elem_of_app; by left|done|done]. }
  destruct c as [ty [k n tg]]. unfold apply_event. cbn [ev_type ev_route fst snd] in *. cbn [rt_kind rt_name rt_target] in *.
  assert (Hsni : forall ty' m, k = PATH -> tab (L ++ [(ty', Route k n tg)]) (SNI, m) = tab L (SNI, m)).
  { intros ty' m ->. apply tab_snoc_ne. unfold key_of. simpl. congruence. }
  assert (Hpath : forall ty' m, k = SNI -> tab (L ++ [(ty', Route k n tg)]) (PATH, m) = tab L (PATH, m)).
  { intros ty' m ->. apply tab_snoc_ne. unfold key_of. simpl. congruence. }
  assert (Hrest : forall ty' m, m <> n -> tab (L ++ [(ty', Route k n tg)]) (k, m) = tab L (k, m)).
  { intros ty' m Hm. apply tab_snoc_ne. unfold key_of. simpl. congruence. }
  assert (Hthis : forall ty', tab (L ++ [(ty', Route k n tg)]) (k, n) = match ty' with TPut => Some tg | TDelete => None end).
  { intros ty'. rewrite tab_snoc. unfold key_of. simpl. rewrite decide_True by done. done. }
  destruct ty.
  - unfold putRoute. cbn [rt_kind rt_name]. destruct k.
    + split.
      * intros m a. destruct (validate_sni (Route SNI n tg)) as [v|] eqn:E.
        -- apply validate_sni_spec in E as [Hu ->]; [|done]. cbn [t_sni]. rewrite dget_dset. destruct (decide (m = n)) as [->|Hm].
           ++ rewrite Hthis. split; [intros [= <-]; eauto|intros (? & [= <-] & _ & ->); done].
           ++ rewrite Hrest by done. apply H1.
        -- assert (Hnu : ~ usable SNI tg).
           { intros Hu. assert (E' : validate_sni (Route SNI n tg) = Some (trim_tls tg)) by (apply validate_sni_spec; done). congruence. }
           destruct (decide (m = n)) as [->|Hm].
           ++ rewrite Hthis, H1. split.
              ** intros (tg' & Ht' & Hu & _). exfalso. apply Hnu. exact (Hold SNI n tg tg' eq_refl Ht' Hu).
              ** intros (tg' & [= <-] & Hu & _). done.
           ++ rewrite Hrest by done. apply H1.
      * exists r. split; [destruct (validate_sni _); exact Hr|]. split; [done|]. split; [done|]. intros k' u. rewrite H2.
        split; intros (p & tg' & Hx & ?); exists p, tg'; (split; [|done]); [rewrite Hpath by done|rewrite Hpath in Hx by done]; done.
    + split.
      * intros m a. rewrite Hsni by done. destruct (validate_path _ _); apply H1.
      * destruct (validate_path parse (Route PATH n tg)) as [u0|] eqn:E.
        -- apply validate_path_spec in E; [|done].
           cbn [t_router]. rewrite Hr. simpl. destruct (apply_op_spec r (OPut n u0) Hc Ht) as (r' & E' & Hl & Hc' & Ht').
           simpl in E'. rewrite E'. exists r'. split; [done|]. split; [done|]. split; [done|].
           intros k' u. rewrite Hl. simpl. destruct (decide (k' = route_of n)) as [->|Hk'].
           ++ split.
              ** intros [= <-]. exists n, tg. rewrite Hthis. done.
              ** intros (p & tg' & Hx & Hro & Hp). destruct (decide (p = n)) as [->|Hne].
                 --- rewrite Hthis in Hx. injection Hx as <-. f_equal. eapply leads_fun; eauto.
                 --- exfalso. rewrite Hrest in Hx by done. apply Hne. eapply Hsame; eauto.
           ++ rewrite H2. split; intros (p & tg' & Hx & Hro & Hp); exists p, tg'; (split; [|done]); [rewrite Hrest|rewrite Hrest in Hx]; try done; congruence.
        -- assert (Hnu : ~ usable PATH tg).
           { intros (u & Hu). apply (validate_path_spec n) in Hu; [|done]. congruence. }
           exists r. split; [done|]. split; [done|]. split; [done|]. intros k' u. rewrite H2.
           split; intros (p & tg' & Hx & Hro & Hp); destruct (decide (p = n)) as [->|Hne].
           ++ exfalso. apply Hnu. apply (Hold PATH n tg tg' eq_refl Hx). exists u. done.
           ++ exists p, tg'. rewrite Hrest by done. done.
           ++ exfalso. rewrite Hthis in Hx. injection Hx as <-. apply Hnu. exists u. done.
           ++ exists p, tg'. rewrite Hrest in Hx by done. done.
  - unfold deleteRoute. assert (Hv : validate_name (Route k n tg) = true) by (unfold validate_name; simpl; rewrite decide_False; done).
    rewrite Hv. cbn [rt_kind rt_name]. destruct k.
    + split.
      * intros m a. cbn [t_sni]. rewrite dget_ddel. destruct (decide (m = n)) as [->|Hm].
        -- rewrite Hthis. split; [done|intros (? & ? & _); done].
        -- rewrite Hrest by done. apply H1.
      * exists r. split; [done|]. split; [done|]. split; [done|]. intros k' u. rewrite H2.
        split; intros (p & tg' & Hx & ?); exists p, tg'; (split; [|done]); [rewrite Hpath by done|rewrite Hpath in Hx by done]; done.
    + split.
      * intros m a. rewrite Hsni by done. cbn [t_sni]. apply H1.
      * cbn [t_router]. rewrite Hr. simpl. destruct (apply_op_spec r (ODelete n) Hc Ht) as (r' & E' & Hl & Hc' & Ht').
        simpl in E'. rewrite E'. exists r'. split; [done|]. split; [done|]. split; [done|].
        intros k' u. rewrite Hl. simpl. destruct (decide (k' = route_of n)) as [->|Hk'].
        -- split; [done|]. intros (p & tg' & Hx & Hro & Hp). destruct (decide (p = n)) as [->|Hne].
           ++ rewrite Hthis in Hx. done.
           ++ exfalso. rewrite Hrest in Hx by done. apply Hne. eapply Hsame; eauto.
        -- rewrite H2. split; intros (p & tg' & Hx & Hro & Hp); exists p, tg'; (split; [|done]); [rewrite Hrest|rewrite Hrest in Hx]; try done; congruence.
Qed.

Lemma agree_fold L1 L2 t : okL (L1 ++ L2) -> agree' (tab L1) t ->
  agree' (tab (L1 ++ L2)) (UpdateFromEvents parse (drop (length L1) (numbered (L1 ++ L2))) t).
Proof.
  intros Hok Ht. induction L2 as [|c L2 IH] using rev_ind.
  - rewrite app_nil_r, drop_ge by (rewrite numbered_length; lia). done.
  - rewrite app_assoc in *. rewrite numbered_snoc, drop_app_le by (rewrite numbered_length, app_length; lia).
    unfold UpdateFromEvents. rewrite fold_left_app. cbn [fold_left]. apply apply_event_agree; [done|].
    apply IH. eapply okL_sub; [|exact Hok]. intros c' Hc'. apply elem_of_app. left. done.
Qed.

Lemma update_routes_events rs : UpdateFromRoutes parse rs = UpdateFromEvents parse (numbered (map (pair TPut) rs)) empty_tables.
Proof.
  unfold UpdateFromRoutes, UpdateFromEvents. induction rs as [|r rs IH] using rev_ind; [done|].
  rewrite fold_left_app, map_app. cbn [map]. rewrite numbered_snoc, fold_left_app, <- IH. done.
Qed.
Lemma tab_dict d : NoDup (map fst d) -> forall T key,
  fold_left tab_step (map (fun e => (TPut, Route e.1.1 e.1.2 e.2)) d) T key =
  match dget key d with Some v => Some v | None => T key end.
Proof.
  induction d as [|[[k n] v] d IH]; intros Hn T key; simpl; [done|].
  apply NoDup_cons in Hn as [Hx Hn]. rewrite IH by done. unfold tab_step, key_of. simpl.
  destruct (decide (key = (k, n))) as [->|Hne]; [|done].
  destruct (dget (k, n) d) as [v'|] eqn:E; [|done]. exfalso. apply Hx. apply elem_of_list_fmap. exists ((k, n), v'). split; [done|].
  apply dget_in. done.
Qed.

(** What the gateway's table answer makes of the proxy. *)
Lemma answer_agree prefix mx L g : ginv prefix mx L g -> okL L ->
  agree' (tab L) (UpdateFromRoutes parse (map (fun e => Route e.1.1 e.1.2 e.2) (g_routes g))).
Proof.
  intros HI Hok. rewrite update_routes_events, map_map. set (M := map (fun e => (TPut, Route e.1.1 e.1.2 e.2)) (g_routes g)).
  assert (HT : forall key, tab M key = tab L key).
  { intros key. unfold tab at 1. unfold M. rewrite (tab_dict _ (gi_keys _ _ _ _ HI)), (gi_tab _ _ _ _ HI). destruct (tab L key); done. }
  assert (HokM : okL ([] ++ M)).
  { eapply okL_sub; [|exact Hok]. simpl. intros c Hc. unfold M in Hc. apply elem_of_list_fmap in Hc as ([[k n] v] & -> & Hin). simpl.
    apply in_dget in Hin; [|apply (gi_keys _ _ _ _ HI)]. rewrite (gi_tab _ _ _ _ HI) in Hin. apply tab_in in Hin. done. }
  eapply agree_ext; [exact HT|]. exact (agree_fold [] M empty_tables HokM agree_empty).
Qed.

(** ** the whole system *)
Definition pinv (base : nat) (L : list change) (p : proxy) : Prop :=
  Z.of_nat base <= p_last p <= Z.of_nat (length L) /\ agree' (tab (take (Z.to_nat (p_last p)) L)) (p_tables p).
Definition phinv (base : nat) (L : list change) (p : proxy) (g : gateway) : Prop :=
  match p_phase p with
  | Fetching (Some (rs, id)) => Z.of_nat base <= id <= Z.of_nat (length L) /\
                                agree' (tab (take (Z.to_nat id) L)) (UpdateFromRoutes parse rs)
  | Watching w str => (w < g_wnext g)%nat /\ wstate L (Z.to_nat (p_last p)) (concat str) (g_watch g !! w)
  | _ => True
  end.
Definition stale (old : Z * tables) (p : proxy) : Prop :=
  exists a, p_phase p = Fetching a /\ (p_last p, p_tables p) = old.
Record sinv (prefix : bytes) (mx : Z) (base : nat) (old : Z * tables) (L : list change) (s : sys) : Prop := {
  si_g : ginv prefix mx L (s_gw s);
  si_base : (base <= length L)%nat;
  si_ph : phinv base L (s_px s) (s_gw s);
  si_p : pinv base L (s_px s) \/ stale old (s_px s);
}.
Definition change_of (prefix : bytes) (L : list change) (e : event) : list change :=
  match e with
  | SAdd k n t => change_step prefix L (GAdd k n t)
  | SRemove k n => change_step prefix L (GRemove k n)
  | _ => L
  end.

Lemma pinv_grow base L L' p : pinv base L p -> pinv base (L ++ L') p.
Proof.
  intros [H1 H2]. split; [rewrite app_length; lia|]. rewrite take_app_le by lia. done.
Qed.

(** any gateway step leaves the proxy's side intact *)
Lemma gateway_move prefix mx base old L s c g' o : 0 <= mx -> sinv prefix mx base old L s -> gstep (s_gw s) c = (g', o) ->
  (forall w str, p_phase (s_px s) = Watching w str -> match o with OWrote w' _ => w' <> w | _ => True end) ->
  sinv prefix mx base old (change_step prefix L c) (with_gw s g').
Proof.
  intros Hmx [Hg Hb Hph Hp] Hs Hw. destruct (change_step_grow prefix L c) as [L' EL].
  constructor; simpl.
  - eapply gstep_inv; eauto.
  - rewrite EL, app_length. lia.
  - unfold phinv in *. destruct (p_phase (s_px s)) as [[[rs id]|]| |w str] eqn:Eph; try done.
    + destruct Hph as [H1 H2]. rewrite EL. split; [rewrite app_length; lia|]. rewrite take_app_le by lia. done.
    + destruct Hph as [H1 H2]. destruct Hp as [[Hlast _]|(a & Ha & _)]; [|congruence].
      assert (Hwn : (g_wnext (s_gw s) <= g_wnext g')%nat).
      { clear -Hs. destruct c; simpl in Hs.
        - injection Hs as <- <-. unfold add_route. rewrite append_wnext. done.
        - injection Hs as <- <-. unfold remove_route. destruct (dget _ _); [|done]. rewrite append_wnext. done.
        - injection Hs as <- <-. done.
        - destruct (events_after _ _); injection Hs as <- <-; simpl; lia.
        - destruct (g_watch (s_gw s) !! w) as [[|??]|]; injection Hs as <- <-; done.
        - injection Hs as <- <-. done. }
      split; [simpl; lia|].
      destruct (wstate_step _ _ _ _ _ _ _ w (Z.to_nat (p_last (s_px s))) (concat str) Hmx Hg Hs H1 ltac:(lia) H2) as [H3 _].
      specialize (Hw w str eq_refl). destruct o as [| | | |w' evs]; simpl in H3; try (rewrite app_nil_r in H3; exact H3).
      rewrite decide_False in H3 by done. rewrite app_nil_r in H3. exact H3.
  - destruct Hp as [Hp|Hp]; [left|right; exact Hp]. rewrite EL. apply pinv_grow. exact Hp.
Qed.

Lemma step_sinv prefix mx base old L s e : 0 <= mx -> sinv prefix mx base old L s -> okL L -> e <> SRestart ->
  sinv prefix mx base old (change_of prefix L e) (step s e).
Proof.
  intros Hmx HS Hok Hne. pose proof HS as [Hg Hb Hph Hp]. destruct e as [k n t|k n| |n|w|w| | | | | | | |]; unfold step; cbn [change_of].
  - change (fst (gstep (s_gw s) (GAdd k n t))) with (fst (gstep (s_gw s) (GAdd k n t))).
    destruct (gstep (s_gw s) (GAdd k n t)) as [g' o] eqn:E. eapply gateway_move; eauto. simpl in E. injection E as <- <-. done.
  - destruct (gstep (s_gw s) (GRemove k n)) as [g' o] eqn:E. eapply gateway_move; eauto. simpl in E. injection E as <- <-. done.
  - done.
  - destruct (gstep (s_gw s) (GWatch n)) as [g' o] eqn:E. apply (gateway_move _ _ _ _ _ _ (GWatch n) _ o); [done|done|done|].
    simpl in E. destruct (events_after _ _); injection E as <- <-; done.
  - destruct (gstep (s_gw s) (GWrite w)) as [g' o] eqn:E.
    destruct o as [| | | |w' evs];
      try (apply (gateway_move _ _ _ _ _ _ (GWrite w) _ _ Hmx HS E); intros; exact I).
    assert (w' = w) as ->.
    { simpl in E. destruct (g_watch (s_gw s) !! w) as [[|? ?]|]; congruence. }
    destruct (p_phase (s_px s)) as [a| |w0 str] eqn:Eph;
      try (apply (gateway_move _ _ _ _ _ _ (GWrite w) _ _ Hmx HS E); intros; congruence).
    destruct (decide (w = w0)) as [->|Hw0];
      [|apply (gateway_move _ _ _ _ _ _ (GWrite w) _ _ Hmx HS E); intros; congruence].
    destruct Hp as [Hp|(a & Ha & _)]; [|congruence]. unfold phinv in Hph. rewrite Eph in Hph. destruct Hph as [H1 H2].
    destruct (wstate_step _ _ _ _ _ _ _ w0 (Z.to_nat (p_last (s_px s))) (concat str) Hmx Hg E H1 ltac:(destruct Hp as [Hl _]; lia) H2) as [H3 _].
    simpl in H3. rewrite decide_True in H3 by done.
    constructor; simpl; [eapply (gstep_inv _ _ _ _ (GWrite w0)); eauto|done| |left; exact Hp].
    unfold phinv. simpl. split.
    + simpl in E. destruct (g_watch (s_gw s) !! w0) as [[|? ?]|]; inversion E; subst; done.
    + rewrite concat_app. simpl. rewrite app_nil_r. exact H3.
  - destruct (gstep (s_gw s) (GDrop w)) as [g' o] eqn:E. apply (gateway_move _ _ _ _ _ _ (GDrop w) _ o); [done|done|done|].
    simpl in E. injection E as <- <-. done.
  - destruct (p_phase (s_px s)) as [[a|]| |w0 str] eqn:Eph; try done. cbn [gstep].
    constructor; simpl; [done|done| |].
    + unfold phinv. simpl. rewrite (gi_next _ _ _ _ Hg). split; [lia|].
      replace (Z.to_nat (Z.of_nat (length L) + 1 - 1)) with (length L) by lia. rewrite take_ge by lia.
      eapply answer_agree; eauto.
    + destruct Hp as [Hp|(a & Ha & Ho)]; [left; exact Hp|right]. eexists. split; [reflexivity|]. exact Ho.
  - destruct (p_phase (s_px s)) as [[[rs id]|]| |w0 str] eqn:Eph; try done.
    unfold phinv in Hph. rewrite Eph in Hph. constructor; simpl; [done|done|done|]. left. exact Hph.
  - destruct (p_phase (s_px s)) as [a| |w0 str] eqn:Eph; try done.
    constructor; simpl; [done|done|done|]. destruct Hp as [Hp|(a' & Ha & Ho)]; [left; exact Hp|right]. eexists. split; [reflexivity|]. exact Ho.
  - destruct (p_phase (s_px s)) as [a| |w0 str] eqn:Eph; try done.
    destruct Hp as [Hp|(a' & Ha & Ho)]; [|congruence]. destruct Hp as [Hl Ha].
    pose proof (watch_gets _ _ _ _ (p_last (s_px s)) Hg ltac:(lia)) as Hgets.
    destruct (gstep (s_gw s) (GWatch (p_last (s_px s)))) as [g' o] eqn:E.
    pose proof (gstep_inv _ _ _ _ _ _ _ Hmx Hg E) as Hg'. simpl in Hg', E.
    destruct (events_after (p_last (s_px s)) (s_gw s)) as [evs|]; injection E as <- <-.
    + constructor; simpl; [exact Hg'|done| |left; split; done]. unfold phinv. simpl. split; [lia|].
      rewrite lookup_insert. unfold wstate. simpl. rewrite <- Hgets. destruct evs; simpl; [done|]. rewrite app_nil_r. done.
    + constructor; simpl; [exact Hg'|done|done|left; split; done].
  - destruct (p_phase (s_px s)) as [a| |w0 str] eqn:Eph; try done.
    destruct Hp as [Hp|(a' & Ha & Ho)]; [|congruence]. constructor; simpl; [done|done|done|left; exact Hp].
  - destruct (p_phase (s_px s)) as [a| |w0 [|evs str]] eqn:Eph; try done.
    destruct Hp as [Hp|(a' & Ha & Ho)]; [|congruence]. unfold phinv in Hph. rewrite Eph in Hph. destruct Hph as [H1 H2].
    destruct Hp as [Hl Hagree]. set (n := Z.to_nat (p_last (s_px s))) in *.
    assert (Hpre : exists rest, evs ++ rest = drop n (numbered L) /\
       (match g_watch (s_gw s) !! w0 with Some q => rest = concat str ++ concat q | None => concat str `prefix_of` rest end)).
    { unfold wstate in H2. cbn [concat] in H2. destruct (g_watch (s_gw s) !! w0) as [q|].
      - exists (concat str ++ concat q). rewrite app_assoc. done.
      - destruct H2 as [rest Hr]. exists (concat str ++ rest). rewrite app_assoc. split; [done|]. exists rest. done. }
    destruct Hpre as (rest & Hev & Hrest).
    assert (Hlen : (length evs + length rest = length L - n)%nat).
    { rewrite <- (numbered_length L), <- drop_length, <- Hev, app_length. done. }
    destruct (last evs) as [e|] eqn:Elast.
    + set (m := (n + length evs)%nat).
      assert (Hid : ev_id e = Z.of_nat m).
      { assert (Hlk : numbered L !! (m - 1)%nat = Some e).
        { pose proof Elast as Hl0. rewrite last_lookup in Hl0. assert (0 < length evs)%nat by (destruct evs; [done|simpl; lia]).
          replace (m - 1)%nat with (n + (length evs - 1))%nat by (unfold m; lia). rewrite <- lookup_drop, <- Hev.
          rewrite lookup_app_l by lia. rewrite <- Hl0. f_equal. lia. }
        assert (0 < length evs)%nat by (destruct evs; [done|simpl; lia]).
        unfold numbered in Hlk. rewrite list_lookup_imap in Hlk. destruct (L !! (m - 1)%nat); simpl in Hlk; [|done].
        injection Hlk as <-. simpl. unfold m. lia. }
      assert (Hm : (m <= length L)%nat) by (unfold m, n in *; lia).
      constructor; simpl; [done|done| |].
      * unfold phinv. simpl. split; [done|]. rewrite Hid, Nat2Z.id.
        assert (Hd : drop m (numbered L) = rest).
        { unfold m. rewrite <- drop_drop, <- Hev. rewrite drop_app_alt by done. done. }
        unfold wstate. rewrite Hd. destruct (g_watch (s_gw s) !! w0); [congruence|done].
      * left. unfold pinv. simpl. rewrite Hid, Nat2Z.id. split; [unfold m, n in *; lia|].
        pose proof (take_drop n (take m L)) as Hsplit.
        rewrite take_take in Hsplit. rewrite (Nat.min_l n m) in Hsplit by (unfold m; lia).
        rewrite <- Hsplit. replace evs with (drop (length (take n L)) (numbered (take n L ++ drop n (take m L)))) at 1.
        { apply agree_fold; [|done]. rewrite Hsplit. eapply okL_sub; [|exact Hok]. intros c Hc. apply elem_of_take in Hc as (i & Hi & _). eapply elem_of_list_lookup_2; eauto. }
        rewrite Hsplit, <- numbered_take, take_length. rewrite (Nat.min_l n) by (unfold n in *; lia).
        rewrite skipn_firstn_comm. rewrite <- Hev. unfold m. replace (n + length evs - n)%nat with (length evs) by lia.
        rewrite take_app_alt by done. done.
    + apply last_None in Elast. subst evs. constructor; simpl; [done|done| |left; split; done]. unfold phinv. simpl. split; [done|]. exact H2.
  - destruct (p_phase (s_px s)) as [a| |w0 str] eqn:Eph; try done.
    destruct Hp as [Hp|(a' & Ha & Ho)]; [|congruence]. constructor; simpl; [done|done|done|left; exact Hp].
  - destruct (p_phase (s_px s)) as [a| |w0 str] eqn:Eph; try done.
    destruct Hp as [Hp|(a' & Ha & Ho)]; [|congruence]. constructor; simpl; [done|done|done|left; exact Hp].
Qed.

(** where changes come from *)
Definition from (prefix : bytes) (es : list event) (L : list change) : Prop :=
  forall c, c ∈ L -> exists n t, SAdd (rt_kind c.2) n t ∈ es /\ rt_name c.2 = reg prefix (rt_kind c.2) n /\ (c.1 = TPut -> rt_target c.2 = t).
Lemma from_step prefix es L e : from prefix es L -> e ∈ es -> from prefix es (change_of prefix L e).
Proof.
  intros Hf He. destruct e as [k n t|k n| | | | | | | | | | | |]; simpl; try done.
  - intros c [Hc|Hc%elem_of_list_singleton]%elem_of_app; [auto|]. subst c. simpl. exists n, t. done.
  - destruct (tab L (k, reg prefix k n)) as [t|] eqn:Ht; [|done].
    intros c [Hc|Hc%elem_of_list_singleton]%elem_of_app; [auto|]. subst c. simpl.
    apply tab_in in Ht. apply Hf in Ht as (n' & t' & H1 & H2 & _). simpl in *. exists n', t'. done.
Qed.
Lemma reg_inj prefix k n1 n2 : reg prefix k n1 = reg prefix k n2 -> n1 = n2.
Proof. destruct k; simpl; [done|]. apply app_inv_head. Qed.
Lemma from_ok prefix es L : good_history parse prefix es -> from prefix es L -> okL L.
Proof.
  intros (Hga & Hgu & Hgi) Hf. split; [|split].
  - intros c Hc. apply Hf in Hc as (n & t & Hin & Hn & Ht). rewrite Hn. eapply Hga; eauto.
  - intros c1 c2 Hc1 Hc2 Hk1 Hk2 Hr. apply Hf in Hc1 as (n1 & t1 & Hi1 & Hn1 & _). apply Hf in Hc2 as (n2 & t2 & Hi2 & Hn2 & _).
    rewrite Hk1 in *. rewrite Hk2 in *. simpl in *. rewrite Hn1, Hn2 in *. f_equal. eapply Hgi; eauto.
  - intros k n t1 t2 Hc1 Hc2. apply Hf in Hc1 as (n1 & t1' & Hi1 & Hn1 & E1). apply Hf in Hc2 as (n2 & t2' & Hi2 & Hn2 & E2).
    simpl in *. specialize (E1 eq_refl). specialize (E2 eq_refl). subst t1' t2'. rewrite Hn1 in Hn2. apply reg_inj in Hn2 as <-.
    eapply Hgu; eauto.
Qed.

Lemma good_sub prefix es es' : good_history parse prefix es -> (forall k n t, SAdd k n t ∈ es' -> SAdd k n t ∈ es) -> good_history parse prefix es'.
Proof.
  intros (H1 & H2 & H3) H. split; [|split].
  - intros k n t X. apply (H1 k n t). auto.
  - intros k n t1 t2 X Y. apply (H2 k n t1 t2); auto.
  - intros n1 t1 n2 t2 X Y. apply (H3 n1 t1 n2 t2); auto.
Qed.

(** the gateway side of any history *)
Lemma runs_app s es1 es2 : runs s (es1 ++ es2) = runs (runs s es1) es2.
Proof. unfold runs, ProxyLog_Model.runs. apply fold_left_app. Qed.
Lemma ginv_step_any prefix mx L s e : 0 <= mx -> ginv prefix mx L (s_gw s) -> e <> SRestart ->
  ginv prefix mx (change_of prefix L e) (s_gw (step s e)).
Proof.
  intros Hmx Hg Hne. destruct e as [k n t|k n| |n|w|w| | | | | | | |]; unfold step; cbn [change_of].
  - destruct (gstep (s_gw s) (GAdd k n t)) as [g' o] eqn:E. exact (gstep_inv _ _ _ _ _ _ _ Hmx Hg E).
  - destruct (gstep (s_gw s) (GRemove k n)) as [g' o] eqn:E. exact (gstep_inv _ _ _ _ _ _ _ Hmx Hg E).
  - done.
  - destruct (gstep (s_gw s) (GWatch n)) as [g' o] eqn:E. exact (gstep_inv _ _ _ _ _ _ _ Hmx Hg E).
  - destruct (gstep (s_gw s) (GWrite w)) as [g' o] eqn:E. pose proof (gstep_inv _ _ _ _ _ _ _ Hmx Hg E) as Hg'. simpl in Hg'.
    destruct o; try exact Hg'. destruct (p_phase (s_px s)); try exact Hg'. destruct (decide _); exact Hg'.
  - destruct (gstep (s_gw s) (GDrop w)) as [g' o] eqn:E. exact (gstep_inv _ _ _ _ _ _ _ Hmx Hg E).
  - destruct (p_phase (s_px s)) as [[a|]| |]; done.
  - destruct (p_phase (s_px s)) as [[[??]|]| |]; done.
  - destruct (p_phase (s_px s)) as [a| |]; done.
  - destruct (p_phase (s_px s)) as [a| |]; try done.
    destruct (gstep (s_gw s) (GWatch (p_last (s_px s)))) as [g' o] eqn:E. pose proof (gstep_inv _ _ _ _ _ _ _ Hmx Hg E) as Hg'.
    destruct o; exact Hg'.
  - destruct (p_phase (s_px s)) as [a| |]; done.
  - destruct (p_phase (s_px s)) as [a| |w [|evs str]]; try done. destruct (last evs); done.
  - destruct (p_phase (s_px s)) as [a| |]; done.
  - destruct (p_phase (s_px s)) as [a| |]; done.
Qed.
Lemma runs_ginv prefix mx es ES : 0 <= mx -> (forall e, e ∈ es -> e ∈ ES) ->
  exists L, ginv prefix mx L (s_gw (runs (sinit prefix mx) es)) /\ from prefix ES L.
Proof.
  intros Hmx. induction es as [|e es IH] using rev_ind; intros Hsub.
  - exists []. split; [apply ginv_init|]. intros c Hc. by apply elem_of_nil in Hc.
  - destruct IH as (L & HI & Hf); [intros e' He'; apply Hsub, elem_of_app; auto|].
    assert (He : e ∈ ES) by (apply Hsub, elem_of_app; right; left).
    rewrite runs_app. cbn [runs ProxyLog_Model.runs fold_left]. change (fold_left (ProxyLog_Model.step parse) [e] ?x) with (step x e).
    assert (Hcase : e = SRestart \/ e <> SRestart) by (destruct e; ((left; done) || (right; done))). destruct Hcase as [->|Hne].
    + exists []. split; [|intros c Hc; by apply elem_of_nil in Hc]. simpl. rewrite (gi_prefix _ _ _ _ HI), (gi_max _ _ _ _ HI). apply ginv_init.
    + exists (change_of prefix L e). split; [apply ginv_step_any; done|apply from_step; done].
Qed.

Lemma change_of_cases prefix L e : change_of prefix L e = L \/ exists c, change_of prefix L e = L ++ [c].
Proof.
  destruct e as [k n t|k n| | | | | | | | | | | |]; simpl; eauto. destruct (tab L _); eauto.
Qed.
Lemma step_cases s e : runs s [e] = step s e.
Proof. done. Qed.

Lemma history_sinv prefix mx ES s0 L0 es : 0 <= mx -> good_history parse prefix ES ->
  ginv prefix mx L0 (s_gw s0) -> from prefix ES L0 -> p_phase (s_px s0) = Fetching None ->
  (forall e, e ∈ es -> e ∈ ES) -> no_restart es ->
  exists L, sinv prefix mx (length L0) (p_last (s_px s0), p_tables (s_px s0)) L (runs s0 es) /\ from prefix ES L /\
  forall n, (length L0 <= n <= length L)%nat -> exists es1 es2, es = es1 ++ es2 /\ ginv prefix mx (take n L) (s_gw (runs s0 es1)).
Proof.
  intros Hmx Hgood Hg0 Hf0 Hph0. induction es as [|e es IH] using rev_ind; intros Hsub Hnr.
  - exists L0. split; [|split; [done|]].
    + constructor; [done|lia| |].
      * unfold phinv. simpl. rewrite Hph0. done.
      * right. exists None. done.
    + intros n Hn. exists [], []. split; [done|]. rewrite take_ge by lia. done.
  - destruct IH as (L & HS & Hf & Hpre).
    { intros e' He'. apply Hsub, elem_of_app. auto. }
    { intros Hx. apply Hnr, elem_of_app. auto. }
    assert (Hne : e <> SRestart) by (intros ->; apply Hnr, elem_of_app; right; left).
    assert (He : e ∈ ES) by (apply Hsub, elem_of_app; right; left).
    pose proof (step_sinv _ _ _ _ _ _ e Hmx HS (from_ok _ _ _ Hgood Hf) Hne) as HS'.
    exists (change_of prefix L e). rewrite runs_app, step_cases. split; [exact HS'|]. split; [apply from_step; done|].
    intros n Hn. destruct (decide (n <= length L)%nat) as [Hle|Hgt].
    + destruct (Hpre n) as (es1 & es2 & -> & Hx); [lia|]. exists es1, (es2 ++ [e]). rewrite app_assoc. split; [done|].
      destruct (change_of_cases prefix L e) as [->|[c ->]]; [done|]. rewrite take_app_le by lia. done.
    + exists (es ++ [e]), []. rewrite app_nil_r. split; [done|]. rewrite runs_app, step_cases.
      rewrite take_ge; [apply (si_g _ _ _ _ _ _ HS')|]. destruct (change_of_cases prefix L e) as [E|[c E]]; rewrite E in *; rewrite ?app_length in *; simpl in *; lia.
Qed.

Lemma ginv_sync prefix mx L g p : ginv prefix mx L g -> p_last p = Z.of_nat (length L) -> agree' (tab L) (p_tables p) -> in_sync p g.
Proof.
  intros HI Hl Ha. split; [rewrite (gi_next _ _ _ _ HI); lia|]. eapply agree_weaken; [|exact Ha].
  intros key. rewrite (gi_tab _ _ _ _ HI). done.
Qed.

Lemma resync prefix mx es0 es : 0 <= mx -> good_history parse prefix (es0 ++ es) -> no_restart es ->
  p_phase (s_px (runs (sinit prefix mx) es0)) = Fetching None ->
  let s0 := runs (sinit prefix mx) es0 in let s := runs (sinit prefix mx) (es0 ++ es) in
  ((exists a, p_phase (s_px s) = Fetching a) /\ p_last (s_px s) = p_last (s_px s0) /\ p_tables (s_px s) = p_tables (s_px s0)) \/
  exists es1 es2, es = es1 ++ es2 /\ in_sync (s_px s) (s_gw (runs (sinit prefix mx) (es0 ++ es1))).
Proof.
  intros Hmx Hgood Hnr Hph s0 s. destruct (runs_ginv prefix mx es0 (es0 ++ es)) as (L0 & Hg0 & Hf0); [done|intros; apply elem_of_app; auto|].
  destruct (history_sinv prefix mx (es0 ++ es) s0 L0 es) as (L & [Hg Hb Hphi Hp] & Hf & Hpre); try done.
  { intros; apply elem_of_app; auto. }
  unfold s. rewrite runs_app. fold s0. destruct Hp as [[Hl Ha]|(a & Ha & Ho)].
  - right. destruct (Hpre (Z.to_nat (p_last (s_px (runs s0 es))))) as (es1 & es2 & Ees & Hx); [lia|].
    exists es1, es2. split; [done|]. rewrite (runs_app _ es0 es1). fold s0. eapply ginv_sync; [exact Hx| |exact Ha]. rewrite take_length. lia.
  - left. split; [eauto|]. injection Ho as -> ->. done.
Qed.

Lemma always_past_table prefix mx es : 0 <= mx -> good_history parse prefix es -> no_restart es ->
  exists es1 es2, es = es1 ++ es2 /\ in_sync (s_px (runs (sinit prefix mx) es)) (s_gw (runs (sinit prefix mx) es1)).
Proof.
  intros Hmx Hgood Hnr. destruct (resync prefix mx [] es) as [(_ & Hl & Ht)|H]; try done.
  exists [], es. split; [done|]. apply (ginv_sync prefix mx []); [apply ginv_init|exact Hl|]. simpl in Ht. rewrite Ht. apply agree_empty.
Qed.

Lemma sys_inv prefix mx es : 0 <= mx -> good_history parse prefix es -> no_restart es ->
  exists L, sinv prefix mx 0 (0, empty_tables) L (runs (sinit prefix mx) es).
Proof.
  intros Hmx Hgood Hnr. destruct (history_sinv prefix mx es (sinit prefix mx) [] es) as (L & HS & _); try done.
  - apply ginv_init.
  - intros c Hc. by apply elem_of_nil in Hc.
  - exists L. exact HS.
Qed.

Lemma newest_id_in_sync prefix mx es : 0 <= mx -> good_history parse prefix es -> no_restart es ->
  let s := runs (sinit prefix mx) es in p_last (s_px s) = g_next (s_gw s) - 1 -> in_sync (s_px s) (s_gw s).
Proof.
  intros Hmx Hgood Hnr s Hlast. destruct (sys_inv prefix mx es) as (L & [Hg Hb Hphi Hp]); try done. fold s in Hg, Hphi, Hp.
  pose proof (gi_next _ _ _ _ Hg) as Hn. eapply ginv_sync; [exact Hg|lia|]. destruct Hp as [[Hl Ha]|(a & Ha & Ho)].
  - rewrite take_ge in Ha by lia. exact Ha.
  - injection Ho as Hl0 Ht. rewrite Ht. destruct L; [apply agree_empty|simpl in Hn; lia].
Qed.

Lemma drained_in_sync prefix mx es w : 0 <= mx -> good_history parse prefix es -> no_restart es ->
  let s := runs (sinit prefix mx) es in p_phase (s_px s) = Watching w [] -> g_watch (s_gw s) !! w = Some [] -> in_sync (s_px s) (s_gw s).
Proof.
  intros Hmx Hgood Hnr s Hph Hw. apply newest_id_in_sync; try done. fold s.
  destruct (sys_inv prefix mx es) as (L & [Hg Hb Hphi Hp]); try done. fold s in Hg, Hphi, Hp.
  destruct Hp as [[Hl Ha]|(a & Ha & Ho)]; [|congruence]. unfold phinv in Hphi. rewrite Hph, Hw in Hphi. destruct Hphi as [_ Hws].
  simpl in Hws. pose proof (f_equal length Hws) as Hlen. rewrite drop_length, numbered_length in Hlen. simpl in Hlen.
  rewrite (gi_next _ _ _ _ Hg). lia.
Qed.

(** nothing but deliveries is needed to catch up *)
Lemma fetch_in_sync prefix mx es : 0 <= mx -> good_history parse prefix es ->
  (exists a, p_phase (s_px (runs (sinit prefix mx) es)) = Fetching a) ->
  let s := runs (sinit prefix mx) (es ++ [SFetchFail; SAnswer; SRecv]) in in_sync (s_px s) (s_gw s).
Proof.
  intros Hmx Hgood (a & Ha) s. destruct (runs_ginv prefix mx es es) as (L & Hg & Hf); [done|done|].
  unfold s. rewrite runs_app. set (s0 := runs (sinit prefix mx) es) in *.
  change (runs s0 [SFetchFail; SAnswer; SRecv]) with (step (step (step s0 SFetchFail) SAnswer) SRecv).
  assert (E1 : step s0 SFetchFail = with_phase s0 (Fetching None)) by (unfold step, ProxyLog_Model.step; rewrite Ha; done).
  rewrite E1. cbn.
  eapply (ginv_sync prefix mx L); [exact Hg| |]; simpl.
  - rewrite (gi_next _ _ _ _ Hg). lia.
  - eapply answer_agree; [exact Hg|]. eapply from_ok; eauto.
Qed.
End px.

(** ** statements used in P_ProxyLog *)
Lemma gap_free prefix mx h1 n w h2 g : 0 <= mx ->
  exec gstep (ginit prefix mx 0) (h1 ++ (GWatch n, OStarted w) :: h2) g ->
  0 <= n <= Z.of_nat (length (changes prefix (map fst h1))) ->
  let all := numbered (changes prefix (map fst (h1 ++ (GWatch n, OStarted w) :: h2))) in
  received w h2 `prefix_of` drop (Z.to_nat n) all /\
  (GDrop w ∉ map fst h2 -> snd (gstep g (GWrite w)) = ONone -> received w h2 = drop (Z.to_nat n) all).
Proof.
  intros Hmx Hx Hn all. destruct (watch_run _ _ _ _ _ _ _ _ Hmx Hx Hn) as (_ & Hst & Hd). fold all in Hst. unfold wstate in Hst.
  split.
  - destruct (g_watch g !! w); [exists (concat l); done|done].
  - intros Hnd Hw. simpl in Hw. destruct (g_watch g !! w) as [[|evs q]|] eqn:E; simpl in *.
    + rewrite app_nil_r in Hst. done.
    + done.
    + exfalso. auto.
Qed.
Lemma gone_means_old prefix mx h g n : 0 <= mx -> exec gstep (ginit prefix mx 0) h g ->
  0 <= n <= Z.of_nat (length (changes prefix (map fst h))) -> snd (gstep g (GWatch n)) = OGone ->
  mx - mx / 2 + 1 < Z.of_nat (length (changes prefix (map fst h))) - n.
Proof.
  intros Hmx Hx Hn Hg. pose proof (watch_gets _ _ _ _ _ (exec_ginv _ _ _ _ _ Hmx Hx) Hn) as Hw. simpl in Hg.
  destruct (events_after n g); [done|exact Hw].
Qed.
Lemma table_answer prefix mx h g rs id : 0 <= mx -> exec gstep (ginit prefix mx 0) h g -> snd (gstep g GTable) = OTable rs id ->
  let L := changes prefix (map fst h) in
  id = Z.of_nat (length L) /\ NoDup (map (fun r => (rt_kind r, rt_name r)) rs) /\
  forall k n t, Route k n t ∈ rs <-> tab L (k, n) = Some t.
Proof.
  intros Hmx Hx Hs L. pose proof (exec_ginv _ _ _ _ _ Hmx Hx) as HI. fold L in HI. simpl in Hs. injection Hs as <- <-.
  split; [rewrite (gi_next _ _ _ _ HI); lia|]. split.
  - rewrite map_map. replace (map _ (g_routes g)) with (map fst (g_routes g)); [apply (gi_keys _ _ _ _ HI)|].
    apply map_ext. intros [[] ?]; done.
  - intros k n t. rewrite <- (gi_tab _ _ _ _ HI). split.
    + intros ([[k0 n0] t0] & [= -> -> ->] & Hin)%elem_of_list_fmap. apply in_dget; [apply (gi_keys _ _ _ _ HI)|done].
    + intros Hd%dget_in. apply elem_of_list_fmap. exists ((k, n), t). done.
Qed.
Lemma log_bounded prefix mx h g : 2 <= mx -> exec gstep (ginit prefix mx 0) h g -> Z.of_nat (length (g_events g)) <= mx.
Proof. intros Hmx Hx. assert (0 <= mx) as H0 by lia. apply (gi_bound _ _ _ _ (exec_ginv _ _ _ _ _ H0 Hx)). lia. Qed.
Lemma log_unbounded prefix mx h g : 0 <= mx < 2 -> exec gstep (ginit prefix mx 0) h g ->
  length (g_events g) = length (changes prefix (map fst h)).
Proof.
  intros Hmx Hx. assert (0 <= mx) as H0 by lia. destruct (gi_off _ _ _ _ (exec_ginv _ _ _ _ _ H0 Hx)) as (o & _ & _ & -> & _ & Hs).
  rewrite Hs by lia. rewrite drop_0, numbered_length. done.
Qed.

(** A computable check of [good_history], for examples. *)
Definition usable_b (parse : bytes -> option goURL) (k : kind) (t : bytes) : bool :=
  bool_decide (t <> []) &&
  match k with
  | SNI => true
  | PATH => match parse t with Some u => bool_decide (u_scheme u = b_ "http" \/ u_scheme u = b_ "https") | None => false end
  end.
Lemma usable_check parse k t : usable_b parse k t = true <-> usable parse k t.
Proof.
  unfold usable_b, usable, leads_to. rewrite andb_true_iff, bool_decide_eq_true. destruct k; [tauto|].
  destruct (parse t) as [u|].
  - rewrite bool_decide_eq_true. split; [intros [H1 H2]; exists u; done|intros (u' & H1 & [= <-] & H2); done].
  - split; [intros [_ ?]; done|intros (u' & _ & ? & _); done].
Qed.
Definition add_ok (parse : bytes -> option goURL) (prefix : bytes) (e1 e2 : event) : bool :=
  match e1, e2 with
  | SAdd k1 n1 t1, SAdd k2 n2 t2 =>
      bool_decide (reg prefix k1 n1 <> []) &&
      (if decide (k1 = k2 /\ n1 = n2) then implb (usable_b parse k1 t1) (usable_b parse k1 t2) else true) &&
      (if decide (k1 = PATH /\ k2 = PATH) then bool_decide (route_of (prefix ++ n1) = route_of (prefix ++ n2) -> n1 = n2) else true)
  | _, _ => true
  end.
Definition good_b (parse : bytes -> option goURL) (prefix : bytes) (es : list event) : bool :=
  forallb (fun e1 => forallb (add_ok parse prefix e1) es) es.
Lemma good_check parse prefix es : good_b parse prefix es = true -> good_history parse prefix es.
Proof.
  unfold good_b. rewrite forallb_forall. intros H0.
  assert (H : forall k1 n1 t1 k2 n2 t2, SAdd k1 n1 t1 ∈ es -> SAdd k2 n2 t2 ∈ es -> add_ok parse prefix (SAdd k1 n1 t1) (SAdd k2 n2 t2) = true).
  { intros ? ? ? ? ? ? He1%elem_of_list_In He2%elem_of_list_In. specialize (H0 _ He1). rewrite forallb_forall in H0. exact (H0 _ He2). }
  clear H0. unfold add_ok in H. split; [|split].
  - intros k n t He. specialize (H _ _ _ _ _ _ He He). rewrite !andb_true_iff, bool_decide_eq_true in H. tauto.
  - intros k n t1 t2 H1 H2. specialize (H _ _ _ _ _ _ H1 H2). rewrite !andb_true_iff in H. destruct H as [[_ H] _].
    rewrite decide_True in H by done. rewrite <- !usable_check. intros Hu. rewrite Hu in H. exact H.
  - intros n1 t1 n2 t2 H1 H2. specialize (H _ _ _ _ _ _ H1 H2). rewrite !andb_true_iff in H. destruct H as [_ H].
    rewrite decide_True in H by done. apply bool_decide_eq_true in H. exact H.
Qed.
