(** Proofs for C125-C129. *)
From Coq Require Import Lia.
From stdpp Require Import prelude gmap.
From Verif Require Import Trace View_Model View_Spec View_Proofs KApi_Model KApi_Spec.

Definition ver (s : kapi) (k : key) (j : nat) (x : sobj) : Prop := exists vs, a_srv s !! k = Some vs /\ vs !! j = Some x.
Definition pos (s : kapi) (k : key) : nat := default 0 (a_pos s !! k).
Definition len (s : kapi) (k : key) : nat := length (default [] (a_srv s !! k)).
Definition is_gone (s : kapi) (k : key) : nat := if decide (k ∈ a_gone s) then 1 else 0.
Definition cached (s : kapi) (k : key) : option obj := if decide (pos s k = 0) then None else so_obj <$> (default [] (a_srv s !! k) !! (pos s k - 1)).

Lemma ver_lt s k j x : ver s k j x -> j < len s k.
Proof. intros (vs & H1 & H2). unfold len. rewrite H1. cbn. by eapply lookup_lt_Some. Qed.
Lemma ver_default s k j x : default [] (a_srv s !! k) !! j = Some x -> ver s k j x.
Proof. destruct (a_srv s !! k) as [vs|] eqn:E; cbn; [|done]. intros H. by exists vs. Qed.
Lemma ver_default_iff s k j x : ver s k j x <-> default [] (a_srv s !! k) !! j = Some x.
Proof. split; [|apply ver_default]. intros (vs & -> & H). done. Qed.
Lemma newest_ver s k x : newest s k = Some x -> k ∉ a_gone s /\ ver s k (len s k - 1) x /\ 0 < len s k.
Proof.
  unfold newest, ver, len. destruct (decide (k ∈ a_gone s)) as [|Hg]; [done|]. destruct (a_srv s !! k) as [vs|]; [|done]. cbn. intros H.
  rewrite last_lookup in H. split; [done|]. split; [exists vs; split; [done|]; replace (length vs - 1) with (pred (length vs)) by lia; done|].
  apply lookup_lt_Some in H. lia.
Qed.

(** * The API server *)
Definition later (x y : sobj) : Prop := username (so_obj x) = username (so_obj y) /\ no_earlier (ophase (so_obj x)) (ophase (so_obj y)) /\
  (so_active x = false -> so_active y = false).
Lemma later_refl x : later x x.
Proof. unfold later, no_earlier. destruct (ophase (so_obj x)); done. Qed.
Lemma later_trans x y z : later x y -> later y z -> later x z.
Proof.
  intros (A1 & A2 & A3) (B1 & B2 & B3). split; [congruence|]. split; [|auto]. unfold no_earlier in *.
  destruct (ophase (so_obj x)), (ophase (so_obj y)); try done; try (rewrite A2 in *; done); destruct (ophase (so_obj z)); done.
Qed.
Lemma follows_later x o : follows (so_obj x) o = true -> later x (SObj o (so_active x)).
Proof.
  unfold follows. intros [H1 H2]%andb_prop. apply bool_decide_eq_true in H1. split; [done|]. split; [|done]. cbn [so_obj]. unfold no_earlier.
  destruct (ophase (so_obj x)), (ophase o); try done; cbn in H2; try done.
Qed.
Definition SInv (s : kapi) : Prop := forall k i j x y, i <= j -> ver s k i x -> ver s k j y -> later x y.

Lemma ver_write s k x k' j y : ver (write k x s) k' j y <-> ver s k' j y \/ (k' = k /\ j = len s k /\ y = x).
Proof.
  unfold ver, write, set_srv, len. cbn [a_srv]. destruct (decide (k' = k)) as [->|Hne].
  - rewrite lookup_insert. split.
    + intros (vs & [= <-] & H). apply lookup_app_Some in H as [H|[H1 H2]].
      * left. destruct (a_srv s !! k) as [vs|]; cbn in *; [|done]. exists vs. done.
      * right. destruct (j - length (default [] (a_srv s !! k))) as [|m] eqn:E; [|done]. injection H2 as ->. split; [done|]. split; [lia|done].
    + intros [(vs & Hk & H)|(_ & -> & ->)]; (eexists; split; [done|]).
      * rewrite Hk. cbn. by apply lookup_app_l_Some.
      * apply list_lookup_middle. done.
  - rewrite lookup_insert_ne by done. split; [auto|]. intros [H|[? _]]; done.
Qed.
Lemma sinv_write s k x : SInv s -> (match newest s k with Some y => later y x | None => a_srv s !! k = None end) -> SInv (write k x s).
Proof.
  intros HS Hn k' i j y z Hij Hy Hz. apply ver_write in Hy as [Hy|(-> & -> & ->)], Hz as [Hz|(E & -> & ->)].
  - eapply HS; eauto.
  - subst k'. destruct (newest s k) as [w|] eqn:En.
    + apply newest_ver in En as (_ & Hw & H0). apply (later_trans _ w); [|done]. apply (HS k i (len s k - 1)); [|done..]. apply ver_lt in Hy. lia.
    + destruct Hy as (vs & Hv & _). congruence.
  - apply ver_lt in Hz. lia.
  - apply later_refl.
Qed.

(** * One step of the loop *)
Inductive turned (s : kapi) : kapi -> Prop :=
| TNone V : cache V = cache (a_view s) -> clusters V = clusters (a_view s) -> (proc V = proc (a_view s) \/ proc V = None) ->
    (forall k, k ∈ dirty V -> k ∈ dirty (a_view s) \/ exists v, proc (a_view s) = Some (k, v)) -> turned s (set_view V s)
| TBuild V k o : cache V = cache (a_view s) -> clusters V = clusters (a_view s) -> proc (a_view s) = None -> k ∈ dirty (a_view s) -> cache V !! k = Some o ->
    proc V = Some (k, build o) -> (forall k, k ∈ dirty V -> k ∈ dirty (a_view s)) -> turned s (set_view V s)
| TStore V k v c : cache V = cache (a_view s) -> clusters V = <[k := with_cred v c]> (clusters (a_view s)) -> proc V = None ->
    ((exists o, k ∈ dirty (a_view s) /\ proc (a_view s) = None /\ cache V !! k = Some o /\ v = build o) \/ proc (a_view s) = Some (k, v)) ->
    (forall k, k ∈ dirty V -> k ∈ dirty (a_view s)) -> turned s (synced k (Some (v_status v)) (set_view V s))
| TForget V k : cache V = cache (a_view s) -> clusters V = delete k (clusters (a_view s)) -> proc V = None -> proc (a_view s) = None -> k ∈ dirty (a_view s) ->
    cache V !! k = None -> (forall k, k ∈ dirty V -> k ∈ dirty (a_view s)) -> turned s (synced k None (set_view V s)).
Lemma set_view_same s : set_view (a_view s) s = s. Proof. destruct s. done. Qed.
Lemma state_eta s : State (cache s) (dirty s) (proc s) (clusters s) (index s) = s. Proof. destruct s. done. Qed.
Lemma loop_get k s : turned s (loop (EGet k) s).
Proof.
  unfold loop, finished. cbn [step fst]. destruct (proc (a_view s)) as [p|] eqn:Hp.
  { rewrite set_view_same. rewrite <- (set_view_same s) at 2. apply TNone; auto. }
  destruct (decide (k ∈ dirty (a_view s))) as [Hk|Hk].
  2:{ rewrite set_view_same. rewrite <- (set_view_same s) at 2. apply TNone; auto. }
  unfold sync. cbn [cache]. destruct (cache (a_view s) !! k) as [o|] eqn:Ho.
  - cbn [clusters]. set (V0 := State (cache (a_view s)) (dirty (a_view s) ∖ {[k]}) None (clusters (a_view s)) (index (a_view s))).
    assert (forall c, turned s (synced k (Some (ophase o)) (set_view (store k (with_cred (build o) c) V0) s))) as Hst.
    { intros c. apply (TStore s (store k (with_cred (build o) c) V0) k (build o) c); try done.
      - left. exists o. done.
      - intros k'. cbn. set_solver. }
    destruct (clusters (a_view s) !! k) as [[u st ad [c|] sp]|] eqn:Ec; [cbn [proc store]; apply Hst|..];
      (destruct ((phase_num (ophase o) <=? phase_num RUNNING) && ocred o); cbn [proc store];
        [apply (TBuild s _ k o); try done; intros k'; cbn; set_solver|apply (Hst None)]).
  - unfold forget. cbn [clusters cache dirty proc index]. destruct (clusters (a_view s) !! k) as [v|] eqn:Ec.
    + apply TForget; try done. intros k'. cbn. set_solver.
    + apply TForget; try done; [cbn; rewrite delete_notin; done|]. intros k'. cbn. set_solver.
Qed.
Lemma loop_secret r s : turned s (loop (ESecret r) s).
Proof.
  unfold loop, finished. cbn [step fst]. destruct (proc (a_view s)) as [[k v]|] eqn:Hp.
  2:{ destruct r; rewrite set_view_same; rewrite <- (set_view_same s) at 2; apply TNone; auto. }
  destruct r as [c|].
  - apply (TStore s _ k v (Some c)); try done. auto.
  - apply TNone; try done; [auto|]. intros k'. cbn. rewrite elem_of_union, elem_of_singleton. intros [->|H]; eauto.
Qed.

(** [synced] touches flags and waiters only. *)
Lemma synced_frame k p s : a_srv (synced k p s) = a_srv s /\ a_gone (synced k p s) = a_gone s /\ a_pos (synced k p s) = a_pos s /\
  a_view (synced k p s) = a_view s /\ a_reqs (synced k p s) = a_reqs s.
Proof.
  unfold synced, waiter. destruct p as [p|]; [destruct (_ <=? _)|]; [destruct (a_waiters s !! k)|..|destruct (a_waiters s !! k)]; done.
Qed.
Lemma waiter_frame k s : a_srv (waiter k s).2 = a_srv s /\ a_gone (waiter k s).2 = a_gone s /\ a_pos (waiter k s).2 = a_pos s /\
  a_view (waiter k s).2 = a_view s /\ a_reqs (waiter k s).2 = a_reqs s.
Proof. unfold waiter. destruct (a_waiters s !! k); done. Qed.
Lemma turned_frame s s' : turned s s' -> a_srv s' = a_srv s /\ a_gone s' = a_gone s /\ a_pos s' = a_pos s /\ a_reqs s' = a_reqs s /\ cache (a_view s') = cache (a_view s).
Proof.
  intros [V H1 H2 H3 H4|V k o H1 H2 H3 H4 H5 H6 H7|V k v c H1 H2 H3 H4 H5|V k H1 H2 H3 H4 H5 H6 H7]; [done..| |];
    match goal with |- context [synced ?k ?p ?t] => destruct (synced_frame k p t) as (-> & -> & -> & -> & ->) end; done.
Qed.

(** * What the gateway knows *)
Definition bounded (s : kapi) (k : key) (j : nat) : Prop := j < pos s k /\
  forall v, proc (a_view s) = Some (k, v) -> exists j' x, j <= j' < pos s k /\ ver s k j' x /\ v = build (so_obj x).
Record KInv (s : kapi) : Prop := {
  ki_srv : SInv s;
  ki_pos : forall k, pos s k <= len s k + is_gone s k;
  ki_cache : forall k, cache (a_view s) !! k = cached s k;
  ki_dirty : forall k, k ∈ dirty (a_view s) -> 0 < pos s k;
  ki_proc : forall k v, proc (a_view s) = Some (k, v) -> exists j x, j < pos s k /\ ver s k j x /\ v = build (so_obj x);
  ki_view : forall k v, clusters (a_view s) !! k = Some v -> exists j x, ver s k j x /\ tells (so_obj x) v /\ bounded s k j }.
(** From now on the gateway tells nothing older than version [i] of [k]. *)
Definition since (i : nat) (k : key) (s : kapi) : Prop :=
  (forall v, clusters (a_view s) !! k = Some v -> exists j x, i <= j /\ ver s k j x /\ tells (so_obj x) v /\ bounded s k j) /\
  (clusters (a_view s) !! k = None -> k ∈ a_gone s /\ pos s k = S (len s k) /\ forall v, proc (a_view s) <> Some (k, v)).

Lemma tells_build o c : tells o (with_cred (build o) c).
Proof. unfold tells, with_cred, build. cbn. repeat split; try done. destruct (decide _) as [E|E]; destruct (ophase o); done. Qed.
Lemma cached_ver s k o : cached s k = Some o -> 0 < pos s k /\ exists x, ver s k (pos s k - 1) x /\ so_obj x = o.
Proof.
  unfold cached. destruct (decide (pos s k = 0)); [done|]. intros (x & H & ->)%fmap_Some. split; [lia|]. exists x. split; [|done]. by apply ver_default.
Qed.
Lemma cached_none s k : KInv s -> cached s k = None -> 0 < pos s k -> k ∈ a_gone s /\ pos s k = S (len s k).
Proof.
  intros HI Hc H0. unfold cached in Hc. destruct (decide (pos s k = 0)) as [|_]; [lia|]. apply fmap_None, lookup_ge_None in Hc.
  pose proof (ki_pos s HI k) as Hp. unfold is_gone in Hp. fold (len s k) in Hc. destruct (decide (k ∈ a_gone s)); [|lia]. split; [done|lia].
Qed.

(** Steps that leave [a_view] alone and only add to the rest. *)
Lemma kinv_frame s s' : KInv s -> a_view s' = a_view s -> SInv s' -> (forall k j x, ver s k j x -> ver s' k j x) ->
  (forall k, pos s' k = pos s k) -> (forall k, pos s' k <= len s' k + is_gone s' k) -> (forall k, cached s' k = cached s k) -> KInv s'.
Proof.
  intros HI Hv HS Hver Hp Hpl Hc. assert (forall k j, bounded s k j -> bounded s' k j) as Hb.
  { intros k j [H1 H2]. split; [rewrite Hp; done|]. intros v E. rewrite Hv in E. destruct (H2 v E) as (j' & x & A & B & C). exists j', x. rewrite Hp. auto. }
  constructor; [done|done|..].
  - intros k. rewrite Hv, Hc. apply HI.
  - intros k. rewrite Hv, Hp. apply HI.
  - intros k v E. rewrite Hv in E. destruct (ki_proc s HI k v E) as (j & x & A & B & C). exists j, x. rewrite Hp. auto.
  - intros k v E. rewrite Hv in E. destruct (ki_view s HI k v E) as (j & x & A & B & C). exists j, x. auto.
Qed.
Lemma since_frame i k s s' : since i k s -> a_view s' = a_view s -> (forall j x, ver s k j x -> ver s' k j x) ->
  pos s' k = pos s k -> (k ∈ a_gone s -> k ∈ a_gone s' /\ len s' k = len s k) -> since i k s'.
Proof.
  intros [H1 H2] Hv Hver Hp Hg. split; rewrite Hv.
  - intros v E. destruct (H1 v E) as (j & x & A & B & C & D & F). exists j, x. split; [done|]. split; [auto|]. split; [done|]. split; [rewrite Hp; done|].
    intros v' E'. rewrite Hv in E'. destruct (F v' E') as (j' & y & G). exists j', y. rewrite Hp. destruct G as (? & ? & ?). auto.
  - intros E. destruct (H2 E) as (A & B & C). destruct (Hg A) as [A' El]. split; [done|]. split; [rewrite Hp, El; done|done].
Qed.

(** Writing a version. *)
Lemma write_frame k x s : a_view (write k x s) = a_view s /\ a_gone (write k x s) = a_gone s /\ a_pos (write k x s) = a_pos s /\
  a_flags (write k x s) = a_flags s /\ a_waiters (write k x s) = a_waiters s /\ a_reqs (write k x s) = a_reqs s.
Proof. done. Qed.
Lemma len_write k x s k' : len (write k x s) k' = if decide (k' = k) then S (len s k) else len s k'.
Proof.
  unfold len, write, set_srv. cbn [a_srv]. destruct (decide (k' = k)) as [->|Hne]; [rewrite lookup_insert; cbn; rewrite app_length; cbn; lia|].
  rewrite lookup_insert_ne by done. done.
Qed.
Lemma cached_write k x s : KInv s -> k ∉ a_gone s -> forall k', cached (write k x s) k' = cached s k'.
Proof.
  intros HI Hg k'. unfold cached. change (pos (write k x s) k') with (pos s k'). destruct (decide (pos s k' = 0)); [done|].
  unfold write, set_srv. cbn [a_srv]. destruct (decide (k' = k)) as [->|Hne]; [|by rewrite lookup_insert_ne].
  rewrite lookup_insert. cbn [default]. f_equal. apply lookup_app_l. pose proof (ki_pos s HI k) as Hp. unfold is_gone in Hp. rewrite decide_False in Hp by done. unfold len in Hp. lia.
Qed.
Lemma kinv_write k x s : KInv s -> k ∉ a_gone s -> (match newest s k with Some y => later y x | None => a_srv s !! k = None end) -> KInv (write k x s).
Proof.
  intros HI Hg Hn. apply (kinv_frame s); try done.
  - apply sinv_write; [apply HI|done].
  - intros k' j y H. apply ver_write. auto.
  - intros k'. change (pos (write k x s) k') with (pos s k'). change (is_gone (write k x s) k') with (is_gone s k'). rewrite len_write.
    pose proof (ki_pos s HI k'). destruct (decide (k' = k)) as [->|]; lia.
  - by apply cached_write.
Qed.
Lemma since_write i k' k x s : since i k' s -> k ∉ a_gone s -> since i k' (write k x s).
Proof.
  intros HS Hg. apply (since_frame i k' s); try done.
  - intros j y H. apply ver_write. auto.
  - intros Hk. split; [done|]. rewrite len_write. rewrite decide_False; [done|]. intros ->. done.
Qed.

(** The watch moves on. *)
Lemma bounded_watch s s' k j : a_srv s' = a_srv s -> pos s k <= pos s' k -> proc (a_view s') = proc (a_view s) -> bounded s k j -> bounded s' k j.
Proof.
  intros Hs Hp Hpr [H1 H2]. split; [lia|]. intros v E. rewrite Hpr in E. destruct (H2 v E) as (j' & x & A & B & C).
  exists j', x. split; [lia|]. split; [|done]. unfold ver. rewrite Hs. done.
Qed.
Lemma ver_srv s s' k j x : a_srv s' = a_srv s -> ver s k j x -> ver s' k j x.
Proof. intros E. unfold ver. by rewrite E. Qed.
Lemma len_srv s s' k : a_srv s' = a_srv s -> len s' k = len s k.
Proof. intros E. unfold len. by rewrite E. Qed.
Lemma kinv_watch s s' : KInv s -> a_srv s' = a_srv s -> (forall k, pos s k <= pos s' k) -> (forall k, pos s' k <= len s' k + is_gone s' k) ->
  (forall k, cache (a_view s') !! k = cached s' k) -> (forall k, k ∈ dirty (a_view s') -> 0 < pos s' k) ->
  proc (a_view s') = proc (a_view s) -> clusters (a_view s') = clusters (a_view s) -> KInv s'.
Proof.
  intros HI Hs Hp Hl Hc Hd Hpr Hcl. constructor; try done.
  - intros k i j x y Hij Hx Hy. apply (ki_srv s HI k i j); [done|by apply (ver_srv s' s)..].
  - intros k v E. rewrite Hpr in E. destruct (ki_proc s HI k v E) as (j & x & A & B & C). exists j, x. split; [specialize (Hp k); lia|]. split; [by apply (ver_srv s)|done].
  - intros k v E. rewrite Hcl in E. destruct (ki_view s HI k v E) as (j & x & A & B & C). exists j, x. split; [by apply (ver_srv s)|]. split; [done|].
    by apply (bounded_watch s).
Qed.
Lemma since_watch i k s s' : since i k s -> a_srv s' = a_srv s -> a_gone s' = a_gone s -> pos s k <= pos s' k -> pos s' k <= len s' k + is_gone s' k ->
  proc (a_view s') = proc (a_view s) -> clusters (a_view s') = clusters (a_view s) -> since i k s'.
Proof.
  intros [H1 H2] Hs Hg Hp Hl Hpr Hcl. split; rewrite Hcl.
  - intros v E. destruct (H1 v E) as (j & x & A & B & C & D). exists j, x. split; [done|]. split; [by apply (ver_srv s)|]. split; [done|]. by apply (bounded_watch s).
  - intros E. destruct (H2 E) as (A & B & C). split; [by rewrite Hg|]. rewrite Hpr. split; [|done]. rewrite (len_srv s s' k Hs) in *.
    unfold is_gone in Hl. rewrite Hg, decide_True in Hl by done. lia.
Qed.

(** The loop. *)
Lemma turned_bounded s s' k j : KInv s -> turned s s' -> bounded s k j -> bounded s' k j.
Proof.
  intros HI HT [H1 H2]. destruct (turned_frame s s' HT) as (E1 & E2 & E3 & E4 & E5).
  assert (pos s' k = pos s k) as Ep by (unfold pos; by rewrite E3). split; [by rewrite Ep|]. intros v E. rewrite Ep.
  assert (forall y, ver s k y = ver s' k y) as Ev by (intros; unfold ver; by rewrite E1).
  destruct HT as [V A1 A2 A3 A4|V k1 o A1 A2 A3 A4 A5 A6 A7|V k1 v1 c A1 A2 A3 A4 A5|V k1 A1 A2 A3 A4 A5 A6 A7].
  - cbn [a_view set_view] in E. destruct A3 as [A3|A3]; rewrite A3 in E; [|done]. rewrite <- ?Ev. destruct (H2 v E) as (j' & x & B). exists j', x. rewrite <- Ev. done.
  - cbn [a_view set_view] in E. rewrite A6 in E. injection E as -> <-. rewrite A1, (ki_cache s HI) in A5. apply cached_ver in A5 as (B & x & C & <-).
    exists (pos s k - 1), x. split; [lia|]. done.
  - destruct (synced_frame k1 (Some (v_status v1)) (set_view V s)) as (_ & _ & _ & Q & _). rewrite Q in E. cbn [a_view set_view] in E. congruence.
  - destruct (synced_frame k1 None (set_view V s)) as (_ & _ & _ & Q & _). rewrite Q in E. cbn [a_view set_view] in E. congruence.
Qed.
(** What is stored in a step of the loop. *)
Lemma turned_stored s s' k v : KInv s -> turned s s' -> clusters (a_view s') !! k = Some v ->
  clusters (a_view s) !! k = Some v \/
  (exists j x, j < pos s k /\ ver s k j x /\ tells (so_obj x) v) /\ proc (a_view s') = None /\
  (forall i, bounded s k i -> exists j x, i <= j < pos s k /\ ver s k j x /\ tells (so_obj x) v) /\ (pos s k = S (len s k) -> exists v', proc (a_view s) = Some (k, v')).
Proof.
  intros HI HT E. destruct HT as [V A1 A2 A3 A4|V k1 o A1 A2 A3 A4 A5 A6 A7|V k1 v1 c A1 A2 A3 A4 A5|V k1 A1 A2 A3 A4 A5 A6 A7].
  - cbn [a_view set_view] in E. rewrite A2 in E. auto.
  - cbn [a_view set_view] in E. rewrite A2 in E. auto.
  - destruct (synced_frame k1 (Some (v_status v1)) (set_view V s)) as (_ & _ & _ & Q & _). rewrite Q in E |- *. cbn [a_view set_view] in E |- *. rewrite A2 in E.
    destruct (decide (k1 = k)) as [->|Hne]; [|rewrite lookup_insert_ne in E by done; auto]. rewrite lookup_insert in E. injection E as <-. right.
    destruct A4 as [(o & B1 & B2 & B3 & ->)|B].
    + rewrite A1, (ki_cache s HI) in B3. apply cached_ver in B3 as (B & x & C & <-).
      split; [exists (pos s k - 1), x; split; [lia|]; split; [done|]; apply tells_build|]. split; [done|].
      split; [intros i [D _]; exists (pos s k - 1), x; split; [lia|]; split; [done|]; apply tells_build|].
      intros D. apply ver_lt in C. lia.
    + destruct (ki_proc s HI k v1 B) as (j & x & C1 & C2 & ->). split; [exists j, x; split; [done|]; split; [done|]; apply tells_build|]. split; [done|].
      split; [|intros _; eauto]. intros i [D1 D2]. destruct (D2 _ B) as (j' & x' & F1 & F2 & ->). exists j', x'. split; [done|]. split; [done|]. apply tells_build.
  - destruct (synced_frame k1 None (set_view V s)) as (_ & _ & _ & Q & _). rewrite Q in E. cbn [a_view set_view] in E. rewrite A2 in E.
    apply lookup_delete_Some in E as [_ E]. auto.
Qed.
Lemma turned_kept s s' k : KInv s -> turned s s' -> clusters (a_view s') !! k = None -> clusters (a_view s) !! k = None \/
  (k ∈ a_gone s /\ pos s k = S (len s k) /\ proc (a_view s') = None).
Proof.
  intros HI HT E. destruct HT as [V A1 A2 A3 A4|V k1 o A1 A2 A3 A4 A5 A6 A7|V k1 v1 c A1 A2 A3 A4 A5|V k1 A1 A2 A3 A4 A5 A6 A7].
  - cbn [a_view set_view] in E. rewrite A2 in E. auto.
  - cbn [a_view set_view] in E. rewrite A2 in E. auto.
  - destruct (synced_frame k1 (Some (v_status v1)) (set_view V s)) as (_ & _ & _ & Q & _). rewrite Q in E. cbn [a_view set_view] in E. rewrite A2 in E.
    destruct (decide (k1 = k)) as [->|Hne]; [rewrite lookup_insert in E; done|rewrite lookup_insert_ne in E by done; auto].
  - destruct (synced_frame k1 None (set_view V s)) as (_ & _ & _ & Q & _). rewrite Q in E |- *. cbn [a_view set_view] in E |- *. rewrite A2 in E.
    destruct (decide (k1 = k)) as [->|Hne]; [|rewrite lookup_delete_ne in E by done; auto]. right.
    rewrite A1, (ki_cache s HI) in A6. pose proof (ki_dirty s HI k A5) as A0. destruct (cached_none s k HI A6 A0) as [B1 B2]. done.
Qed.
Lemma turned_proc s s' k v : KInv s -> turned s s' -> proc (a_view s') = Some (k, v) -> proc (a_view s) = Some (k, v) \/
  (exists x, 0 < pos s k /\ ver s k (pos s k - 1) x /\ v = build (so_obj x)).
Proof.
  intros HI HT E. destruct HT as [V A1 A2 A3 A4|V k1 o A1 A2 A3 A4 A5 A6 A7|V k1 v1 c A1 A2 A3 A4 A5|V k1 A1 A2 A3 A4 A5 A6 A7].
  - cbn [a_view set_view] in E. destruct A3 as [A3|A3]; rewrite A3 in E; [auto|done].
  - cbn [a_view set_view] in E. rewrite A6 in E. injection E as -> <-. right. rewrite A1, (ki_cache s HI) in A5. apply cached_ver in A5 as (B & x & C & <-). eauto.
  - destruct (synced_frame k1 (Some (v_status v1)) (set_view V s)) as (_ & _ & _ & Q & _). rewrite Q in E. cbn [a_view set_view] in E. congruence.
  - destruct (synced_frame k1 None (set_view V s)) as (_ & _ & _ & Q & _). rewrite Q in E. cbn [a_view set_view] in E. congruence.
Qed.
Lemma turned_dirty s s' k : turned s s' -> k ∈ dirty (a_view s') -> k ∈ dirty (a_view s) \/ exists v, proc (a_view s) = Some (k, v).
Proof.
  intros HT E. destruct HT as [V A1 A2 A3 A4|V k1 o A1 A2 A3 A4 A5 A6 A7|V k1 v1 c A1 A2 A3 A4 A5|V k1 A1 A2 A3 A4 A5 A6 A7].
  - apply A4. done.
  - left. by apply A7.
  - destruct (synced_frame k1 (Some (v_status v1)) (set_view V s)) as (_ & _ & _ & Q & _). rewrite Q in E. left. by apply A5.
  - destruct (synced_frame k1 None (set_view V s)) as (_ & _ & _ & Q & _). rewrite Q in E. left. by apply A7.
Qed.
Lemma kinv_turned s s' : KInv s -> turned s s' -> KInv s'.
Proof.
  intros HI HT. destruct (turned_frame s s' HT) as (E1 & E2 & E3 & E4 & E5).
  assert (forall k, pos s' k = pos s k) as Ep by (intros k; unfold pos; by rewrite E3).
  assert (forall k j x, ver s k j x -> ver s' k j x) as Ev by (intros k j x; by apply ver_srv).
  constructor.
  - intros k i j x y Hij Hx Hy. apply (ki_srv s HI k i j); [done|by apply (ver_srv s' s)..].
  - intros k. rewrite Ep, (len_srv s s' k E1). unfold is_gone. rewrite E2. apply HI.
  - intros k. rewrite E5, (ki_cache s HI). unfold cached. rewrite Ep, E1. done.
  - intros k H. rewrite Ep. apply (turned_dirty s s' k HT) in H as [H|[v H]]; [by apply HI|]. destruct (ki_proc s HI k v H) as (j & x & A & _). lia.
  - intros k v H. rewrite Ep. apply (turned_proc s s' k v HI HT) in H as [H|(x & A & B & C)].
    + destruct (ki_proc s HI k v H) as (j & x & A & B & C). exists j, x. auto.
    + exists (pos s k - 1), x. split; [lia|]. auto.
  - intros k v H. apply (turned_stored s s' k v HI HT) in H as [H|((j & x & A & B & C) & D & _)].
    + destruct (ki_view s HI k v H) as (j & x & A & B & C). exists j, x. split; [auto|]. split; [done|]. by apply (turned_bounded s).
    + exists j, x. split; [auto|]. split; [done|]. split; [by rewrite Ep|]. intros v'. rewrite D. done.
Qed.
Lemma since_turned i k s s' : KInv s -> turned s s' -> since i k s -> since i k s'.
Proof.
  intros HI HT [H1 H2]. destruct (turned_frame s s' HT) as (E1 & E2 & E3 & E4 & E5).
  assert (pos s' k = pos s k) as Ep by (unfold pos; by rewrite E3).
  assert (forall j x, ver s k j x -> ver s' k j x) as Ev by (intros j x; by apply ver_srv). split.
  - intros v H. destruct (turned_stored s s' k v HI HT H) as [Hc|(_ & D & F & G)].
    + destruct (H1 v Hc) as (j & x & A & B & C & D). exists j, x. split; [done|]. split; [auto|]. split; [done|]. by apply (turned_bounded s).
    + destruct (clusters (a_view s) !! k) as [v0|] eqn:Hc.
      * destruct (H1 v0 eq_refl) as (j & x & A & _ & _ & B). destruct (F j B) as (j' & x' & B1 & B2 & B3). exists j', x'.
        split; [lia|]. split; [auto|]. split; [done|]. split; [rewrite Ep; lia|]. intros v'. rewrite D. done.
      * destruct (H2 eq_refl) as (_ & A & B). destruct (G A) as [v' C]. destruct (B v' C).
  - intros H. rewrite Ep, E2, (len_srv s s' k E1). destruct (turned_kept s s' k HI HT H) as [Hc|(A & B & C)].
    + destruct (H2 Hc) as (A & B & C). split; [done|]. split; [done|]. intros v E. destruct (turned_proc s s' k v HI HT E) as [E'|(x & F1 & F2 & _)]; [by apply (C v)|].
      apply ver_lt in F2. lia.
    + split; [done|]. split; [done|]. intros v. rewrite C. done.
Qed.

(** * Every step *)
Record CInv (s : kapi) : Prop := {
  ci_gone : forall k, k ∈ a_gone s -> is_Some (a_srv s !! k);
  ci_full : forall k vs, a_srv s !! k = Some vs -> vs <> [];
  ci_new : forall i u k, a_reqs s !! i = Some (RCreate u k) -> a_srv s !! k = None;
  ci_once : forall i i' u u' k, a_reqs s !! i = Some (RCreate u k) -> a_reqs s !! i' = Some (RCreate u' k) -> i = i' }.
Lemma newest_none s k : CInv s -> newest s k = None -> a_srv s !! k = None \/ k ∈ a_gone s.
Proof.
  intros HC. unfold newest. destruct (decide (k ∈ a_gone s)); [auto|]. destruct (a_srv s !! k) as [vs|] eqn:E; [|auto]. cbn. intros Hl.
  apply last_None in Hl. by apply (ci_full s HC) in E.
Qed.
Lemma cinv_frame s s' : CInv s -> a_gone s' = a_gone s -> a_srv s' = a_srv s ->
  (forall i u k, a_reqs s' !! i = Some (RCreate u k) -> a_reqs s !! i = Some (RCreate u k)) -> CInv s'.
Proof.
  intros HC E1 E2 H. constructor; rewrite ?E1, ?E2; try apply HC.
  - intros i u k Hi. apply (ci_new s HC i u). auto.
  - intros i i' u u' k Hi Hi'. apply (ci_once s HC i i' u u' k); auto.
Qed.
Lemma begins_at (r r' : request) s i : a_reqs (begins r s) !! i = Some r' -> a_reqs s !! i = Some r' \/ (i = length (a_reqs s) /\ r' = r).
Proof.
  unfold begins, set_reqs. cbn [a_reqs]. intros [H|[H1 H2]]%lookup_app_Some; [auto|]. right.
  destruct (i - length (a_reqs s)) as [|m] eqn:E; [|done]. injection H2 as ->. split; [lia|done].
Qed.
Lemma ends_at i s j r : a_reqs (ends i s) !! j = Some r -> r <> ROver -> j <> i /\ a_reqs s !! j = Some r.
Proof.
  unfold ends, set_reqs. cbn [a_reqs]. intros H Hr. apply list_lookup_insert_Some in H as [(-> & <- & _)|[H1 H2]]; [done|]. auto.
Qed.
Lemma cinv_write k x s l : CInv s -> (k ∉ a_gone s) ->
  (forall j u' k', l !! j = Some (RCreate u' k') -> a_reqs s !! j = Some (RCreate u' k') /\ k' <> k) -> CInv (set_reqs l (write k x s)).
Proof.
  intros HC Hg Hl. constructor; unfold set_reqs, write, set_srv; cbn [a_gone a_srv a_reqs].
  - intros k' H. rewrite lookup_insert_is_Some'. right. by apply (ci_gone s HC).
  - intros k' vs. destruct (decide (k' = k)) as [->|Hne]; [rewrite lookup_insert; intros [= <-]; by destruct (default [] (a_srv s !! k))|].
    rewrite lookup_insert_ne by done. apply HC.
  - intros i u k' H. destruct (Hl i u k' H) as [H1 H2]. rewrite lookup_insert_ne by done. by apply (ci_new s HC i u).
  - intros i i' u u' k' H H'. destruct (Hl i u k' H) as [H1 _]. destruct (Hl i' u' k' H') as [H1' _]. by apply (ci_once s HC i i' u u' k').
Qed.
Lemma kinv_reqs l s : KInv s -> KInv (set_reqs l s).
Proof. intros HI. apply (kinv_frame s); try done; apply HI. Qed.
Lemma since_reqs i k l s : since i k s -> since i k (set_reqs l s).
Proof. intros H. by apply (since_frame i k s). Qed.
Lemma kinv_flags f w s : KInv s -> KInv (set_flags f w s).
Proof. intros HI. apply (kinv_frame s); try done; apply HI. Qed.
Lemma since_flags i k f w s : since i k s -> since i k (set_flags f w s).
Proof. intros H. by apply (since_frame i k s). Qed.
Lemma waiter_case k s : exists g w, (waiter k s).2 = set_flags g w s.
Proof. unfold waiter. destruct (a_waiters s !! k); cbn; [|eauto]. exists (a_flags s), (a_waiters s). by destruct s. Qed.

(** The watch. *)
Lemma pos_insert k p s : forall k', pos (KA (a_srv s) (a_gone s) (<[k := p]> (a_pos s)) (a_view s) (a_flags s) (a_waiters s) (a_reqs s)) k' = if decide (k' = k) then p else pos s k'.
Proof. intros k'. unfold pos. cbn [a_pos]. destruct (decide (k' = k)) as [->|Hne]; [by rewrite lookup_insert|by rewrite lookup_insert_ne]. Qed.
Lemma watch_case k n s s' o : kstep s (KWatch k n) = (s', o) -> s' = s \/
  exists p V, pos s k < p <= len s k + is_gone s k /\ s' = set_view V (KA (a_srv s) (a_gone s) (<[k := p]> (a_pos s)) (a_view s) (a_flags s) (a_waiters s) (a_reqs s)) /\
  proc V = proc (a_view s) /\ clusters V = clusters (a_view s) /\
  ((exists x, ver s k (p - 1) x /\ V = (step (a_view s) (EPut k (so_obj x))).1) \/
   (p = S (len s k) /\ V = (step (a_view s) (EGone k)).1) \/ (p = S (len s k) /\ pos s k = 0 /\ V = a_view s)).
Proof.
  cbn [kstep]. cbv zeta. fold (pos s k) (len s k) (is_gone s k). set (p := Nat.min _ _). destruct (decide (pos s k < p)) as [Hp|Hp]; [|intros [= <- <-]; auto].
  assert (pos s k < p <= len s k + is_gone s k) as Hb by lia.
  destruct (default [] (a_srv s !! k) !! (p - 1)) as [x|] eqn:Ex.
  - intros [= <- <-]. right. exists p, (step (a_view s) (EPut k (so_obj x))).1. split; [done|]. split; [done|]. split; [done|]. split; [done|]. left. exists x. split; [by apply ver_default|done].
  - apply lookup_ge_None in Ex. fold (len s k) in Ex. assert (p = S (len s k)) as Ep.
    { unfold is_gone in Hb. destruct (decide (k ∈ a_gone s)); lia. }
    destruct (decide (pos s k = 0)) as [H0|H0]; intros [= <- <-]; right.
    + exists p, (a_view s). split; [done|]. split; [done|]. split; [done|]. split; [done|]. auto.
    + exists p, (step (a_view s) (EGone k)).1. split; [done|]. split; [done|]. split; [done|]. split; [done|]. auto.
Qed.
Lemma watch_keeps k n s s' o : KInv s -> kstep s (KWatch k n) = (s', o) -> KInv s' /\ (forall i k', since i k' s -> since i k' s').
Proof.
  intros HI Hs. apply watch_case in Hs as [->|(p & V & Hp & -> & Hpr & Hcl & HV)]; [auto|]. set (s1 := KA _ _ _ _ _ _ _).
  assert (forall k', pos (set_view V s1) k' = if decide (k' = k) then p else pos s k') as Epos by (intros k'; apply pos_insert).
  assert (forall k', pos s k' <= pos (set_view V s1) k') as Hle by (intros k'; rewrite Epos; destruct (decide (k' = k)) as [->|]; lia).
  assert (forall k', pos (set_view V s1) k' <= len (set_view V s1) k' + is_gone (set_view V s1) k') as Hub.
  { intros k'. change (len (set_view V s1) k') with (len s k'). change (is_gone (set_view V s1) k') with (is_gone s k'). rewrite Epos.
    destruct (decide (k' = k)) as [->|]; [lia|]. apply HI. }
  split.
  - apply (kinv_watch s); try done.
    + intros k'. unfold cached. rewrite Epos. change (a_srv (set_view V s1)) with (a_srv s). cbn [a_view set_view].
      destruct (decide (k' = k)) as [->|Hne].
      * rewrite decide_False by lia. destruct HV as [(x & Hx & ->)|[(-> & ->)|(-> & H0 & ->)]].
        -- cbn. rewrite lookup_insert. apply ver_default_iff in Hx. by rewrite Hx.
        -- cbn. rewrite lookup_delete. symmetry. apply fmap_None, lookup_ge_None. unfold len. lia.
        -- rewrite (ki_cache s HI). unfold cached. rewrite decide_True by done. symmetry. apply fmap_None, lookup_ge_None. unfold len. lia.
      * fold (cached s k'). rewrite <- (ki_cache s HI). destruct HV as [(x & Hx & ->)|[(-> & ->)|(-> & H0 & ->)]]; cbn; [by rewrite lookup_insert_ne|by rewrite lookup_delete_ne|done].
    + intros k'. cbn [a_view set_view]. rewrite Epos. intros Hd. assert (k' = k \/ k' ∈ dirty (a_view s)) as [->|Hd'].
      { destruct HV as [(x & Hx & ->)|[(-> & ->)|(-> & H0 & ->)]]; cbn in Hd; set_solver. }
      * rewrite decide_True by done. lia.
      * pose proof (ki_dirty s HI k' Hd'). destruct (decide (k' = k)) as [->|]; lia.
  - intros i k' Hsi. apply (since_watch i k' s); done.
Qed.

Lemma is_gone_write k x s k' : is_gone (write k x s) k' = is_gone s k'. Proof. done. Qed.
Lemma new_write i u k s : CInv s -> a_reqs s !! i = Some (RCreate u k) -> newest s k = None /\ k ∉ a_gone s /\ a_srv s !! k = None.
Proof.
  intros HC Hi. pose proof (ci_new s HC i u k Hi) as Hn. split; [unfold newest; rewrite Hn; by destruct (decide _)|]. split; [|done].
  intros Hg. destruct (ci_gone s HC k Hg). congruence.
Qed.
Lemma creates_spec k l : existsb (creates k) l = false -> forall i u, l !! i <> Some (RCreate u k).
Proof.
  intros H i u Hi. assert (existsb (creates k) l = true); [|congruence]. apply existsb_exists. exists (RCreate u k). split; [apply elem_of_list_In; by eapply elem_of_list_lookup_2|].
  cbn. by apply bool_decide_eq_true.
Qed.
(** A new process. *)
Lemma restart_pos s k : pos (restart s) k = match a_srv s !! k with Some vs => len s k + is_gone s k | None => 0 end.
Proof. unfold pos, restart, len, is_gone. cbn [a_pos]. rewrite map_lookup_imap. by destruct (a_srv s !! k). Qed.
Lemma restart_cache s k : cache (a_view (restart s)) !! k = so_obj <$> newest s k.
Proof. unfold restart, newest. cbn [a_view cache]. rewrite map_lookup_imap. destruct (a_srv s !! k) as [vs|]; cbn; [done|]. by destruct (decide _). Qed.
Lemma restart_kinv s : KInv s -> CInv s -> KInv (restart s).
Proof.
  intros HI HC. assert (forall k, cache (a_view (restart s)) !! k = cached (restart s) k) as Hc.
  { intros k. rewrite restart_cache. unfold cached. rewrite restart_pos. change (a_srv (restart s)) with (a_srv s). unfold newest, len, is_gone.
    destruct (a_srv s !! k) as [vs|] eqn:E; cbn [default mbind option_bind]; [|by destruct (decide (k ∈ a_gone s))].
    pose proof (ci_full s HC k vs E) as Hf. destruct vs as [|x vs]; [done|]. unfold id. destruct (decide (k ∈ a_gone s)).
    - rewrite decide_False by (cbn; lia). symmetry. apply fmap_None, lookup_ge_None. cbn. lia.
    - rewrite decide_False by (cbn; lia). f_equal. rewrite last_lookup. f_equal. cbn. lia. }
  constructor; try done.
  - apply HI.
  - intros k. change (len (restart s) k) with (len s k). change (is_gone (restart s) k) with (is_gone s k). rewrite restart_pos. destruct (a_srv s !! k); lia.
  - intros k Hk. change (dirty (a_view (restart s))) with (dom (cache (a_view (restart s)))) in Hk. apply elem_of_dom in Hk as [o Ho]. rewrite Hc in Ho. apply cached_ver in Ho. apply Ho.
Qed.
Lemma step_keeps s e s' o : KInv s -> CInv s -> kstep s e = (s', o) ->
  KInv s' /\ CInv s' /\ (e <> KRestart -> forall i k, since i k s -> since i k s').
Proof.
  intros HI HC Hs. destruct e as [u k|u k|u k|u k|i r|i late|k o'|k|k n|k|r|]; cbn [kstep] in Hs.
  - destruct (bool_decide (is_Some (a_srv s !! k))) eqn:B1; cbn [orb] in Hs; [injection Hs as <- <-; auto|].
    destruct (existsb (creates k) (a_reqs s)) eqn:B2; injection Hs as <- <-; [auto|].
    split; [by apply kinv_reqs|]. split; [|intros _ i k'; apply since_reqs]. apply bool_decide_eq_false in B1. pose proof (creates_spec k _ B2) as B3.
    constructor; cbn [a_gone a_srv begins set_reqs]; try apply HC.
    + intros i u' k' Hi. apply begins_at in Hi as [Hi|[_ [= -> ->]]]; [by apply (ci_new s HC i u')|]. destruct (a_srv s !! k); [|done]. destruct B1. eauto.
    + intros i i' u1 u2 k' Hi Hi'. apply begins_at in Hi as [Hi|[-> [= -> ->]]], Hi' as [Hi'|[-> E]]; try done.
      * by apply (ci_once s HC i i' u1 u2 k').
      * injection E as -> ->. by apply B3 in Hi.
      * by apply B3 in Hi'.
  - injection Hs as <- <-. split; [by apply kinv_reqs|]. split; [|intros _ i k'; apply since_reqs].
    apply (cinv_frame s); try done. intros i u' k' Hi. apply begins_at in Hi as [Hi|[_ Hi]]; done.
  - destruct (waiter k s) as [f s1] eqn:Ew. injection Hs as <- <-. destruct (waiter_case k s) as (g & w & E). rewrite Ew in E. cbn in E. subst s1.
    split; [by apply kinv_reqs, kinv_flags|]. split; [|intros _ i k' H; by apply since_reqs, since_flags].
    apply (cinv_frame s); try done. intros i u' k' Hi. apply begins_at in Hi as [Hi|[_ Hi]]; done.
  - assert (forall r, (forall u k, r <> RCreate u k) -> KInv (begins r s) /\ CInv (begins r s) /\ (forall i k, since i k s -> since i k (begins r s))) as G.
    { intros r Hr. split; [by apply kinv_reqs|]. split; [|intros i k'; apply since_reqs]. apply (cinv_frame s); try done.
      intros i u' k' Hi. apply begins_at in Hi as [Hi|[_ Hi]]; [done|]. by destruct (Hr u' k'). }
    unfold delete_request in Hs. destruct (get_cluster (a_view s) k) as [v|].
    2:{ injection Hs as <- <-. destruct (G ROver) as (G1 & G2 & G3); [done|]. auto. }
    destruct u as [u|]; [destruct (decide (v_user v = u))|]; [destruct (_ <=? _)| |destruct (_ <=? _)]; injection Hs as <- <-;
      match goal with |- KInv (begins ?r s) /\ _ => destruct (G r) as (G1 & G2 & G3); [done|]; auto end.
  - assert (KInv (ends i s) /\ CInv (ends i s) /\ (forall i' k, since i' k s -> since i' k (ends i s))) as (G1 & G2 & G3).
    { split; [by apply kinv_reqs|]. split; [|intros i' k'; apply since_reqs]. apply (cinv_frame s); try done.
      intros j u' k' Hi. apply ends_at in Hi as [_ Hi]; done. }
    destruct (a_reqs s !! i) as [[u k|u k f|u k|]|] eqn:Hi; try (injection Hs as <- <-; auto).
    + destruct (new_write i u k s HC Hi) as (N1 & N2 & N3).
      assert (KInv (ends i (write k (new_obj u) s)) /\ CInv (ends i (write k (new_obj u) s)) /\ (forall i' k', since i' k' s -> since i' k' (ends i (write k (new_obj u) s)))) as (W1 & W2 & W3).
      { split; [apply kinv_reqs, kinv_write; [done..|by rewrite N1]|]. split; [|intros i' k' H; by apply since_reqs, since_write].
        apply cinv_write; [done..|]. intros j u' k' Hj. apply (ends_at i s) in Hj as [Hj1 Hj2]; [|done]. split; [done|]. intros ->. destruct Hj1. by apply (ci_once s HC j i u' u k). }
      destruct r; injection Hs as <- <-; auto.
    + destruct (newest s k) as [x|] eqn:En; [|injection Hs as <- <-; auto]. destruct (newest_ver s k x En) as (N1 & N2 & N3).
      assert (KInv (ends i (write k (deactivate x) s)) /\ CInv (ends i (write k (deactivate x) s)) /\ (forall i' k', since i' k' s -> since i' k' (ends i (write k (deactivate x) s)))) as (W1 & W2 & W3).
      { split; [apply kinv_reqs, kinv_write; [done..|rewrite En]|].
        { destruct (later_refl x) as (L1 & L2 & L3). split; [done|]. split; done. }
        split; [|intros i' k' H; by apply since_reqs, since_write].
        apply cinv_write; [done..|]. intros j u' k' Hj. apply (ends_at i s) in Hj as [Hj1 Hj2]; [|done]. split; [done|]. intros ->.
        apply (ci_new s HC) in Hj2. destruct N2 as (vs & N2 & _). congruence. }
      destruct r; injection Hs as <- <-; auto.
  - destruct (a_reqs s !! i) as [[u k|u k f|u k|]|] eqn:Hi; try (injection Hs as <- <-; auto).
    destruct (late || default false (a_flags s !! f)); injection Hs as <- <-; [|auto].
    split; [by apply kinv_reqs|]. split; [|intros _ i' k'; apply since_reqs]. apply (cinv_frame s); try done.
    intros j u' k' Hj. apply ends_at in Hj as [_ Hj]; done.
  - destruct (newest s k) as [x|] eqn:En; [|injection Hs as <- <-; auto]. destruct (follows (so_obj x) o') eqn:Ef; injection Hs as <- <-; [|auto].
    destruct (newest_ver s k x En) as (N1 & N2 & N3). split; [apply kinv_write; [done..|rewrite En; by apply follows_later]|].
    split; [|intros _ i k' H; by apply since_write].
    apply (cinv_write k (SObj o' (so_active x)) s (a_reqs s)); [done..|]. intros j u' k' Hj. split; [done|]. intros ->. apply (ci_new s HC) in Hj. destruct N2 as (vs & N2 & _). congruence.
  - destruct (newest s k) as [x|] eqn:En; injection Hs as <- <-; [|auto]. destruct (newest_ver s k x En) as (N1 & N2 & N3). set (s1 := KA _ _ _ _ _ _ _). split; [|split].
    + apply (kinv_frame s); try done; [apply HI|]. intros k'. change (pos s1 k') with (pos s k'). change (len s1 k') with (len s k').
      pose proof (ki_pos s HI k') as Hp. unfold is_gone in *. cbn [s1 a_gone]. destruct (decide (k' ∈ a_gone s)); [rewrite decide_True by set_solver; done|]. lia.
    + constructor; cbn [s1 a_gone a_srv a_reqs]; try apply HC. intros k' Hk. apply elem_of_union in Hk as [Hk|Hk]; [|by apply (ci_gone s HC)].
      apply elem_of_singleton in Hk as ->. destruct N2 as (vs & N2 & _). eauto.
    + intros _ i k' H. apply (since_frame i k' s); try done. intros Hk. split; [cbn; set_solver|done].
  - destruct (watch_keeps k n s s' o HI Hs) as [W1 W2]. split; [done|]. split; [|auto]. apply watch_case in Hs as [->|(p & V & Hp & -> & _)]; [done|]. by apply (cinv_frame s).
  - pose proof (loop_get k s) as HT. injection Hs as <- <-. split; [by eapply kinv_turned|]. split; [|intros _ i k'; by apply since_turned].
    destruct (turned_frame _ _ HT) as (E1 & E2 & E3 & E4 & E5). apply (cinv_frame s); [done|done|done|]. by rewrite E4.
  - pose proof (loop_secret r s) as HT. injection Hs as <- <-. split; [by eapply kinv_turned|]. split; [|intros _ i k'; by apply since_turned].
    destruct (turned_frame _ _ HT) as (E1 & E2 & E3 & E4 & E5). apply (cinv_frame s); [done|done|done|]. by rewrite E4.
  - injection Hs as <- <-. split; [by apply restart_kinv|]. split; [|done].
    apply (cinv_frame s); try done. intros i u k Hi. cbn [restart a_reqs] in Hi. rewrite list_lookup_fmap in Hi. by destruct (a_reqs s !! i).
Qed.

(** * What the gateway tells, over all its processes *)
Definition fwd (i : nat) (k : key) (s : kapi) : Prop := bounded s k i /\
  forall v, clusters (a_view s) !! k = Some v -> exists j x, i <= j /\ ver s k j x /\ tells (so_obj x) v /\ bounded s k j.
Lemma fwd_frame i k s s' : fwd i k s -> a_view s' = a_view s -> (forall j x, ver s k j x -> ver s' k j x) -> pos s' k = pos s k -> fwd i k s'.
Proof.
  intros [H1 H2] Hv Hver Hp. assert (forall j, bounded s k j -> bounded s' k j) as Hb.
  { intros j [A B]. split; [by rewrite Hp|]. intros v E. rewrite Hv in E. destruct (B v E) as (j' & x & C1 & C2 & C3). exists j', x. rewrite Hp. auto. }
  split; [auto|]. rewrite Hv. intros v E. destruct (H2 v E) as (j & x & A & B & C & D). exists j, x. auto.
Qed.
Lemma fwd_watch i k s s' : fwd i k s -> a_srv s' = a_srv s -> pos s k <= pos s' k -> proc (a_view s') = proc (a_view s) -> clusters (a_view s') = clusters (a_view s) -> fwd i k s'.
Proof.
  intros [H1 H2] Hs Hp Hpr Hcl. split; [by apply (bounded_watch s)|]. rewrite Hcl. intros v E. destruct (H2 v E) as (j & x & A & B & C & D). exists j, x.
  split; [done|]. split; [by apply (ver_srv s)|]. split; [done|]. by apply (bounded_watch s).
Qed.
Lemma fwd_turned i k s s' : KInv s -> turned s s' -> fwd i k s -> fwd i k s'.
Proof.
  intros HI HT [H1 H2]. split; [by apply (turned_bounded s)|]. destruct (turned_frame s s' HT) as (E1 & E2 & E3 & E4 & E5).
  assert (pos s' k = pos s k) as Ep by (unfold pos; by rewrite E3).
  intros v H. destruct (turned_stored s s' k v HI HT H) as [Hc|(_ & D & F & _)].
  - destruct (H2 v Hc) as (j & x & A & B & C & D). exists j, x. split; [done|]. split; [by apply (ver_srv s)|]. split; [done|]. by apply (turned_bounded s).
  - destruct (F i H1) as (j' & x' & B1 & B2 & B3). exists j', x'. split; [lia|]. split; [by apply (ver_srv s)|]. split; [done|]. split; [rewrite Ep; lia|]. intros v'. rewrite D. done.
Qed.
Lemma fwd_restart i k s : KInv s -> CInv s -> fwd i k s -> fwd i k (restart s).
Proof.
  intros HI HC [[H1 _] _]. split; [|done]. split; [|done]. rewrite restart_pos. pose proof (ki_pos s HI k) as Hp. destruct (a_srv s !! k) eqn:E; [lia|].
  unfold is_gone in Hp. destruct (decide (k ∈ a_gone s)) as [Hg|Hg]; [destruct (ci_gone s HC k Hg); congruence|].
  unfold len in Hp. rewrite E in Hp. cbn in Hp. lia.
Qed.
(** The versions of an object are only added to. *)
Lemma ver_step s e s' o k j x : kstep s e = (s', o) -> ver s k j x -> ver s' k j x.
Proof.
  intros Hs Hx. destruct e as [u k1|u k1|u k1|u k1|i r|i late|k1 o'|k1|k1 n|k1|r|]; cbn [kstep] in Hs.
  - destruct (_ || _); by injection Hs as <- <-.
  - by injection Hs as <- <-.
  - destruct (waiter k1 s) as [f s1] eqn:Ew. injection Hs as <- <-. destruct (waiter_case k1 s) as (g & w & E). rewrite Ew in E. cbn in E. by subst s1.
  - destruct (delete_request u k1 s); by injection Hs as <- <-.
  - destruct (a_reqs s !! i) as [[u k1|u k1 f|u k1|]|]; try (by injection Hs as <- <-).
    + destruct r; injection Hs as <- <-; try done; apply ver_write; auto.
    + destruct (newest s k1); [|by injection Hs as <- <-]. destruct r; injection Hs as <- <-; try done; apply ver_write; auto.
  - destruct (a_reqs s !! i) as [[u k1|u k1 f|u k1|]|]; try (by injection Hs as <- <-). destruct (_ || _); by injection Hs as <- <-.
  - destruct (newest s k1) as [y|]; [|by injection Hs as <- <-]. destruct (follows _ _); injection Hs as <- <-; [|done]. apply ver_write; auto.
  - destruct (newest s k1); by injection Hs as <- <-.
  - apply watch_case in Hs as [->|(p & V & _ & -> & _)]; done.
  - injection Hs as <- <-. destruct (turned_frame _ _ (loop_get k1 s)) as (E & _). by apply (ver_srv s).
  - injection Hs as <- <-. destruct (turned_frame _ _ (loop_secret r s)) as (E & _). by apply (ver_srv s).
  - by injection Hs as <- <-.
Qed.
Lemma fwd_step s e s' o i k : KInv s -> CInv s -> kstep s e = (s', o) -> fwd i k s -> fwd i k s'.
Proof.
  intros HI HC Hs Hf. pose proof (fun j x => ver_step s e s' o k j x Hs) as Hv.
  destruct e as [u k1|u k1|u k1|u k1|i1 r|i1 late|k1 o'|k1|k1 n|k1|r|]; cbn [kstep] in Hs.
  - destruct (_ || _); injection Hs as <- <-; by apply (fwd_frame i k s).
  - injection Hs as <- <-; by apply (fwd_frame i k s).
  - destruct (waiter k1 s) as [f s1] eqn:Ew. injection Hs as <- <-. destruct (waiter_case k1 s) as (g & w & E). rewrite Ew in E. cbn in E. subst s1. by apply (fwd_frame i k s).
  - destruct (delete_request u k1 s); injection Hs as <- <-; by apply (fwd_frame i k s).
  - destruct (a_reqs s !! i1) as [[u k1|u k1 f|u k1|]|]; try (by injection Hs as <- <-).
    + destruct r; injection Hs as <- <-; by apply (fwd_frame i k s).
    + destruct (newest s k1); [|by injection Hs as <- <-]. destruct r; injection Hs as <- <-; by apply (fwd_frame i k s).
  - destruct (a_reqs s !! i1) as [[u k1|u k1 f|u k1|]|]; try (by injection Hs as <- <-). destruct (_ || _); injection Hs as <- <-; by apply (fwd_frame i k s).
  - destruct (newest s k1) as [y|]; [|by injection Hs as <- <-]. destruct (follows _ _); injection Hs as <- <-; by apply (fwd_frame i k s).
  - destruct (newest s k1); injection Hs as <- <-; by apply (fwd_frame i k s).
  - apply watch_case in Hs as [->|(p & V & Hp & -> & Hpr & Hcl & _)]; [done|]. apply (fwd_watch i k s); try done.
    change (pos s k <= pos (KA (a_srv s) (a_gone s) (<[k1 := p]> (a_pos s)) (a_view s) (a_flags s) (a_waiters s) (a_reqs s)) k). rewrite pos_insert.
    destruct (decide (k = k1)) as [->|]; lia.
  - injection Hs as <- <-. apply (fwd_turned i k s); [done|apply loop_get|done].
  - injection Hs as <- <-. apply (fwd_turned i k s); [done|apply loop_secret|done].
  - injection Hs as <- <-. by apply fwd_restart.
Qed.
Lemma kinit_inv : KInv kinit /\ CInv kinit.
Proof.
  split; constructor; try done.
  intros k i j x y _ (vs & H & _). done.
Qed.
Lemma reach_inv h s : kreach h s -> KInv s /\ CInv s.
Proof.
  revert h s. apply (exec_ind_r kstep kinit (fun _ s => KInv s /\ CInv s)); [apply kinit_inv|].
  intros h s e o s' _ [HI HC] Hs. destruct (step_keeps s e s' o HI HC Hs) as (A & B & _). done.
Qed.
Lemma leads_inv s h s' : KInv s -> CInv s -> kleads s h s' -> KInv s' /\ CInv s' /\ (forall i k, fwd i k s -> fwd i k s') /\
  (forall k j x, ver s k j x -> ver s' k j x) /\ (same_process h -> forall i k, since i k s -> since i k s').
Proof.
  intros HI HC Hl. induction Hl as [s|s e o s1 h s2 Hs _ IH]; [auto 10|].
  destruct (step_keeps s e s1 o HI HC Hs) as (HI1 & HC1 & Hk). destruct (IH HI1 HC1) as (A & B & C & D & E). split; [done|]. split; [done|].
  split; [intros i k H; apply C, (fwd_step s e s1 o i k HI HC Hs H)|]. split; [intros k j x H; apply D, (ver_step s e s1 o k j x Hs H)|].
  intros Hp i k H. apply E; [intros o' Ho; apply (Hp o'); by right|]. apply Hk; [|done]. intros ->. apply (Hp o). by left.
Qed.

(** * Answers *)
Lemma answer_look s e s' i a : kstep s e = (s', Some (i, a)) ->
  (exists u k, e = KGet u k /\ i = length (a_reqs s) /\ a = look u k s) \/
  (exists u k f late, e = KFlag i late /\ a_reqs s !! i = Some (RWait u k f) /\ a = look u k s /\ (late = false -> a_flags s !! f = Some true)) \/
  (exists u k, e = KStop u k /\ i = length (a_reqs s) /\ delete_request u k s = inr a) \/
  (exists r, e = KServer i r).
Proof.
  destruct e as [u k1|u k1|u k1|u k1|i1 r|i1 late|k1 o'|k1|k1 n|k1|r|]; cbn [kstep]; intros Hs; try done.
  - by destruct (_ || _).
  - injection Hs as <- <- <-. left. eauto.
  - by destruct (waiter k1 s).
  - destruct (delete_request u k1 s) as [|a'] eqn:E; [done|]. injection Hs as <- <- <-. right. right. left. eauto.
  - destruct (a_reqs s !! i1) as [[u k1|u k1 f|u k1|]|]; try done.
    + destruct r; injection Hs as <- <- <-; eauto.
    + destruct (newest s k1); [|injection Hs as <- <- <-; eauto]. destruct r; injection Hs as <- <- <-; eauto.
  - destruct (a_reqs s !! i1) as [[u k1|u k1 f|u k1|]|] eqn:Ei; try done. destruct (late || default false (a_flags s !! f)) eqn:Eb; [|done]. injection Hs as <- <- <-.
    right. left. exists u, k1, f, late. split; [done|]. split; [done|]. split; [done|]. intros ->. cbn in Eb. by destruct (a_flags s !! f) as [[]|].
  - destruct (newest s k1); [destruct (follows _ _)|]; done.
  - by destruct (newest s k1).
  - revert Hs. cbv zeta. set (vs := default [] _). set (p := default 0 _). set (q := Nat.min _ _). clearbody vs q p.
    destruct (decide (p < q)); [|done]. destruct (vs !! (q - 1)); [done|]. by destruct (decide (p = 0)).
Qed.
Lemma report_look s e s' i k v : kstep s e = (s', Some (i, AReport k v)) -> clusters (a_view s) !! k = Some v /\ a_view s' = a_view s /\
  ((exists u, e = KGet u k /\ i = length (a_reqs s) /\ v_user v = u) \/ (exists u f late, e = KFlag i late /\ a_reqs s !! i = Some (RWait u k f) /\ v_user v = u)).
Proof.
  intros Hs. assert (forall u k', look u k' s = AReport k v -> k' = k /\ clusters (a_view s) !! k = Some v /\ v_user v = u) as Hlk.
  { intros u k'. unfold look, get_cluster. destruct (clusters (a_view s) !! k') as [w|] eqn:E; [|done]. destruct (decide _); [|done]. intros [= <- <-]. done. }
  destruct (answer_look s e s' i _ Hs) as [(u & k' & -> & -> & H)|[(u & k' & f & late & -> & Hi & H & _)|[(u & k' & -> & -> & H)|(r & ->)]]].
  - symmetry in H. apply Hlk in H as (-> & H1 & H2). split; [done|]. split; [by injection Hs as <- _|]. left. eauto.
  - symmetry in H. apply Hlk in H as (-> & H1 & H2). split; [done|]. split; [|right; eauto 10].
    cbn [kstep] in Hs. rewrite Hi in Hs. destruct (_ || _); [|done]. by injection Hs as <- _.
  - unfold delete_request in H. destruct (get_cluster (a_view s) k'); [|done]. destruct u; [destruct (decide _)|]; try destruct (_ <=? _); done.
  - cbn [kstep] in Hs. destruct (a_reqs s !! i) as [[u k1|u k1 f|u k1|]|]; try done; [destruct r; done|]. destruct (newest s k1); [destruct r|]; done.
Qed.
Lemma view_was s k v : KInv s -> clusters (a_view s) !! k = Some v -> exists x, was s k x /\ tells (so_obj x) v.
Proof. intros HI Hc. destruct (ki_view s HI k v Hc) as (j & x & (vs & A & B) & C & _). exists x. split; [|done]. exists vs. split; [done|]. by eapply elem_of_list_lookup_2. Qed.
Lemma view_fwd s k v : KInv s -> clusters (a_view s) !! k = Some v -> exists i x, ver s k i x /\ tells (so_obj x) v /\ fwd i k s.
Proof.
  intros HI Hc. destruct (ki_view s HI k v Hc) as (j & x & A & B & C). exists j, x. split; [done|]. split; [done|]. split; [done|].
  intros v'. rewrite Hc. intros [= <-]. exists j, x. done.
Qed.
Lemma fwd_view s k v i x : KInv s -> fwd i k s -> ver s k i x -> clusters (a_view s) !! k = Some v -> exists y, later x y /\ tells (so_obj y) v.
Proof. intros HI [_ Hf] Hx Hc. destruct (Hf v Hc) as (j & y & A & B & C & _). exists y. split; [|done]. by apply (ki_srv s HI k i j). Qed.
(** Reports never go back. *)
Lemma forward h1 s1 e1 i1 k v1 h2 s2 e2 i2 v2 s3 : kreach h1 s1 -> kleads s1 ((e1, Some (i1, AReport k v1)) :: h2) s2 ->
  kstep s2 e2 = (s3, Some (i2, AReport k v2)) -> v_user v1 = v_user v2 /\ no_earlier (v_status v1) (v_status v2).
Proof.
  intros Hr Hl Hs2. destruct (reach_inv h1 s1 Hr) as [HI1 HC1]. destruct (leads_inv _ _ _ HI1 HC1 Hl) as (HI2 & HC2 & Hf & Hv & _).
  inversion Hl as [|? ? ? m ? ? Hs1 _]; subst. apply report_look in Hs1 as [Hc1 _]. apply report_look in Hs2 as [Hc2 _].
  destruct (view_fwd s1 k v1 HI1 Hc1) as (i & x & A & B & C). destruct (fwd_view s2 k v2 i x HI2 (Hf _ _ C) (Hv _ _ _ A) Hc2) as (y & (D1 & D2 & _) & E).
  destruct B as (B1 & B2 & _), E as (E1 & E2 & _). split; congruence.
Qed.
(** In one process a cluster that was found is lost only when its record is deleted. *)
Lemma stays_found h1 s1 e1 i1 k v1 h2 s2 : kreach h1 s1 -> kleads s1 ((e1, Some (i1, AReport k v1)) :: h2) s2 -> same_process h2 ->
  get_cluster (a_view s2) k = None -> k ∈ a_gone s2.
Proof.
  intros Hr Hl Hp Hn. destruct (reach_inv h1 s1 Hr) as [HI1 HC1]. destruct (leads_inv _ _ _ HI1 HC1 Hl) as (HI2 & HC2 & _ & _ & Hf).
  inversion Hl as [|? ? ? m ? ? Hs1 _]; subst. destruct (report_look _ _ _ _ _ _ Hs1) as (Hc1 & _ & Hcase).
  assert (same_process ((e1, Some (i1, AReport k v1)) :: h2)) as Hp'.
  { intros o Ho. apply elem_of_cons in Ho as [E|Ho]; [|by apply (Hp o)]. injection E as <- ->. destruct Hcase as [(? & ? & _)|(? & ? & ? & ? & _)]; done. }
  destruct (view_fwd s1 k v1 HI1 Hc1) as (i & x & A & B & C). assert (since i k s1) as Hsi.
  { split; [apply C|]. rewrite Hc1. done. }
  destruct (Hf Hp' _ _ Hsi) as [_ H]. apply H. done.
Qed.

(** * Requests *)
Lemma begins_self r s : a_reqs (begins r s) !! length (a_reqs s) = Some r.
Proof. unfold begins, set_reqs. cbn [a_reqs]. by apply list_lookup_middle. Qed.
Lemma begins_keep r s i r' : a_reqs s !! i = Some r' -> a_reqs (begins r s) !! i = Some r'.
Proof. unfold begins, set_reqs. cbn [a_reqs]. apply lookup_app_l_Some. Qed.
Lemma ends_self i s r : a_reqs s !! i = Some r -> a_reqs (ends i s) !! i = Some ROver.
Proof. intros H. unfold ends, set_reqs. cbn [a_reqs]. apply list_lookup_insert. by eapply lookup_lt_Some. Qed.
Lemma ends_other i s j r : j <> i -> a_reqs s !! j = Some r -> a_reqs (ends i s) !! j = Some r.
Proof. intros Hne H. unfold ends, set_reqs. cbn [a_reqs]. by rewrite list_lookup_insert_ne. Qed.
(** What happens to the requests in a step. *)
Inductive reqs_step (s : kapi) (s' : kapi) : kevent -> option (nat * answer) -> Prop :=
| QSame e : a_reqs s' = a_reqs s -> reqs_step s s' e None
| QBegin e r : a_reqs s' = a_reqs s ++ [r] -> r <> ROver -> (e = match r with RCreate u k => KPost u k | RWait u k _ => KGetWait u k | RPatch u k => KStop u k | ROver => KRestart end) -> reqs_step s s' e None
| QAtOnce e a : a_reqs s' = a_reqs s ++ [ROver] -> ((exists u k, e = KGet u k) \/ (exists u k, e = KStop u k)) -> reqs_step s s' e (Some (length (a_reqs s), a))
| QEnd e i r a : a_reqs s !! i = Some r -> r <> ROver -> a_reqs s' = <[i := ROver]> (a_reqs s) -> (e = KServer i Done \/ e = KServer i Lost \/ e = KServer i Undone \/ e = KFlag i true \/ e = KFlag i false) -> reqs_step s s' e (Some (i, a))
| QLost : a_reqs s' = map (fun _ => ROver) (a_reqs s) -> reqs_step s s' KRestart None.
Lemma reqs_steps s e s' o : kstep s e = (s', o) -> reqs_step s s' e o.
Proof.
  intros Hs. destruct e as [u k1|u k1|u k1|u k1|i r|i late|k1 o'|k1|k1 n|k1|r|]; cbn [kstep] in Hs.
  - destruct (_ || _); injection Hs as <- <-; [by apply QSame|]. by apply (QBegin _ _ _ (RCreate u k1)).
  - injection Hs as <- <-. apply QAtOnce; [done|]. eauto.
  - destruct (waiter k1 s) as [f s1] eqn:Ew. injection Hs as <- <-. destruct (waiter_frame k1 s) as (_ & _ & _ & _ & E). rewrite Ew in E. cbn in E.
    apply (QBegin _ _ _ (RWait u k1 f)); [|done..]. cbn. by rewrite E.
  - unfold delete_request in Hs. destruct (get_cluster (a_view s) k1) as [v|].
    2:{ injection Hs as <- <-. apply QAtOnce; [done|]. eauto 10. }
    destruct u as [u|]; [destruct (decide (v_user v = u))|]; [destruct (_ <=? _)| |destruct (_ <=? _)]; injection Hs as <- <-.
    + apply QAtOnce; [done|]. eauto.
    + by apply (QBegin _ _ _ (RPatch (Some u) k1)).
    + apply QAtOnce; [done|]. eauto.
    + apply QAtOnce; [done|]. eauto.
    + by apply (QBegin _ _ _ (RPatch None k1)).
  - destruct (a_reqs s !! i) as [[u k1|u k1 f|u k1|]|] eqn:Hi; try (injection Hs as <- <-; by apply QSame).
    + destruct r; injection Hs as <- <-; (eapply QEnd; [exact Hi|done|done|auto]).
    + destruct (newest s k1); [|injection Hs as <- <-; eapply QEnd; [exact Hi|done|done|destruct r; auto]].
      destruct r; injection Hs as <- <-; (eapply QEnd; [exact Hi|done|done|auto]).
  - destruct (a_reqs s !! i) as [[u k1|u k1 f|u k1|]|] eqn:Hi; try (injection Hs as <- <-; by apply QSame).
    destruct (_ || _); injection Hs as <- <-; [|by apply QSame]. eapply QEnd; [exact Hi|done|done|destruct late; auto].
  - destruct (newest s k1) as [y|]; [|injection Hs as <- <-; by apply QSame]. destruct (follows _ _); injection Hs as <- <-; by apply QSame.
  - destruct (newest s k1); injection Hs as <- <-; by apply QSame.
  - assert (o = None) as ->.
    { revert Hs. cbv zeta. set (vs := default [] _). set (p := default 0 _). set (q := Nat.min _ _). clearbody vs q p.
      destruct (decide (p < q)); [|by intros [= _ <-]]. destruct (vs !! (q - 1)); [by intros [= _ <-]|]. by destruct (decide (p = 0)); intros [= _ <-]. }
    apply watch_case in Hs as [->|(p & V & _ & -> & _)]; by apply QSame.
  - injection Hs as <- <-. apply QSame. apply (turned_frame _ _ (loop_get k1 s)).
  - injection Hs as <- <-. apply QSame. apply (turned_frame _ _ (loop_secret r s)).
  - injection Hs as <- <-. by apply QLost.
Qed.
(** A request is answered at most once. *)
Lemma over_step s e s' o i : kstep s e = (s', o) -> a_reqs s !! i = Some ROver -> a_reqs s' !! i = Some ROver /\ forall a, o <> Some (i, a).
Proof.
  intros Hs Hi. pose proof (lookup_lt_Some _ _ _ Hi) as Hl. destruct (reqs_steps s e s' o Hs) as [e E|e r E Hr He|e a E He|e j r a Hj Hr E He|E].
  - by rewrite E.
  - split; [rewrite E; by apply lookup_app_l_Some|done].
  - split; [rewrite E; by apply lookup_app_l_Some|]. intros a' [= H _]. lia.
  - assert (j <> i) by congruence. split; [rewrite E; by rewrite list_lookup_insert_ne|]. intros a' [= H' _]. done.
  - split; [|done]. rewrite E, list_lookup_fmap, Hi. done.
Qed.
Lemma over_silent s h s' i a : kleads s h s' -> a_reqs s !! i = Some ROver -> ~ answered h i a.
Proof.
  induction 1 as [s|s e o s1 h s2 Hs _ IH]; intros Hi (e' & He); [by apply not_elem_of_nil in He|].
  destruct (over_step s e s1 o i Hs Hi) as [Hi1 Ho]. apply elem_of_cons in He as [E|He]; [|apply (IH Hi1); by exists e']. injection E as -> <-. by apply (Ho a).
Qed.

(** * Ending *)
Lemma gone_step s e s' o k : kstep s e = (s', o) -> k ∈ a_gone s -> k ∈ a_gone s'.
Proof.
  intros Hs Hx. destruct e as [u k1|u k1|u k1|u k1|i r|i late|k1 o'|k1|k1 n|k1|r|]; cbn [kstep] in Hs.
  - destruct (_ || _); by injection Hs as <- <-.
  - by injection Hs as <- <-.
  - destruct (waiter k1 s) as [f s1] eqn:Ew. injection Hs as <- <-. destruct (waiter_case k1 s) as (g & w & E). rewrite Ew in E. cbn in E. by subst s1.
  - destruct (delete_request u k1 s); by injection Hs as <- <-.
  - destruct (a_reqs s !! i) as [[u k1|u k1 f|u k1|]|]; try (by injection Hs as <- <-).
    + destruct r; by injection Hs as <- <-.
    + destruct (newest s k1); [|by injection Hs as <- <-]. destruct r; by injection Hs as <- <-.
  - destruct (a_reqs s !! i) as [[u k1|u k1 f|u k1|]|]; try (by injection Hs as <- <-). destruct (_ || _); by injection Hs as <- <-.
  - destruct (newest s k1) as [y|]; [|by injection Hs as <- <-]. destruct (follows _ _); by injection Hs as <- <-.
  - destruct (newest s k1); injection Hs as <- <-; [cbn; set_solver|done].
  - apply watch_case in Hs as [->|(p & V & _ & -> & _)]; done.
  - injection Hs as <- <-. destruct (turned_frame _ _ (loop_get k1 s)) as (_ & E & _). by rewrite E.
  - injection Hs as <- <-. destruct (turned_frame _ _ (loop_secret r s)) as (_ & E & _). by rewrite E.
  - by injection Hs as <- <-.
Qed.
Lemma ending_ver s k i x : KInv s -> ver s k i x -> so_active x = false \/ over (ophase (so_obj x)) -> ending s k.
Proof.
  intros HI Hx Ho. unfold ending. destruct (newest s k) as [y|] eqn:En; [|done]. destruct (newest_ver s k y En) as (_ & Hy & Hl).
  assert (later x y) as (L1 & L2 & L3) by (apply (ki_srv s HI k i (len s k - 1)); [apply ver_lt in Hx; lia|done..]).
  destruct Ho as [Ho|Ho]; [left; auto|right]. unfold over, no_earlier in *. destruct Ho as [Ho|Ho]; rewrite Ho in L2; auto.
Qed.
Definition done_for (s : kapi) (k : key) : Prop := k ∈ a_gone s \/ exists i x, ver s k i x /\ (so_active x = false \/ over (ophase (so_obj x))).
Lemma done_for_ending s k : KInv s -> done_for s k -> ending s k.
Proof. intros HI [Hg|(i & x & A & B)]; [unfold ending, newest; by rewrite decide_True|by eapply ending_ver]. Qed.
Lemma done_for_step s e s' o k : kstep s e = (s', o) -> done_for s k -> done_for s' k.
Proof. intros Hs [Hg|(i & x & A & B)]; [left; by eapply gone_step|right; exists i, x; split; [by eapply ver_step|done]]. Qed.
Lemma done_for_leads s h s' k : kleads s h s' -> done_for s k -> done_for s' k.
Proof. induction 1 as [s|s e o s1 h s2 Hs _ IH]; [done|]. intros H. apply IH. by eapply done_for_step. Qed.
Lemma view_over s k v : KInv s -> clusters (a_view s) !! k = Some v -> (phase_num STOPPED <=? phase_num (v_status v)) = true -> done_for s k.
Proof.
  intros HI Hc Hp. destruct (ki_view s HI k v Hc) as (j & x & A & (_ & B & _) & _). right. exists j, x. split; [done|]. right. unfold over. rewrite <- B.
  destruct (v_status v); try done; auto.
Qed.
(** The answer to a patch under way. *)
Lemma patch_step s e s' o i u k : kstep s e = (s', o) -> a_reqs s !! i = Some (RPatch u k) ->
  (a_reqs s' !! i = Some (RPatch u k) /\ forall a, o <> Some (i, a)) \/ (a_reqs s' !! i = Some ROver /\ (o = Some (i, ADone) -> done_for s' k)).
Proof.
  intros Hs Hi. pose proof (lookup_lt_Some _ _ _ Hi) as Hl. destruct (reqs_steps s e s' o Hs) as [e E|e r E Hr He|e a E He|e j r a Hj Hr E He|E].
  - left. by rewrite E.
  - left. split; [rewrite E; by apply lookup_app_l_Some|done].
  - left. split; [rewrite E; by apply lookup_app_l_Some|]. intros a' [= H _]. lia.
  - destruct (decide (j = i)) as [->|Hne]; [|left; split; [rewrite E; by rewrite list_lookup_insert_ne|]; intros a' [= H' _]; done].
    right. split; [rewrite E; by apply list_lookup_insert|]. intros [= ->].
    destruct He as [->|[->|[->|[->| ->]]]]; cbn [kstep] in Hs; rewrite Hi in Hs; try done; destruct (newest s k) as [x|] eqn:En; try done.
    injection Hs as <-. right. exists (len s k), (deactivate x). split; [|by left]. apply ver_write. auto.
  - right. split; [|done]. rewrite E, list_lookup_fmap, Hi. done.
Qed.
Lemma patch_done s h s' i u k : kleads s h s' -> a_reqs s !! i = Some (RPatch u k) -> answered h i ADone -> done_for s' k.
Proof.
  induction 1 as [s|s e o s1 h s2 Hs Hl IH]; intros Hi (e' & He); [by apply not_elem_of_nil in He|].
  destruct (patch_step s e s1 o i u k Hs Hi) as [[A B]|[A B]]; apply elem_of_cons in He as [E|He].
  - injection E as -> <-. by destruct (B ADone).
  - apply IH; [done|]. by exists e'.
  - injection E as -> <-. apply (done_for_leads s1 h s2); [done|]. by apply B.
  - exfalso. apply (over_silent s1 h s2 i ADone Hl A). by exists e'.
Qed.
Lemma stopped h s1 u k v o h1 s2 : kreach h s1 -> get_cluster (a_view s1) k = Some v -> kleads s1 ((KStop u k, o) :: h1) s2 ->
  answered ((KStop u k, o) :: h1) (length (a_reqs s1)) ADone -> ending s2 k.
Proof.
  intros Hr Hg Hl Ha. destruct (reach_inv h s1 Hr) as [HI HC]. destruct (leads_inv _ _ _ HI HC Hl) as (HI2 & _). apply done_for_ending; [done|].
  inversion Hl as [|? ? ? m ? ? Hs Hl1]; subst. assert (forall r, kstep s1 (KStop u k) = (begins r s1, None) -> r = RPatch u k -> done_for s2 k) as G1.
  { intros r E ->. rewrite E in Hs. injection Hs as <- <-. destruct Ha as (e' & He). apply elem_of_cons in He as [He|He]; [done|].
    apply (patch_done _ h1 s2 (length (a_reqs s1)) u k Hl1); [apply begins_self|by exists e']. }
  assert (forall a, kstep s1 (KStop u k) = (begins ROver s1, Some (length (a_reqs s1), a)) -> (a = ADone -> done_for s1 k) -> done_for s2 k) as G2.
  { intros a E Hd. rewrite E in Hs. injection Hs as <- <-. destruct Ha as (e' & He). apply elem_of_cons in He as [He|He].
    - injection He as _ Ha'. apply (done_for_leads s1 _ s2 k Hl). auto.
    - exfalso. apply (over_silent _ h1 s2 (length (a_reqs s1)) ADone Hl1); [apply begins_self|by exists e']. }
  cbn [kstep] in G1, G2. unfold delete_request in G1, G2. rewrite Hg in G1, G2.
  destruct u as [u|]; [destruct (decide (v_user v = u))|]; [destruct (phase_num STOPPED <=? phase_num (v_status v)) eqn:Eb| |destruct (phase_num STOPPED <=? phase_num (v_status v)) eqn:Eb].
  - apply (G2 ADone); [done|]. intros _. by apply (view_over s1 k v).
  - by apply (G1 (RPatch (Some u) k)).
  - by apply (G2 (AForbidden k)).
  - apply (G2 ADone); [done|]. intros _. by apply (view_over s1 k v).
  - by apply (G1 (RPatch None k)).
Qed.

(** * Who asked *)
Definition matches (r : request) (e : kevent) : Prop := match r with RCreate u k => e = KPost u k | RWait u k _ => e = KGetWait u k | RPatch u k => e = KStop u k | ROver => True end.
Lemma asked_app h i e x : asked h i e -> asked (h ++ x) i e.
Proof. intros (h1 & s1 & o & s2 & h2 & -> & H). exists h1, s1, o, s2, (h2 ++ x). split; [by rewrite <- app_assoc|done]. Qed.
Lemma asked_all h s : kreach h s -> forall i r, a_reqs s !! i = Some r -> r <> ROver -> exists e, asked h i e /\ matches r e.
Proof.
  revert h s. apply (exec_ind_r kstep kinit (fun h s => forall i r, a_reqs s !! i = Some r -> r <> ROver -> exists e, asked h i e /\ matches r e)); [done|].
  intros h s e o s' Hr IH Hs i r Hi Hn. assert (a_reqs s !! i = Some r -> exists e0, asked (h ++ [(e, o)]) i e0 /\ matches r e0) as G.
  { intros Hi'. destruct (IH i r Hi' Hn) as (e0 & A & B). exists e0. split; [by apply asked_app|done]. }
  destruct (reqs_steps s e s' o Hs) as [e E|e r' E Hr' He|e a E He|e j r' a Hj Hr' E He|E].
  - apply G. by rewrite <- E.
  - rewrite E in Hi. apply lookup_app_Some in Hi as [Hi|[Hi1 Hi2]]; [by apply G|]. destruct (i - length (a_reqs s)) as [|m] eqn:Em; [|done]. injection Hi2 as <-.
    exists e. split; [|rewrite He; by destruct r']. exists h, s, None, s', []. split; [done|]. split; [done|]. split; [done|]. split; [lia|]. rewrite E, app_length. cbn. lia.
  - rewrite E in Hi. apply lookup_app_Some in Hi as [Hi|[Hi1 Hi2]]; [by apply G|]. destruct (i - length (a_reqs s)) as [|m] eqn:Em; [|done]. by injection Hi2 as <-.
  - rewrite E in Hi. apply list_lookup_insert_Some in Hi as [(_ & <- & _)|[_ Hi]]; [done|]. by apply G.
  - rewrite E in Hi. rewrite list_lookup_fmap in Hi. destruct (a_reqs s !! i); [|done]. by injection Hi as <-.
Qed.
Lemma leads_split h s e o : kreach h s -> (e, o) ∈ h -> exists h1 s1 s2 h2, h = h1 ++ (e, o) :: h2 /\ kreach h1 s1 /\ kstep s1 e = (s2, o) /\ kleads s2 h2 s.
Proof.
  intros Hr Hin. apply elem_of_list_split in Hin as (h1 & h2 & ->). apply exec_app in Hr as (s1 & H1 & H2). inversion H2 as [|? ? ? s2 ? ? Hs Hl]; subst.
  exists h1, s1, s2, h2. done.
Qed.
Lemma truthful h s i k v : kreach h s -> answered h i (AReport k v) ->
  (asked h i (KGet (v_user v) k) \/ asked h i (KGetWait (v_user v) k)) /\ exists x, was s k x /\ tells (so_obj x) v.
Proof.
  intros Hr (e & He). destruct (leads_split h s e _ Hr He) as (h1 & s1 & s2 & h2 & -> & H1 & Hs & Hl). destruct (reach_inv h1 s1 H1) as [HI HC].
  destruct (report_look _ _ _ _ _ _ Hs) as (Hc & _ & Hw). split.
  - destruct Hw as [(u & -> & -> & <-)|(u & f & late & -> & Hi & <-)].
    + left. exists h1, s1, (Some (length (a_reqs s1), AReport k v)), s2, h2. split; [done|]. split; [done|]. split; [done|]. split; [done|].
      injection Hs as <- _. cbn. rewrite app_length. cbn. lia.
    + right. destruct (asked_all h1 s1 H1 i _ Hi) as (e & A & B); [done|]. cbn in B. subst e. by apply asked_app.
  - destruct (view_was s1 k v HI Hc) as (x & (vs & A & B) & C). apply elem_of_list_lookup in B as [j B].
    destruct (step_keeps s1 _ s2 _ HI HC Hs) as (HI2 & HC2 & _). destruct (leads_inv _ _ _ HI2 HC2 Hl) as (_ & _ & _ & Hv & _).
    assert (ver s k j x) as (vs' & A' & B'). { apply Hv, (ver_step s1 _ s2 _ k j x Hs). by exists vs. }
    exists x. split; [|done]. exists vs'. split; [done|]. by eapply elem_of_list_lookup_2.
Qed.

(** * Owners *)
Lemma same_owner s k i j x y : KInv s -> ver s k i x -> ver s k j y -> username (so_obj x) = username (so_obj y).
Proof. intros HI Hx Hy. destruct (decide (i <= j)); [apply (ki_srv s HI k i j x y)|symmetry; apply (ki_srv s HI k j i y x)]; done || lia. Qed.
Definition owned (h : khistory) (s : kapi) : Prop :=
  (forall k j x, ver s k j x -> exists i, asked h i (KPost (username (so_obj x)) k)) /\
  (forall k j x, ver s k j x -> so_active x = false -> exists i u, asked h i (KStop u k) /\ (u = None \/ u = Some (username (so_obj x)))) /\
  (forall i u k, a_reqs s !! i = Some (RPatch (Some u) k) -> exists j x, ver s k j x /\ username (so_obj x) = u).
(** The versions that a step adds. *)
Lemma new_version s e s' o k j x : kstep s e = (s', o) -> ver s' k j x -> ver s k j x \/
  (exists i u, a_reqs s !! i = Some (RCreate u k) /\ x = new_obj u) \/
  (exists y, newest s k = Some y /\ username (so_obj x) = username (so_obj y) /\ (so_active x = so_active y \/ exists i u, a_reqs s !! i = Some (RPatch u k))).
Proof.
  intros Hs Hx. destruct e as [u k1|u k1|u k1|u k1|i r|i late|k1 o'|k1|k1 n|k1|r|]; cbn [kstep] in Hs.
  - destruct (_ || _); injection Hs as <- <-; auto.
  - injection Hs as <- <-; auto.
  - destruct (waiter k1 s) as [f s1] eqn:Ew. injection Hs as <- <-. destruct (waiter_case k1 s) as (g & w & E). rewrite Ew in E. cbn in E. subst s1. auto.
  - destruct (delete_request u k1 s); injection Hs as <- <-; auto.
  - destruct (a_reqs s !! i) as [[u k1|u k1 f|u k1|]|] eqn:Hi; try (injection Hs as <- <-; auto).
    + destruct r; injection Hs as <- <-; auto; (apply (ver_write s k1 (new_obj u)) in Hx as [Hx|(-> & -> & ->)]; [auto|]; right; left; eauto).
    + destruct (newest s k1) as [y|] eqn:En; [|injection Hs as <- <-; auto].
      destruct r; injection Hs as <- <-; auto; (apply (ver_write s k1 (deactivate y)) in Hx as [Hx|(-> & -> & ->)]; [auto|]; right; right; exists y; eauto 10).
  - destruct (a_reqs s !! i) as [[u k1|u k1 f|u k1|]|]; try (injection Hs as <- <-; auto). destruct (_ || _); injection Hs as <- <-; auto.
  - destruct (newest s k1) as [y|] eqn:En; [|injection Hs as <- <-; auto]. destruct (follows _ _) eqn:Ef; injection Hs as <- <-; [|auto].
    apply ver_write in Hx as [Hx|(-> & -> & ->)]; [auto|]. right. right. exists y. split; [done|]. apply follows_later in Ef as (F1 & _). split; [done|]. by left.
  - destruct (newest s k1); injection Hs as <- <-; auto.
  - apply watch_case in Hs as [->|(p & V & _ & -> & _)]; auto.
  - injection Hs as <- <-. destruct (turned_frame _ _ (loop_get k1 s)) as (E & _). left. by apply (ver_srv (loop (EGet k1) s)).
  - injection Hs as <- <-. destruct (turned_frame _ _ (loop_secret r s)) as (E & _). left. by apply (ver_srv (loop (ESecret r) s)).
  - injection Hs as <- <-; auto.
Qed.
Lemma owned_all h s : kreach h s -> owned h s.
Proof.
  revert h s. apply (exec_ind_r kstep kinit owned).
  { split; [intros k j x (vs & H & _); done|]. split; [intros k j x (vs & H & _); done|done]. }
  intros h s e o s' Hr (O1 & O2 & O3) Hs. destruct (reach_inv h s Hr) as [HI HC]. split; [|split].
  - intros k j x Hx. apply (new_version s e s' o k j x Hs) in Hx as [Hx|[(i & u & Hi & ->)|(y & Hy & Hu & _)]].
    + destruct (O1 k j x Hx) as [i H]. exists i. by apply asked_app.
    + destruct (asked_all h s Hr i _ Hi) as (e0 & A & B); [done|]. cbn in B. subst e0. exists i. by apply asked_app.
    + apply newest_ver in Hy as (_ & Hy & _). rewrite Hu. destruct (O1 k _ y Hy) as [i H]. exists i. by apply asked_app.
  - intros k j x Hx Hact. apply (new_version s e s' o k j x Hs) in Hx as [Hx|[(i & u & Hi & ->)|(y & Hy & Hu & Hw)]]; [|done|].
    + destruct (O2 k j x Hx Hact) as (i & u & A & B). exists i, u. split; [by apply asked_app|done].
    + apply newest_ver in Hy as (_ & Hy & _). rewrite Hu. destruct Hw as [Hw|(i & u & Hi)].
      * destruct (O2 k _ y Hy) as (i & u & A & B); [congruence|]. exists i, u. split; [by apply asked_app|done].
      * exists i, u. destruct (asked_all h s Hr i _ Hi) as (e0 & A & B); [done|]. cbn in B. subst e0. split; [by apply asked_app|].
        destruct u as [u|]; [right|by left]. destruct (O3 i u k Hi) as (j' & z & Hz & <-). f_equal. by eapply same_owner.
  - intros i u k Hi. assert (a_reqs s !! i = Some (RPatch (Some u) k) -> exists j x, ver s' k j x /\ username (so_obj x) = u) as G.
    { intros Hi'. destruct (O3 i u k Hi') as (j & x & A & B). exists j, x. split; [by eapply ver_step|done]. }
    destruct (reqs_steps s e s' o Hs) as [e E|e r E Hrr He|e a E He|e j r a Hj Hrr E He|E]; rewrite E in Hi.
    + by apply G.
    + apply lookup_app_Some in Hi as [Hi|[Hi1 Hi2]]; [by apply G|]. destruct (i - length (a_reqs s)) as [|m] eqn:Em; [|done]. injection Hi2 as ->. subst e.
      cbn [kstep] in Hs. unfold delete_request in Hs. destruct (get_cluster (a_view s) k) as [v|] eqn:Ev; [|done].
      destruct (decide (v_user v = u)) as [<-|]; [|done]. destruct (ki_view s HI k v Ev) as (j & x & A & (B & _) & _). exists j, x. split; [|done].
      destruct (_ <=? _); [done|]. by injection Hs as <-.
    + apply lookup_app_Some in Hi as [Hi|[Hi1 Hi2]]; [by apply G|]. destruct (i - length (a_reqs s)) as [|m]; done.
    + apply list_lookup_insert_Some in Hi as [(_ & ? & _)|[_ Hi]]; [done|]. by apply G.
    + rewrite list_lookup_fmap in Hi. by destruct (a_reqs s !! i).
Qed.
Lemma owner_only h s k x : kreach h s -> was s k x ->
  (exists i, asked h i (KPost (username (so_obj x)) k)) /\ (so_active x = false -> exists i u, asked h i (KStop u k) /\ (u = None \/ u = Some (username (so_obj x)))).
Proof.
  intros Hr (vs & A & B). apply elem_of_list_lookup in B as [j B]. destruct (owned_all h s Hr) as (O1 & O2 & _). split; [apply (O1 k j)|apply (O2 k j)]; by exists vs.
Qed.

(** * Flags *)
Definition dead (k : key) (s : kapi) : Prop := forall i, since i k s.
Lemma dead_none k s : dead k s -> clusters (a_view s) !! k = None /\ k ∈ a_gone s.
Proof.
  intros Hd. assert (clusters (a_view s) !! k = None) as Hn.
  { destruct (clusters (a_view s) !! k) as [v|] eqn:E; [|done]. destruct (Hd (S (len s k))) as [H _]. destruct (H v E) as (j & x & A & B & _). apply ver_lt in B. lia. }
  split; [done|]. destruct (Hd 0) as [_ H]. by apply H.
Qed.
Lemma dead_forgot k s : clusters (a_view s) !! k = None -> k ∈ a_gone s -> pos s k = S (len s k) -> (forall v, proc (a_view s) <> Some (k, v)) -> dead k s.
Proof. intros A B C D i. split; [intros v E; congruence|done]. Qed.
Definition up (v : view) : Prop := phase_num RUNNING <= phase_num (v_status v).
Lemma up_forward v v' : no_earlier (v_status v) (v_status v') -> up v -> up v'.
Proof. unfold no_earlier, up. destruct (v_status v), (v_status v'); try done; cbn; lia. Qed.
Record FInv (x : option key) (s : kapi) : Prop := {
  f_lt : forall k f, a_waiters s !! k = Some f -> f < length (a_flags s);
  f_inj : forall k k' f, a_waiters s !! k = Some f -> a_waiters s !! k' = Some f -> k = k';
  f_req : forall i u k f, a_reqs s !! i = Some (RWait u k f) -> f < length (a_flags s) /\ (a_waiters s !! k = Some f \/ (a_flags s !! f = Some true /\ dead k s));
  f_down : forall k f, a_waiters s !! k = Some f -> a_flags s !! f = Some true -> exists v, clusters (a_view s) !! k = Some v /\ up v;
  f_up : forall k v, x <> Some k -> clusters (a_view s) !! k = Some v -> up v -> exists f, a_waiters s !! k = Some f /\ a_flags s !! f = Some true }.
Lemma dead_same k s s' : dead k s -> a_view s' = a_view s -> a_srv s' = a_srv s -> a_pos s' = a_pos s -> a_gone s' = a_gone s -> dead k s'.
Proof.
  intros Hd E1 E2 E3 E4 i. apply (since_frame i k s); [apply Hd|done| | |].
  - intros j y. by apply ver_srv.
  - unfold pos. by rewrite E3.
  - intros Hk. rewrite E4. split; [done|]. by apply len_srv.
Qed.
Lemma finv_frame x s s' : FInv x s -> a_flags s' = a_flags s -> a_waiters s' = a_waiters s -> clusters (a_view s') = clusters (a_view s) ->
  (forall i u k f, a_reqs s' !! i = Some (RWait u k f) -> exists j, a_reqs s !! j = Some (RWait u k f)) -> (forall k, dead k s -> dead k s') -> FInv x s'.
Proof.
  intros [H1 H2 H3 H4 H5] E1 E2 E3 E4 E5. constructor; rewrite ?E1, ?E2, ?E3; try done.
  intros i u k f Hi. destruct (E4 i u k f Hi) as [j Hj]. destruct (H3 j u k f Hj) as [A [B|[B C]]]; auto.
Qed.
Lemma finv_waiter x k s : FInv x s -> FInv x (waiter k s).2 /\ a_waiters (waiter k s).2 !! k = Some (waiter k s).1.
Proof.
  intros [H1 H2 H3 H4 H5]. unfold waiter. destruct (a_waiters s !! k) as [f|] eqn:Ew; cbn [fst snd]; [split; [done|done]|].
  split; [|unfold set_flags; cbn [a_waiters]; by rewrite lookup_insert]. unfold set_flags.
  assert (forall g, g < length (a_flags s) -> (a_flags s ++ [false]) !! g = a_flags s !! g) as Hg by (intros g Hl; by apply lookup_app_l).
  constructor; cbn [a_flags a_waiters a_view a_reqs]; rewrite ?app_length; cbn [length].
  - intros k' f. destruct (decide (k' = k)) as [->|Hne]; [rewrite lookup_insert; intros [= <-]; lia|rewrite lookup_insert_ne by done]. intros E. apply H1 in E. lia.
  - intros k1 k2 f. destruct (decide (k1 = k)) as [->|Hne1]; [rewrite lookup_insert; intros [= <-]|rewrite lookup_insert_ne by done; intros E1]; (destruct (decide (k2 = k)) as [->|Hne2]; [rewrite lookup_insert|rewrite lookup_insert_ne by done]).
    + done.
    + intros E. apply H1 in E. lia.
    + intros [= <-]. apply H1 in E1. lia.
    + intros E2. by apply (H2 k1 k2 f).
  - intros i u k' f Hi. destruct (H3 i u k' f Hi) as [A B]. split; [lia|]. destruct B as [B|[B C]].
    + left. destruct (decide (k' = k)) as [->|Hne]; [congruence|by rewrite lookup_insert_ne].
    + right. split; [by rewrite Hg|]. by apply (dead_same k' s).
  - intros k' f. destruct (decide (k' = k)) as [->|Hne].
    + rewrite lookup_insert. intros [= <-]. rewrite list_lookup_middle by done. done.
    + rewrite lookup_insert_ne by done. intros E. rewrite Hg by (by eapply H1). by apply H4.
  - intros k' v Hx Hc Hu. destruct (H5 k' v Hx Hc Hu) as (f & A & B). exists f. assert (k' <> k) by congruence. rewrite lookup_insert_ne by done.
    split; [done|]. rewrite Hg by (by eapply H1). done.
Qed.
Lemma finv_raise k f v s : FInv (Some k) s -> a_waiters s !! k = Some f -> clusters (a_view s) !! k = Some v -> up v -> FInv None (raise_flag f s).
Proof.
  intros [H1 H2 H3 H4 H5] Hf Hc Hu. pose proof (H1 k f Hf) as Hl. unfold raise_flag, set_flags. constructor; cbn [a_flags a_waiters a_view a_reqs]; rewrite ?insert_length; try done.
  - intros i u k' f' Hi. destruct (H3 i u k' f' Hi) as [A [B|[B C]]]; [auto|]. split; [done|]. right. split; [|by apply (dead_same k' s)].
    destruct (decide (f' = f)) as [->|Hne]; [by apply list_lookup_insert|by rewrite list_lookup_insert_ne].
  - intros k' f' E. destruct (decide (f' = f)) as [->|Hne].
    + intros _. rewrite (H2 k' k f E Hf). eauto.
    + rewrite list_lookup_insert_ne by done. by apply H4.
  - intros k' v' _ Hc' Hu'. destruct (decide (k' = k)) as [->|Hne].
    + exists f. split; [done|]. by apply list_lookup_insert.
    + destruct (H5 k' v') as (f' & A & B); [congruence|done..|]. exists f'. split; [done|].
      destruct (decide (f' = f)) as [->|]; [by apply list_lookup_insert|by rewrite list_lookup_insert_ne].
Qed.
Lemma turned_status s s' k v v' : KInv s -> turned s s' -> clusters (a_view s) !! k = Some v -> clusters (a_view s') !! k = Some v' -> no_earlier (v_status v) (v_status v').
Proof.
  intros HI HT Hc Hc'. destruct (view_fwd s k v HI Hc) as (i & x & A & (_ & B & _) & C). pose proof (kinv_turned s s' HI HT) as HI'.
  pose proof (fwd_turned i k s s' HI HT C) as C'. destruct (turned_frame s s' HT) as (E & _).
  destruct (fwd_view s' k v' i x HI' C' (ver_srv s s' k i x E A) Hc') as (y & (_ & D & _) & (_ & F & _)). congruence.
Qed.
Lemma finv_turned s s' : KInv s -> turned s s' -> FInv None s -> FInv None s'.
Proof.
  intros HI HT HF. pose proof (fun k (H : dead k s) i => since_turned i k s s' HI HT (H i)) as Hdead. pose proof (turned_status s s') as Hst. specialize (fun k v v' => Hst k v v' HI HT).
  pose proof (kinv_turned s s' HI HT) as HI'.
  destruct HT as [V A1 A2 A3 A4|V k1 o A1 A2 A3 A4 A5 A6 A7|V k v1 c A1 A2 A3 A4 A5|V k A1 A2 A3 A4 A5 A6 A7].
  - apply (finv_frame None s); try done. eauto.
  - apply (finv_frame None s); try done. eauto.
  - destruct (synced_frame k (Some (v_status v1)) (set_view V s)) as (Q1 & Q2 & Q3 & Q4 & Q5).
    assert (FInv (if phase_num RUNNING <=? phase_num (v_status v1) then Some k else None) (set_view V s)) as HFV.
    { destruct HF as [H1 H2 H3 H4 H5]. constructor; try done.
      - intros i u k' f Hi. destruct (H3 i u k' f Hi) as [B [C|[C D]]]; [auto|]. split; [done|]. right. split; [done|].
        apply (dead_same k' (synced k (Some (v_status v1)) (set_view V s))); [exact (Hdead k' D)|congruence..].
      - intros k' f Hf Ht. destruct (H4 k' f Hf Ht) as (v & Hc & Hu). cbn [a_view set_view]. rewrite A2.
        destruct (decide (k' = k)) as [->|Hne]; [|rewrite lookup_insert_ne by done; eauto]. rewrite lookup_insert. eexists. split; [done|].
        apply (up_forward v); [|done]. apply (Hst k); [done|]. rewrite Q4. cbn [a_view set_view]. rewrite A2. apply lookup_insert.
      - intros k' v Hx Hc Hu. cbn [a_view set_view] in Hc. rewrite A2 in Hc. destruct (decide (k' = k)) as [->|Hne].
        + exfalso. rewrite lookup_insert in Hc. injection Hc as <-. unfold up in Hu. cbn [with_cred v_status] in Hu. apply Nat.leb_le in Hu. by rewrite Hu in Hx.
        + rewrite lookup_insert_ne in Hc by done. by apply (H5 k' v). }
    unfold synced. destruct (phase_num RUNNING <=? phase_num (v_status v1)) eqn:Eb; [|done].
    destruct (finv_waiter _ k _ HFV) as [G1 G2]. destruct (waiter_frame k (set_view V s)) as (_ & _ & _ & G3 & _).
    destruct (waiter k (set_view V s)) as [f s1]. cbn [fst snd] in *. apply (finv_raise k f (with_cred v1 c)); [done|done| |].
    + rewrite G3. cbn [a_view set_view]. rewrite A2. apply lookup_insert.
    + unfold up. cbn [with_cred v_status]. by apply Nat.leb_le.
  - pose proof (synced_frame k None (set_view V s)) as (Q1 & Q2 & Q3 & Q4 & Q5). assert (dead k (synced k None (set_view V s))) as Hk.
    { pose proof (ki_dirty s HI k A5) as P0. rewrite A1, (ki_cache s HI) in A6. destruct (cached_none s k HI A6 P0) as [B1 B2].
      apply dead_forgot.
      - rewrite Q4. cbn [a_view set_view]. rewrite A2. apply lookup_delete.
      - by rewrite Q2.
      - unfold pos. rewrite Q3. cbn [a_pos set_view]. fold (pos s k). rewrite B2. f_equal. symmetry. by apply len_srv.
      - intros v. rewrite Q4. cbn [a_view set_view]. rewrite A3. done. }
    destruct HF as [H1 H2 H3 H4 H5]. unfold synced in *. cbn [a_waiters set_view] in *. destruct (a_waiters s !! k) as [f|] eqn:Ew.
    + pose proof (H1 k f Ew) as Hl. constructor; unfold raise_flag, set_flags; cbn [a_flags a_waiters a_view a_reqs set_view]; rewrite ?insert_length.
      * intros k' f' E. apply lookup_delete_Some in E as [_ E]. by apply (H1 k').
      * intros k1 k2 f' E1 E2. apply lookup_delete_Some in E1 as [_ E1], E2 as [_ E2]. by apply (H2 k1 k2 f').
      * intros i u k' f' Hi. destruct (H3 i u k' f' Hi) as [B C]. split; [done|]. destruct (decide (k' = k)) as [->|Hne].
        { right. split; [|done]. destruct C as [C|[C D]]; [rewrite Ew in C; injection C as <-; by apply list_lookup_insert|].
          destruct (decide (f' = f)) as [->|]; [by apply list_lookup_insert|by rewrite list_lookup_insert_ne]. }
        destruct C as [C|[C D]]; [left; by rewrite lookup_delete_ne|]. right. split; [|exact (Hdead k' D)].
        destruct (decide (f' = f)) as [->|]; [by apply list_lookup_insert|by rewrite list_lookup_insert_ne].
      * intros k' f' E Ht. apply lookup_delete_Some in E as [Hne E]. rewrite A2, lookup_delete_ne by done. apply (H4 k' f'); [done|].
        rewrite list_lookup_insert_ne in Ht; [done|]. intros ->. apply Hne. by apply (H2 k k' f').
      * intros k' v _ Hc Hu. rewrite A2 in Hc. apply lookup_delete_Some in Hc as [Hne Hc]. destruct (H5 k' v) as (f' & B & C); [done..|].
        exists f'. rewrite lookup_delete_ne by done. split; [done|]. rewrite list_lookup_insert_ne; [done|]. intros ->. apply Hne. by apply (H2 k k' f').
    + constructor; try done.
      * intros i u k' f' Hi. destruct (H3 i u k' f' Hi) as [B [C|[C D]]]; [auto|]. split; [done|]. right. split; [done|exact (Hdead k' D)].
      * intros k' f' E Ht. cbn [a_view set_view]. rewrite A2. destruct (decide (k' = k)) as [->|Hne]; [cbn in E; congruence|]. rewrite lookup_delete_ne by done. by apply (H4 k' f').
      * intros k' v _ Hc Hu. cbn [a_view set_view] in Hc. rewrite A2 in Hc. apply lookup_delete_Some in Hc as [Hne Hc]. by apply (H5 k' v).
Qed.
Lemma finv_step s e s' o : KInv s -> CInv s -> FInv None s -> kstep s e = (s', o) -> FInv None s'.
Proof.
  intros HI HC HF Hs. destruct (step_keeps s e s' o HI HC Hs) as (_ & _ & Hk). assert (e <> KRestart -> forall k, dead k s -> dead k s') as Hd by (intros He k H i; by apply Hk).
  clear Hk. assert (forall r, (forall u k f, r <> RWait u k f) -> (forall k, dead k s -> dead k (begins r s)) -> FInv None (begins r s)) as Hb.
  { intros r Hr Hd'. apply (finv_frame None s); try done. intros i u k f Hi. apply begins_at in Hi as [Hi|[_ Hi]]; [eauto|]. by destruct (Hr u k f). }
  assert (forall i, (forall k, dead k s -> dead k (ends i s)) -> FInv None (ends i s)) as He.
  { intros i Hd'. apply (finv_frame None s); try done. intros j u k f Hi. apply ends_at in Hi as [_ Hi]; [eauto|done]. }
  assert (forall i k x, (forall k', dead k' s -> dead k' (ends i (write k x s))) -> FInv None (ends i (write k x s))) as Hw.
  { intros i k x Hd'. apply (finv_frame None s); try done. intros j u k' f Hi. apply (ends_at i s) in Hi as [_ Hi]; [eauto|done]. }
  destruct e as [u k1|u k1|u k1|u k1|i r|i late|k1 o'|k1|k1 n|k1|r|]; cbn [kstep] in Hs; try (specialize (Hd ltac:(done))).
  - destruct (_ || _); injection Hs as <- <-; [done|]. by apply Hb.
  - injection Hs as <- <-. by apply Hb.
  - destruct (finv_waiter None k1 s HF) as [G1 G2]. destruct (waiter_frame k1 s) as (E1 & E2 & E3 & E4 & E5). destruct (waiter k1 s) as [f s1]. injection Hs as <- <-. cbn [fst snd] in *.
    destruct G1 as [H1 H2 H3 H4 H5]. constructor; try done. intros i u' k' f' Hi. apply begins_at in Hi as [Hi|[_ Hi]].
    + destruct (H3 i u' k' f' Hi) as [A [B|[B C]]]; [auto|]. split; [done|]. right. split; [done|]. by apply (dead_same k' s1).
    + injection Hi as -> -> ->. split; [by apply (H1 k1)|]. by left.
  - unfold delete_request in Hs. destruct (get_cluster (a_view s) k1) as [v|]; [|injection Hs as <- <-; by apply Hb].
    destruct u as [u|]; [destruct (decide (v_user v = u))|]; [destruct (_ <=? _)| |destruct (_ <=? _)]; injection Hs as <- <-; by apply Hb.
  - destruct (a_reqs s !! i) as [[u k1|u k1 f|u k1|]|] eqn:Hi; try (by injection Hs as <- <-).
    + destruct r; injection Hs as <- <-; auto.
    + destruct (newest s k1); [|injection Hs as <- <-; auto]. destruct r; injection Hs as <- <-; auto.
  - destruct (a_reqs s !! i) as [[u k1|u k1 f|u k1|]|] eqn:Hi; try (by injection Hs as <- <-). destruct (_ || _); injection Hs as <- <-; auto.
  - destruct (newest s k1) as [y|]; [|by injection Hs as <- <-]. destruct (follows _ _); injection Hs as <- <-; [|done]. apply (finv_frame None s); try done. eauto.
  - destruct (newest s k1); injection Hs as <- <-; [|done]. apply (finv_frame None s); try done. eauto.
  - apply watch_case in Hs as [->|(p & V & _ & -> & _ & Hcl & _)]; [done|]. apply (finv_frame None s); try done. eauto.
  - injection Hs as <- <-. apply (finv_turned s); [done|apply loop_get|done].
  - injection Hs as <- <-. apply (finv_turned s); [done|apply loop_secret|done].
  - injection Hs as <- <-. constructor; try done. intros i u k f Hi. cbn [restart a_reqs] in Hi. rewrite list_lookup_fmap in Hi. by destruct (a_reqs s !! i).
Qed.
Lemma finv_all h s : kreach h s -> FInv None s.
Proof.
  revert h s. apply (exec_ind_r kstep kinit (fun _ => FInv None)); [by constructor|]. intros h s e o s' Hr HF Hs. destruct (reach_inv h s Hr) as [HI HC]. by apply (finv_step s e s' o).
Qed.

(** A wait that ends early ends for a reason. *)
Lemma early h s i a : kreach h s -> (KFlag i false, Some (i, a)) ∈ h -> exists u k, asked h i (KGetWait u k) /\
  match a with AReport k' v => k' = k /\ v_user v = u /\ v_status v <> PENDING | ANotFound k' => k' = k /\ k ∈ a_gone s | AForbidden k' => k' = k | _ => False end.
Proof.
  intros Hr He. destruct (leads_split h s _ _ Hr He) as (h1 & s1 & s2 & h2 & -> & H1 & Hs & Hl). destruct (reach_inv h1 s1 H1) as [HI HC]. pose proof (finv_all h1 s1 H1) as HF.
  destruct (answer_look s1 _ s2 i a Hs) as [(u & k & ? & _)|[(u & k & f & late & E & Hi & Ha & Hf)|[(u & k & ? & _)|(r & ?)]]]; [done| |done|done].
  injection E as <-. specialize (Hf eq_refl). exists u, k. split.
  { destruct (asked_all h1 s1 H1 i _ Hi) as (e & A & B); [done|]. cbn in B. subst e. by apply asked_app. }
  subst a. unfold look, get_cluster. destruct (f_req None s1 HF i u k f Hi) as [_ [Hw|[_ Hd]]].
  - destruct (f_down None s1 HF k f Hw Hf) as (v & Hc & Hu). rewrite Hc. destruct (decide (v_user v = u)); [|done]. split; [done|]. split; [done|]. intros E. unfold up in Hu. rewrite E in Hu. cbn in Hu. lia.
  - destruct (dead_none k s1 Hd) as [-> Hg]. split; [done|]. pose proof (gone_step _ _ _ _ k Hs Hg) as Hg2. clear -Hg2 Hl. induction Hl as [s|s e o s1 h s2 Hs _ IH]; [done|]. apply IH. by eapply gone_step.
Qed.
(** No wake-up is missed. *)
Lemma wakes h s i u k f v : kreach h s -> a_reqs s !! i = Some (RWait u k f) -> get_cluster (a_view s) k = Some v -> v_status v <> PENDING ->
  exists s', kstep s (KFlag i false) = (s', Some (i, look u k s)).
Proof.
  intros Hr Hi Hc Hv. pose proof (finv_all h s Hr) as HF. assert (up v) as Hu by (unfold up; destruct (v_status v); cbn; [done|lia..]).
  destruct (f_up None s HF k v) as (f' & A & B); [done..|]. destruct (f_req None s HF i u k f Hi) as [_ [Hw|[_ Hd]]].
  - rewrite A in Hw. injection Hw as ->. cbn [kstep]. rewrite Hi, B. cbn. eauto.
  - destruct (dead_none k s Hd). unfold get_cluster in Hc. congruence.
Qed.
Lemma wakes_deleted h s i u k f v e s' o : kreach h s -> a_reqs s !! i = Some (RWait u k f) -> get_cluster (a_view s) k = Some v -> kstep s e = (s', o) -> e <> KRestart ->
  get_cluster (a_view s') k = None -> exists s2, kstep s' (KFlag i false) = (s2, Some (i, ANotFound k)).
Proof.
  intros Hr Hi Hc Hs Hne Hn. pose proof (finv_all h s Hr) as HF. destruct (f_req None s HF i u k f Hi) as [Hl [Hw|[_ Hd]]].
  2:{ destruct (dead_none k s Hd). unfold get_cluster in Hc. congruence. }
  assert (forall t, turned s t -> clusters (a_view t) !! k = None -> a_reqs t = a_reqs s /\ a_flags t !! f = Some true) as HT.
  { intros t HT Ht. split; [apply (turned_frame s t HT)|]. destruct HT as [V A1 A2 A3 A4|V k1 o1 A1 A2 A3 A4 A5 A6 A7|V k1 v1 c A1 A2 A3 A4 A5|V k1 A1 A2 A3 A4 A5 A6 A7].
    - cbn [a_view set_view] in Ht. rewrite A2 in Ht. unfold get_cluster in Hc. congruence.
    - cbn [a_view set_view] in Ht. rewrite A2 in Ht. unfold get_cluster in Hc. congruence.
    - destruct (synced_frame k1 (Some (v_status v1)) (set_view V s)) as (_ & _ & _ & Q & _). rewrite Q in Ht. cbn [a_view set_view] in Ht. rewrite A2 in Ht. unfold get_cluster in Hc.
      destruct (decide (k1 = k)) as [->|]; [rewrite lookup_insert in Ht; done|]. rewrite lookup_insert_ne in Ht by done. congruence.
    - destruct (synced_frame k1 None (set_view V s)) as (_ & _ & _ & Q & _). rewrite Q in Ht. cbn [a_view set_view] in Ht. rewrite A2 in Ht. unfold get_cluster in Hc.
      destruct (decide (k1 = k)) as [->|]; [|rewrite lookup_delete_ne in Ht by done; congruence]. unfold synced. cbn [a_waiters set_view]. rewrite Hw. cbn. by apply list_lookup_insert. }
  unfold get_cluster in Hc, Hn. assert (a_reqs s' = a_reqs s /\ a_flags s' !! f = Some true) as [E1 E2].
  { destruct e as [u1 k1|u1 k1|u1 k1|u1 k1|i1 r|i1 late|k1 o'|k1|k1 n|k1|r|]; cbn [kstep] in Hs.
    - destruct (_ || _); injection Hs as <- <-; cbn in Hn; congruence.
    - injection Hs as <- <-; cbn in Hn; congruence.
    - destruct (waiter_frame k1 s) as (_ & _ & _ & E4 & _). destruct (waiter k1 s) as [f1 s1]. injection Hs as <- <-. cbn [begins set_reqs a_view snd] in *. congruence.
    - destruct (delete_request u1 k1 s); injection Hs as <- <-; cbn in Hn; congruence.
    - destruct (a_reqs s !! i1) as [[u2 k2|u2 k2 f2|u2 k2|]|]; try (injection Hs as <- <-; cbn in Hn; congruence).
      + destruct r; injection Hs as <- <-; cbn in Hn; congruence.
      + destruct (newest s k2); [|injection Hs as <- <-; cbn in Hn; congruence]. destruct r; injection Hs as <- <-; cbn in Hn; congruence.
    - destruct (a_reqs s !! i1) as [[u2 k2|u2 k2 f2|u2 k2|]|]; try (injection Hs as <- <-; cbn in Hn; congruence). destruct (_ || _); injection Hs as <- <-; cbn in Hn; congruence.
    - destruct (newest s k1) as [y|]; [|injection Hs as <- <-; congruence]. destruct (follows _ _); injection Hs as <- <-; cbn in Hn; congruence.
    - destruct (newest s k1); injection Hs as <- <-; cbn in Hn; congruence.
    - apply watch_case in Hs as [->|(p & V & _ & -> & _ & Hcl & _)]; [congruence|]. cbn [a_view set_view] in Hn. congruence.
    - injection Hs as <- <-. apply HT; [apply loop_get|done].
    - injection Hs as <- <-. apply HT; [apply loop_secret|done].
    - done. }
  cbn [kstep]. rewrite E1, Hi, E2. cbn. unfold look, get_cluster. rewrite Hn. eauto.
Qed.

(** * Catching up *)
Lemma inv_fst s e : Inv s -> Inv (step s e).1.
Proof. intros H. by apply (inv_step s e _ tt). Qed.
Lemma vinv_step s e s' o : KInv s -> kstep s e = (s', o) -> Inv (a_view s) -> Inv (a_view s').
Proof.
  intros HI Hs Hv. destruct e as [u k1|u k1|u k1|u k1|i r|i late|k1 o'|k1|k1 n|k1|r|]; cbn [kstep] in Hs.
  - destruct (_ || _); by injection Hs as <- <-.
  - by injection Hs as <- <-.
  - destruct (waiter_frame k1 s) as (_ & _ & _ & E & _). destruct (waiter k1 s) as [f s1]. injection Hs as <- <-. cbn in *. by rewrite E.
  - destruct (delete_request u k1 s); by injection Hs as <- <-.
  - destruct (a_reqs s !! i) as [[u k1|u k1 f|u k1|]|]; try (by injection Hs as <- <-).
    + destruct r; by injection Hs as <- <-.
    + destruct (newest s k1); [|by injection Hs as <- <-]. destruct r; by injection Hs as <- <-.
  - destruct (a_reqs s !! i) as [[u k1|u k1 f|u k1|]|]; try (by injection Hs as <- <-). destruct (_ || _); by injection Hs as <- <-.
  - destruct (newest s k1) as [y|]; [|by injection Hs as <- <-]. destruct (follows _ _); by injection Hs as <- <-.
  - destruct (newest s k1); by injection Hs as <- <-.
  - apply watch_case in Hs as [->|(p & V & _ & -> & _ & _ & HV)]; [done|]. cbn [a_view set_view].
    destruct HV as [(x & _ & ->)|[(_ & ->)|(_ & _ & ->)]]; [| |done]; by apply inv_fst.
  - injection Hs as <- <-. unfold loop. destruct (finished (a_view s) (EGet k1)) as [[k p]|]; [destruct (synced_frame k p (set_view (step (a_view s) (EGet k1)).1 s)) as (_ & _ & _ & -> & _)|];
      cbn [a_view set_view]; by apply inv_fst.
  - injection Hs as <- <-. unfold loop. destruct (finished (a_view s) (ESecret r)) as [[k p]|]; [destruct (synced_frame k p (set_view (step (a_view s) (ESecret r)).1 s)) as (_ & _ & _ & -> & _)|];
      cbn [a_view set_view]; by apply inv_fst.
  - injection Hs as <- <-. constructor; try done. intros k [Hd _]. change (dirty (a_view (restart s))) with (dom (cache (a_view (restart s)))) in Hd. apply not_elem_of_dom in Hd.
    rewrite Hd. done.
Qed.
Lemma vinv_all h s : kreach h s -> Inv (a_view s).
Proof.
  revert h s. apply (exec_ind_r kstep kinit (fun _ s => Inv (a_view s))); [constructor; try done|]. intros h s e o s' Hr HF Hs. destruct (reach_inv h s Hr) as [HI HC]. by apply (vinv_step s e s' o).
Qed.
Lemma caught_up_current h s k : kreach h s -> caught_up s k ->
  match newest s k, get_cluster (a_view s) k with Some x, Some v => shown (so_obj x) v | None, None => True | _, _ => False end.
Proof.
  intros Hr [Hp Hd]. destruct (reach_inv h s Hr) as [HI HC]. pose proof (i_rel _ (vinv_all h s Hr) k Hd) as Hrel. unfold related in Hrel.
  assert (cache (a_view s) !! k = so_obj <$> newest s k) as Hc.
  { rewrite (ki_cache s HI). unfold cached, newest. fold (pos s k) (len s k) (is_gone s k) in Hp. unfold is_gone in Hp. rewrite Hp. unfold len.
    destruct (a_srv s !! k) as [vs|] eqn:E; cbn [default mbind option_bind]; unfold id.
    - pose proof (ci_full s HC k vs E) as Hf. destruct (decide (k ∈ a_gone s)).
      + rewrite decide_False by lia. apply fmap_None, lookup_ge_None. lia.
      + rewrite decide_False by (destruct vs; [done|cbn; lia]). rewrite last_lookup. f_equal. f_equal. lia.
    - destruct (decide (k ∈ a_gone s)) as [Hg|]; [destruct (ci_gone s HC k Hg); congruence|done]. }
  rewrite Hc in Hrel. unfold get_cluster. destruct (newest s k), (clusters (a_view s) !! k); done.
Qed.
(** Catching up takes steps of the gateway only. *)
Lemma loops es s : Forall (fun e => match e with EGet _ | ESecret (Some _) => True | _ => False end) es ->
  exists h s', kleads s h s' /\ Forall (fun eo => own_step (fst eo)) h /\ a_view s' = fst (run step (a_view s) es) /\ a_srv s' = a_srv s /\ a_gone s' = a_gone s /\ a_pos s' = a_pos s.
Proof.
  revert s. induction es as [|e es IH]; intros s Hf.
  { exists [], s. split; [constructor|]. split; [constructor|]. done. }
  inversion Hf as [|? ? He Hf']; subst. assert (exists ke, own_step ke /\ kstep s ke = (loop e s, None)) as (ke & Hk & Hs).
  { destruct e as [| |k|[r|]]; try done; [exists (KSync k)|exists (KSecret (Some r))]; done. }
  assert (a_view (loop e s) = (step (a_view s) e).1 /\ a_srv (loop e s) = a_srv s /\ a_gone (loop e s) = a_gone s /\ a_pos (loop e s) = a_pos s) as (V1 & V2 & V3 & V4).
  { unfold loop. destruct (finished (a_view s) e) as [[k p]|]; [|done]. destruct (synced_frame k p (set_view (step (a_view s) e).1 s)) as (-> & -> & -> & -> & _). done. }
  destruct (IH (loop e s) Hf') as (h & s' & A & B & C & D & E & F). exists ((ke, None) :: h), s'. split; [by econstructor|]. split; [by constructor|].
  split; [|split; [congruence|split; congruence]]. rewrite C, V1. cbn [run]. destruct (step (a_view s) e) as [t u]. cbn [fst]. by destruct (run step t es).
Qed.
Lemma watch_all h s k : kreach h s -> exists s1, kstep s (KWatch k (len s k + 1)) = (s1, None) /\ pos s1 k = len s1 k + is_gone s1 k /\ a_srv s1 = a_srv s /\ a_gone s1 = a_gone s.
Proof.
  intros Hr. destruct (reach_inv h s Hr) as [HI _]. pose proof (ki_pos s HI k) as Hp. cbn [kstep]. cbv zeta. fold (pos s k) (len s k) (is_gone s k).
  assert (is_gone s k <= 1) by (unfold is_gone; destruct (decide _); lia). replace (Nat.min (pos s k + (len s k + 1)) (len s k + is_gone s k)) with (len s k + is_gone s k) by lia.
  destruct (decide (pos s k < len s k + is_gone s k)); [|exists s; split; [done|]; split; [lia|done]].
  assert (pos (KA (a_srv s) (a_gone s) (<[k:=len s k + is_gone s k]> (a_pos s)) (a_view s) (a_flags s) (a_waiters s) (a_reqs s)) k = len s k + is_gone s k) as Ep by (rewrite pos_insert; by rewrite decide_True).
  destruct (default [] (a_srv s !! k) !! _); [eexists; split; [done|]; done|]. destruct (decide (pos s k = 0)); eexists; (split; [done|]); done.
Qed.
Lemma catches_up h s k : kreach h s -> exists h' s', kleads s h' s' /\ Forall (fun eo => own_step (fst eo)) h' /\ caught_up s' k /\ newest s' k = newest s k.
Proof.
  intros Hr. destruct (watch_all h s k Hr) as (s1 & H1 & H2 & H3 & H4). destruct (drains (a_view s1)) as (es & E1 & E2 & _).
  destruct (loops es s1 E1) as (h2 & s2 & A & B & C & D & E & F). exists ((KWatch k (len s k + 1), None) :: h2), s2. split; [by econstructor|]. split; [by constructor|].
  split; [split|].
  - fold (pos s2 k) (len s2 k) (is_gone s2 k). rewrite (len_srv s1 s2 k D). unfold is_gone. rewrite E. fold (is_gone s1 k). rewrite <- H2. unfold pos. by rewrite F.
  - rewrite C. apply E2.
  - unfold newest. by rewrite E, D, H3, H4.
Qed.

(** * Memory *)
Lemma waiters_known h s k f : kreach h s -> a_waiters s !! k = Some f -> is_Some (get_cluster (a_view s) k) \/ exists i u, asked h i (KGetWait u k).
Proof.
  intros Hr. revert k f. revert h s Hr. apply (exec_ind_r kstep kinit (fun h s => forall k f, a_waiters s !! k = Some f -> is_Some (get_cluster (a_view s) k) \/ exists i u, asked h i (KGetWait u k))); [done|].
  intros h s e o s' Hr IH Hs k f Hw. assert (forall k f, a_waiters s !! k = Some f -> is_Some (get_cluster (a_view s) k) \/ exists i u, asked (h ++ [(e, o)]) i (KGetWait u k)) as IH'.
  { intros k' f' H. destruct (IH k' f' H) as [A|(i & u & A)]; [auto|]. right. exists i, u. by apply asked_app. }
  assert (forall t, turned s t -> forall k f, a_waiters t !! k = Some f -> is_Some (get_cluster (a_view t) k) \/ exists i u, asked (h ++ [(e, o)]) i (KGetWait u k)) as HT.
  { intros t HT k' f' H. unfold get_cluster in *. destruct HT as [V A1 A2 A3 A4|V k1 o1 A1 A2 A3 A4 A5 A6 A7|V k1 v1 c A1 A2 A3 A4 A5|V k1 A1 A2 A3 A4 A5 A6 A7].
    - cbn [a_view set_view]. rewrite A2. by apply (IH' k' f').
    - cbn [a_view set_view]. rewrite A2. by apply (IH' k' f').
    - destruct (synced_frame k1 (Some (v_status v1)) (set_view V s)) as (_ & _ & _ & Q & _). rewrite Q. cbn [a_view set_view]. rewrite A2.
      destruct (decide (k' = k1)) as [->|Hne]; [rewrite lookup_insert; eauto|]. rewrite lookup_insert_ne by done. apply (IH' k' f').
      revert H. unfold synced, waiter. cbn [a_waiters set_view]. destruct (_ <=? _); [|done]. destruct (a_waiters s !! k1); [done|]. cbn. by rewrite lookup_insert_ne.
    - destruct (synced_frame k1 None (set_view V s)) as (_ & _ & _ & Q & _). rewrite Q. cbn [a_view set_view]. rewrite A2.
      revert H. unfold synced. cbn [a_waiters set_view]. destruct (a_waiters s !! k1) as [g|] eqn:Eg; intros H.
      + cbn in H. apply lookup_delete_Some in H as [Hne H]. rewrite lookup_delete_ne by done. by apply (IH' k' f').
      + cbn in H. assert (k' <> k1) by congruence. rewrite lookup_delete_ne by done. by apply (IH' k' f'). }
  destruct e as [u1 k1|u1 k1|u1 k1|u1 k1|i1 r|i1 late|k1 o'|k1|k1 n|k1|r|]; pose proof Hs as Hs0; cbn [kstep] in Hs.
  - destruct (_ || _); injection Hs as <- <-; by apply (IH' k f).
  - injection Hs as <- <-; by apply (IH' k f).
  - destruct (waiter_frame k1 s) as (_ & _ & _ & E4 & _). destruct (waiter k1 s) as [f1 s1] eqn:Ew. injection Hs as <- <-. cbn [begins set_reqs a_view snd a_waiters] in *. rewrite E4.
    destruct (decide (k = k1)) as [->|Hne].
    + right. exists (length (a_reqs s)), u1, h, s, None, (begins (RWait u1 k1 f1) s1), []. split; [done|]. split; [done|]. split; [done|]. split; [done|].
      destruct (waiter_frame k1 s) as (_ & _ & _ & _ & E5). rewrite Ew in E5. cbn in E5. cbn. rewrite app_length, E5. cbn. lia.
    + apply (IH' k f). revert Ew Hw. unfold waiter. destruct (a_waiters s !! k1); intros [= <- <-]; [done|]. cbn. by rewrite lookup_insert_ne.
  - destruct (delete_request u1 k1 s); injection Hs as <- <-; by apply (IH' k f).
  - destruct (a_reqs s !! i1) as [[u2 k2|u2 k2 f2|u2 k2|]|]; try (injection Hs as <- <-; by apply (IH' k f)).
    + destruct r; injection Hs as <- <-; by apply (IH' k f).
    + destruct (newest s k2); [|injection Hs as <- <-; by apply (IH' k f)]. destruct r; injection Hs as <- <-; by apply (IH' k f).
  - destruct (a_reqs s !! i1) as [[u2 k2|u2 k2 f2|u2 k2|]|]; try (injection Hs as <- <-; by apply (IH' k f)). destruct (_ || _); injection Hs as <- <-; by apply (IH' k f).
  - destruct (newest s k1) as [y|]; [|injection Hs as <- <-; by apply (IH' k f)]. destruct (follows _ _); injection Hs as <- <-; by apply (IH' k f).
  - destruct (newest s k1); injection Hs as <- <-; by apply (IH' k f).
  - apply watch_case in Hs as [->|(p & V & _ & -> & _ & Hcl & _)]; [by apply (IH' k f)|]. unfold get_cluster. cbn [a_view set_view]. rewrite Hcl. by apply (IH' k f).
  - injection Hs as <- <-. apply (HT _ (loop_get k1 s) k f Hw).
  - injection Hs as <- <-. apply (HT _ (loop_secret r s) k f Hw).
  - injection Hs as <- <-. done.
Qed.
(** Names that do not exist. *)
Lemma leak n : exists h s, kreach h s /\ Forall (fun eo => match fst eo with KGetWait _ _ | KFlag _ true => True | _ => False end) h /\
  Forall (fun r => r = ROver) (a_reqs s) /\ a_view s = init /\ a_srv s = ∅ /\ size (a_waiters s) = n.
Proof.
  assert (exists h s, kreach h s /\ Forall (fun eo => match fst eo with KGetWait _ _ | KFlag _ true => True | _ => False end) h /\
    Forall (fun r => r = ROver) (a_reqs s) /\ a_view s = init /\ a_srv s = ∅ /\ size (a_waiters s) = n /\ forall m, n <= m -> a_waiters s !! Pos.of_succ_nat m = None) as (h & s & A & B & C & D & E & F & _); [|exists h, s; done].
  induction n as [|n (h & s & A & B & C & D & E & F & G)].
  { exists [], kinit. split; [constructor|]. split; [constructor|]. split; [constructor|]. done. }
  set (k := Pos.of_succ_nat n). set (i := length (a_reqs s)). pose proof (G n (le_n n)) as Gn. fold k in Gn.
  set (s1 := begins (RWait 1 k (length (a_flags s))) (set_flags (a_flags s ++ [false]) (<[k := length (a_flags s)]> (a_waiters s)) s)).
  exists (h ++ [(KGetWait 1 k, None); (KFlag i true, Some (i, ANotFound k))]), (ends i s1).
  assert (kstep s (KGetWait 1 k) = (s1, None)) as H1. { cbn [kstep]. unfold waiter. rewrite Gn. done. }
  assert (kstep s1 (KFlag i true) = (ends i s1, Some (i, ANotFound k))) as H2.
  { cbn [kstep]. unfold s1 at 1. unfold i. change (a_reqs s) with (a_reqs (set_flags (a_flags s ++ [false]) (<[k:=length (a_flags s)]> (a_waiters s)) s)).
    rewrite begins_self. cbn [orb]. unfold look, get_cluster. change (a_view s1) with (a_view s). rewrite D. done. }
  split; [apply exec_app; exists s; split; [done|]; by repeat econstructor|]. split; [apply Forall_app; split; [done|by repeat constructor]|].
  split; [|split; [done|split; [done|split]]].
  - apply Forall_lookup. intros j r Hj. assert (r = ROver \/ r <> ROver) as [->|Hr] by (destruct r; auto); [done|]. apply ends_at in Hj as [Hne Hj]; [|done]. apply begins_at in Hj as [Hj|[Hj _]]; [|by destruct Hne].
    rewrite Forall_lookup in C. by apply (C j).
  - change (a_waiters (ends i s1)) with (<[k := length (a_flags s)]> (a_waiters s)). rewrite map_size_insert_None by done. by rewrite F.
  - intros m Hm. change (a_waiters (ends i s1)) with (<[k := length (a_flags s)]> (a_waiters s)). rewrite lookup_insert_ne; [apply G; lia|]. unfold k. lia.
Qed.

(** * Statements about histories *)
Lemma reach_mid h1 x h2 s : kreach (h1 ++ x :: h2) s -> exists s1 s2, kreach h1 s1 /\ kstep s1 x.1 = (s2, x.2) /\ kleads s2 h2 s.
Proof. intros (s1 & A & B)%exec_app. inversion B as [|? e o s2 ? ? Hs Hl]; subst. exists s1, s2. done. Qed.
Lemma forward_h h1 e1 i1 k v1 h2 e2 i2 v2 h3 s : kreach (h1 ++ (e1, Some (i1, AReport k v1)) :: h2 ++ (e2, Some (i2, AReport k v2)) :: h3) s ->
  v_user v1 = v_user v2 /\ no_earlier (v_status v1) (v_status v2).
Proof.
  intros (s1 & A & B)%exec_app. rewrite app_comm_cons in B. apply exec_app in B as (s2 & B & C). inversion C as [|? ? ? s3 ? ? Hs _]; subst.
  by apply (forward h1 s1 e1 i1 k v1 h2 s2 e2 i2 v2 s3).
Qed.
Lemma gone_leads s h s' k : kleads s h s' -> k ∈ a_gone s -> k ∈ a_gone s'.
Proof. induction 1 as [s|s e o s1 h s2 Hs _ IH]; [done|]. intros H. apply IH. by eapply gone_step. Qed.
Lemma not_found s e s' i k : kstep s e = (s', Some (i, ANotFound k)) -> get_cluster (a_view s) k = None.
Proof.
  intros Hs. assert (forall u k', look u k' s = ANotFound k -> get_cluster (a_view s) k = None) as Hl.
  { intros u k'. unfold look. destruct (get_cluster (a_view s) k') as [v|] eqn:E; [destruct (decide _); done|]. by intros [= <-]. }
  destruct (answer_look s e s' i _ Hs) as [(u & k' & -> & -> & H)|[(u & k' & f & late & -> & Hi & H & _)|[(u & k' & -> & -> & H)|(r & ->)]]].
  - by eapply Hl.
  - by eapply Hl.
  - unfold delete_request in H. destruct (get_cluster (a_view s) k'); [|done]. destruct u; [destruct (decide _)|]; try destruct (_ <=? _); done.
  - cbn [kstep] in Hs. destruct (a_reqs s !! i) as [[u k1|u k1 f|u k1|]|]; try done; [destruct r; done|]. destruct (newest s k1); [destruct r|]; done.
Qed.
Lemma stays_h h1 e1 i1 k v h2 e2 i2 h3 s : kreach (h1 ++ (e1, Some (i1, AReport k v)) :: h2 ++ (e2, Some (i2, ANotFound k)) :: h3) s -> same_process h2 -> k ∈ a_gone s.
Proof.
  intros (s1 & A & B)%exec_app Hp. rewrite app_comm_cons in B. apply exec_app in B as (s2 & B & C). inversion C as [|? ? ? s3 ? ? Hs Hl]; subst.
  apply (gone_leads s3 h3 s k Hl), (gone_step s2 e2 s3 _ k Hs), (stays_found h1 s1 e1 i1 k v h2 s2 A B Hp). by apply (not_found s2 e2 s3 i2).
Qed.
