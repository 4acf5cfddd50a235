(** Property C149: no client keeps the proxy from serving the others. *)
From Coq Require Import Ascii String Lia.
From stdpp Require Import prelude.
From Verif Require Import Router_Model Accept_Model Accept_Spec.

Lemma after_cons c e es s : after c (e :: es) s = after c es (step c s e). Proof. done. Qed.
Lemma after_app c x y s : after c (x ++ y) s = after c y (after c x s). Proof. unfold after. apply fold_left_app. Qed.
Lemma after_dead c es s : alive s = false -> after c es s = s.
Proof. induction es as [|e es IH]; intros H; [done|]. rewrite after_cons. unfold step. rewrite H. cbn [negb]. by apply IH. Qed.
Lemma handle_cases c s i p e : handle c s i p e = s \/ exists p' o k, handle c s i p e = move i p' o k s /\ holds p + o = holds p' + k /\ (o = 0 \/ fds s < limit c) /\
     k <= holds p /\ (forall a n, p = Copying a n -> p' = Closed \/ exists n', p' = Copying a n' /\ n' <= n) /\ p <> Closed /\ (forall a n, p' = Copying a n -> n <= 2 \/ exists m, p = Copying a m /\ n <= m).
Proof.
  assert (forall x p' o k, x = move i p' o k s -> holds p + o = holds p' + k -> (o = 0 \/ fds s < limit c) -> k <= holds p -> (forall a n, p = Copying a n -> p' = Closed \/ exists n', p' = Copying a n' /\ n' <= n) -> p <> Closed -> (forall a n, p' = Copying a n -> n <= 2 \/ exists m, p = Copying a m /\ n <= m) ->
    x = s \/ exists p' o k, x = move i p' o k s /\ holds p + o = holds p' + k /\ (o = 0 \/ fds s < limit c) /\ k <= holds p /\ (forall a n, p = Copying a n -> p' = Closed \/ exists n', p' = Copying a n' /\ n' <= n) /\ p <> Closed /\ (forall a n, p' = Copying a n -> n <= 2 \/ exists m, p = Copying a m /\ n <= m)) as K.
  { intros x p' o k H1 H2 H3 H4 H5 H6 H7. right. exists p', o, k. by split_and!. }
  destruct e as [|j h|j|j|j ok|j], p as [| | |a|a [|[|n]]|]; try (by left); try (destruct h as [| |nm]); try (by left); cbn [handle].
  all: try (eapply K; [reflexivity|done|by left|cbn; lia|naive_solver lia|done|naive_solver lia]).
  - destruct (shared c); (eapply K; [reflexivity|done|by left|cbn; lia|naive_solver lia|done|naive_solver lia]).
  - destruct (table c nm); (eapply K; [reflexivity|done|by left|cbn; lia|naive_solver lia|done|naive_solver lia]).
  - destruct (decide _) as [[_ Hl]|_]; (eapply K; [reflexivity|done|auto|cbn; lia|naive_solver lia|done|naive_solver lia]).
Qed.
Lemma step_cases c s e : step c s e = s \/
  (alive s = true /\ e = Accept /\ fds s < limit c /\ step c s e = Server true (conns s ++ [Reading]) (S (fds s))) \/
  (alive s = true /\ e = Accept /\ limit c <= fds s /\ step c s e = Server false (conns s) (fds s)) \/
  (alive s = true /\ exists i p p' o k, about e = Some i /\ conns s !! i = Some p /\ step c s e = move i p' o k s /\ holds p + o = holds p' + k /\ (o = 0 \/ fds s < limit c) /\
     k <= holds p /\ (forall a n, p = Copying a n -> p' = Closed \/ exists n', p' = Copying a n' /\ n' <= n) /\ p <> Closed /\ (forall a n, p' = Copying a n -> n <= 2 \/ exists m, p = Copying a m /\ n <= m)).
Proof.
  unfold step. destruct (alive s) eqn:Ha; cbn [negb]; [|by left].
  destruct (about e) as [i|] eqn:Hi.
  - destruct (conns s !! i) as [p|] eqn:Hp; [|by left].
    destruct (handle_cases c s i p e) as [->|(p' & o & k & H)]; [by left|]. right; right; right. split; [done|]. by exists i, p, p', o, k.
  - destruct e; try done. destruct (decide _) as [Hl|Hl]; right; [left|right; left]; split_and!; try done; lia.
Qed.

Lemma held_insert l i p p' : l !! i = Some p -> held (<[i:=p']> l) + holds p = held l + holds p'.
Proof.
  unfold held. revert i. induction l as [|x l IH]; intros [|i] H; [done..|injection H as ->|apply IH in H]; simpl; lia.
Qed.
Lemma held_app l p : held (l ++ [p]) = held l + holds p.
Proof. unfold held. induction l as [|x l IH]; simpl; lia. Qed.
Lemma held_open l : held l <= 2 * open l.
Proof. unfold held, open. induction l as [|x l IH]; [done|]. cbn [sum_list_with List.filter]. destruct x; cbn [holds length]; lia. Qed.
Lemma held_one l i p : l !! i = Some p -> holds p <= held l.
Proof. unfold held. revert i. induction l as [|x l IH]; intros [|i] H; [done..|injection H as ->|apply IH in H]; simpl; lia. Qed.

Lemma books_step c s e : fds s = base c + held (conns s) -> fds (step c s e) = base c + held (conns (step c s e)).
Proof.
  intros H. destruct (step_cases c s e) as [->|[(_ & _ & _ & ->)|[(_ & _ & _ & ->)|(_ & i & p & p' & o & k & _ & Hp & -> & Hk & _ & Hle & _)]]]; [done| |done|].
  - cbn [fds conns]. rewrite held_app. cbn [holds]. lia.
  - unfold move. cbn [fds conns]. pose proof (held_insert _ _ _ p' Hp). pose proof (held_one _ _ _ Hp). lia.
Qed.
Lemma books_after c es s : fds s = base c + held (conns s) -> fds (after c es s) = base c + held (conns (after c es s)).
Proof. revert s. induction es as [|e es IH]; intros s H; [done|]. rewrite after_cons. apply IH. by apply books_step. Qed.
Lemma reached_books c s : reached c s -> fds s = base c + held (conns s).
Proof. intros [es ->]. apply books_after. cbn. lia. Qed.
Lemma reached_step c s es : reached c s -> reached c (after c es s).
Proof. intros [x ->]. exists (x ++ es). by rewrite after_app. Qed.

Definition sane (s : server) : Prop := forall i a n, conns s !! i = Some (Copying a n) -> n <= 2.
Lemma sane_step c s e : sane s -> sane (step c s e).
Proof.
  intros H. destruct (step_cases c s e) as [->|[(_ & _ & _ & ->)|[(_ & _ & _ & ->)|(_ & i & p & p' & o & k & _ & Hp & -> & _ & _ & _ & _ & _ & Hn)]]]; [done| |done|].
  - intros i a n. cbn [conns]. intros [H1|[_ H1]]%lookup_app_Some; [by eapply H|]. apply list_lookup_singleton_Some in H1 as [_ H1]. done.
  - intros j a n. unfold move. cbn [conns]. intros [(-> & -> & _)|[_ H1]]%list_lookup_insert_Some; [|by eapply H].
    destruct (Hn _ _ eq_refl) as [?|(m & -> & ?)]; [done|]. apply H in Hp. lia.
Qed.
Lemma reached_sane c s : reached c s -> sane s.
Proof.
  intros [es ->]. assert (sane (init c)) as H0 by (by intros [|i] a n). revert H0. generalize (init c). induction es as [|e es IH]; intros s H0; [done|]. rewrite after_cons. apply IH. by apply sane_step.
Qed.

(** C149. No descriptor is leaked: whatever came and went, the proxy holds what it started with
    and what its open connections need... *)
Theorem C149_released : forall c s, reached c s -> fds s = base c + held (conns s) /\ (open (conns s) = 0 -> fds s = base c).
Proof. intros c s H. apply reached_books in H. split; [done|]. pose proof (held_open (conns s)). lia. Qed.

(** ...a connection of any kind can always be brought to its end, alone... *)
Theorem C149_ends : forall c s i p, reached c s -> alive s = true -> conns s !! i = Some p ->
  exists es, (forall e, In e es -> about e = Some i) /\ conns (after c es s) !! i = Some Closed /\ alive (after c es s) = true.
Proof.
  intros c s i p Hr Ha Hp. assert (forall a n, p = Copying a n -> n <= 2) as Hn by (intros a n ->; by eapply reached_sane).
  assert (forall s p', conns s !! i = Some p' -> forall q o k, conns (move i q o k s) !! i = Some q) as M.
  { intros s0 p' H q o k. unfold move. cbn [conns]. apply list_lookup_insert. by eapply lookup_lt_Some. }
  assert (forall e q o k, about e = Some i -> handle c s i p e = move i q o k s -> conns (after c [e] s) !! i = Some q /\ alive (after c [e] s) = true) as S1.
  { intros e q o k He Hh. cbn [after fold_left]. unfold step. rewrite Ha. cbn [negb]. rewrite He, Hp, Hh. split; [by eapply M|done]. }
  destruct p as [| | |a|a n|].
  - exists [Hello i HError]. split; [by intros e [<-|[]]|]. by apply (S1 _ _ 0 1).
  - exists [Take i; Drop i]. split; [by intros e [<-|[<-|[]]]|].
    destruct (S1 (Take i) Http 0 0 eq_refl eq_refl) as [H1 H2]. cbn [after fold_left] in H1, H2 |- *.
    set (s1 := step c s (Take i)) in *. unfold step. rewrite H2. cbn [negb about]. rewrite H1. cbn [handle]. split; [by eapply M|done].
  - exists [Drop i]. split; [by intros e [<-|[]]|]. by apply (S1 _ _ 0 1).
  - exists [Dialled i false]. split; [by intros e [<-|[]]|]. apply (S1 _ _ 0 1); [done|]. cbn [handle]. by rewrite decide_False by naive_solver.
  - specialize (Hn _ _ eq_refl). destruct n as [|[|[|n]]]; [| | |lia].
    + exists [Finished i]. split; [by intros e [<-|[]]|]. by apply (S1 _ _ 0 2).
    + exists [Finished i]. split; [by intros e [<-|[]]|]. by apply (S1 _ _ 0 2).
    + exists [Finished i; Finished i]. split; [by intros e [<-|[<-|[]]]|].
      destruct (S1 (Finished i) (Copying a 1) 0 0 eq_refl eq_refl) as [H1 H2]. cbn [after fold_left] in H1, H2 |- *.
      set (s1 := step c s (Finished i)) in *. unfold step. rewrite H2. cbn [negb about]. rewrite H1. cbn [handle]. split; [by eapply M|done].
  - exists []. by split_and!.
Qed.

(** ...what happens on one connection changes nothing about the others... *)
Theorem C149_independent : forall c s e i, about e <> Some i -> i < length (conns s) -> conns (step c s e) !! i = conns s !! i /\ (alive (step c s e) = alive s \/ e = Accept).
Proof.
  intros c s e i He Hi. destruct (step_cases c s e) as [->|[(Ha & _ & _ & ->)|[(_ & -> & _ & ->)|(_ & j & p & p' & o & k & Hj & Hp & -> & _)]]].
  - auto.
  - cbn [conns alive]. rewrite lookup_app_l by done. auto.
  - auto.
  - unfold move. cbn [conns alive]. rewrite list_lookup_insert_ne by congruence. auto.
Qed.

(** ...a client that names a cluster is connected to it, whatever the others did and do
    meanwhile, if a descriptor is left when it is dialled... *)
Theorem C149_served : forall c s i n a mid, alive s = true -> conns s !! i = Some Reading -> table c n = Some a ->
  (forall e, In e mid -> about e <> Some i) -> let s1 := after c (Hello i (HName n) :: mid) s in
  alive s1 = true -> fds s1 < limit c -> connected (after c (Hello i (HName n) :: mid ++ [Dialled i true]) s) i a.
Proof.
  intros c s i n a mid Ha Hi Ht Hmid s1 H1 H2. subst s1.
  assert (conns (after c (Hello i (HName n) :: mid) s) !! i = Some (Dialling a)) as Hd.
  { clear H1 H2. rewrite after_cons.
    assert (conns (step c s (Hello i (HName n))) !! i = Some (Dialling a)) as H0.
    { unfold step. rewrite Ha. cbn [negb about]. rewrite Hi. cbn [handle]. rewrite Ht. unfold move. cbn [conns]. apply list_lookup_insert. by eapply lookup_lt_Some. }
    revert H0. generalize (step c s (Hello i (HName n))). induction mid as [|e mid IH]; intros s0 H0; [done|]. rewrite after_cons. apply IH; [intros e' He'; apply Hmid; by right|].
    destruct (C149_independent c s0 e i) as [-> _]; [apply Hmid; by left|by eapply lookup_lt_Some|done]. }
  change (Hello i (HName n) :: mid ++ [Dialled i true]) with ((Hello i (HName n) :: mid) ++ [Dialled i true]). rewrite after_app.
  set (s1 := after c (Hello i (HName n) :: mid) s) in *. cbn [after fold_left]. unfold step. rewrite H1. cbn [negb about]. rewrite Hd. cbn [handle]. rewrite decide_True by done.
  split; [done|]. exists 2. unfold move. cbn [conns]. apply list_lookup_insert. by eapply lookup_lt_Some.
Qed.

(** ...and stays connected to that cluster or to nothing... *)
Theorem C149_same : forall c s i a n es, conns s !! i = Some (Copying a n) -> let p := conns (after c es s) !! i in p = Some Closed \/ exists m, p = Some (Copying a m).
Proof.
  intros c s i a n es H. assert (conns s !! i = Some Closed \/ exists m, conns s !! i = Some (Copying a m)) as H0 by eauto. clear H. cbn zeta.
  revert s H0. induction es as [|e es IH]; intros s H0; [done|]. rewrite after_cons. apply IH.
  assert (i < length (conns s)) as Hi by (destruct H0 as [H0|[m H0]]; by eapply lookup_lt_Some).
  destruct (decide (about e = Some i)) as [He|He]; [|destruct (C149_independent c s e i He Hi) as [-> _]; done].
  destruct (step_cases c s e) as [->|[(_ & -> & _)|[(_ & -> & _)|(_ & j & p & p' & o & k & Hj & Hp & -> & Hk & _ & Hle & Hc & Hne & _)]]]; try done.
  rewrite He in Hj. injection Hj as <-. unfold move. cbn [conns]. rewrite list_lookup_insert by done. destruct H0 as [H0|[m H0]]; rewrite H0 in Hp; injection Hp as <-.
  - done.
  - destruct (Hc _ _ eq_refl) as [->|(n' & -> & _)]; eauto.
Qed.

(** ...the connections meant for the HTTP server reach it, if it shares the address, and no other
    connection does... *)
Theorem C149_http : forall c s i h s', alive s = true -> conns s !! i = Some Reading -> s' = after c [Hello i h; Take i] s ->
  (conns s' !! i = Some Http <-> h = HOther /\ shared c = true).
Proof.
  intros c s i h s' Ha Hi ->.
  assert (forall s p', conns s !! i = Some p' -> forall q o k, conns (move i q o k s) !! i = Some q) as M.
  { intros s0 p' H q o k. unfold move. cbn [conns]. apply list_lookup_insert. by eapply lookup_lt_Some. }
  cbn [after fold_left].
  assert (forall q o k, step c s (Hello i h) = move i q o k s -> conns (step c (step c s (Hello i h)) (Take i)) !! i = Some (match q with Forwarding => Http | _ => q end)) as K.
  { intros q o k ->. unfold step. change (alive (move i q o k s)) with (alive s). rewrite Ha. cbn [negb about]. rewrite (M _ _ Hi).
    assert (conns (move i q o k s) !! i = Some q) as H by (by eapply M). destruct q; cbn [handle]; try done. by eapply M. }
  assert (step c s (Hello i h) = handle c s i Reading (Hello i h)) as E by (unfold step; rewrite Ha; cbn [negb about]; by rewrite Hi).
  destruct h as [| |n]; cbn [handle] in E.
  - rewrite (K _ _ _ E). naive_solver.
  - destruct (shared c); rewrite (K _ _ _ E); naive_solver.
  - destruct (table c n); rewrite (K _ _ _ E); naive_solver.
Qed.

(** ...and as long as twice the open connections leave descriptors free, the proxy runs. *)
Theorem C149_alive_partial : forall c es, (forall x y, es = x ++ Accept :: y -> base c + 2 * open (conns (after c x (init c))) < limit c) -> alive (after c es (init c)) = true.
Proof.
  intros c es. induction es as [|e es IH] using rev_ind; intros H; [done|]. rewrite after_app. cbn [after fold_left].
  assert (alive (after c es (init c)) = true) as Ha. { apply IH. intros x y ->. apply (H x (y ++ [e])). by rewrite <- app_assoc. }
  fold (after c es (init c)) in *. set (s := after c es (init c)) in *.
  destruct (step_cases c s e) as [->|[(_ & _ & _ & ->)|[(_ & -> & Hl & ->)|(_ & i & p & p' & o & k & _ & Hp & -> & _)]]]; try done.
  exfalso. pose proof (reached_books c s (ex_intro _ es eq_refl)) as Hb. pose proof (held_open (conns s)). specialize (H es [] eq_refl). fold s in H. lia.
Qed.

Lemma accepts c n s : alive s = true -> n <= limit c - fds s -> after c (repeat Accept n) s = Server true (conns s ++ repeat Reading n) (fds s + n).
Proof.
  revert s. induction n as [|n IH]; intros s Ha Hn.
  - destruct s; cbn in *. rewrite Ha, app_nil_r, Nat.add_0_r. done.
  - cbn [repeat]. rewrite after_cons. unfold step. rewrite Ha. cbn [negb about]. rewrite decide_True by lia. rewrite IH by (cbn; lia). cbn [conns fds]. f_equal; [by rewrite <- app_assoc|lia].
Qed.
(** But the clients bring it down, and need not send a byte for it: with so many connections
    exactly, whatever the proxy was doing, it ends, and everybody's connection is cut. *)
Theorem C149_alive_refuted : forall c s n, alive s = true -> (alive (after c (repeat Accept n) s) = false <-> limit c - fds s < n) /\
  (limit c - fds s < n -> forall i a es, ~ connected (after c (repeat Accept n ++ es) s) i a).
Proof.
  intros c s n Ha. assert (limit c - fds s < n -> alive (after c (repeat Accept n) s) = false) as Hd.
  { intros Hn. replace n with ((limit c - fds s) + S (n - (limit c - fds s) - 1)) by lia. rewrite repeat_app, after_app, (accepts c (limit c - fds s) s) by (done || lia). cbn [repeat]. rewrite after_cons.
    rewrite after_dead; unfold step; cbn [alive negb about fds]; rewrite decide_False by lia; done. }
  split; [split; [|done]|].
  - destruct (decide (limit c - fds s < n)) as [|Hn]; [done|]. rewrite accepts by (done || lia). done.
  - intros Hn i a es [H _]. rewrite after_app in H. rewrite (after_dead c es) in H by auto. rewrite Hd in H by done. done.
Qed.
(** And they may take their time: no one ends a connection on which nothing was sent. *)
Theorem C149_idle_refuted : forall c s i es, conns s !! i = Some Reading -> (forall e, In e es -> about e <> Some i) ->
  conns (after c es s) !! i = Some Reading /\ (reached c s -> base c < fds (after c es s)).
Proof.
  intros c s i es Hi Hes.
  assert (conns (after c es s) !! i = Some Reading) as H.
  { revert s Hi. induction es as [|e es IH]; intros s Hi; [done|]. rewrite after_cons. apply IH; [intros e' He'; apply Hes; by right|].
    destruct (C149_independent c s e i) as [-> _]; [apply Hes; by left|by eapply lookup_lt_Some|done]. }
  split; [done|]. intros Hr. apply (reached_step c s es) in Hr. apply reached_books in Hr. apply held_one in H. cbn [holds] in H. lia.
Qed.

(** A proxy that may open eight descriptors and has three: a client is connected to its cluster,
    a web page is served, one connection fails; three silent clients are enough to end it. *)
Definition b (s : string) : bytes := list_ascii_of_string s.
Definition demo : setup := Setup 3 8 true (fun n => if decide (n = b "c1") then Some (b "10.0.0.1:8786") else None).
Definition before : list event := [Accept; Hello 0 (HName (b "c1")); Accept; Dialled 0 true; Hello 1 HOther; Accept; Take 1; Hello 2 (HName (b "c2"))].
Example C149_example :
  after demo before (init demo) = Server true [Copying (b "10.0.0.1:8786") 2; Http; Closed] 6 /\
  connected (after demo before (init demo)) 0 (b "10.0.0.1:8786") /\
  alive (after demo (before ++ [Accept; Accept]) (init demo)) = true /\ alive (after demo (before ++ [Accept; Accept; Accept]) (init demo)) = false /\
  fds (after demo (before ++ [Finished 0; Drop 1; Finished 0]) (init demo)) = 3.
Proof. split_and!; try (vm_compute; reflexivity). split; [|exists 2]; vm_compute; reflexivity. Qed.

Print Assumptions C149_released.
Print Assumptions C149_ends.
Print Assumptions C149_independent.
Print Assumptions C149_served.
Print Assumptions C149_same.
Print Assumptions C149_http.
Print Assumptions C149_alive_partial.
Print Assumptions C149_alive_refuted.
Print Assumptions C149_idle_refuted.
