(** Proofs for C153: the invariant of the YARN backend. *)
From Coq Require Import ZArith Lia.
From stdpp Require Import prelude.
From Verif Require Import Router_Model ProxyLog_Model ProxyLog_Proofs Util_Model Util_Proofs2 Skein_Model.
Local Open Scope nat_scope.

Lemma dset_in {K V} `{EqDecision K} (k : K) (v : V) d x : x ∈ dset k v d -> x = (k, v) \/ x ∈ d.
Proof.
  induction d as [|[k0 v0] d IH]; cbn [dset]; [intros ?%elem_of_list_singleton; by left|]. case_decide as E; rewrite !elem_of_cons; [subst; tauto|]. intros [?|?%IH]; tauto.
Qed.
Lemma lru_get_in {V} (n : nat) (c : cache nat V) x : x ∈ fst (lru_get n c) -> x ∈ c.
Proof.
  unfold lru_get. destruct (dget n c) eqn:E; [|done]. cbn [fst]. rewrite elem_of_app, elem_of_list_singleton, ddel_in. intros [[? _]| ->]; [done|by apply dget_in].
Qed.
Lemma lru_put_in {V} m (n : nat) (v : V) c x : x ∈ fst (lru_put m n v c) -> x = (n, v) \/ x ∈ c.
Proof.
  unfold lru_put. case_decide; cbn [fst]; [|apply dset_in]. intros Hx. apply (dset_in n v c). destruct (dset n v c); [done|by right].
Qed.
Lemma lru_get_out {V} (n : nat) (c : cache nat V) : snd (lru_get n c) = dget n c.
Proof. unfold lru_get. by destruct (dget n c). Qed.
Lemma lru_get_length {V} (n : nat) (c : cache nat V) : length (fst (lru_get n c)) <= length c.
Proof.
  unfold lru_get. destruct (dget n c) eqn:E; [|done]. cbn [fst]. rewrite app_length. cbn. apply dget_in in E. pose proof (ddel_shorter n v c E). lia.
Qed.
Lemma dset_length {K V} `{EqDecision K} (k : K) (v : V) d : length (dset k v d) <= S (length d).
Proof. induction d as [|[k0 v0] d IH]; cbn [dset]; [done|]. case_decide; cbn; lia. Qed.
Lemma lru_put_length {V} m (n : nat) (v : V) c : length c <= m -> length (fst (lru_put m n v c)) <= m.
Proof.
  intros H. unfold lru_put. case_decide as E; cbn [fst]; [|lia]. pose proof (dset_length n v c). destruct (dset n v c); cbn in *; lia.
Qed.

(** * What never changes *)
Definition later_state (x y : app_state) : Prop := match x with Accepted => True | Running a => y = Running a \/ y = Ended | Ended => y = Ended end.
Definition app_le (a b : app) : Prop := a_cluster a = a_cluster b /\ a_cred a = a_cred b /\ later_state (a_state a) (a_state b) /\
  forall k w f, a_containers a !! k = Some (w, f) -> exists f', a_containers b !! k = Some (w, f').
Record ext (s s' : state) : Prop := {
  x_apps : forall i a, y_apps s !! i = Some a -> exists b, y_apps s' !! i = Some b /\ app_le a b;
  x_db : forall n v, dget n (y_db s) = Some v -> dget n (y_db s') = Some v;
  x_workers : forall w n o, dget w (y_workers s) = Some (n, o) -> exists o', dget w (y_workers s') = Some (n, o')
}.
Lemma app_le_refl a : app_le a a.
Proof. unfold app_le. split_and!; [done..| |eauto]. unfold later_state. destruct (a_state a); auto. Qed.
Lemma ext_refl s s' : y_apps s' = y_apps s -> y_db s' = y_db s -> y_workers s' = y_workers s -> ext s s'.
Proof. intros E1 E2 E3. split; [rewrite E1; intros i a; eauto using app_le_refl|by rewrite E2|rewrite E3; eauto]. Qed.
Lemma app_le_trans a b c : app_le a b -> app_le b c -> app_le a c.
Proof.
  intros (E1 & E2 & E3 & E4) (F1 & F2 & F3 & F4). unfold app_le. split_and!; [congruence..| |].
  - unfold later_state in *. destruct (a_state a), (a_state b); naive_solver.
  - intros k w f H. destruct (E4 k w f H) as [f' H']. eauto.
Qed.
Lemma ext_trans s s' s'' : ext s s' -> ext s' s'' -> ext s s''.
Proof.
  intros [A1 A2 A3] [B1 B2 B3]. split.
  - intros i a (b & Hb & Hab)%A1. destruct (B1 _ _ Hb) as (c & ? & ?). eauto using app_le_trans.
  - eauto.
  - intros w n o (o' & H)%A3. eauto.
Qed.
Lemma ext_put s i a a' : y_apps s !! i = Some a -> app_le a a' -> ext s (put_app s i a').
Proof.
  intros H Hle. split; [|done|eauto]. intros j b Hj. cbn [put_app y_apps]. destruct (decide (i = j)) as [->|].
  - exists a'. split; [apply list_lookup_insert; by eapply lookup_lt_Some|]. congruence.
  - rewrite list_lookup_insert_ne by done. eauto using app_le_refl.
Qed.
Lemma ended_le a : app_le a (set_state Ended a).
Proof. unfold app_le. cbn. split_and!; [done..| |eauto]. unfold later_state. destruct (a_state a); auto. Qed.

Lemma get_client_same m n s : let s' := fst (get_client m n s) in y_apps s' = y_apps s /\ y_db s' = y_db s /\ y_workers s' = y_workers s /\ y_calls s' = y_calls s.
Proof.
  unfold get_client. destruct (lru_get n (y_clients s)) as [c [x|]]; [done|]. cbn. destruct (dget n (y_db s)) as [[cred [a|]]|]; [|done..].
  destruct (dget n (y_addrs s)); [done|]. destruct (y_apps s !! a) as [[? ? [] ?]|]; done.
Qed.
Lemma ext_client m n s : ext s (fst (get_client m n s)).
Proof. destruct (get_client_same m n s) as (? & ? & ? & _). by apply ext_refl. Qed.
Lemma find_app_sound x k l i a : find_app x k l = Some (i, a) -> exists j, i = k + j /\ l !! j = Some a /\ answering x a = true.
Proof.
  revert k. induction l as [|b l IH]; intros k; cbn [find_app]; [done|]. destruct (answering x b) eqn:E.
  - intros [= <- <-]. exists 0. split; [lia|done].
  - intros (j & -> & ? & ?)%IH. exists (S j). split; [lia|done].
Qed.
Lemma find_app_complete x k l j a : l !! j = Some a -> answering x a = true -> is_Some (find_app x k l).
Proof.
  revert k j. induction l as [|b l IH]; intros k [|j]; cbn [find_app lookup]; try done.
  - intros [= ->] ->. eauto.
  - intros H Ha. destruct (answering x b); [eauto|]. by eapply IH.
Qed.
Lemma ext_perform s x c : ext s (fst (perform s x c)).
Proof.
  unfold perform. destruct (find_app x 0 (y_apps s)) as [[i a]|] eqn:E; [|by apply ext_refl]. apply find_app_sound in E as (j & -> & Hj & _). cbn [plus]. destruct c as [w rec|w k].
  - assert (app_le a (App (a_cluster a) (a_cred a) (a_state a) (a_containers a ++ [(w, true)]))) as Hle.
    { unfold app_le. cbn. split_and!; [done..| |].
      - unfold later_state. destruct (a_state a); auto.
      - intros k v f H. exists f. by apply lookup_app_l_Some. }
    destruct (ext_put s j a _ Hj Hle) as [X1 X2 _]. split; [done|done|]. cbn [fst y_workers].
    destruct (dget w (y_workers s)) as [[n o]|] eqn:Ew; [|eauto]. destruct rec; [|eauto]. intros w' n' o' H. rewrite dget_dset. destruct (decide (w' = w)) as [->|]; [|eauto]. rewrite Ew in H. injection H as -> ->. eauto.
  - destruct (a_containers a !! k) as [[v [|]]|] eqn:Ek; [|by apply ext_refl..]. cbn [fst]. apply (ext_put _ _ a); [done|]. unfold app_le. cbn. split_and!; [done..| |].
    + unfold later_state. destruct (a_state a); auto.
    + intros k' v' f H. destruct (decide (k = k')) as [->|]; [|rewrite list_lookup_insert_ne by done; eauto]. rewrite Ek in H. injection H as <- <-. exists false. apply list_lookup_insert. by eapply lookup_lt_Some.
Qed.
Lemma step_ext m s e : ext s (fst (step m s e)).
Proof.
  destruct e as [n cred rec|i addr|i|n ok|n w rec|w|n|i|]; cbn [step].
  - case_decide as Hd; [by apply ext_refl|]. cbn [fst]. split; cbn [y_apps y_db y_workers].
    + intros i a H. exists a. split; [by apply lookup_app_l_Some|apply app_le_refl].
    + intros n' v H. rewrite dget_dset. case_decide as E; [subst; exfalso; apply Hd; left; eauto|done].
    + eauto.
  - destruct (y_apps s !! i) as [a|] eqn:E; [|by apply ext_refl]. destruct (a_state a) eqn:Ea; try by apply ext_refl. destruct (in_use _ _); [by apply ext_refl|].
    apply (ext_put _ _ a); [done|]. unfold app_le. cbn. split_and!; [done..| |eauto]. by rewrite Ea.
  - destruct (y_apps s !! i) as [a|] eqn:E; [|by apply ext_refl]. apply (ext_put _ _ a); [done|apply ended_le].
  - destruct (dget n (y_db s)) as [[cred [i|]]|] eqn:E; [|by apply ext_refl..]. destruct ok; [|by apply ext_refl]. cbn [fst].
    destruct (y_apps s !! i) as [a|] eqn:Ei; [|by apply ext_refl]. destruct (ext_put s i a _ Ei (ended_le a)) as [X1 X2 X3]. by split.
  - destruct (dget n (y_db s)) as [v|] eqn:En; [|by apply ext_refl]. destruct (dget w (y_workers s)) eqn:Ew; [by apply ext_refl|].
    set (s0 := State _ _ _ _ _ _). assert (ext s s0) as H0.
    { split; [intros i a; eauto using app_le_refl|done|]. intros w' n' o' H. cbn. rewrite dget_dset. case_decide; [congruence|eauto]. }
    pose proof (ext_client m n s0) as H1. destruct (get_client m n s0) as [s1 [x|]]; cbn [fst] in *; [|by eapply ext_trans]. eapply ext_trans; [done|]. eapply ext_trans; [done|]. by apply ext_refl.
  - destruct (dget w (y_workers s)) as [[n [c|]]|]; [|by apply ext_refl..]. pose proof (ext_client m n s) as H1. destruct (get_client m n s) as [s1 [x|]]; cbn [fst] in *; [|done]. eapply ext_trans; [done|]. by apply ext_refl.
  - apply ext_client.
  - destruct (y_calls s !! i) as [[[x c]|]|]; [|by apply ext_refl..]. eapply ext_trans; [|apply ext_perform]. by apply ext_refl.
  - by apply ext_refl.
Qed.

(** * Invariant *)
Definition has_addr (s : state) (i addr : nat) : Prop := exists a, y_apps s !! i = Some a /\ (a_state a = Running addr \/ a_state a = Ended).
Definition contains (s : state) (i k w : nat) : Prop := exists a f, y_apps s !! i = Some a /\ a_containers a !! k = Some (w, f).
Definition good_client (s : state) (n : nat) (x : client) : Prop := dget n (y_db s) = Some (c_cred x, Some (c_app x)) /\ has_addr s (c_app x) (c_addr x).
Definition good_call (es : list event) (s : state) (x : client) (c : call) : Prop := exists n, good_client s n x /\
  match c with
  | Add w _ => exists o, dget w (y_workers s) = Some (n, o)
  | Kill w k => StopWorker w ∈ es /\ (exists o, dget w (y_workers s) = Some (n, o)) /\ contains s (c_app x) k w
  end.
Record inv (m : nat) (es : list event) (s : state) : Prop := {
  i_app : forall i a, y_apps s !! i = Some a -> exists o, dget (a_cluster a) (y_db s) = Some (a_cred a, o) /\ (o = None \/ o = Some i);
  i_db : forall n cred i, dget n (y_db s) = Some (cred, Some i) -> exists a, y_apps s !! i = Some a /\ a_cluster a = n /\ a_cred a = cred;
  i_cred : forall n n' cred o o', dget n (y_db s) = Some (cred, o) -> dget n' (y_db s) = Some (cred, o') -> n = n';
  i_one : forall i j a b, y_apps s !! i = Some a -> y_apps s !! j = Some b -> a_cluster a = a_cluster b -> i = j;
  i_clients : forall n x, (n, x) ∈ y_clients s -> good_client s n x;
  i_addrs : forall n addr, (n, addr) ∈ y_addrs s -> exists cred i, dget n (y_db s) = Some (cred, Some i) /\ has_addr s i addr;
  i_calls : forall i x c, y_calls s !! i = Some (Some (x, c)) -> good_call es s x c;
  i_workers : forall w n o, dget w (y_workers s) = Some (n, o) -> (exists rec, StartWorker n w rec ∈ es) /\
      match o with Some k => exists cred i, dget n (y_db s) = Some (cred, Some i) /\ contains s i k w | None => True end;
  i_size : length (y_clients s) <= m
}.
Lemma has_addr_ext s s' i addr : ext s s' -> has_addr s i addr -> has_addr s' i addr.
Proof. intros [X _ _] (a & (b & Hb & _ & _ & Hl & _)%X & H). exists b. split; [done|]. unfold later_state in Hl. destruct H as [E|E]; rewrite E in Hl; tauto. Qed.
Lemma contains_ext s s' i k w : ext s s' -> contains s i k w -> contains s' i k w.
Proof. intros [X _ _] (a & f & (b & Hb & _ & _ & _ & Hc)%X & H). apply Hc in H as [f' H]. by exists b, f'. Qed.
Lemma good_client_ext s s' n x : ext s s' -> good_client s n x -> good_client s' n x.
Proof. intros X [H1 H2]. split; [by apply X|by eapply has_addr_ext]. Qed.
Lemma good_call_ext es es' s s' x c : (forall e, e ∈ es -> e ∈ es') -> ext s s' -> good_call es s x c -> good_call es' s' x c.
Proof.
  intros He X (n & H1 & H2). exists n. split; [by eapply good_client_ext|]. destruct c.
  - destruct H2 as [o H2]. by eapply X.
  - destruct H2 as (H2 & [o H3] & H4). split_and!; [auto|by eapply X|by eapply contains_ext].
Qed.
(** What depends on the state as a whole, for a step that adds to it. *)
Lemma clients_ext s s' : ext s s' -> (forall n x, (n, x) ∈ y_clients s -> good_client s n x) -> forall n x, (n, x) ∈ y_clients s -> good_client s' n x.
Proof. intros X H n x Hin. eapply good_client_ext; eauto. Qed.
Lemma addrs_ext s s' : ext s s' -> (forall n addr, (n, addr) ∈ y_addrs s -> exists cred i, dget n (y_db s) = Some (cred, Some i) /\ has_addr s i addr) ->
  forall n addr, (n, addr) ∈ y_addrs s -> exists cred i, dget n (y_db s') = Some (cred, Some i) /\ has_addr s' i addr.
Proof. intros X H n addr Hin. destruct (H _ _ Hin) as (cred & i & H1 & H2). exists cred, i. split; [by apply X|by eapply has_addr_ext]. Qed.

Lemma get_client_good m es s n : inv m es s -> let '(s', x) := get_client m n s in
  (forall n' x', (n', x') ∈ y_clients s' -> good_client s n' x') /\
  (forall n' addr, (n', addr) ∈ y_addrs s' -> exists cred i, dget n' (y_db s) = Some (cred, Some i) /\ has_addr s i addr) /\
  length (y_clients s') <= m /\ (forall x', x = Some x' -> good_client s n x').
Proof.
  intros I. unfold get_client. pose proof (lru_get_in n (y_clients s)) as Hin. pose proof (lru_get_length n (y_clients s)) as Hlen. pose proof (lru_get_out n (y_clients s)) as Hout. pose proof (i_size _ _ _ I) as Hsz.
  destruct (lru_get n (y_clients s)) as [c out]. cbn [fst snd] in *. destruct out as [x|].
  - cbn. split_and!; [eauto using i_clients|eauto using i_addrs|lia|]. intros x' [= <-]. apply (i_clients _ _ _ I). symmetry in Hout. by apply dget_in in Hout.
  - cbn [y_db y_addrs y_apps y_workers y_calls y_clients].
    assert (forall s0, s0 = State (y_apps s) (y_db s) (y_workers s) c (y_addrs s) (y_calls s) -> (forall n' x', (n', x') ∈ y_clients s0 -> good_client s n' x') /\
      (forall n' addr, (n', addr) ∈ y_addrs s0 -> exists cred i, dget n' (y_db s) = Some (cred, Some i) /\ has_addr s i addr) /\
      length (y_clients s0) <= m /\ (forall x', @None client = Some x' -> good_client s n x')) as Hnone.
    { intros s0 ->. cbn. split_and!; [eauto using i_clients|eauto using i_addrs|lia|done]. }
    destruct (dget n (y_db s)) as [[cred [a|]]|] eqn:En; [|by apply Hnone..].
    assert (forall addrs addr, (forall y, y ∈ addrs -> y = (n, addr) \/ y ∈ y_addrs s) -> has_addr s a addr ->
      let s0 := State (y_apps s) (y_db s) (y_workers s) (fst (lru_put m n (Client addr a cred) c)) addrs (y_calls s) in
      (forall n' x', (n', x') ∈ y_clients s0 -> good_client s n' x') /\ (forall n' addr, (n', addr) ∈ y_addrs s0 -> exists cred i, dget n' (y_db s) = Some (cred, Some i) /\ has_addr s i addr) /\
      length (y_clients s0) <= m /\ (forall x', Some (Client addr a cred) = Some x' -> good_client s n x')) as Hsome.
    { intros addrs addr Hy Ha. cbn. assert (good_client s n (Client addr a cred)) as Hg by done. split_and!.
      - intros n' x' [[= -> ->]|?]%lru_put_in; [done|]. eauto using i_clients.
      - intros n' addr' [[= -> ->]|?]%Hy; [eauto|]. by apply (i_addrs _ _ _ I).
      - apply lru_put_length. lia.
      - by intros x' [= <-]. }
    destruct (dget n (y_addrs s)) as [addr|] eqn:Ea.
    + apply Hsome; [tauto|]. apply dget_in in Ea. destruct (i_addrs _ _ _ I _ _ Ea) as (cred' & i & H1 & H2). rewrite En in H1. injection H1 as <- <-. done.
    + destruct (y_apps s !! a) as [[nn cr [| addr |] cs]|] eqn:Eapp; [by apply Hnone| |by apply Hnone..].
      apply Hsome; [intros y Hy; by apply dset_in in Hy|]. eexists. split; [done|]. by left.
Qed.

Definition same_tables (s s' : state) : Prop := y_apps s' = y_apps s /\ y_db s' = y_db s.
Lemma inv_mono m es es' s : (forall e, e ∈ es -> e ∈ es') -> inv m es s -> inv m es' s.
Proof.
  intros He [A B C D E F G H I]. split; try done.
  - intros i x c Hc. eapply good_call_ext; [exact He|by apply ext_refl|eauto].
  - intros w n o Hw. destruct (H _ _ _ Hw) as [[rec Hr] Ho]. split; [eauto|done].
Qed.
(** A step on applications that leaves names and credentials, and the caches, as they are. *)
Lemma inv_apps m es s s' : inv m es s -> ext s s' -> y_db s' = y_db s -> length (y_apps s') = length (y_apps s) ->
  (forall x, x ∈ y_clients s' -> x ∈ y_clients s) -> length (y_clients s') <= m -> (forall x, x ∈ y_addrs s' -> x ∈ y_addrs s) ->
  (forall i x c, y_calls s' !! i = Some (Some (x, c)) -> y_calls s !! i = Some (Some (x, c))) ->
  (forall w n o, dget w (y_workers s') = Some (n, o) -> dget w (y_workers s) = Some (n, o) \/ ((exists o', dget w (y_workers s) = Some (n, o')) /\ exists k cred i, o = Some k /\ dget n (y_db s) = Some (cred, Some i) /\ contains s' i k w)) ->
  inv m es s'.
Proof.
  intros I X Edb Elen Hc Hm Ha Hk Hw.
  assert (forall i b, y_apps s' !! i = Some b -> exists a, y_apps s !! i = Some a /\ app_le a b) as Hback.
  { intros i b Hb. destruct (lookup_lt_is_Some_2 (y_apps s) i) as [a Hi]; [rewrite <- Elen; by eapply lookup_lt_Some|]. destruct (x_apps _ _ X _ _ Hi) as (b' & Hb' & Hle). exists a. split; [done|]. congruence. }
  destruct I as [A B C D E F G H _]. split.
  - intros i b Hb. destruct (Hback _ _ Hb) as (a & Hi & E1 & E2 & _). rewrite Edb, <- E1, <- E2. eauto.
  - intros n cred i Hn. rewrite Edb in Hn. destruct (B _ _ _ Hn) as (a & Hi & E1 & E2). destruct (x_apps _ _ X _ _ Hi) as (b & Hb & F1 & F2 & _). exists b. split_and!; congruence.
  - rewrite Edb. exact C.
  - intros i j a b Hi Hj Eab. destruct (Hback _ _ Hi) as (a' & ? & ? & _), (Hback _ _ Hj) as (b' & ? & ? & _). eapply D; [done..|congruence].
  - intros n x Hx. eapply clients_ext; eauto.
  - intros n addr Hx. eapply addrs_ext; eauto.
  - intros i x c Hx. eapply good_call_ext; [done|done|eauto].
  - intros w n o Hx. destruct (Hw _ _ _ Hx) as [H1|[[o' H1] (k & cred & i & -> & H2 & H3)]].
    + destruct (H _ _ _ H1) as [H2 H3]. split; [done|]. destruct o; [|done]. destruct H3 as (cred & i & H3 & H4). exists cred, i. split; [by apply X|by eapply contains_ext].
    + destruct (H _ _ _ H1) as [H4 _]. split; [done|]. exists cred, i. split; [by apply X|done].
  - done.
Qed.
Lemma inv_put m es s i a a' : inv m es s -> y_apps s !! i = Some a -> app_le a a' -> inv m es (put_app s i a').
Proof. intros I Hi Hle. eapply inv_apps; [done|by eapply ext_put|done|apply insert_length|done|apply (i_size _ _ _ I)|done|done|]. intros w n o H. by left. Qed.
(** Using the client. *)
Lemma inv_client m es s n : inv m es s -> let '(s', x) := get_client m n s in inv m es s' /\ forall x', x = Some x' -> good_client s' n x'.
Proof.
  intros I. pose proof (get_client_good m es s n I) as Hg. pose proof (get_client_same m n s) as Hs. pose proof (ext_client m n s) as X. destruct (get_client m n s) as [s' x]. cbn [fst] in *. destruct Hg as (G1 & G2 & G3 & G4), Hs as (S1 & S2 & S3 & S4).
  split; [|intros x' Hx; eapply good_client_ext; eauto]. destruct I as [A B C D E F G H K]. split.
  - by rewrite S1, S2.
  - by rewrite S1, S2.
  - by rewrite S2.
  - by rewrite S1.
  - intros n' x' Hx. eapply good_client_ext; eauto.
  - intros n' addr Hx. destruct (G2 _ _ Hx) as (cred & i & H1 & H2). exists cred, i. split; [by apply X|by eapply has_addr_ext].
  - intros i y c Hx. rewrite S4 in Hx. eapply good_call_ext; [done|done|eauto].
  - intros w n' o Hx. rewrite S3 in Hx. destruct (H _ _ _ Hx) as [H1 H2]. split; [done|]. destruct o; [|done]. destruct H2 as (cred & i & H2 & H3). exists cred, i. split; [by apply X|by eapply contains_ext].
  - done.
Qed.
Lemma inv_call m es s x c : inv m es s -> good_call es s x c -> inv m es (make_call s x c).
Proof.
  intros [A B C D E F G H K] Hg. split; try done. intros i y d Hi. cbn [make_call y_calls] in Hi. apply lookup_app_Some in Hi as [Hi|[_ Hi]]; [eapply good_call_ext; [done|by apply ext_refl|eauto]|].
  destruct (i - length (y_calls s)); [|done]. injection Hi as <- <-. done.
Qed.
(** The application a client talks to is the one it was made for. *)
Lemma found_own m es s n x i a : inv m es s -> good_client s n x -> find_app x 0 (y_apps s) = Some (i, a) -> i = c_app x /\ y_apps s !! i = Some a /\ a_cluster a = n.
Proof.
  intros I [Hn _] (j & -> & Hj & Ha)%find_app_sound. cbn [plus]. unfold answering in Ha. destruct (a_state a); try done. apply andb_true_iff in Ha as [_ Hc]. apply bool_decide_eq_true in Hc.
  destruct (i_app _ _ _ I _ _ Hj) as (o & Ho & _). rewrite Hc in Ho. assert (a_cluster a = n) as En by (by eapply (i_cred _ _ _ I)).
  destruct (i_db _ _ _ I _ _ _ Hn) as (b & Hb & Eb & _). assert (j = c_app x) by (eapply (i_one _ _ _ I); [done..|congruence]). done.
Qed.
Lemma inv_perform m es s x c : inv m es s -> good_call es s x c -> inv m es (fst (perform s x c)).
Proof.
  intros I (n & Hg & Hc). pose proof (ext_perform s x c) as X. unfold perform in *. destruct (find_app x 0 (y_apps s)) as [[i a]|] eqn:E; [|done]. destruct (found_own _ _ _ _ _ _ _ I Hg E) as (-> & Hi & En). destruct c as [w rec|w k].
  - cbn [fst] in *. destruct Hc as [o Ho]. rewrite Ho in *. eapply inv_apps; [done|exact X|done|cbn; apply insert_length|done|apply (i_size _ _ _ I)|done|done|]. cbn [y_workers].
    destruct rec; [|by left]. intros w' n' o'. rewrite dget_dset. case_decide as Ew; [|by left]. subst w'. intros [= <- <-]. right. split; [eauto|]. destruct Hg as [Hn _]. eexists _, _, _. split; [done|]. split; [done|].
    eexists _, _. cbn [put_app y_apps]. split; [apply list_lookup_insert; by eapply lookup_lt_Some|]. cbn. by rewrite lookup_app_r, Nat.sub_diag by done.
  - destruct (a_containers a !! k) as [[v [|]]|] eqn:Ek; [|done..]. cbn [fst] in *. eapply inv_apps; [done|exact X|done|cbn; apply insert_length|done|apply (i_size _ _ _ I)|done|done|]. by left.
Qed.

Lemma inv_step m es s e : inv m es s -> inv m (es ++ [e]) (fst (step m s e)).
Proof.
  intros I. assert (forall e', e' ∈ es -> e' ∈ es ++ [e]) as He by (intros ? ?; apply elem_of_app; by left). assert (e ∈ es ++ [e]) as Hlast by (apply elem_of_app; right; by apply elem_of_list_singleton).
  pose proof (inv_mono _ _ _ _ He I) as J. pose proof (step_ext m s e) as X.
  destruct e as [n cred rec|i addr|i|n ok|n w rec|w|n|i|]; cbn [step] in *.
  - case_decide as Hd; [done|]. cbn [fst] in *. destruct J as [A B C D E F G H K].
    assert (forall k v, dget k (y_db s) = Some v -> dget k (dset n (cred, if rec then Some (length (y_apps s)) else None) (y_db s)) = Some v) as Hold by apply X.
    assert (dget n (y_db s) = None) as Hnew by (destruct (dget n (y_db s)) eqn:En; [|done]; exfalso; apply Hd; left; eauto).
    assert (forall k v o, dget k (y_db s) = Some (v, o) -> v <> cred) as Hcred.
    { intros k v o Hk ->. apply Hd. right. apply dget_in in Hk. apply elem_of_list_fmap. by exists (k, (cred, o)). }
    assert (forall i a, y_apps s !! i = Some a -> a_cluster a <> n) as Hna by (intros i a Hi E1; destruct (A _ _ Hi) as (o & Ho & _); rewrite E1 in Ho; congruence).
    split; cbn [y_apps y_db y_workers y_clients y_addrs y_calls].
    + intros i a [Hi|[Hle Hi]]%lookup_app_Some.
      * destruct (A _ _ Hi) as (o & Ho & ?). exists o. split; [by apply Hold|done].
      * apply list_lookup_singleton_Some in Hi as [Hz <-]. cbn. rewrite dget_dset, decide_True by done. eexists. split; [done|]. destruct rec; [right; f_equal; lia|by left].
    + intros n' cred' i. rewrite dget_dset. case_decide as En.
      * subst n'. destruct rec; [|done]. intros [= <- <-]. eexists. split; [by apply list_lookup_middle|done].
      * intros (a & Ha & ?)%B. exists a. split; [by apply lookup_app_l_Some|done].
    + intros n1 n2 cr o1 o2. rewrite !dget_dset. case_decide as E1; case_decide as E2; [congruence| | |apply C].
      * intros [= <- <-] H2. by apply Hcred in H2.
      * intros H1 [= <- <-]. by apply Hcred in H1.
    + intros i j a b [Hi|[Hi1 Hi]]%lookup_app_Some [Hj|[Hj1 Hj]]%lookup_app_Some Eab; [eauto| | |].
      * apply list_lookup_singleton_Some in Hj as [Hz <-]. cbn in Eab. by apply Hna in Hi.
      * apply list_lookup_singleton_Some in Hi as [Hz <-]. cbn in Eab. symmetry in Eab. by apply Hna in Hj.
      * apply list_lookup_singleton_Some in Hj as [Hz _]. apply list_lookup_singleton_Some in Hi as [Hz' _]. lia.
    + intros n' x Hx. eapply good_client_ext; eauto.
    + intros n' addr Hx. destruct (F _ _ Hx) as (cr & i & H1 & H2). exists cr, i. split; [by apply Hold|by eapply (has_addr_ext _ _ _ _ X)].
    + intros i x c Hx. eapply good_call_ext; [|exact X|eapply G; exact Hx]; done.
    + intros w n' o Hx. destruct (H _ _ _ Hx) as [H1 H2]. split; [done|]. destruct o; [|done]. destruct H2 as (cr & i & H2 & H3). exists cr, i. split; [by apply Hold|by eapply (contains_ext _ _ _ _ _ X)].
    + done.
  - destruct (y_apps s !! i) as [a|] eqn:E; [|done]. destruct (a_state a) eqn:Ea; try done. destruct (in_use _ _); [done|]. apply (inv_put _ _ _ _ a); [done..|].
    unfold app_le. cbn. split_and!; [done..| |eauto]. by rewrite Ea.
  - destruct (y_apps s !! i) as [a|] eqn:E; [|done]. apply (inv_put _ _ _ _ a); [done..|apply ended_le].
  - destruct (dget n (y_db s)) as [[cred [i|]]|] eqn:E; [|done..]. destruct ok; [|done]. cbn [fst] in *.
    eapply inv_apps; [done|exact X|done| | | | | |]; cbn [y_apps y_clients y_addrs y_calls y_workers].
    + destruct (y_apps s !! i); [apply insert_length|done].
    + intros x Hx. by apply ddel_in in Hx as [? _].
    + pose proof (ddel_length n (y_clients s)). pose proof (i_size _ _ _ J). unfold lru_discard. lia.
    + intros x Hx. by apply ddel_in in Hx as [? _].
    + done.
    + by left.
  - destruct (dget n (y_db s)) as [v|] eqn:En; [|done]. destruct (dget w (y_workers s)) eqn:Ew; [done|].
    set (s0 := State _ _ _ _ _ _) in *. assert (ext s s0) as X0.
    { split; [intros i a; eauto using app_le_refl|done|]. intros w' n' o' H. cbn. rewrite dget_dset. case_decide; [congruence|eauto]. }
    assert (inv m (es ++ [StartWorker n w rec]) s0) as J0.
    { destruct J as [A B C D E F G H K]. split; try done.
      - intros i x c Hx. eapply good_call_ext; [|exact X0|eapply G; exact Hx]; done.
      - intros w' n' o. cbn [s0 y_workers]. rewrite dget_dset. case_decide as Ew'; [|apply H]. intros [= <- <-]. subst. eauto. }
    pose proof (inv_client m _ s0 n J0) as Hc. pose proof (get_client_same m n s0) as Hs. destruct (get_client m n s0) as [s1 [x|]]; cbn [fst] in *; destruct Hc as [Hc Hx]; [|done]. apply inv_call; [done|]. exists n. split; [by apply Hx|].
    destruct Hs as (_ & _ & -> & _). exists None. cbn. by rewrite dget_dset, decide_True.
  - destruct (dget w (y_workers s)) as [[n [c|]]|] eqn:Ew; [|done..]. pose proof (inv_client m _ s n J) as Hc. pose proof (get_client_same m n s) as Hs. pose proof (ext_client m n s) as X1. destruct (get_client m n s) as [s1 [x|]]; cbn [fst] in *; destruct Hc as [Hc Hx]; [|done].
    apply inv_call; [done|]. exists n. pose proof (Hx _ eq_refl) as Hg. split; [done|]. split; [done|]. destruct Hs as (_ & Hs2 & Hs3 & _). split; [rewrite Hs3; eauto|].
    destruct (i_workers _ _ _ J _ _ _ Ew) as [_ (cred & i & H1 & H2)]. destruct Hg as [Hg _]. rewrite Hs2, H1 in Hg. injection Hg as _ ->. by eapply contains_ext.
  - pose proof (inv_client m _ s n J) as Hc. destruct (get_client m n s). tauto.
  - destruct (y_calls s !! i) as [[[x c]|]|] eqn:Ei; [|done..]. set (s0 := State _ _ _ _ _ _) in *. assert (inv m (es ++ [Perform i]) s0) as J0.
    { eapply inv_apps; [exact J|by apply ext_refl|done|done|done|apply (i_size _ _ _ J)|done| |by left]. intros j y d. cbn [s0 y_calls]. destruct (decide (i = j)) as [->|]; [|by rewrite list_lookup_insert_ne].
      rewrite list_lookup_insert by (by eapply lookup_lt_Some). done. }
    apply inv_perform; [done|]. apply (good_call_ext (es ++ [Perform i]) _ s); [done|by apply ext_refl|]. by apply (i_calls _ _ _ J i).
  - destruct J as [A B C D E F G H K]. split; try done; cbn.
    + intros n x Hx. by apply elem_of_nil in Hx.
    + intros n x Hx. by apply elem_of_nil in Hx.
    + lia.
Qed.
Lemma run_snoc m es e : run m (es ++ [e]) = fst (step m (run m es) e).
Proof. unfold run. by rewrite foldl_app. Qed.
Lemma run_inv m es : inv m es (run m es).
Proof.
  induction es as [|e es IH] using rev_ind.
  - split; try done; cbn.
    + intros n x Hx. by apply elem_of_nil in Hx.
    + intros n x Hx. by apply elem_of_nil in Hx.
    + lia.
  - rewrite run_snoc. by apply inv_step.
Qed.
Lemma run_ext m es es' : ext (run m es) (run m (es ++ es')).
Proof.
  induction es' as [|e es' IH] using rev_ind; [rewrite app_nil_r; by apply ext_refl|]. rewrite app_assoc, run_snoc. eapply ext_trans; [done|apply step_ext].
Qed.
