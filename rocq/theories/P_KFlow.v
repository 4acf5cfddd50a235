(** Property C143: on Kubernetes a cluster that is short of workers is attended to, in
    every fair run. *)
From Coq Require Import ZArith Lia.
From stdpp Require Import prelude gmap.
From Verif Require Import Trace Kube_Model Kube_Spec KFleet_Model KFleet_Spec KFleet_Proofs P_KFleet KFlow_Spec KFlow_Proofs KFlow_Live.
Open Scope Z_scope.

(** C143. Once the object asks for [r] workers and the controller is not restarted any
    more, then again and again there are as many workers as that, or requests for more are
    on their way: the controller does not come to rest while workers are missing, whatever
    happened before, whichever pods end, vanish or are refused... *)
Theorem C143_attended_partial : forall lim run ev n r i, endless lim run ev -> fair run ev -> steady run ev n r -> (n <= i)%nat ->
  exists j, (i <= j)%nat /\ (r <= counted_on (run j) \/ (0 < outstanding (d_kube (run j)))%nat).
Proof. intros lim run ev n r i HE HF HS Hi. exact (attended lim run ev HE HF n r HS i Hi). Qed.
Print Assumptions C143_attended_partial.
(** ... and if from then on pods are made when asked for, do not end, and go only when the
    controller wants it, then there are as many workers, again and again. *)
Theorem C143_reached_partial : forall lim run ev n r i, endless lim run ev -> fair run ev -> steady run ev n r -> smooth run ev n -> (n <= i)%nat ->
  exists j, (i <= j)%nat /\ r <= counted_on (run j).
Proof. intros lim run ev n r i HE HF HS HM Hi. exact (enough_again lim run ev HE HF n r HS HM i Hi). Qed.
Print Assumptions C143_reached_partial.

(** For examples: a list of events, and then nothing happens any more. *)
Definition ex_ev (es : list devent) (i : nat) : devent := default (DLose 0) (es !! i).
Definition ex_at (lim : option Z) (es : list devent) (i : nat) : depot := dex_state lim (take i es).
Definition later (n i : nat) (Q : nat -> bool) : bool := existsb (fun j => (i <=? j)%nat && Q j) (seq 0 n).
Lemma later_spec n i Q : later n i Q = true -> exists j, (i <= j)%nat /\ Q j = true.
Proof. unfold later. intros (j & _ & [H1%Nat.leb_le H2]%andb_true_iff)%existsb_exists. eauto. Qed.
Definition upto (n : nat) (P : nat -> bool) : bool := forallb P (seq 0 (S n)).
Lemma upto_spec n P i : upto n P = true -> (i <= n)%nat -> P i = true.
Proof. unfold upto. rewrite forallb_forall. intros H Hi. apply H, in_seq. lia. Qed.
Lemma run_snoc lim es : forall s e, fst (run (dstep lim) s (es ++ [e])) = fst (dstep lim (fst (run (dstep lim) s es)) e).
Proof.
  induction es as [|e' es IH]; intros s e; cbn [app run fst]; [by destruct (dstep lim s e)|]. destruct (dstep lim s e') as [s1 o]. specialize (IH s1 e). destruct (run (dstep lim) s1 (es ++ [e])), (run (dstep lim) s1 es). done.
Qed.
Section examples.
Context (lim : option Z) (es : list devent).
Notation N := (length es).
Notation at_ := (ex_at lim es).
Notation ev := (ex_ev es).
Definition get_b (j : nat) : bool := match ev j with DGet x order => negb (d_busy (at_ j)) && lists order (pending (inf (d_kube (at_ j)))) | _ => false end.
Definition timer_b (j : nat) : bool := match ev j with DTimer => true | _ => false end.
Definition pods_b (j : nat) : bool := match ev j with DPod (EDeliver false _) | DPod (ERelist false _) => true | _ => false end.
Definition create_b (j : nat) : bool := match ev j with DPod (ECreate Refused) => true | DPod (ECreate (Made p)) | DPod (ECreate (Lost p)) => negb (bool_decide (p ∈ used (d_kube (at_ j)))) | _ => false end.
Definition delete_b (p : pod) (j : nat) : bool := match ev j with DPod (EDelete q _) => bool_decide (q = p) | _ => false end.
Definition served_b : bool :=
  (match d_wire (at_ N) with [] => true | _ => false end) &&
  upto N (fun i => let s := at_ i in
    (length (d_vers s) <=? d_seen (at_ N))%nat &&
    (if d_dirty s then later N i get_b else true) && (if d_timer s then later N i timer_b else true) &&
    (match wq (d_kube s) with [] => true | _ => later N i pods_b end) &&
    (match outstanding (d_kube s) with O => true | _ => later N i create_b end) &&
    forallb (fun p => later N i (delete_b p)) (asked s) &&
    (match ev i with DPod (EDelete p true) => if bool_decide (p ∈ asked s) then negb (bool_decide (p ∈ dom (srv (d_kube (at_ N))))) else true | _ => true end)) &&
  forallb (fun p => match srv (d_kube (at_ N)) !! p with Some (st, _) => match recognise st with Some _ => true | None => false end | None => true end) (elements (dom (srv (d_kube (at_ N))))).
Definition known_b : bool := upto N (fun i => match ev i with DPod (EGone p) => negb (bool_decide (p ∈ dom (srv (d_kube (at_ i))))) || bool_decide (p ∈ all_pods (inf (d_kube (at_ i)))) | _ => true end).
Definition steady_b (n : nat) (r : Z) : bool := upto N (fun i => (i <? n)%nat || ((match ev i with DRestart _ => false | _ => true end) && (newest (at_ i) =? r))).
Definition smooth_b (n : nat) : bool := upto N (fun i => (i <? n)%nat || match ev i with DPod (ECreate (Made _)) => true | DPod (ECreate _) | DPod (EGone _) => false | DPod (EStatus _ st) => negb (ended st) | _ => true end).
Lemma ex_late_at i : (N <= i)%nat -> at_ i = at_ N.
Proof. intros Hi. unfold ex_at. by rewrite !take_ge by lia. Qed.
Lemma ex_late_ev i : (N <= i)%nat -> ev i = DLose 0.
Proof. intros Hi. unfold ex_ev. by rewrite lookup_ge_None_2. Qed.
Lemma ex_endless : served_b = true -> endless lim at_ ev.
Proof.
  intros H. unfold served_b in H. apply andb_true_iff in H as [[Hw _]%andb_true_iff _]. split; [done|]. intros i. destruct (decide (i < N)%nat) as [Hi|Hi].
  - apply lookup_lt_is_Some_2 in Hi as [e He]. unfold ex_ev, ex_at, dex_state. rewrite He. cbn [default]. rewrite (take_S_r _ _ _ He). apply run_snoc.
  - rewrite (ex_late_at (S i)), (ex_late_at i), (ex_late_ev i) by lia. cbn [dstep nothing fst]. destruct (at_ N) as [k v sn d b t sz st w]. unfold set_wire. cbn in *. by destruct w.
Qed.
Lemma ex_served : served_b = true -> served at_ ev.
Proof.
  intros H. unfold served_b in H. apply andb_true_iff in H as [[_ H1]%andb_true_iff H2].
  assert (forall i, exists i', (i' <= N)%nat /\ at_ i = at_ i' /\ (i' = i \/ (N <= i)%nat /\ i' = N)) as Hc. { intros i. destruct (decide (i <= N)%nat); [exists i; split; [done|]; split; [done|by left]|exists N; split; [done|]; split; [apply ex_late_at; lia|right; lia]]. }
  assert (forall i Q, (i <= N)%nat -> later N i Q = true -> forall i0, (i = i0 \/ (N <= i0)%nat /\ i = N) -> exists j, (i0 <= j)%nat /\ Q j = true) as Hl.
  { intros i Q Hi HQ i0 [->|[Hi0 ->]]; [by apply later_spec in HQ|]. unfold later in HQ. apply existsb_exists in HQ as (j & [_ Hj]%in_seq & [Hj'%Nat.leb_le _]%andb_true_iff). lia. }
  split.
  - intros i. destruct (Hc i) as (i' & Hi & E & _). pose proof (upto_spec _ _ i' H1 Hi) as U. cbv beta zeta in U. repeat (apply andb_true_iff in U as [U ?]). exists (i `max` N)%nat. split; [lia|]. rewrite (ex_late_at (i `max` N)), E by lia. by apply Nat.leb_le.
  - intros i Hd. destruct (Hc i) as (i' & Hi & E & Hor). pose proof (upto_spec _ _ i' H1 Hi) as U. cbv beta zeta in U. repeat (apply andb_true_iff in U as [U ?]). rewrite E in Hd. rewrite Hd in *.
    destruct (Hl i' get_b Hi ltac:(done) i Hor) as (j & Hj & HQ). unfold get_b in HQ. destruct (ev j) eqn:Hev; try discriminate HQ. apply andb_true_iff in HQ as [HQ1 HQ2]. exists j, expired, order. split; [done|]. split; [done|]. split; [by apply negb_true_iff|done].
  - intros i Hd. destruct (Hc i) as (i' & Hi & E & Hor). pose proof (upto_spec _ _ i' H1 Hi) as U. cbv beta zeta in U. repeat (apply andb_true_iff in U as [U ?]). rewrite E in Hd. rewrite Hd in *.
    destruct (Hl i' timer_b Hi ltac:(done) i Hor) as (j & Hj & HQ). exists j. split; [done|]. unfold timer_b in HQ. by destruct (ev j).
  - intros i Hd. destruct (Hc i) as (i' & Hi & E & Hor). pose proof (upto_spec _ _ i' H1 Hi) as U. cbv beta zeta in U. repeat (apply andb_true_iff in U as [U ?]). rewrite E in Hd.
    destruct (wq (d_kube (at_ i'))); [done|]. destruct (Hl i' pods_b Hi ltac:(done) i Hor) as (j & Hj & HQ). unfold pods_b in HQ. destruct (ev j) as [| | | | | |[| |[] x|[] x| | | |]| | |] eqn:Hev; try discriminate HQ; exists j, x; (split; [done|]); [by left|by right].
  - intros i Hd. destruct (Hc i) as (i' & Hi & E & Hor). pose proof (upto_spec _ _ i' H1 Hi) as U. cbv beta zeta in U. repeat (apply andb_true_iff in U as [U ?]). rewrite E in Hd.
    destruct (outstanding (d_kube (at_ i'))); [lia|]. destruct (Hl i' create_b Hi ltac:(done) i Hor) as (j & Hj & HQ). unfold create_b in HQ. destruct (ev j) as [| | | | | |[| | | | | |[p| |p]|]| | |] eqn:Hev; try discriminate HQ; exists j; eexists; (split; [done|]); (split; [done|]).
    + apply negb_true_iff, bool_decide_eq_false in HQ. intros q [[= ->]|?]; done.
    + intros q [?|?]; done.
    + apply negb_true_iff, bool_decide_eq_false in HQ. intros q [?|[= ->]]; done.
  - intros i p Hd. destruct (Hc i) as (i' & Hi & E & Hor). pose proof (upto_spec _ _ i' H1 Hi) as U. cbv beta zeta in U. apply andb_true_iff in U as [[_ U]%andb_true_iff _]. rewrite E in Hd. rewrite forallb_forall in U. apply elem_of_list_In in Hd. specialize (U p Hd).
    destruct (Hl i' (delete_b p) Hi U i Hor) as (j & Hj & HQ). unfold delete_b in HQ. destruct (ev j) as [| | | | | |[| | | | | | |q ok]| | |] eqn:Hev; try discriminate HQ. apply bool_decide_eq_true in HQ as ->. eauto.
  - intros i p (j & Hj & He & Ha). assert (j <= N)%nat as HjN. { destruct (decide (j <= N)%nat); [done|]. by rewrite ex_late_ev in He by lia. }
    pose proof (upto_spec _ _ j H1 HjN) as U. cbv beta zeta in U. apply andb_true_iff in U as [_ U]. rewrite He, bool_decide_true in U by done. apply negb_true_iff, bool_decide_eq_false in U. exists (i `max` N)%nat. split; [lia|]. unfold exists_. by rewrite ex_late_at by lia.
  - intros i p _. exists (i `max` N)%nat. split; [lia|]. intros k st d Hk Hs. rewrite ex_late_at in Hs by lia. rewrite forallb_forall in H2. assert (In p (elements (dom (srv (d_kube (at_ N)))))) as Hin by (apply elem_of_list_In, elem_of_elements, elem_of_dom; eauto).
    specialize (H2 p Hin). rewrite Hs in H2. destruct (recognise st) as [m|] eqn:Hm; [|done]. exists m. by apply Kube_Proofs.recognise_says.
Qed.
Lemma ex_fair : served_b = true -> known_b = true -> fair at_ ev.
Proof.
  intros H1 H2. split; [by apply ex_served|]. intros i p He Hx. assert (i <= N)%nat as Hi. { destruct (decide (i <= N)%nat); [done|]. by rewrite ex_late_ev in He by lia. }
  pose proof (upto_spec _ _ i H2 Hi) as U. cbv beta in U. rewrite He in U. unfold exists_ in Hx. rewrite bool_decide_true in U by done. by apply bool_decide_eq_true in U.
Qed.
Lemma ex_steady n r : (n <= N)%nat -> steady_b n r = true -> steady at_ ev n r.
Proof.
  intros HnN H k Hk. destruct (decide (k <= N)%nat) as [HkN|HkN].
  - pose proof (upto_spec _ _ k H HkN) as U. cbv beta in U. destruct (Nat.ltb_spec k n); [lia|]. cbn [orb] in U. apply andb_true_iff in U as [U1 U2]. split; [intros x E; by rewrite E in U1|by apply Z.eqb_eq].
  - rewrite ex_late_ev, ex_late_at by lia. split; [done|]. pose proof (upto_spec _ _ N H (le_n _)) as U. cbv beta in U. destruct (Nat.ltb_spec N n); [lia|]. cbn [orb] in U. apply andb_true_iff in U as [_ U2]. by apply Z.eqb_eq.
Qed.
Lemma ex_smooth n : smooth_b n = true -> smooth at_ ev n.
Proof.
  intros H k Hk. destruct (decide (k <= N)%nat) as [HkN|HkN]; [|rewrite ex_late_ev by lia; done].
  pose proof (upto_spec _ _ k H HkN) as U. cbv beta in U. destruct (Nat.ltb_spec k n); [lia|]. cbn [orb] in U. split; [|split].
  - intros r E. rewrite E in U. destruct r; try discriminate U. eauto.
  - intros p st m E Hm. rewrite E in U. apply negb_true_iff in U. apply Kube_Proofs.recognise_says in Hm. unfold ended in U. rewrite Hm in U. destruct m; try discriminate U; [by left|by right].
  - intros p E. by rewrite E in U.
Qed.
End examples.

(** The size is set to three and the limit is two; the requests for pods are answered, the
    pods start... *)
Definition ex_grow : list devent := [DGet false []; DSize 3] ++ tell ++ [DGet false []; P_KFleet.made 1%positive; P_KFleet.made 2%positive; pod_waits 1%positive; pod_up 2%positive] ++ replicate 4 seen_pod ++ [DGet false [1%positive]].
Example C143_example : exists run ev n i, endless (Some 2) run ev /\ fair run ev /\ steady run ev n 2 /\ smooth run ev n /\ (n <= i)%nat /\ counted_on (run i) = 0 /\ exists j, (i <= j)%nat /\ 2 <= counted_on (run j).
Proof.
  assert (served_b (Some 2) ex_grow = true) as H1 by (vm_compute; reflexivity). assert (known_b (Some 2) ex_grow = true) as H2 by (vm_compute; reflexivity).
  assert (steady_b (Some 2) ex_grow 4 2 = true) as H3 by (vm_compute; reflexivity). assert (smooth_b ex_grow 4 = true) as H4 by (vm_compute; reflexivity).
  pose proof (ex_endless _ _ H1) as HE. pose proof (ex_fair _ _ H1 H2) as HF. assert (4 <= length ex_grow)%nat as Hn by (cbn; lia). pose proof (ex_steady _ _ 4 2 Hn H3) as HS. pose proof (ex_smooth (Some 2) _ 4 H4) as HM.
  exists (ex_at (Some 2) ex_grow), (ex_ev ex_grow), 4%nat, 4%nat. split; [exact HE|]. split; [exact HF|]. split; [exact HS|]. split; [exact HM|]. split; [lia|]. split; [vm_compute; reflexivity|]. eapply C143_reached_partial; [exact HE|exact HF|exact HS|exact HM|lia].
Qed.
(** ... and the run of C119, where a pod fails: at that moment only one worker is left. *)
Definition ex_two' : list devent := take (length ex_two - 2) ex_two.
Example C143_example_2 : exists run ev n i, endless (Some 2) run ev /\ fair run ev /\ steady run ev n 2 /\ (n <= i)%nat /\ counted_on (run i) = 1 /\ outstanding (d_kube (run i)) = 0%nat.
Proof.
  assert (served_b (Some 2) ex_two' = true) as H1 by (vm_compute; reflexivity). assert (known_b (Some 2) ex_two' = true) as H2 by (vm_compute; reflexivity).
  assert (steady_b (Some 2) ex_two' 7 2 = true) as H3 by (vm_compute; reflexivity).
  pose proof (ex_endless _ _ H1) as HE. pose proof (ex_fair _ _ H1 H2) as HF. assert (7 <= length ex_two')%nat as Hn by (vm_compute; lia). pose proof (ex_steady _ _ 7 2 Hn H3) as HS.
  exists (ex_at (Some 2) ex_two'), (ex_ev ex_two'), 7%nat, 19%nat. split; [exact HE|]. split; [exact HF|]. split; [exact HS|]. split; [lia|]. split; vm_compute; reflexivity.
Qed.
(** Without the last condition of [fair] it is false: a pod that is deleted before its
    status says anything is awaited for ever. *)
Theorem C143_lost_refuted : exists run ev n, endless None run ev /\ served run ev /\ steady run ev n 1 /\
  forall k, (n <= k)%nat -> d_size (run k) = 1 /\ counted_on (run k) = 0 /\ outstanding (d_kube (run k)) = 0%nat /\ srv (d_kube (run k)) = ∅.
Proof.
  assert (served_b None ex_lost = true) as H1 by (vm_compute; reflexivity). assert (steady_b None ex_lost (length ex_lost) 1 = true) as H3 by (vm_compute; reflexivity).
  exists (ex_at None ex_lost), (ex_ev ex_lost), (length ex_lost). split; [exact (ex_endless _ _ H1)|]. split; [exact (ex_served _ _ H1)|]. split; [exact (ex_steady _ _ _ 1 (le_n _) H3)|].
  intros k Hk. rewrite (ex_late_at _ _ k Hk). split; [vm_compute; reflexivity|]. split; [vm_compute; reflexivity|]. split; [vm_compute; reflexivity|]. apply (bool_decide_unpack _). vm_compute. exact I.
Qed.
Print Assumptions C143_lost_refuted.
