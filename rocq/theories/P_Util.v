(** Properties C46-C48: the rate limiter, the LRU cache, merging JSON objects. *)
From Coq Require Import Ascii String ZArith QArith Qminmax Lqa Lia.
From stdpp Require Import prelude.
From Verif Require Import Trace Router_Model ProxyLog_Model Json_Model Util_Model Util_Spec Util_Proofs Util_Proofs2 Util_Proofs3.

(** C46. [h] lists all calls of one limiter: when each was made and when it could go
    on.  In any window [s, s + t] at most burst + rate * t calls go on. *)
Theorem C46_window : forall rate burst t0 h s t, (0 < rate)%Q -> (1 <= burst)%Q -> limited rate burst t0 h -> (0 <= t)%Q ->
  (count_Q (length (List.filter (in_window s t) h)) <= burst + rate * t)%Q.
Proof. intros rate burst t0 h s t Hr Hb. exact (window_bound rate burst Hr Hb t0 h s t). Qed.
Print Assumptions C46_window.
(** Calls go on in the order in which they were made, and not before. *)
Theorem C46_order : forall rate burst t0 h1 ni pi h2 nj pj h3, (0 < rate)%Q -> (1 <= burst)%Q ->
  limited rate burst t0 (h1 ++ (ni, pi) :: h2 ++ (nj, pj) :: h3) -> (pi <= pj)%Q.
Proof. intros rate burst t0 h1 ni pi h2 nj pj h3 Hr Hb H. exact (proj1 (two_calls rate burst Hr Hb t0 h1 ni pi h2 nj pj h3 H)). Qed.
Print Assumptions C46_order.
Theorem C46_not_before : forall rate burst t0 h n p, (0 < rate)%Q -> limited rate burst t0 (h ++ [(n, p)]) -> (n <= p)%Q.
Proof. intros rate burst t0 h n p Hr. exact (passes_after rate burst Hr t0 h n p). Qed.
Print Assumptions C46_not_before.
(** If a call has to wait, going on any earlier would put more than burst + rate * t
    calls into some window.  Missing: histories in which a call comes more than
    burst/rate seconds after one that had to wait (see below). *)
Theorem C46_needed_partial : forall rate burst t0 h n p, (0 < rate)%Q -> (1 <= burst)%Q ->
  limited rate burst t0 (h ++ [(n, p)]) -> no_long_gap rate burst (h ++ [(n, p)]) -> (n < p)%Q ->
  exists h1 ni pi h2, h = h1 ++ (ni, pi) :: h2 /\ (count_Q (length h2 + 2) == burst + rate * (p - pi))%Q.
Proof. intros rate burst t0 h n p Hr Hb. exact (delay_needed rate burst Hr Hb t0 h n p). Qed.
Print Assumptions C46_needed_partial.
(** The cap on the elapsed time forgets that the bucket may be in debt: after ten
    calls at time 0 and a pause of 100 seconds (rate 1, burst 1) the next call waits 9
    seconds, although it could go on at once without breaking the bound. *)
Definition ten : list Q := [0; 0; 0; 0; 0; 0; 0; 0; 0; 0]%Q.
Definition ex_pause : list (Q * Q) := snd (run (acquire 1 1) (limiter_init 1 0) (ten ++ [100%Q])).
Definition fits_at (rate burst : Q) (h : list (Q * Q)) (q : Q) : bool :=
  forallb (fun i => match h !! i with Some (_, pi) => Qle_bool (count_Q (length h - i + 1)) (burst + rate * (q - pi)) | None => true end) (seq 0 (length h)).
Lemma fits_at_spec rate burst h q : fits_at rate burst h q = true ->
  forall h1 ni pi h2, h = h1 ++ (ni, pi) :: h2 -> (count_Q (length h2 + 2) <= burst + rate * (q - pi))%Q.
Proof.
  unfold fits_at. rewrite forallb_forall. intros H h1 ni pi h2 ->. specialize (H (length h1)).
  rewrite list_lookup_middle in H by done. rewrite app_length in H. cbn [length] in H.
  replace (length h1 + S (length h2) - length h1 + 1)%nat with (length h2 + 2)%nat in H by lia. apply Qle_bool_iff. apply H. apply in_seq. lia.
Qed.
Theorem C46_prompt_refuted : exists rate burst t0 h n p, (0 < rate)%Q /\ (1 <= burst)%Q /\ limited rate burst t0 (h ++ [(n, p)]) /\ (n + 9 == p)%Q /\
  forall h1 ni pi h2, h = h1 ++ (ni, pi) :: h2 -> (count_Q (length h2 + 2) <= burst + rate * (n - pi))%Q.
Proof.
  exists 1%Q, 1%Q, 0%Q, (take 10 ex_pause), 100%Q, (snd (List.last ex_pause (0, 0)%Q)).
  split; [lra|]. split; [lra|].
  assert (E : take 10 ex_pause ++ [(100%Q, snd (List.last ex_pause (0, 0)%Q))] = ex_pause) by (vm_compute; reflexivity).
  split; [rewrite E; split|].
  - exists (fst (run (acquire 1 1) (limiter_init 1 0) (ten ++ [100%Q]))). apply (run_exec _ _ (ten ++ [100%Q])). vm_compute. reflexivity.
  - vm_compute. repeat split; discriminate.
  - split; [vm_compute; reflexivity|]. apply fits_at_spec. vm_compute. reflexivity.
Qed.
Print Assumptions C46_prompt_refuted.
(** Three calls at once with burst 2 and rate 1/2: two go on, the third after 2 s. *)
Definition ex_three : list (Q * Q) := snd (run (acquire (1 # 2) 2) (limiter_init 2 0) [1; 1; 1]%Q).
Example C46_example : limited (1 # 2) 2 0 ex_three /\ map (fun eo => Qred (snd eo)) ex_three = [1; 1; 3]%Q /\ no_long_gap (1 # 2) 2 ex_three.
Proof.
  split; [split|split].
  - exists (fst (run (acquire (1 # 2) 2) (limiter_init 2 0) [1; 1; 1]%Q)). apply (run_exec _ _ [1; 1; 1]%Q). vm_compute. reflexivity.
  - vm_compute. repeat split; discriminate.
  - vm_compute. reflexivity.
  - intros h1 n1 p1 n2 p2 h2 E. right. assert (Hin : (n1, p1) ∈ ex_three /\ (n2, p2) ∈ ex_three).
    { rewrite E. split; apply elem_of_app; right; [left|right; left]. }
    assert (Hall : forall n p, (n, p) ∈ ex_three -> n = 1%Q).
    { intros n p H. assert (HF : Forall (fun eo => fst eo = 1%Q) ex_three) by (vm_compute; repeat constructor). rewrite Forall_forall in HF. exact (HF _ H). }
    destruct Hin as [H1 H2]. apply Hall in H1 as ->. apply Hall in H2 as ->. vm_compute. discriminate.
Qed.

(** C47. [h] is any sequence of calls on a new cache with their results.  A get
    returns exactly the value whose put is the last thing that happened to the key
    (not a discard, not an eviction). *)
Theorem C47_get : forall (K V : Type) (H : EqDecision K) max_size h k o (c : cache K V),
  exec (lru_step max_size) [] (h ++ [(Get k, o)]) c -> exists r, o = OGet r /\ forall v, r = Some v <-> holds h k v.
Proof. intros K V H. exact (get_returns (K := K) (V := V)). Qed.
Print Assumptions C47_get.
Theorem C47_bounded : forall (K V : Type) (H : EqDecision K) max_size h (c : cache K V) ks,
  exec (lru_step max_size) [] h c -> NoDup ks -> (forall k, k ∈ ks -> exists v, holds h k v) -> (length ks <= max_size)%nat.
Proof. intros K V H. exact (bounded (K := K) (V := V)). Qed.
Print Assumptions C47_bounded.
(** A put evicts an entry only if it adds a new key to a full cache; every other
    entry, and the new one, was used after the last use of the evicted one.  (An
    entry is used when it is read or added, not when its value is replaced.) *)
Theorem C47_evicts : forall (K V : Type) (H : EqDecision K) max_size h k v e (c : cache K V),
  exec (lru_step max_size) [] (h ++ [(Put k v, OPut (Some e))]) c ->
  (forall w, ~ holds h k w) /\
  (exists ks, NoDup ks /\ length ks = max_size /\ forall x, x ∈ ks <-> exists w, holds h x w) /\
  (e = k -> max_size = 0%nat) /\
  forall x, x <> e -> (exists w, holds h x w) \/ x = k -> used_later (h ++ [(Put k v, OPut (Some e))]) e x.
Proof. intros K V H. exact (eviction (K := K) (V := V)). Qed.
Print Assumptions C47_evicts.
(** Two places: 1 and 2 are put, 1 is read, 3 evicts 2; putting 1 again does not save
    it from 4. *)
Definition ex_lru : list (lev nat nat * lout nat nat) :=
  snd (run (lru_step 2) [] [Put 1 10; Put 2 20; Get 1; Put 3 30; Put 1 11; Get 1; Get 3; Put 1 12; Put 4 40; Get 1; Discard 3; Get 3]%nat).
Example C47_example : map snd ex_lru =
  [OPut None; OPut None; OGet (Some 10); OPut (Some 2); OPut None; OGet (Some 11); OGet (Some 30); OPut None; OPut (Some 1); OGet None; ODiscard; OGet None]%nat.
Proof. vm_compute. reflexivity. Qed.

(** C48. Every key of the merged object. *)
Theorem C48_keys : forall (b a : list (bytes * json)) k, NoDup (map fst b) ->
  dget k (merge b a) = combined (dget k a) (dget k b).
Proof. exact merge_get. Qed.
Print Assumptions C48_keys.
Theorem C48_order : forall (b a : list (bytes * json)), NoDup (map fst b) ->
  map fst (merge b a) = map fst a ++ List.filter (fun k => negb (bool_decide (k ∈ map fst a))) (map fst b).
Proof. exact merge_keys. Qed.
Print Assumptions C48_order.
(** At any depth: what [b] says nothing about is kept; what [b] has at a path is
    there, appended to the list of [a] or merged with the object of [a] if both have
    one. *)
Theorem C48_kept : forall p b a, wf (JObj b) -> silent p (JObj b) -> part p (JObj (merge b a)) = part p (JObj a).
Proof. intros p b a. exact (silent_kept p (JObj b) (JObj a)). Qed.
Print Assumptions C48_kept.
Theorem C48_taken : forall p b a v, wf (JObj b) -> part p (JObj b) = Some v ->
  part p (JObj (merge b a)) = combined (part p (JObj a)) (Some v).
Proof. intros p b a. exact (part_combined p (JObj b) (JObj a)). Qed.
Print Assumptions C48_taken.
(** On mutable objects: the merge of two objects is made (for enough stack), reads
    as the merged value, and everything that could be read before, in particular
    both arguments, reads the same afterwards. *)
Theorem C48_made : forall h a oa b ob, reads (fun _ => False) h (Ref a) (JObj oa) -> reads (fun _ => False) h (Ref b) (JObj ob) ->
  exists n h' r, hmerge n h a b = Some (h', r) /\ reads (fun _ => False) h' (Ref r) (JObj (merge ob oa)).
Proof. exact merge_objects. Qed.
Print Assumptions C48_made.
Theorem C48_unchanged : forall n h a b h' r v j, hmerge n h a b = Some (h', r) -> reads (fun _ => False) h v j -> reads (fun _ => False) h' v j.
Proof. exact inputs_unchanged. Qed.
Print Assumptions C48_unchanged.
(** A pod with one container and a node selector; the extra configuration adds a
    container, a label to the selector and a service account. *)
Definition pod_a : list (bytes * json) :=
  [(b_ "containers", JList [JStr (b_ "main")]); (b_ "nodeSelector", JObj [(b_ "zone", JStr (b_ "a")); (b_ "disk", JStr (b_ "ssd"))]); (b_ "dns", JNull)].
Definition pod_b : list (bytes * json) :=
  [(b_ "containers", JList [JStr (b_ "side")]); (b_ "nodeSelector", JObj [(b_ "zone", JStr (b_ "b"))]); (b_ "account", JStr (b_ "sa"))].
Definition ex_heap : heap :=
  [HList [Scalar (JStr (b_ "main"))]; HDict [(b_ "zone", Scalar (JStr (b_ "a"))); (b_ "disk", Scalar (JStr (b_ "ssd")))];
   HDict [(b_ "containers", Ref 0); (b_ "nodeSelector", Ref 1); (b_ "dns", Scalar JNull)];
   HList [Scalar (JStr (b_ "side"))]; HDict [(b_ "zone", Scalar (JStr (b_ "b")))];
   HDict [(b_ "containers", Ref 3); (b_ "nodeSelector", Ref 4); (b_ "account", Scalar (JStr (b_ "sa")))]].
Example C48_example : wf (JObj pod_b) /\ silent [b_ "nodeSelector"; b_ "disk"] (JObj pod_b) /\
  merge pod_b pod_a = [(b_ "containers", JList [JStr (b_ "main"); JStr (b_ "side")]);
    (b_ "nodeSelector", JObj [(b_ "zone", JStr (b_ "b")); (b_ "disk", JStr (b_ "ssd"))]); (b_ "dns", JNull); (b_ "account", JStr (b_ "sa"))] /\
  reads (fun _ => False) ex_heap (Ref 2) (JObj pod_a) /\ reads (fun _ => False) ex_heap (Ref 5) (JObj pod_b) /\
  snd <$> hmerge 2 ex_heap 2 5 = Some 6%nat.
Proof.
  split; [repeat split; apply (bool_decide_unpack _); vm_compute; done|]. split; [vm_compute; done|]. split; [vm_compute; reflexivity|].
  split; [|split].
  - eapply R_dict; [tauto|reflexivity|]. constructor; [|constructor; [|constructor; [|constructor]]].
    + eapply R_list; [tauto|reflexivity|]. constructor; [|constructor]. by apply R_scalar.
    + eapply R_dict; [tauto|reflexivity|]. constructor; [|constructor; [|constructor]]; by apply R_scalar.
    + by apply R_scalar.
  - eapply R_dict; [tauto|reflexivity|]. constructor; [|constructor; [|constructor; [|constructor]]].
    + eapply R_list; [tauto|reflexivity|]. constructor; [|constructor]. by apply R_scalar.
    + eapply R_dict; [tauto|reflexivity|]. constructor; [|constructor]; by apply R_scalar.
    + by apply R_scalar.
  - vm_compute. reflexivity.
Qed.
