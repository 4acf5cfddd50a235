(** Proofs about keyword arguments. *)
From Coq Require Import Ascii String.
From stdpp Require Import prelude.
From Verif Require Import Router_Model ProxyLog_Model Keyword_Model.

Section keyword.
Context {A : Type}.
Local Notation kwargs := (list (bytes * A)).
Implicit Types kw : kwargs.
(** [raises] are the names that raise, [kept] those that do not arrive. *)
Definition passes (f : kwargs -> option (kwargs)) (raises kept : list bytes) : Prop := forall kw,
  match f kw with
  | Some sent => (forall k, k ∈ map fst kw -> k ∉ raises) /\ sent = filter (fun kv => fst kv ∉ kept) kw
  | None => exists k, k ∈ map fst kw /\ k ∈ raises
  end.
Lemma call_passes bound params : passes (call bound params) bound params.
Proof.
  intros kw. unfold call. destruct (existsb _ kw) eqn:E.
  - apply existsb_exists in E as ([k x] & Hin & Hb). apply bool_decide_eq_true in Hb. exists k. split; [|done].
    apply elem_of_list_fmap. exists (k, x). split; [done|]. by apply elem_of_list_In.
  - split; [|done]. intros k Hk Hb. apply elem_of_list_fmap in Hk as ([k' x] & -> & Hin). apply not_true_iff_false in E. apply E.
    apply existsb_exists. exists (k', x). split; [by apply elem_of_list_In|]. by apply bool_decide_eq_true.
Qed.
Lemma filter_keys (k : bytes) (kept : list bytes) kw : k ∈ map fst (filter (fun kv => fst kv ∉ kept) kw) <-> k ∈ map fst kw /\ k ∉ kept.
Proof.
  rewrite !elem_of_list_fmap. split.
  - intros ([k' x] & -> & [Hk Hin]%elem_of_list_filter). split; [|done]. by exists (k', x).
  - intros [([k' x] & -> & Hin) Hk]. exists (k', x). split; [done|]. by apply elem_of_list_filter.
Qed.
Lemma passes_bind f g (r1 p1 r2 p2 : list bytes) : passes f r1 p1 -> passes g r2 p2 ->
  passes (fun kw => k1 ← f kw; g k1) (r1 ++ filter (fun k => k ∉ p1) r2) (p1 ++ p2).
Proof.
  intros Hf Hg kw. specialize (Hf kw). destruct (f kw) as [k1|]; cbn [mbind option_bind].
  - destruct Hf as [Hr ->]. specialize (Hg (filter (fun kv => fst kv ∉ p1) kw)). destruct (g _) as [sent|].
    + destruct Hg as [Hr2 ->]. split.
      * intros k Hk [?|[Hp H2]%elem_of_list_filter]%elem_of_app; [by eapply Hr|]. eapply Hr2; [|done]. by apply filter_keys.
      * rewrite list_filter_filter. apply list_filter_iff. intros [k x]. cbn. rewrite elem_of_app. tauto.
    + destruct Hg as (k & [Hk Hp]%filter_keys & H2). exists k. split; [done|]. apply elem_of_app. right. by apply elem_of_list_filter.
  - destruct Hf as (k & Hk & H1). exists k. split; [done|]. apply elem_of_app. by left.
Qed.
Lemma passes_equiv f (r p r' p' : list bytes) : passes f r p -> (forall k, k ∈ r <-> k ∈ r') -> (forall k, k ∈ p <-> k ∈ p' \/ k ∈ r') -> passes f r' p'.
Proof.
  intros H Hr Hp kw. specialize (H kw). destruct (f kw) as [sent|].
  - destruct H as [H1 ->]. split; [intros k Hk; rewrite <- Hr; auto|]. clear -H1 Hr Hp.
    induction kw as [|[k x] kw IH]; [done|]. assert (k ∉ r') by (rewrite <- Hr; apply H1; left).
    assert (IH' := IH ltac:(intros k' Hk'; apply H1; by right)). rewrite !filter_cons. cbn [fst].
    destruct (decide (k ∉ p)) as [Hk|Hk], (decide (k ∉ p')) as [Hk'|Hk']; rewrite ?IH'; try done; exfalso.
    + apply Hk'. intros Hi. apply Hk. apply Hp. by left.
    + apply Hk. intros [?|?]%Hp; auto.
  - destruct H as (k & Hk & Hi). exists k. split; [done|]. by apply Hr.
Qed.
End keyword.
