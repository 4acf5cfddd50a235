(** Templates are read as they are written. *)
From Coq Require Import Ascii String ZArith Lia.
From stdpp Require Import prelude.
From Verif Require Import Router_Model ProxyLog_Model Launch_Model Json_Model Addr_Model Template_Model Template_Spec.
Local Open Scope nat_scope.

Lemma is_digit_spec c : is_digit c = bool_decide (digit c).
Proof. unfold digit. destruct c as [[] [] [] [] [] [] [] []]; vm_compute; reflexivity. Qed.
Lemma special_spec c : c ∉ b_ "{}[:!." <-> c <> lbrace /\ c <> rbrace /\ c ∉ b_ "[:!.".
Proof.
  assert (E : b_ "{}[:!." = lbrace :: rbrace :: b_ "[:!.") by reflexivity. rewrite E, !not_elem_of_cons. tauto.
Qed.
Lemma field_good env n : good_name n -> field env n = match dget n env with Some v => Gives v | None => Raises end.
Proof.
  intros [(c & Hc & Hd) _]. unfold field.
  destruct (forallb is_digit n) eqn:E; [|done].
  rewrite forallb_forall in E. specialize (E c). rewrite <- elem_of_list_In in E. specialize (E Hc).
  rewrite is_digit_spec in E. apply bool_decide_eq_true in E. done.
Qed.
Lemma field_gives env n v : (forall c, c ∈ n -> c ∉ b_ "{}[:!.") -> field env n = Gives v -> good_name n /\ dget n env = Some v.
Proof.
  intros Hn. unfold field. destruct (forallb is_digit n) eqn:E; [done|].
  destruct (dget n env) as [w|]; [|done]. intros [= ->]. split; [|done]. split; [|done].
  clear Hn. induction n as [|c n IH]; [done|]. cbn in E. apply andb_false_iff in E as [E|E].
  - exists c. split; [left|]. rewrite is_digit_spec in E. by apply bool_decide_eq_false in E.
  - destruct (IH E) as (d & Hd & ?). exists d. split; [by right|done].
Qed.
Lemma inside_field env s n : forall acc, (forall c, c ∈ n -> c ∉ b_ "{}[:!.") ->
  markup env (Some acc) (n ++ rbrace :: s) = bind (field env (rev acc ++ n)) (fun v => bind (markup env None s) (fun t => Gives (v ++ t))).
Proof.
  induction n as [|c n IH]; intros acc H.
  - cbn. rewrite decide_True by done. by rewrite app_nil_r.
  - pose proof (H c ltac:(left)) as Hc. apply special_spec in Hc as (H1 & H2 & H3).
    cbn [app markup]. rewrite (decide_False (P := c = rbrace)), (decide_False (P := c = lbrace)) by done.
    rewrite decide_False by done. rewrite IH by (intros; apply H; by right).
    cbn [rev]. by rewrite <- app_assoc.
Qed.
Lemma markup_written env ps : Forall good ps ->
  markup env None (written ps) = match means env ps with Some t => Gives t | None => Raises end.
Proof.
  induction 1 as [|p ps Hp _ IH]; [done|].
  unfold written in *. cbn [map]. change (mjoin (write1 p :: map write1 ps)) with (write1 p ++ mjoin (map write1 ps)).
  set (r := mjoin (map write1 ps)) in *. destruct p as [c|n].
  - cbn [write1 means means1 mbind option_bind]. destruct (decide _) as [[-> | ->]|Hc].
    + cbn [app markup]. rewrite !decide_True by done. rewrite IH. by destruct (means env ps).
    + cbn [app markup]. rewrite (decide_False (P := "}"%char = lbrace)) by done. rewrite !decide_True by done.
      rewrite IH. by destruct (means env ps).
    + cbn [app markup]. rewrite (decide_False (P := c = lbrace)) by tauto. rewrite (decide_False (P := c = rbrace)) by tauto.
      rewrite IH. by destruct (means env ps).
  - cbn [write1 means means1 mbind option_bind good] in *.
    assert (E : markup env None (("{"%char :: n ++ ["}"%char]) ++ r) = markup env (Some []) (n ++ rbrace :: r)).
    { destruct Hp as [(c & Hc & _) Hn]. destruct n as [|d n]; [by apply elem_of_nil in Hc|].
      pose proof (Hn d ltac:(left)) as Hd. apply special_spec in Hd as (H1 & H2 & H3).
      cbn [app]. rewrite <- app_assoc. cbn [app].
      cbn [markup]. rewrite (decide_True (P := "{"%char = lbrace)) by done.
      rewrite (decide_False (P := d = lbrace)) by done. done. }
    rewrite E, inside_field by apply Hp. cbn [rev app]. rewrite field_good by done.
    destruct (dget n env) as [v|]; [|done]. cbn [bind]. rewrite IH. by destruct (means env ps).
Qed.
Lemma bind_gives {A B} (r : result A) (f : A -> result B) b : bind r f = Gives b -> exists a, r = Gives a /\ f a = Gives b.
Proof. destruct r; [|done..]. cbn. eauto. Qed.
Lemma markup_gives env : forall k s, length s <= k ->
  (forall t, markup env None s = Gives t -> exists ps, Forall good ps /\ s = written ps /\ means env ps = Some t) /\
  (forall acc t, (forall c, c ∈ acc -> c ∉ b_ "{}[:!.") -> markup env (Some acc) s = Gives t ->
     exists n ps, Forall good (Ref (rev acc ++ n) :: ps) /\ s = n ++ rbrace :: written ps /\ means env (Ref (rev acc ++ n) :: ps) = Some t).
Proof.
  induction k as [|k IH]; intros s Hk.
  { destruct s; [|cbn in Hk; lia]. split; [intros t [= <-]; by exists []|done]. }
  destruct s as [|c s]; [split; [intros t [= <-]; by exists []|done]|]. cbn in Hk. split.
  - intros t. cbn [markup]. destruct (decide (c = lbrace)) as [-> |H1].
    + destruct s as [|d s']; [done|]. destruct (decide (d = lbrace)) as [-> |Hd].
      * intros (u & Hu & [= <-])%bind_gives. cbn in Hk. destruct (proj1 (IH s' ltac:(lia)) u Hu) as (ps & Hg & -> & Hm).
        exists (Literal lbrace :: ps). split; [by constructor|]. split; [done|]. cbn. by rewrite Hm.
      * intros Ht. destruct (proj2 (IH (d :: s') ltac:(done || cbn in *; lia)) [] t ltac:(intros ? []%elem_of_nil) Ht) as (n & ps & Hg & E & Hm).
        cbn [rev app] in *. exists (Ref n :: ps). split; [done|]. split; [|done]. rewrite E. unfold written.
        cbn [map write1]. change (mjoin (?a :: ?l)) with (a ++ mjoin l). cbn [app]. rewrite <- app_assoc. done.
    + destruct (decide (c = rbrace)) as [-> |H2].
      * destruct s as [|d s']; [done|]. destruct (decide (d = rbrace)) as [-> |Hd]; [|done].
        intros (u & Hu & [= <-])%bind_gives. cbn in Hk. destruct (proj1 (IH s' ltac:(lia)) u Hu) as (ps & Hg & -> & Hm).
        exists (Literal rbrace :: ps). split; [by constructor|]. split; [done|]. cbn. by rewrite Hm.
      * intros (u & Hu & [= <-])%bind_gives. destruct (proj1 (IH s ltac:(lia)) u Hu) as (ps & Hg & -> & Hm).
        exists (Literal c :: ps). split; [by constructor|]. split.
        -- unfold written. cbn [map]. change (mjoin (?a :: ?l)) with (a ++ mjoin l). cbn [write1].
           rewrite decide_False; [done|]. intros [?|?]; done.
        -- cbn. by rewrite Hm.
  - intros acc t Hacc. cbn [markup]. destruct (decide (c = rbrace)) as [-> |H2].
    + intros (v & Hv & Ht)%bind_gives. apply bind_gives in Ht as (u & Hu & [= <-]).
      destruct (proj1 (IH s ltac:(lia)) u Hu) as (ps & Hg & -> & Hm).
      apply field_gives in Hv as [Hn Hv]; [|intros d Hd; apply Hacc; by rewrite elem_of_list_In, in_rev, <- elem_of_list_In].
      exists [], ps. rewrite app_nil_r. split; [by constructor|]. split; [done|]. cbn. by rewrite Hv, Hm.
    + destruct (decide (c = lbrace)) as [|H1]; [done|]. destruct (decide (c ∈ b_ "[:!.")) as [|H3]; [done|].
      intros Ht. destruct (proj2 (IH s ltac:(lia)) (c :: acc) t) as (n & ps & Hg & -> & Hm); [|done|].
      * intros d [-> |Hd]%elem_of_cons; [by apply special_spec|by apply Hacc].
      * exists (c :: n), ps. cbn [rev] in Hg, Hm. rewrite <- app_assoc in Hg, Hm. done.
Qed.
Lemma format_iff env s t : format env s = Gives t <-> exists ps, Forall good ps /\ s = written ps /\ means env ps = Some t.
Proof.
  split.
  - apply (markup_gives env (length s) s (le_n _)).
  - intros (ps & Hg & -> & Hm). unfold format. by rewrite markup_written, Hm.
Qed.
Lemma no_brace_written s : no_brace s -> s = written (map Literal s).
Proof.
  induction s as [|c s IH]; [done|]. intros [H1 H2]. rewrite not_elem_of_cons in H1, H2. unfold written. cbn [map write1].
  change (mjoin (?a :: ?l)) with (a ++ mjoin l). rewrite decide_False by (intros [?|?]; naive_solver).
  cbn [app]. f_equal. apply IH. split; tauto.
Qed.
Lemma means_literals env s : means env (map Literal s) = Some s.
Proof. induction s as [|c s IH]; [done|]. cbn. by rewrite IH. Qed.
Lemma literals_good s : Forall good (map Literal s).
Proof. induction s as [|c s IH]; constructor; done. Qed.
