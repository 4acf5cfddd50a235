(** C144: times in Kubernetes objects are read back as they were written, to the second. *)
From Coq Require Import ZArith Lia Ascii String.
From stdpp Require Import list.
From Verif Require Import Stamp_Model Stamp_Spec Stamp_Proofs.
Open Scope Z_scope.

(** C144 (written): what k8s_timestamp writes at [now] milliseconds after 1970, before the
    year 10000, is the date that many days after 1970-01-01, and the time of day. *)
Theorem C144_written now : 0 <= now < 253402300800000 -> exists y m d hh mm ss n r,
  stamp (k8s_timestamp now) y m d hh mm ss /\ day n (y, m, d) /\ clock hh mm ss /\
  now = 1000 * (86400 * n + 3600 * hh + 60 * mm + ss) + r /\ 0 <= r < 1000.
Proof.
  intros Hn. destruct (written now Hn) as (y & m & d & Hd & Hy & Hc & Hs). exists y, m, d, (now / 3600000 mod 24), (now / 60000 mod 60), (now / 1000 mod 60), (now / 86400000), (now mod 1000).
  split; [done|]. split; [done|]. split; [done|]. split; [Z.to_euclidean_division_equations; lia|apply Z.mod_pos_bound; lia].
Qed.
(** C144 (read): a date and time from 1970 to 9999 is read as the moment it names. *)
Theorem C144_read ts n y m d hh mm ss : stamp ts y m d hh mm ss -> day n (y, m, d) -> clock hh mm ss -> parse_k8s_timestamp ts = Some (1000 * (86400 * n + 3600 * hh + 60 * mm + ss)).
Proof.
  intros Hs Hd Hc. apply (reads _ _ _ _ _ _ _ _ Hs Hd); [|done]. destruct Hs as (ly & _ & _ & _ & _ & _ & _ & (L & _) & D & _). by eapply decimal_bound_4.
Qed.
(** C144 (there and back): so a moment is read back as its second. *)
Theorem C144_roundtrip now : 0 <= now < 253402300800000 -> exists r, parse_k8s_timestamp (k8s_timestamp now) = Some (now - r) /\ 0 <= r < 1000.
Proof. intros Hn. exists (now mod 1000). split; [by apply roundtrip|apply Z.mod_pos_bound; lia]. Qed.
(** C144 (order): of two moments the later one is never read as the earlier one. *)
Theorem C144_order a b t u : 0 <= a <= b -> b < 253402300800000 -> parse_k8s_timestamp (k8s_timestamp a) = Some t -> parse_k8s_timestamp (k8s_timestamp b) = Some u -> t <= u.
Proof. intros Ha Hb. rewrite !roundtrip by lia. intros [= <-] [= <-]. Z.to_euclidean_division_equations; lia. Qed.
(** C144 (refused): a date or time that does not exist is an error. *)
Theorem C144_refused ts y m d hh mm ss : stamp ts y m d hh mm ss -> ~ (exists n, lasts y m n /\ 1 <= d <= n) \/ ~ clock hh mm ss -> parse_k8s_timestamp ts = None.
Proof. apply refused. Qed.
Print Assumptions C144_written.
Print Assumptions C144_read.
Print Assumptions C144_roundtrip.
Print Assumptions C144_order.
Print Assumptions C144_refused.

Definition str (s : string) : list ascii := list_ascii_of_string s.
Lemma str_stamp s y m d hh mm ss : 0 <= y <= 9999 -> 0 <= m <= 99 -> 0 <= d <= 99 -> 0 <= hh <= 99 -> 0 <= mm <= 99 -> 0 <= ss <= 99 -> str s = text y m d hh mm ss -> stamp (str s) y m d hh mm ss.
Proof. intros ? ? ? ? ? ? ->. by apply text_stamp. Qed.
(** A leap day; the last second of a century; the turn of 2100, which is no leap year. *)
Example C144_example : k8s_timestamp 1709251199999 = str "2024-02-29T23:59:59Z" /\ parse_k8s_timestamp (str "2024-02-29T23:59:59Z") = Some 1709251199000 /\
  k8s_timestamp 946684799000 = str "1999-12-31T23:59:59Z" /\ k8s_timestamp 4107542400000 = str "2100-03-01T00:00:00Z" /\ k8s_timestamp 4107542399000 = str "2100-02-28T23:59:59Z".
Proof. repeat split; vm_compute; reflexivity. Qed.
Example C144_example_read : exists n, stamp (str "2024-02-29T23:59:59Z") 2024 2 29 23 59 59 /\ day n (2024, 2, 29) /\ clock 23 59 59.
Proof.
  destruct (day_total 19782 ltac:(lia)) as [a Ha]. pose proof (day_unique _ _ Ha) as E. exists 19782. split; [apply str_stamp; [lia..|reflexivity]|]. split; [|unfold clock; lia]. assert (a = (2024, 2, 29)) as <- by (rewrite <- E; vm_compute; reflexivity). done.
Qed.
Example C144_example_refused : stamp (str "2100-02-29T00:00:00Z") 2100 2 29 0 0 0 /\ ~ (exists n, lasts 2100 2 n /\ 1 <= 29 <= n).
Proof.
  split; [apply str_stamp; [lia..|reflexivity]|]. intros (n & Hl & Hn). apply lasts_days in Hl as [_ Hl]. change (days_in_month 2100 2) with 28 in Hl. lia.
Qed.
