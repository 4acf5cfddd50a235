(** Vocabulary for C60 and C75. *)
From Coq Require Import ZArith.
From stdpp Require Import base numbers list.
From Verif Require Import Cred_Model.
Open Scope Z_scope.

Definition is_byte (c : Z) : Prop := 0 <= c < 256.
Definition binary (b : bytes) : Prop := Forall is_byte b.
(** What is assumed of Fernet: a key decrypts what it encrypted, and other keys refuse it. *)
Definition authenticated (F : cipher) : Prop :=
  (forall k r b, dec F k (enc F k r b) = Some b) /\ (forall k k' r b, k <> k' -> dec F k' (enc F k r b) = None).
(** A 32-byte key, and the notations an operator may use for it. *)
Definition raw_key (k : bytes) : Prop := binary k /\ length k = 32%nat.
Definition denotes (x k : bytes) : Prop := raw_key k /\ (x = k \/ x = b64 false k \/ x = b64 true k).
Definition blanks (t : bytes) : Prop := Forall (fun c => blank c = true) t.
(** Keys with blanks around them, separated by semicolons. *)
Fixpoint joined (l : list (bytes * bytes * bytes)) : bytes :=
  match l with [] => [] | [(a, k, b)] => a ++ k ++ b | (a, k, b) :: l => a ++ k ++ b ++ 59 :: joined l end.
(** A character of either base64 alphabet. *)
Definition letter (c : Z) : Prop := 65 <= c <= 90 \/ 97 <= c <= 122 \/ 48 <= c <= 57 \/ c = 43 \/ c = 45 \/ c = 47 \/ c = 95.
