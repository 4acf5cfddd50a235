(** Credentials in the database (S/backends/db_base.py: _normalize_encrypt_key 29-45,
    DataManager.__init__ 314-357, encrypt ... decode_token 406-428, create_cluster 455-482,
    _db_encrypt_keys_default and _validate 609-625) and what new_keypair (S/tls.py) returns.
    A byte is an integer; errors are [None]. *)
From Coq Require Import ZArith Ascii String.
From stdpp Require Import base numbers list.
Open Scope Z_scope.

Notation bytes := (list Z).
Definition s_ (s : string) : bytes := map (fun c => Z.of_nat (nat_of_ascii c)) (list_ascii_of_string s).

(** base64.b64encode, urlsafe_b64encode ([url]). *)
Definition digit (url : bool) (v : Z) : Z :=
  if v <? 26 then 65 + v else if v <? 52 then 71 + v else if v <? 62 then v - 4 else if v =? 62 then (if url then 45 else 43) else (if url then 95 else 47).
Fixpoint b64 (url : bool) (b : bytes) : bytes :=
  match b with
  | a :: b :: c :: r => digit url (a / 4) :: digit url (a mod 4 * 16 + b / 16) :: digit url (b mod 16 * 4 + c / 64) :: digit url (c mod 64) :: b64 url r
  | [a; b] => [digit url (a / 4); digit url (a mod 4 * 16 + b / 16); digit url (b mod 16 * 4); 61]
  | [a] => [digit url (a / 4); digit url (a mod 4 * 16); 61; 61]
  | [] => []
  end.
(** urlsafe_b64decode: - and _ are translated to + and /, which are accepted too; other
    characters are skipped (binascii.a2b_base64, not strict). *)
Definition value (c : Z) : option Z :=
  if (65 <=? c) && (c <=? 90) then Some (c - 65) else if (97 <=? c) && (c <=? 122) then Some (c - 71) else if (48 <=? c) && (c <=? 57) then Some (c + 4)
  else if (c =? 43) || (c =? 45) then Some 62 else if (c =? 47) || (c =? 95) then Some 63 else None.
(** [q]: position in the group of four; [left]: bits not yet used; [pads]: number of =. *)
Fixpoint b64dec_from (q left pads : Z) (t : bytes) : option bytes :=
  match t with
  | [] => if q =? 0 then Some [] else None
  | c :: t =>
    if c =? 61 then
      if 2 <=? q then (if 4 <=? q + (pads + 1) then Some [] else b64dec_from q left (pads + 1) t) else b64dec_from q left pads t
    else match value c with
         | None => b64dec_from q left pads t
         | Some v =>
           if q =? 0 then b64dec_from 1 v 0 t
           else if q =? 1 then (cons (left * 4 + v / 16)) <$> b64dec_from 2 (v mod 16) 0 t
           else if q =? 2 then (cons (left * 16 + v / 4)) <$> b64dec_from 3 (v mod 4) 0 t
           else (cons (left * 64 + v)) <$> b64dec_from 0 0 0 t
         end
  end.
Definition b64dec : bytes -> option bytes := b64dec_from 0 0 0.

(** _normalize_encrypt_key, for bytes. *)
Definition normalize (key : bytes) : option bytes :=
  let key := if Nat.eqb (length key) 44 then match b64dec key with Some k => k | None => key end else key in
  if Nat.eqb (length key) 32 then Some (b64 true key) else None.
(** bytes.split(b";") and bytes.strip(). *)
Fixpoint split_at (acc t : bytes) : list bytes :=
  match t with [] => [acc] | c :: t => if c =? 59 then acc :: split_at [] t else split_at (acc ++ [c]) t end.
Definition split : bytes -> list bytes := split_at [].
Definition blank (c : Z) : bool := (c =? 32) || (9 <=? c) && (c <=? 13).
Fixpoint lstrip (t : bytes) : bytes := match t with c :: t' => if blank c then lstrip t' else t | [] => [] end.
Definition strip (t : bytes) : bytes := reverse (lstrip (reverse (lstrip t))).
(** _db_encrypt_keys_validate; [mem]: the database is in memory. *)
Definition validate (mem : bool) (keys : list bytes) : option (list bytes) :=
  match keys with [] => if mem then Some [] else None | _ => mapM normalize keys end.
(** _db_encrypt_keys_default; its value is validated once more by traitlets. *)
Definition env_keys (mem : bool) (env : bytes) : option (list bytes) :=
  match validate mem (List.filter (fun k => match k with [] => false | _ => true end) (map strip (split env))) with Some keys => validate mem keys | None => None end.

(** Fernet: encryption with a key and fresh randomness; decryption fails or not. *)
Record cipher := Cipher { enc : bytes -> Z -> bytes -> bytes; dec : bytes -> bytes -> option bytes }.
(** MultiFernet (322): the first key encrypts, decryption tries all; with no key it cannot
    be made. *)
Definition encrypt (F : cipher) (mem : bool) (keys : list bytes) (r : Z) (b : bytes) : option bytes :=
  if mem then Some b else match keys with k :: _ => Some (enc F k r b) | [] => None end.
Fixpoint try_keys (F : cipher) (keys : list bytes) (b : bytes) : option bytes :=
  match keys with [] => None | k :: keys => match dec F k b with Some x => Some x | None => try_keys F keys b end end.
Definition decrypt (F : cipher) (mem : bool) (keys : list bytes) (b : bytes) : option bytes := if mem then Some b else try_keys F keys b.
(** The two columns of a cluster's row (455-482). *)
Definition store (F : cipher) (mem : bool) (keys : list bytes) (r1 r2 : Z) (cert key token : bytes) : option (bytes * bytes) :=
  match encrypt F mem keys r1 (cert ++ 59 :: key), encrypt F mem keys r2 token with Some a, Some b => Some (a, b) | _, _ => None end.
(** Reading them (338-345): split must give two parts.  Simplified: token bytes are
    ASCII, on which decode() is the identity. *)
Definition load (F : cipher) (mem : bool) (keys : list bytes) (row : bytes * bytes) : option (bytes * bytes * bytes) :=
  match decrypt F mem keys (fst row), decrypt F mem keys (snd row) with
  | Some a, Some token => match split a with [cert; key] => Some (cert, key, token) | _ => None end
  | _, _ => None
  end.

(** PEM text as written by OpenSSL: base64 in lines of 64. *)
Fixpoint wrap (n : nat) (t : bytes) : bytes :=
  match t, n with
  | [], 64%nat => []
  | [], _ => [10]
  | c :: t, S (S n) => c :: wrap (S n) t
  | c :: t, _ => c :: 10 :: wrap 64 t
  end.
Definition pem (label : string) (der : bytes) : bytes :=
  s_ "-----BEGIN " ++ s_ label ++ s_ "-----" ++ [10] ++ wrap 64 (b64 false der) ++ s_ "-----END " ++ s_ label ++ s_ "-----" ++ [10].
(** new_keypair: the certificate and the PKCS8 key. *)
Definition new_keypair (cert_der key_der : bytes) : bytes * bytes := (pem "CERTIFICATE" cert_der, pem "PRIVATE KEY" key_der).
