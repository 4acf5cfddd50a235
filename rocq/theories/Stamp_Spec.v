(** Vocabulary for C144: the calendar. *)
From Coq Require Import ZArith Ascii.
From stdpp Require Import list.
Open Scope Z_scope.
(** A year divisible by 4 is a leap year, unless by 100 and not by 400. *)
Definition leap (y : Z) : Prop := (4 | y) /\ (~ (100 | y) \/ (400 | y)).
(** The length of a month. *)
Inductive lasts (y : Z) : Z -> Z -> Prop :=
| thirty_one m : m ∈ [1; 3; 5; 7; 8; 10; 12] -> lasts y m 31
| thirty m : m ∈ [4; 6; 9; 11] -> lasts y m 30
| february : ~ leap y -> lasts y 2 28
| february_leap : leap y -> lasts y 2 29.
(** One day follows another: in the same month, or in the next one, or in the next year. *)
Inductive tomorrow : Z * Z * Z -> Z * Z * Z -> Prop :=
| same_month y m d n : lasts y m n -> d < n -> tomorrow (y, m, d) (y, m, d + 1)
| next_month y m n : lasts y m n -> m < 12 -> tomorrow (y, m, n) (y, m + 1, 1)
| next_year y : tomorrow (y, 12, 31) (y + 1, 1, 1).
(** The date [n] days after 1970-01-01. *)
Inductive day : Z -> Z * Z * Z -> Prop :=
| first_day : day 0 (1970, 1, 1)
| later_day n a b : day n a -> tomorrow a b -> day (n + 1) b.
(** The decimal digits, and numbers written with them. *)
Definition digits : list ascii := ["0"; "1"; "2"; "3"; "4"; "5"; "6"; "7"; "8"; "9"]%char.
Inductive decimal : list ascii -> Z -> Prop :=
| no_digits : decimal [] 0
| one_more l n c d : decimal l n -> digits !! d = Some c -> decimal (l ++ [c]) (10 * n + Z.of_nat d).
(** The text YYYY-MM-DDThh:mm:ssZ. *)
Definition stamp (ts : list ascii) (y m d hh mm ss : Z) : Prop :=
  exists ly lm ld lh ln ls, ts = ly ++ ["-"%char] ++ lm ++ ["-"%char] ++ ld ++ ["T"%char] ++ lh ++ [":"%char] ++ ln ++ [":"%char] ++ ls ++ ["Z"%char] /\
    (length ly = 4 /\ length lm = 2 /\ length ld = 2 /\ length lh = 2 /\ length ln = 2 /\ length ls = 2)%nat /\
    decimal ly y /\ decimal lm m /\ decimal ld d /\ decimal lh hh /\ decimal ln mm /\ decimal ls ss.
(** A time of day. *)
Definition clock (hh mm ss : Z) : Prop := 0 <= hh < 24 /\ 0 <= mm < 60 /\ 0 <= ss < 60.
