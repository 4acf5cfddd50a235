(** Times in Kubernetes objects: k8s_timestamp, parse_k8s_timestamp
    (S/backends/kubernetes/utils.py 17-24), on CPython's datetime (Lib/datetime.py:
    _is_leap, _days_before_year, _days_before_month, _ymd2ord, _ord2ymd, fromisoformat,
    timestamp; the C version computes the same).

    S = dask-gateway-server/dask_gateway_server.
    Simplifications: text is a list of ASCII characters; a text without its last character
    that does not have the form dddd-dd-ddxdd:dd:dd (x any character) is not read ([None]),
    although fromisoformat reads some other forms too (fractions, and week dates from
    Python 3.11 on), which neither the controller nor the API server writes.  %Y pads to
    four digits from year 1000 on.  Microseconds are left out of the clock: strftime drops
    them. *)
From Coq Require Import ZArith Ascii.
From stdpp Require Import list.
Open Scope Z_scope.

(** _is_leap, _DAYS_IN_MONTH, _DAYS_BEFORE_MONTH, _days_in_month, _days_before_year,
    _days_before_month, _ymd2ord. *)
Definition is_leap (y : Z) : bool := (y mod 4 =? 0) && (negb (y mod 100 =? 0) || (y mod 400 =? 0)).
Definition month_days : list Z := [31; 28; 31; 30; 31; 30; 31; 31; 30; 31; 30; 31].
Definition month_starts : list Z := [0; 31; 59; 90; 120; 151; 181; 212; 243; 273; 304; 334].
Definition nth_month (l : list Z) (m : Z) : Z := nth (Z.to_nat (m - 1)) l 0.
Definition days_in_month (y m : Z) : Z := if (m =? 2) && is_leap y then 29 else nth_month month_days m.
Definition days_before_year (y : Z) : Z := let y1 := y - 1 in y1 * 365 + y1 / 4 - y1 / 100 + y1 / 400.
Definition days_before_month (y m : Z) : Z := nth_month month_starts m + (if (2 <? m) && is_leap y then 1 else 0).
Definition ymd2ord (y m d : Z) : Z := days_before_year y + days_before_month y m + d.
(** _ord2ymd. *)
Definition ord2ymd (n : Z) : Z * Z * Z :=
  let n := n - 1 in
  let n400 := n / 146097 in let n := n mod 146097 in
  let n100 := n / 36524 in let n := n mod 36524 in
  let n4 := n / 1461 in let n := n mod 1461 in
  let n1 := n / 365 in let n := n mod 365 in
  let year := n400 * 400 + 1 + n100 * 100 + n4 * 4 + n1 in
  if (n1 =? 4) || (n100 =? 4) then (year - 1, 12, 31)
  else
    let leap := (n1 =? 3) && (negb (n4 =? 24) || (n100 =? 3)) in
    let month := (n + 50) / 32 in
    let before := nth_month month_starts month + (if (2 <? month) && leap then 1 else 0) in
    if n <? before then
      let month := month - 1 in
      (year, month, n - (before - (nth_month month_days month + (if (month =? 2) && leap then 1 else 0))) + 1)
    else (year, month, n - before + 1).

(** [epoch]: the ordinal of 1970-01-01.  The moment [t], in seconds since then, as date
    and time of day. *)
Definition epoch : Z := 719163.
Definition date_of (t : Z) : Z * Z * Z := ord2ymd (epoch + t / 86400).
(** strftime: numbers padded with zeros. *)
Definition digit (d : Z) : ascii := ascii_of_nat (Z.to_nat (48 + d)).
Definition two (n : Z) : list ascii := [digit (n / 10); digit (n mod 10)].
Definition four (n : Z) : list ascii := two (n / 100) ++ two (n mod 100).
(** "%Y-%m-%dT%H:%M:%SZ" *)
Definition text (y m d hh mm ss : Z) : list ascii :=
  four y ++ ["-"%char] ++ two m ++ ["-"%char] ++ two d ++ ["T"%char] ++ two hh ++ [":"%char] ++ two mm ++ [":"%char] ++ two ss ++ ["Z"%char].
(** k8s_timestamp (22-24), called at [now] milliseconds. *)
Definition k8s_timestamp (now : Z) : list ascii :=
  let t := now / 1000 in let '(y, m, d) := date_of t in
  let s := t mod 86400 in text y m d (s / 3600) (s / 60 mod 60) (s mod 60).

(** Digits to a number. *)
Definition value (c : ascii) : option Z := let n := Z.of_nat (nat_of_ascii c) - 48 in if (0 <=? n) && (n <=? 9) then Some n else None.
Fixpoint number (acc : Z) (l : list ascii) : option Z :=
  match l with [] => Some acc | c :: l' => match value c with Some d => number (10 * acc + d) l' | None => None end end.
(** The checks of the constructor (_check_date_fields, _check_time_fields). *)
Definition valid (y m d hh mm ss : Z) : bool :=
  (1 <=? y) && (y <=? 9999) && (1 <=? m) && (m <=? 12) && (1 <=? d) && (d <=? days_in_month y m) &&
  (0 <=? hh) && (hh <=? 23) && (0 <=? mm) && (mm <=? 59) && (0 <=? ss) && (ss <=? 59).
(** timestamp() of an aware datetime: the difference to the epoch. *)
Definition seconds (y m d hh mm ss : Z) : Z := (ymd2ord y m d - epoch) * 86400 + hh * 3600 + mm * 60 + ss.
(** fromisoformat (ts without its last character), in UTC; [None]: ValueError. *)
Definition fromiso (ts : list ascii) : option Z :=
  match ts with
  | [y1; y2; y3; y4; s1; m1; m2; s2; d1; d2; _; h1; h2; s3; n1; n2; s4; c1; c2] =>
      if Ascii.eqb s1 "-" && Ascii.eqb s2 "-" && Ascii.eqb s3 ":" && Ascii.eqb s4 ":" then
        match number 0 [y1; y2; y3; y4], number 0 [m1; m2], number 0 [d1; d2], number 0 [h1; h2], number 0 [n1; n2], number 0 [c1; c2] with
        | Some y, Some m, Some d, Some hh, Some mm, Some ss => if valid y m d hh mm ss then Some (seconds y m d hh mm ss) else None
        | _, _, _, _, _, _ => None
        end
      else None
  | _ => None
  end.
(** parse_k8s_timestamp (17-19). *)
Definition parse_k8s_timestamp (ts : list ascii) : option Z := option_map (fun t => t * 1000) (fromiso (removelast ts)).
