(** * The parts of Python's float division and [datetime] used by utils.py

    Everything is integer arithmetic: a finite double is [m * 2^e] with [m], [e] integers. *)
From Verif Require Import Py.
#[local] Open Scope Z_scope.

(** Nearest integer to [a / b], ties to even ([b > 0]). *)
Definition rhe_div (a b : Z) : Z :=
  let q := a / b in
  let r := a mod b in
  if 2 * r <? b then q else if b <? 2 * r then q + 1 else if Z.even q then q else q + 1.

(** Correctly rounded double nearest to [a / b], for [a > 0], [b > 0], as (mantissa,
    exponent). Exponent range checks are not needed for the magnitudes that occur
    ([2^-24 < a/b < 2^41]). *)
Definition scaled_rhe (a b e : Z) : Z :=
  if e <? 0 then rhe_div (a * 2 ^ (- e)) b else rhe_div a (b * 2 ^ e).
Definition scaled_floor (a b e : Z) : Z :=
  if e <? 0 then (a * 2 ^ (- e)) / b else a / (b * 2 ^ e).
Definition to_double (a b : Z) : Z * Z :=
  let e0 := Z.log2 a - Z.log2 b - 53 in
  let e := if scaled_floor a b e0 <? 2 ^ 53 then e0 else e0 + 1 in
  (scaled_rhe a b e, e).

(** Python's [int / int] for non-negative operands. *)
Definition true_div (a b : Z) : Z * Z := if a =? 0 then (0, 0) else to_double a b.

(** [_PyTime_DoubleToDenominator(|d|, 10^6, ROUND_HALF_EVEN)] on the magnitude of the
    timestamp: integral seconds and rounded microseconds (0..10^6, before carry). *)
Definition double_to_sec_us (d : Z * Z) : Z * Z :=
  let (m, e) := d in
  if 0 <=? e then (m * 2 ^ e, 0)
  else
    let den := 2 ^ (- e) in
    let intpart := m / den in
    let frac := m mod den in
    let (m2, e2) := true_div (frac * 1000000) den in
    (intpart, if 0 <=? e2 then m2 * 2 ^ e2 else rhe_div m2 (2 ^ (- e2))).

(** The same function on a signed timestamp, with the carries of the C code
    ([floatpart >= denominator], [floatpart < 0]). *)
Definition timestamp_to_sec_us (num den : Z) : Z * Z :=
  let (i, f) := double_to_sec_us (true_div (Z.abs num) den) in
  if 0 <=? num then
    if 1000000 <=? f then (i + 1, f - 1000000) else (i, f)
  else
    let i := - i in
    let f := - f in
    if f <? 0 then (i - 1, f + 1000000) else (i, f).

(** Proleptic Gregorian calendar. *)
Definition is_leap (y : Z) : bool :=
  (y mod 4 =? 0) && (negb (y mod 100 =? 0) || (y mod 400 =? 0)).
Definition days_in_month (y m : Z) : Z :=
  match m with
  | 1 | 3 | 5 | 7 | 8 | 10 | 12 => 31
  | 4 | 6 | 9 | 11 => 30
  | 2 => if is_leap y then 29 else 28
  | _ => 0
  end.

(** Month and day of the zero-based day of the year. *)
Fixpoint month_day (fuel : nat) (y m doy : Z) : Z * Z :=
  match fuel with
  | O => (m, doy + 1)
  | S f =>
    if doy <? days_in_month y m then (m, doy + 1) else month_day f y (m + 1) (doy - days_in_month y m)
  end.

(** Calendar date of the day number [n] (0 = 0001-01-01, any sign), as in CPython's
    [ord_to_ymd] / the C library's [gmtime]. *)
Definition civil_of_days (n : Z) : Z * Z * Z :=
  let n400 := n / 146097 in
  let r400 := n mod 146097 in
  let n100 := r400 / 36524 in
  let r100 := r400 mod 36524 in
  let n4 := r100 / 1461 in
  let r4 := r100 mod 1461 in
  let n1 := r4 / 365 in
  let r1 := r4 mod 365 in
  let year := n400 * 400 + n100 * 100 + n4 * 4 + n1 + 1 in
  if (n1 =? 4) || (n100 =? 4) then (year - 1, 12, 31)
  else let (m, d) := month_day 11 year 1 r1 in (year, m, d).

(** [datetime(y, m, d, h, mi, s, us, tzinfo=utc)]: ValueError when out of range. *)
Definition make_datetime (y m d h mi s us : Z) : option datetime :=
  if (1 <=? y) && (y <=? 9999) && (1 <=? m) && (m <=? 12) && (1 <=? d) && (d <=? days_in_month y m)
     && (0 <=? h) && (h <=? 23) && (0 <=? mi) && (mi <=? 59) && (0 <=? s) && (s <=? 59)
     && (0 <=? us) && (us <=? 999999)
  then Some (DT y m d h mi s us) else None.

(** Day number (0 = 0001-01-01) of 1970-01-01. *)
Definition epoch_days : Z := 719162.

(** [datetime.fromtimestamp(num / den, tz=timezone.utc)]; [None] is ValueError
    ("year is out of range") or OverflowError. *)
Definition fromtimestamp_utc (num den : Z) : option datetime :=
  let (sec, us) := timestamp_to_sec_us num den in
  let days := sec / 86400 in
  let rem := sec mod 86400 in
  let '(y, m, d) := civil_of_days (days + epoch_days) in
  make_datetime y m d (rem / 3600) (rem / 60 mod 60) (rem mod 60) us.
