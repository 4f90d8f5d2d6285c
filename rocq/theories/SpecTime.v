(** * Specification of calendar time (C08, C09)

    The proleptic Gregorian calendar by day counting, FILETIME ([MS-DTYP] 2.3.3) and FAT
    times; nothing here refers to the model of the parser. *)
From Verif Require Import Py Spec.
#[local] Open Scope Z_scope.

Definition leap_year (y : Z) : bool :=
  (y mod 4 =? 0) && (negb (y mod 100 =? 0) || (y mod 400 =? 0)).
Definition month_length (y m : Z) : Z :=
  if m =? 2 then (if leap_year y then 29 else 28)
  else if (m =? 4) || (m =? 6) || (m =? 9) || (m =? 11) then 30 else 31.
Definition days_before_month (y m : Z) : Z :=
  nth (Z.to_nat m) [0; 0; 31; 59; 90; 120; 151; 181; 212; 243; 273; 304; 334] 0
  + (if (2 <? m) && leap_year y then 1 else 0).
Definition days_before_year (y : Z) : Z := 365 * (y - 1) + (y - 1) / 4 - (y - 1) / 100 + (y - 1) / 400.
(** Days from 0001-01-01 to the given date. *)
Definition day_number (y m d : Z) : Z := days_before_year y + days_before_month y m + (d - 1).

Definition valid_date (y m d : Z) : Prop := 1 <= m <= 12 /\ 1 <= d <= month_length y m.
(** A time Python's [datetime] can represent. *)
Definition valid_datetime (t : datetime) : Prop :=
  1 <= dt_year t <= 9999 /\ valid_date (dt_year t) (dt_month t) (dt_day t)
  /\ 0 <= dt_hour t <= 23 /\ 0 <= dt_min t <= 59 /\ 0 <= dt_sec t <= 59 /\ 0 <= dt_us t <= 999999.

(** Microseconds from 0001-01-01 00:00:00 UTC. *)
Definition microseconds (t : datetime) : Z :=
  (day_number (dt_year t) (dt_month t) (dt_day t) * 86400 + dt_hour t * 3600 + dt_min t * 60 + dt_sec t) * 1000000
  + dt_us t.
(** The first microsecond of the year 10000. *)
Definition end_of_time : Z := day_number 10000 1 1 * 86400 * 1000000.

(** A FILETIME counts units of 100 ns from 1601-01-01; the same instant counted from
    0001-01-01. *)
Definition filetime_instant (t : Z) : Z := t + day_number 1601 1 1 * 86400 * 10000000.
Definition filetime_of (t : datetime) : Z := microseconds t * 10 - day_number 1601 1 1 * 86400 * 10000000.
(** Units of 100 ns from 1970-01-01 to a FILETIME. *)
Definition since_1970 (t : Z) : Z := filetime_instant t - day_number 1970 1 1 * 86400 * 10000000.

(** What is reported for a FILETIME [t]: nothing for zero and outside the years 1..9999; else a valid time at most 17
    microseconds (170 units) off, less than one microsecond within 2^32 seconds of 1970; the time itself when [t] was
    made from a whole second, or from a whole microsecond within that distance of 1970. *)
Definition near_1970 (t : Z) : Prop := Z.abs (since_1970 t) < 2 ^ 32 * 10000000.
Definition time_shown (t : Z) (shown : option datetime) : Prop :=
  (t = 0 -> shown = None)
  /\ (t <> 0 -> filetime_instant t < -170 \/ 10 * end_of_time + 170 <= filetime_instant t -> shown = None)
  /\ (t <> 0 -> 170 <= filetime_instant t < 10 * end_of_time - 170 ->
      exists dt, shown = Some dt /\ valid_datetime dt
        /\ Z.abs (10 * microseconds dt - filetime_instant t) <= 170
        /\ (near_1970 t -> Z.abs (10 * microseconds dt - filetime_instant t) < 10))
  /\ (forall dt, valid_datetime dt -> t = filetime_of dt -> t <> 0 -> dt_us dt = 0 \/ near_1970 t -> shown = Some dt).

(** The warnings for a FILETIME: none for zero and inside the range, one outside. *)
Definition time_warned (t : Z) (warnings : list warning) : Prop :=
  (t = 0 -> warnings = [])
  /\ (t <> 0 -> filetime_instant t < -170 \/ 10 * end_of_time + 170 <= filetime_instant t ->
      warnings = [WFiletime (enci64 t)])
  /\ (t <> 0 -> 170 <= filetime_instant t < 10 * end_of_time - 170 -> warnings = [])
  /\ (warnings = [] \/ warnings = [WFiletime (enci64 t)]).

(** FAT date and time, date word first: 7 bits year-1980, 4 month, 5 day; 5 bits hour,
    6 minute, 5 seconds / 2. *)
Definition fat_date (t : datetime) : Z := (dt_year t - 1980) * 512 + dt_month t * 32 + dt_day t.
Definition fat_time (t : datetime) : Z := dt_hour t * 2048 + dt_min t * 32 + dt_sec t / 2.
(** The fields of a FAT date (low word) and time (high word), valid or not. *)
Definition fat_datetime (n : N) : datetime :=
  DT (Z.of_N (n / 512 mod 128 + 1980)%N) (Z.of_N (n / 32 mod 16)%N) (Z.of_N (n mod 32)%N)
     (Z.of_N (n / 134217728)%N) (Z.of_N (n / 2097152 mod 64)%N) (Z.of_N (n / 65536 mod 32 * 2)%N) 0.
