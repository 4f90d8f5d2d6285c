(** * Specification of times read through binary floating point (C64)

    The code divides the FILETIME by ten million and hands the quotient to [datetime.fromtimestamp]. Here: which number
    of microseconds that is, in rational arithmetic. *)
From Coq Require Import QArith Qabs.
From Verif Require Import Py Spec SpecTime.
#[local] Open Scope Q_scope.

(** Numbers with a significand of 53 bits, and those whose significand is even. (The exponents of binary64 are bounded
    too; a FILETIME comes nowhere near the bounds.) *)
Definition double (x : Q) : Prop := exists m e : Z, (Z.abs m < 2 ^ 53)%Z /\ x == inject_Z m * (2 # 1) ^ e.
Definition even_double (x : Q) : Prop :=
  exists m e : Z, (2 ^ 52 <= Z.abs m < 2 ^ 53)%Z /\ Z.even m = true /\ x == inject_Z m * (2 # 1) ^ e.
(** [x] is [q] rounded to a double: to the nearest one, and of two to the even one. *)
Definition nearest_double (q x : Q) : Prop :=
  double x
  /\ (forall y, double y -> Qabs (q - x) <= Qabs (q - y))
  /\ (forall y, double y -> ~ y == x -> Qabs (q - x) == Qabs (q - y) -> even_double x).
(** The same for integers. *)
Definition nearest_integer (q : Q) (n : Z) : Prop :=
  (forall k, Qabs (q - inject_Z n) <= Qabs (q - inject_Z k))
  /\ (forall k, k <> n -> Qabs (q - inject_Z n) == Qabs (q - inject_Z k) -> Z.even n = true).
(** The part before the point. *)
Definition whole_part (x : Q) : Z := Z.quot (Qnum x) (Z.pos (Qden x)).

(** [n] is the number of microseconds from 1970 to the FILETIME [t] as the code counts them: the seconds are rounded to a
    double; the millionfold of their fraction is rounded to a double, and that to an integer. *)
Definition counted (t n : Z) : Prop :=
  exists seconds micro us,
    nearest_double (inject_Z (since_1970 t) / inject_Z 10000000) seconds
    /\ nearest_double ((seconds - inject_Z (whole_part seconds)) * inject_Z 1000000) micro
    /\ nearest_integer micro us
    /\ n = (whole_part seconds * 1000000 + us)%Z.

(** What is reported for the FILETIME [t]: nothing for zero and outside the years 1..9999, else the time counted. *)
Definition time_read (t : Z) (shown : option datetime) : Prop :=
  match shown with
  | Some dt => t <> 0%Z /\ valid_datetime dt /\ counted t (microseconds dt - day_number 1970 1 1 * 86400 * 1000000)
  | None => t = 0%Z \/ exists n, counted t n /\ ~ (0 <= day_number 1970 1 1 * 86400 * 1000000 + n < end_of_time)%Z
  end.
(** A warning is given when the time is neither zero nor reported. *)
Definition time_said (t : Z) (shown : option datetime) : list warning :=
  match shown with
  | Some _ => []
  | None => if (t =? 0)%Z then [] else [WFiletime (enci64 t)]
  end.
