(** * Specification: what the printed JSON text keeps of a report (property C84)

    Two values say the same up to the order of the entries of a dictionary, at every level, and up to the fraction of a
    second of a time. *)
From Verif Require Import Py Codec SpecReport.
From Coq Require Import Permutation.

Definition to_the_second (t : datetime) : Z * Z * Z * Z * Z * Z :=
  (dt_year t, dt_month t, dt_day t, dt_hour t, dt_min t, dt_sec t).

Inductive same : pyval -> pyval -> Prop :=
| same_none : same PNone PNone
| same_int z : same (PInt z) (PInt z)
| same_text t : same (PStr t) (PStr t)
| same_time t t' : to_the_second t = to_the_second t' -> same (PDate t) (PDate t')
| same_list l l' : Forall2 same l l' -> same (PList l) (PList l')
| same_dict d d' reordered :
    Permutation d' reordered ->
    Forall2 (fun e e' : string * pyval => fst e = fst e' /\ same (snd e) (snd e')) d reordered ->
    same (PDict d) (PDict d').

(** ** Reading the text back

    A program that has read the text with any JSON reader takes the strings under these keys for times. *)
Definition time_keys : list string := ["creation_time"; "accessed_time"; "modified_time"; "modification_time"]%string.
Definition is_time (key : string) : bool := existsb (String.eqb key) time_keys.

(** The number two digits make. *)
Definition digits (i : N) (t : text) : Z :=
  (10 * (Z.of_N (nth (N.to_nat i) t 0%N) - 48) + (Z.of_N (nth (S (N.to_nat i)) t 0%N) - 48))%Z.
(** "2021-07-09T10:15:59+00:00" *)
Definition time_of (t : text) : datetime :=
  DT (100 * digits 0 t + digits 2 t) (digits 5 t) (digits 8 t) (digits 11 t) (digits 14 t) (digits 17 t) 0.
(** A key of ASCII characters. *)
Definition key_of (t : text) : string := fold_right (fun c s => String (ascii_of_N c) s) EmptyString t.

Fixpoint back (key : string) (j : json) : pyval :=
  match j with
  | JStr t => if is_time key then PDate (time_of t) else PStr t
  | JInt z => PInt z
  | JArray js => PList (map (back "") js)
  | JObject ms => PDict (map (fun m => (key_of (fst m), back (key_of (fst m)) (snd m))) ms)
  | JNull | JBool _ => PNone      (* there are no booleans in the text *)
  end.
