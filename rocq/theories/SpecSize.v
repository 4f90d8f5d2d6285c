(** * Specification: how large a report is (property C59) *)
From Verif Require Import Py PyTime Codec Spec SpecText.

(** The number of values, entries and characters of a report: what printing it, or walking
    over it, takes. *)
Fixpoint weight (v : pyval) : N :=
  match v with
  | PStr t => 1 + lenN t
  | PList l =>
    1 + (fix go (l : list pyval) : N := match l with [] => 0 | x :: r => weight x + go r end) l
  | PDict d =>
    1 + (fix go (d : list (string * pyval)) : N :=
           match d with [] => 0 | (_, x) :: r => 1 + weight x + go r end) d
  | PNone | PInt _ | PDate _ => 1
  end.

(** A code page that gives at most one character per byte. *)
Definition narrow_page (c : codec) : Prop :=
  (forall b t, strict c b = Some t -> lenN t <= lenN b) /\ (forall b, lenN (replace c b) <= lenN b).

(** The weight of the property store in a report, 0 when there is none. *)
Definition store_weight (report : dict) : N :=
  match dget "extra" report with
  | Some (PDict extra) =>
    match dget "METADATA_PROPERTIES_BLOCK" extra with Some v => weight v | None => 0 end
  | _ => 0
  end.

(** A file whose property store is [n] words of value 4, forty zero bytes behind them: a header
    that announces nothing, the store, the end of the extra data. *)
Definition words (n : nat) : bytes := concat (repeat (enc32 4) n).
Definition store_file (n : nat) : bytes :=
  encode_header (plain_header 0) ++ enc32 (4 * N.of_nat n + 48) ++ enc32 0xA0000009
  ++ words n ++ repeat x00 40 ++ enc32 0.
