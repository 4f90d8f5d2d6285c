(** * Specification: files to which a part is added (C82) *)
From Verif Require Import Py Codec Spec SpecText SpecExtra SpecPrefix SpecPatch.

(** A header, as long as it says; and another one that differs in announcing one more part, and perhaps in other fields. *)
Definition is_header (h : bytes) : Prop := 24 <= lenN h /\ header_len h = lenN h.
Definition announces (i : N) (h1 h2 : bytes) : Prop :=
  is_header h1 /\ is_header h2 /\ lenN h1 = lenN h2
  /\ bit_set i h1 = false /\ bit_set i h2 = true /\ forall j, j <> i -> bit_set j h1 = bit_set j h2.
(** What stands behind a header, up to the LinkInfo. *)
Definition list_part (h t : bytes) : Prop := if has_id_list h then is_id_list t else t = [].

(** A stored string: its count and its characters. *)
Definition is_string (h : bytes) (limited : bool) (s : bytes) : Prop :=
  2 <= lenN s /\ lenN s = 2 + chars_read limited (num 2 0 s) * (if bit_set 7 h then 2 else 1).
(** All the strings [fields] that a header announces, in one piece. *)
Inductive strings_are (h : bytes) : list (N * string * bool) -> bytes -> list (string * bytes) -> Prop :=
| are_none : strings_are h [] [] []
| are_without i name limited fields s found :
    bit_set i h = false -> strings_are h fields s found -> strings_are h ((i, name, limited) :: fields) s found
| are_with i name limited fields x s found :
    bit_set i h = true -> is_string h limited x -> strings_are h fields s found ->
    strings_are h ((i, name, limited) :: fields) (x ++ s) ((name, dropN 2 x) :: found).
(** How strings are reported. *)
Definition texts (h : bytes) (cp : cp_arg) (found : list (string * bytes)) : pyval :=
  PDict (map (fun f => (fst f, PStr (stored_text (bit_set 7 h) cp (snd f)))) found).

(** All that comes before the blocks. *)
Definition before_blocks (front b : bytes) : Prop :=
  lists_inside (lenN front) b /\ info_inside (lenN front) b /\ string_data_end b = lenN front.
(** No block of a list has this name. *)
Definition unnamed (k : string) (blocks : list (N * bytes)) : Prop := forall blk, In blk blocks -> block_name (fst blk) <> k.
(** The two reports say the same about the extra data under this name. *)
Definition same_block (k : string) (d1 d2 : dict) : Prop :=
  exists e1 e2, reported_extra d1 = Some e1 /\ reported_extra d2 = Some e2 /\ dget k e1 = dget k e2.
