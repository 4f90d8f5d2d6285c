(** * Specification: how many warnings a file can cause (property C80) *)
From Verif Require Import Py Codec Spec SpecText SpecExtra SpecSize.

(** What the constructor warns about, whether it succeeds or fails: it stops at the first number that is cut off. *)
Inductive constructor_says (b : bytes) (cp : cp_arg) : list warning -> Prop :=
| says_nothing : lenN b < 4 -> constructor_says b cp []
| says_once : 4 <= lenN b -> header_len b < 4 -> constructor_says b cp (size_warning_of b)
| says_twice :
    4 <= lenN b -> 4 <= header_len b ->
    header_len b < 24 \/ lenN b < 24 \/ has_id_list b = true /\ lenN b < header_len b + 2 ->
    constructor_says b cp (size_warning_of b ++ size_warning_of b)
| says_all found (cut : bool) blocks_said :
    24 <= lenN b -> 24 <= header_len b -> (has_id_list b = true -> header_len b + 2 <= lenN b) ->
    string_walk b string_fields (info_end b) found (string_data_end b) cut ->
    walk_warnings (dropN (string_data_end b) b) blocks_said ->
    constructor_says b cp
      (size_warning_of b ++ size_warning_of b ++ info_warning b
       ++ flat_map (fun f => stored_warning (bit_set 7 b) cp (snd f)) found
       ++ (if cut then [WStringData] else []) ++ blocks_said).

(** No extra data block of the file is a property store. *)
Definition no_store (b : bytes) : Prop :=
  forall blocks tail signature raw,
    block_walk (dropN (string_data_end b) b) blocks tail -> In (signature, raw) blocks -> signature <> 0xA0000009.

(** Sixty-four bytes that are a storage and, from the 25th byte on, a property of it: its value is a text of one UTF-16
    unit, half of a surrogate pair. *)
Definition broken_unit : bytes :=
  enc32 64 ++ repeat x00 20                                   (* the storage: its size, version and format *)
  ++ enc32 64 ++ repeat x00 5                                 (* the property: its size and number *)
  ++ enc16 0x1F ++ enc16 0 ++ enc32 1 ++ enc16 0xD800         (* a text *)
  ++ repeat x00 21.
(** A file whose property store is [n] of them, forty zero bytes behind them: a header that announces nothing, the store,
    the end of the extra data. *)
Definition broken_store (n : nat) : bytes := concat (repeat broken_unit n) ++ repeat x00 40.
Definition broken_file (n : nat) : bytes :=
  encode_header (plain_header 0) ++ enc32 (64 * N.of_nat n + 48) ++ enc32 0xA0000009 ++ broken_store n ++ enc32 0.
