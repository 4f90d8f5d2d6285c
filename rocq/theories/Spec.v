(** * Specification vocabulary

    Written from [MS-SHLLINK], [MS-DTYP] and the calendar, not from /repo. It uses only
    the language-level definitions of Py.v (bytes, text, slices, little-endian value) and, for
    code pages, the type of Codec.v. *)
From Verif Require Import Py Codec.

(** ** Encoding of numbers *)

Definition enc8 (n : N) : bytes := [n2b n].
Definition enc16 (n : N) : bytes := [n2b n; n2b (n / 256)].
Definition enc32 (n : N) : bytes := enc16 n ++ enc16 (n / 65536).
Definition enc64 (n : N) : bytes := enc32 n ++ enc32 (n / 4294967296).
(** Two's complement. *)
Definition twos (bits : Z) (z : Z) : N := Z.to_N (z mod 2 ^ bits).
Definition enci16 (z : Z) : bytes := enc16 (twos 16 z).
Definition enci32 (z : Z) : bytes := enc32 (twos 32 z).
Definition enci64 (z : Z) : bytes := enc64 (twos 64 z).

(** The number stored in the [w] bytes at offset [off]. *)
Definition num (w off : N) (b : bytes) : N := le_val (takeN w (dropN off b)).

(** The byte string [raw] holds [piece] at offset [off]. *)
Definition holds (raw : bytes) (off : N) (piece : bytes) : Prop :=
  exists before after, raw = before ++ piece ++ after /\ lenN before = off.

(** ** GUIDs ([MS-DTYP] 2.3.4): sixteen bytes and their registry text *)

Definition hex_table : text := s2t "0123456789ABCDEF".
Definition hex_of_byte (b : byte) : text :=
  [nth (N.to_nat (b2n b / 16)) hex_table 0; nth (N.to_nat (b2n b mod 16)) hex_table 0].
Definition guid_text (g : bytes) : text :=
  match g with
  | [b0; b1; b2; b3; b4; b5; b6; b7; b8; b9; b10; b11; b12; b13; b14; b15] =>
    flat_map hex_of_byte [b3; b2; b1; b0] ++ s2t "-" ++
    flat_map hex_of_byte [b5; b4] ++ s2t "-" ++
    flat_map hex_of_byte [b7; b6] ++ s2t "-" ++
    flat_map hex_of_byte [b8; b9] ++ s2t "-" ++
    flat_map hex_of_byte [b10; b11; b12; b13; b14; b15]
  | _ => []
  end.

(** ** Where the sections of a link file lie ([MS-SHLLINK] 2)

    Offsets into the whole file. [bit_set i b]: LinkFlags bit [i]. *)
Definition header_len (b : bytes) : N := num 4 0 b.
Definition bit_set (i : N) (b : bytes) : bool := N.testbit (num 4 20 b) i.

Definition has_id_list (b : bytes) : bool := bit_set 0 b.
Definition id_list_end (b : bytes) : N :=
  if has_id_list b then header_len b + (2 + num 2 (header_len b) b) else header_len b.

(** The LinkInfo section counts when it is announced, not forbidden, its LinkInfoFlags lie
    inside the file and announce one of the two variants. *)
Definition info_processed (b : bytes) : bool :=
  let p := id_list_end b in
  bit_set 1 b && negb (bit_set 8 b) && (p + 12 <=? lenN b)
  && (N.testbit (num 4 (p + 8) b) 0 || N.testbit (num 4 (p + 8) b) 1).
Definition info_end (b : bytes) : N :=
  if info_processed b then id_list_end b + num 4 (id_list_end b) b else id_list_end b.

(** StringData: each announced string is a 16-bit count and that many characters, of two
    bytes if IsUnicode is set; the first three are cut at 260 characters. When the file
    ends inside a count the section ends before it. *)
Definition string_slots : list (N * bool) := [(2, true); (3, true); (4, true); (5, false); (6, false)].
Definition char_width (b : bytes) : N := if bit_set 7 b then 2 else 1.
Definition chars_read (limited : bool) (count : N) : N := if limited then N.min count 260 else count.
Fixpoint strings_end (slots : list (N * bool)) (b : bytes) (p : N) : N :=
  match slots with
  | [] => p
  | (i, limited) :: rest =>
    if bit_set i b then
      if p + 2 <=? lenN b
      then strings_end rest b (p + 2 + chars_read limited (num 2 p b) * char_width b)
      else p
    else strings_end rest b p
  end.
Definition string_data_end (b : bytes) : N := strings_end string_slots b (info_end b).

(** Extra data: [block_walk r blocks r'] - starting at [r], the blocks (signature and bytes)
    are [blocks] and the walk stops at [r']. It stops when fewer than four bytes are left or
    at a size of zero; a block without room for a signature is skipped. *)
Inductive block_walk : bytes -> list (N * bytes) -> bytes -> Prop :=
| walk_stop r : lenN r < 4 \/ num 4 0 r = 0 -> block_walk r [] r
| walk_short r blocks r' :
    4 <= lenN r < 8 -> num 4 0 r <> 0 ->
    block_walk (dropN (num 4 0 r) r) blocks r' -> block_walk r blocks r'
| walk_block r blocks r' :
    8 <= lenN r -> num 4 0 r <> 0 ->
    block_walk (dropN (num 4 0 r) r) blocks r' ->
    block_walk r ((num 4 4 r, takeN (num 4 0 r) r) :: blocks) r'.

(** Declared size of a block. *)
Definition declared (blk : N * bytes) : N := num 4 0 (snd blk).
Definition sumN (l : list N) : N := fold_right N.add 0 l.

(** A block is big enough to hold its own size. *)
Definition sizes_readable (blocks : list (N * bytes)) : Prop := Forall (fun blk => 4 <= lenN (snd blk)) blocks.

(** The conditions under which a link can be constructed: the header reaches beyond the
    LinkFlags, an announced ID list has its size field, every kept block its own. *)
Definition constructible (b : bytes) : Prop :=
  24 <= header_len b /\ 24 <= lenN b
  /\ (has_id_list b = true -> header_len b + 2 <= lenN b)
  /\ forall blocks r, block_walk (dropN (string_data_end b) b) blocks r -> sizes_readable blocks.

(** The code page is one Python knows. *)
Definition usable (cp : cp_arg) : Prop := cp <> CpUnknown.

(** ** The ShellLinkHeader ([MS-SHLLINK] 2.1) *)

Record shell_header := ShellHeader {
  h_size : N;        (* HeaderSize: 0x4C in a conforming file *)
  h_clsid : bytes;   (* LinkCLSID, sixteen bytes *)
  h_flags : N;       (* LinkFlags *)
  h_attrs : N;       (* FileAttributes *)
  h_ctime : Z;       (* CreationTime, AccessTime, WriteTime: FILETIMEs *)
  h_atime : Z;
  h_wtime : Z;
  h_fsize : N;       (* FileSize *)
  h_icon : Z;        (* IconIndex, signed *)
  h_show : N;        (* ShowCommand *)
  h_key : byte;      (* HotKey: low byte (key), high byte (modifiers) *)
  h_mods : byte;
  h_res1 : N;        (* Reserved1, 2, 3 *)
  h_res2 : N;
  h_res3 : N }.

Definition encode_header (h : shell_header) : bytes :=
  enc32 (h_size h) ++ h_clsid h ++ enc32 (h_flags h) ++ enc32 (h_attrs h)
  ++ enci64 (h_ctime h) ++ enci64 (h_atime h) ++ enci64 (h_wtime h)
  ++ enc32 (h_fsize h) ++ enci32 (h_icon h) ++ enc32 (h_show h) ++ [h_key h; h_mods h]
  ++ enc16 (h_res1 h) ++ enc32 (h_res2 h) ++ enc32 (h_res3 h).

Definition fits16 (n : N) : Prop := n < 65536.
Definition fits32 (n : N) : Prop := n < 4294967296.
Definition fits_i16 (z : Z) : Prop := (-32768 <= z < 32768)%Z.
Definition fits_i32 (z : Z) : Prop := (-2147483648 <= z < 2147483648)%Z.
Definition fits_i64 (z : Z) : Prop := (-9223372036854775808 <= z < 9223372036854775808)%Z.

Definition wf_header (h : shell_header) : Prop :=
  76 <= h_size h /\ fits32 (h_size h) /\ lenN (h_clsid h) = 16 /\ fits32 (h_flags h) /\ fits32 (h_attrs h)
  /\ fits_i64 (h_ctime h) /\ fits_i64 (h_atime h) /\ fits_i64 (h_wtime h) /\ fits32 (h_fsize h)
  /\ fits_i32 (h_icon h) /\ fits32 (h_show h) /\ fits16 (h_res1 h) /\ fits32 (h_res2 h) /\ fits32 (h_res3 h).

(** The LinkCLSID of every shell link, as text. *)
Definition link_clsid_text : text := s2t "00021401-0000-0000-C000-000000000046".
Definition link_clsid : bytes :=
  [x01; x14; x02; x00; x00; x00; x00; x00; xc0; x00; x00; x00; x00; x00; x00; x46].

(** A header with the given flags and all else empty, used in examples. *)
Definition plain_header (flags : N) : shell_header :=
  ShellHeader 76 link_clsid flags 0x20 0 0 0 0 0 1 x00 x00 0 0 0.
