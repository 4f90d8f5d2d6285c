(** * Specification of text (C12-C16, C50)

    Unicode encodings written as encoders, and what a NUL-terminated field holds. The type of
    code pages and CPython's decoders are those of Codec.v; PropertiesText.v states that the
    decoders invert the encoders given here. *)
From Verif Require Import Py Codec Spec.

(** Unicode scalar values. *)
Definition scalar (c : N) : Prop := c < 0xD800 \/ 0xE000 <= c < 0x110000.
Definition no_nul (t : text) : Prop := Forall (fun c => c <> 0) t.

(** UTF-16, little endian. *)
Definition utf16_char (c : N) : bytes :=
  if c <? 0x10000 then enc16 c
  else enc16 (0xD800 + (c - 0x10000) / 1024) ++ enc16 (0xDC00 + (c - 0x10000) mod 1024).
Definition utf16 (t : text) : bytes := flat_map utf16_char t.

(** UTF-8. *)
Definition utf8_char (c : N) : bytes :=
  if c <? 0x80 then [n2b c]
  else if c <? 0x800 then [n2b (0xC0 + c / 64); n2b (0x80 + c mod 64)]
  else if c <? 0x10000 then [n2b (0xE0 + c / 4096); n2b (0x80 + c / 64 mod 64); n2b (0x80 + c mod 64)]
  else [n2b (0xF0 + c / 262144); n2b (0x80 + c / 4096 mod 64); n2b (0x80 + c / 64 mod 64); n2b (0x80 + c mod 64)].
Definition utf8 (t : text) : bytes := flat_map utf8_char t.

(** The bytes before the first NUL byte, and before the first NUL unit of two bytes (a last
    odd byte belongs to the text). *)
Fixpoint before_nul (b : bytes) : bytes :=
  match b with
  | [] => []
  | c :: r => if Byte.eqb c x00 then [] else c :: before_nul r
  end.
Fixpoint before_nul_unit (b : bytes) : bytes :=
  match b with
  | c :: d :: r => if Byte.eqb c x00 && Byte.eqb d x00 then [] else c :: d :: before_nul_unit r
  | _ => b
  end.

(** The code page in use: Windows-1252 unless one is given. *)
Definition page_of (cp : cp_arg) : codec := match cp with CpCodec c => c | _ => cp1252 end.

(** The text of a code-page field: decoded strictly with the code page, else as UTF-8, else
    with the code page and replacement characters (and a warning). *)
Definition page_text (c : codec) (body : bytes) : text :=
  match strict c body with
  | Some t => t
  | None => match utf8_strict body with Some t => t | None => replace c body end
  end.
Definition page_warning (c : codec) (body : bytes) : list warning :=
  match strict c body, utf8_strict body with
  | None, None => [WDecode (replace c body)]
  | _, _ => []
  end.
Definition field_text (cp : cp_arg) (field : bytes) : text :=
  match before_nul field with [] => [] | body => page_text (page_of cp) body end.
Definition field_warning (cp : cp_arg) (field : bytes) : list warning :=
  match before_nul field with [] => [] | body => page_warning (page_of cp) body end.

(** The text of a Unicode field. *)
Definition wide_text (field : bytes) : text :=
  match utf16_strict (before_nul_unit field) with Some t => t | None => utf16_replace (before_nul_unit field) end.
Definition wide_warning (field : bytes) : list warning :=
  match utf16_strict (before_nul_unit field) with
  | Some _ => []
  | None => [WDecode (utf16_replace (before_nul_unit field))]
  end.

(** ** StringData ([MS-SHLLINK] 2.4)

    The strings in order: the LinkFlags bit that announces each, its key in the report and
    whether it is limited to 260 characters. *)
Definition string_fields : list (N * string * bool) :=
  [(2, "description", true); (3, "relative_path", true); (4, "working_directory", true);
   (5, "command_line_arguments", false); (6, "icon_location", false)]%string.

(** [string_walk b fields p found e cut] - reading [fields] of the file [b] from offset [p]
    finds the strings [found] (key and bytes), ends at [e], and [cut] tells whether the file
    ended before the count of an announced string. *)
Inductive string_walk (b : bytes) : list (N * string * bool) -> N -> list (string * bytes) -> N -> bool -> Prop :=
| strings_done p : string_walk b [] p [] p false
| string_absent i name limited fs p found e cut :
    bit_set i b = false -> string_walk b fs p found e cut ->
    string_walk b ((i, name, limited) :: fs) p found e cut
| string_cut i name limited fs p :
    bit_set i b = true -> lenN b < p + 2 ->
    string_walk b ((i, name, limited) :: fs) p [] p true
| string_found i name limited fs p n found e cut :
    bit_set i b = true -> p + 2 <= lenN b ->
    n = chars_read limited (num 2 p b) * char_width b ->
    string_walk b fs (p + 2 + n) found e cut ->
    string_walk b ((i, name, limited) :: fs) p ((name, slice (p + 2) (p + 2 + n) b) :: found) e cut.

(** The text of a stored string and the warning its decoding gives. *)
Definition stored_text (unicode : bool) (cp : cp_arg) (field : bytes) : text :=
  if unicode then wide_text field else field_text cp field.
Definition stored_warning (unicode : bool) (cp : cp_arg) (field : bytes) : list warning :=
  if unicode then wide_warning field else field_warning cp field.

(** ** The warnings of the constructor *)

(** The walk over the extra data: one warning per block without room for a signature, and one
    when the data end inside a size. *)
Inductive walk_warnings : bytes -> list warning -> Prop :=
| quiet_end r : lenN r = 0 \/ (4 <= lenN r /\ num 4 0 r = 0) -> walk_warnings r []
| cut_size r : 0 < lenN r < 4 -> walk_warnings r [WExtraData]
| no_signature r w : 4 <= lenN r < 8 -> num 4 0 r <> 0 -> walk_warnings (dropN (num 4 0 r) r) w ->
    walk_warnings r (WExtraSig :: w)
| whole_block r w : 8 <= lenN r -> num 4 0 r <> 0 -> walk_warnings (dropN (num 4 0 r) r) w ->
    walk_warnings r w.

Definition size_warning_of (b : bytes) : list warning := if header_len b =? 76 then [] else [WMustBe "size"].
Definition info_warning (b : bytes) : list warning :=
  if bit_set 1 b && negb (bit_set 8 b) && (lenN b <? id_list_end b + 12) then [WInfoClass] else [].

(** ** A StringData section

    Each field is absent or a count and its bytes. *)
Definition encode_string (s : N * bytes) : bytes := enc16 (fst s) ++ snd s.
Definition encode_strings (l : list (option (N * bytes))) : bytes :=
  flat_map (fun o => match o with Some s => encode_string s | None => [] end) l.
(** A Unicode string counts UTF-16 units, a code-page string bytes. *)
Definition utf16_units (t : text) : N := lenN (utf16 t) / 2.
Definition unicode_string (t : text) : N * bytes := (utf16_units t, utf16 t).
Definition page_string (b : bytes) : N * bytes := (lenN b, b).

(** What the file announces: the flag of each field says whether it is there. *)
Definition announced {A} (b : bytes) (fields : list (N * string * bool)) (l : list (option A)) : Prop :=
  Forall2 (fun f o => bit_set (fst (fst f)) b = match o with Some _ => true | None => false end) fields l.
(** Each present field with its key. *)
Fixpoint keyed {A} (fields : list (N * string * bool)) (l : list (option A)) : list (string * A) :=
  match fields, l with
  | (_, name, _) :: fields, Some a :: l => (name, a) :: keyed fields l
  | _ :: fields, None :: l => keyed fields l
  | _, _ => []
  end.
(** The number of bytes of each present field is what its count says. *)
Definition counted (width : N) (fields : list (N * string * bool)) (l : list (option (N * bytes))) : Prop :=
  Forall2 (fun f o => match o with
                      | Some (n, body) => fits16 n /\ lenN body = chars_read (snd f) n * width
                      | None => True end) fields l.

(** Well-formed Unicode texts for the fields. *)
Definition unicode_fits (limited : bool) (t : text) : Prop :=
  Forall scalar t /\ no_nul t /\ utf16_units t < 65536 /\ (limited = true -> utf16_units t <= 260).
Definition page_fits (limited : bool) (body : bytes) : Prop :=
  lenN body < 65536 /\ (limited = true -> lenN body <= 260).
Definition fields_fit {A} (fits : bool -> A -> Prop) (l : list (option A)) : Prop :=
  Forall2 (fun f o => match o with Some a => fits (snd f) a | None => True end) string_fields l.


(** The keys of the announced fields. *)
Definition announced_keys (b : bytes) : list string :=
  map (fun f => snd (fst f)) (filter (fun f : N * string * bool => bit_set (fst (fst f)) b) string_fields).

(** ** Installer GUIDs compressed with base 85

    Each 32-bit word of the GUID, in memory order, becomes five digits, the least significant
    first. *)
Definition base85_alphabet : text :=
  s2t "!$%&'()*+,-.0123456789=?@ABCDEFGHIJKLMNOPQRSTUVWXYZ[]^_`abcdefghijklmnopqrstuvwxyz{}~".
Definition base85_word (w : N) : text :=
  map (fun p => nth (N.to_nat (w / p mod 85)) base85_alphabet 0) [1; 85; 7225; 614125; 52200625].
Definition packed_guid (g : bytes) : text :=
  flat_map (fun off => base85_word (num 4 off g)) [0; 4; 8; 12].
