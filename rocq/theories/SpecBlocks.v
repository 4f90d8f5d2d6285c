(** * Specification: the report of any extra data block, read from its bytes (property C62)

    [raw] is a block from its size on. Nothing else is assumed about the bytes. *)
From Verif Require Import Py Codec Sha256 Spec SpecText SpecHeader SpecTime SpecItems SpecExtra SpecOutcome SpecEntries.

(** ** Blocks of a fixed layout *)
Definition integer_at (i : N) (raw : bytes) : pyval := PInt (signed 16 (num 2 i raw)).
Definition number_at (width i : N) (raw : bytes) : pyval := PN (num width i raw).
Definition guid_field (i : N) (raw : bytes) : pyval := PStr (guid_text (slice i (i + 16) raw)).

Definition fixed_report (cp : cp_arg) (signature : N) (raw : bytes) : option dict :=
  match signature with
  | 0xA0000001 | 0xA0000007 =>
    Some [("target_ansi", PStr (field_text cp (slice 8 268 raw))); ("target_unicode", PStr (wide_text (slice 268 788 raw)))]
  | 0xA0000002 =>
    Some [("fill_attributes", number_at 2 8 raw); ("popup_fill_attributes", number_at 2 10 raw);
          ("screen_buffer_size_x", integer_at 12 raw); ("screen_buffer_size_y", integer_at 14 raw);
          ("window_size_x", integer_at 16 raw); ("window_size_y", integer_at 18 raw);
          ("window_origin_x", integer_at 20 raw); ("window_origin_y", integer_at 22 raw);
          ("font_size", number_at 4 32 raw); ("font_family", number_at 4 36 raw); ("font_weight", number_at 4 40 raw);
          ("face_name", PStr (wide_text (slice 44 108 raw)));
          ("cursor_size", number_at 4 108 raw); ("full_screen", number_at 4 112 raw); ("quick_edit", number_at 4 116 raw);
          ("insert_mode", number_at 4 120 raw); ("auto_position", number_at 4 124 raw);
          ("history_buffer_size", number_at 4 128 raw); ("number_of_history_buffers", number_at 4 132 raw);
          ("history_no_dup", number_at 4 136 raw); ("color_table", number_at 4 140 raw)]
  | 0xA0000003 =>
    Some [("length", number_at 4 8 raw); ("version", number_at 4 12 raw);
          ("machine_identifier", PStr (field_text cp (slice 16 32 raw)));
          ("droid_volume_identifier", guid_field 32 raw); ("droid_file_identifier", guid_field 48 raw);
          ("birth_droid_volume_identifier", guid_field 64 raw); ("birth_droid_file_identifier", guid_field 80 raw)]
  | 0xA0000004 => Some [("code_page", number_at 4 8 raw)]
  | 0xA0000005 => Some [("special_folder_id", number_at 4 8 raw); ("offset", number_at 4 12 raw)]
  | 0xA0000008 => Some [("layer_name", PStr (field_text cp (dropN 8 raw)))]
  | 0xA000000B => Some [("known_folder_id", guid_field 8 raw); ("offset", number_at 4 24 raw)]
  | 0xA0000006 | 0xA0000009 | 0xA000000C => None
  | _ => Some [("extra_data_sha256", PStr (sha256_hex (dropN 4 raw)))]
  end%string.
Definition fixed_says (cp : cp_arg) (signature : N) (raw : bytes) : list warning :=
  match signature with
  | 0xA0000001 | 0xA0000007 => field_warning cp (slice 8 268 raw) ++ wide_warning (slice 268 788 raw)
  | 0xA0000002 => wide_warning (slice 44 108 raw)
  | 0xA0000003 =>
    must_be "length" (num 4 8 raw =? 88) ++ must_be "version" (num 4 12 raw =? 0) ++ field_warning cp (slice 16 32 raw)
  | 0xA0000008 => field_warning cp (dropN 8 raw)
  | _ => []
  end.
(** The bytes it needs: text fields may be cut. *)
Definition fixed_bytes (signature : N) : N :=
  match signature with
  | 0xA0000002 => 144 | 0xA0000003 => 96 | 0xA0000004 => 12 | 0xA0000005 => 16 | 0xA000000B => 28 | _ => 0
  end.

(** ** Installer descriptors

    Five base-85 digits make a number, the least significant first, printed with at least eight hexadecimal digits; a
    character that is no digit counts as -1. The GUID is put together from the characters of the four numbers. *)
Fixpoint position (c : N) (t : text) : option N :=
  match t with
  | [] => None
  | x :: r => if x =? c then Some 0 else option_map (N.add 1) (position c r)
  end.
Definition digit (c : N) : Z := match position c base85_alphabet with Some n => Z.of_N n | None => (-1)%Z end.
Definition base85_value (t : text) : Z := fold_right (fun c v => digit c + 85 * v)%Z 0%Z t.
Definition unpacked_guid (t : text) : text :=
  let q := flat_map (fun i => hexX_Z 8 (base85_value (slice i (i + 5) t))) [0; 5; 10; 15] in
  slice 0 8 q ++ s2t "-" ++ slice 12 16 q ++ s2t "-" ++ slice 8 12 q ++ s2t "-" ++ slice 22 24 q ++ slice 20 22 q ++ s2t "-"
  ++ flat_map (fun i => slice i (i + 2) q) [18; 16; 30; 28; 26; 24].
(** Where the feature name ends: the later one of the first greater-than sign and the first less-than sign. *)
Definition feature_end (t : text) : option N :=
  match position 62 t, position 60 t with
  | Some i, Some j => Some (N.max i j)
  | Some i, None | None, Some i => Some i
  | None, None => None
  end.
Definition darwin_report (cp : cp_arg) (raw : bytes) : dict :=
  let t := wide_text (slice 268 788 raw) in
  [("darwin_data_ansi", PStr (field_text cp (slice 8 268 raw))); ("darwin_data_unicode", PStr t);
   ("product_code_id", PStr (unpacked_guid (takeN 20 t)));
   ("feature_name",
     match feature_end t with
     | Some 20 => PNone
     | Some n => PStr (slice 20 n t)
     | None => PStr (slice 20 (lenN t - 1) t)      (* without a sign the last character is dropped *)
     end);
   ("component_id", match position 62 t with Some n => PStr (unpacked_guid (dropN (n + 1) t)) | None => PNone end)]%string.
(** The text is decoded four times, with a warning each time. *)
Definition darwin_says (cp : cp_arg) (raw : bytes) : list warning :=
  let w := wide_warning (slice 268 788 raw) in field_warning cp (slice 8 268 raw) ++ w ++ w ++ w ++ w.

(** ** Property stores

    Storages and properties are read from where they start to the end of the block; their sizes only say where the next
    one starts. A zero size ends the list. *)
Inductive elements : bytes -> list bytes -> Prop :=
| no_more r : 4 <= lenN r -> num 4 0 r = 0 -> elements r []
| one_more r l : 4 <= lenN r -> num 4 0 r <> 0 -> elements (dropN (num 4 0 r) r) l -> elements r (r :: l).

(** A typed value. *)
Inductive value_at (v : bytes) : dict -> list warning -> Prop :=
| value_text name :
    8 <= lenN v -> num 2 0 v = 0x1F -> num 2 2 v = 0 -> name = "VT_LPWSTR"%string ->
    value_at v [("value", PStr (wide_text (slice 8 (8 + 2 * num 4 4 v) v))); ("value_type", PS name)]%string
      (wide_warning (slice 8 (8 + 2 * num 4 4 v) v))
| value_none name :
    4 <= lenN v -> num 2 2 v <> 0 \/ num 2 0 v <> 0x1F /\ num 2 0 v <> 0x02 -> In (num 2 0 v, name) type_table ->
    value_at v [("value", PNone); ("value_type", PS name)]%string [].
(** A property: [named] tells whether its name is a text. *)
Inductive property_at (named : bool) (p : bytes) : dict -> list warning -> Prop :=
| numbered_property d w :
    named = false -> 8 <= lenN p -> value_at (dropN 9 p) d w ->
    property_at named p (("value_size", number_at 4 0 p) :: ("id", number_at 4 4 p) :: d)%string w
| named_property d w :
    named = true -> 8 <= lenN p -> value_at (dropN (9 + num 4 4 p) p) d w ->
    property_at named p
      (("value_size", number_at 4 0 p) :: ("name_size", number_at 4 4 p)
       :: ("name", PStr (wide_text (slice 9 (9 + num 4 4 p) p))) :: d)%string
      (wide_warning (slice 9 (9 + num 4 4 p) p) ++ w).
Inductive each {A} (P : A -> dict -> list warning -> Prop) : list A -> list dict -> list warning -> Prop :=
| each_none : each P [] [] []
| each_one a l d ds w ws : P a d w -> each P l ds ws -> each P (a :: l) (d :: ds) (w ++ ws).
Inductive storage_at (s : bytes) : dict -> list warning -> Prop :=
| storage_read named ps ds w :
    24 <= lenN s -> (named = true <-> slice 8 24 s = named_format) -> elements (dropN 24 s) ps ->
    each (property_at named) ps ds w ->
    storage_at s
      [("storage_size", number_at 4 0 s); ("version", PStr (hex_text (num 4 4 s)));
       ("format_id", guid_field 8 s); ("serialized_property_values", PList (map PDict ds))]%string w.

(** ** Any block *)
Inductive block_read (cp : cp_arg) (signature : N) (raw : bytes) : dict -> list warning -> Prop :=
| fixed_read d :
    fixed_report cp signature raw = Some d -> fixed_bytes signature <= lenN raw ->
    block_read cp signature raw (("size", number_at 4 0 raw) :: d)%string (fixed_says cp signature raw)
| darwin_read :
    signature = 0xA0000006 -> ~ short_descriptor (wide_text (slice 268 788 raw)) ->
    block_read cp signature raw (("size", number_at 4 0 raw) :: darwin_report cp raw)%string (darwin_says cp raw)
| store_read ss ds w :
    signature = 0xA0000009 -> elements (dropN 8 raw) ss -> each storage_at ss ds w ->
    block_read cp signature raw [("size", number_at 4 0 raw); ("property_store", PList (map PDict ds))]%string w
| id_list_read entries w :
    signature = 0xA000000C -> entries_listed cp (slice 8 (num 4 0 raw) raw) entries w ->
    block_read cp signature raw [("size", number_at 4 0 raw); ("id_list", PList (map PDict entries))]%string w.

(** ** What is warned about before a block cannot be read

    Fields are read in the order of the report, elements in the order of the file; a missing one ends it. *)
Definition fixed_tried (cp : cp_arg) (signature : N) (raw : bytes) : list warning :=
  match signature with
  | 0xA0000002 => if 44 <=? lenN raw then wide_warning (slice 44 108 raw) else []
  | 0xA0000003 =>
    (if 12 <=? lenN raw then must_be "length" (num 4 8 raw =? 88) else [])
    ++ (if 16 <=? lenN raw then must_be "version" (num 4 12 raw =? 0) ++ field_warning cp (slice 16 32 raw) else [])
  | _ => []
  end.
(** The first of the elements that cannot be read. *)
Inductive each_tried {A} (P : A -> dict -> list warning -> Prop) (T : A -> list warning -> Prop) : list A -> list warning -> Prop :=
| tried_here a l w : T a w -> each_tried P T (a :: l) w
| tried_later a l d w ws : P a d w -> each_tried P T l ws -> each_tried P T (a :: l) (w ++ ws).
(** A property whose value cannot be read: only its name has been decoded. *)
Definition property_tried (named : bool) (p : bytes) (w : list warning) : Prop :=
  (forall d w', ~ property_at named p d w')
  /\ w = if named && (8 <=? lenN p) then wide_warning (slice 9 (9 + num 4 4 p) p) else [].
Inductive storage_tried (s : bytes) : list warning -> Prop :=
| storage_cut : lenN s < 24 \/ (forall ps, ~ elements (dropN 24 s) ps) -> storage_tried s []
| storage_fails named ps w :
    24 <= lenN s -> (named = true <-> slice 8 24 s = named_format) -> elements (dropN 24 s) ps ->
    each_tried (property_at named) (property_tried named) ps w -> storage_tried s w.
(** All errors but the two kinds named in [block_escape] are caught. *)
Inductive block_tried (cp : cp_arg) (signature : N) (raw : bytes) : list warning -> Prop :=
| fixed_cut : lenN raw < fixed_bytes signature -> block_tried cp signature raw (fixed_tried cp signature raw)
| store_cut : signature = 0xA0000009 -> (forall ss, ~ elements (dropN 8 raw) ss) -> block_tried cp signature raw []
| store_fails ss w :
    signature = 0xA0000009 -> elements (dropN 8 raw) ss -> each_tried storage_at storage_tried ss w ->
    block_tried cp signature raw w
| id_list_fails w :
    signature = 0xA000000C -> entries_tried cp (slice 8 (num 4 0 raw) raw) StructError w ->
    block_tried cp signature raw w.

(** All blocks: a block that cannot be read is left out, with a warning that names it behind the warnings given while
    reading it. *)
Inductive blocks_read (cp : cp_arg) : list (N * bytes) -> list (string * dict) -> list warning -> Prop :=
| blocks_end : blocks_read cp [] [] []
| block_kept signature raw rest d w l ws :
    block_read cp signature raw d w -> blocks_read cp rest l ws ->
    blocks_read cp ((signature, raw) :: rest) ((block_name signature, d) :: l) (w ++ ws)
| block_left_out signature raw rest w l ws :
    block_tried cp signature raw w -> blocks_read cp rest l ws ->
    blocks_read cp ((signature, raw) :: rest) l (w ++ WExtraBlock (block_name signature) :: ws).

(** What stands behind the last block, from its four zero bytes on, is reported on demand. *)
Definition behind_blocks (allow : bool) (r : bytes) : list (string * dict) :=
  if allow && (4 <? lenN r) && (num 4 0 r =? 0)
  then [("TERMINAL_BLOCK", [("size", PN (lenN r)); ("appended_data_sha256", PStr (sha256_hex (dropN 4 r)))])]%string
  else [].
