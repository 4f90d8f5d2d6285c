(** * Specification of the extra data (C06, C21-C28, C34, C48, C50)

    From [MS-SHLLINK] 2.5, [MS-PROPSTORE] 2 and [MS-OLEPS] 2.15: abstract blocks, their
    encoding, and the report expected for them. *)
From Verif Require Import Py Codec Sha256 Spec SpecText SpecHeader SpecTime SpecItems.

(** ** Blocks: a size that counts itself, a signature and a payload. *)
Definition encode_block (blk : N * bytes) : bytes := enc32 (8 + lenN (snd blk)) ++ enc32 (fst blk) ++ snd blk.
Definition encode_blocks (l : list (N * bytes)) : bytes := flat_map encode_block l.
Definition block_fits (blk : N * bytes) : Prop := fits32 (fst blk) /\ 8 + lenN (snd blk) < 4294967296.

(** The documented signatures and the key of each kind of block in the report. *)
Definition block_name (signature : N) : string :=
  match signature with
  | 0xA0000001 => "ENVIRONMENTAL_VARIABLES_LOCATION_BLOCK"
  | 0xA0000002 => "CONSOLE_PROPERTIES_BLOCK"
  | 0xA0000003 => "DISTRIBUTED_LINK_TRACKER_BLOCK"
  | 0xA0000004 => "CONSOLE_CODEPAGE_BLOCK"
  | 0xA0000005 => "SPECIAL_FOLDER_LOCATION_BLOCK"
  | 0xA0000006 => "DARWIN_BLOCK"
  | 0xA0000007 => "ICON_LOCATION_BLOCK"
  | 0xA0000008 => "SHIM_LAYER_BLOCK"
  | 0xA0000009 => "METADATA_PROPERTIES_BLOCK"
  | 0xA000000B => "KNOWN_FOLDER_LOCATION_BLOCK"
  | 0xA000000C => "SHELL_ITEM_IDENTIFIER_BLOCK"
  | _ => "UNKNOWN_BLOCK"
  end%string.

(** ** Console properties ([MS-SHLLINK] 2.5.1) *)
Record console := ConsoleProps {
  c_fill : N; c_popup : N;                         (* 16 bits *)
  c_buffer_x : Z; c_buffer_y : Z; c_window_x : Z; c_window_y : Z; c_origin_x : Z; c_origin_y : Z;
  c_unused1 : N; c_unused2 : N;
  c_font_size : N; c_font_family : N; c_font_weight : N;
  c_face : bytes;                                  (* 64 bytes *)
  c_cursor : N; c_full_screen : N; c_quick_edit : N; c_insert : N; c_auto : N;
  c_history_size : N; c_history_count : N; c_history_no_dup : N;
  c_color0 : N; c_colors : bytes }.                (* the first of sixteen colours, and the others *)

Definition encode_console (c : console) : bytes :=
  enc16 (c_fill c) ++ enc16 (c_popup c)
  ++ enci16 (c_buffer_x c) ++ enci16 (c_buffer_y c) ++ enci16 (c_window_x c) ++ enci16 (c_window_y c)
  ++ enci16 (c_origin_x c) ++ enci16 (c_origin_y c) ++ enc32 (c_unused1 c) ++ enc32 (c_unused2 c)
  ++ enc32 (c_font_size c) ++ enc32 (c_font_family c) ++ enc32 (c_font_weight c) ++ c_face c
  ++ enc32 (c_cursor c) ++ enc32 (c_full_screen c) ++ enc32 (c_quick_edit c) ++ enc32 (c_insert c)
  ++ enc32 (c_auto c) ++ enc32 (c_history_size c) ++ enc32 (c_history_count c) ++ enc32 (c_history_no_dup c)
  ++ enc32 (c_color0 c) ++ c_colors c.
Definition console_report (c : console) : dict :=
  [("fill_attributes", PN (c_fill c)); ("popup_fill_attributes", PN (c_popup c));
   ("screen_buffer_size_x", PInt (c_buffer_x c)); ("screen_buffer_size_y", PInt (c_buffer_y c));
   ("window_size_x", PInt (c_window_x c)); ("window_size_y", PInt (c_window_y c));
   ("window_origin_x", PInt (c_origin_x c)); ("window_origin_y", PInt (c_origin_y c));
   ("font_size", PN (c_font_size c)); ("font_family", PN (c_font_family c)); ("font_weight", PN (c_font_weight c));
   ("face_name", PStr (wide_text (c_face c)));
   ("cursor_size", PN (c_cursor c)); ("full_screen", PN (c_full_screen c)); ("quick_edit", PN (c_quick_edit c));
   ("insert_mode", PN (c_insert c)); ("auto_position", PN (c_auto c));
   ("history_buffer_size", PN (c_history_size c)); ("number_of_history_buffers", PN (c_history_count c));
   ("history_no_dup", PN (c_history_no_dup c)); ("color_table", PN (c_color0 c))]%string.
Definition wf_console (c : console) : Prop :=
  (fits16 (c_fill c) /\ fits16 (c_popup c) /\ fits_i16 (c_buffer_x c) /\ fits_i16 (c_buffer_y c)
   /\ fits_i16 (c_window_x c) /\ fits_i16 (c_window_y c) /\ fits_i16 (c_origin_x c) /\ fits_i16 (c_origin_y c))
  /\ (fits32 (c_font_size c) /\ fits32 (c_font_family c) /\ fits32 (c_font_weight c) /\ lenN (c_face c) = 64)
  /\ (fits32 (c_cursor c) /\ fits32 (c_full_screen c) /\ fits32 (c_quick_edit c) /\ fits32 (c_insert c)
      /\ fits32 (c_auto c) /\ fits32 (c_history_size c) /\ fits32 (c_history_count c)
      /\ fits32 (c_history_no_dup c) /\ fits32 (c_color0 c)).

(** ** Distributed link tracker ([MS-SHLLINK] 2.5.10) *)
Record tracker := Tracker {
  t_length : N; t_version : N; t_machine : bytes;  (* sixteen bytes *)
  t_volume : bytes; t_file : bytes; t_birth_volume : bytes; t_birth_file : bytes }.
Definition encode_tracker (t : tracker) : bytes :=
  enc32 (t_length t) ++ enc32 (t_version t) ++ t_machine t
  ++ t_volume t ++ t_file t ++ t_birth_volume t ++ t_birth_file t.
Definition tracker_report (cp : cp_arg) (t : tracker) : dict :=
  [("length", PN (t_length t)); ("version", PN (t_version t));
   ("machine_identifier", PStr (field_text cp (t_machine t)));
   ("droid_volume_identifier", PStr (guid_text (t_volume t)));
   ("droid_file_identifier", PStr (guid_text (t_file t)));
   ("birth_droid_volume_identifier", PStr (guid_text (t_birth_volume t)));
   ("birth_droid_file_identifier", PStr (guid_text (t_birth_file t)))]%string.
Definition tracker_warnings (cp : cp_arg) (t : tracker) : list warning :=
  must_be "length" (t_length t =? 88) ++ must_be "version" (t_version t =? 0) ++ field_warning cp (t_machine t).
Definition wf_tracker (t : tracker) : Prop :=
  fits32 (t_length t) /\ fits32 (t_version t) /\ lenN (t_machine t) = 16 /\ lenN (t_volume t) = 16
  /\ lenN (t_file t) = 16 /\ lenN (t_birth_volume t) = 16 /\ lenN (t_birth_file t) = 16.

(** ** Installer descriptors: the four documented forms

    {product}{feature}>{component}, {product}>{component}, {product}{feature}<, {product}< *)
Record descriptor := Descriptor { d_product : bytes; d_feature : text; d_component : option bytes }.
Definition descriptor_text (d : descriptor) : text :=
  packed_guid (d_product d) ++ d_feature d
  ++ match d_component d with Some c => s2t ">" ++ packed_guid c | None => s2t "<" end.
Definition wf_descriptor (d : descriptor) : Prop :=
  lenN (d_product d) = 16 /\ (forall c, d_component d = Some c -> lenN c = 16)
  /\ Forall scalar (d_feature d) /\ no_nul (d_feature d) /\ Forall (fun c => c <> 60 /\ c <> 62) (d_feature d).
(** A Unicode field of 520 bytes that holds a text. *)
Definition wide_field (t : text) (field : bytes) : Prop :=
  lenN field = 520 /\ (field = utf16 t \/ exists rest, field = utf16 t ++ x00 :: x00 :: rest).
Definition descriptor_report (cp : cp_arg) (ansi : bytes) (d : descriptor) : dict :=
  [("darwin_data_ansi", PStr (field_text cp ansi)); ("darwin_data_unicode", PStr (descriptor_text d));
   ("product_code_id", PStr (guid_text (d_product d)));
   ("feature_name", match d_feature d with [] => PNone | f => PStr f end);
   ("component_id", match d_component d with Some c => PStr (guid_text c) | None => PNone end)]%string.

(** ** Property stores ([MS-PROPSTORE] 2.2, 2.3) *)

(** Property types ([MS-OLEPS] 2.15): names of the simple types, and the types that vectors and
    arrays exist for. *)
Definition simple_types : list (N * string) :=
  [(0x00, "EMPTY"); (0x01, "NULL"); (0x02, "I2"); (0x03, "I4"); (0x04, "R4"); (0x05, "R8"); (0x06, "CY");
   (0x07, "DATE"); (0x08, "BSTR"); (0x0A, "ERROR"); (0x0B, "BOOL"); (0x0E, "DECIMAL"); (0x10, "I1");
   (0x11, "UI1"); (0x12, "UI2"); (0x13, "UI4"); (0x14, "I8"); (0x15, "UI8"); (0x16, "INT"); (0x17, "UINT");
   (0x1E, "LPSTR"); (0x1F, "LPWSTR"); (0x40, "FILETIME"); (0x41, "BLOB"); (0x42, "STREAM");
   (0x43, "STORAGE"); (0x44, "STREAMED_Object"); (0x45, "STORED_Object"); (0x46, "BLOB_Object");
   (0x47, "CF"); (0x48, "CLSID"); (0x49, "VERSIONED_STREAM")]%string.
Definition vector_types : list (N * string) :=
  [(0x02, "I2"); (0x03, "I4"); (0x04, "R4"); (0x05, "R8"); (0x06, "CY"); (0x07, "DATE"); (0x08, "BSTR");
   (0x0A, "ERROR"); (0x0B, "BOOL"); (0x0C, "VARIANT"); (0x10, "I1"); (0x11, "UI1"); (0x12, "UI2");
   (0x13, "UI4"); (0x14, "I8"); (0x15, "UI8"); (0x1E, "LPSTR"); (0x1F, "LPWSTR"); (0x40, "FILETIME");
   (0x47, "CF"); (0x48, "CLSID")]%string.
Definition array_types : list (N * string) :=
  [(0x02, "I2"); (0x03, "I4"); (0x04, "R4"); (0x05, "R8"); (0x06, "CY"); (0x07, "DATE"); (0x08, "BSTR");
   (0x0A, "ERROR"); (0x0B, "BOOL"); (0x0C, "VARIANT"); (0x0E, "DECIMAL"); (0x10, "I1"); (0x11, "UI1");
   (0x12, "UI2"); (0x13, "UI4"); (0x16, "INT"); (0x17, "UINT")]%string.
Definition type_table : list (N * string) :=
  map (fun p => (fst p, "VT_" ++ snd p)%string) simple_types
  ++ map (fun p => (0x1000 + fst p, "VT_VECTOR_" ++ snd p)%string) vector_types
  ++ map (fun p => (0x2000 + fst p, "VT_ARRAY_" ++ snd p)%string) array_types.

(** A typed value: type, padding (zero in a conforming file) and data. *)
Inductive value :=
| VString (body after : bytes)                     (* VT_LPWSTR: UTF-16 units with their count, then padding *)
| VOther (ty : N) (name : string) (padding : N) (data : bytes).
Definition encode_value (v : value) : bytes :=
  match v with
  | VString body after => enc16 0x1F ++ enc16 0 ++ enc32 (lenN body / 2) ++ body ++ after
  | VOther ty name padding data => enc16 ty ++ enc16 padding ++ data
  end.
Definition value_entries (v : value) : dict :=
  match v with
  | VString body after => [("value", PStr (wide_text body)); ("value_type", PS "VT_LPWSTR")]
  | VOther ty name padding data => [("value", PNone); ("value_type", PS name)]
  end%string.
Definition value_warnings (v : value) : list warning :=
  match v with VString body after => wide_warning body | VOther _ _ _ _ => [] end.
Definition wf_value (v : value) : Prop :=
  match v with
  | VString body after => N.even (lenN body) = true /\ lenN body / 2 < 4294967296
  | VOther ty name padding data =>
      fits16 ty /\ fits16 padding /\ In (ty, name) type_table /\ (padding <> 0 \/ (ty <> 0x1F /\ ty <> 0x02))
  end.

(** A property: the name is a number, or a text for the format of named properties. *)
Inductive property :=
| PropId (id : N) (reserved : byte) (v : value)
| PropName (name : bytes) (reserved : byte) (v : value).
Definition prop_body (p : property) : bytes :=
  match p with
  | PropId id reserved v => enc32 id ++ [reserved] ++ encode_value v
  | PropName name reserved v => enc32 (lenN name) ++ [reserved] ++ name ++ encode_value v
  end.
(** Elements of a list are prefixed with their size, which counts itself. *)
Definition sized (body : bytes) : bytes := enc32 (4 + lenN body) ++ body.
Definition sized_fits (body : bytes) : Prop := 4 + lenN body < 4294967296.
Definition prop_report (p : property) : dict :=
  ("value_size", PN (4 + lenN (prop_body p)))
  :: match p with
     | PropId id reserved v => ("id", PN id) :: value_entries v
     | PropName name reserved v =>
         ("name_size", PN (lenN name)) :: ("name", PStr (wide_text name)) :: value_entries v
     end%string.
Definition prop_warnings (p : property) : list warning :=
  match p with
  | PropId _ _ v => value_warnings v
  | PropName name _ v => wide_warning name ++ value_warnings v
  end.
Definition prop_value (p : property) : value := match p with PropId _ _ v | PropName _ _ v => v end.
Definition is_named (p : property) : bool := match p with PropName _ _ _ => true | _ => false end.
Definition wf_prop_with (good : value -> Prop) (p : property) : Prop :=
  sized_fits (prop_body p) /\ good (prop_value p)
  /\ match p with PropId id _ _ => fits32 id | PropName name _ _ => True end.
Definition wf_prop : property -> Prop := wf_prop_with wf_value.

(** The format of named properties, {D5CDD505-2E9C-101B-9397-08002B2CF9AE}. *)
Definition named_format : bytes :=
  map n2b [0x05; 0xD5; 0xCD; 0xD5; 0x9C; 0x2E; 0x1B; 0x10; 0x93; 0x97; 0x08; 0x00; 0x2B; 0x2C; 0xF9; 0xAE].

Record storage := Storage { s_version : N; s_format : bytes; s_props : list property }.
Definition storage_body (s : storage) : bytes :=
  enc32 (s_version s) ++ s_format s ++ flat_map (fun p => sized (prop_body p)) (s_props s) ++ enc32 0.
Definition storage_report (s : storage) : dict :=
  [("storage_size", PN (4 + lenN (storage_body s)));
   ("version", PStr (hex_text (s_version s)));
   ("format_id", PStr (guid_text (s_format s)));
   ("serialized_property_values", PList (map (fun p => PDict (prop_report p)) (s_props s)))]%string.
Definition storage_warnings (s : storage) : list warning := flat_map prop_warnings (s_props s).
Definition wf_storage_with (good : value -> Prop) (s : storage) : Prop :=
  sized_fits (storage_body s) /\ fits32 (s_version s) /\ lenN (s_format s) = 16 /\ Forall (wf_prop_with good) (s_props s)
  /\ (Forall (fun p => is_named p = true) (s_props s) /\ s_format s = named_format
      \/ Forall (fun p => is_named p = false) (s_props s) /\ s_format s <> named_format).
Definition wf_storage : storage -> Prop := wf_storage_with wf_value.

(** ** All blocks *)
Inductive block :=
| BEnvironment (ansi wide slack : bytes)               (* 260 and 520 bytes *)
| BConsole (c : console) (slack : bytes)
| BTracker (t : tracker) (slack : bytes)
| BCodePage (n : N) (slack : bytes)
| BSpecialFolder (id offset : N) (slack : bytes)
| BDarwin (ansi : bytes) (d : descriptor) (wide slack : bytes)
| BIcon (ansi wide slack : bytes)
| BShim (data : bytes)
| BPropertyStore (stores : list storage) (slack : bytes)
| BKnownFolder (guid : bytes) (offset : N) (slack : bytes)
| BShellItem (items : list item) (slack : bytes)
| BUnknown (signature : N) (data : bytes).

Definition block_signature (b : block) : N :=
  match b with
  | BEnvironment _ _ _ => 0xA0000001 | BConsole _ _ => 0xA0000002 | BTracker _ _ => 0xA0000003
  | BCodePage _ _ => 0xA0000004 | BSpecialFolder _ _ _ => 0xA0000005 | BDarwin _ _ _ _ => 0xA0000006
  | BIcon _ _ _ => 0xA0000007 | BShim _ => 0xA0000008 | BPropertyStore _ _ => 0xA0000009
  | BKnownFolder _ _ _ => 0xA000000B | BShellItem _ _ => 0xA000000C | BUnknown s _ => s
  end.
Definition block_payload (b : block) : bytes :=
  match b with
  | BEnvironment ansi wide slack | BIcon ansi wide slack => ansi ++ wide ++ slack
  | BConsole c slack => encode_console c ++ slack
  | BTracker t slack => encode_tracker t ++ slack
  | BCodePage n slack => enc32 n ++ slack
  | BSpecialFolder id offset slack => enc32 id ++ enc32 offset ++ slack
  | BDarwin ansi d wide slack => ansi ++ wide ++ slack
  | BShim data => data
  | BPropertyStore stores slack => flat_map (fun s => sized (storage_body s)) stores ++ enc32 0 ++ slack
  | BKnownFolder guid offset slack => guid ++ enc32 offset ++ slack
  | BShellItem items slack => encode_items (map item_body items) ++ slack
  | BUnknown _ data => data
  end.
Definition as_block (b : block) : N * bytes := (block_signature b, block_payload b).

Definition block_report (cp : cp_arg) (b : block) : dict :=
  ("size", PN (8 + lenN (block_payload b)))
  :: match b with
     | BEnvironment ansi wide slack | BIcon ansi wide slack =>
         [("target_ansi", PStr (field_text cp ansi)); ("target_unicode", PStr (wide_text wide))]
     | BConsole c slack => console_report c
     | BTracker t slack => tracker_report cp t
     | BCodePage n slack => [("code_page", PN n)]
     | BSpecialFolder id offset slack => [("special_folder_id", PN id); ("offset", PN offset)]
     | BDarwin ansi d wide slack => descriptor_report cp ansi d
     | BShim data => [("layer_name", PStr (field_text cp data))]     (* as a code-page string: see C26 *)
     | BPropertyStore stores slack => [("property_store", PList (map (fun s => PDict (storage_report s)) stores))]
     | BKnownFolder guid offset slack => [("known_folder_id", PStr (guid_text guid)); ("offset", PN offset)]
     | BShellItem items slack => [("id_list", PList (map (fun it => PDict (item_report cp it)) items))]
     | BUnknown signature data => [("extra_data_sha256", PStr (sha256_hex (enc32 signature ++ data)%list))]
     end%string.
Definition block_warnings (cp : cp_arg) (b : block) : list warning :=
  match b with
  | BEnvironment ansi wide slack | BIcon ansi wide slack => field_warning cp ansi ++ wide_warning wide
  | BConsole c slack => wide_warning (c_face c)
  | BTracker t slack => tracker_warnings cp t
  | BDarwin ansi d wide slack => field_warning cp ansi
  | BShim data => field_warning cp data
  | BPropertyStore stores slack => flat_map storage_warnings stores
  | BShellItem items slack => flat_map (item_warnings cp) items
  | _ => []
  end.
Definition wf_block (b : block) : Prop :=
  8 + lenN (block_payload b) < 4294967296 /\
  match b with
  | BEnvironment ansi wide slack | BIcon ansi wide slack => lenN ansi = 260 /\ lenN wide = 520
  | BConsole c slack => wf_console c
  | BTracker t slack => wf_tracker t
  | BCodePage n slack => fits32 n
  | BSpecialFolder id offset slack => fits32 id /\ fits32 offset
  | BDarwin ansi d wide slack => lenN ansi = 260 /\ wf_descriptor d /\ wide_field (descriptor_text d) wide
  | BShim data => True
  | BPropertyStore stores slack => Forall wf_storage stores
  | BKnownFolder guid offset slack => lenN guid = 16 /\ fits32 offset
  | BShellItem items slack => Forall wf_item items /\ Forall (fun it => item_fits (item_body it)) items
  | BUnknown signature data => fits32 signature /\ block_name signature = "UNKNOWN_BLOCK"%string
  end.

(** ** The report of a list of blocks *)

(** Keys in the order of their first block, each once. *)
Fixpoint first_seen (l : list string) : list string :=
  match l with
  | [] => []
  | k :: r => k :: filter (fun k' => negb (String.eqb k k')) (first_seen r)
  end.
(** Of the entries with a key, the last one. *)
Fixpoint last_of (k : string) (l : list (string * dict)) : option dict :=
  match l with
  | [] => None
  | (k', d) :: r =>
    match last_of k r with
    | Some d' => Some d'
    | None => if String.eqb k k' then Some d else None
    end
  end.
(** All entries with a key. *)
Definition all_of (k : string) (l : list (string * dict)) : list dict :=
  map snd (filter (fun e => String.eqb k (fst e)) l).

(** The report of a list of decoded blocks: unknown blocks in one list, of the others the last. *)
Definition collect (l : list (string * dict)) : dict :=
  map (fun k => (k, if String.eqb k "UNKNOWN_BLOCK" then PList (map PDict (all_of k l))
                    else match last_of k l with Some d => PDict d | None => PNone end))
      (first_seen (map fst l)).

(** How many bytes a block needs for its fixed fields. *)
Definition fixed_part (signature : N) : N :=
  match signature with
  | 0xA0000002 => 144 | 0xA0000003 => 96 | 0xA0000004 => 12 | 0xA0000005 => 16 | 0xA000000B => 28
  | _ => 8
  end.

(** What a report says about the extra data. *)
Definition reported_extra (d : dict) : option dict :=
  match dget "extra" d with Some (PDict e) => Some e | _ => None end.

(** The text fields of fixed size: the block, the key in the report, whether the field is a
    Unicode field, its start and its end. *)
Definition text_fields : list (string * string * bool * N * N) :=
  [("ENVIRONMENTAL_VARIABLES_LOCATION_BLOCK", "target_ansi", false, 8, 268);
   ("ENVIRONMENTAL_VARIABLES_LOCATION_BLOCK", "target_unicode", true, 268, 788);
   ("ICON_LOCATION_BLOCK", "target_ansi", false, 8, 268);
   ("ICON_LOCATION_BLOCK", "target_unicode", true, 268, 788);
   ("DARWIN_BLOCK", "darwin_data_ansi", false, 8, 268);
   ("DARWIN_BLOCK", "darwin_data_unicode", true, 268, 788);
   ("DISTRIBUTED_LINK_TRACKER_BLOCK", "machine_identifier", false, 16, 32);
   ("CONSOLE_PROPERTIES_BLOCK", "face_name", true, 44, 108)]%string.

(** A property with a 16-bit integer ([MS-OLEPS] 2.15, VT_I2). *)
Definition is_i2 (v : value) : Prop := exists name data, v = VOther 0x02 name 0 data.
Definition has_i2 (s : storage) : Prop := Exists (fun p => is_i2 (prop_value p)) (s_props s).
(** A store that is well formed when VT_I2 values are admitted. *)
Definition wf_with_i2 (s : storage) : Prop := wf_storage_with (fun v => wf_value v \/ is_i2 v) s.

Definition lower_hex_digit (c : N) : Prop := 48 <= c <= 57 \/ 97 <= c <= 102.
