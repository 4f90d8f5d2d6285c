(** * Specification: a schema of the report (property C85)

    A small schema language, in the manner of JSON Schema, and the schema of the report in it. Nothing here refers to a
    file: this is what a program that only receives reports can rely on. *)
From Verif Require Import Py Spec SpecTime SpecHeader SpecInfo SpecExtra.

(** ** The language *)
Inductive presence := Always | Sometimes | Never.
Inductive kind :=
| Null
| Number (low high : Z)                                    (* low <= n < high *)
| Count                                                    (* a number that is not negative, of any size *)
| Text (form : text -> Prop)
| Time
| Chosen (names : list string)                             (* a list of some of the names, each once, in this order *)
| OneOf (kinds : list kind)
| ListOf (element : kind)
| Record (rows : list (presence * list (string * kind)))   (* keys in this order; the keys of a row come together *)
| Table (columns : list (string * kind)).                  (* some of the keys, in any order, each at most once *)

Inductive some_of : list string -> list string -> Prop :=
| some_none : some_of [] []
| some_with k names l : some_of names l -> some_of (k :: names) (k :: l)
| some_without k names l : some_of names l -> some_of (k :: names) l.

Inductive conforms : kind -> pyval -> Prop :=
| is_null : conforms Null PNone
| is_number low high z : (low <= z < high)%Z -> conforms (Number low high) (PInt z)
| is_count n : conforms Count (PN n)
| is_text (form : text -> Prop) t : form t -> conforms (Text form) (PStr t)
| is_time t : valid_datetime t -> conforms Time (PDate t)
| is_chosen names l : some_of names l -> conforms (Chosen names) (PList (map PS l))
| is_one_of kinds k v : In k kinds -> conforms k v -> conforms (OneOf kinds) v
| is_list k l : all_conform k l -> conforms (ListOf k) (PList l)
| is_record rows d : rows_conform rows d -> conforms (Record rows) (PDict d)
| is_table columns d : NoDup (map fst d) -> entries_conform columns d -> conforms (Table columns) (PDict d)
with all_conform : kind -> list pyval -> Prop :=
| all_none k : all_conform k []
| all_more k v l : conforms k v -> all_conform k l -> all_conform k (v :: l)
with rows_conform : list (presence * list (string * kind)) -> dict -> Prop :=
| rows_end : rows_conform [] []
| row_there p row rows d1 d2 :
    p <> Never -> row_conforms row d1 -> rows_conform rows d2 -> rows_conform ((p, row) :: rows) (d1 ++ d2)
| row_not_there p row rows d : p <> Always -> rows_conform rows d -> rows_conform ((p, row) :: rows) d
with row_conforms : list (string * kind) -> dict -> Prop :=
| row_end : row_conforms [] []
| row_next key k row v d : conforms k v -> row_conforms row d -> row_conforms ((key, k) :: row) ((key, v) :: d)
with entries_conform : list (string * kind) -> dict -> Prop :=
| entries_none columns : entries_conform columns []
| entries_more columns key k v d :
    In (key, k) columns -> conforms k v -> entries_conform columns d -> entries_conform columns ((key, v) :: d).

(** The keys of a record, and those that are always there. *)
Definition keys_of (rows : list (presence * list (string * kind))) : list string := flat_map (fun r => map fst (snd r)) rows.
Definition sure_keys (rows : list (presence * list (string * kind))) : list string :=
  flat_map (fun r => match fst r with Always => map fst (snd r) | _ => [] end) rows.

(** ** Forms of text *)
Definition any : kind := Text (fun _ => True).
Definition nonempty_text : kind := Text (fun t => t <> []).
Definition named (names : list string) : kind := Text (fun t => In t (map s2t names)).
Definition upper : text := s2t "0123456789ABCDEF".
Definition lower : text := s2t "0123456789abcdef".
Definition of_length (n : N) (alphabet t : text) : Prop := lenN t = n /\ Forall (fun c => In c alphabet) t.
Definition dashed (alphabet t : text) : Prop :=
  exists a b c d e,
    t = a ++ s2t "-" ++ b ++ s2t "-" ++ c ++ s2t "-" ++ d ++ s2t "-" ++ e
    /\ of_length 8 alphabet a /\ of_length 4 alphabet b /\ of_length 4 alphabet c /\ of_length 4 alphabet d
    /\ of_length 12 alphabet e.
Definition guid : kind := Text (dashed upper).
(** An installer code: a digit that is none makes the number negative, which leaves a minus sign. *)
Definition packed_guid : kind := Text (dashed (s2t "-" ++ upper)).
Definition hex_number (alphabet : text) (from to : N) : kind :=
  Text (fun t => exists n h, t = s2t "0x" ++ h /\ from <= n <= to /\ of_length n alphabet h).
Definition digest : kind := Text (of_length 64 lower).
Definition letters : list string :=
  ["0"; "1"; "2"; "3"; "4"; "5"; "6"; "7"; "8"; "9"; "A"; "B"; "C"; "D"; "E"; "F"; "G"; "H"; "I"; "J"; "K"; "L"; "M";
   "N"; "O"; "P"; "Q"; "R"; "S"; "T"; "U"; "V"; "W"; "X"; "Y"; "Z"]%string.
Definition keys : list string :=
  ("UNSET" :: letters
   ++ ["F1"; "F2"; "F3"; "F4"; "F5"; "F6"; "F7"; "F8"; "F9"; "F10"; "F11"; "F12"; "F13"; "F14"; "F15"; "F16"; "F17";
       "F18"; "F19"; "F20"; "F21"; "F22"; "F23"; "F24"; "NUM_LOCK"; "SCROLL_LOCK"])%list%string.
Definition hot_key : kind :=
  Text (fun t => exists h, of_length 4 lower h
                           /\ (t = h \/ exists m k, In m ["UNSET"; "SHIFT"; "CONTROL"; "ALT"]%string /\ In k keys
                                                    /\ t = s2t m ++ s2t " - " ++ s2t k ++ s2t " {0x" ++ h ++ s2t "}")).

(** ** Numbers *)
Definition byte_ : kind := Number 0 256.
Definition word : kind := Number 0 65536.
Definition dword : kind := Number 0 4294967296.
Definition offset : kind := Number 1 4294967296.           (* present only when it is not zero *)
Definition short : kind := Number (-32768) 32768.
Definition maybe (k : kind) : kind := OneOf [Null; k].

(** ** The report

    [full]: whether it is the complete report. The abridged one has all the other rows. *)
Definition always (key : string) (k : kind) : presence * list (string * kind) := (Always, [(key, k)]).
Definition sometimes (key : string) (k : kind) : presence * list (string * kind) := (Sometimes, [(key, k)]).
Definition only_if (b : bool) (key : string) (k : kind) : presence * list (string * kind) :=
  (if b then Always else Never, [(key, k)]).
Definition together (key1 : string) (k1 : kind) (key2 : string) (k2 : kind) : presence * list (string * kind) :=
  (Sometimes, [(key1, k1); (key2, k2)]).

Local Open Scope string_scope.

Definition header_kind (full : bool) : kind := Record
  [always "guid" guid; always "r_link_flags" dword; always "r_file_flags" dword;
   always "creation_time" (maybe Time); always "accessed_time" (maybe Time); always "modified_time" (maybe Time);
   always "file_size" dword; always "icon_index" (Number (-2147483648) 2147483648);
   always "windowstyle" (named ["SW_SHOWNORMAL"; "SW_SHOWMAXIMIZED"; "SW_SHOWMINNOACTIVE"]);
   always "hotkey" hot_key; always "r_hotkey" word;
   always "link_flags" (Chosen link_flag_bits); always "file_flags" (Chosen file_attribute_bits);
   only_if full "header_size" (Number 76 4294967296);
   only_if full "reserved0" word; only_if full "reserved1" dword; only_if full "reserved2" dword].

(** *** Items *)
Definition item_flags : kind :=
  named ["Is directory"; "Is file"; "Is share"; "Has Unicode strings"; "Is Unicode directory"; "Is Unicode file"; "Unknown"].
Definition file_entry_kind (dated : bool) : kind := Record
  [always "class" (named ["File entry"]); always "flags" item_flags; always "file_size" dword;
   only_if dated "modification_time" (maybe Time); always "file_attribute_flags" word; always "primary_name" any].
Definition item_kind (dated : bool) : kind := OneOf
  [Record [always "class" (named ["Root Folder"]);
           always "sort_index"
             (named ["Internet Explorer"; "Libraries"; "Users"; "Public Folder"; "My Documents"; "My Computer";
                     "UsersLibraries"; "My Networs Places/Network"; "Recycle Bin"; "My Games"; "Unknown"]);
           always "sort_index_value" byte_; always "guid" guid];
   Record [always "class" (named ["Volume Item"]); always "flags" (hex_number lower 1 1); always "volume_name" any];
   Record [always "class" (named ["Volume Item"]); always "flags" (hex_number lower 1 1); always "volume_identifier" guid];
   file_entry_kind dated;
   Record [always "class" (named ["Network location"]); always "flags" item_flags; always "content_flags" byte_;
           always "location" any; always "description" (maybe any); always "comments" (maybe any)];
   Record [always "class" (named ["Control panel CPL file"]); always "signature" (hex_number upper 8 8);
           always "cpl_file_path" any; always "name" any; always "comments" any];
   Record [always "class" (named ["Control panel category"]); always "category_id" dword;
           always "category"
             (named ["All Control Panel Items"; "Appearance and Personalization"; "Hardware and Sound";
                     "Network and Internet"; "Sounds, Speech, and Audio Devices"; "System and Security";
                     "Clock, Language, and Region"; "Ease of Access"; "Programs"; "User Accounts"; "Security Center";
                     "Mobile PC"; "Unknown"])];
   Record [always "class" (named ["Compressed folder"; "Internet"; "Printers"; "Common places folder"])];
   Record [always "class" (named ["Control panel"]); always "item_identifier" guid];
   Record [always "class" (named ["Users files folder"]);
           always "signature" (Text (fun t => lenN t = 4%N /\ Forall (fun c => c < 128 \/ c = 0xFFFD)%N t));
           always "file_entry" (file_entry_kind true);
           always "delegate_class_id" guid; always "delegate_folder_id" guid];
   Record [always "class" (named ["Unknown"]); always "size" (Number 3 65538)]].
Definition target_kind (full : bool) : kind := Record
  [only_if full "size" word; always "items" (ListOf (item_kind full)); only_if full "index" (Number 78 4294967298)].

(** *** Link info *)
Definition local_kind (full : bool) : kind := Record
  [only_if full "volume_id_size" dword; always "r_drive_type" dword; only_if full "volume_label_offset" dword;
   always "drive_serial_number" (hex_number lower 1 8);
   always "drive_type"
     (maybe (named ["DRIVE_UNKNOWN"; "DRIVE_NO_ROOT_DIR"; "DRIVE_REMOVABLE"; "DRIVE_FIXED"; "DRIVE_REMOTE"; "DRIVE_CDROM";
                    "DRIVE_RAMDISK"]));
   always "volume_label" (maybe any);
   together "volume_label_unicode_offset" offset "volume_label_unicode" any].
Definition network_kind (full : bool) : kind := Record
  [only_if full "common_network_relative_link_size" dword; always "common_network_relative_link_flags" dword;
   only_if full "net_name_offset" dword; only_if full "device_name_offset" dword;
   always "r_network_provider_type" (hex_number lower 1 8);
   sometimes "network_provider_type" (named (map snd provider_table));
   together "net_name_offset_unicode" offset "net_name_unicode" any;
   together "device_name_offset_unicode" offset "device_name_unicode" any;
   sometimes "net_name" nonempty_text; sometimes "device_name" nonempty_text].
Definition located_kind (full : bool) (location : string) (location_kind : kind) : kind := Record
  [only_if full "link_info_size" dword; only_if full "link_info_header_size" dword; always "link_info_flags" dword;
   only_if full "volume_id_offset" dword; only_if full "local_base_path_offset" dword;
   only_if full "common_network_relative_link_offset" dword; only_if full "common_path_suffix_offset" dword;
   sometimes "local_base_path" any; sometimes "common_path_suffix" any;
   together "local_base_path_offset_unicode" offset "local_base_path_unicode" any;
   together "common_path_suffix_offset_unicode" offset "common_path_suffix_unicode" any;
   always "location_info" location_kind; always "location" (named [location])].
Definition info_kind (full : bool) : kind := OneOf
  [Record []; located_kind full "Local" (local_kind full); located_kind full "Network" (network_kind full)].

(** *** Strings *)
Definition data_kind : kind := Record
  [sometimes "description" any; sometimes "relative_path" any; sometimes "working_directory" any;
   sometimes "command_line_arguments" any; sometimes "icon_location" any].

(** *** Extra data *)
Definition block (rows : list (presence * list (string * kind))) : kind := Record (always "size" dword :: rows).
Definition named_properties : text := s2t "D5CDD505-2E9C-101B-9397-08002B2CF9AE".
(** A text is reported for values of type VT_LPWSTR only, and null for all types. *)
Definition property_kind (name : list (presence * list (string * kind))) : kind := OneOf
  [Record (always "value_size" dword :: name ++ [always "value" any; always "value_type" (named ["VT_LPWSTR"])])%list;
   Record (always "value_size" dword :: name ++ [always "value" Null; always "value_type" (named (map snd type_table))])%list].
Definition storage_kind (format : text -> Prop) (name : list (presence * list (string * kind))) : kind := Record
  [always "storage_size" dword; always "version" (hex_number lower 1 8); always "format_id" (Text format);
   always "serialized_property_values" (ListOf (property_kind name))].
Definition storages_kind : kind := ListOf (OneOf
  [storage_kind (fun t => t = named_properties) [always "name_size" dword; always "name" any];
   storage_kind (fun t => dashed upper t /\ t <> named_properties) [always "id" dword]]).
Definition located_target : list (presence * list (string * kind)) := [always "target_ansi" any; always "target_unicode" any].
Definition block_kinds : list (string * kind) :=
  [("ENVIRONMENTAL_VARIABLES_LOCATION_BLOCK", block located_target);
   ("ICON_LOCATION_BLOCK", block located_target);
   ("CONSOLE_PROPERTIES_BLOCK", block
      [always "fill_attributes" word; always "popup_fill_attributes" word; always "screen_buffer_size_x" short;
       always "screen_buffer_size_y" short; always "window_size_x" short; always "window_size_y" short;
       always "window_origin_x" short; always "window_origin_y" short; always "font_size" dword;
       always "font_family" dword; always "font_weight" dword; always "face_name" any; always "cursor_size" dword;
       always "full_screen" dword; always "quick_edit" dword; always "insert_mode" dword; always "auto_position" dword;
       always "history_buffer_size" dword; always "number_of_history_buffers" dword; always "history_no_dup" dword;
       always "color_table" dword]);
   ("DISTRIBUTED_LINK_TRACKER_BLOCK", block
      [always "length" dword; always "version" dword; always "machine_identifier" any;
       always "droid_volume_identifier" guid; always "droid_file_identifier" guid;
       always "birth_droid_volume_identifier" guid; always "birth_droid_file_identifier" guid]);
   ("CONSOLE_CODEPAGE_BLOCK", block [always "code_page" dword]);
   ("SPECIAL_FOLDER_LOCATION_BLOCK", block [always "special_folder_id" dword; always "offset" dword]);
   ("KNOWN_FOLDER_LOCATION_BLOCK", block [always "known_folder_id" guid; always "offset" dword]);
   ("SHIM_LAYER_BLOCK", block [always "layer_name" any]);
   ("DARWIN_BLOCK", block
      [always "darwin_data_ansi" any; always "darwin_data_unicode" any; always "product_code_id" packed_guid;
       always "feature_name" (maybe any); always "component_id" (maybe packed_guid)]);
   ("METADATA_PROPERTIES_BLOCK", block [always "property_store" storages_kind]);
   ("SHELL_ITEM_IDENTIFIER_BLOCK", block [always "id_list" (ListOf (item_kind true))]);
   ("UNKNOWN_BLOCK", ListOf (block [always "extra_data_sha256" digest]))].
(** [allow]: whether data behind the last block is asked for. *)
Definition extra_kind (allow : bool) : kind := Table
  (block_kinds
   ++ if allow then [("TERMINAL_BLOCK", Record [always "size" Count; always "appended_data_sha256" digest])] else [])%list.

Definition report_kind (allow full : bool) : kind := Record
  [always "size" Count; always "header" (header_kind full); sometimes "target" (target_kind full);
   always "link_info" (info_kind full); always "data" data_kind; always "extra" (extra_kind allow)].
