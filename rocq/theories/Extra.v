(** * extra_factory.py, extra/*.py and extra_data.py *)
From Verif Require Import Py PyTime Codec Utils Sha256 Targets.

(** The classes of extra/*.py. *)
Inductive extra_class :=
| Environment | Console | DistributedTracker | CodePage | SpecialFolder | Darwin | Icon
| ShimLayer | Metadata | KnownFolder | ShellItem | UnknownExtra | Terminal.

(** The [name] methods: environment.py:22-23, console.py:58-59, distributed_tracker.py:39-40,
    code_page.py:20-21, special_folder.py:22-23, darwin.py:39-40, icon.py:22-23,
    shim_layer.py:19-20, metadata.py:305-306, known_folder.py:24-25, shell_item.py:21-22,
    unknown.py:14-15, terminal.py:28-29 *)
Definition extra_name (c : extra_class) : string :=
  match c with
  | Environment => "ENVIRONMENTAL_VARIABLES_LOCATION_BLOCK"
  | Console => "CONSOLE_PROPERTIES_BLOCK"
  | DistributedTracker => "DISTRIBUTED_LINK_TRACKER_BLOCK"
  | CodePage => "CONSOLE_CODEPAGE_BLOCK"
  | SpecialFolder => "SPECIAL_FOLDER_LOCATION_BLOCK"
  | Darwin => "DARWIN_BLOCK"
  | Icon => "ICON_LOCATION_BLOCK"
  | ShimLayer => "SHIM_LAYER_BLOCK"
  | Metadata => "METADATA_PROPERTIES_BLOCK"
  | KnownFolder => "KNOWN_FOLDER_LOCATION_BLOCK"
  | ShellItem => "SHELL_ITEM_IDENTIFIER_BLOCK"
  | UnknownExtra => "UNKNOWN_BLOCK"
  | Terminal => "TERMINAL_BLOCK"
  end.

(** A constructed block (lnk_extra_base.py:16-19): its class and [_raw]. *)
Record extra := Extra { ex_class : extra_class; ex_raw : bytes }.

(** ** extra_factory.py *)

(** extra_factory.py:31-43 *)
Definition EXTRA_SIGS : list (string * extra_class) :=
  [("a0000001", Environment); ("a0000002", Console); ("a0000003", DistributedTracker);
   ("a0000004", CodePage); ("a0000005", SpecialFolder); ("a0000006", Darwin); ("a0000007", Icon);
   ("a0000008", ShimLayer); ("a0000009", Metadata); ("a000000b", KnownFolder); ("a000000c", ShellItem)].

Fixpoint assoc_sig (k : text) (t : list (string * extra_class)) : option extra_class :=
  match t with
  | [] => None
  | (k', v) :: r => if text_eqb k (s2t k') then Some v else assoc_sig k r
  end.

(** extra_factory.py:48-51 [item_size] *)
Definition ef_item_size (raw : bytes) : M N := unpack_u32 (slice 0 4 raw).
(** extra_factory.py:53-56 [_rsig] *)
Definition ef_rsig (raw : bytes) : M N := unpack_u32 (slice 4 8 raw).
(** extra_factory.py:58-65 [extra_class] *)
Definition ef_extra_class (raw : bytes) : M (option extra_class) :=
  try_except
    (rsig <- ef_rsig raw ;;
     let sig := dropN 2 (hex_text rsig) in
     ret (Some match assoc_sig sig EXTRA_SIGS with Some c => c | None => UnknownExtra end))
    is_struct_error
    (warn WExtraSig ;;; ret None).

(** ** Fields *)

Definition u16_field (i : N) (raw : bytes) : M pyval := n <- unpack_u16 (slice i (i + 2) raw) ;; ret (PN n).
Definition i16_field (i : N) (raw : bytes) : M pyval := n <- unpack_i16 (slice i (i + 2) raw) ;; ret (PInt n).
Definition u32_field (i : N) (raw : bytes) : M pyval := n <- unpack_u32 (slice i (i + 4) raw) ;; ret (PN n).
Definition uuid_field (i : N) (raw : bytes) : M pyval := t <- parse_uuid (slice i (i + 16) raw) ;; ret (PStr t).
Definition str_field (cp : cp_arg) (i j : N) (raw : bytes) : M pyval :=
  t <- read_string cp (slice i j raw) ;; ret (PStr t).
Definition ustr_field (i j : N) (raw : bytes) : M pyval :=
  t <- read_unicode_string (slice i j raw) ;; ret (PStr t).

(** [tmp[key] = self.method()] for each row in order. *)
Fixpoint fields (rows : list (string * M pyval)) : M dict :=
  match rows with
  | [] => ret []
  | (k, m) :: r => v <- m ;; d <- fields r ;; ret ((k, v) :: d)
  end.

(** lnk_extra_base.py:21-24 [size] *)
Definition base_size (raw : bytes) : M N := unpack_u32 (slice 0 4 raw).
(** lnk_extra_base.py:26-29 [as_dict] *)
Definition base_fields (raw : bytes) : list (string * M pyval) :=
  [("size", n <- base_size raw ;; ret (PN n))].

(** environment.py:25-43 and icon.py:25-43 [as_dict] *)
Definition environment_dict (cp : cp_arg) (raw : bytes) : M dict :=
  fields (base_fields raw ++
    [("target_ansi", str_field cp 8 268 raw); ("target_unicode", ustr_field 268 788 raw)]).

(** console.py:61-171 [as_dict] *)
Definition console_dict (raw : bytes) : M dict :=
  fields (base_fields raw ++
    [("fill_attributes", u16_field 8 raw); ("popup_fill_attributes", u16_field 10 raw);
     ("screen_buffer_size_x", i16_field 12 raw); ("screen_buffer_size_y", i16_field 14 raw);
     ("window_size_x", i16_field 16 raw); ("window_size_y", i16_field 18 raw);
     ("window_origin_x", i16_field 20 raw); ("window_origin_y", i16_field 22 raw);
     ("font_size", u32_field 32 raw); ("font_family", u32_field 36 raw);
     ("font_weight", u32_field 40 raw); ("face_name", ustr_field 44 108 raw);
     ("cursor_size", u32_field 108 raw); ("full_screen", u32_field 112 raw);
     ("quick_edit", u32_field 116 raw); ("insert_mode", u32_field 120 raw);
     ("auto_position", u32_field 124 raw); ("history_buffer_size", u32_field 128 raw);
     ("number_of_history_buffers", u32_field 132 raw); ("history_no_dup", u32_field 136 raw);
     ("color_table", u32_field 140 raw)]).

(** distributed_tracker.py:42-106 [as_dict] *)
Definition tracker_dict (cp : cp_arg) (raw : bytes) : M dict :=
  fields (base_fields raw ++
    [("length", n <- must_be_N "length" 0x58 (unpack_u32 (slice 8 12 raw)) ;; ret (PN n));
     ("version", n <- must_be_N "version" 0 (unpack_u32 (slice 12 16 raw)) ;; ret (PN n));
     ("machine_identifier", str_field cp 16 32 raw);
     ("droid_volume_identifier", uuid_field 32 raw);
     ("droid_file_identifier", uuid_field 48 raw);
     ("birth_droid_volume_identifier", uuid_field 64 raw);
     ("birth_droid_file_identifier", uuid_field 80 raw)]).

(** code_page.py:23-30 [as_dict] *)
Definition code_page_dict (raw : bytes) : M dict :=
  fields (base_fields raw ++ [("code_page", u32_field 8 raw)]).

(** special_folder.py:25-37 [as_dict] *)
Definition special_folder_dict (raw : bytes) : M dict :=
  fields (base_fields raw ++ [("special_folder_id", u32_field 8 raw); ("offset", u32_field 12 raw)]).

(** known_folder.py:27-41 [as_dict] *)
Definition known_folder_dict (raw : bytes) : M dict :=
  fields (base_fields raw ++ [("known_folder_id", uuid_field 8 raw); ("offset", u32_field 24 raw)]).

(** shim_layer.py:22-31 [as_dict] *)
Definition shim_dict (cp : cp_arg) (raw : bytes) : M dict :=
  fields (base_fields raw ++
    [("layer_name", t <- read_string cp (dropN 8 raw) ;; ret (PStr t))]).

(** ** extra/darwin.py *)

(** darwin.py:49-54 [darwin_data_unicode] *)
Definition darwin_data_unicode (raw : bytes) : M text := read_unicode_string (slice 268 788 raw).

(** darwin.py:56-61 [product_code_id] *)
Definition product_code_id (raw : bytes) : M text :=
  data <- darwin_data_unicode raw ;; parse_packed_uuid (slice 0 20 data).

(** darwin.py:63-78 [feature_name]; [find] gives -1 when the character is absent, and
    [data[20:-1]] then drops the last character. *)
Definition feature_name (raw : bytes) : M (option text) :=
  data <- darwin_data_unicode raw ;;
  let terminator := Z.max (find_char 62 data 0) (find_char 60 data 0) in
  if (terminator =? 20)%Z then ret None
  else if (terminator <? 0)%Z then ret (Some (slice 20 (lenN data - 1) data))
  else ret (Some (slice 20 (Z.to_N terminator) data)).

(** darwin.py:80-89 [component_id]; utils.py:41-43 maps None to None *)
Definition component_id (raw : bytes) : M (option text) :=
  data <- darwin_data_unicode raw ;;
  let terminator := find_char 62 data 0 in
  if (terminator =? -1)%Z then ret None
  else t <- parse_packed_uuid (dropN (Z.to_N (terminator + 1)) data) ;; ret (Some t).

(** darwin.py:42-47, 91-98 [as_dict] *)
Definition darwin_dict (cp : cp_arg) (raw : bytes) : M dict :=
  fields (base_fields raw ++
    [("darwin_data_ansi", str_field cp 8 268 raw);
     ("darwin_data_unicode", t <- darwin_data_unicode raw ;; ret (PStr t));
     ("product_code_id", t <- product_code_id raw ;; ret (PStr t));
     ("feature_name", t <- feature_name raw ;; ret (POpt PStr t));
     ("component_id", t <- component_id raw ;; ret (POpt PStr t))]).

(** ** extra/metadata.py *)

(** metadata.py:24-111 [PropertyType] *)
Definition PropertyType : list (N * string) :=
  [(0x0000, "VT_EMPTY"); (0x0001, "VT_NULL"); (0x0002, "VT_I2");
   (0x0003, "VT_I4"); (0x0004, "VT_R4"); (0x0005, "VT_R8");
   (0x0006, "VT_CY"); (0x0007, "VT_DATE"); (0x0008, "VT_BSTR");
   (0x000A, "VT_ERROR"); (0x000B, "VT_BOOL"); (0x000E, "VT_DECIMAL");
   (0x0010, "VT_I1"); (0x0011, "VT_UI1"); (0x0012, "VT_UI2");
   (0x0013, "VT_UI4"); (0x0014, "VT_I8"); (0x0015, "VT_UI8");
   (0x0016, "VT_INT"); (0x0017, "VT_UINT"); (0x001E, "VT_LPSTR");
   (0x001F, "VT_LPWSTR"); (0x0040, "VT_FILETIME"); (0x0041, "VT_BLOB");
   (0x0042, "VT_STREAM"); (0x0043, "VT_STORAGE"); (0x0044, "VT_STREAMED_Object");
   (0x0045, "VT_STORED_Object"); (0x0046, "VT_BLOB_Object"); (0x0047, "VT_CF");
   (0x0048, "VT_CLSID"); (0x0049, "VT_VERSIONED_STREAM"); (0x1002, "VT_VECTOR_I2");
   (0x1003, "VT_VECTOR_I4"); (0x1004, "VT_VECTOR_R4"); (0x1005, "VT_VECTOR_R8");
   (0x1006, "VT_VECTOR_CY"); (0x1007, "VT_VECTOR_DATE"); (0x1008, "VT_VECTOR_BSTR");
   (0x100A, "VT_VECTOR_ERROR"); (0x100B, "VT_VECTOR_BOOL"); (0x100C, "VT_VECTOR_VARIANT");
   (0x1010, "VT_VECTOR_I1"); (0x1011, "VT_VECTOR_UI1"); (0x1012, "VT_VECTOR_UI2");
   (0x1013, "VT_VECTOR_UI4"); (0x1014, "VT_VECTOR_I8"); (0x1015, "VT_VECTOR_UI8");
   (0x101E, "VT_VECTOR_LPSTR"); (0x101F, "VT_VECTOR_LPWSTR"); (0x1040, "VT_VECTOR_FILETIME");
   (0x1047, "VT_VECTOR_CF"); (0x1048, "VT_VECTOR_CLSID"); (0x2002, "VT_ARRAY_I2");
   (0x2003, "VT_ARRAY_I4"); (0x2004, "VT_ARRAY_R4"); (0x2005, "VT_ARRAY_R8");
   (0x2006, "VT_ARRAY_CY"); (0x2007, "VT_ARRAY_DATE"); (0x2008, "VT_ARRAY_BSTR");
   (0x200A, "VT_ARRAY_ERROR"); (0x200B, "VT_ARRAY_BOOL"); (0x200C, "VT_ARRAY_VARIANT");
   (0x200E, "VT_ARRAY_DECIMAL"); (0x2010, "VT_ARRAY_I1"); (0x2011, "VT_ARRAY_UI1");
   (0x2012, "VT_ARRAY_UI2"); (0x2013, "VT_ARRAY_UI4"); (0x2016, "VT_ARRAY_INT");
   (0x2017, "VT_ARRAY_UINT")].

(** metadata.py:131-133 [TypedPropertyValue.value_type] *)
Definition tv_value_type (raw : bytes) : M N := unpack_u16 (slice 0 2 raw).
(** metadata.py:135-137 [TypedPropertyValue.value_padding] *)
Definition tv_value_padding (raw : bytes) : M N := unpack_u16 (slice 2 4 raw).
(** metadata.py:139-151 [TypedPropertyValue.value] *)
Definition tv_value (raw : bytes) : M pyval :=
  padding <- tv_value_padding raw ;;
  if negb (padding =? 0) then ret PNone
  else
    ty <- tv_value_type raw ;;
    if ty =? 0x0002 then n <- unpack_i32 (slice 4 6 raw) ;; ret (PInt n)
    else
      ty <- tv_value_type raw ;;
      if ty =? 0x001F then
        n <- unpack_u32 (slice 4 8 raw) ;;
        t <- read_unicode_string (slice 8 (8 + n * 2) raw) ;; ret (PStr t)
      else ret PNone.
(** [PropertyType(n).name] *)
Definition property_type_name (n : N) : M pyval :=
  match assocN n PropertyType with Some s => ret (PS s) | None => raise ValueError end.

(** metadata.py:172-174 and 213-215 [value_size] *)
Definition pv_value_size (raw : bytes) : M N := unpack_u32 (slice 0 4 raw).

(** metadata.py:176-189 [SerializedPropertyValueIntegerName.as_dict] *)
Definition integer_name_dict (raw : bytes) : M dict :=
  fields
    [("value_size", n <- pv_value_size raw ;; ret (PN n));
     ("id", u32_field 4 raw);
     ("value", tv_value (dropN 9 raw));
     ("value_type", n <- tv_value_type (dropN 9 raw) ;; property_type_name n)].

(** metadata.py:217-219 [name_size], 226-227 [_value_offset] *)
Definition sn_name_size (raw : bytes) : M N := unpack_u32 (slice 4 8 raw).
Definition sn_value_offset (raw : bytes) : M N := n <- sn_name_size raw ;; ret (9 + n).
(** metadata.py:221-239 [SerializedPropertyValueStringName.as_dict] *)
Definition string_name_dict (raw : bytes) : M dict :=
  fields
    [("value_size", n <- pv_value_size raw ;; ret (PN n));
     ("name_size", n <- sn_name_size raw ;; ret (PN n));
     ("name", o <- sn_value_offset raw ;; t <- read_unicode_string (slice 9 o raw) ;; ret (PStr t));
     ("value", o <- sn_value_offset raw ;; tv_value (dropN o raw));
     ("value_type",
       o <- sn_value_offset raw ;; n <- tv_value_type (dropN o raw) ;; property_type_name n)].

(** metadata.py:285-293 and 316-324: the suffixes at which a non-empty element starts;
    each element begins with its 4-byte size. [raw] is [self._raw[start:]]. *)
Fixpoint sized_suffixes (fuel : nat) (raw : bytes) : M (list bytes) :=
  match fuel with
  | O => raise OutOfFuel
  | S fuel =>
    size <- unpack_u32 (slice 0 4 raw) ;;
    if size =? 0 then ret []
    else r <- sized_suffixes fuel (dropN size raw) ;; ret (raw :: r)
  end.

(** metadata.py:272-275 [format_id] *)
Definition ps_format_id (raw : bytes) : M text := parse_uuid (slice 8 24 raw).

(** metadata.py:277-293 [serialized_property_values]: whether values are string-named, and
    their raw bytes *)
Definition serialized_property_values (raw : bytes) : M (bool * list bytes) :=
  format_id <- ps_format_id raw ;;
  let by_name := text_eqb format_id (s2t "D5CDD505-2E9C-101B-9397-08002B2CF9AE") in
  vs <- sized_suffixes (S (length raw)) (dropN 24 raw) ;;
  ret (by_name, vs).

(** metadata.py:263-270, 295-301 [SerializedPropertyStorage.as_dict] *)
Definition storage_dict (raw : bytes) : M dict :=
  fields
    [("storage_size", u32_field 0 raw);
     ("version", n <- unpack_u32 (slice 4 8 raw) ;; ret (PStr (hex_text n)));
     ("format_id", t <- ps_format_id raw ;; ret (PStr t));
     ("serialized_property_values",
       r <- serialized_property_values raw ;;
       let (by_name, vs) := r in
       ds <- mapM (if by_name : bool then string_name_dict else integer_name_dict) vs ;;
       ret (PList (map PDict ds)))].

(** metadata.py:312-329 [as_dict] *)
Definition metadata_dict (raw : bytes) : M dict :=
  fields (base_fields raw ++
    [("property_store",
       storages <- sized_suffixes (S (length raw)) (dropN 8 raw) ;;
       ds <- mapM storage_dict storages ;;
       ret (PList (map PDict ds)))]).

(** ** extra/shell_item.py, extra/terminal.py, extra/unknown.py *)

(** shell_item.py:24-71 [as_dict]; [self.size()] is evaluated in the generator body *)
Definition shell_item_dict (cp : cp_arg) (raw : bytes) : M dict :=
  fields (base_fields raw ++
    [("id_list",
       size <- base_size raw ;;
       items <- items_of cp (slice 8 size raw) ;;
       ret (PList items))]).

(** terminal.py:31-33 [appended_data], 36-37 [size], 39-42 [as_dict] *)
Definition terminal_size (raw : bytes) : M N := ret (4 + lenN (dropN 4 raw)).
Definition terminal_dict (raw : bytes) : M dict :=
  fields
    [("size", n <- terminal_size raw ;; ret (PN n));
     ("appended_data_sha256", ret (PStr (sha256_hex (dropN 4 raw))))].

(** unknown.py:17-24 [as_dict] *)
Definition unknown_extra_dict (raw : bytes) : M dict :=
  fields (base_fields raw ++ [("extra_data_sha256", ret (PStr (sha256_hex (dropN 4 raw))))]).

(** The [as_dict] method of each class. *)
Definition extra_as_dict (cp : cp_arg) (e : extra) : M dict :=
  let raw := ex_raw e in
  match ex_class e with
  | Environment | Icon => environment_dict cp raw
  | Console => console_dict raw
  | DistributedTracker => tracker_dict cp raw
  | CodePage => code_page_dict raw
  | SpecialFolder => special_folder_dict raw
  | Darwin => darwin_dict cp raw
  | ShimLayer => shim_dict cp raw
  | Metadata => metadata_dict raw
  | KnownFolder => known_folder_dict raw
  | ShellItem => shell_item_dict cp raw
  | UnknownExtra => unknown_extra_dict raw
  | Terminal => terminal_dict raw
  end.

(** The [size] method of each class: terminal.py:36-37, else lnk_extra_base.py:21-24. *)
Definition extra_size (e : extra) : M N :=
  match ex_class e with Terminal => terminal_size (ex_raw e) | _ => base_size (ex_raw e) end.

(** ** extra_data.py *)

(** extra_data.py:28-46: the blocks found and the final [rest] *)
Fixpoint extra_loop (fuel : nat) (rest : bytes) : M (list extra * bytes) :=
  match fuel with
  | O => raise OutOfFuel
  | S fuel =>
    match rest with
    | [] => ret ([], rest)
    | _ =>
      match ef_item_size rest with
      | (w, Err e) => if is_struct_error e then (w ++ [WExtraData], Ok ([], rest)) else (w, Err e)
      | (w, Ok size) =>
        if size =? 0 then ret ([], rest)
        else
          let data := takeN size rest in
          cls <- ef_extra_class rest ;;
          r <- extra_loop fuel (dropN size rest) ;;
          let (blocks, rest') := r in
          ret (match cls with Some c => Extra c data :: blocks | None => blocks end, rest')
      end
    end
  end.

(** extra_data.py:17-22, 27-51 [__init__], [process] *)
Definition extra_init (allow_terminal_blocks : bool) (indata : bytes) : M (list extra) :=
  r <- extra_loop (S (length indata)) indata ;;
  let (blocks, rest) := r in
  if allow_terminal_blocks && (4 <? lenN rest) then
    n <- unpack_u32 (takeN 4 rest) ;;
    ret (if n <? 4 then blocks ++ [Extra Terminal rest] else blocks)
  else ret blocks.

(** extra_data.py:53-54 [size] *)
Fixpoint extras_size (l : list extra) : M N :=
  match l with
  | [] => ret 0
  | e :: r => n <- extra_size e ;; m <- extras_size r ;; ret (n + m)
  end.

(** extra_data.py:59-69: one iteration of the loop of [as_dict] on the accumulated [res] *)
Definition add_block (cp : cp_arg) (res : dict) (e : extra) : M dict :=
  let name := extra_name (ex_class e) in
  match ex_class e with
  | UnknownExtra =>
    let res := if dmem name res then res else dset name (PList []) res in
    try_except
      (d <- extra_as_dict cp e ;;
       ret (dupd name (fun v => match v with PList l => PList (l ++ [PDict d]) | v => v end) res))
      is_struct_or_value_error
      (warn (WExtraBlock name) ;;; ret res)
  | _ =>
    try_except
      (d <- extra_as_dict cp e ;; ret (dset name (PDict d) res))
      is_struct_or_value_error
      (warn (WExtraBlock name) ;;; ret res)
  end.

(** extra_data.py:56-70 [as_dict] *)
Fixpoint extras_loop (cp : cp_arg) (res : dict) (l : list extra) : M dict :=
  match l with
  | [] => ret res
  | e :: r => res <- add_block cp res e ;; extras_loop cp res r
  end.
Definition extras_as_dict (cp : cp_arg) (l : list extra) : M dict := extras_loop cp [] l.
