(** * Specification: what the single fields of a link are (property C72)

    The answers are read off the bytes of the file. A field is given when its own bytes are there (and those of the
    offsets that lead to it), whatever is wrong with the rest of the file. *)
From Verif Require Import Py PyTime Codec Sha256 LnkFile Spec SpecText SpecHeader SpecTime SpecDouble SpecItems SpecInfo SpecExtra SpecOutcome SpecEntries SpecBlocks SpecFailure SpecReadable.
From Verif Require Import Fields.

(** ** Flags: bits of the four bytes from 20 on *)
Definition predicate_bit (p : predicate) : N :=
  match p with
  | HasTargetIdList => 0 | HasLinkInfo => 1 | HasName => 2 | HasRelativePath => 3 | HasWorkingDir => 4 | HasArguments => 5
  | HasIconLocation => 6 | IsUnicode => 7 | ForceNoLinkInfo => 8
  end.

(** ** The header: [h] are the bytes of it that are there *)

(** Where a field begins and ends. *)
Definition header_place (m : header_method) : N * N :=
  match m with
  | HSize => (0, 4) | HLinkClsId | HGuid => (4, 20) | HRawLinkFlags | HLinkFlags => (20, 24) | HRawFileFlags | HFileFlags => (24, 28)
  | HCreationTime => (28, 36) | HAccessTime => (36, 44) | HWriteTime => (44, 52) | HFileSize => (52, 56) | HIconIndex => (56, 60)
  | HWindowStyle => (60, 64) | HHotKey | HRawHotKey => (64, 66) | HReserved0 => (66, 68) | HReserved1 => (68, 72) | HReserved2 => (72, 76)
  end.
Definition is_time (m : header_method) : bool :=
  match m with HCreationTime | HAccessTime | HWriteTime => true | _ => false end.
(** What a field that is there says, from its first byte on; the times are apart. *)
Definition header_value (m : header_method) (f : bytes) : pyval :=
  match m with
  | HLinkClsId | HGuid => PStr (guid_text (takeN 16 f))
  | HLinkFlags => names_value (set_bits 0 link_flag_bits (num 4 0 f))
  | HFileFlags => names_value (set_bits 0 file_attribute_bits (num 4 0 f))
  | HIconIndex => PInt (signed 32 (num 4 0 f))
  | HWindowStyle => PS (show_text (num 4 0 f))
  | HHotKey => PStr (hot_key_text (n2b (num 1 0 f)) (n2b (num 1 1 f)))
  | HRawHotKey | HReserved0 => PN (num 2 0 f)
  | _ => PN (num 4 0 f)
  end.
(** Some fields have a prescribed value. *)
Definition header_said (m : header_method) (f : bytes) : list warning :=
  match m with
  | HSize => must_be "size" (num 4 0 f =? 76)
  | HLinkClsId | HGuid => must_be "link_cls_id" (text_eqb (guid_text (takeN 16 f)) link_clsid_text)
  | HReserved0 => must_be "reserved0" (num 2 0 f =? 0)
  | HReserved1 => must_be "reserved1" (num 4 0 f =? 0)
  | HReserved2 => must_be "reserved2" (num 4 0 f =? 0)
  | _ => []
  end.
Inductive header_gives (h : bytes) (m : header_method) : list warning -> result pyval -> Prop :=
| header_there start end_ f :
    header_place m = (start, end_) -> end_ <= lenN h -> is_time m = false -> f = dropN start h ->
    header_gives h m (header_said m f) (Ok (header_value m f))
| header_time start end_ t shown :
    header_place m = (start, end_) -> end_ <= lenN h -> is_time m = true -> t = signed64 start h -> time_read t shown ->
    header_gives h m (time_said t shown) (Ok (POpt PDate shown))
| header_cut_off start end_ : header_place m = (start, end_) -> lenN h < end_ -> header_gives h m [] (Err StructError).

(** ** The link info: [raw] are the bytes from it to the end of the file *)
Inductive there := There (said : list warning) (v : pyval) | CutOff.
(** The first [n] bytes of [raw] have to be there. *)
Definition within (n : N) (raw : bytes) (t : there) : there := if n <=? lenN raw then t else CutOff.
Definition number_field (off : N) (raw : bytes) : there := within (off + 4) raw (There [] (PN (num 4 off raw))).
(** A string in the code page, or in UTF-16, up to its terminator or the end of the file. *)
Definition page_string (cp : cp_arg) (f : bytes) : there := There (field_warning cp f) (PStr (field_text cp f)).
Definition wide_string (f : bytes) : there := There (wide_warning f) (PStr (wide_text f)).
Definition absent : there := There [] PNone.
(** The offsets of the Unicode strings are present when the announced header size is 0x24 or more. *)
Definition if_wide (raw : bytes) (t : there) : there := within 8 raw (if 0x24 <=? num 4 4 raw then t else absent).
Definition if_set (offset : N) (t : there) : there := if offset =? 0 then absent else t.

Definition info_field (cp : cp_arg) (network : bool) (raw : bytes) (m : info_method) : there :=
  match m with
  | ISize => number_field 0 raw
  | IHeaderSize => number_field 4 raw
  | IFlags => number_field 8 raw
  | IVolumeIdOffset => number_field 12 raw
  | ILocalBasePathOffset => number_field 16 raw
  | INetworkOffset => number_field 20 raw
  | ISuffixOffset => number_field 24 raw
  | IBase => within 20 raw (if_set (num 4 16 raw) (page_string cp (dropN (num 4 16 raw) raw)))
  | ISuffix => within 28 raw (if_set (num 4 24 raw) (page_string cp (dropN (num 4 24 raw) raw)))
  | IBaseOffsetUnicode => if_wide raw (number_field 28 raw)
  | ISuffixOffsetUnicode => if_wide raw (number_field 32 raw)
  | IBaseUnicode => if_wide raw (within 32 raw (if_set (num 4 28 raw) (wide_string (dropN (num 4 28 raw) raw))))
  | ISuffixUnicode =>
    (* four bytes too far: C39 *)
    if_wide raw (within 36 raw (if_set (num 4 32 raw) (wide_string (dropN (num 4 32 raw + 4) raw))))
  | INetworkLink => absent
  | ILocation => There [] (PS (if network then "Network" else "Local"))
  end.
(** The volume lies where the offset at 12 says. *)
Definition local_field (cp : cp_arg) (raw : bytes) (m : local_method) : there :=
  let o := num 4 12 raw in
  let label := num 4 (o + 12) raw in
  within 16 raw
  match m with
  | LVolumeIdSize => number_field o raw
  | LRawDriveType => number_field (o + 4) raw
  | LDriveType => within (o + 8) raw (There [] (POpt PS (drive_name (num 4 (o + 4) raw))))
  | LSerial => within (o + 12) raw (There [] (PStr (hex_text (num 4 (o + 8) raw))))
  | LLabelOffset => number_field (o + 12) raw
  | LLabel => within (o + 16) raw (if label =? 0x14 then absent else page_string cp (dropN (o + label) raw))
  | LLabelUnicodeOffset => within (o + 16) raw (if label =? 0x14 then number_field (o + 16) raw else absent)
  | LLabelUnicode =>
    within (o + 16) raw
      (if label =? 0x14
       then within (o + 20) raw (if_set (num 4 (o + 16) raw) (wide_string (dropN (o + num 4 (o + 16) raw) raw)))
       else absent)
  end.
(** The share lies where the offset at 20 says. A net name offset above 20 announces Unicode names. *)
Definition network_field (cp : cp_arg) (raw : bytes) (m : network_method) : there :=
  let o := num 4 20 raw in
  let name := num 4 (o + 8) raw in
  within 24 raw
  match m with
  | NSize => number_field o raw
  | NFlags => number_field (o + 4) raw
  | NNameOffset => number_field (o + 8) raw
  | NDeviceOffset => number_field (o + 12) raw
  | NRawProvider => within (o + 20) raw (There [] (PStr (hex_text (num 4 (o + 16) raw))))
  | NProvider =>
    within (o + 8) raw
      (if N.testbit (num 4 (o + 4) raw) 1
       then within (o + 20) raw (There [] (POpt PS (known_provider (num 4 (o + 16) raw))))
       else absent)
  | NNameOffsetUnicode => within (o + 12) raw (if 20 <? name then number_field (o + 20) raw else absent)
  | NDeviceOffsetUnicode => within (o + 12) raw (if 20 <? name then number_field (o + 24) raw else absent)
  | NNameUnicode =>
    within (o + 12) raw
      (if 20 <? name then within (o + 24) raw (wide_string (dropN (o + num 4 (o + 20) raw) raw)) else absent)
  | NDeviceUnicode =>
    within (o + 12) raw
      (if 20 <? name then within (o + 28) raw (wide_string (dropN (o + num 4 (o + 24) raw) raw)) else absent)
  | NName => within (o + 12) raw (if 20 <? name then absent else page_string cp (dropN (o + name) raw))
  | NDevice =>
    within (o + 12) raw
      (if 20 <? name then absent else within (o + 16) raw (page_string cp (dropN (o + num 4 (o + 12) raw) raw)))
  end.

(** ** All questions *)
Definition value_of (r : result pyval) : result answer := match r with Ok v => Ok (Value v) | Err e => Err e end.
Definition said_there (t : there) : list warning := match t with There said _ => said | CutOff => [] end.
Definition value_there (t : there) : result answer := match t with There _ v => Ok (Value v) | CutOff => Err StructError end.
Definition size_of_extras (allow : bool) (blocks : list (N * bytes)) (tail : bytes) : N :=
  sumN (map declared blocks) + (if allow && (4 <? lenN tail) && (num 4 0 tail =? 0) then lenN tail else 0).

Inductive asked (b : bytes) (cp : cp_arg) (allow : bool) : question -> list warning -> result answer -> Prop :=
| ask_flag p : asked b cp allow (Is p) [] (Ok (Truth (N.testbit (num 4 20 b) (predicate_bit p))))
| ask_the_header m said r :
    header_gives (takeN (header_len b) b) m said r -> asked b cp allow (OfHeader m) said (value_of r)
(* the link info *)
| ask_the_info m raw network t :
    info_processed b = true -> raw = dropN (id_list_end b) b -> network = negb (N.testbit (num 4 8 raw) 0) ->
    t = info_field cp network raw m -> asked b cp allow (OfInfo m) (said_there t) (value_there t)
| ask_no_info m : info_processed b = false -> asked b cp allow (OfInfo m) [] (Err AttributeError)
| ask_a_volume m raw t :
    info_processed b = true -> raw = dropN (id_list_end b) b -> N.testbit (num 4 8 raw) 0 = true ->
    t = local_field cp raw m -> asked b cp allow (OfLocal m) (said_there t) (value_there t)
| ask_no_volume m :
    info_processed b = false \/ N.testbit (num 4 8 (dropN (id_list_end b) b)) 0 = false ->
    asked b cp allow (OfLocal m) [] (Err AttributeError)
| ask_a_share m raw t :
    info_processed b = true -> raw = dropN (id_list_end b) b -> N.testbit (num 4 8 raw) 0 = false ->
    t = network_field cp raw m -> asked b cp allow (OfNetwork m) (said_there t) (value_there t)
| ask_no_share m :
    info_processed b = false \/ N.testbit (num 4 8 (dropN (id_list_end b) b)) 0 = true ->
    asked b cp allow (OfNetwork m) [] (Err AttributeError)
(* the ID list *)
| ask_list_size : has_id_list b = true ->
    asked b cp allow (OfSection IdListSize) [] (Ok (Value (PN (num 2 (header_len b) b))))
| ask_targets_size : has_id_list b = true ->
    asked b cp allow (OfSection TargetsSize) [] (Ok (Value (PN (num 2 (header_len b) b + 2))))
| ask_items entries said : has_id_list b = true -> entries_listed cp (id_list b) entries said ->
    asked b cp allow (OfSection TargetsList) said (Ok (Value (PList (map PDict entries))))
| ask_bad_items e said : has_id_list b = true -> entries_tried cp (id_list b) e said ->
    asked b cp allow (OfSection TargetsList) said (Err e)
| ask_no_list m : has_id_list b = false -> In m [IdListSize; TargetsSize; TargetsList] ->
    asked b cp allow (OfSection m) [] (Err AttributeError)
(* the strings *)
| ask_strings_size found end_ cut : string_walk b string_fields (info_end b) found end_ cut ->
    asked b cp allow (OfSection StringsSize) [] (Ok (Value (PN (end_ - info_end b))))
| ask_strings found end_ cut : string_walk b string_fields (info_end b) found end_ cut ->
    asked b cp allow (OfSection StringsDict) []
      (Ok (Value (PDict (map (fun f => (fst f, PStr (stored_text (bit_set 7 b) cp (snd f)))) found))))
(* the blocks *)
| ask_extras_size blocks tail : block_walk (dropN (string_data_end b) b) blocks tail ->
    asked b cp allow (OfSection ExtrasSize) [] (Ok (Value (PN (size_of_extras allow blocks tail))))
| ask_blocks blocks tail entries said :
    block_walk (dropN (string_data_end b) b) blocks tail -> blocks_read cp blocks entries said ->
    asked b cp allow (OfSection ExtrasDict) said (Ok (Value (PDict (collect (entries ++ behind_blocks allow tail)))))
| ask_bad_blocks blocks tail e said :
    block_walk (dropN (string_data_end b) b) blocks tail -> blocks_stop cp blocks e said ->
    asked b cp allow (OfSection ExtrasDict) said (Err e)
(* the link *)
| ask_size blocks tail sections :
    block_walk (dropN (string_data_end b) b) blocks tail -> sections = string_data_end b + size_of_extras allow blocks tail ->
    asked b cp allow (OfSection LinkSize) [] (Ok (Value (PN (sections + N.min 4 (lenN b - sections)))))
| ask_link_flags n : n = num 4 20 b ->
    asked b cp allow (OfSection LinkFlagsLine) []
      (Ok (Value (PStr (flags_line (Z.of_N n) (map s2t (set_bits 0 link_flag_bits n))))))
| ask_file_flags n : n = num 4 24 b -> 28 <= header_len b -> 28 <= lenN b ->
    asked b cp allow (OfSection FileFlagsLine) []
      (Ok (Value (PStr (flags_line (Z.of_N n) (map s2t (set_bits 0 file_attribute_bits n))))))
| ask_no_file_flags : header_len b < 28 \/ lenN b < 28 -> asked b cp allow (OfSection FileFlagsLine) [] (Err StructError).

(** ** The report

    Where the answers stand in a complete report. *)
Definition header_key (m : header_method) : string :=
  match m with
  | HSize => "header_size" | HLinkClsId | HGuid => "guid" | HRawLinkFlags => "r_link_flags" | HLinkFlags => "link_flags"
  | HRawFileFlags => "r_file_flags" | HFileFlags => "file_flags" | HCreationTime => "creation_time"
  | HAccessTime => "accessed_time" | HWriteTime => "modified_time" | HFileSize => "file_size" | HIconIndex => "icon_index"
  | HWindowStyle => "windowstyle" | HHotKey => "hotkey" | HRawHotKey => "r_hotkey" | HReserved0 => "reserved0"
  | HReserved1 => "reserved1" | HReserved2 => "reserved2"
  end.
Definition info_key (m : info_method) : string :=
  match m with
  | ISize => "link_info_size" | IHeaderSize => "link_info_header_size" | IFlags => "link_info_flags"
  | IVolumeIdOffset => "volume_id_offset" | ILocalBasePathOffset => "local_base_path_offset"
  | INetworkOffset => "common_network_relative_link_offset" | ISuffixOffset => "common_path_suffix_offset"
  | IBase => "local_base_path" | ISuffix => "common_path_suffix" | IBaseOffsetUnicode => "local_base_path_offset_unicode"
  | IBaseUnicode => "local_base_path_unicode" | ISuffixOffsetUnicode => "common_path_suffix_offset_unicode"
  | ISuffixUnicode => "common_path_suffix_unicode" | INetworkLink => "common_network_relative_link" | ILocation => "location"
  end.
Definition local_key (m : local_method) : string :=
  match m with
  | LVolumeIdSize => "volume_id_size" | LRawDriveType => "r_drive_type" | LSerial => "drive_serial_number"
  | LLabelOffset => "volume_label_offset" | LDriveType => "drive_type" | LLabel => "volume_label"
  | LLabelUnicodeOffset => "volume_label_unicode_offset" | LLabelUnicode => "volume_label_unicode"
  end.
Definition network_key (m : network_method) : string :=
  match m with
  | NSize => "common_network_relative_link_size" | NFlags => "common_network_relative_link_flags"
  | NNameOffset => "net_name_offset" | NDeviceOffset => "device_name_offset" | NRawProvider => "r_network_provider_type"
  | NProvider => "network_provider_type" | NNameOffsetUnicode => "net_name_offset_unicode" | NNameUnicode => "net_name_unicode"
  | NDeviceOffsetUnicode => "device_name_offset_unicode" | NDeviceUnicode => "device_name_unicode" | NName => "net_name"
  | NDevice => "device_name"
  end.
(** A dictionary in the report. *)
Definition part_of (d : dict) (k : string) : dict := match dget k d with Some (PDict e) => e | _ => [] end.
Definition report_entry (full : dict) (q : question) : option pyval :=
  match q with
  | OfHeader m => dget (header_key m) (part_of full "header")
  | OfInfo m => dget (info_key m) (part_of full "link_info")
  | OfLocal m => dget (local_key m) (part_of (part_of full "link_info") "location_info")
  | OfNetwork m => dget (network_key m) (part_of (part_of full "link_info") "location_info")
  | OfSection IdListSize => dget "size" (part_of full "target")
  | OfSection TargetsList => dget "items" (part_of full "target")
  | OfSection StringsDict => dget "data" full
  | OfSection ExtrasDict => dget "extra" full
  | OfSection LinkSize => dget "size" full
  | _ => None
  end%string.
(** A value that says nothing. *)
Definition nothing (v : pyval) : Prop := v = PNone \/ v = PN 0 \/ v = PStr [].
(** Questions whose answers have no place in a report, besides the nine flags. *)
Definition without_place : list question :=
  [OfSection TargetsSize; OfSection StringsSize; OfSection ExtrasSize; OfSection LinkFlagsLine; OfSection FileFlagsLine].
(** When Unicode names are announced but their offset is zero, these two read what stands at the start of the share
    (the report leaves it out). *)
Definition read_from_zero : list question := [OfNetwork NNameUnicode; OfNetwork NDeviceUnicode].
(** Where their offsets stand in the share. *)
Definition name_offset (m : network_method) : N := match m with NNameUnicode => 20 | _ => 24 end.
