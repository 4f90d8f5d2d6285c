(** * Specification of the LinkInfo section, written from [MS-SHLLINK] 2.3

    Deviations of the code that the reports below follow are marked; they are separate
    properties (C38, C39, C54). *)
From Verif Require Import Py Codec Spec SpecText SpecItems.

(** ** Names *)

(** 2.3.1, DriveType. *)
Definition drive_name (n : N) : option string :=
  match n with
  | 0 => Some "DRIVE_UNKNOWN" | 1 => Some "DRIVE_NO_ROOT_DIR" | 2 => Some "DRIVE_REMOVABLE"
  | 3 => Some "DRIVE_FIXED" | 4 => Some "DRIVE_REMOTE" | 5 => Some "DRIVE_CDROM" | 6 => Some "DRIVE_RAMDISK"
  | _ => None
  end%string.

(** 2.3.2, NetworkProviderType (WNNC_NET constants). *)
Definition provider_table : list (N * string) :=
  [(0x1A000, "WNNC_NET_AVID"); (0x1B000, "WNNC_NET_DOCUSPACE"); (0x1C000, "WNNC_NET_MANGOSOFT");
   (0x1D000, "WNNC_NET_SERNET"); (0x1E000, "WNNC_NET_RIVERFRONT1"); (0x1F000, "WNNC_NET_RIVERFRONT2");
   (0x20000, "WNNC_NET_DECORB"); (0x21000, "WNNC_NET_PROTSTOR"); (0x22000, "WNNC_NET_FJ_REDIR");
   (0x23000, "WNNC_NET_DISTINCT"); (0x24000, "WNNC_NET_TWINS"); (0x25000, "WNNC_NET_RDR2SAMPLE");
   (0x26000, "WNNC_NET_CSC"); (0x27000, "WNNC_NET_3IN1"); (0x29000, "WNNC_NET_EXTENDNET");
   (0x2A000, "WNNC_NET_STAC"); (0x2B000, "WNNC_NET_FOXBAT"); (0x2C000, "WNNC_NET_YAHOO");
   (0x2D000, "WNNC_NET_EXIFS"); (0x2E000, "WNNC_NET_DAV"); (0x2F000, "WNNC_NET_KNOWARE");
   (0x30000, "WNNC_NET_OBJECT_DIRE"); (0x31000, "WNNC_NET_MASFAX"); (0x32000, "WNNC_NET_HOB_NFS");
   (0x33000, "WNNC_NET_SHIVA"); (0x34000, "WNNC_NET_IBMAL"); (0x35000, "WNNC_NET_LOCK");
   (0x36000, "WNNC_NET_TERMSRV"); (0x37000, "WNNC_NET_SRT"); (0x38000, "WNNC_NET_QUINCY");
   (0x39000, "WNNC_NET_OPENAFS"); (0x3A000, "WNNC_NET_AVID1"); (0x3B000, "WNNC_NET_DFS");
   (0x3C000, "WNNC_NET_KWNP"); (0x3D000, "WNNC_NET_ZENWORKS"); (0x3E000, "WNNC_NET_DRIVEONWEB");
   (0x3F000, "WNNC_NET_VMWARE"); (0x40000, "WNNC_NET_RSFX"); (0x41000, "WNNC_NET_MFILES");
   (0x42000, "WNNC_NET_MS_NFS"); (0x43000, "WNNC_NET_GOOGLE")]%string.
Fixpoint named (n : N) (t : list (N * string)) : option string :=
  match t with [] => None | (k, s) :: r => if n =? k then Some s else named n r end.
(** The fourth hexadecimal digit from the right is a letter. Of the types in the table the
    code knows only those where it is not (C38). *)
Definition letter_type (n : N) : bool := 10 <=? (n / 4096) mod 16.
Definition known_provider (n : N) : option string := if letter_type n then None else named n provider_table.

(** ** What the bytes say

    [raw] are the bytes from the start of the LinkInfo to the end of the file. *)

(** All the fixed fields of the section lie inside the file. *)
Definition info_readable (network : bool) (raw : bytes) : bool :=
  (28 <=? lenN raw)
  && (if 0x24 <=? num 4 4 raw then 36 <=? lenN raw else true)
  && (if network then
        let o := num 4 20 raw in
        (o + 20 <=? lenN raw) && (if 20 <? num 4 (o + 8) raw then o + 28 <=? lenN raw else true)
      else
        let o := num 4 12 raw in
        (o + 16 <=? lenN raw) && (if num 4 (o + 12) raw =? 0x14 then o + 20 <=? lenN raw else true)).

Definition entry_if (b : bool) (d : dict) : dict := if b then d else [].
Definition wide_offset (off : N) (raw : bytes) : N := if 0x24 <=? num 4 4 raw then num 4 off raw else 0.

Definition common_entries (cp : cp_arg) (raw : bytes) : dict :=
  let base := num 4 16 raw in
  let suffix := num 4 24 raw in
  let wbase := wide_offset 28 raw in
  let wsuffix := wide_offset 32 raw in
  [("link_info_size", PN (num 4 0 raw)); ("link_info_header_size", PN (num 4 4 raw));
   ("link_info_flags", PN (num 4 8 raw)); ("volume_id_offset", PN (num 4 12 raw));
   ("local_base_path_offset", PN base); ("common_network_relative_link_offset", PN (num 4 20 raw));
   ("common_path_suffix_offset", PN suffix)]
  ++ entry_if (negb (base =? 0)) [("local_base_path", PStr (field_text cp (dropN base raw)))]
  ++ entry_if (negb (suffix =? 0)) [("common_path_suffix", PStr (field_text cp (dropN suffix raw)))]
  ++ entry_if (negb (wbase =? 0))
       [("local_base_path_offset_unicode", PN wbase); ("local_base_path_unicode", PStr (wide_text (dropN wbase raw)))]
  ++ entry_if (negb (wsuffix =? 0))
       (* four bytes too far: C39 *)
       [("common_path_suffix_offset_unicode", PN wsuffix);
        ("common_path_suffix_unicode", PStr (wide_text (dropN (wsuffix + 4) raw)))].

Definition local_entries (cp : cp_arg) (raw : bytes) : dict :=
  let o := num 4 12 raw in
  let label := num 4 (o + 12) raw in
  let wide := if label =? 0x14 then num 4 (o + 16) raw else 0 in
  [("volume_id_size", PN (num 4 o raw)); ("r_drive_type", PN (num 4 (o + 4) raw)); ("volume_label_offset", PN label);
   ("drive_serial_number", PStr (hex_text (num 4 (o + 8) raw)));
   ("drive_type", POpt PS (drive_name (num 4 (o + 4) raw)));
   ("volume_label", if label =? 0x14 then PNone else PStr (field_text cp (dropN (o + label) raw)))]
  ++ entry_if (negb (wide =? 0))
       [("volume_label_unicode_offset", PN wide); ("volume_label_unicode", PStr (wide_text (dropN (o + wide) raw)))].

Definition nonempty {A} (l : list A) : bool := match l with [] => false | _ => true end.

Definition network_entries (cp : cp_arg) (raw : bytes) : dict :=
  let o := num 4 20 raw in
  let name := num 4 (o + 8) raw in
  let device := num 4 (o + 12) raw in
  let wname := if 20 <? name then num 4 (o + 20) raw else 0 in
  let wdevice := if 20 <? name then num 4 (o + 24) raw else 0 in
  [("common_network_relative_link_size", PN (num 4 o raw));
   ("common_network_relative_link_flags", PN (num 4 (o + 4) raw));
   ("net_name_offset", PN name); ("device_name_offset", PN device);
   ("r_network_provider_type", PStr (hex_text (num 4 (o + 16) raw)))]
  ++ (if N.testbit (num 4 (o + 4) raw) 1 then
        match known_provider (num 4 (o + 16) raw) with Some s => [("network_provider_type", PS s)] | None => [] end
      else [])
  ++ entry_if (negb (wname =? 0))
       [("net_name_offset_unicode", PN wname); ("net_name_unicode", PStr (wide_text (dropN (o + wname) raw)))]
  ++ entry_if (negb (wdevice =? 0))
       [("device_name_offset_unicode", PN wdevice); ("device_name_unicode", PStr (wide_text (dropN (o + wdevice) raw)))]
  ++ entry_if ((name <=? 20) && nonempty (field_text cp (dropN (o + name) raw)))
       [("net_name", PStr (field_text cp (dropN (o + name) raw)))]
  ++ entry_if ((name <=? 20) && nonempty (field_text cp (dropN (o + device) raw)))
       [("device_name", PStr (field_text cp (dropN (o + device) raw)))].

Definition info_entries (cp : cp_arg) (network : bool) (raw : bytes) : dict :=
  common_entries cp raw
  ++ [("location_info", PDict (if network then network_entries cp raw else local_entries cp raw));
      ("location", PS (if network then "Network" else "Local"))].

(** The decoding warnings of the report. The code reads the code-page names twice. *)
Definition warn_if (b : bool) (w : list warning) : list warning := if b then w else [].
Definition name_warnings (cp : cp_arg) (field : bytes) : list warning :=
  field_warning cp field ++ warn_if (nonempty (field_text cp field)) (field_warning cp field).
Definition common_warnings (cp : cp_arg) (raw : bytes) : list warning :=
  let base := num 4 16 raw in
  let suffix := num 4 24 raw in
  let wbase := wide_offset 28 raw in
  let wsuffix := wide_offset 32 raw in
  warn_if (negb (base =? 0)) (field_warning cp (dropN base raw))
  ++ warn_if (negb (suffix =? 0)) (field_warning cp (dropN suffix raw))
  ++ warn_if (negb (wbase =? 0)) (wide_warning (dropN wbase raw))
  ++ warn_if (negb (wsuffix =? 0)) (wide_warning (dropN (wsuffix + 4) raw)).
Definition local_warnings (cp : cp_arg) (raw : bytes) : list warning :=
  let o := num 4 12 raw in
  let label := num 4 (o + 12) raw in
  let wide := if label =? 0x14 then num 4 (o + 16) raw else 0 in
  warn_if (negb (label =? 0x14)) (field_warning cp (dropN (o + label) raw))
  ++ warn_if (negb (wide =? 0)) (wide_warning (dropN (o + wide) raw)).
Definition network_warnings (cp : cp_arg) (raw : bytes) : list warning :=
  let o := num 4 20 raw in
  let name := num 4 (o + 8) raw in
  let device := num 4 (o + 12) raw in
  let wname := if 20 <? name then num 4 (o + 20) raw else 0 in
  let wdevice := if 20 <? name then num 4 (o + 24) raw else 0 in
  warn_if (negb (wname =? 0)) (wide_warning (dropN (o + wname) raw))
  ++ warn_if (negb (wdevice =? 0)) (wide_warning (dropN (o + wdevice) raw))
  ++ warn_if (name <=? 20) (name_warnings cp (dropN (o + name) raw))
  ++ warn_if (name <=? 20) (name_warnings cp (dropN (o + device) raw)).
Definition info_warnings (cp : cp_arg) (network : bool) (raw : bytes) : list warning :=
  common_warnings cp raw ++ (if network then network_warnings cp raw else local_warnings cp raw).

(** ** Abstract LinkInfo sections *)

(** A string stored at an offset; [None] is the offset zero: no string. *)
Definition slot := option (N * bytes).
Definition at_offset (s : slot) : N := match s with Some (off, _) => off | None => 0 end.
(** [base] is added to the offset. *)
Definition slot_in (unicode : bool) (section : bytes) (base : N) (s : slot) : Prop :=
  match s with
  | Some (off, body) => 0 < off /\ fits32 off /\ zbody unicode body /\ holds section (base + off) (zstring unicode body)
  | None => True
  end.

Record link_info := LinkInfo {
  i_size : N;             (* LinkInfoSize *)
  i_header : N;           (* LinkInfoHeaderSize *)
  i_flags : N;            (* LinkInfoFlags *)
  i_volume_at : N;        (* VolumeIDOffset *)
  i_network_at : N;       (* CommonNetworkRelativeLinkOffset *)
  i_base : slot;          (* LocalBasePath *)
  i_suffix : slot;        (* CommonPathSuffix *)
  i_wide : option (slot * slot) (* LocalBasePathUnicode, CommonPathSuffixUnicode *) }.
Definition encode_info (i : link_info) : bytes :=
  enc32 (i_size i) ++ enc32 (i_header i) ++ enc32 (i_flags i) ++ enc32 (i_volume_at i) ++ enc32 (at_offset (i_base i))
  ++ enc32 (i_network_at i) ++ enc32 (at_offset (i_suffix i))
  ++ match i_wide i with Some (b, s) => enc32 (at_offset b) ++ enc32 (at_offset s) | None => [] end.
(** The section holds the LinkInfo fields and, wherever the offsets say, the strings. *)
Definition info_in (section : bytes) (i : link_info) : Prop :=
  fits32 (i_size i) /\ fits32 (i_header i) /\ fits32 (i_flags i) /\ fits32 (i_volume_at i) /\ fits32 (i_network_at i)
  /\ (0x24 <= i_header i <-> i_wide i <> None)
  /\ holds section 0 (encode_info i)
  /\ slot_in false section 0 (i_base i) /\ slot_in false section 0 (i_suffix i)
  /\ match i_wide i with Some (b, s) => slot_in true section 0 b /\ slot_in true section 0 s | None => True end.

(** The entries of a report for a string. *)
Definition slot_entry (unicode : bool) (cp : cp_arg) (key : string) (s : slot) : dict :=
  match s with Some (_, body) => [(key, PStr (stored_text unicode cp body))] | None => [] end.
Definition wide_entries (offset_key key : string) (s : slot) : dict :=
  match s with Some (off, body) => [(offset_key, PN off); (key, PStr (wide_text body))] | None => [] end.
(** C39: read from four bytes behind the offset, so [raw] is needed. *)
Definition wide_suffix_entries (raw : bytes) (s : slot) : dict :=
  match s with
  | Some (off, _) => [("common_path_suffix_offset_unicode", PN off);
                      ("common_path_suffix_unicode", PStr (wide_text (dropN (off + 4) raw)))]
  | None => []
  end.
Definition info_report (cp : cp_arg) (raw : bytes) (i : link_info) : dict :=
  [("link_info_size", PN (i_size i)); ("link_info_header_size", PN (i_header i)); ("link_info_flags", PN (i_flags i));
   ("volume_id_offset", PN (i_volume_at i)); ("local_base_path_offset", PN (at_offset (i_base i)));
   ("common_network_relative_link_offset", PN (i_network_at i));
   ("common_path_suffix_offset", PN (at_offset (i_suffix i)))]
  ++ slot_entry false cp "local_base_path" (i_base i)
  ++ slot_entry false cp "common_path_suffix" (i_suffix i)
  ++ match i_wide i with
     | Some (b, s) => wide_entries "local_base_path_offset_unicode" "local_base_path_unicode" b ++ wide_suffix_entries raw s
     | None => []
     end.

(** 2.3.1 VolumeID. The label is a code-page string, or - announced by a label offset of
    0x14 - a Unicode string. *)
Inductive label := PageLabel (off : N) (body : bytes) | WideLabel (s : slot).
Record volume := Volume { v_size : N; v_type : N; v_serial : N; v_label : label }.
Definition encode_volume (v : volume) : bytes :=
  enc32 (v_size v) ++ enc32 (v_type v) ++ enc32 (v_serial v)
  ++ match v_label v with PageLabel off _ => enc32 off | WideLabel s => enc32 0x14 ++ enc32 (at_offset s) end.
Definition volume_in (section : bytes) (at_ : N) (v : volume) : Prop :=
  fits32 (v_size v) /\ fits32 (v_type v) /\ fits32 (v_serial v)
  /\ holds section at_ (encode_volume v)
  /\ match v_label v with
     | PageLabel off body => fits32 off /\ off <> 0x14 /\ ~ In x00 body /\ holds section (at_ + off) (zstring false body)
     | WideLabel s => slot_in true section at_ s
     end.
Definition volume_report (cp : cp_arg) (v : volume) : dict :=
  [("volume_id_size", PN (v_size v)); ("r_drive_type", PN (v_type v));
   ("volume_label_offset", PN (match v_label v with PageLabel off _ => off | WideLabel _ => 0x14 end));
   ("drive_serial_number", PStr (hex_text (v_serial v)));
   ("drive_type", POpt PS (drive_name (v_type v)));
   ("volume_label", match v_label v with PageLabel _ body => PStr (field_text cp body) | WideLabel _ => PNone end)]
  ++ match v_label v with
     | WideLabel s => wide_entries "volume_label_unicode_offset" "volume_label_unicode" s
     | PageLabel _ _ => []
     end.

(** 2.3.2 CommonNetworkRelativeLink. The names are code-page strings, or - announced by a
    NetNameOffset above 0x14 - they are present as Unicode strings too, which are then the ones
    reported. *)
Inductive names :=
| PageNames (name_at : N) (name : bytes) (device_at : N) (device : bytes)
| WideNames (name_at device_at : N) (name device : slot).
Record network := NetworkLink { n_size : N; n_flags : N; n_provider : N; n_names : names }.
Definition encode_network (n : network) : bytes :=
  enc32 (n_size n) ++ enc32 (n_flags n)
  ++ match n_names n with
     | PageNames na _ da _ => enc32 na ++ enc32 da ++ enc32 (n_provider n)
     | WideNames na da wn wd => enc32 na ++ enc32 da ++ enc32 (n_provider n) ++ enc32 (at_offset wn) ++ enc32 (at_offset wd)
     end.
Definition network_in (section : bytes) (at_ : N) (n : network) : Prop :=
  fits32 (n_size n) /\ fits32 (n_flags n) /\ fits32 (n_provider n)
  /\ holds section at_ (encode_network n)
  /\ match n_names n with
     | PageNames na name da device =>
       na <= 20 /\ fits32 da /\ ~ In x00 name /\ ~ In x00 device
       /\ holds section (at_ + na) (zstring false name) /\ holds section (at_ + da) (zstring false device)
     | WideNames na da wn wd => 20 < na /\ fits32 na /\ fits32 da /\ slot_in true section at_ wn /\ slot_in true section at_ wd
     end.
(** Empty names are not reported. *)
Definition name_entry (key : string) (t : text) : dict := entry_if (nonempty t) [(key, PStr t)].
Definition network_report (cp : cp_arg) (n : network) : dict :=
  [("common_network_relative_link_size", PN (n_size n)); ("common_network_relative_link_flags", PN (n_flags n));
   ("net_name_offset", PN (match n_names n with PageNames na _ _ _ | WideNames na _ _ _ => na end));
   ("device_name_offset", PN (match n_names n with PageNames _ _ da _ | WideNames _ da _ _ => da end));
   ("r_network_provider_type", PStr (hex_text (n_provider n)))]
  ++ (if N.testbit (n_flags n) 1 then
        match known_provider (n_provider n) with Some s => [("network_provider_type", PS s)] | None => [] end
      else [])
  ++ match n_names n with
     | PageNames _ name _ device =>
       name_entry "net_name" (field_text cp name) ++ name_entry "device_name" (field_text cp device)
     | WideNames _ _ wn wd =>
       wide_entries "net_name_offset_unicode" "net_name_unicode" wn
       ++ wide_entries "device_name_offset_unicode" "device_name_unicode" wd
     end.

(** A complete LinkInfo of either variant. *)
Inductive location := LocalAt (v : volume) | NetworkAt (n : network).
Definition located (section : bytes) (i : link_info) (loc : location) : Prop :=
  info_in section i
  /\ match loc with
     | LocalAt v => N.testbit (i_flags i) 0 = true /\ volume_in section (i_volume_at i) v
     | NetworkAt n => N.testbit (i_flags i) 0 = false /\ N.testbit (i_flags i) 1 = true /\ network_in section (i_network_at i) n
     end.
Definition location_report (cp : cp_arg) (raw : bytes) (i : link_info) (loc : location) : dict :=
  info_report cp raw i
  ++ match loc with
     | LocalAt v => [("location_info", PDict (volume_report cp v)); ("location", PS "Local")]
     | NetworkAt n => [("location_info", PDict (network_report cp n)); ("location", PS "Network")]
     end.

(** What a report says about the LinkInfo. *)
Definition reported_info (d : dict) : option dict :=
  match dget "link_info" d with Some (PDict i) => Some i | _ => None end.
Definition reported_location_info (d : dict) : option dict :=
  match reported_info d with
  | Some i => match dget "location_info" i with Some (PDict e) => Some e | _ => None end
  | None => None
  end.
