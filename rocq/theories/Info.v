(** * lnk_info.py, info_factory.py, info/local.py, info/network.py

    A LinkInfo object is represented by its [_raw] bytes (which extend to the end of the
    file, as in the code). *)
From Verif Require Import Py Codec.

Definition u32_at (off : N) (raw : bytes) : M N := unpack_u32 (slice off (off + 4) raw).

(** ** lnk_info.py *)

(** lnk_info.py:60-68 [size] *)
Definition info_size (raw : bytes) : M N := u32_at 0 raw.
(** lnk_info.py:70-86 [header_size] *)
Definition info_header_size (raw : bytes) : M N := u32_at 4 raw.
(** lnk_info.py:88-95 [flags] *)
Definition info_flags (raw : bytes) : M N := u32_at 8 raw.
(** lnk_info.py:97-105 [volume_id_offset] *)
Definition volume_id_offset (raw : bytes) : M N := u32_at 12 raw.
(** lnk_info.py:107-115 [local_base_path_offset] *)
Definition local_base_path_offset (raw : bytes) : M N := u32_at 16 raw.
(** lnk_info.py:117-126 [common_network_relative_link_offset] *)
Definition common_network_relative_link_offset (raw : bytes) : M N := u32_at 20 raw.
(** lnk_info.py:128-135 [common_path_suffix_offset] *)
Definition common_path_suffix_offset (raw : bytes) : M N := u32_at 24 raw.
(** lnk_info.py:137-141 [_has_opt_fields] *)
Definition has_opt_fields (raw : bytes) : M bool := n <- info_header_size raw ;; ret (0x24 <=? n).
(** lnk_info.py:143-156 [common_path_suffix] *)
Definition common_path_suffix (cp : cp_arg) (raw : bytes) : M (option text) :=
  o <- common_path_suffix_offset raw ;;
  if o =? 0 then ret None
  else
    start <- common_path_suffix_offset raw ;;
    t <- read_string cp (dropN start raw) ;; ret (Some t).
(** lnk_info.py:158-171 [local_base_path_offset_unicode] *)
Definition local_base_path_offset_unicode (raw : bytes) : M (option N) :=
  b <- has_opt_fields raw ;;
  if b : bool then n <- u32_at 28 raw ;; ret (Some n) else ret None.
(** lnk_info.py:173-185 [common_path_suffix_offset_unicode] *)
Definition common_path_suffix_offset_unicode (raw : bytes) : M (option N) :=
  b <- has_opt_fields raw ;;
  if b : bool then n <- u32_at 32 raw ;; ret (Some n) else ret None.
(** lnk_info.py:187-201 [local_base_path] *)
Definition local_base_path (cp : cp_arg) (raw : bytes) : M (option text) :=
  o <- local_base_path_offset raw ;;
  if o =? 0 then ret None
  else
    start <- local_base_path_offset raw ;;
    t <- read_string cp (dropN start raw) ;; ret (Some t).

(** [bool(x)] for an optional number. *)
Definition truthyN (o : option N) : bool := match o with Some n => negb (n =? 0) | None => false end.
Definition valN (o : option N) : N := match o with Some n => n | None => 0 end.

(** lnk_info.py:212-227 [local_base_path_unicode] *)
Definition local_base_path_unicode (raw : bytes) : M (option text) :=
  o <- local_base_path_offset_unicode raw ;;
  if truthyN o then
    start <- local_base_path_offset_unicode raw ;;
    t <- read_unicode_string (dropN (valN start) raw) ;; ret (Some t)
  else ret None.
(** lnk_info.py:229-245 [common_path_suffix_unicode] *)
Definition common_path_suffix_unicode (raw : bytes) : M (option text) :=
  o <- common_path_suffix_offset_unicode raw ;;
  if truthyN o then
    start <- common_path_suffix_offset_unicode raw ;;
    t <- read_unicode_string (dropN (valN start + 4) raw) ;; ret (Some t)
  else ret None.

(** ** info_factory.py *)

Inductive info_kind := Local | Network.

(** info_factory.py:12-26 and 28-36 *)
Definition volume_id_and_local_base_path (raw : bytes) : M bool :=
  f <- info_flags raw ;; ret (negb (N.land f 0x0001 =? 0)).
Definition common_network_relative_link_and_path_suffix (raw : bytes) : M bool :=
  f <- info_flags raw ;; ret (negb (N.land f 0x0002 =? 0)).

(** info_factory.py:38-47 [info_class] *)
Definition info_class (raw : bytes) : M (option info_kind) :=
  try_except
    (b <- volume_id_and_local_base_path raw ;;
     if b : bool then ret (Some Local)
     else
       b <- common_network_relative_link_and_path_suffix raw ;;
       if b : bool then ret (Some Network) else ret None)
    is_struct_error
    (warn WInfoClass ;;; ret None).

(** ** info/local.py *)

(** info/local.py:27-35 *)
Definition DRIVE_TYPES : list string :=
  ["DRIVE_UNKNOWN"; "DRIVE_NO_ROOT_DIR"; "DRIVE_REMOVABLE"; "DRIVE_FIXED"; "DRIVE_REMOTE";
   "DRIVE_CDROM"; "DRIVE_RAMDISK"].
(** info/local.py:40-43 [volume_id_size] *)
Definition volume_id_size (raw : bytes) : M N := o <- volume_id_offset raw ;; u32_at o raw.
(** info/local.py:45-48 [r_drive_type] *)
Definition r_drive_type (raw : bytes) : M N := o <- volume_id_offset raw ;; u32_at (o + 4) raw.
(** info/local.py:50-54 [drive_serial_number] *)
Definition drive_serial_number (raw : bytes) : M text :=
  o <- volume_id_offset raw ;; n <- u32_at (o + 8) raw ;; ret (hex_text n).
(** info/local.py:56-59 [volume_label_offset] *)
Definition volume_label_offset (raw : bytes) : M N := o <- volume_id_offset raw ;; u32_at (o + 12) raw.
(** info/local.py:61-64 [drive_type] *)
Definition drive_type (raw : bytes) : M (option string) :=
  n <- r_drive_type raw ;;
  if n <? lenN DRIVE_TYPES then m <- r_drive_type raw ;; ret (nth_error DRIVE_TYPES (N.to_nat m))
  else ret None.
(** info/local.py:66-67 [_has_volume_label_offset_unicode] *)
Definition has_volume_label_offset_unicode (raw : bytes) : M bool :=
  n <- volume_label_offset raw ;; ret (n =? 0x14).
(** info/local.py:69-77 [volume_label] *)
Definition volume_label (cp : cp_arg) (raw : bytes) : M (option text) :=
  b <- has_volume_label_offset_unicode raw ;;
  if b : bool then ret None
  else
    o <- volume_id_offset raw ;;
    l <- volume_label_offset raw ;;
    t <- read_string cp (dropN (o + l) raw) ;; ret (Some t).
(** info/local.py:79-85 [volume_label_unicode_offset] *)
Definition volume_label_unicode_offset (raw : bytes) : M (option N) :=
  b <- has_volume_label_offset_unicode raw ;;
  if b : bool then o <- volume_id_offset raw ;; n <- u32_at (o + 16) raw ;; ret (Some n)
  else ret None.
(** info/local.py:87-95 [volume_label_unicode] *)
Definition volume_label_unicode (raw : bytes) : M (option text) :=
  l <- volume_label_unicode_offset raw ;;
  if truthyN l then
    o <- volume_id_offset raw ;;
    l <- volume_label_unicode_offset raw ;;
    t <- read_unicode_string (dropN (o + valN l) raw) ;; ret (Some t)
  else ret None.

(** ** info/network.py *)

(** info/network.py:40-82 *)
Definition NETWORK_PROVIDER_TYPES : list (string * string) :=
  [("0x1A000", "WNNC_NET_AVID"); ("0x1B000", "WNNC_NET_DOCUSPACE"); ("0x1C000", "WNNC_NET_MANGOSOFT");
   ("0x1D000", "WNNC_NET_SERNET"); ("0X1E000", "WNNC_NET_RIVERFRONT1"); ("0x1F000", "WNNC_NET_RIVERFRONT2");
   ("0x20000", "WNNC_NET_DECORB"); ("0x21000", "WNNC_NET_PROTSTOR"); ("0x22000", "WNNC_NET_FJ_REDIR");
   ("0x23000", "WNNC_NET_DISTINCT"); ("0x24000", "WNNC_NET_TWINS"); ("0x25000", "WNNC_NET_RDR2SAMPLE");
   ("0x26000", "WNNC_NET_CSC"); ("0x27000", "WNNC_NET_3IN1"); ("0x29000", "WNNC_NET_EXTENDNET");
   ("0x2A000", "WNNC_NET_STAC"); ("0x2B000", "WNNC_NET_FOXBAT"); ("0x2C000", "WNNC_NET_YAHOO");
   ("0x2D000", "WNNC_NET_EXIFS"); ("0x2E000", "WNNC_NET_DAV"); ("0x2F000", "WNNC_NET_KNOWARE");
   ("0x30000", "WNNC_NET_OBJECT_DIRE"); ("0x31000", "WNNC_NET_MASFAX"); ("0x32000", "WNNC_NET_HOB_NFS");
   ("0x33000", "WNNC_NET_SHIVA"); ("0x34000", "WNNC_NET_IBMAL"); ("0x35000", "WNNC_NET_LOCK");
   ("0x36000", "WNNC_NET_TERMSRV"); ("0x37000", "WNNC_NET_SRT"); ("0x38000", "WNNC_NET_QUINCY");
   ("0x39000", "WNNC_NET_OPENAFS"); ("0X3A000", "WNNC_NET_AVID1"); ("0x3B000", "WNNC_NET_DFS");
   ("0x3C000", "WNNC_NET_KWNP"); ("0x3D000", "WNNC_NET_ZENWORKS"); ("0x3E000", "WNNC_NET_DRIVEONWEB");
   ("0x3F000", "WNNC_NET_VMWARE"); ("0x40000", "WNNC_NET_RSFX"); ("0x41000", "WNNC_NET_MFILES");
   ("0x42000", "WNNC_NET_MS_NFS"); ("0x43000", "WNNC_NET_GOOGLE")].

(** info/network.py:87-90 [common_network_relative_link_size] *)
Definition cnrl_size (raw : bytes) : M N := o <- common_network_relative_link_offset raw ;; u32_at o raw.
(** info/network.py:92-95 [common_network_relative_link_flags] *)
Definition cnrl_flags (raw : bytes) : M N :=
  o <- common_network_relative_link_offset raw ;; u32_at (o + 4) raw.
(** info/network.py:97-100 [net_name_offset] *)
Definition net_name_offset (raw : bytes) : M N :=
  o <- common_network_relative_link_offset raw ;; u32_at (o + 8) raw.
(** info/network.py:102-105 [device_name_offset] *)
Definition device_name_offset (raw : bytes) : M N :=
  o <- common_network_relative_link_offset raw ;; u32_at (o + 12) raw.
(** info/network.py:107-111 [r_network_provider_type] *)
Definition r_network_provider_type (raw : bytes) : M text :=
  o <- common_network_relative_link_offset raw ;; n <- u32_at (o + 16) raw ;; ret (hex_text n).

(** Look-up in a table keyed by strings. *)
Fixpoint assoc_text (k : text) (t : list (string * string)) : option string :=
  match t with
  | [] => None
  | (k', v) :: r => if text_eqb k (s2t k') then Some v else assoc_text k r
  end.

(** info/network.py:113-119 [network_provider_type] *)
Definition network_provider_type (raw : bytes) : M (option string) :=
  f <- cnrl_flags raw ;;
  if N.land f 0x0002 =? 0 then ret None
  else t <- r_network_provider_type raw ;; ret (assoc_text t NETWORK_PROVIDER_TYPES).
(** info/network.py:121-126 [net_name_offset_unicode] *)
Definition net_name_offset_unicode (raw : bytes) : M (option N) :=
  n <- net_name_offset raw ;;
  if n <=? 20 then ret None
  else o <- common_network_relative_link_offset raw ;; v <- u32_at (o + 20) raw ;; ret (Some v).
(** info/network.py:128-137 [net_name_unicode] *)
Definition net_name_unicode (raw : bytes) : M (option text) :=
  n <- net_name_offset raw ;;
  if n <=? 20 then ret None
  else
    o <- common_network_relative_link_offset raw ;;
    v <- net_name_offset_unicode raw ;;
    t <- read_unicode_string (dropN (o + valN v) raw) ;; ret (Some t).
(** info/network.py:139-144 [device_name_offset_unicode] *)
Definition device_name_offset_unicode (raw : bytes) : M (option N) :=
  n <- net_name_offset raw ;;
  if n <=? 20 then ret None
  else o <- common_network_relative_link_offset raw ;; v <- u32_at (o + 24) raw ;; ret (Some v).
(** info/network.py:146-155 [device_name_unicode] *)
Definition device_name_unicode (raw : bytes) : M (option text) :=
  n <- net_name_offset raw ;;
  if n <=? 20 then ret None
  else
    o <- common_network_relative_link_offset raw ;;
    v <- device_name_offset_unicode raw ;;
    t <- read_unicode_string (dropN (o + valN v) raw) ;; ret (Some t).
(** info/network.py:157-166 [net_name] *)
Definition net_name (cp : cp_arg) (raw : bytes) : M (option text) :=
  n <- net_name_offset raw ;;
  if 20 <? n then ret None
  else
    o <- common_network_relative_link_offset raw ;;
    n <- net_name_offset raw ;;
    t <- read_string cp (dropN (o + n) raw) ;; ret (Some t).
(** info/network.py:168-177 [device_name] *)
Definition device_name (cp : cp_arg) (raw : bytes) : M (option text) :=
  n <- net_name_offset raw ;;
  if 20 <? n then ret None
  else
    o <- common_network_relative_link_offset raw ;;
    d <- device_name_offset raw ;;
    t <- read_string cp (dropN (o + d) raw) ;; ret (Some t).
