(** * lnk_header.py: the ShellLinkHeader

    A header object is represented by its [_raw] bytes; each method becomes a function of
    them. *)
From Verif Require Import Py PyTime Utils.

(** lnk_header.py:53-57 *)
Definition WINDOW_STYLES : list (N * string) :=
  [(0x00000001, "SW_SHOWNORMAL");
   (0x00000003, "SW_SHOWMAXIMIZED");
   (0x00000007, "SW_SHOWMINNOACTIVE")].

(** lnk_header.py:59-64 (keyed by the byte's value) *)
Definition HOTKEY_VALUES_HIGH : list (N * string) :=
  [(0x00, "UNSET");
   (0x01, "SHIFT");
   (0x02, "CONTROL");
   (0x04, "ALT")].

(** lnk_header.py:66-130 (keyed by the byte's value) *)
Definition HOTKEY_VALUES_LOW : list (N * string) :=
  [(0x00, "UNSET");
   (0x30, "0");
   (0x31, "1");
   (0x32, "2");
   (0x33, "3");
   (0x34, "4");
   (0x35, "5");
   (0x36, "6");
   (0x37, "7");
   (0x38, "8");
   (0x39, "9");
   (0x41, "A");
   (0x42, "B");
   (0x43, "C");
   (0x44, "D");
   (0x45, "E");
   (0x46, "F");
   (0x47, "G");
   (0x48, "H");
   (0x49, "I");
   (0x4A, "J");
   (0x4B, "K");
   (0x4C, "L");
   (0x4D, "M");
   (0x4E, "N");
   (0x4F, "O");
   (0x50, "P");
   (0x51, "Q");
   (0x52, "R");
   (0x53, "S");
   (0x54, "T");
   (0x55, "U");
   (0x56, "V");
   (0x57, "W");
   (0x58, "X");
   (0x59, "Y");
   (0x5A, "Z");
   (0x70, "F1");
   (0x71, "F2");
   (0x72, "F3");
   (0x73, "F4");
   (0x74, "F5");
   (0x75, "F6");
   (0x76, "F7");
   (0x77, "F8");
   (0x78, "F9");
   (0x79, "F10");
   (0x7A, "F11");
   (0x7B, "F12");
   (0x7C, "F13");
   (0x7D, "F14");
   (0x7E, "F15");
   (0x7F, "F16");
   (0x80, "F17");
   (0x81, "F18");
   (0x82, "F19");
   (0x83, "F20");
   (0x84, "F21");
   (0x85, "F22");
   (0x86, "F23");
   (0x87, "F24");
   (0x90, "NUM_LOCK");
   (0x91, "SCROLL_LOCK")].

(** lnk_header.py:132-233, in the order of [sorted(...items())] *)
Definition LINK_FLAG_MASK : list (N * string) :=
  [(0x00000001, "HasTargetIDList");
   (0x00000002, "HasLinkInfo");
   (0x00000004, "HasName");
   (0x00000008, "HasRelativePath");
   (0x00000010, "HasWorkingDir");
   (0x00000020, "HasArguments");
   (0x00000040, "HasIconLocation");
   (0x00000080, "IsUnicode");
   (0x00000100, "ForceNoLinkInfo");
   (0x00000200, "HasExpString");
   (0x00000400, "RunInSeparateProcess");
   (0x00000800, "Reserved0");
   (0x00001000, "HasDarwinID");
   (0x00002000, "RunAsUser");
   (0x00004000, "HasExpIcon");
   (0x00008000, "NoPidlAlias");
   (0x00010000, "Reserved1");
   (0x00020000, "RunWithShimLayer");
   (0x00040000, "ForceNoLinkTrack");
   (0x00080000, "EnableTargetMetadata");
   (0x00100000, "DisableLinkPathTracking");
   (0x00200000, "DisableKnownFolderTracking");
   (0x00400000, "DisableKnownFolderAlias");
   (0x00800000, "AllowLinkToLink");
   (0x01000000, "UnaliasOnSave");
   (0x02000000, "PreferEnvironmentPath");
   (0x04000000, "KeepLocalIDListForUNCTarget")].

(** lnk_header.py:235-287, in the order of [sorted(...items())] *)
Definition FILE_FLAG_MASK : list (N * string) :=
  [(0x00000001, "FILE_ATTRIBUTE_READONLY");
   (0x00000002, "FILE_ATTRIBUTE_HIDDEN");
   (0x00000004, "FILE_ATTRIBUTE_SYSTEM");
   (0x00000008, "Reserved, not used by the LNK format");
   (0x00000010, "FILE_ATTRIBUTE_DIRECTORY");
   (0x00000020, "FILE_ATTRIBUTE_ARCHIVE");
   (0x00000040, "FILE_ATTRIBUTE_DEVICE");
   (0x00000080, "FILE_ATTRIBUTE_NORMAL");
   (0x00000100, "FILE_ATTRIBUTE_TEMPORARY");
   (0x00000200, "FILE_ATTRIBUTE_SPARSE_FILE");
   (0x00000400, "FILE_ATTRIBUTE_REPARSE_POINT");
   (0x00000800, "FILE_ATTRIBUTE_COMPRESSED");
   (0x00001000, "FILE_ATTRIBUTE_OFFLINE");
   (0x00002000, "FILE_ATTRIBUTE_NOT_CONTENT_INDEXED");
   (0x00004000, "FILE_ATTRIBUTE_ENCRYPTED");
   (0x00008000, "FILE_ATTRIBUTE_INTEGRITY_STREAM");
   (0x00010000, "FILE_ATTRIBUTE_VIRTUAL");
   (0x00020000, "FILE_ATTRIBUTE_NO_SCRUB_DATA")].

(** lnk_header.py:304-312 [size] *)
Definition header_size (raw : bytes) : M N :=
  must_be_N "size" 0x4C (unpack_u32 (slice 0 4 raw)).

(** lnk_header.py:289-302 [__init__] with [indata]; an empty byte string is falsy. The
    result is the object's [_raw]. *)
Definition header_init (indata : bytes) : M bytes :=
  match indata with
  | [] => raise LnkParserError
  | _ => size <- header_size indata ;; ret (takeN size indata)
  end.

(** lnk_header.py:314-321 [link_cls_id] *)
Definition link_cls_id (raw : bytes) : M text :=
  must_be_text "link_cls_id" (s2t "00021401-0000-0000-C000-000000000046") (parse_uuid (slice 4 20 raw)).

(** lnk_header.py:326-333 [r_link_flags] *)
Definition r_link_flags (raw : bytes) : M N := unpack_u32 (slice 20 24 raw).

(** The comprehension of lnk_header.py:343 and 364. *)
Definition flag_names (table : list (N * string)) (flag : N) : list string :=
  map snd (filter (fun e => negb (N.land flag (fst e) =? 0)) table).

(** lnk_header.py:335-343 [link_flags] *)
Definition link_flags (raw : bytes) : M (list string) :=
  flag <- r_link_flags raw ;; ret (flag_names LINK_FLAG_MASK flag).

(** lnk_header.py:345-352 [r_file_flags] *)
Definition r_file_flags (raw : bytes) : M N := unpack_u32 (slice 24 28 raw).

(** lnk_header.py:354-364 [file_flags] *)
Definition file_flags (raw : bytes) : M (list string) :=
  flag <- r_file_flags raw ;; ret (flag_names FILE_FLAG_MASK flag).

(** lnk_header.py:366-374 [creation_time] *)
Definition creation_time (raw : bytes) : M (option datetime) := parse_filetime (slice 28 36 raw).
(** lnk_header.py:376-384 [access_time] *)
Definition access_time (raw : bytes) : M (option datetime) := parse_filetime (slice 36 44 raw).
(** lnk_header.py:386-394 [write_time] *)
Definition write_time (raw : bytes) : M (option datetime) := parse_filetime (slice 44 52 raw).

(** lnk_header.py:396-405 [file_size] *)
Definition file_size (raw : bytes) : M N := unpack_u32 (slice 52 56 raw).

(** lnk_header.py:407-414 [icon_index] *)
Definition icon_index (raw : bytes) : M Z := unpack_i32 (slice 56 60 raw).

(** lnk_header.py:416-439 [window_style]; a negative style is in no table row. *)
Definition window_style (raw : bytes) : M string :=
  style <- unpack_i32 (slice 60 64 raw) ;;
  match (if (style <? 0)%Z then None else assocN (Z.to_N style) WINDOW_STYLES) with
  | Some s => ret s
  | None => ret "SW_SHOWNORMAL"%string
  end.

(** lnk_header.py:441-452 [hot_key] *)
Definition hot_key (raw : bytes) : M text :=
  let hot_key := slice 64 66 raw in
  match hot_key with
  | [b_low; b_high] =>
    match assocN (b2n b_high) HOTKEY_VALUES_HIGH, assocN (b2n b_low) HOTKEY_VALUES_LOW with
    | Some high, Some low =>
      ret (s2t high ++ s2t " - " ++ s2t low ++ s2t " {0x" ++ bytes_hex hot_key ++ s2t "}")
    | _, _ => ret (bytes_hex hot_key)
    end
  | _ => raise StructError
  end.

(** lnk_header.py:454-463 [raw_hot_key] *)
Definition raw_hot_key (raw : bytes) : M N := unpack_u16 (slice 64 66 raw).

(** lnk_header.py:465-473 [reserved0] *)
Definition reserved0 (raw : bytes) : M N := must_be_N "reserved0" 0 (unpack_u16 (slice 66 68 raw)).
(** lnk_header.py:475-484 [reserved1] *)
Definition reserved1 (raw : bytes) : M N := must_be_N "reserved1" 0 (unpack_u32 (slice 68 72 raw)).
(** lnk_header.py:486-495 [reserved2] *)
Definition reserved2 (raw : bytes) : M N := must_be_N "reserved2" 0 (unpack_u32 (slice 72 76 raw)).

(** lnk_file.py:36-61 [has_relative_path] .. [force_no_link_info] *)
Definition has_flag (name : string) (raw : bytes) : M bool :=
  names <- link_flags raw ;; ret (existsb (String.eqb name) names).
