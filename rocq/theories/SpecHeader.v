(** * Specification of the header's report (C04-C07)

    Names as documented in [MS-SHLLINK] 2.1.1, 2.1.2, 2.1 and 2.1.3; nothing here refers to
    the model of the parser. *)
From Verif Require Import Py Spec.

(** Names of the LinkFlags bits, bit 0 first. *)
Definition link_flag_bits : list string :=
  ["HasTargetIDList"; "HasLinkInfo"; "HasName"; "HasRelativePath"; "HasWorkingDir"; "HasArguments";
   "HasIconLocation"; "IsUnicode"; "ForceNoLinkInfo"; "HasExpString"; "RunInSeparateProcess"; "Reserved0";
   "HasDarwinID"; "RunAsUser"; "HasExpIcon"; "NoPidlAlias"; "Reserved1"; "RunWithShimLayer";
   "ForceNoLinkTrack"; "EnableTargetMetadata"; "DisableLinkPathTracking"; "DisableKnownFolderTracking";
   "DisableKnownFolderAlias"; "AllowLinkToLink"; "UnaliasOnSave"; "PreferEnvironmentPath";
   "KeepLocalIDListForUNCTarget"].
(** Names of the FileAttributes bits, bit 0 first. *)
Definition file_attribute_bits : list string :=
  ["FILE_ATTRIBUTE_READONLY"; "FILE_ATTRIBUTE_HIDDEN"; "FILE_ATTRIBUTE_SYSTEM";
   "Reserved, not used by the LNK format"; "FILE_ATTRIBUTE_DIRECTORY"; "FILE_ATTRIBUTE_ARCHIVE";
   "FILE_ATTRIBUTE_DEVICE"; "FILE_ATTRIBUTE_NORMAL"; "FILE_ATTRIBUTE_TEMPORARY";
   "FILE_ATTRIBUTE_SPARSE_FILE"; "FILE_ATTRIBUTE_REPARSE_POINT"; "FILE_ATTRIBUTE_COMPRESSED";
   "FILE_ATTRIBUTE_OFFLINE"; "FILE_ATTRIBUTE_NOT_CONTENT_INDEXED"; "FILE_ATTRIBUTE_ENCRYPTED";
   "FILE_ATTRIBUTE_INTEGRITY_STREAM"; "FILE_ATTRIBUTE_VIRTUAL"; "FILE_ATTRIBUTE_NO_SCRUB_DATA"].

(** The names of the set bits of [n], in increasing order; [i] is the bit of the first name. *)
Fixpoint set_bits (i : N) (names : list string) (n : N) : list string :=
  match names with
  | [] => []
  | s :: r => (if N.testbit n i then [s] else []) ++ set_bits (i + 1) r n
  end.

(** ShowCommand. *)
Definition show_text (n : N) : string :=
  if n =? 3 then "SW_SHOWMAXIMIZED" else if n =? 7 then "SW_SHOWMINNOACTIVE" else "SW_SHOWNORMAL".

(** HotKeyFlags: the key in the low byte, the modifiers in the high byte. *)
Definition decimal_text (n : N) : text := if n <? 10 then [48 + n] else [48 + n / 10; 48 + n mod 10].
Definition key_text (k : N) : option text :=
  if k =? 0 then Some (s2t "UNSET")
  else if (0x30 <=? k) && (k <=? 0x39) then Some [k]          (* '0'..'9' *)
  else if (0x41 <=? k) && (k <=? 0x5A) then Some [k]          (* 'A'..'Z' *)
  else if (0x70 <=? k) && (k <=? 0x87) then Some (s2t "F" ++ decimal_text (k - 0x6F))
  else if k =? 0x90 then Some (s2t "NUM_LOCK")
  else if k =? 0x91 then Some (s2t "SCROLL_LOCK")
  else None.
Definition modifier_text (m : N) : option text :=
  if m =? 0 then Some (s2t "UNSET")
  else if m =? 1 then Some (s2t "SHIFT")
  else if m =? 2 then Some (s2t "CONTROL")
  else if m =? 4 then Some (s2t "ALT")
  else None.
Definition low_hex_table : text := s2t "0123456789abcdef".
Definition low_hex (b : byte) : text :=
  [nth (N.to_nat (b2n b / 16)) low_hex_table 0; nth (N.to_nat (b2n b mod 16)) low_hex_table 0].
Definition hot_key_text (key mods : byte) : text :=
  let hex := low_hex key ++ low_hex mods in
  match modifier_text (b2n mods), key_text (b2n key) with
  | Some m, Some k => m ++ s2t " - " ++ k ++ s2t " {0x" ++ hex ++ s2t "}"
  | _, _ => hex
  end.

(** The report of a header, given the reported times. *)
Definition names_value (l : list string) : pyval := PList (map PS l).
Definition header_report (h : shell_header) (c a w : option datetime) : dict :=
  [("guid", PStr (guid_text (h_clsid h)));
   ("r_link_flags", PN (h_flags h));
   ("r_file_flags", PN (h_attrs h));
   ("creation_time", POpt PDate c);
   ("accessed_time", POpt PDate a);
   ("modified_time", POpt PDate w);
   ("file_size", PN (h_fsize h));
   ("icon_index", PInt (h_icon h));
   ("windowstyle", PS (show_text (h_show h)));
   ("hotkey", PStr (hot_key_text (h_key h) (h_mods h)));
   ("r_hotkey", PN (b2n (h_key h) + 256 * b2n (h_mods h)));
   ("link_flags", names_value (set_bits 0 link_flag_bits (h_flags h)));
   ("file_flags", names_value (set_bits 0 file_attribute_bits (h_attrs h)));
   ("header_size", PN (h_size h));
   ("reserved0", PN (h_res1 h));
   ("reserved1", PN (h_res2 h));
   ("reserved2", PN (h_res3 h))].

(** The warnings about values the specification prescribes. *)
Definition must_be (field : string) (ok : bool) : list warning := if ok then [] else [WMustBe field].
Definition clsid_warning (h : shell_header) : list warning :=
  must_be "link_cls_id" (text_eqb (guid_text (h_clsid h)) link_clsid_text).
Definition size_warning (h : shell_header) : list warning := must_be "size" (h_size h =? 76).
Definition reserved_warnings (h : shell_header) : list warning :=
  must_be "reserved0" (h_res1 h =? 0) ++ must_be "reserved1" (h_res2 h =? 0) ++ must_be "reserved2" (h_res3 h =? 0).
