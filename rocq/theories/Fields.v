(** * Asking a link for a single field

    The public methods of a link and of its parts that read one field: they can be called one by one, also of a file of
    which no report can be made. Each constructor names one method; [ask] is the call. *)
From Verif Require Import Py PyTime Codec Utils Header StringData Targets Info Extra LnkFile Report.

(** lnk_file.py:36-61 *)
Inductive predicate :=
| HasRelativePath | HasArguments | IsUnicode | HasName | HasWorkingDir | HasIconLocation | HasTargetIdList | HasLinkInfo
| ForceNoLinkInfo.
Definition flag_of (p : predicate) : string :=
  match p with
  | HasRelativePath => "HasRelativePath" | HasArguments => "HasArguments" | IsUnicode => "IsUnicode" | HasName => "HasName"
  | HasWorkingDir => "HasWorkingDir" | HasIconLocation => "HasIconLocation" | HasTargetIdList => "HasTargetIDList"
  | HasLinkInfo => "HasLinkInfo" | ForceNoLinkInfo => "ForceNoLinkInfo"
  end.

(** lnk_header.py:304-495: the methods of [lnk.header] *)
Inductive header_method :=
| HSize | HLinkClsId | HGuid | HRawLinkFlags | HLinkFlags | HRawFileFlags | HFileFlags | HCreationTime | HAccessTime | HWriteTime
| HFileSize | HIconIndex | HWindowStyle | HHotKey | HRawHotKey | HReserved0 | HReserved1 | HReserved2.
(** lnk_header.py:304-495; [guid] (323-324) calls [link_cls_id]. *)
Definition ask_header (h : bytes) (m : header_method) : M pyval :=
  match m with
  | HSize => n <- header_size h ;; ret (PN n)
  | HLinkClsId | HGuid => t <- link_cls_id h ;; ret (PStr t)
  | HRawLinkFlags => n <- r_link_flags h ;; ret (PN n)
  | HLinkFlags => l <- link_flags h ;; ret (PList (map PS l))
  | HRawFileFlags => n <- r_file_flags h ;; ret (PN n)
  | HFileFlags => l <- file_flags h ;; ret (PList (map PS l))
  | HCreationTime => t <- creation_time h ;; ret (POpt PDate t)
  | HAccessTime => t <- access_time h ;; ret (POpt PDate t)
  | HWriteTime => t <- write_time h ;; ret (POpt PDate t)
  | HFileSize => n <- file_size h ;; ret (PN n)
  | HIconIndex => n <- icon_index h ;; ret (PInt n)
  | HWindowStyle => s <- window_style h ;; ret (PS s)
  | HHotKey => t <- hot_key h ;; ret (PStr t)
  | HRawHotKey => n <- raw_hot_key h ;; ret (PN n)
  | HReserved0 => n <- reserved0 h ;; ret (PN n)
  | HReserved1 => n <- reserved1 h ;; ret (PN n)
  | HReserved2 => n <- reserved2 h ;; ret (PN n)
  end.

(** The methods of [lnk.info]: those of both classes, those of Local, those of Network. *)
Inductive info_method :=
| ISize | IHeaderSize | IFlags | IVolumeIdOffset | ILocalBasePathOffset | INetworkOffset | ISuffixOffset
| ISuffix | IBaseOffsetUnicode | ISuffixOffsetUnicode | IBase | INetworkLink | IBaseUnicode | ISuffixUnicode | ILocation.
Inductive local_method :=
| LVolumeIdSize | LRawDriveType | LSerial | LLabelOffset | LDriveType | LLabel | LLabelUnicodeOffset | LLabelUnicode.
Inductive network_method :=
| NSize | NFlags | NNameOffset | NDeviceOffset | NRawProvider | NProvider | NNameOffsetUnicode | NNameUnicode
| NDeviceOffsetUnicode | NDeviceUnicode | NName | NDevice.
(** lnk_info.py:60-245; [common_network_relative_link] (203-210) returns nothing; info/local.py:37-38 and
    info/network.py:84-85 [location] *)
Definition ask_info (cp : cp_arg) (k : info_kind) (raw : bytes) (m : info_method) : M pyval :=
  match m with
  | ISize => n <- info_size raw ;; ret (PN n)
  | IHeaderSize => n <- info_header_size raw ;; ret (PN n)
  | IFlags => n <- info_flags raw ;; ret (PN n)
  | IVolumeIdOffset => n <- volume_id_offset raw ;; ret (PN n)
  | ILocalBasePathOffset => n <- local_base_path_offset raw ;; ret (PN n)
  | INetworkOffset => n <- common_network_relative_link_offset raw ;; ret (PN n)
  | ISuffixOffset => n <- common_path_suffix_offset raw ;; ret (PN n)
  | ISuffix => t <- common_path_suffix cp raw ;; ret (POpt PStr t)
  | IBaseOffsetUnicode => o <- local_base_path_offset_unicode raw ;; ret (POpt PN o)
  | ISuffixOffsetUnicode => o <- common_path_suffix_offset_unicode raw ;; ret (POpt PN o)
  | IBase => t <- local_base_path cp raw ;; ret (POpt PStr t)
  | INetworkLink => ret PNone
  | IBaseUnicode => t <- local_base_path_unicode raw ;; ret (POpt PStr t)
  | ISuffixUnicode => t <- common_path_suffix_unicode raw ;; ret (POpt PStr t)
  | ILocation => ret (PS (match k with Local => "Local" | Network => "Network" end))
  end.
(** info/local.py:40-95 *)
Definition ask_local (cp : cp_arg) (raw : bytes) (m : local_method) : M pyval :=
  match m with
  | LVolumeIdSize => n <- volume_id_size raw ;; ret (PN n)
  | LRawDriveType => n <- r_drive_type raw ;; ret (PN n)
  | LSerial => t <- drive_serial_number raw ;; ret (PStr t)
  | LLabelOffset => n <- volume_label_offset raw ;; ret (PN n)
  | LDriveType => s <- drive_type raw ;; ret (POpt PS s)
  | LLabel => t <- volume_label cp raw ;; ret (POpt PStr t)
  | LLabelUnicodeOffset => o <- volume_label_unicode_offset raw ;; ret (POpt PN o)
  | LLabelUnicode => t <- volume_label_unicode raw ;; ret (POpt PStr t)
  end.
(** info/network.py:87-177 *)
Definition ask_network (cp : cp_arg) (raw : bytes) (m : network_method) : M pyval :=
  match m with
  | NSize => n <- cnrl_size raw ;; ret (PN n)
  | NFlags => n <- cnrl_flags raw ;; ret (PN n)
  | NNameOffset => n <- net_name_offset raw ;; ret (PN n)
  | NDeviceOffset => n <- device_name_offset raw ;; ret (PN n)
  | NRawProvider => t <- r_network_provider_type raw ;; ret (PStr t)
  | NProvider => s <- network_provider_type raw ;; ret (POpt PS s)
  | NNameOffsetUnicode => o <- net_name_offset_unicode raw ;; ret (POpt PN o)
  | NNameUnicode => t <- net_name_unicode raw ;; ret (POpt PStr t)
  | NDeviceOffsetUnicode => o <- device_name_offset_unicode raw ;; ret (POpt PN o)
  | NDeviceUnicode => t <- device_name_unicode raw ;; ret (POpt PStr t)
  | NName => t <- net_name cp raw ;; ret (POpt PStr t)
  | NDevice => t <- device_name cp raw ;; ret (POpt PStr t)
  end.

(** The methods of the sections: lnk_targets.py:36-48 and 85-94; string_data.py:60-61 and 95-96; extra_data.py:50-67;
    the attribute [lnk.size] (lnk_file.py:108); lnk_file.py:149-157. *)
Inductive section_method :=
| TargetsSize | IdListSize | TargetsList | StringsSize | StringsDict | ExtrasSize | ExtrasDict | LinkSize | LinkFlagsLine
| FileFlagsLine.

Inductive question :=
| Is (p : predicate) | OfHeader (m : header_method) | OfInfo (m : info_method) | OfLocal (m : local_method)
| OfNetwork (m : network_method) | OfSection (m : section_method).
Inductive answer := Truth (b : bool) | Value (v : pyval).

(** A method call of [None]. *)
Definition of_none {A} : M A := raise AttributeError.
(** The call. [lnk.targets] and [lnk.info] may be [None]; a class without the method raises AttributeError, too. *)
Definition ask (l : lnk) (q : question) : M answer :=
  match q with
  | Is p => b <- has_flag (flag_of p) (l_header l) ;; ret (Truth b)
  | OfHeader m => v <- ask_header (l_header l) m ;; ret (Value v)
  | OfInfo m =>
    match l_info l with Some (k, raw) => v <- ask_info (l_cp l) k raw m ;; ret (Value v) | None => of_none end
  | OfLocal m =>
    match l_info l with
    | Some (Local, raw) => v <- ask_local (l_cp l) raw m ;; ret (Value v)
    | Some (Network, _) => raise AttributeError
    | None => of_none
    end
  | OfNetwork m =>
    match l_info l with
    | Some (Network, raw) => v <- ask_network (l_cp l) raw m ;; ret (Value v)
    | Some (Local, _) => raise AttributeError
    | None => of_none
    end
  | OfSection TargetsSize =>
    match l_targets l with Some t => n <- targets_size (tg_raw t) ;; ret (Value (PN n)) | None => of_none end
  | OfSection IdListSize =>
    match l_targets l with Some t => n <- id_list_size (tg_raw t) ;; ret (Value (PN n)) | None => of_none end
  | OfSection TargetsList =>
    match l_targets l with Some t => items <- targets_as_list (l_cp l) t ;; ret (Value (PList items)) | None => of_none end
  | OfSection StringsSize => ret (Value (PN (sd_size (l_string_data l))))
  | OfSection StringsDict => ret (Value (PDict (string_data_as_dict (l_string_data l))))
  | OfSection ExtrasSize => n <- extras_size (l_extras l) ;; ret (Value (PN n))
  | OfSection ExtrasDict => d <- extras_as_dict (l_cp l) (l_extras l) ;; ret (Value (PDict d))
  | OfSection LinkSize => ret (Value (PN (l_size l)))
  | OfSection LinkFlagsLine => t <- format_linkFlags (l_header l) ;; ret (Value (PStr t))
  | OfSection FileFlagsLine => t <- format_fileFlags (l_header l) ;; ret (Value (PStr t))
  end.
