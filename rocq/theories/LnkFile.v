(** * lnk_file.py: [LnkFile.__init__], [process] and [get_json] *)
From Verif Require Import Py PyTime Codec Utils Header StringData Targets Info Extra.

(** Where the constructor's data come from: [fhandle] (its [read()] result) or [indata]. *)
Inductive source := FromHandle (content : bytes) | FromBytes (content : bytes).

(** The attributes set by [process]. *)
Record lnk := Lnk {
  l_cp : cp_arg;
  l_header : bytes;                       (* header._raw *)
  l_target_index : N;
  l_targets : option targets;
  l_info : option (info_kind * bytes);    (* class and info._raw *)
  l_string_data : string_data;
  l_extras : list extra;                  (* extras.data *)
  l_size : N }.

(** lnk_file.py:63-102 [process] *)
Definition process (indata : bytes) (cp : cp_arg) (allow_terminal_blocks : bool) : M lnk :=
  (* Parse header *)
  header <- header_init indata ;;
  index <- header_size header ;;
  let target_index := index + 2 in
  (* Parse ID List *)
  has_targets <- has_flag "HasTargetIDList" header ;;
  r <- (if has_targets : bool then
          t <- targets_init (dropN index indata) ;;
          size <- targets_size (tg_raw t) ;;
          ret (Some t, index + size)
        else ret (None, index)) ;;
  let (targets, index) := r in
  (* Parse Link Info *)
  has_info <- (b <- has_flag "HasLinkInfo" header ;;
               if b : bool then f <- has_flag "ForceNoLinkInfo" header ;; ret (negb f)
               else ret false) ;;
  r <- (if has_info : bool then
          let raw := dropN index indata in
          c <- info_class raw ;;
          match c with
          | Some k => size <- info_size raw ;; ret (Some (k, raw), index + size)
          | None => ret (None, index)
          end
        else ret (None, index)) ;;
  let (info, index) := r in
  (* Parse String Data *)
  sd <- string_data_init header cp (dropN index indata) ;;
  let index := index + sd_size sd in
  (* Parse Extra Data *)
  extras <- extra_init allow_terminal_blocks (dropN index indata) ;;
  extras_sz <- extras_size extras ;;
  let index := index + extras_sz in
  (* Add size of the footer if present *)
  let index := index + N.min (lenN (dropN index indata)) 4 in
  ret (Lnk cp header target_index targets info sd extras index).

(** lnk_file.py:25-34 [__init__]: without data [self.indata] does not exist and [process]
    raises AttributeError; an open file handle is truthy. *)
Definition lnk_init (src : source) (cp : cp_arg) (allow_terminal_blocks : bool) : M lnk :=
  match src with
  | FromBytes [] => raise AttributeError
  | FromBytes content | FromHandle content => process content cp allow_terminal_blocks
  end.

(** lnk_file.py:202-220 *)
Definition header_dict (h : bytes) : M dict :=
  fields
    [("guid", t <- link_cls_id h ;; ret (PStr t));
     ("r_link_flags", n <- r_link_flags h ;; ret (PN n));
     ("r_file_flags", n <- r_file_flags h ;; ret (PN n));
     ("creation_time", t <- creation_time h ;; ret (POpt PDate t));
     ("accessed_time", t <- access_time h ;; ret (POpt PDate t));
     ("modified_time", t <- write_time h ;; ret (POpt PDate t));
     ("file_size", n <- file_size h ;; ret (PN n));
     ("icon_index", n <- icon_index h ;; ret (PInt n));
     ("windowstyle", s <- window_style h ;; ret (PS s));
     ("hotkey", t <- hot_key h ;; ret (PStr t));
     ("r_hotkey", n <- raw_hot_key h ;; ret (PN n));
     ("link_flags", l <- link_flags h ;; ret (PList (map PS l)));
     ("file_flags", l <- file_flags h ;; ret (PList (map PS l)));
     ("header_size", n <- header_size h ;; ret (PN n));
     ("reserved0", n <- reserved0 h ;; ret (PN n));
     ("reserved1", n <- reserved1 h ;; ret (PN n));
     ("reserved2", n <- reserved2 h ;; ret (PN n))].

(** lnk_file.py:223-228 *)
Definition target_dict (l : lnk) (t : targets) : M dict :=
  fields
    [("size", n <- id_list_size (tg_raw t) ;; ret (PN n));
     ("items", items <- targets_as_list (l_cp l) t ;; ret (PList items));
     ("index", ret (PN (l_target_index l)))].

(** [if test: rows]: a conditional group of dictionary entries. *)
Definition when (test : M bool) (rows : M dict) : M dict :=
  b <- test ;; if b : bool then rows else ret [].

(** [bool(s)] of an optional string. *)
Definition truthy_text (o : option text) : bool :=
  match o with Some (_ :: _) => true | _ => false end.

(** lnk_file.py:259-282 (Local). [common_network_relative_link()] (lnk_info.py:203-210)
    always returns None, so lines 272-275 add nothing. *)
Definition local_info_dict (cp : cp_arg) (raw : bytes) : M dict :=
  d <- fields
    [("volume_id_size", n <- volume_id_size raw ;; ret (PN n));
     ("r_drive_type", n <- r_drive_type raw ;; ret (PN n));
     ("volume_label_offset", n <- volume_label_offset raw ;; ret (PN n));
     ("drive_serial_number", t <- drive_serial_number raw ;; ret (PStr t));
     ("drive_type", s <- drive_type raw ;; ret (POpt PS s));
     ("volume_label", t <- volume_label cp raw ;; ret (POpt PStr t))] ;;
  d2 <- when (o <- volume_label_unicode_offset raw ;; ret (truthyN o))
    (fields
      [("volume_label_unicode_offset", o <- volume_label_unicode_offset raw ;; ret (POpt PN o));
       ("volume_label_unicode", t <- volume_label_unicode raw ;; ret (POpt PStr t))]) ;;
  ret (d ++ d2).

(** lnk_file.py:285-313 (Network) *)
Definition network_info_dict (cp : cp_arg) (raw : bytes) : M dict :=
  d <- fields
    [("common_network_relative_link_size", n <- cnrl_size raw ;; ret (PN n));
     ("common_network_relative_link_flags", n <- cnrl_flags raw ;; ret (PN n));
     ("net_name_offset", n <- net_name_offset raw ;; ret (PN n));
     ("device_name_offset", n <- device_name_offset raw ;; ret (PN n));
     ("r_network_provider_type", t <- r_network_provider_type raw ;; ret (PStr t))] ;;
  d2 <- when (t <- network_provider_type raw ;; ret (match t with Some _ => true | None => false end))
    (fields [("network_provider_type", t <- network_provider_type raw ;; ret (POpt PS t))]) ;;
  d3 <- when (o <- net_name_offset_unicode raw ;; ret (truthyN o))
    (fields
      [("net_name_offset_unicode", o <- net_name_offset_unicode raw ;; ret (POpt PN o));
       ("net_name_unicode", t <- net_name_unicode raw ;; ret (POpt PStr t))]) ;;
  d4 <- when (o <- device_name_offset_unicode raw ;; ret (truthyN o))
    (fields
      [("device_name_offset_unicode", o <- device_name_offset_unicode raw ;; ret (POpt PN o));
       ("device_name_unicode", t <- device_name_unicode raw ;; ret (POpt PStr t))]) ;;
  d5 <- when (t <- net_name cp raw ;; ret (truthy_text t))
    (fields [("net_name", t <- net_name cp raw ;; ret (POpt PStr t))]) ;;
  d6 <- when (t <- device_name cp raw ;; ret (truthy_text t))
    (fields [("device_name", t <- device_name cp raw ;; ret (POpt PStr t))]) ;;
  ret (d ++ d2 ++ d3 ++ d4 ++ d5 ++ d6).

(** lnk_file.py:232-313. [res["link_info"]["location_info"] = {}] (line 259) is inserted
    before ["location"] and replaced in place. *)
Definition info_dict (cp : cp_arg) (k : info_kind) (raw : bytes) : M dict :=
  d <- fields
    [("link_info_size", n <- info_size raw ;; ret (PN n));
     ("link_info_header_size", n <- info_header_size raw ;; ret (PN n));
     ("link_info_flags", n <- info_flags raw ;; ret (PN n));
     ("volume_id_offset", n <- volume_id_offset raw ;; ret (PN n));
     ("local_base_path_offset", n <- local_base_path_offset raw ;; ret (PN n));
     ("common_network_relative_link_offset", n <- common_network_relative_link_offset raw ;; ret (PN n));
     ("common_path_suffix_offset", n <- common_path_suffix_offset raw ;; ret (PN n))] ;;
  d2 <- when (o <- local_base_path_offset raw ;; ret (negb (o =? 0)))
    (fields [("local_base_path", t <- local_base_path cp raw ;; ret (POpt PStr t))]) ;;
  d3 <- when (o <- common_path_suffix_offset raw ;; ret (negb (o =? 0)))
    (fields [("common_path_suffix", t <- common_path_suffix cp raw ;; ret (POpt PStr t))]) ;;
  d4 <- when (o <- local_base_path_offset_unicode raw ;; ret (truthyN o))
    (fields
      [("local_base_path_offset_unicode", o <- local_base_path_offset_unicode raw ;; ret (POpt PN o));
       ("local_base_path_unicode", t <- local_base_path_unicode raw ;; ret (POpt PStr t))]) ;;
  d5 <- when (o <- common_path_suffix_offset_unicode raw ;; ret (truthyN o))
    (fields
      [("common_path_suffix_offset_unicode", o <- common_path_suffix_offset_unicode raw ;; ret (POpt PN o));
       ("common_path_suffix_unicode", t <- common_path_suffix_unicode raw ;; ret (POpt PStr t))]) ;;
  li <- (match k with Local => local_info_dict cp raw | Network => network_info_dict cp raw end) ;;
  ret (d ++ d2 ++ d3 ++ d4 ++ d5 ++
       [("location_info", PDict li);
        ("location", PS (match k with Local => "Local" | Network => "Network" end))]).

(** lnk_file.py:200-316: the report before pruning *)
Definition full_json (l : lnk) : M dict :=
  h <- header_dict (l_header l) ;;
  t <- (match l_targets l with
        | Some t => d <- target_dict l t ;; ret [("target", PDict d)]
        | None => ret []
        end) ;;
  i <- (match l_info l with
        | Some (k, raw) => info_dict (l_cp l) k raw
        | None => ret []
        end) ;;
  let data := string_data_as_dict (l_string_data l) in
  e <- extras_as_dict (l_cp l) (l_extras l) ;;
  ret ([("size", PN (l_size l)); ("header", PDict h)] ++ t ++
       [("link_info", PDict i); ("data", PDict data); ("extra", PDict e)]).

(** Update of a nested dictionary. *)
Definition on_dict (f : dict -> dict) (v : pyval) : pyval :=
  match v with PDict d => PDict (f d) | v => v end.
Definition pop_all (ks : list string) (d : dict) : dict := fold_left (fun d k => dpop k d) ks d.

(** ["X" in res["link_info"]["location"]] where the location is "Local" or "Network" *)
Definition location_is (s : string) (d : dict) : bool :=
  match dget "location" d with Some (PStr t) => text_eqb t (s2t s) | _ => false end.

(** lnk_file.py:323-335 *)
Definition prune_info (d : dict) : dict :=
  let d := pop_all ["link_info_size"; "link_info_header_size"; "volume_id_offset"; "local_base_path_offset";
                    "common_network_relative_link_offset"; "common_path_suffix_offset"] d in
  let d := if location_is "Local" d
           then dupd "location_info" (on_dict (pop_all ["volume_id_size"; "volume_label_offset"])) d else d in
  if location_is "Network" d
  then dupd "location_info" (on_dict (pop_all ["common_network_relative_link_size"; "net_name_offset";
                                               "device_name_offset"])) d
  else d.

(** lnk_file.py:337-343 (an item is a non-empty dict, hence truthy) *)
Definition prune_target (d : dict) : dict :=
  dupd "items" (fun v => match v with
                         | PList l => PList (map (on_dict (dpop "modification_time")) l)
                         | v => v end)
    (pop_all ["index"; "size"] d).

(** lnk_file.py:318-343 *)
Definition prune (d : dict) : dict :=
  let d := dupd "header" (on_dict (pop_all ["header_size"; "reserved0"; "reserved1"; "reserved2"])) d in
  let d := dupd "link_info" (on_dict prune_info) d in
  if dmem "target" d then dupd "target" (on_dict prune_target) d else d.

(** lnk_file.py:199-345 [get_json] *)
Definition get_json (l : lnk) (get_all : bool) : M dict :=
  res <- full_json l ;; ret (if get_all then res else prune res).
