(** * Asking an item or a block for a single field (property C74)

    The public methods of what [for item in lnk.targets] and [for block in lnk.extras] give that read one field, and of
    the objects these methods give in turn. Each constructor names one method; a class that lacks it raises
    AttributeError. [get_item_shell_fs_folder] and [get_sort_index], which take a number, are in Targets.v. *)
From Verif Require Import Py PyTime Codec Utils Targets Extra LnkFile Walk.

(** What a method gives: bytes and truth values do not occur in reports. *)
Inductive reading := Plain (v : pyval) | Raw (b : bytes) | Truth (t : bool).
Definition number_read (m : M N) : M reading := n <- m ;; ret (Plain (PN n)).
Definition name_read (m : M string) : M reading := s <- m ;; ret (Plain (PS s)).
Definition text_read (m : M text) : M reading := t <- m ;; ret (Plain (PStr t)).
Definition value_read (m : M pyval) : M reading := v <- m ;; ret (Plain v).
Definition dict_read (m : M dict) : M reading := d <- m ;; ret (Plain (PDict d)).
Definition no_method : M reading := raise AttributeError.

(** ** Items: target/*.py *)
Inductive item_method :=
| ClassTypeIndicator | HasUnicodeStrings
| Flags | FileSize | ModificationTime | FileAttributeFlags | PrimaryName | SecondaryName | ShellFolderIdentifier
| ContentFlags | Location | Description | Comments
| SortIndexValue | SortIndex | Guid | ExtensionBlock
| VolumeName | VolumeIdentifier
| ControlPanelItemIdentifier
| Signature | CategoryId | Category
| CplFilePath | NameString
| InnerDataSize | FileEntrySize | DelegateClassId | DelegateFolderId.

(** lnk_target_base.py:76-84; every class has these. *)
Definition ask_base (rt : bytes) (m : item_method) : M reading :=
  match m with
  | ClassTypeIndicator => number_read (class_type_indicator rt)
  | HasUnicodeStrings => b <- has_unicode_strings rt ;; ret (Truth b)
  | _ => no_method
  end.
(** shell_fs_folder.py:46-87; [secondary_name] and [shell_folder_identifier] are empty. *)
Definition ask_file_entry (cp : cp_arg) (rt : bytes) (m : item_method) : M reading :=
  match m with
  | Flags => name_read (fs_flags rt)
  | FileSize => number_read (fs_file_size rt)
  | ModificationTime => t <- fs_modification_time rt ;; ret (Plain (POpt PDate t))
  | FileAttributeFlags => number_read (fs_file_attribute_flags rt)
  | PrimaryName => text_read (fs_primary_name cp rt)
  | SecondaryName | ShellFolderIdentifier => ret (Plain PNone)
  | _ => ask_base rt m
  end.
(** network_location.py:56-98; the strings have been read by the constructor. *)
Definition ask_network (t : target) (m : item_method) : M reading :=
  match m with
  | Flags => name_read (nl_flags (t_raw_target t))
  | ContentFlags => number_read (nl_content_flags (t_raw_target t))
  | Location => ret (Plain (PStr (t_location t)))
  | Description => ret (Plain (POpt PStr (t_description t)))
  | Comments => ret (Plain (POpt PStr (t_comments t)))
  | _ => ask_base (t_raw_target t) m
  end.
(** root_folder.py:64-81; [extension_block] calls a method [item_id_size] that no class has. *)
Definition ask_root (rt : bytes) (m : item_method) : M reading :=
  match m with
  | SortIndexValue => number_read (rf_sort_index_value rt)
  | SortIndex => name_read (v <- rf_sort_index_value rt ;; get_sort_index v)
  | Guid => text_read (parse_uuid (slice 2 18 rt))
  | ExtensionBlock => raise AttributeError
  | _ => ask_base rt m
  end.
(** my_computer.py:43-58; decorators.py:28-35: of an item with a name, [parse_uuid] is given None, and None[0:8] is a
    TypeError (utils.py:13). *)
Definition ask_volume (cp : cp_arg) (rt : bytes) (m : item_method) : M reading :=
  match m with
  | Flags => number_read (mc_flags rt)
  | VolumeName =>
    has_name <- mc_has_name rt ;;
    if has_name : bool then text_read (read_string cp (slice 1 21 rt)) else ret (Plain PNone)
  | VolumeIdentifier =>
    has_name <- mc_has_name rt ;;
    if has_name : bool then raise TypeError else text_read (parse_uuid (slice 2 18 rt))
  | _ => ask_base rt m
  end.
(** control_panel.py:26-29 *)
Definition ask_panel (rt : bytes) (m : item_method) : M reading :=
  match m with
  | ControlPanelItemIdentifier => text_read (parse_uuid (slice 14 30 rt))
  | _ => ask_base rt m
  end.
(** control_panel_category.py:45-63 *)
Definition ask_category (rt : bytes) (m : item_method) : M reading :=
  match m with
  | Signature => number_read (unpack_u32 (slice 2 6 rt))
  | CategoryId => number_read (cat_id rt)
  | Category => name_read (cat_category rt)
  | _ => ask_base rt m
  end.
(** control_panel_cpl.py:84-125 *)
Definition ask_cpl (cp : cp_arg) (rt : bytes) (m : item_method) : M reading :=
  match m with
  | Signature => number_read (cpl_signature rt)
  | CplFilePath => text_read (cpl_file_path cp rt)
  | NameString => text_read (cpl_name_string cp rt)
  | Comments => text_read (cpl_comments cp rt)
  | _ => ask_base rt m
  end.
(** users_files_folder.py:41-64 *)
Definition ask_users (rt : bytes) (m : item_method) : M reading :=
  match m with
  | InnerDataSize => number_read (uf_inner_data_size rt)
  | Signature => ret (Raw (slice 4 8 rt))
  | FileEntrySize => number_read (unpack_u16 (slice 8 10 rt))
  | DelegateClassId => text_read (o <- uf_delegate_offset rt ;; parse_uuid (slice o (o + 16) rt))
  | DelegateFolderId => text_read (o <- uf_delegate_offset rt ;; parse_uuid (slice (o + 16) (o + 16 + 16) rt))
  | _ => ask_base rt m
  end.
(** The method of the class of the item; compressed_folder.py, internet.py, printers.py, common_places_folder.py and
    unknown.py add none. *)
Definition ask_method (cp : cp_arg) (t : target) (m : item_method) : M reading :=
  let rt := t_raw_target t in
  match t_class t with
  | ControlPanelCPL => ask_cpl cp rt m
  | ControlPanelCategory => ask_category rt m
  | RootFolder => ask_root rt m
  | MyComputer => ask_volume cp rt m
  | ShellFSFolder => ask_file_entry cp rt m
  | NetworkLocation => ask_network t m
  | ControlPanel => ask_panel rt m
  | UsersFilesFolder => ask_users rt m
  | CompressedFolder | Internet | Printers | CommonPlacesFolder | UnknownTarget => ask_base rt m
  end.

(** [item.m()], or what is asked of [item.file_entry()] (users_files_folder.py:50-51). *)
Inductive entry_question := EntryName | EntrySize | EntryItem | EntryField (m : item_method).
Inductive item_question := Field (m : item_method) | FileEntry (q : entry_question).
Definition ask_item (cp : cp_arg) (t : target) (q : item_question) : M reading :=
  match q with
  | Field m => ask_method cp t m
  | FileEntry q =>
    match t_class t with
    | UsersFilesFolder =>
      entry <- target_init ShellFSFolder cp (dropN 8 (t_raw_target t)) ;;
      match q with
      | EntryName => ret (Plain (PS (target_name (t_class entry))))
      | EntrySize => number_read (target_size (t_raw entry))
      | EntryItem => dict_read (as_item cp entry)
      | EntryField m => ask_method cp entry m
      end
    | _ => no_method
    end
  end.

(** ** Blocks: extra/*.py *)
Inductive block_method :=
| TargetAnsi | TargetUnicode
| FillAttributes | PopupFillAttributes | ScreenBufferSizeX | ScreenBufferSizeY | WindowSizeX | WindowSizeY | WindowOriginX | WindowOriginY
| FontSize | FontFamily | FontWeight | FaceName | CursorSize | FullScreen | QuickEdit | InsertMode | AutoPosition
| HistoryBufferSize | NumberOfHistoryBuffers | HistoryNoDup | ColorTable
| Length | Version | MachineId | DroidVolumeId | DroidFileId | DroidBirthVolumeId | DroidBirthFileId
| CodePageNumber | SpecialFolderId | KnownFolderId | Offset
| DarwinDataAnsi | DarwinDataUnicode | ProductCodeId | FeatureName | ComponentId
| LayerName | StoreSize | IdList | ExtraBytes | AppendedBytes.

(** environment.py:25-37, icon.py:25-37 *)
Definition ask_location (cp : cp_arg) (raw : bytes) (m : block_method) : M reading :=
  match m with
  | TargetAnsi => value_read (str_field cp 8 268 raw)
  | TargetUnicode => value_read (ustr_field 268 788 raw)
  | _ => no_method
  end.
(** console.py:61-146 *)
Definition ask_console (raw : bytes) (m : block_method) : M reading :=
  match m with
  | FillAttributes => value_read (u16_field 8 raw)
  | PopupFillAttributes => value_read (u16_field 10 raw)
  | ScreenBufferSizeX => value_read (i16_field 12 raw)
  | ScreenBufferSizeY => value_read (i16_field 14 raw)
  | WindowSizeX => value_read (i16_field 16 raw)
  | WindowSizeY => value_read (i16_field 18 raw)
  | WindowOriginX => value_read (i16_field 20 raw)
  | WindowOriginY => value_read (i16_field 22 raw)
  | FontSize => value_read (u32_field 32 raw)
  | FontFamily => value_read (u32_field 36 raw)
  | FontWeight => value_read (u32_field 40 raw)
  | FaceName => value_read (ustr_field 44 108 raw)
  | CursorSize => value_read (u32_field 108 raw)
  | FullScreen => value_read (u32_field 112 raw)
  | QuickEdit => value_read (u32_field 116 raw)
  | InsertMode => value_read (u32_field 120 raw)
  | AutoPosition => value_read (u32_field 124 raw)
  | HistoryBufferSize => value_read (u32_field 128 raw)
  | NumberOfHistoryBuffers => value_read (u32_field 132 raw)
  | HistoryNoDup => value_read (u32_field 136 raw)
  | ColorTable => value_read (u32_field 140 raw)
  | _ => no_method
  end.
(** distributed_tracker.py:42-95 *)
Definition ask_tracker (cp : cp_arg) (raw : bytes) (m : block_method) : M reading :=
  match m with
  | Length => number_read (must_be_N "length" 0x58 (unpack_u32 (slice 8 12 raw)))
  | Version => number_read (must_be_N "version" 0 (unpack_u32 (slice 12 16 raw)))
  | MachineId => value_read (str_field cp 16 32 raw)
  | DroidVolumeId => value_read (uuid_field 32 raw)
  | DroidFileId => value_read (uuid_field 48 raw)
  | DroidBirthVolumeId => value_read (uuid_field 64 raw)
  | DroidBirthFileId => value_read (uuid_field 80 raw)
  | _ => no_method
  end.
(** darwin.py:42-89 *)
Definition ask_darwin (cp : cp_arg) (raw : bytes) (m : block_method) : M reading :=
  match m with
  | DarwinDataAnsi => value_read (str_field cp 8 268 raw)
  | DarwinDataUnicode => text_read (darwin_data_unicode raw)
  | ProductCodeId => text_read (product_code_id raw)
  | FeatureName => t <- feature_name raw ;; ret (Plain (POpt PStr t))
  | ComponentId => t <- component_id raw ;; ret (Plain (POpt PStr t))
  | _ => no_method
  end.
(** code_page.py:23-25, special_folder.py:25-31, known_folder.py:27-35, shim_layer.py:22-26, metadata.py:308-310
    [store_size], shell_item.py:57-66 [id_list], unknown.py:17-19 [extra_data], terminal.py:31-33 [appended_data] *)
Definition ask_block_method (cp : cp_arg) (e : extra) (m : block_method) : M reading :=
  let raw := ex_raw e in
  match ex_class e with
  | Environment | Icon => ask_location cp raw m
  | Console => ask_console raw m
  | DistributedTracker => ask_tracker cp raw m
  | Darwin => ask_darwin cp raw m
  | CodePage => match m with CodePageNumber => value_read (u32_field 8 raw) | _ => no_method end
  | SpecialFolder =>
    match m with
    | SpecialFolderId => value_read (u32_field 8 raw)
    | Offset => value_read (u32_field 12 raw)
    | _ => no_method
    end
  | KnownFolder =>
    match m with
    | KnownFolderId => value_read (uuid_field 8 raw)
    | Offset => value_read (u32_field 24 raw)
    | _ => no_method
    end
  | ShimLayer => match m with LayerName => text_read (read_string cp (dropN 8 raw)) | _ => no_method end
  | Metadata => match m with StoreSize => value_read (u32_field 4 raw) | _ => no_method end
  | ShellItem =>
    match m with
    | IdList => size <- base_size raw ;; items <- items_of cp (slice 8 size raw) ;; ret (Plain (PList items))
    | _ => no_method
    end
  | UnknownExtra => match m with ExtraBytes => ret (Raw (dropN 4 raw)) | _ => no_method end
  | Terminal => match m with AppendedBytes => ret (Raw (dropN 4 raw)) | _ => no_method end
  end.

(** What is asked of [block.property_store()]: its length, or its element [i] (metadata.py:312-324). *)
Inductive property_question :=
| ValueSize | PropertyId | NameSize | PropertyName | PropertyDict
| TypedValue | TypedType | TypedPadding.                 (* of [property.value()] *)
Inductive storage_question :=
| StorageSize | StorageVersion | FormatId | StorageDict
| HowManyProperties | Property (j : nat) (q : property_question).
Inductive block_question := BlockField (m : block_method) | HowManyStorages | Storage (i : nat) (q : storage_question).

(** metadata.py:131-151 *)
Definition ask_typed (v : bytes) (q : property_question) : M reading :=
  match q with
  | TypedType => number_read (tv_value_type v)
  | TypedPadding => number_read (tv_value_padding v)
  | _ => value_read (tv_value v)
  end.
(** metadata.py:172-189, 213-239 *)
Definition ask_property (by_name : bool) (raw : bytes) (q : property_question) : M reading :=
  match q with
  | ValueSize => number_read (pv_value_size raw)
  | PropertyId => if by_name then no_method else value_read (u32_field 4 raw)
  | NameSize => if by_name then number_read (sn_name_size raw) else no_method
  | PropertyName =>
    if by_name then text_read (o <- sn_value_offset raw ;; read_unicode_string (slice 9 o raw)) else no_method
  | PropertyDict => dict_read ((if by_name then string_name_dict else integer_name_dict) raw)
  | TypedValue | TypedType | TypedPadding =>
    if by_name then o <- sn_value_offset raw ;; ask_typed (dropN o raw) q else ask_typed (dropN 9 raw) q
  end.
(** metadata.py:263-301; [l[j]] of a list that is too short is an IndexError. *)
Definition ask_storage (raw : bytes) (q : storage_question) : M reading :=
  match q with
  | StorageSize => value_read (u32_field 0 raw)
  | StorageVersion => n <- unpack_u32 (slice 4 8 raw) ;; ret (Plain (PStr (hex_text n)))
  | FormatId => text_read (ps_format_id raw)
  | StorageDict => dict_read (storage_dict raw)
  | HowManyProperties => r <- serialized_property_values raw ;; ret (Plain (PN (lenN (snd r))))
  | Property j q =>
    r <- serialized_property_values raw ;;
    match nth_error (snd r) j with Some p => ask_property (fst r) p q | None => raise IndexError end
  end.
Definition ask_block (cp : cp_arg) (e : extra) (q : block_question) : M reading :=
  match q with
  | BlockField m => ask_block_method cp e m
  | HowManyStorages | Storage _ _ =>
    match ex_class e with
    | Metadata =>
      storages <- sized_suffixes (S (length (ex_raw e))) (dropN 8 (ex_raw e)) ;;
      match q with
      | Storage i q => match nth_error storages i with Some s => ask_storage s q | None => raise IndexError end
      | _ => ret (Plain (PN (lenN storages)))
      end
    | _ => no_method
    end
  end.

(** ** Programs

    What a caller does: a call of Walk.v, or a question to the [k]-th thing that the iterator in [v] has given. *)
Inductive step :=
| Call (c : call)
| AskItem (v k : nat) (q : item_question)
| AskBlock (v k : nat) (q : block_question).
Inductive outcome := Answered (a : answer) | Read (x : reading).

(** The methods change nothing. *)
Definition do_step (l : lnk) (s : variables) (st : step) : variables * option (M outcome) :=
  let cp := l_cp l in
  match st with
  | Call c => let (s', a) := do_call l s c in (s', option_map (fun m => a <- m ;; ret (Answered a)) a)
  | AskItem v k q =>
    (s, match s v with
        | Some (ItemIterator _ got) => option_map (fun t => x <- ask_item cp t q ;; ret (Read x)) (nth_error got k)
        | _ => None
        end)
  | AskBlock v k q =>
    (s, match s v with
        | Some (BlockIterator n) =>
          option_map (fun e => x <- ask_block cp e q ;; ret (Read x)) (nth_error (firstn n (l_extras l)) k)
        | _ => None
        end)
  end.
(** The variables after some steps, and the outcome of the next; the latest step first. *)
Fixpoint after_steps (l : lnk) (h : list step) : variables :=
  match h with
  | [] => fun _ => None
  | st :: h => fst (do_step l (after_steps l h) st)
  end.
Definition happens (l : lnk) (h : list step) (st : step) : option (M outcome) := snd (do_step l (after_steps l h) st).
