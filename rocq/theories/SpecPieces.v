(** * Specification: what the single fields of an item or a block are (property C74)

    The answers are read off the bytes of the item or block. A field is given when its own bytes are there (and those
    of the numbers that lead to it), whatever is wrong with the rest. *)
From Verif Require Import Py PyTime Codec Sha256 LnkFile Spec SpecText SpecHeader SpecTime SpecItems SpecInfo SpecExtra SpecCommand SpecOutcome SpecEntries SpecBlocks SpecFailure SpecRun SpecWalk.
From Verif Require Import Walk Pieces.

(** An answer, with the warnings given before it. *)
Definition reply : Type := list warning * result reading.
Definition simply (v : pyval) : reply := ([], Ok (Plain v)).
Definition fails_with (e : exn) : reply := ([], Err e).
Definition no_such_method : reply := fails_with AttributeError.
(** The first [n] bytes of [f] have to be there. *)
Definition have (n : N) (f : bytes) (r : reply) : reply := if n <=? lenN f then r else fails_with StructError.
Definition number (width off : N) (f : bytes) : reply := have (off + width) f (simply (PN (num width off f))).
Definition signed_number (off : N) (f : bytes) : reply := have (off + 2) f (simply (PInt (signed 16 (num 2 off f)))).
Definition guid_there (off : N) (f : bytes) : reply := have (off + 16) f (simply (PStr (guid_text (slice off (off + 16) f)))).
(** A string in the code page, or in UTF-16, up to its terminator or the end of [s]. *)
Definition string_there (u : bool) (cp : cp_arg) (s : bytes) : reply := (stored_warning u cp s, Ok (Plain (PStr (stored_text u cp s)))).

(** ** Items: [f] are its bytes behind the size, the first is the type *)
Definition common_field (f : bytes) (m : item_method) : reply :=
  match m with
  | ClassTypeIndicator => number 1 0 f
  | HasUnicodeStrings => have 1 f ([], Ok (Truth (N.testbit (num 1 0 f) 2)))
  | _ => no_such_method
  end.
Definition file_field (cp : cp_arg) (f : bytes) (m : item_method) : reply :=
  let ty := num 1 0 f in
  match m with
  | Flags => have 1 f (flags_warning ty, Ok (Plain (PS (flags_text ty))))
  | FileSize => number 4 2 f
  | ModificationTime => have 10 f (fat_warned (num 4 6 f), Ok (Plain (POpt PDate (fat_shown (num 4 6 f)))))
  | FileAttributeFlags => number 2 10 f
  | PrimaryName => have 1 f (string_there (N.testbit ty 2) cp (dropN 12 f))
  | SecondaryName | ShellFolderIdentifier => simply PNone
  | _ => common_field f m
  end.
Definition volume_field (cp : cp_arg) (f : bytes) (m : item_method) : reply :=
  let ty := num 1 0 f in
  match m with
  | Flags => have 1 f (simply (PN (ty mod 16)))
  | VolumeName => have 1 f (if N.testbit ty 0 then string_there false cp (slice 1 21 f) else simply PNone)
  | VolumeIdentifier => have 1 f (if N.testbit ty 0 then fails_with TypeError else guid_there 2 f)
  | _ => common_field f m
  end.
(** The strings of a network location have been read (and warned about) when it was made. *)
Definition network_field (cp : cp_arg) (f : bytes) (m : item_method) : reply :=
  let ty := num 1 0 f in
  match m with
  | Flags => have 1 f (flags_warning ty, Ok (Plain (PS (flags_text ty))))
  | ContentFlags => number 1 2 f
  | Location => simply (PStr (field_text cp (network_location_at f)))
  | Description => simply (POpt PStr (option_map (field_text cp) (network_description f)))
  | Comments => simply (POpt PStr (option_map (field_text cp) (network_comments f)))
  | _ => common_field f m
  end.
Definition cpl_field (cp : cp_arg) (f : bytes) (m : item_method) : reply :=
  match m with
  | Signature => number 4 2 f
  | CplFilePath => string_there (cpl_wide f) cp (cpl_string f 0)
  | NameString => have 8 f (string_there (cpl_wide f) cp (cpl_string f (cpl_name_offset_of f)))
  | Comments =>
    have 10 f (if (cpl_comments_offset_of f =? 0)%N then simply (PStr [])
               else string_there (cpl_wide f) cp (cpl_string f (cpl_comments_offset_of f)))
  | _ => common_field f m
  end.
Definition category_field (f : bytes) (m : item_method) : reply :=
  let id := num 4 6 f in
  match m with
  | Signature => number 4 2 f
  | CategoryId => number 4 6 f
  | Category => have 10 f (unless_known (category_name id) (WCategory id), Ok (Plain (PS (or_unknown (category_name id)))))
  | _ => common_field f m
  end.
Definition root_field (f : bytes) (m : item_method) : reply :=
  let index := num 1 1 f in
  match m with
  | SortIndexValue => number 1 1 f
  | SortIndex => have 2 f (unless_known (sort_name index) (WSortIndex index), Ok (Plain (PS (or_unknown (sort_name index)))))
  | Guid => guid_there 2 f
  | ExtensionBlock => fails_with AttributeError        (* always *)
  | _ => common_field f m
  end.
Definition panel_field (f : bytes) (m : item_method) : reply :=
  match m with ControlPanelItemIdentifier => guid_there 14 f | _ => common_field f m end.
(** The GUIDs lie behind the inner data. *)
Definition users_field (f : bytes) (m : item_method) : reply :=
  match m with
  | InnerDataSize => number 2 2 f
  | Signature => ([], Ok (Raw (slice 4 8 f)))
  | FileEntrySize => number 2 8 f
  | DelegateClassId => guid_there (4 + num 2 2 f) f
  | DelegateFolderId => guid_there (20 + num 2 2 f) f
  | _ => common_field f m
  end.
Definition item_field (cp : cp_arg) (f : bytes) (m : item_method) : reply :=
  let ty := num 1 0 f in
  match ty / 16 mod 8 with
  | 2 => volume_field cp f m
  | 3 => file_field cp f m
  | 4 => network_field cp f m
  | _ =>
    match ty with
    | 0x00 => cpl_field cp f m
    | 0x01 => category_field f m
    | 0x1E | 0x1F => root_field f m
    | 0x70 | 0x71 => panel_field f m
    | 0x74 => users_field f m
    | _ => common_field f m
    end
  end.
(** The file entry in a users files item has its size at 8 and its bytes behind it. *)
Definition file_entry_there (cp : cp_arg) (f : bytes) (q : entry_question) : reply :=
  let inner := slice 10 (10 + num 2 8 f) f in
  have 10 f
    match q with
    | EntryName => simply (PS "File entry")
    | EntrySize => simply (PN (num 2 8 f))
    | EntryItem =>
      if 12 <=? lenN inner then (file_entry_says cp inner, Ok (Plain (PDict (file_entry_of cp inner))))
      else (file_entry_tried inner, Err StructError)
    | EntryField m => file_field cp inner m
    end.
Definition item_says_to (cp : cp_arg) (f : bytes) (q : item_question) : reply :=
  match q with
  | Field m => item_field cp f m
  | FileEntry q => if num 1 0 f =? 0x74 then file_entry_there cp f q else no_such_method
  end.

(** ** Blocks *)
Definition page_there (cp : cp_arg) (s : bytes) : reply := string_there false cp s.
Definition wide_there (s : bytes) : reply := (wide_warning s, Ok (Plain (PStr (wide_text s)))).
Definition console_field (raw : bytes) (m : block_method) : reply :=
  match m with
  | FillAttributes => number 2 8 raw | PopupFillAttributes => number 2 10 raw
  | ScreenBufferSizeX => signed_number 12 raw | ScreenBufferSizeY => signed_number 14 raw
  | WindowSizeX => signed_number 16 raw | WindowSizeY => signed_number 18 raw
  | WindowOriginX => signed_number 20 raw | WindowOriginY => signed_number 22 raw
  | FontSize => number 4 32 raw | FontFamily => number 4 36 raw | FontWeight => number 4 40 raw
  | FaceName => wide_there (slice 44 108 raw)
  | CursorSize => number 4 108 raw | FullScreen => number 4 112 raw | QuickEdit => number 4 116 raw
  | InsertMode => number 4 120 raw | AutoPosition => number 4 124 raw | HistoryBufferSize => number 4 128 raw
  | NumberOfHistoryBuffers => number 4 132 raw | HistoryNoDup => number 4 136 raw | ColorTable => number 4 140 raw
  | _ => no_such_method
  end.
Definition tracker_field (cp : cp_arg) (raw : bytes) (m : block_method) : reply :=
  match m with
  | Length => have 12 raw (must_be "length" (num 4 8 raw =? 88), Ok (Plain (PN (num 4 8 raw))))
  | Version => have 16 raw (must_be "version" (num 4 12 raw =? 0), Ok (Plain (PN (num 4 12 raw))))
  | MachineId => page_there cp (slice 16 32 raw)
  | DroidVolumeId => guid_there 32 raw | DroidFileId => guid_there 48 raw
  | DroidBirthVolumeId => guid_there 64 raw | DroidBirthFileId => guid_there 80 raw
  | _ => no_such_method
  end.
(** Each of the last four decodes the text anew. A packed GUID has twenty characters. *)
Definition unpacked (said : list warning) (t : text) : reply :=
  (said, if 20 <=? lenN t then Ok (Plain (PStr (unpacked_guid t))) else Err IndexError).
Definition darwin_field (cp : cp_arg) (raw : bytes) (m : block_method) : reply :=
  let t := wide_text (slice 268 788 raw) in
  let said := wide_warning (slice 268 788 raw) in
  match m with
  | DarwinDataAnsi => page_there cp (slice 8 268 raw)
  | DarwinDataUnicode => (said, Ok (Plain (PStr t)))
  | ProductCodeId => unpacked said (takeN 20 t)
  | FeatureName =>
    (said, Ok (Plain (match feature_end t with
                      | Some 20 => PNone
                      | Some n => PStr (slice 20 n t)
                      | None => PStr (slice 20 (lenN t - 1) t)
                      end)))
  | ComponentId => match position 62 t with Some n => unpacked said (dropN (n + 1) t) | None => (said, Ok (Plain PNone)) end
  | _ => no_such_method
  end.
(** All but the ID list. *)
Definition block_field (cp : cp_arg) (signature : N) (raw : bytes) (m : block_method) : reply :=
  match signature with
  | 0xA0000001 | 0xA0000007 =>
    match m with TargetAnsi => page_there cp (slice 8 268 raw) | TargetUnicode => wide_there (slice 268 788 raw) | _ => no_such_method end
  | 0xA0000002 => console_field raw m
  | 0xA0000003 => tracker_field cp raw m
  | 0xA0000004 => match m with CodePageNumber => number 4 8 raw | _ => no_such_method end
  | 0xA0000005 => match m with SpecialFolderId => number 4 8 raw | Offset => number 4 12 raw | _ => no_such_method end
  | 0xA0000006 => darwin_field cp raw m
  | 0xA0000008 => match m with LayerName => page_there cp (dropN 8 raw) | _ => no_such_method end
  | 0xA0000009 => match m with StoreSize => number 4 4 raw | _ => no_such_method end
  | 0xA000000B => match m with KnownFolderId => guid_there 8 raw | Offset => number 4 24 raw | _ => no_such_method end
  | 0xA000000C => no_such_method
  | _ => match m with ExtraBytes => ([], Ok (Raw (dropN 4 raw))) | _ => no_such_method end
  end.

(** A typed value [v]: its type and padding are numbers. A value of type 2 is never given: four bytes are wanted where
    two are taken. *)
Definition typed_field (v : bytes) (q : property_question) : reply :=
  match q with
  | TypedType => number 2 0 v
  | TypedPadding => number 2 2 v
  | _ =>
    have 4 v
      (if negb (num 2 2 v =? 0)%N then simply PNone
       else if (num 2 0 v =? 0x02)%N then fails_with StructError
       else if (num 2 0 v =? 0x1F)%N then have 8 v (wide_there (slice 8 (8 + 2 * num 4 4 v) v))
       else simply PNone)
  end.
(** A property, from where it starts to the end of the block. *)
Inductive property_gives (named : bool) (p : bytes) : property_question -> list warning -> result reading -> Prop :=
| gives_value_size said r : (said, r) = number 4 0 p -> property_gives named p ValueSize said r
| gives_id said r : (said, r) = (if named then no_such_method else number 4 4 p) -> property_gives named p PropertyId said r
| gives_name_size said r : (said, r) = (if named then number 4 4 p else no_such_method) -> property_gives named p NameSize said r
| gives_property_name said r :
    (said, r) = (if named then have 8 p (wide_there (slice 9 (9 + num 4 4 p) p)) else no_such_method) ->
    property_gives named p PropertyName said r
| gives_typed q said r :
    In q [TypedValue; TypedType; TypedPadding] ->
    (said, r) = (if named then have 8 p (typed_field (dropN (9 + num 4 4 p) p) q) else typed_field (dropN 9 p) q) ->
    property_gives named p q said r
| gives_property d w : property_at named p d w -> property_gives named p PropertyDict w (Ok (Plain (PDict d)))
| gives_no_property w : property_tried named p w -> property_gives named p PropertyDict w (Err (property_error named p)).
Inductive storage_gives (s : bytes) : storage_question -> list warning -> result reading -> Prop :=
| gives_storage_size said r : (said, r) = number 4 0 s -> storage_gives s StorageSize said r
| gives_version said r : (said, r) = have 8 s (simply (PStr (hex_text (num 4 4 s)))) -> storage_gives s StorageVersion said r
| gives_format said r : (said, r) = guid_there 8 s -> storage_gives s FormatId said r
| gives_storage d w : storage_at s d w -> storage_gives s StorageDict w (Ok (Plain (PDict d)))
| gives_no_storage w e : storage_tried s w -> storage_error s e -> storage_gives s StorageDict w (Err e)
| properties_cut q :
    q = HowManyProperties \/ (exists j pq, q = Property j pq) ->
    lenN s < 24 \/ (forall ps, ~ SpecBlocks.elements (dropN 24 s) ps) -> storage_gives s q [] (Err StructError)
| properties_counted ps :
    24 <= lenN s -> SpecBlocks.elements (dropN 24 s) ps -> storage_gives s HowManyProperties [] (Ok (Plain (PN (lenN ps))))
| property_missing ps j q :
    24 <= lenN s -> SpecBlocks.elements (dropN 24 s) ps -> nth_error ps j = None -> storage_gives s (Property j q) [] (Err IndexError)
| property_asked ps j p q named said r :
    24 <= lenN s -> SpecBlocks.elements (dropN 24 s) ps -> nth_error ps j = Some p ->
    (named = true <-> slice 8 24 s = named_format) -> property_gives named p q said r ->
    storage_gives s (Property j q) said r.
Inductive block_gives (cp : cp_arg) (signature : N) (raw : bytes) : block_question -> list warning -> result reading -> Prop :=
| gives_field m said r :
    signature <> 0xA000000C \/ m <> IdList -> (said, r) = block_field cp signature raw m ->
    block_gives cp signature raw (BlockField m) said r
| gives_id_list entries w :
    signature = 0xA000000C -> entries_listed cp (slice 8 (num 4 0 raw) raw) entries w ->
    block_gives cp signature raw (BlockField IdList) w (Ok (Plain (PList (map PDict entries))))
| gives_no_id_list e w :
    signature = 0xA000000C -> entries_tried cp (slice 8 (num 4 0 raw) raw) e w ->
    block_gives cp signature raw (BlockField IdList) w (Err e)
| no_store q :
    signature <> 0xA0000009 -> (forall m, q <> BlockField m) -> block_gives cp signature raw q [] (Err AttributeError)
| store_is_cut q :
    signature = 0xA0000009 -> (forall m, q <> BlockField m) -> (forall ss, ~ SpecBlocks.elements (dropN 8 raw) ss) ->
    block_gives cp signature raw q [] (Err StructError)
| storages_counted ss :
    signature = 0xA0000009 -> SpecBlocks.elements (dropN 8 raw) ss ->
    block_gives cp signature raw HowManyStorages [] (Ok (Plain (PN (lenN ss))))
| storage_missing ss i q :
    signature = 0xA0000009 -> SpecBlocks.elements (dropN 8 raw) ss -> nth_error ss i = None ->
    block_gives cp signature raw (Storage i q) [] (Err IndexError)
| storage_asked ss i s q said r :
    signature = 0xA0000009 -> SpecBlocks.elements (dropN 8 raw) ss -> nth_error ss i = Some s -> storage_gives s q said r ->
    block_gives cp signature raw (Storage i q) said r.
(** What stands behind the blocks. *)
Inductive part_says (cp : cp_arg) : part -> block_question -> list warning -> result reading -> Prop :=
| of_a_block signature raw q said r : block_gives cp signature raw q said r -> part_says cp (Block signature raw) q said r
| of_the_bytes_behind r : part_says cp (Behind r) (BlockField AppendedBytes) [] (Ok (Raw (dropN 4 r)))
| of_nothing_else r q : q <> BlockField AppendedBytes -> part_says cp (Behind r) q [] (Err AttributeError).

(** ** Steps

    Only calls change what the variables hold. *)
Fixpoint calls (h : list step) : list call :=
  match h with
  | [] => []
  | Call c :: h => c :: calls h
  | _ :: h => calls h
  end.
Definition as_read (r : result reading) : result outcome := match r with Ok x => Ok (Read x) | Err e => Err e end.
Definition as_answered (r : result answer) : result outcome := match r with Ok a => Ok (Answered a) | Err e => Err e end.
Inductive says (b : bytes) (cp : cp_arg) (allow : bool) (h : list step) : step -> list warning -> result outcome -> Prop :=
| says_call c said r : gives b cp allow (calls h) c said r -> says b cp allow h (Call c) said (as_answered r)
| says_item v k q there said r :
    has_item b cp (calls h) v k there -> (said, r) = item_says_to cp (fields_at there) q ->
    says b cp allow h (AskItem v k q) said (as_read r)
| says_block v k q p said r :
    has_part b allow (calls h) v k p -> part_says cp p q said r ->
    says b cp allow h (AskBlock v k q) said (as_read r).

(** ** Reports, made of the single fields

    Which method gives which entry of [as_item()] and [as_dict()], in order; a few are shown in another form. *)
Inductive shown_as := AsIs | InHex | InHex8 | InAscii | AsDigest | AsType.
Definition row (Q : Type) : Type := string * Q * shown_as.
Definition shows (s : shown_as) (x : reading) (v : pyval) : Prop :=
  match s, x with
  | AsIs, Plain v' => v = v'
  | InHex, Plain (PInt z) => v = PStr (hex_text (Z.to_N z))
  | InHex8, Plain (PInt z) => v = PStr (hex32 (Z.to_N z))
  | InAscii, Raw b => v = PStr (ascii_or_replacement b)
  | AsDigest, Raw b => v = PStr (sha256_hex b)
  | AsType, Plain (PInt z) => exists name, In (Z.to_N z, name) type_table /\ v = PS name
  | _, _ => False
  end.
(** All questions in order, up to the first that fails or whose answer cannot be shown (a type without a name). *)
Inductive in_order {Q} (ask : Q -> list warning -> result reading -> Prop) : list (row Q) -> list warning -> result dict -> Prop :=
| no_rows : in_order ask [] [] (Ok [])
| next_row k q s x v rows said d w :
    ask q said (Ok x) -> shows s x v -> in_order ask rows w (Ok d) -> in_order ask ((k, q, s) :: rows) (said ++ w) (Ok ((k, v) :: d))
| next_rows_fail k q s x v rows said e w :
    ask q said (Ok x) -> shows s x v -> in_order ask rows w (Err e) -> in_order ask ((k, q, s) :: rows) (said ++ w) (Err e)
| row_fails k q s rows said e : ask q said (Err e) -> in_order ask ((k, q, s) :: rows) said (Err e)
| row_is_not_shown k q s x rows said :
    ask q said (Ok x) -> (forall v, ~ shows s x v) -> in_order ask ((k, q, s) :: rows) said (Err ValueError).
(** Some entries, and one more that lists as many things as [count] says. *)
Inductive in_order_then {Q} (ask : Q -> list warning -> result reading -> Prop) (rows : list (row Q)) (key : string) (count : Q)
    (each : nat -> Q) : list warning -> result dict -> Prop :=
| rows_fail said e : in_order ask rows said (Err e) -> in_order_then ask rows key count each said (Err e)
| count_fails said d w e :
    in_order ask rows said (Ok d) -> ask count w (Err e) -> in_order_then ask rows key count each (said ++ w) (Err e)
| things_fail said d w n w' e :
    in_order ask rows said (Ok d) -> ask count w (Ok (Plain (PN (N.of_nat n)))) ->
    in_order ask (map (fun i => (key, each i, AsIs)) (seq 0 n)) w' (Err e) ->
    in_order_then ask rows key count each (said ++ w ++ w') (Err e)
| things_shown said d w n w' things :
    in_order ask rows said (Ok d) -> ask count w (Ok (Plain (PN (N.of_nat n)))) ->
    in_order ask (map (fun i => (key, each i, AsIs)) (seq 0 n)) w' (Ok things) ->
    in_order_then ask rows key count each (said ++ w ++ w') (Ok (d ++ [(key, PList (map snd things))])).

Definition item_rows (f : bytes) : list (row item_question) :=
  let ty := num 1 0 f in
  match ty / 16 mod 8 with
  | 2 => [("flags", Field Flags, InHex);
          if N.testbit ty 0 then ("volume_name", Field VolumeName, AsIs) else ("volume_identifier", Field VolumeIdentifier, AsIs)]
  | 3 => [("flags", Field Flags, AsIs); ("file_size", Field FileSize, AsIs); ("modification_time", Field ModificationTime, AsIs);
          ("file_attribute_flags", Field FileAttributeFlags, AsIs); ("primary_name", Field PrimaryName, AsIs)]
  | 4 => [("flags", Field Flags, AsIs); ("content_flags", Field ContentFlags, AsIs); ("location", Field Location, AsIs);
          ("description", Field Description, AsIs); ("comments", Field Comments, AsIs)]
  | _ =>
    match ty with
    | 0x00 => [("signature", Field Signature, InHex8); ("cpl_file_path", Field CplFilePath, AsIs); ("name", Field NameString, AsIs);
               ("comments", Field Comments, AsIs)]
    | 0x01 => [("category_id", Field CategoryId, AsIs); ("category", Field Category, AsIs)]
    | 0x1E | 0x1F => [("sort_index", Field SortIndex, AsIs); ("sort_index_value", Field SortIndexValue, AsIs); ("guid", Field Guid, AsIs)]
    | 0x70 | 0x71 => [("item_identifier", Field ControlPanelItemIdentifier, AsIs)]
    | 0x74 => [("signature", Field Signature, InAscii); ("file_entry", FileEntry EntryItem, AsIs);
               ("delegate_class_id", Field DelegateClassId, AsIs); ("delegate_folder_id", Field DelegateFolderId, AsIs)]
    | _ => []
    end
  end%string.
Definition block_rows (signature : N) : list (row block_question) :=
  match signature with
  | 0xA0000001 | 0xA0000007 => [("target_ansi", BlockField TargetAnsi, AsIs); ("target_unicode", BlockField TargetUnicode, AsIs)]
  | 0xA0000002 =>
    map (fun e => (fst e, BlockField (snd e), AsIs))
      [("fill_attributes", FillAttributes); ("popup_fill_attributes", PopupFillAttributes); ("screen_buffer_size_x", ScreenBufferSizeX);
       ("screen_buffer_size_y", ScreenBufferSizeY); ("window_size_x", WindowSizeX); ("window_size_y", WindowSizeY);
       ("window_origin_x", WindowOriginX); ("window_origin_y", WindowOriginY); ("font_size", FontSize); ("font_family", FontFamily);
       ("font_weight", FontWeight); ("face_name", FaceName); ("cursor_size", CursorSize); ("full_screen", FullScreen);
       ("quick_edit", QuickEdit); ("insert_mode", InsertMode); ("auto_position", AutoPosition); ("history_buffer_size", HistoryBufferSize);
       ("number_of_history_buffers", NumberOfHistoryBuffers); ("history_no_dup", HistoryNoDup); ("color_table", ColorTable)]
  | 0xA0000003 =>
    [("length", BlockField Length, AsIs); ("version", BlockField Version, AsIs); ("machine_identifier", BlockField MachineId, AsIs);
     ("droid_volume_identifier", BlockField DroidVolumeId, AsIs); ("droid_file_identifier", BlockField DroidFileId, AsIs);
     ("birth_droid_volume_identifier", BlockField DroidBirthVolumeId, AsIs);
     ("birth_droid_file_identifier", BlockField DroidBirthFileId, AsIs)]
  | 0xA0000004 => [("code_page", BlockField CodePageNumber, AsIs)]
  | 0xA0000005 => [("special_folder_id", BlockField SpecialFolderId, AsIs); ("offset", BlockField Offset, AsIs)]
  | 0xA0000006 =>
    [("darwin_data_ansi", BlockField DarwinDataAnsi, AsIs); ("darwin_data_unicode", BlockField DarwinDataUnicode, AsIs);
     ("product_code_id", BlockField ProductCodeId, AsIs); ("feature_name", BlockField FeatureName, AsIs);
     ("component_id", BlockField ComponentId, AsIs)]
  | 0xA0000008 => [("layer_name", BlockField LayerName, AsIs)]
  | 0xA0000009 => []                                (* see [in_order_then] *)
  | 0xA000000B => [("known_folder_id", BlockField KnownFolderId, AsIs); ("offset", BlockField Offset, AsIs)]
  | 0xA000000C => [("id_list", BlockField IdList, AsIs)]
  | _ => [("extra_data_sha256", BlockField ExtraBytes, AsDigest)]
  end%string.
Definition part_rows (p : part) : list (row block_question) :=
  match p with
  | Block signature _ => block_rows signature
  | Behind _ => [("appended_data_sha256", BlockField AppendedBytes, AsDigest)]
  end%string.
Definition storage_rows : list (row storage_question) :=
  [("storage_size", StorageSize, AsIs); ("version", StorageVersion, AsIs); ("format_id", FormatId, AsIs)]%string.
Definition property_rows (named : bool) : list (row property_question) :=
  [("value_size", ValueSize, AsIs)]
  ++ (if named then [("name_size", NameSize, AsIs); ("name", PropertyName, AsIs)] else [("id", PropertyId, AsIs)])
  ++ [("value", TypedValue, AsIs); ("value_type", TypedType, AsType)]%string.
(** What comes first in the report of an item. *)
Definition item_head (name : string) (size : N) : dict :=
  ("class", PS name) :: (if String.eqb name "Unknown" then [("size", PN (2 + size))] else [])%string.
(** The report of an item or block is made of what its fields give, and of what stands before them; so is an entry in it. *)
Definition wrapped (f : dict -> dict) (r : result dict) : result outcome :=
  match r with Ok d => Ok (Answered (ADict (f d))) | Err e => Err e end.
Definition nested (r : result dict) : result reading := match r with Ok d => Ok (Plain (PDict d)) | Err e => Err e end.

(** ** The two methods that are given a number

    The name of the flags of an entry: the lowest three bits, and bit 7 where these are zero. (The name for all
    three of them, "Is Unicode share", is never given.) *)
Definition number_flags (n : N) : option string :=
  match N.testbit n 2, N.testbit n 1, N.testbit n 0 with
  | true, _, true => Some "Is Unicode directory" | true, true, false => Some "Is Unicode file"
  | true, false, false => Some "Has Unicode strings"
  | false, true, true => Some "Is share" | false, true, false => Some "Is file" | false, false, true => Some "Is directory"
  | false, false, false => if N.testbit n 7 then Some "Has CLSID" else None
  end%string.
