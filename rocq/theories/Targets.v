(** * target_factory.py, target/*.py and lnk_targets.py *)
From Verif Require Import Py PyTime Codec Utils.

(** The classes of target/*.py. *)
Inductive target_class :=
| ControlPanelCPL | ControlPanelCategory | RootFolder | MyComputer | ShellFSFolder
| NetworkLocation | CompressedFolder | Internet | ControlPanel | Printers
| CommonPlacesFolder | UsersFilesFolder | UnknownTarget.

(** The [self.name] assigned by each constructor: common_places_folder.py:7,
    compressed_folder.py:8, control_panel.py:23, control_panel_category.py:42,
    control_panel_cpl.py:69, internet.py:9, my_computer.py:40, network_location.py:32,
    printers.py:7, root_folder.py:54, shell_fs_folder.py:34, unknown.py:7,
    users_files_folder.py:38 *)
Definition target_name (c : target_class) : string :=
  match c with
  | ControlPanelCPL => "Control panel CPL file"
  | ControlPanelCategory => "Control panel category"
  | RootFolder => "Root Folder"
  | MyComputer => "Volume Item"
  | ShellFSFolder => "File entry"
  | NetworkLocation => "Network location"
  | CompressedFolder => "Compressed folder"
  | Internet => "Internet"
  | ControlPanel => "Control panel"
  | Printers => "Printers"
  | CommonPlacesFolder => "Common places folder"
  | UsersFilesFolder => "Users files folder"
  | UnknownTarget => "Unknown"
  end.

(** ** target_factory.py *)

(** target_factory.py:21-36 *)
Definition SHELL_ITEM_CLASSES : list (N * target_class) :=
  [(0x00, ControlPanelCPL); (0x01, ControlPanelCategory); (0x1E, RootFolder); (0x1F, RootFolder);
   (0x20, MyComputer); (0x30, ShellFSFolder); (0x40, NetworkLocation); (0x52, CompressedFolder);
   (0x61, Internet); (0x70, ControlPanel); (0x71, ControlPanel); (0x72, Printers);
   (0x73, CommonPlacesFolder); (0x74, UsersFilesFolder)].

(** target_factory.py:38-48 [get_shell_item_classes] *)
Definition get_shell_item_classes (item_type : N) : M target_class :=
  match assocN item_type SHELL_ITEM_CLASSES with
  | None => warn (WItemType item_type) ;;; ret UnknownTarget
  | Some c => ret c
  end.

(** target_factory.py:54-61 [item_size] *)
Definition tf_item_size (raw : bytes) : M N := unpack_u16 (slice 0 2 raw).
(** target_factory.py:63-71 [item_type] *)
Definition tf_item_type (raw : bytes) : M N := unpack_u8 (slice 2 3 raw).

(** target_factory.py:73-89 [target_class] *)
Definition tf_target_class (raw : bytes) : M (option target_class) :=
  size <- tf_item_size raw ;;
  if size =? 0 then ret None
  else
    item_type <- tf_item_type raw ;;
    let masked_item_type := N.land item_type 0x70 in
    c <- (if existsb (N.eqb masked_item_type) [0x20; 0x30; 0x40]
          then get_shell_item_classes masked_item_type
          else get_shell_item_classes item_type) ;;
    ret (Some c).

(** ** target/lnk_target_base.py *)

(** A constructed target: its class, [_raw], [_raw_target], and the three strings that
    network_location.py reads in its constructor. *)
Record target := Target {
  t_class : target_class;
  t_raw : bytes;
  t_raw_target : bytes;
  t_location : text;
  t_description : option text;
  t_comments : option text }.

(** lnk_target_base.py:24-34 *)
Definition SHELL_ITEM_SHEL_FS_FOLDER : list (N * string) :=
  [(0x05, "Is Unicode directory"); (0x06, "Is Unicode file"); (0x07, "Is Unicode share");
   (0x03, "Is share"); (0x01, "Is directory"); (0x02, "Is file"); (0x04, "Has Unicode strings");
   (0x80, "Has CLSID")].

(** lnk_target_base.py:67-74 [size] *)
Definition target_size (raw : bytes) : M N := unpack_u16 (slice 0 2 raw).

(** lnk_target_base.py:38-47 [__init__]: the object's [_raw_target] *)
Definition target_base_init (raw : bytes) : M bytes :=
  size <- target_size raw ;; ret (slice 2 (2 + size) raw).

(** lnk_target_base.py:49-60 [get_item_shell_fs_folder] *)
Definition get_item_shell_fs_folder (flags : N) : M string :=
  match find (fun e => N.land flags (fst e) =? fst e) SHELL_ITEM_SHEL_FS_FOLDER with
  | Some (_, name) => ret name
  | None => warn (WItemFlags flags) ;;; ret "Unknown"
  end.

(** lnk_target_base.py:76-79 [class_type_indicator] *)
Definition class_type_indicator (raw_target : bytes) : M N := unpack_u8 (slice 0 1 raw_target).

(** lnk_target_base.py:81-84 [has_unicode_strings] *)
Definition has_unicode_strings (raw_target : bytes) : M bool :=
  n <- class_type_indicator raw_target ;; ret (negb (N.land n 0x04 =? 0)).

(** lnk_target_base.py:62-65 [as_item] *)
Definition base_item (c : target_class) : dict := [("class", PS (target_name c))].

(** ** target/shell_fs_folder.py *)

(** shell_fs_folder.py:48-52 [flags] *)
Definition fs_flags (rt : bytes) : M string :=
  flags <- class_type_indicator rt ;; get_item_shell_fs_folder (N.land flags 0x0F).
(** shell_fs_folder.py:54-57 [file_size] *)
Definition fs_file_size (rt : bytes) : M N := unpack_u32 (slice 2 6 rt).
(** shell_fs_folder.py:59-62 [modification_time] *)
Definition fs_modification_time (rt : bytes) : M (option datetime) := parse_dostime (slice 6 10 rt).
(** shell_fs_folder.py:64-67 [file_attribute_flags] *)
Definition fs_file_attribute_flags (rt : bytes) : M N := unpack_u16 (slice 10 12 rt).
(** shell_fs_folder.py:69-78 [primary_name] *)
Definition fs_primary_name (cp : cp_arg) (rt : bytes) : M text :=
  let binary := dropN 12 rt in
  unicode <- has_unicode_strings rt ;;
  if unicode : bool then read_unicode_string binary else read_string cp binary.
(** shell_fs_folder.py:37-44 [as_item] *)
Definition fs_as_item (cp : cp_arg) (rt : bytes) : M dict :=
  flags <- fs_flags rt ;;
  size <- fs_file_size rt ;;
  time <- fs_modification_time rt ;;
  attrs <- fs_file_attribute_flags rt ;;
  name <- fs_primary_name cp rt ;;
  ret (base_item ShellFSFolder ++
       [("flags", PS flags); ("file_size", PN size); ("modification_time", POpt PDate time);
        ("file_attribute_flags", PN attrs); ("primary_name", PStr name)]).

(** ** target/network_location.py *)

(** network_location.py:56-59 [flags] *)
Definition nl_flags (rt : bytes) : M string :=
  flags <- unpack_u8 (slice 0 1 rt) ;; get_item_shell_fs_folder (N.land flags 0x0F).
(** network_location.py:61-68 [content_flags] *)
Definition nl_content_flags (rt : bytes) : M N := unpack_u8 (slice 2 3 rt).
(** network_location.py:70-71 [_has_comments] *)
Definition nl_has_comments (rt : bytes) : M bool :=
  f <- nl_content_flags rt ;; ret (negb (N.land f 0x40 =? 0)).
(** network_location.py:73-74 [_has_description] *)
Definition nl_has_description (rt : bytes) : M bool :=
  f <- nl_content_flags rt ;; ret (negb (N.land f 0x80 =? 0)).
(** network_location.py:35-44, 76-79: the strings read by the constructor *)
Definition nl_init_strings (cp : cp_arg) (rt : bytes) : M (text * option text * option text) :=
  let it := read_strings cp (dropN 3 rt) in
  r1 <- next_string it ;;
  let (location, it) := r1 in
  has_description <- nl_has_description rt ;;
  r2 <- (if has_description : bool then r <- next_string it ;; ret (Some (fst r), snd r)
         else ret (None, it)) ;;
  let (description, it) := r2 in
  has_comments <- nl_has_comments rt ;;
  r3 <- (if has_comments : bool then r <- next_string it ;; ret (Some (fst r), snd r)
         else ret (None, it)) ;;
  ret (location, description, fst r3).
(** network_location.py:46-53 [as_item] *)
Definition nl_as_item (t : target) : M dict :=
  let rt := t_raw_target t in
  flags <- nl_flags rt ;;
  content_flags <- nl_content_flags rt ;;
  ret (base_item NetworkLocation ++
       [("flags", PS flags); ("content_flags", PN content_flags); ("location", PStr (t_location t));
        ("description", POpt PStr (t_description t)); ("comments", POpt PStr (t_comments t))]).

(** ** target/root_folder.py *)

(** root_folder.py:25-39 *)
Definition SORT_INDEX : list (N * string) :=
  [(0x00, "Internet Explorer"); (0x42, "Libraries"); (0x44, "Users"); (0x4C, "Public Folder");
   (0x48, "My Documents"); (0x50, "My Computer"); (0x54, "UsersLibraries");
   (0x58, "My Networs Places/Network"); (0x60, "Recycle Bin"); (0x68, "Internet Explorer");
   (0x78, "Recycle Bin"); (0x80, "My Games")].
(** root_folder.py:41-51 [get_sort_index] *)
Definition get_sort_index (v : N) : M string :=
  match assocN v SORT_INDEX with
  | None => warn (WSortIndex v) ;;; ret "Unknown"
  | Some s => ret s
  end.
(** root_folder.py:64-66 [sort_index_value] *)
Definition rf_sort_index_value (rt : bytes) : M N := unpack_u8 (slice 1 2 rt).
(** root_folder.py:57-62 [as_item] (with 68-69 [sort_index], 71-75 [guid]) *)
Definition rf_as_item (rt : bytes) : M dict :=
  sort_index <- (v <- rf_sort_index_value rt ;; get_sort_index v) ;;
  value <- rf_sort_index_value rt ;;
  guid <- parse_uuid (slice 2 18 rt) ;;
  ret (base_item RootFolder ++
       [("sort_index", PS sort_index); ("sort_index_value", PN value); ("guid", PStr guid)]).

(** ** target/my_computer.py *)

(** my_computer.py:43-44 [flags] *)
Definition mc_flags (rt : bytes) : M N := n <- class_type_indicator rt ;; ret (N.land n 0x0F).
(** my_computer.py:46-47 [_has_name] *)
Definition mc_has_name (rt : bytes) : M bool := f <- mc_flags rt ;; ret (negb (N.land f 0x01 =? 0)).
(** my_computer.py:60-67 [as_item] (with 49-52 [volume_name] when there is a name and 54-58
    [volume_identifier] when there is none) *)
Definition mc_as_item (cp : cp_arg) (rt : bytes) : M dict :=
  flags <- mc_flags rt ;;
  has_name <- mc_has_name rt ;;
  if has_name : bool then
    name <- read_string cp (slice 1 21 rt) ;;
    ret (base_item MyComputer ++ [("flags", PStr (hex_text flags)); ("volume_name", PStr name)])
  else
    id <- parse_uuid (slice 2 18 rt) ;;
    ret (base_item MyComputer ++ [("flags", PStr (hex_text flags)); ("volume_identifier", PStr id)]).

(** ** target/control_panel.py *)

(** control_panel.py:31-34 [as_item] (with 26-29 [control_panel_item_identifier]) *)
Definition cpanel_as_item (rt : bytes) : M dict :=
  id <- parse_uuid (slice 14 30 rt) ;;
  ret (base_item ControlPanel ++ [("item_identifier", PStr id)]).

(** ** target/control_panel_category.py *)

(** control_panel_category.py:26-39 *)
Definition CATEGORIES : list (N * string) :=
  [(0, "All Control Panel Items"); (1, "Appearance and Personalization"); (2, "Hardware and Sound");
   (3, "Network and Internet"); (4, "Sounds, Speech, and Audio Devices"); (5, "System and Security");
   (6, "Clock, Language, and Region"); (7, "Ease of Access"); (8, "Programs"); (9, "User Accounts");
   (10, "Security Center"); (11, "Mobile PC")].
(** control_panel_category.py:49-51 [category_id] *)
Definition cat_id (rt : bytes) : M N := unpack_u32 (slice 6 10 rt).
(** control_panel_category.py:53-63 [category] *)
Definition cat_category (rt : bytes) : M string :=
  id <- cat_id rt ;;
  match assocN id CATEGORIES with
  | None => warn (WCategory id) ;;; ret "Unknown"
  | Some s => ret s
  end.
(** control_panel_category.py:65-69 [as_item] *)
Definition cat_as_item (rt : bytes) : M dict :=
  id <- cat_id rt ;;
  category <- cat_category rt ;;
  ret (base_item ControlPanelCategory ++ [("category_id", PN id); ("category", PS category)]).

(** ** target/control_panel_cpl.py *)

(** control_panel_cpl.py:72-82 [_is_unicode] *)
Definition cpl_is_unicode (rt : bytes) : bool :=
  if lenN rt <? 22 then false
  else match dropN 10 rt with b :: _ => Byte.eqb b x00 | [] => false end.
(** control_panel_cpl.py:84-86 [signature] *)
Definition cpl_signature (rt : bytes) : M N := unpack_u32 (slice 2 6 rt).
(** control_panel_cpl.py:88-91 [_name_offset] *)
Definition cpl_name_offset (rt : bytes) : M N :=
  if cpl_is_unicode rt then unpack_u16 (slice 18 20 rt) else unpack_u16 (slice 6 8 rt).
(** control_panel_cpl.py:93-96 [_comments_offset] *)
Definition cpl_comments_offset (rt : bytes) : M N :=
  if cpl_is_unicode rt then unpack_u16 (slice 20 22 rt) else unpack_u16 (slice 8 10 rt).
(** control_panel_cpl.py:98-99 [_strings_start] *)
Definition cpl_strings_start (rt : bytes) : N := if cpl_is_unicode rt then 22 else 10.
(** control_panel_cpl.py:101-105 [cpl_file_path] *)
Definition cpl_file_path (cp : cp_arg) (rt : bytes) : M text :=
  let start := cpl_strings_start rt in
  if cpl_is_unicode rt then read_unicode_string (dropN start rt) else read_string cp (dropN start rt).
(** control_panel_cpl.py:107-114 [name_string] *)
Definition cpl_name_string (cp : cp_arg) (rt : bytes) : M text :=
  char_offset <- cpl_name_offset rt ;;
  let start := cpl_strings_start rt in
  if cpl_is_unicode rt then read_unicode_string (dropN (start + char_offset * 2) rt)
  else read_string cp (dropN (start + char_offset) rt).
(** control_panel_cpl.py:116-125 [comments] *)
Definition cpl_comments (cp : cp_arg) (rt : bytes) : M text :=
  char_offset <- cpl_comments_offset rt ;;
  if char_offset =? 0 then ret []
  else
    let start := cpl_strings_start rt in
    if cpl_is_unicode rt then read_unicode_string (dropN (start + char_offset * 2) rt)
    else read_string cp (dropN (start + char_offset) rt).
(** control_panel_cpl.py:127-133 [as_item] *)
Definition cpl_as_item (cp : cp_arg) (rt : bytes) : M dict :=
  signature <- cpl_signature rt ;;
  path <- cpl_file_path cp rt ;;
  name <- cpl_name_string cp rt ;;
  comments <- cpl_comments cp rt ;;
  ret (base_item ControlPanelCPL ++
       [("signature", PStr (s2t "0x" ++ hexX 8 signature)); ("cpl_file_path", PStr path);
        ("name", PStr name); ("comments", PStr comments)]).

(** ** target/users_files_folder.py *)

(** users_files_folder.py:41-42 [inner_data_size] *)
Definition uf_inner_data_size (rt : bytes) : M N := unpack_u16 (slice 2 4 rt).
(** users_files_folder.py:53-54 [_delegate_offset] *)
Definition uf_delegate_offset (rt : bytes) : M N := n <- uf_inner_data_size rt ;; ret (4 + n).
(** users_files_folder.py:66-72 [as_item] (with 44-45 [signature], 50-51 [file_entry],
    56-59 [delegate_class_id], 61-64 [delegate_folder_id]) *)
Definition uf_as_item (cp : cp_arg) (rt : bytes) : M dict :=
  let signature := ascii_replace (slice 4 8 rt) in
  inner <- target_base_init (dropN 8 rt) ;;
  entry <- fs_as_item cp inner ;;
  offset <- uf_delegate_offset rt ;;
  class_id <- parse_uuid (slice offset (offset + 16) rt) ;;
  offset <- uf_delegate_offset rt ;;
  folder_id <- parse_uuid (slice (offset + 16) (offset + 16 + 16) rt) ;;
  ret (base_item UsersFilesFolder ++
       [("signature", PStr signature); ("file_entry", PDict entry);
        ("delegate_class_id", PStr class_id); ("delegate_folder_id", PStr folder_id)]).

(** ** target/unknown.py *)

(** unknown.py:10-13 [as_item] *)
Definition unknown_as_item (raw : bytes) : M dict :=
  size <- target_size raw ;; ret (base_item UnknownTarget ++ [("size", PN (2 + size))]).

(** ** Constructing and reporting a target *)

(** lnk_target_base.py:38-47 and network_location.py:31-44; every other constructor only
    sets [name] (see [target_name]). *)
Definition target_init (c : target_class) (cp : cp_arg) (raw : bytes) : M target :=
  raw_target <- target_base_init raw ;;
  match c with
  | NetworkLocation =>
    s <- nl_init_strings cp raw_target ;;
    let '(location, description, comments) := s in
    ret (Target c raw raw_target location description comments)
  | _ => ret (Target c raw raw_target [] None None)
  end.

(** [as_item] of each class; common_places_folder.py:10-12, compressed_folder.py:11-13,
    internet.py:12-14 and printers.py:10-12 return the base item. *)
Definition as_item (cp : cp_arg) (t : target) : M dict :=
  let rt := t_raw_target t in
  match t_class t with
  | ControlPanelCPL => cpl_as_item cp rt
  | ControlPanelCategory => cat_as_item rt
  | RootFolder => rf_as_item rt
  | MyComputer => mc_as_item cp rt
  | ShellFSFolder => fs_as_item cp rt
  | NetworkLocation => nl_as_item t
  | ControlPanel => cpanel_as_item rt
  | UsersFilesFolder => uf_as_item cp rt
  | UnknownTarget => unknown_as_item (t_raw t)
  | CompressedFolder | Internet | Printers | CommonPlacesFolder => ret (base_item (t_class t))
  end.

(** ** lnk_targets.py *)

(** PEP 479: StopIteration leaving a generator body becomes RuntimeError. *)
Definition in_generator {A} (m : M A) : M A :=
  match m with
  | (w, Err StopIteration) => (w, Err RuntimeError)
  | _ => m
  end.

(** lnk_targets.py:71-83: one resumption of the generator: the next target and the new
    [rest], or the end of the iteration. *)
Definition next_target (cp : cp_arg) (rest : bytes) : M (option (target * bytes)) :=
  in_generator (
    match rest with
    | [] => ret None
    | _ =>
      c <- tf_target_class rest ;;
      match c with
      | None => ret None
      | Some c =>
        t <- target_init c cp rest ;;
        size <- tf_item_size rest ;;
        ret (Some (t, dropN size rest))
      end
    end).

(** lnk_targets.py:85-94 [as_list] consuming the generator of lnk_targets.py:52-83; also
    extra/shell_item.py:57-66 [id_list] consuming the identical generator of lines 24-55. *)
Fixpoint items_loop (fuel : nat) (cp : cp_arg) (rest : bytes) : M (list pyval) :=
  match fuel with
  | O => raise OutOfFuel
  | S fuel =>
    r <- next_target cp rest ;;
    match r with
    | None => ret []
    | Some (t, rest') =>
      item <- try_except (d <- as_item cp t ;; ret [PDict d]) is_key_error
                         (warn (WTarget (target_name (t_class t))) ;;; ret []) ;;
      items <- items_loop fuel cp rest' ;;
      ret (item ++ items)
    end
  end.
Definition items_of (cp : cp_arg) (rest : bytes) : M (list pyval) :=
  items_loop (S (length rest)) cp rest.

(** lnk_targets.py:44-50 [id_list_size] *)
Definition id_list_size (raw : bytes) : M N := unpack_u16 (slice 0 2 raw).
(** lnk_targets.py:38-42 [size] *)
Definition targets_size (raw : bytes) : M N := n <- id_list_size raw ;; ret (n + 2).

(** lnk_targets.py:26-33 [__init__]: the object as the pair of [_raw] and [_raw_targets]. *)
Record targets := Targets { tg_raw : bytes; tg_raw_targets : bytes }.
Definition targets_init (indata : bytes) : M targets :=
  end_ <- targets_size indata ;; ret (Targets indata (slice 2 end_ indata)).

(** lnk_targets.py:85-94 [as_list] *)
Definition targets_as_list (cp : cp_arg) (t : targets) : M (list pyval) :=
  items_of cp (tg_raw_targets t).
