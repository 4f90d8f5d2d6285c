(** * Specification of ID lists (C29-C34)

    From [MS-SHLLINK] 2.2 and the shell item description of libfwsi: abstract items, their
    encoding, and the report expected for them. *)
From Verif Require Import Py Codec Spec SpecText SpecTime.

(** ** ID lists: items prefixed with their own size, closed by a TerminalID. *)
Definition encode_item (body : bytes) : bytes := enc16 (lenN body + 2) ++ body.
Definition encode_items (bodies : list bytes) : bytes := flat_map encode_item bodies ++ enc16 0.
Definition encode_id_list (bodies : list bytes) : bytes :=
  enc16 (lenN (encode_items bodies)) ++ encode_items bodies.
(** A body starts with the type byte and its size fits. *)
Definition item_fits (body : bytes) : Prop := body <> [] /\ lenN body + 2 < 65536.
Definition item_type (body : bytes) : N := match body with b :: _ => b2n b | [] => 0 end.

(** ** The documented classes *)
Definition documented_class (ty : N) : option string :=
  match ty / 16 mod 8 with
  | 2 => Some "Volume Item" | 3 => Some "File entry" | 4 => Some "Network location"
  | _ =>
    match ty with
    | 0x00 => Some "Control panel CPL file" | 0x01 => Some "Control panel category"
    | 0x1E | 0x1F => Some "Root Folder" | 0x52 => Some "Compressed folder" | 0x61 => Some "Internet"
    | 0x70 | 0x71 => Some "Control panel" | 0x72 => Some "Printers" | 0x73 => Some "Common places folder"
    | 0x74 => Some "Users files folder" | _ => None
    end
  end%string.
Definition class_of_type (ty : N) : string :=
  match documented_class ty with Some s => s | None => "Unknown" end.

(** ** Strings closed by a NUL (a NUL unit if Unicode) *)
Definition zstring (unicode : bool) (body : bytes) : bytes := body ++ (if unicode then [x00; x00] else [x00]).
Definition zbody (unicode : bool) (body : bytes) : Prop :=
  if unicode then N.even (lenN body) = true /\ before_nul_unit body = body else ~ In x00 body.

(** ** FAT times *)
Definition fat_representable (t : datetime) : Prop :=
  valid_datetime t /\ (1980 <= dt_year t <= 2107)%Z /\ dt_us t = 0%Z /\ (dt_sec t mod 2 = 0)%Z.
Definition encode_fat (o : option datetime) : bytes :=
  match o with
  | Some t => enc16 (Z.to_N (fat_date t)) ++ enc16 (Z.to_N (fat_time t))
  | None => enc32 0
  end.

(** ** File entries *)
Record file_entry := FileEntry {
  fe_type : N; fe_unknown : byte; fe_size : N; fe_time : option datetime; fe_attrs : N;
  fe_name : bytes; fe_rest : bytes }.
Definition fe_unicode (e : file_entry) : bool := N.testbit (fe_type e) 2.
Definition entry_body (e : file_entry) : bytes :=
  enc8 (fe_type e) ++ [fe_unknown e] ++ enc32 (fe_size e) ++ encode_fat (fe_time e) ++ enc16 (fe_attrs e)
  ++ zstring (fe_unicode e) (fe_name e) ++ fe_rest e.
(** The name of the low bits of the type byte (the code never reports "Is Unicode share"). *)
Definition flags_name (ty : N) : option string :=
  match ty mod 8 with
  | 1 => Some "Is directory" | 2 => Some "Is file" | 3 => Some "Is share" | 4 => Some "Has Unicode strings"
  | 5 | 7 => Some "Is Unicode directory" | 6 => Some "Is Unicode file" | _ => None
  end%string.
Definition flags_text (ty : N) : string := match flags_name ty with Some s => s | None => "Unknown" end.
Definition flags_warning (ty : N) : list warning :=
  match flags_name ty with Some _ => [] | None => [WItemFlags (ty mod 16)] end.
Definition entry_report (cp : cp_arg) (e : file_entry) : dict :=
  [("class", PS "File entry"); ("flags", PS (flags_text (fe_type e))); ("file_size", PN (fe_size e));
   ("modification_time", POpt PDate (fe_time e)); ("file_attribute_flags", PN (fe_attrs e));
   ("primary_name", PStr (stored_text (fe_unicode e) cp (fe_name e)))].
Definition entry_warnings (cp : cp_arg) (e : file_entry) : list warning :=
  flags_warning (fe_type e) ++ stored_warning (fe_unicode e) cp (fe_name e).
Definition wf_entry (e : file_entry) : Prop :=
  fe_type e < 256 /\ fits32 (fe_size e) /\ fits16 (fe_attrs e)
  /\ (forall t, fe_time e = Some t -> fat_representable t) /\ zbody (fe_unicode e) (fe_name e).

(** ** Items *)
Inductive item :=
| IRoot (ty sort : N) (guid rest : bytes)
| IVolume (ty : N) (name rest : bytes)                      (* a name of 20 bytes *)
| IVolumeId (ty : N) (unknown : byte) (guid rest : bytes)
| IFile (e : file_entry)
| INetwork (ty : N) (unknown : byte) (content : N) (location : bytes) (description comments : option bytes) (rest : bytes)
| IControlPanel (ty : N) (unknown guid rest : bytes)
| ICategory (unknown : byte) (signature : bytes) (id : N) (rest : bytes)
| ICplPage (unknown : byte) (signature : N) (path name : bytes) (comments : option bytes) (rest : bytes)
| ICplUnicode (unknown : byte) (signature : N) (gap1 gap2 : bytes) (path name : bytes) (comments : option bytes) (rest : bytes)
| IUsersFiles (unknown : byte) (signature : bytes) (e : file_entry) (gap class_id folder_id rest : bytes)
| IOther (ty : N) (rest : bytes).                           (* a class without fields, or an undocumented type *)

Definition opt_z (unicode : bool) (o : option bytes) : bytes := match o with Some s => zstring unicode s | None => [] end.
(** Offsets of a CPL item, in characters from the first string. *)
Definition cpl_name_at (unicode : bool) (path : bytes) : N := lenN path / (if unicode then 2 else 1) + 1.
Definition cpl_comments_at (unicode : bool) (path name : bytes) (comments : option bytes) : N :=
  match comments with
  | Some _ => lenN path / (if unicode then 2 else 1) + 1 + (lenN name / (if unicode then 2 else 1) + 1)
  | None => 0
  end.

Definition item_body (it : item) : bytes :=
  match it with
  | IRoot ty sort guid rest => enc8 ty ++ enc8 sort ++ guid ++ rest
  | IVolume ty name rest => enc8 ty ++ name ++ rest
  | IVolumeId ty unknown guid rest => enc8 ty ++ [unknown] ++ guid ++ rest
  | IFile e => entry_body e
  | INetwork ty unknown content location description comments rest =>
      enc8 ty ++ [unknown] ++ enc8 content ++ zstring false location ++ opt_z false description ++ opt_z false comments ++ rest
  | IControlPanel ty unknown guid rest => enc8 ty ++ unknown ++ guid ++ rest
  | ICategory unknown signature id rest => enc8 0x01 ++ [unknown] ++ signature ++ enc32 id ++ rest
  | ICplPage unknown signature path name comments rest =>
      enc8 0x00 ++ [unknown] ++ enc32 signature ++ enc16 (cpl_name_at false path)
      ++ enc16 (cpl_comments_at false path name comments)
      ++ zstring false path ++ zstring false name ++ opt_z false comments ++ rest
  | ICplUnicode unknown signature gap1 gap2 path name comments rest =>
      enc8 0x00 ++ [unknown] ++ enc32 signature ++ gap1 ++ [x00] ++ gap2 ++ enc16 (cpl_name_at true path)
      ++ enc16 (cpl_comments_at true path name comments)
      ++ zstring true path ++ zstring true name ++ opt_z true comments ++ rest
  | IUsersFiles unknown signature e gap class_id folder_id rest =>
      enc8 0x74 ++ [unknown] ++ enc16 (lenN (signature ++ encode_item (entry_body e) ++ gap))
      ++ signature ++ encode_item (entry_body e) ++ gap ++ class_id ++ folder_id ++ rest
  | IOther ty rest => enc8 ty ++ rest
  end.

Definition hex_lower : text := s2t "0123456789abcdef".
Definition sort_name (n : N) : option string :=
  match n with
  | 0x00 => Some "Internet Explorer" | 0x42 => Some "Libraries" | 0x44 => Some "Users" | 0x4C => Some "Public Folder"
  | 0x48 => Some "My Documents" | 0x50 => Some "My Computer" | 0x54 => Some "UsersLibraries"
  | 0x58 => Some "My Networs Places/Network" | 0x60 => Some "Recycle Bin" | 0x68 => Some "Internet Explorer"
  | 0x78 => Some "Recycle Bin" | 0x80 => Some "My Games" | _ => None
  end%string.
Definition category_name (n : N) : option string :=
  match n with
  | 0 => Some "All Control Panel Items" | 1 => Some "Appearance and Personalization" | 2 => Some "Hardware and Sound"
  | 3 => Some "Network and Internet" | 4 => Some "Sounds, Speech, and Audio Devices" | 5 => Some "System and Security"
  | 6 => Some "Clock, Language, and Region" | 7 => Some "Ease of Access" | 8 => Some "Programs"
  | 9 => Some "User Accounts" | 10 => Some "Security Center" | 11 => Some "Mobile PC" | _ => None
  end%string.
Definition or_unknown (o : option string) : string := match o with Some s => s | None => "Unknown" end.
Definition unless_known (o : option string) (w : warning) : list warning := match o with Some _ => [] | None => [w] end.

Definition item_report (cp : cp_arg) (it : item) : dict :=
  match it with
  | IRoot ty sort guid rest =>
      [("class", PS "Root Folder"); ("sort_index", PS (or_unknown (sort_name sort))); ("sort_index_value", PN sort);
       ("guid", PStr (guid_text guid))]
  | IVolume ty name rest =>
      [("class", PS "Volume Item"); ("flags", PStr (s2t "0x" ++ [nth (N.to_nat (ty mod 16)) hex_lower 0]));
       ("volume_name", PStr (field_text cp name))]
  | IVolumeId ty unknown guid rest =>
      [("class", PS "Volume Item"); ("flags", PStr (s2t "0x" ++ [nth (N.to_nat (ty mod 16)) hex_lower 0]));
       ("volume_identifier", PStr (guid_text guid))]
  | IFile e => entry_report cp e
  | INetwork ty unknown content location description comments rest =>
      [("class", PS "Network location"); ("flags", PS (flags_text ty)); ("content_flags", PN content);
       ("location", PStr (field_text cp location));
       ("description", POpt PStr (option_map (field_text cp) description));
       ("comments", POpt PStr (option_map (field_text cp) comments))]
  | IControlPanel ty unknown guid rest => [("class", PS "Control panel"); ("item_identifier", PStr (guid_text guid))]
  | ICategory unknown signature id rest =>
      [("class", PS "Control panel category"); ("category_id", PN id); ("category", PS (or_unknown (category_name id)))]
  | ICplPage unknown signature path name comments rest =>
      [("class", PS "Control panel CPL file"); ("signature", PStr (s2t "0x" ++ flat_map hex_of_byte (rev (enc32 signature))));
       ("cpl_file_path", PStr (field_text cp path)); ("name", PStr (field_text cp name));
       ("comments", PStr (match comments with Some s => field_text cp s | None => [] end))]
  | ICplUnicode unknown signature gap1 gap2 path name comments rest =>
      [("class", PS "Control panel CPL file"); ("signature", PStr (s2t "0x" ++ flat_map hex_of_byte (rev (enc32 signature))));
       ("cpl_file_path", PStr (wide_text path)); ("name", PStr (wide_text name));
       ("comments", PStr (match comments with Some s => wide_text s | None => [] end))]
  | IUsersFiles unknown signature e gap class_id folder_id rest =>
      [("class", PS "Users files folder");
       ("signature", PStr (map (fun b => if b2n b <? 128 then b2n b else 0xFFFD) signature));
       ("file_entry", PDict (entry_report cp e)); ("delegate_class_id", PStr (guid_text class_id));
       ("delegate_folder_id", PStr (guid_text folder_id))]
  | IOther ty rest =>
      match documented_class ty with
      | Some s => [("class", PS s)]
      | None => [("class", PS "Unknown"); ("size", PN (2 + (lenN rest + 3)))]   (* two more than ItemIDSize *)
      end
  end.

Definition opt_warning (unicode : bool) (cp : cp_arg) (o : option bytes) : list warning :=
  match o with Some s => stored_warning unicode cp s | None => [] end.
Definition item_warnings (cp : cp_arg) (it : item) : list warning :=
  match it with
  | IRoot ty sort guid rest => unless_known (sort_name sort) (WSortIndex sort)
  | IVolume ty name rest => field_warning cp name
  | IVolumeId _ _ _ _ => []
  | IFile e => entry_warnings cp e
  | INetwork ty unknown content location description comments rest =>
      field_warning cp location ++ opt_warning false cp description ++ opt_warning false cp comments ++ flags_warning ty
  | IControlPanel _ _ _ _ => []
  | ICategory unknown signature id rest => unless_known (category_name id) (WCategory id)
  | ICplPage unknown signature path name comments rest =>
      field_warning cp path ++ field_warning cp name ++ opt_warning false cp comments
  | ICplUnicode unknown signature gap1 gap2 path name comments rest =>
      wide_warning path ++ wide_warning name ++ opt_warning true cp comments
  | IUsersFiles unknown signature e gap class_id folder_id rest => entry_warnings cp e
  | IOther ty rest => unless_known (documented_class ty) (WItemType ty)
  end.

Definition opt_zbody (unicode : bool) (o : option bytes) : Prop := match o with Some s => zbody unicode s | None => True end.
Definition is_some {A} (o : option A) : bool := match o with Some _ => true | None => false end.
Definition wf_item (it : item) : Prop :=
  match it with
  | IRoot ty sort guid rest => (ty = 0x1E \/ ty = 0x1F) /\ sort < 256 /\ lenN guid = 16
  | IVolume ty name rest => ty < 256 /\ ty / 16 mod 8 = 2 /\ N.testbit ty 0 = true /\ lenN name = 20
  | IVolumeId ty unknown guid rest => ty < 256 /\ ty / 16 mod 8 = 2 /\ N.testbit ty 0 = false /\ lenN guid = 16
  | IFile e => wf_entry e /\ fe_type e / 16 mod 8 = 3
  | INetwork ty unknown content location description comments rest =>
      ty < 256 /\ ty / 16 mod 8 = 4 /\ content < 256 /\ zbody false location /\ opt_zbody false description
      /\ opt_zbody false comments /\ N.testbit content 7 = is_some description /\ N.testbit content 6 = is_some comments
  | IControlPanel ty unknown guid rest => (ty = 0x70 \/ ty = 0x71) /\ lenN unknown = 13 /\ lenN guid = 16
  | ICategory unknown signature id rest => lenN signature = 4 /\ fits32 id
  | ICplPage unknown signature path name comments rest =>
      fits32 signature /\ path <> [] /\ zbody false path /\ zbody false name /\ opt_zbody false comments
  | ICplUnicode unknown signature gap1 gap2 path name comments rest =>
      fits32 signature /\ lenN gap1 = 4 /\ lenN gap2 = 7 /\ zbody true path /\ zbody true name /\ opt_zbody true comments
  | IUsersFiles unknown signature e gap class_id folder_id rest =>
      wf_entry e /\ lenN signature = 4 /\ lenN class_id = 16 /\ lenN folder_id = 16
  | IOther ty rest =>
      ty < 256 /\ (documented_class ty = None \/ In ty [0x52; 0x61; 0x72; 0x73])
  end.

(** ** What a report says about the target *)
Definition reported_target (d : dict) : option dict :=
  match dget "target" d with Some (PDict t) => Some t | _ => None end.
Definition reported_items (d : dict) : option (list pyval) :=
  match reported_target d with
  | Some t => match dget "items" t with Some (PList l) => Some l | _ => None end
  | None => None
  end.
(** The reported class of an entry. *)
Definition entry_class (e : pyval) : option pyval := match e with PDict d => dget "class" d | _ => None end.

(** Number of NUL bytes, and how many strings the content flags of a network location announce
    after the location. *)
Definition nuls (b : bytes) : N := lenN (filter (Byte.eqb x00) b).
Definition extra_strings (content : N) : N :=
  (if N.testbit content 7 then 1 else 0) + (if N.testbit content 6 then 1 else 0).
