(** * Specification: the report of any ID list, read from its bytes (property C61)

    Nothing is assumed about the bytes: each entry is given by the positions it is read from. *)
From Verif Require Import Py Codec Spec SpecText SpecTime SpecItems SpecOutcome.

(** A FAT date and time: nothing for zero, nothing but a warning when the calendar has no such time. *)
Definition fat_exists (n : N) : bool :=
  let t := fat_datetime n in
  ((1 <=? dt_month t) && (dt_month t <=? 12) && (1 <=? dt_day t) && (dt_day t <=? month_length (dt_year t) (dt_month t))
   && (dt_hour t <=? 23) && (dt_min t <=? 59) && (dt_sec t <=? 59))%Z.
Definition fat_shown (n : N) : option datetime :=
  if n =? 0 then None else if fat_exists n then Some (fat_datetime n) else None.
Definition fat_warned (n : N) : list warning :=
  if (n =? 0) || fat_exists n then [] else [WDostime (enc32 n)].

(** The bytes behind the first NUL byte. *)
Fixpoint after_nul (b : bytes) : bytes :=
  match b with
  | [] => []
  | c :: r => if Byte.eqb c x00 then r else after_nul r
  end.

(** [fields] is what the code takes as the fields of an item (see [item_error]); its first byte is the type. *)
Definition file_entry_of (cp : cp_arg) (fields : bytes) : dict :=
  let ty := num 1 0 fields in
  [("class", PS "File entry"); ("flags", PS (flags_text ty)); ("file_size", PN (num 4 2 fields));
   ("modification_time", POpt PDate (fat_shown (num 4 6 fields))); ("file_attribute_flags", PN (num 2 10 fields));
   ("primary_name", PStr (stored_text (N.testbit ty 2) cp (dropN 12 fields)))]%string.
Definition file_entry_says (cp : cp_arg) (fields : bytes) : list warning :=
  let ty := num 1 0 fields in
  flags_warning ty ++ fat_warned (num 4 6 fields) ++ stored_warning (N.testbit ty 2) cp (dropN 12 fields).

(** A control panel file is read as Unicode when there are 22 bytes and the eleventh is zero; the strings start behind
    the fixed part, at offsets counted in characters. *)
Definition cpl_wide (fields : bytes) : bool := (22 <=? lenN fields) && (num 1 10 fields =? 0).
Definition cpl_string (fields : bytes) (characters : N) : bytes :=
  if cpl_wide fields then dropN (22 + 2 * characters) fields else dropN (10 + characters) fields.
Definition cpl_name_offset_of (fields : bytes) : N := if cpl_wide fields then num 2 18 fields else num 2 6 fields.
Definition cpl_comments_offset_of (fields : bytes) : N := if cpl_wide fields then num 2 20 fields else num 2 8 fields.

(** The strings of a network location follow each other, the location first. *)
Definition network_location_at (fields : bytes) : bytes := dropN 3 fields.
Definition network_description (fields : bytes) : option bytes :=
  if N.testbit (num 1 2 fields) 7 then Some (after_nul (network_location_at fields)) else None.
Definition network_comments (fields : bytes) : option bytes :=
  if N.testbit (num 1 2 fields) 6
  then Some (after_nul (match network_description fields with Some s => s | None => network_location_at fields end))
  else None.

Definition hex_digit_of (n : N) : text := s2t "0x" ++ [nth (N.to_nat n) hex_lower 0].
Definition hex32 (n : N) : text := s2t "0x" ++ flat_map hex_of_byte (rev (enc32 n)).
Definition ascii_or_replacement (b : bytes) : text := map (fun c => if b2n c <? 128 then b2n c else 0xFFFD) b.

(** The entry of an item whose ItemIDSize is [size]. *)
Definition entry_of (cp : cp_arg) (size : N) (fields : bytes) : dict :=
  let ty := num 1 0 fields in
  match ty / 16 mod 8 with
  | 2 =>
    [("class", PS "Volume Item"); ("flags", PStr (hex_digit_of (ty mod 16)));
     if N.testbit ty 0 then ("volume_name", PStr (field_text cp (slice 1 21 fields)))
     else ("volume_identifier", PStr (guid_text (slice 2 18 fields)))]
  | 3 => file_entry_of cp fields
  | 4 =>
    [("class", PS "Network location"); ("flags", PS (flags_text ty)); ("content_flags", PN (num 1 2 fields));
     ("location", PStr (field_text cp (network_location_at fields)));
     ("description", POpt PStr (option_map (field_text cp) (network_description fields)));
     ("comments", POpt PStr (option_map (field_text cp) (network_comments fields)))]
  | _ =>
    match ty with
    | 0x00 =>
      [("class", PS "Control panel CPL file"); ("signature", PStr (hex32 (num 4 2 fields)));
       ("cpl_file_path", PStr (stored_text (cpl_wide fields) cp (cpl_string fields 0)));
       ("name", PStr (stored_text (cpl_wide fields) cp (cpl_string fields (cpl_name_offset_of fields))));
       ("comments",
         PStr (if (cpl_comments_offset_of fields =? 0)%N then []
               else stored_text (cpl_wide fields) cp (cpl_string fields (cpl_comments_offset_of fields))))]
    | 0x01 =>
      [("class", PS "Control panel category"); ("category_id", PN (num 4 6 fields));
       ("category", PS (or_unknown (category_name (num 4 6 fields))))]
    | 0x1E | 0x1F =>
      [("class", PS "Root Folder"); ("sort_index", PS (or_unknown (sort_name (num 1 1 fields))));
       ("sort_index_value", PN (num 1 1 fields)); ("guid", PStr (guid_text (slice 2 18 fields)))]
    | 0x52 => [("class", PS "Compressed folder")]
    | 0x61 => [("class", PS "Internet")]
    | 0x70 | 0x71 => [("class", PS "Control panel"); ("item_identifier", PStr (guid_text (slice 14 30 fields)))]
    | 0x72 => [("class", PS "Printers")]
    | 0x73 => [("class", PS "Common places folder")]
    | 0x74 =>
      [("class", PS "Users files folder"); ("signature", PStr (ascii_or_replacement (slice 4 8 fields)));
       ("file_entry", PDict (file_entry_of cp (slice 10 (10 + num 2 8 fields) fields)));
       ("delegate_class_id", PStr (guid_text (slice (4 + num 2 2 fields) (20 + num 2 2 fields) fields)));
       ("delegate_folder_id", PStr (guid_text (slice (20 + num 2 2 fields) (36 + num 2 2 fields) fields)))]
    | _ => [("class", PS "Unknown"); ("size", PN (2 + size))]
    end
  end%string.

Definition opt_field_warning (cp : cp_arg) (o : option bytes) : list warning :=
  match o with Some s => field_warning cp s | None => [] end.
Definition entry_says (cp : cp_arg) (fields : bytes) : list warning :=
  let ty := num 1 0 fields in
  match ty / 16 mod 8 with
  | 2 => if N.testbit ty 0 then field_warning cp (slice 1 21 fields) else []
  | 3 => file_entry_says cp fields
  | 4 =>
    field_warning cp (network_location_at fields) ++ opt_field_warning cp (network_description fields)
    ++ opt_field_warning cp (network_comments fields) ++ flags_warning ty
  | _ =>
    match ty with
    | 0x00 =>
      stored_warning (cpl_wide fields) cp (cpl_string fields 0)
      ++ stored_warning (cpl_wide fields) cp (cpl_string fields (cpl_name_offset_of fields))
      ++ (if cpl_comments_offset_of fields =? 0 then []
          else stored_warning (cpl_wide fields) cp (cpl_string fields (cpl_comments_offset_of fields)))
    | 0x01 => unless_known (category_name (num 4 6 fields)) (WCategory (num 4 6 fields))
    | 0x1E | 0x1F => unless_known (sort_name (num 1 1 fields)) (WSortIndex (num 1 1 fields))
    | 0x52 | 0x61 | 0x70 | 0x71 | 0x72 | 0x73 => []
    | 0x74 => file_entry_says cp (slice 10 (10 + num 2 8 fields) fields)
    | _ => [WItemType ty]
    end
  end.

(** All entries from a position on, and what is warned about on the way, up to a zero size or the end. *)
Inductive entries_listed (cp : cp_arg) : bytes -> list dict -> list warning -> Prop :=
| entries_end rest : rest = [] \/ 2 <= lenN rest /\ num 2 0 rest = 0 -> entries_listed cp rest [] []
| entries_next rest entries said :
    3 <= lenN rest -> num 2 0 rest <> 0 ->
    let fields := slice 2 (2 + num 2 0 rest) rest in
    item_error (num 1 2 rest) fields = None ->
    entries_listed cp (dropN (num 2 0 rest) rest) entries said ->
    entries_listed cp rest (entry_of cp (num 2 0 rest) fields :: entries) (entry_says cp fields ++ said).

(** ** What is warned about before an item cannot be read *)

(** Fields are read in the order of the report; a number or GUID that is not there ends it. *)
Definition file_entry_tried (fields : bytes) : list warning :=
  (if 1 <=? lenN fields then flags_warning (num 1 0 fields) else [])
  ++ (if 10 <=? lenN fields then fat_warned (num 4 6 fields) else []).
Definition entry_tried (cp : cp_arg) (fields : bytes) : list warning :=
  let ty := num 1 0 fields in
  match ty / 16 mod 8 with
  | 2 => []
  | 3 => file_entry_tried fields
  | 4 =>                                     (* the strings, up to the first missing one *)
    field_warning cp (network_location_at fields)
    ++ (if nuls (network_location_at fields) =? 0 then [] else opt_field_warning cp (network_description fields))
  | _ =>
    match ty with
    | 0x1E | 0x1F =>
      if 2 <=? lenN fields then unless_known (sort_name (num 1 1 fields)) (WSortIndex (num 1 1 fields)) else []
    | 0x74 =>
      let inner := slice 10 (10 + num 2 8 fields) fields in
      if lenN fields <? 10 then []
      else if lenN inner <? 12 then file_entry_tried inner
      else file_entry_says cp inner
    | _ => []
    end
  end.

(** The list cannot be read: the exception and the warnings before it. *)
Inductive entries_tried (cp : cp_arg) : bytes -> exn -> list warning -> Prop :=
| entries_cut rest : lenN rest = 1 \/ lenN rest = 2 /\ num 2 0 rest <> 0 -> entries_tried cp rest StructError []
| entry_bad rest e :
    3 <= lenN rest -> num 2 0 rest <> 0 ->
    let fields := slice 2 (2 + num 2 0 rest) rest in
    item_error (num 1 2 rest) fields = Some e ->
    entries_tried cp rest e (entry_tried cp fields)
| entry_before rest e w :
    3 <= lenN rest -> num 2 0 rest <> 0 ->
    let fields := slice 2 (2 + num 2 0 rest) rest in
    item_error (num 1 2 rest) fields = None ->
    entries_tried cp (dropN (num 2 0 rest) rest) e w ->
    entries_tried cp rest e (entry_says cp fields ++ w).
