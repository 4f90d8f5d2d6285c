(** * What the code page may influence (C47) *)
From Verif Require Import Py Codec Spec SpecText SpecReport.

(** The text of a run of bytes without NUL. *)
Definition decoded (cp : cp_arg) (body : bytes) : text :=
  match body with [] => [] | _ => page_text (page_of cp) body end.
(** The two code pages' readings of the same bytes. *)
Definition two_readings (cp1 cp2 : cp_arg) (v1 v2 : pyval) : Prop :=
  exists body, v1 = PStr (decoded cp1 body) /\ v2 = PStr (decoded cp2 body).

(** The positions in an item of the strings stored in the code page. *)
Definition item_string (p : path) : bool :=
  match p with
  | [Key a] =>
    existsb (String.eqb a) ["primary_name"; "volume_name"; "location"; "description"; "comments"; "cpl_file_path"; "name"]%string
  | [Key a; Key b] => String.eqb a "file_entry" && String.eqb b "primary_name"
  | _ => false
  end.
(** The positions in a report of the strings stored in the code page. *)
Definition page_string (p : path) : bool :=
  match p with
  | [Key a; Key b] =>
    String.eqb a "data"
      && existsb (String.eqb b)
           ["description"; "relative_path"; "working_directory"; "command_line_arguments"; "icon_location"]%string
    || String.eqb a "link_info" && existsb (String.eqb b) ["local_base_path"; "common_path_suffix"]%string
  | [Key a; Key b; Key c] =>
    String.eqb a "link_info" && String.eqb b "location_info"
      && existsb (String.eqb c) ["volume_label"; "net_name"; "device_name"]%string
    || String.eqb a "extra"
       && existsb (fun e => String.eqb b (fst e) && String.eqb c (snd e))
            [("ENVIRONMENTAL_VARIABLES_LOCATION_BLOCK", "target_ansi"); ("ICON_LOCATION_BLOCK", "target_ansi");
             ("DARWIN_BLOCK", "darwin_data_ansi"); ("DISTRIBUTED_LINK_TRACKER_BLOCK", "machine_identifier");
             ("SHIM_LAYER_BLOCK", "layer_name")]%string
  | Key a :: Key b :: Element _ :: r => String.eqb a "target" && String.eqb b "items" && item_string r
  | Key a :: Key b :: Key c :: Element _ :: r =>
    String.eqb a "extra" && String.eqb b "SHELL_ITEM_IDENTIFIER_BLOCK" && String.eqb c "id_list" && item_string r
  | _ => false
  end.

(** Two reports position by position: the same keys in the same order, lists of the same
    length, the same values, but for the strings at [page_string] positions, which are two
    readings of the same bytes. *)
Definition same_but_pages (cp1 cp2 : cp_arg) (d1 d2 : dict) : Prop :=
  forall q,
    match at_path q (PDict d1), at_path q (PDict d2) with
    | None, None => True
    | Some (PDict e1), Some (PDict e2) => map fst e1 = map fst e2
    | Some (PList l1), Some (PList l2) => length l1 = length l2
    | Some v1, Some v2 => v1 = v2 \/ page_string q = true /\ two_readings cp1 cp2 v1 v2
    | _, _ => False
    end.

(** A code page that never decodes something to nothing. *)
Definition visible (cp : cp_arg) : Prop :=
  forall body, body <> [] -> strict (page_of cp) body <> Some [] /\ replace (page_of cp) body <> [].
