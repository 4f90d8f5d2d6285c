(** * Property C45: the readable report

    The vocabulary is in SpecReadable.v: how a key is shown, how a value is shown, what becomes
    of the header. The YAML rendering of the tree is not modelled. *)
From Verif Require Import Lemmas Codec Utils Header StringData Targets Info Extra LnkFile Json Report.
From Verif Require Import Spec SpecHeader SpecReport SpecReadable.
From Verif Require Import ReadableProofs PropertiesReport.

(** ** C45. Whenever there is a report, the readable report shows all of it: first the lines of
    the header, then every other section under its heading. *)
Theorem C45_tree :
  forall src cp allow l all d,
    snd (lnk_init src cp allow) = Ok l -> snd (get_json l all) = Ok d ->
    exists h lines sections,
      dget "header" d = Some (PDict h)
      /\ yaml_tree l all = (fst (get_json l all), Ok (lines ++ sections))
      /\ shown false (PDict (header_shown h)) (PDict lines)
      /\ Forall2 (fun e s => fst s = String.append empty_line (heading (fst e)) /\ shown false (snd e) (snd s))
           (others d) sections.
Proof. exact yaml_shown. Qed.
Print Assumptions C45_tree.

(** It raises exactly what the report raises. *)
Theorem C45_raises :
  forall l all e, snd (get_json l all) = Err e -> yaml_tree l all = (fst (get_json l all), Err e).
Proof. exact yaml_raises. Qed.
Print Assumptions C45_raises.

(** Two keys of one dictionary of the report are shown alike only if the first is the raw form
    of the second, or they are those of the hot key. *)
Theorem C45_collisions :
  forall src cp allow l all d,
    snd (lnk_init src cp allow) = Ok l -> snd (get_json l all) = Ok d ->
    well_formed (fun _ => True) names_collide_only_raw (PDict d).
Proof. exact report_names. Qed.
Print Assumptions C45_collisions.

Example C45_example :
  match snd (l <- lnk_init (FromBytes drive_and_string) CpNone true ;; yaml_tree l false) with
  | Ok t =>
      map fst t = ["Guid"; "Link flags"; "File flags"; "Creation time"; "Accessed time"; "Modified time"; "File size";
                   "Icon index"; "Windowstyle"; "Hotkey"; "EMPTY_LINE_PLACEHOLDERSIZE"; "EMPTY_LINE_PLACEHOLDERTARGET";
                   "EMPTY_LINE_PLACEHOLDERLINK INFO"; "EMPTY_LINE_PLACEHOLDERDATA"; "EMPTY_LINE_PLACEHOLDEREXTRA"]%string
      /\ dget "Link flags" t = Some (PS "HasTargetIDList | HasName | IsUnicode - (133)")
      /\ dget "File flags" t = Some (PS "FILE_ATTRIBUTE_ARCHIVE - (32)")
      /\ at_path [Key "EMPTY_LINE_PLACEHOLDERTARGET"; Key "Items"; Element 0; Key "Volume Item"; Key "Flags"] (PDict t) <> None
      /\ at_path [Key "EMPTY_LINE_PLACEHOLDERDATA"; Key "Description"] (PDict t) = Some (PStr [0x68; 0x1F600])
  | Err _ => False
  end.
Proof. vm_compute. repeat split. discriminate. Qed.
