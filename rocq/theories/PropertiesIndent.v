(** * Property C57: the text of the readable report

    The YAML library is not modelled: [dump] is any function from the tree that print_lnk_file
    builds to a text. SpecIndent.v says what is printed for a text: every marker becomes a line
    feed, every line that is not blank is indented by three spaces, a title comes first. *)
From Verif Require Import Lemmas Codec LnkFile Report Readable.
From Verif Require Import Spec SpecHeader SpecText SpecReport SpecIndent.
From Verif Require Import IndentProofs PropertiesReport.

(** ** C57. Exactly this is printed. *)
Theorem C57_text :
  forall dump l all tree t,
    snd (yaml_tree l all) = Ok tree ->
    printed (dump tree) t <-> snd (print_lnk_file dump l all) = Ok t.
Proof. exact print_printed. Qed.
Print Assumptions C57_text.

(** The markers of the section headings are never shown. *)
Theorem C57_no_marker :
  forall dump l all t, snd (print_lnk_file dump l all) = Ok t -> ~ contains empty_line_marker t.
Proof. exact print_no_marker. Qed.
Print Assumptions C57_no_marker.

(** Nothing else is lost: what is printed determines the dump, up to its markers. *)
Theorem C57_recovered :
  forall y y' t u, printed y t -> printed y' t -> marks_replaced y u -> marks_replaced y' u.
Proof. exact printed_replaced. Qed.
Print Assumptions C57_recovered.

Theorem C57_recovered_exactly :
  forall y y' t,
    ~ contains empty_line_marker y -> ~ contains empty_line_marker y' -> printed y t -> printed y' t -> y = y'.
Proof. exact printed_recovers. Qed.
Print Assumptions C57_recovered_exactly.

(** A text of the file that contains the marker is not shown as it is, however it is dumped. *)
Theorem C57_strings_shown_refuted :
  exists b l tree, snd (lnk_init (FromBytes b) CpNone true) = Ok l /\ snd (yaml_tree l false) = Ok tree
  /\ at_path [Key "EMPTY_LINE_PLACEHOLDERDATA"; Key "Description"] (PDict tree) = Some (PStr empty_line_marker)
  /\ forall dump t, snd (print_lnk_file dump l false) = Ok t -> ~ contains empty_line_marker t.
Proof. exact marker_shown_refuted. Qed.
Print Assumptions C57_strings_shown_refuted.

(** A dump of a line, a section and a blank line. *)
Example C57_example :
  let dump := fun _ => s2t "Guid: x" ++ [10] ++ s2t "EMPTY_LINE_PLACEHOLDERSIZE: 1" ++ [10; 32; 10] ++ s2t "y" in
  match snd (l <- lnk_init (FromBytes drive_and_string) CpNone true ;; print_lnk_file dump l false) with
  | Ok t => t = s2t "Windows Shortcut Information:" ++ [10] ++ s2t "   Guid: x" ++ [10; 10] ++ s2t "   SIZE: 1" ++ [10; 32; 10]
                ++ s2t "   y" ++ [10]
  | Err _ => False
  end.
Proof. vm_compute. reflexivity. Qed.
