(** * Property C84: what the printed JSON text keeps of a report

    SpecPrinted.v tells when two values say the same, and how a program takes the values back out of the text. *)
From Verif Require Import Lemmas Codec Utils Header StringData Targets Info Extra LnkFile Json Report.
From Verif Require Import ApiProofs.
From Verif Require Import Spec SpecText SpecHeader SpecReport SpecItems SpecInfo SpecExtra SpecPrinted.
From Verif Require Import PropertiesReport PropertiesBack.
From Verif Require Import PrintedProofs.

(** Two reports, of any files and with any options, are printed alike if and only if they say the same. *)
Theorem C84_lossless :
  forall src1 cp1 allow1 l1 all1 d1 src2 cp2 allow2 l2 all2 d2,
    usable cp1 -> text_page (page_of cp1) -> snd (lnk_init src1 cp1 allow1) = Ok l1 -> snd (get_json l1 all1) = Ok d1 ->
    usable cp2 -> text_page (page_of cp2) -> snd (lnk_init src2 cp2 allow2) = Ok l2 -> snd (get_json l2 all2) = Ok d2 ->
    print_json_text d1 = print_json_text d2 <-> same (PDict d1) (PDict d2).
Proof. exact printed_same. Qed.
Print Assumptions C84_lossless.

(** The report can be taken back out of the text: read the JSON, and take the strings under the four keys for times. *)
Theorem C84_read_back :
  forall src cp allow l all d j,
    usable cp -> text_page (page_of cp) -> snd (lnk_init src cp allow) = Ok l -> snd (get_json l all) = Ok d ->
    read_json (print_json_text d) = Some j -> same (PDict d) (back "" j).
Proof. exact printed_back. Qed.
Print Assumptions C84_read_back.

(** Position by position: two reports that are printed alike have values at the same positions, and these say the same. *)
Theorem C84_positions :
  forall src1 cp1 allow1 l1 all1 d1 src2 cp2 allow2 l2 all2 d2 p x,
    usable cp1 -> text_page (page_of cp1) -> snd (lnk_init src1 cp1 allow1) = Ok l1 -> snd (get_json l1 all1) = Ok d1 ->
    usable cp2 -> text_page (page_of cp2) -> snd (lnk_init src2 cp2 allow2) = Ok l2 -> snd (get_json l2 all2) = Ok d2 ->
    print_json_text d1 = print_json_text d2 ->
    at_path p (PDict d1) = Some x -> exists y, at_path p (PDict d2) = Some y /\ same x y.
Proof. exact printed_at. Qed.
Print Assumptions C84_positions.

(** The fraction of a second is lost: two files whose reports differ are printed alike. *)
Theorem C84_fractions_refuted :
  exists b1 b2 l1 l2 d1 d2,
    snd (lnk_init (FromBytes b1) CpNone true) = Ok l1 /\ snd (lnk_init (FromBytes b2) CpNone true) = Ok l2
    /\ get_json l1 true = ([], Ok d1) /\ get_json l2 true = ([], Ok d2)
    /\ at_path [Key "header"; Key "creation_time"]%string (PDict d1)
       <> at_path [Key "header"; Key "creation_time"]%string (PDict d2)
    /\ print_json_text d1 = print_json_text d2
    /\ b1 = shown_as 1 132223104001000000 /\ b2 = shown_as 1 132223104005000000.
Proof.
  exists (shown_as 1 132223104001000000), (shown_as 1 132223104005000000).
  destruct (snd (lnk_init (FromBytes (shown_as 1 132223104001000000)) CpNone true)) as [l1|] eqn:E1; [|vm_compute in E1; discriminate E1].
  destruct (snd (lnk_init (FromBytes (shown_as 1 132223104005000000)) CpNone true)) as [l2|] eqn:E2; [|vm_compute in E2; discriminate E2].
  vm_compute in E1. injection E1 as <-. vm_compute in E2. injection E2 as <-.
  do 4 eexists. split; [reflexivity|]. split; [reflexivity|]. split; [vm_compute; reflexivity|]. split; [vm_compute; reflexivity|].
  split; [vm_compute; discriminate|]. split; [vm_compute; reflexivity|]. split; reflexivity.
Qed.
Print Assumptions C84_fractions_refuted.

(** ** A file with a time, a string and a known folder: its text, read and taken back. *)
Definition printed_file : bytes := back_first.
Example C84_example :
  match snd (l <- lnk_init (FromBytes printed_file) CpNone true ;; get_json l true) with
  | Ok d =>
    match read_json (print_json_text d) with
    | Some j =>
      at_path [Key "header"; Key "creation_time"]%string (PDict d) = Some (PDate (DT 2020 1 1 0 0 0 0))
      /\ at_path [Key "header"; Key "creation_time"]%string (back "" j) = Some (PDate (DT 2020 1 1 0 0 0 0))
      /\ at_path [Key "data"; Key "description"]%string (back "" j) = Some (PS "ab")
      /\ at_path [Key "extra"; Key "KNOWN_FOLDER_LOCATION_BLOCK"; Key "offset"]%string (back "" j) = Some (PN 7)
    | None => False
    end
  | Err _ => False
  end.
Proof. vm_compute. do 3 (split; [reflexivity|]). reflexivity. Qed.
