(** * Property C65: how a report fails - the exception, and the warnings given before it

    SpecFailure.v says for a file given as bytes which exception ends the report and which warnings are given before
    it. Together with SpecOutcome.v and SpecWhole.v it describes everything that [get_json] can do. *)
From Verif Require Import Py PyTime Codec Utils Sha256 LnkFile.
From Verif Require Import Spec SpecText SpecHeader SpecTime SpecDouble SpecItems SpecInfo SpecExtra SpecOutcome SpecEntries SpecBlocks SpecWhole SpecFailure.
From Verif Require Import FailureProofs PropertiesOutcome.

(** Both reports, the complete and the abridged one, fail exactly as the specification says. *)
Theorem C65_failures :
  forall b cp allow l all e said,
    usable cp -> snd (lnk_init (FromBytes b) cp allow) = Ok l ->
    (get_json l all = (said, Err e) <-> report_fails b cp e said).
Proof. exact (fun b cp allow l all e said Hcp Hl => fails_iff b cp allow l Hcp Hl all e said). Qed.
Print Assumptions C65_failures.

(** All that can happen to a complete report: the result and the warnings, for every file that can be opened. *)
Theorem C65_everything :
  forall b cp allow l said r,
    usable cp -> snd (lnk_init (FromBytes b) cp allow) = Ok l ->
    (get_json l true = (said, r)
     <-> match r with
         | Ok d => report_outcome b None /\ whole_report b cp allow d said
         | Err e => report_fails b cp e said
         end).
Proof. exact (fun b cp allow l said r Hcp Hl => complete_iff b cp allow l Hcp Hl said r). Qed.
Print Assumptions C65_everything.

(** The specifications say exactly one thing about each file that can be opened. *)
Theorem C65_determined :
  forall b cp allow,
    usable cp -> constructible b ->
    exists said r,
      (match r with
       | Ok d => report_outcome b None /\ whole_report b cp allow d said
       | Err e => report_fails b cp e said
       end)
      /\ forall said' r',
           (match r' with
            | Ok d => report_outcome b None /\ whole_report b cp allow d said'
            | Err e => report_fails b cp e said'
            end) -> said' = said /\ r' = r.
Proof. exact one_outcome. Qed.
Print Assumptions C65_determined.

(** A header with a wrong class identifier, an impossible creation time and a reserved field that is not zero; an item
    of an unknown type; and a file entry without its fixed part. *)
Definition strange_header (flags : N) : bytes :=
  enc32 77 ++ repeat x01 16 ++ enc32 flags ++ enc32 0 ++ enci64 9223372036854775807 ++ enci64 0 ++ enci64 0
  ++ enc32 0 ++ enc32 0 ++ enc32 1 ++ [x00; x00] ++ enc16 0 ++ enc32 5 ++ enc32 0 ++ [x00].
Definition warned_and_cut : bytes :=
  strange_header 1 ++ enc16 6 ++ enc16 3 ++ [n2b 0x99] ++ enc16 3 ++ [n2b 0x31] ++ enc32 0.
Example C65_example :
  report_fails warned_and_cut CpNone StructError
    [WMustBe "link_cls_id"; WFiletime (enci64 9223372036854775807); WMustBe "size"; WMustBe "reserved1"; WItemType 0x99].
Proof. apply fails_by_running. vm_compute. repeat split. Qed.

(** A header that ends behind its second time: of its fields, the class identifier and the two times are read. *)
Example C65_short_header :
  report_fails (takeN 44 (strange_header 0)) CpNone StructError [WMustBe "link_cls_id"; WFiletime (enci64 9223372036854775807)].
Proof. apply fails_by_running. vm_compute. repeat split. Qed.

(** A Darwin block without a product code, and a network location in the ID list without its strings. *)
Example C65_other_exceptions :
  report_fails darwin_of_zeros CpNone IndexError [] /\ report_fails lonely_location CpNone RuntimeError [].
Proof. split; apply fails_by_running; vm_compute; repeat split. Qed.
