(** * Property C72: asking a link for a single field

    The methods of a link, its header, its link info and its sections that read one field, called one by one. SpecFields.v
    says from the bytes of the file what each of them gives, and where the answers stand in a report. *)
From Verif Require Import Lemmas Codec Utils Header StringData Targets Info Extra LnkFile Report Fields.
From Verif Require Import Spec SpecText SpecHeader SpecInfo SpecExtra SpecOutcome SpecFields.
From Verif Require Import FieldsProofs FieldsReportProofs.

(** ** C72. Every question, also to a file of which no report can be made, gets the answer (and the warnings) read off the
    bytes. *)
Theorem C72_answers :
  forall b cp allow l q said r,
    usable cp -> snd (lnk_init (FromBytes b) cp allow) = Ok l ->
    ask l q = (said, r) <-> asked b cp allow q said r.
Proof. intros b cp allow l q said r Hcp Hl. exact (asked_iff b cp allow l Hcp Hl q said r). Qed.
Print Assumptions C72_answers.
(** The specification always says something, and never two things. *)
Theorem C72_determined :
  forall b cp allow l q,
    usable cp -> snd (lnk_init (FromBytes b) cp allow) = Ok l ->
    (exists said r, asked b cp allow q said r)
    /\ forall said1 r1 said2 r2, asked b cp allow q said1 r1 -> asked b cp allow q said2 r2 -> said1 = said2 /\ r1 = r2.
Proof. exact asked_determined. Qed.
Print Assumptions C72_determined.

(** What stands in the report is what the method gives. *)
Theorem C72_as_reported :
  forall b cp allow l full q v,
    usable cp -> snd (lnk_init (FromBytes b) cp allow) = Ok l -> snd (get_json l true) = Ok full ->
    report_entry full q = Some v -> snd (ask l q) = Ok (Value v).
Proof. intros b cp allow l full q v Hcp Hl Hf. exact (report_answers b cp allow l full Hcp Hl Hf q v). Qed.
Print Assumptions C72_as_reported.
(** What the report leaves out is nothing, has no place in a report, or is one of two names. *)
Theorem C72_left_out :
  forall b cp allow l full q v,
    usable cp -> snd (lnk_init (FromBytes b) cp allow) = Ok l -> snd (get_json l true) = Ok full ->
    report_entry full q = None -> snd (ask l q) = Ok (Value v) ->
    nothing v \/ In q without_place \/ In q read_from_zero.
Proof. intros b cp allow l full q v Hcp Hl Hf. exact (report_leaves_out b cp allow l full Hcp Hl Hf q v). Qed.
Print Assumptions C72_left_out.
(** Of these two: what is left out, but is not None, is text read at the start of the share, when Unicode names are
    announced and the offset is zero. *)
Theorem C72_unset_names :
  forall b cp allow l full m v raw o,
    usable cp -> snd (lnk_init (FromBytes b) cp allow) = Ok l -> snd (get_json l true) = Ok full ->
    In (OfNetwork m) read_from_zero -> report_entry full (OfNetwork m) = None -> snd (ask l (OfNetwork m)) = Ok (Value v) ->
    raw = dropN (id_list_end b) b -> o = num 4 20 raw ->
    v = PNone \/ 20 < num 4 (o + 8) raw /\ num 4 (o + name_offset m) raw = 0 /\ v = PStr (wide_text (dropN o raw)).
Proof. intros b cp allow l full m v raw o Hcp Hl Hf. exact (unset_names b cp allow l full Hcp Hl Hf m v raw o). Qed.
Print Assumptions C72_unset_names.
(** Of a file with a report, a method fails only when the file lacks the part it belongs to. *)
Theorem C72_only_missing_parts :
  forall b cp allow l full q e,
    usable cp -> snd (lnk_init (FromBytes b) cp allow) = Ok l -> snd (get_json l true) = Ok full ->
    snd (ask l q) = Err e ->
    e = AttributeError
    /\ match q with
       | OfInfo _ => info_processed b = false
       | OfLocal _ => info_processed b = false \/ N.testbit (num 4 8 (dropN (id_list_end b) b)) 0 = false
       | OfNetwork _ => info_processed b = false \/ N.testbit (num 4 8 (dropN (id_list_end b) b)) 0 = true
       | OfSection IdListSize | OfSection TargetsSize | OfSection TargetsList => has_id_list b = false
       | _ => False
       end.
Proof. intros b cp allow l full q e Hcp Hl Hf. exact (only_missing_parts b cp allow l full Hcp Hl Hf q e). Qed.
Print Assumptions C72_only_missing_parts.

(** ** Examples

    A header of which 30 bytes are there: no report, but its flags can be asked for. *)
Definition cut_file : bytes := takeN 30 (encode_header (plain_header 0x80)).
Definition answer_of (b : bytes) (q : question) : option (M answer) :=
  match snd (lnk_init (FromBytes b) CpNone true) with Ok l => Some (ask l q) | Err _ => None end.
Definition reports (b : bytes) : option (result dict) :=
  match snd (lnk_init (FromBytes b) CpNone true) with Ok l => Some (snd (get_json l true)) | Err _ => None end.
Example C72_cut_file :
  reports cut_file = Some (Err StructError)
  /\ answer_of cut_file (Is IsUnicode) = Some ([], Ok (Truth true))
  /\ answer_of cut_file (OfHeader HRawLinkFlags) = Some ([], Ok (Value (PN 0x80)))
  /\ answer_of cut_file (OfHeader HFileSize) = Some ([], Err StructError)
  /\ answer_of cut_file (OfSection TargetsList) = Some ([], Err AttributeError)
  /\ answer_of cut_file (OfSection LinkSize) = Some ([], Ok (Value (PN 76))).
Proof. vm_compute. repeat split. Qed.

(** A share that announces Unicode names and leaves their offsets zero: the report has no Unicode name, the method gives
    "0", the size of the share read as text. The English claim "what the report leaves out is nothing" is false. *)
Example C72_unset_file :
  answer_of unset_bytes (OfNetwork NNameUnicode) = Some ([], Ok (Value (PStr (s2t "0"))))
  /\ answer_of unset_bytes (OfNetwork NNameOffsetUnicode) = Some ([], Ok (Value (PN 0)))
  /\ answer_of unset_bytes (OfLocal LSerial) = Some ([], Err AttributeError)
  /\ answer_of unset_bytes (OfInfo ILocation) = Some ([], Ok (Value (PS "Network"))).
Proof. vm_compute. repeat split. Qed.
Theorem C72_report_shows_all_names_refuted :
  exists b l full v,
    snd (lnk_init (FromBytes b) CpNone true) = Ok l /\ snd (get_json l true) = Ok full
    /\ report_entry full (OfNetwork NNameUnicode) = None /\ snd (ask l (OfNetwork NNameUnicode)) = Ok (Value v)
    /\ ~ nothing v.
Proof. exact unset_names_lost. Qed.
Print Assumptions C72_report_shows_all_names_refuted.
