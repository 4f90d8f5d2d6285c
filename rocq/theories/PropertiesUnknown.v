(** * Property C66: every outcome of the constructor, and a code page that does not exist

    [CpUnknown] stands for a code page whose name Python does not know. SpecUnknown.v describes what the constructor
    does with every file and every code page, this one included. *)
From Verif Require Import Py PyTime Codec Utils LnkFile Report.
From Verif Require Import Spec SpecText SpecUnknown.
From Verif Require Import UnknownProofs.

(** All that the constructor can do: its warnings, in order, and how it ends. *)
Theorem C66_constructor :
  forall b cp allow said e,
    (fst (lnk_init (FromBytes b) cp allow) = said
     /\ match snd (lnk_init (FromBytes b) cp allow) with Ok _ => None | Err x => Some x end = e)
    <-> construction b cp said e.
Proof. exact construction_iff. Qed.
Print Assumptions C66_constructor.

(** The specification says one thing about each file and code page. *)
Theorem C66_determined :
  forall b cp, exists said e, construction b cp said e
    /\ forall said' e', construction b cp said' e' -> said = said' /\ e = e'.
Proof.
  exact (fun b cp => ex_intro _ _ (ex_intro _ _ (conj (construction_of b cp true)
    (fun said e => construction_det b cp _ _ said e (construction_of b cp true))))).
Qed.
Print Assumptions C66_determined.

(** A string without text needs no code page, a string with text needs one. *)
Theorem C66_string :
  forall field,
    (before_nul field = [] -> read_string CpUnknown field = ret [])
    /\ (before_nul field <> [] -> read_string CpUnknown field = raise LookupError).
Proof. exact unknown_string. Qed.
Print Assumptions C66_string.

(** If a link can be made at all with the unknown page, it can be made with every page, with the same warnings and the
    same size; and its report is the report with any page, or it ends in a LookupError before some of it is read. *)
Theorem C66_report :
  forall src cp allow l all,
    snd (lnk_init src CpUnknown allow) = Ok l ->
    exists l', lnk_init src cp allow = (fst (lnk_init src CpUnknown allow), Ok l') /\ l_size l' = l_size l
      /\ (get_json l all = get_json l' all
          \/ exists said more, get_json l all = (said, Err LookupError) /\ fst (get_json l' all) = said ++ more).
Proof. exact unknown_report. Qed.
Print Assumptions C66_report.

(** The command line with an unknown page: what it does with any other page, or a LookupError. So a run that does not
    end in a LookupError would have been the same with every page. *)
Theorem C66_command_line :
  forall content target json cp all,
    main content (Args target json CpUnknown all) = main content (Args target json cp all)
    \/ exists said more,
         main content (Args target json CpUnknown all) = (said, Err LookupError)
         /\ fst (main content (Args target json cp all)) = said ++ more.
Proof. exact unknown_main. Qed.
Print Assumptions C66_command_line.

(** A file of a header and one string: one character wide, and two. *)
Definition with_name (flags : N) (name : bytes) : bytes :=
  enc32 76 ++ repeat x00 16 ++ enc32 flags ++ repeat x00 52 ++ name ++ repeat x00 4.
Example C66_example_string :
  construction (with_name 4 (enc16 1 ++ [x41])) CpUnknown [] (Some LookupError)
  /\ construction (with_name 4 (enc16 1 ++ [x41])) CpNone [] None
  /\ construction (with_name 0x84 (enc16 1 ++ [x41; x00])) CpUnknown [] None
  /\ construction (with_name 4 (enc16 2 ++ [x00; x41])) CpUnknown [] None.
Proof. repeat split; apply (C66_constructor _ _ true); split; vm_compute; reflexivity. Qed.
Example C66_example_failures :
  construction [x4c; x00] CpNone [] (Some StructError)
  /\ construction (enc32 3) CpNone [WMustBe "size"] (Some StructError)
  /\ construction (enc32 77 ++ repeat x00 10) CpNone [WMustBe "size"; WMustBe "size"] (Some StructError)
  /\ construction (with_name 0 [] ++ [x03; x00; x00; x00; x01; x01; x01; x01]) CpNone [] None
  /\ construction (takeN 76 (with_name 0 []) ++ [x03; x00; x00; x00; x01; x01; x01; x01]) CpNone [WExtraSig] (Some StructError).
Proof. repeat split; apply (C66_constructor _ _ true); split; vm_compute; reflexivity. Qed.

(** The text of an environment block needs the page only when a report is made. *)
Definition environment_block (ansi : bytes) : bytes :=
  enc32 788 ++ enc32 0xA0000001 ++ ansi ++ repeat x00 (260 - length ansi) ++ repeat x00 520.
Definition reports_with (cp : cp_arg) (b : bytes) : option exn :=
  match snd (lnk_init (FromBytes b) cp true) with
  | Ok l => match snd (get_json l true) with Ok _ => None | Err e => Some e end
  | Err e => Some e
  end.
Example C66_example_report :
  let b := takeN 76 (with_name 0 []) ++ environment_block [x41] ++ repeat x00 4 in
  construction b CpUnknown [] None /\ reports_with CpUnknown b = Some LookupError /\ reports_with CpNone b = None
  /\ reports_with CpUnknown (takeN 76 (with_name 0 []) ++ environment_block [] ++ repeat x00 4) = None.
Proof. cbv zeta. split; [apply (C66_constructor _ _ true); split; vm_compute; reflexivity|]. vm_compute. repeat split. Qed.
