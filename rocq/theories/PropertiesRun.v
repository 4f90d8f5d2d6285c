(** * Property C69: every outcome of a run of the command line

    For every file and every combination of the options -t, -j, -c and -a: which warnings are given, in which order, and
    then which exception is raised or what is printed. The vocabulary is in SpecRun.v. *)
From Verif Require Import Lemmas Codec Utils Header StringData Targets Info Extra LnkFile Json Report.
From Verif Require Import Spec SpecHeader SpecText SpecReport SpecCommand SpecOutcome SpecWhole SpecFailure SpecUnknown SpecJsonText SpecRun.
From Verif Require Import PropertiesReport.
From Verif Require Import UnknownProofs JsonProofs ClassProofs RunProofs.

Theorem C69_every_run :
  forall content target json cp all said r,
    usable cp -> python_page (page_of cp) ->
    main content (Args target json cp all) = (said, r) <-> run content (Args target json cp all) said r.
Proof. exact (fun content target json cp all said r Hcp HP => run_iff content cp Hcp HP target json all said r). Qed.
Print Assumptions C69_every_run.

(** Without -c nothing is assumed. *)
Theorem C69_default_code_page :
  forall content target json all said r,
    main content (Args target json CpNone all) = (said, r) <-> run content (Args target json CpNone all) said r.
Proof.
  exact (fun content target json all said r => run_iff content CpNone none_usable (JsonTextProofs.text_python _ C56_default_code_page) target json all said r).
Qed.
Print Assumptions C69_default_code_page.

(** The specification says exactly one thing about each run. *)
Theorem C69_determined :
  forall content target json cp all,
    usable cp -> python_page (page_of cp) ->
    exists said r, run content (Args target json cp all) said r
      /\ forall said' r', run content (Args target json cp all) said' r' -> said' = said /\ r' = r.
Proof. exact run_determined. Qed.
Print Assumptions C69_determined.

(** Opening the file, also with a code page that does not exist. *)
Theorem C69_opened :
  forall content cp said e,
    opened content cp said e
    <-> fst (lnk_init (FromHandle content) cp true) = said
        /\ match snd (lnk_init (FromHandle content) cp true) with Ok _ => None | Err x => Some x end = e.
Proof. exact opened_iff. Qed.
Print Assumptions C69_opened.

(** The command to the last character. *)
Theorem C69_command :
  forall b cp l r,
    usable cp -> snd (lnk_init (FromBytes b) cp true) = Ok l -> target_run b cp r <-> lnk_command l = ([], r).
Proof. exact target_run_iff. Qed.
Print Assumptions C69_command.

(** An argument, once written down, is read back. *)
Theorem C69_argument :
  forall p, (exists q, argument p q /\ forall q', argument p q' -> q' = q)
    /\ forall q, argument p q -> arguments_of q = [p] /\ forall a, arguments_of (q ++ [32] ++ a) = p :: arguments_of a.
Proof. exact argument_back. Qed.
Print Assumptions C69_argument.

(** A path with a blank, a quotation mark and a final backslash, followed by arguments. *)
Example C69_example_target :
  run command_file (Args true false CpNone false) []
    (Ok (OutCommand (s2t """a \""b\\"" x ""y z""")))
  /\ run command_file (Args true true CpNone false) []
       (Ok (OutCommandJson (s2t "{""shortcut_target"": ""\""a \\\""b\\\\\"" x \""y z\""""}"))).
Proof. split; apply C69_default_code_page; vm_compute; reflexivity. Qed.

(** An empty file, a file that ends inside its header, a file that ends inside its path, asked for its command and for
    a report. *)
Example C69_example_failures :
  run [] (Args false true CpNone true) [] (Err LnkParserError)
  /\ run (takeN 70 (encode_header (plain_header 0))) (Args true false CpNone false) [] (Ok (OutCommand []))
  /\ run (takeN 70 (encode_header (plain_header 0))) (Args false true CpNone false) [] (Err StructError)
  /\ run cut_path (Args true true CpNone false) [WStringData; WExtraData] (Err TypeError).
Proof. repeat split; apply C69_default_code_page; vm_compute; reflexivity. Qed.
Example C69_example_reports :
  exists t tree,
    run drive_and_string (Args false true CpNone false) [] (Ok (OutJson t))
    /\ run drive_and_string (Args false false CpNone false) [] (Ok (OutYaml tree))
    /\ dget "File size" tree = Some (PN 0) /\ dget "EMPTY_LINE_PLACEHOLDERDATA" tree <> None.
Proof.
  destruct (main drive_and_string (Args false true CpNone false)) as [w1 r1] eqn:E1.
  destruct (main drive_and_string (Args false false CpNone false)) as [w2 r2] eqn:E2.
  pose proof (proj1 (C69_default_code_page _ _ _ _ _ _) E1) as H1.
  pose proof (proj1 (C69_default_code_page _ _ _ _ _ _) E2) as H2.
  vm_compute in E1. vm_compute in E2. injection E1 as <- <-. injection E2 as <- <-.
  eexists _, _. split; [exact H1|]. split; [exact H2|]. split; [vm_compute; reflexivity|vm_compute; discriminate].
Qed.
