(** * Property C73: the arguments of the program

    For every list of arguments, and from there to the end of the program. The vocabulary is in SpecArgs.v (what the
    arguments say) and SpecProgram.v; [digit] are the decimal digits of Unicode, [codecs] the code pages of Python,
    [files] the files that can be opened. *)
From Verif Require Import Lemmas Codec Utils LnkFile Json Report.
From Verif Require Import Spec SpecText SpecFailure SpecJsonText SpecRun SpecArgs SpecProgram.
From Verif Require Import Args ArgsProofs ProgramProofs.

(** The whole program. *)
Theorem C73_every_run :
  forall digit codecs files argv p,
    (forall name c, codecs name = Some c -> python_page c) ->
    (forall q, asked digit argv q -> exists cp, code_page_of codecs (q_page q) cp) ->
    program digit codecs files argv = p <-> does digit codecs files argv p.
Proof. exact run_program. Qed.
Print Assumptions C73_every_run.

(** What the parser gives to the program, for every list of arguments. *)
Theorem C73_arguments :
  forall digit argv file target json page all,
    parse_args digit argv = Namespace (Ns (Some file) target json page all [])
    <-> asked digit argv (Request file target json page all).
Proof. exact (fun digit argv file target json page all => args_request digit argv (Request file target json page all)). Qed.
Print Assumptions C73_arguments.
Theorem C73_help :
  forall digit argv, parse_args digit argv = Helped <-> ~ ambiguous argv /\ says_help digit argv.
Proof. exact args_help. Qed.
Print Assumptions C73_help.
Theorem C73_refused :
  forall digit argv,
    parse_args digit argv = Refused <-> ambiguous argv \/ ~ says_help digit argv /\ (forall q, ~ asked digit argv q).
Proof. exact refused_iff. Qed.
Print Assumptions C73_refused.
Theorem C73_determined :
  forall digit argv p q, asked digit argv p -> asked digit argv q -> p = q.
Proof. exact asked_determined. Qed.
Print Assumptions C73_determined.

(** A name that is no option may stand before or behind the options. *)
Theorem C73_name_anywhere :
  forall digit options l file,
    ~ ambiguous options -> says digit options l -> words_of l = [] -> ~ In SayUnknown l -> ~ In SayHelp l -> plain digit file ->
    exists q, asked digit (file :: options) q /\ asked digit (options ++ [file]) q /\ q_file q = file
      /\ (q_target q = true <-> In SayTarget l) /\ (q_json q = true <-> In SayJson l) /\ (q_all q = true <-> In SayAll l)
      /\ q_page q = last_page (s2t "cp1252") l.
Proof. exact name_anywhere. Qed.
Print Assumptions C73_name_anywhere.
(** Behind "--" every name whatsoever is a name. *)
Theorem C73_any_name :
  forall digit options l file,
    ~ ambiguous options -> says digit options l -> words_of l = [] -> ~ In SayUnknown l -> ~ In SayHelp l ->
    exists q, asked digit (options ++ [two_dashes; file]) q /\ q_file q = file
      /\ (q_target q = true <-> In SayTarget l) /\ (q_json q = true <-> In SayJson l) /\ (q_all q = true <-> In SayAll l)
      /\ q_page q = last_page (s2t "cp1252") l.
Proof. exact any_name. Qed.
Print Assumptions C73_any_name.

Definition ascii_digit (c : N) : bool := (48 <=? c) && (c <=? 57).
(** Behind a complete command "--" may be added - except when the name is not the last word. *)
Theorem C73_closing_dashes_refuted :
  exists argv q, asked ascii_digit argv q /\ asked ascii_digit (rev argv) q /\ asked ascii_digit (rev argv ++ [two_dashes]) q
    /\ parse_args ascii_digit (argv ++ [two_dashes]) = Refused.
Proof.
  exists [s2t "a.lnk"; s2t "-t"], (Request (s2t "a.lnk") true false (s2t "cp1252") false).
  repeat match goal with |- _ /\ _ => split end; [apply C73_arguments; vm_compute; reflexivity..|vm_compute; reflexivity].
Qed.
Print Assumptions C73_closing_dashes_refuted.

(** Letters in one word, a cut name, the code page in the next word; a negative number is a name, other words with a
    dash are not. *)
Example C73_example :
  asked ascii_digit [s2t "-tj"; s2t "a.lnk"] (Request (s2t "a.lnk") true true (s2t "cp1252") false)
  /\ asked ascii_digit [s2t "a.lnk"; s2t "-ac"; s2t "cp932"] (Request (s2t "a.lnk") false false (s2t "cp932") true)
  /\ asked ascii_digit [s2t "--co=cp932"; s2t "-cutf-8"; s2t "--j"; s2t "-5.25"] (Request (s2t "-5.25") false true (s2t "utf-8") false)
  /\ asked ascii_digit [s2t "-c=utf-8"; s2t "--"; s2t "--help"] (Request (s2t "--help") false false (s2t "utf-8") false)
  /\ says_help ascii_digit [s2t "a.lnk"; s2t "-th"; s2t "-c"].
Proof.
  repeat match goal with |- _ /\ _ => split end; [apply C73_arguments; vm_compute; reflexivity..|].
  assert (H : parse_args ascii_digit [s2t "a.lnk"; s2t "-th"; s2t "-c"] = Helped) by (vm_compute; reflexivity).
  exact (proj2 (proj1 (C73_help _ _) H)).
Qed.
(** No file, two files, a code page that is missing, an option that does not exist, a value for a switch. *)
Example C73_example_refused :
  Forall (fun argv => parse_args ascii_digit argv = Refused)
    [[]; [s2t "-t"]; [s2t "a.lnk"; s2t "b.lnk"]; [s2t "a.lnk"; s2t "-c"]; [s2t "-c"; s2t "-t"; s2t "a.lnk"]; [s2t "a.lnk"; s2t "-x"];
     [s2t "a.lnk"; s2t "--json=1"]; [s2t "a.lnk"; s2t "--="; s2t "-h"]].
Proof. repeat constructor. Qed.
(** The whole program: an empty file, a file that cannot be opened, help. *)
Definition one_file (name : text) : option bytes := if text_eqb name (s2t "a.lnk") then Some [] else None.
Example C73_example_program :
  let does := does ascii_digit (fun _ => None) one_file in
  does [s2t "-j"; s2t "a.lnk"] (Ran ([], Err LnkParserError)) /\ does [s2t "b.lnk"] NoSuchFile /\ does [s2t "--he"] (Exit 0) /\ does [] (Exit 2).
Proof.
  assert (HP : forall name c, (fun _ : text => @None codec) name = Some c -> python_page c) by discriminate.
  cbn zeta. repeat match goal with |- _ /\ _ => split end.
  all: apply C73_every_run; [exact HP| |vm_compute; reflexivity].
  all: intros q HQ; destruct q as [f t j p a]; apply C73_arguments in HQ; vm_compute in HQ; try discriminate HQ; injection HQ as <- <- <- <- <-.
  all: exists CpNone; left; split; [right; reflexivity|reflexivity].
Qed.
(** Options by themselves, as in C73_name_anywhere and C73_any_name. *)
Example C73_example_options :
  exists l, ~ ambiguous [s2t "-j"; s2t "-c"; s2t "cp932"; s2t "--all"] /\ says ascii_digit [s2t "-j"; s2t "-c"; s2t "cp932"; s2t "--all"] l
    /\ words_of l = [] /\ ~ In SayUnknown l /\ ~ In SayHelp l /\ last_page (s2t "cp1252") l = s2t "cp932" /\ In SayAll l /\ In SayJson l.
Proof.
  exists [SayJson; SayPage (s2t "cp932"); SayAll]. split; [intros HA; apply (classify_none ascii_digit) in HA; vm_compute in HA; discriminate HA|].
  assert (H : read ascii_digit [s2t "-j"; s2t "-c"; s2t "cp932"; s2t "--all"] = Settings [SayJson; SayPage (s2t "cp932"); SayAll]) by (vm_compute; reflexivity).
  split; [exact (proj1 (proj1 (read_settings _ _ _) H))|]. cbn. intuition discriminate.
Qed.
