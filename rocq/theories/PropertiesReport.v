(** * Properties C41-C44, C49, C56: the reports as a whole, their text, the command

    The vocabulary is in SpecReport.v (well-formed reports, positions left out of the abridged
    report, a JSON reader) and SpecCommand.v (splitting a command line). *)
From Verif Require Import Lemmas Codec Utils Header StringData Targets Info Extra LnkFile Json Report.
From Verif Require Import Spec SpecHeader SpecText SpecReport SpecCommand.
From Verif Require Import ApiProofs ReportProofs JsonProofs CommandProofs MainProofs.

(** ** C41. The abridged report is the full one without the positions [left_out]. *)
Theorem C41_abridged :
  forall l,
    fst (get_json l false) = fst (get_json l true)
    /\ match snd (get_json l true), snd (get_json l false) with
       | Ok full, Ok short => PDict short = abridged left_out [] (PDict full)
       | Err e, Err e' => e' = e
       | _, _ => False
       end.
Proof. exact report_abridged. Qed.
Print Assumptions C41_abridged.

(** Position by position: what [abridged] keeps and what it leaves out. *)
Theorem C41_positions :
  forall out q v,
    at_path q (abridged out [] v)
    = if hidden out [] q then None else option_map (abridged out q) (at_path q v).
Proof. exact (fun out q v => at_abridged out q [] v). Qed.
Print Assumptions C41_positions.

(** A number, a string or a time anywhere in the full report is in the short one at the same
    position, or its position is hidden. *)
Theorem C41_leaves :
  forall l full short q v,
    snd (get_json l true) = Ok full -> snd (get_json l false) = Ok short ->
    (forall d, v <> PDict d) -> (forall vs, v <> PList vs) ->
    at_path q (PDict full) = Some v ->
    at_path q (PDict short) = if hidden left_out [] q then None else Some v.
Proof. exact leaves_kept. Qed.
Print Assumptions C41_leaves.

(** A file with an ID list of one drive and a description. *)
Definition drive_and_string : bytes :=
  encode_header (plain_header 0x85) ++ enc16 29 ++ enc16 27 ++ [x2f; x43; x3a; x5c] ++ repeat x00 21 ++ enc16 0
  ++ enc16 3 ++ utf16 [0x68; 0x1F600] ++ enc32 0.
Example C41_example :
  match snd (l <- lnk_init (FromBytes drive_and_string) CpNone true ;;
             full <- get_json l true ;; short <- get_json l false ;; ret (full, short)) with
  | Ok (full, short) =>
      at_path [Key "header"; Key "header_size"] (PDict full) = Some (PN 76)
      /\ at_path [Key "header"; Key "header_size"] (PDict short) = None
      /\ at_path [Key "target"; Key "size"] (PDict full) = Some (PN 29)
      /\ at_path [Key "target"; Key "size"] (PDict short) = None
      /\ at_path [Key "target"; Key "items"; Element 0; Key "class"] (PDict short)
         = at_path [Key "target"; Key "items"; Element 0; Key "class"] (PDict full)
      /\ at_path [Key "target"; Key "items"; Element 0; Key "class"] (PDict short) <> None
  | Err _ => False
  end.
Proof. vm_compute. repeat split. discriminate. Qed.

(** ** C56. Every report is a tree of values with distinct keys, valid times and Unicode text. *)
Theorem C56_well_formed :
  forall src cp allow l all d,
    text_page (page_of cp) -> snd (lnk_init src cp allow) = Ok l -> snd (get_json l all) = Ok d ->
    well_formed (Forall scalar) (fun _ => True) (PDict d).
Proof.
  exact (fun src cp allow l all d HP =>
    report_wf (Forall scalar) (fun _ => True) src cp allow l all d
      (fun _ H => H) (fun _ _ => I) (fun c => page_gives cp c HP)).
Qed.
Print Assumptions C56_well_formed.

(** The keys are distinct and the times valid whatever the code page does. *)
Theorem C56_any_code_page :
  forall src cp allow l all d,
    snd (lnk_init src cp allow) = Ok l -> snd (get_json l all) = Ok d ->
    well_formed (fun _ => True) (fun _ => True) (PDict d).
Proof.
  exact (fun src cp allow l all d =>
    report_wf (fun _ => True) (fun _ => True) src cp allow l all d
      (fun _ _ => I) (fun _ _ => I) (fun _ _ => conj (fun _ _ _ => I) (fun _ => I))).
Qed.
Print Assumptions C56_any_code_page.

Theorem C56_default_code_page : text_page (page_of CpNone).
Proof. exact cp1252_text. Qed.
Print Assumptions C56_default_code_page.

Example C56_example :
  match snd (lnk_init (FromBytes (encode_header (plain_header 4) ++ enc16 1 ++ [x41] ++ enc32 0)) CpNone true) with
  | Ok l => match snd (get_json l true) with
            | Ok d => map fst d = ["size"; "header"; "link_info"; "data"; "extra"]%string
                      /\ dget "data" d = Some (PDict [("description"%string, PS "A")])
            | Err _ => False
            end
  | Err _ => False
  end.
Proof. vm_compute. split; reflexivity. Qed.

(** ** C42. print_json. *)
Theorem C42_valid_json :
  forall src cp allow l all d,
    text_page (page_of cp) -> snd (lnk_init src cp allow) = Ok l -> snd (get_json l all) = Ok d ->
    exists j, read_json (print_json_text d) = Some j /\ denotes j (PDict d) /\ ordered j.
Proof. exact printed_json. Qed.
Print Assumptions C42_valid_json.

Theorem C42_plain_text : forall d, plain (print_json_text d).
Proof. exact (fun d => plain_dumps (PDict d) 0). Qed.
Print Assumptions C42_plain_text.

(** Every well-formed value, not only reports. *)
Theorem C42_every_value :
  forall K d, well_formed (Forall scalar) K (PDict d) ->
    exists j, read_json (print_json_text d) = Some j /\ denotes j (PDict d) /\ ordered j.
Proof. exact value_json. Qed.
Print Assumptions C42_every_value.

(** The JSON value is determined by the text, and two values with the same text have equal
    numbers, strings and times at every position: a JSON value denotes at most one report up
    to the order of the members and the microseconds of the times. *)
Theorem C42_text_determines :
  forall K d d', well_formed (Forall scalar) K (PDict d) -> well_formed (Forall scalar) K (PDict d') ->
    print_json_text d = print_json_text d' -> exists j, denotes j (PDict d) /\ denotes j (PDict d').
Proof. exact text_determines. Qed.
Print Assumptions C42_text_determines.

Example C42_example :
  match snd (l <- lnk_init (FromBytes drive_and_string) CpNone true ;; get_json l true) with
  | Ok d =>
      match read_json (print_json_text d) with
      | Some (JObject [(_, JObject [(k, JStr t)]); (_, JObject []); (_, JObject _); _; (_, JInt n); _]) =>
          k = s2t "description" /\ t = [0x68; 0x1F600] /\ n = Z.of_N (lenN drive_and_string)
      | _ => False
      end
  | Err _ => False
  end.
Proof. vm_compute. repeat split. Qed.

(** ** C43. The command.

    Splitting the command yields the relative path as one argument, then the arguments of the
    argument string, which is kept verbatim. *)
Theorem C43_split :
  forall b cp allow l found e cut c,
    usable cp -> snd (lnk_init (FromBytes b) cp allow) = Ok l ->
    string_walk b string_fields (info_end b) found e cut ->
    snd (lnk_command l) = Ok c ->
    arguments_of c
    = match text_of b cp found "relative_path" with Some p => [p] | None => [] end
      ++ match text_of b cp found "command_line_arguments" with Some a => arguments_of a | None => [] end.
Proof. exact command_split. Qed.
Print Assumptions C43_split.

Theorem C43_verbatim :
  forall b cp allow l found e cut c a,
    usable cp -> snd (lnk_init (FromBytes b) cp allow) = Ok l ->
    string_walk b string_fields (info_end b) found e cut ->
    snd (lnk_command l) = Ok c -> text_of b cp found "command_line_arguments" = Some a ->
    match text_of b cp found "relative_path" with
    | Some p => exists q, c = q ++ [32] ++ a /\ arguments_of q = [p]
    | None => c = a
    end.
Proof. exact command_verbatim. Qed.
Print Assumptions C43_verbatim.

(** Quoting alone, for every string. *)
Theorem C43_quoting :
  forall p, arguments_of (list2cmdline1 p) = [p]
    /\ forall a, arguments_of (list2cmdline1 p ++ [32] ++ a) = p :: arguments_of a.
Proof. exact quoting. Qed.
Print Assumptions C43_quoting.

(** A path with a blank, a quotation mark and a final backslash; one plain and one quoted argument. *)
Definition quoted_path : text := s2t "a " ++ [34] ++ s2t "b\".
Definition two_arguments : text := s2t "x " ++ [34] ++ s2t "y z" ++ [34].
Definition command_file : bytes :=
  encode_header (plain_header 0xA8)
  ++ encode_strings (map (option_map unicode_string) [Some quoted_path; Some two_arguments]) ++ enc32 0.
Definition command_found : list (string * bytes) :=
  [("relative_path"%string, utf16 quoted_path); ("command_line_arguments"%string, utf16 two_arguments)].
Example C43_example :
  string_walk command_file string_fields (info_end command_file) command_found (lenN command_file - 4) false
  /\ match snd (l <- lnk_init (FromBytes command_file) CpNone true ;; lnk_command l) with
     | Ok c => c = [34] ++ s2t "a \" ++ [34] ++ s2t "b\\" ++ [34] ++ s2t " x " ++ [34] ++ s2t "y z" ++ [34]
               /\ arguments_of c = [quoted_path; s2t "x"; s2t "y z"]
     | Err _ => False
     end.
Proof.
  split; [|vm_compute; split; reflexivity].
  replace command_found with
    [("relative_path"%string, slice (76 + 2) (76 + 2 + 10) command_file);
     ("command_line_arguments"%string, slice (88 + 2) (88 + 2 + 14) command_file)] by (vm_compute; reflexivity).
  replace (lenN command_file - 4) with 104 by (vm_compute; reflexivity).
  replace (info_end command_file) with 76 by (vm_compute; reflexivity).
  unfold string_fields. apply string_absent; [reflexivity|].
  apply string_found; [reflexivity|vm_compute; discriminate|reflexivity|].
  apply string_absent; [reflexivity|].
  apply string_found; [reflexivity|vm_compute; discriminate|reflexivity|].
  apply string_absent; [reflexivity|]. apply strings_done.
Qed.

(** ** C44. When there is no command. *)
Theorem C44_raises_exactly :
  forall b cp allow l found e cut,
    usable cp -> snd (lnk_init (FromBytes b) cp allow) = Ok l ->
    string_walk b string_fields (info_end b) found e cut ->
    fst (lnk_command l) = []
    /\ (snd (lnk_command l) = Err TypeError
        <-> missing b found 3 "relative_path" = true \/ missing b found 5 "command_line_arguments" = true)
    /\ (forall x, snd (lnk_command l) = Err x -> x = TypeError /\ cut = true).
Proof. exact command_raises. Qed.
Print Assumptions C44_raises_exactly.

(** "lnk_command never raises" is false: a file that ends inside the count of its relative path. *)
Definition cut_path : bytes := encode_header (plain_header 0x08) ++ [x05].
Theorem C44_never_raises_refuted :
  exists b l, snd (lnk_init (FromBytes b) CpNone true) = Ok l /\ snd (lnk_command l) = Err TypeError.
Proof.
  destruct (snd (lnk_init (FromBytes cut_path) CpNone true)) as [l|] eqn:E.
  - exists cut_path, l. split; [exact E|]. vm_compute in E. injection E as <-. vm_compute. reflexivity.
  - exfalso. vm_compute in E. discriminate.
Qed.
Print Assumptions C44_never_raises_refuted.

Example C44_example :
  string_walk cut_path string_fields (info_end cut_path) [] 76 true
  /\ missing cut_path [] 3 "relative_path" = true /\ missing cut_path [] 5 "command_line_arguments" = false
  /\ missing command_file command_found 3 "relative_path" = false /\ missing command_file command_found 5 "command_line_arguments" = false.
Proof.
  split; [|repeat split; vm_compute; reflexivity]. replace (info_end cut_path) with 76 by (vm_compute; reflexivity).
  unfold string_fields. apply string_absent; [reflexivity|]. apply string_cut; [reflexivity|vm_compute; reflexivity].
Qed.

(** ** C49. The command line program. *)
Theorem C49_constructor_error :
  forall content a e,
    snd (lnk_init (FromHandle content) (a_cp a) true) = Err e ->
    main content a = (fst (lnk_init (FromHandle content) (a_cp a) true), Err e).
Proof. exact main_raises. Qed.
Print Assumptions C49_constructor_error.

(** With -t the command is printed, as JSON when -j is given too; -a is irrelevant. *)
Theorem C49_target :
  forall content json cp all l,
    snd (lnk_init (FromHandle content) cp true) = Ok l ->
    match snd (lnk_command l) with
    | Ok c => snd (main content (Args true json cp all)) = Ok (if json then OutCommandJson (command_json c) else OutCommand c)
    | Err e => snd (main content (Args true json cp all)) = Err e
    end.
Proof. exact main_target. Qed.
Print Assumptions C49_target.

(** What -t -j prints is a JSON object holding the command. *)
Theorem C49_target_json :
  forall content cp all l c,
    text_page (page_of cp) -> snd (lnk_init (FromHandle content) cp true) = Ok l -> snd (lnk_command l) = Ok c ->
    exists t, snd (main content (Args true true cp all)) = Ok (OutCommandJson t)
      /\ read_json t = Some (JObject [(s2t "shortcut_target", JStr c)]).
Proof. exact target_json. Qed.
Print Assumptions C49_target_json.

(** With -j alone the report selected by -a is printed as JSON. *)
Theorem C49_json :
  forall content cp all l,
    text_page (page_of cp) -> snd (lnk_init (FromHandle content) cp true) = Ok l ->
    match snd (get_json l all) with
    | Ok d => exists t j, snd (main content (Args false true cp all)) = Ok (OutJson t)
                /\ read_json t = Some j /\ denotes j (PDict d) /\ ordered j /\ plain t
    | Err e => snd (main content (Args false true cp all)) = Err e
    end.
Proof. exact report_json. Qed.
Print Assumptions C49_json.

(** Otherwise the readable report selected by -a is printed. *)
Theorem C49_readable :
  forall content cp all l,
    snd (lnk_init (FromHandle content) cp true) = Ok l ->
    match snd (yaml_tree l all) with
    | Ok t => snd (main content (Args false false cp all)) = Ok (OutYaml t)
    | Err e => snd (main content (Args false false cp all)) = Err e
    end.
Proof. exact main_yaml. Qed.
Print Assumptions C49_readable.

Example C49_example :
  match snd (main command_file (Args true true CpNone false)), snd (main command_file (Args true false CpNone true)),
        snd (main command_file (Args false true CpNone true)), snd (main command_file (Args false false CpNone true)) with
  | Ok (OutCommandJson t), Ok (OutCommand c), Ok (OutJson r), Ok (OutYaml _) =>
      read_json t = Some (JObject [(s2t "shortcut_target", JStr c)]) /\ arguments_of c = [quoted_path; s2t "x"; s2t "y z"]
      /\ read_json r <> None
  | _, _, _, _ => False
  end.
Proof. vm_compute. repeat split. discriminate. Qed.
