(** * Every outcome of a run of the command line (C69) *)
From Verif Require Import Py Codec LnkFile Report.
From Verif Require Import Spec SpecText SpecReport SpecCommand SpecReadable SpecOutcome SpecWhole SpecFailure SpecUnknown SpecJsonText.

(** ** Opening the file: as the constructor does, but an empty file is refused as such *)
Inductive opened (b : bytes) (cp : cp_arg) : list warning -> option exn -> Prop :=
| opened_empty : b = [] -> opened b cp [] (Some LnkParserError)
| opened_as_constructed said e : b <> [] -> construction b cp said e -> opened b cp said e.

(** ** The command

    The path as one argument: between quotation marks if it is empty or has a blank or a tab in it; a quotation mark
    gets a backslash; backslashes before a quotation mark (the closing one, too) are doubled. *)
Inductive argument_body (closed : bool) : text -> text -> Prop :=
| body_end n : argument_body closed (repeat 92 n) (repeat 92 (if closed then 2 * n else n))
| body_mark n r t :
    argument_body closed r t -> argument_body closed (repeat 92 n ++ 34 :: r) (repeat 92 (2 * n + 1) ++ 34 :: t)
| body_other n c r t :
    c <> 34 -> c <> 92 -> argument_body closed r t -> argument_body closed (repeat 92 n ++ c :: r) (repeat 92 n ++ c :: t).
Definition needs_marks (p : text) : Prop := p = [] \/ In 32 p \/ In 9 p.
Inductive argument (p : text) : text -> Prop :=
| argument_marked t : needs_marks p -> argument_body true p t -> argument p (34 :: t ++ [34])
| argument_bare t : ~ needs_marks p -> argument_body false p t -> argument p t.

(** The path and the arguments, with a blank between them if there are both. *)
Inductive command_of : option text -> option text -> text -> Prop :=
| no_command : command_of None None []
| only_path p q : argument p q -> command_of (Some p) None q
| only_arguments a : command_of None (Some a) a
| path_and_arguments p q a : argument p q -> command_of (Some p) (Some a) (q ++ [32] ++ a).

Inductive target_run (b : bytes) (cp : cp_arg) : result text -> Prop :=
| string_missing found e cut :
    string_walk b string_fields (info_end b) found e cut ->
    missing b found 3 "relative_path" = true \/ missing b found 5 "command_line_arguments" = true ->
    target_run b cp (Err TypeError)
| command_built found e cut c :
    string_walk b string_fields (info_end b) found e cut ->
    missing b found 3 "relative_path" = false -> missing b found 5 "command_line_arguments" = false ->
    command_of (text_of b cp found "relative_path") (text_of b cp found "command_line_arguments") c ->
    target_run b cp (Ok c).

(** ** The report: full, or without what -a adds *)
Definition selected (all : bool) (full chosen : dict) : Prop :=
  PDict chosen = if all then PDict full else abridged left_out [] (PDict full).

(** The tree behind the readable report. *)
Definition readable (d tree : dict) : Prop :=
  exists h lines sections,
    dget "header" d = Some (PDict h) /\ tree = lines ++ sections
    /\ shown false (PDict (header_shown h)) (PDict lines)
    /\ Forall2 (fun e s => fst s = String.append empty_line (heading (fst e)) /\ shown false (snd e) (snd s))
         (others d) sections.

(** ** The run *)
Inductive run (b : bytes) : args -> list warning -> result output -> Prop :=
| run_not_opened target json cp all said e :
    opened b cp said (Some e) -> run b (Args target json cp all) said (Err e)
| run_no_target json cp all said e :
    opened b cp said None -> target_run b cp (Err e) -> run b (Args true json cp all) said (Err e)
| run_target cp all said c :
    opened b cp said None -> target_run b cp (Ok c) -> run b (Args true false cp all) said (Ok (OutCommand c))
| run_target_json cp all said c q :
    opened b cp said None -> target_run b cp (Ok c) -> quoted c q ->
    run b (Args true true cp all) said (Ok (OutCommandJson (s2t "{""shortcut_target"": " ++ q ++ s2t "}")))
| run_no_report json cp all said more e :
    opened b cp said None -> report_fails b cp e more -> run b (Args false json cp all) (said ++ more) (Err e)
| run_json cp all said more full d t :
    opened b cp said None -> report_outcome b None -> whole_report b cp true full more -> selected all full d ->
    printed (PDict d) t -> run b (Args false true cp all) (said ++ more) (Ok (OutJson t))
| run_readable cp all said more full d tree :
    opened b cp said None -> report_outcome b None -> whole_report b cp true full more -> selected all full d ->
    readable d tree -> run b (Args false false cp all) (said ++ more) (Ok (OutYaml tree)).
