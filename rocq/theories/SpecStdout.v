(** * Specification: the bytes on standard output (property C77) *)
From Verif Require Import Py Codec LnkFile Report Stdout.
From Verif Require Import SpecText SpecRun SpecIndent.

(** What is written for a text: a line feed alone, or with a carriage return before it. *)
Inductive line_ends (windows : bool) : text -> text -> Prop :=
| no_ends : line_ends windows [] []
| line_feed t u : line_ends windows t u -> line_ends windows (10 :: t) ((if windows then [13; 10] else [10]) ++ u)
| other_char c t u : c <> 10 -> line_ends windows t u -> line_ends windows (c :: t) (c :: u).
Definition encoded (s : stream) (t : text) (b : bytes) : Prop :=
  exists u parts, line_ends (crlf s) t u /\ Forall2 (fun c p => encode s c = Some p) u parts /\ b = concat parts.
Definition not_encodable (s : stream) (t : text) : Prop :=
  exists u c, line_ends (crlf s) t u /\ In c u /\ encode s c = None.

(** Texts printed one after the other: each with a line feed, or nothing of it if it has a character without bytes. *)
Inductive prints (s : stream) : list text -> bytes -> bool -> Prop :=
| all_printed : prints s [] [] true
| text_printed t rest b more ok : encoded s (t ++ [10]) b -> prints s rest more ok -> prints s (t :: rest) (b ++ more) ok
| text_refused t rest : not_encodable s t -> prints s (t :: rest) [] false
| end_refused t rest b : encoded s t b -> not_encodable s [10] -> prints s (t :: rest) b false.

(** The texts of a run: the command, the JSON text; or the title and the rest of the readable report (C57). *)
Inductive put_out (dump : dict -> text) : output -> list text -> Prop :=
| put_command t : put_out dump (OutCommand t) [t]
| put_command_json t : put_out dump (OutCommandJson t) [t]
| put_json t : put_out dump (OutJson t) [t]
| put_readable tree title body :
    title = s2t "Windows Shortcut Information:" -> printed (dump tree) (title ++ [10] ++ body ++ [10]) ->
    put_out dump (OutYaml tree) [title; body].

(** The warnings, the bytes and the end of a run. *)
Inductive writes (s : stream) (dump : dict -> text) (content : bytes) (a : args) : list warning -> bytes -> ending -> Prop :=
| nothing_written said e : run content a said (Err e) -> writes s dump content a said [] (Raised e)
| output_written said o ts b ok :
    run content a said (Ok o) -> put_out dump o ts -> prints s ts b ok ->
    writes s dump content a said b (if ok then Done else NotEncodable).

(** Streams: ASCII characters are written as themselves (UTF-8, ISO 8859, Windows code pages); UTF-8. *)
Definition ascii_stream (s : stream) : Prop := forall c, c < 128 -> encode s c = Some [n2b c].
Definition utf8_stream (s : stream) : Prop :=
  forall c, (scalar c -> encode s c = Some (utf8_char c)) /\ (~ scalar c -> encode s c = None).
(** The bytes of an ASCII text. *)
Definition ascii_bytes (windows : bool) (t : text) (b : bytes) : Prop := exists u, line_ends windows t u /\ b = map n2b u.
