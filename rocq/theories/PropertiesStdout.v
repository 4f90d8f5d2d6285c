(** * Property C77: what is written on standard output, byte for byte

    For every file, every combination of -t, -j, -c and -a, every encoding of standard output that works character by
    character and both kinds of line ends: the bytes written, and whether the run ends well. How the dump of [yaml.dump]
    looks is left open ([dump]). The vocabulary is in SpecStdout.v. *)
From Verif Require Import Lemmas Codec Utils Header StringData Targets Info Extra LnkFile Json Report Stdout.
From Verif Require Import Spec SpecHeader SpecText SpecReport SpecUnknown SpecJsonText SpecRun SpecStdout.
From Verif Require Import PropertiesReport.
From Verif Require Import UnknownProofs RunProofs StdoutProofs.

Theorem C77_every_run :
  forall s dump content target json cp all said b e,
    usable cp -> python_page (page_of cp) ->
    session s dump content (Args target json cp all) = (said, (b, e))
    <-> writes s dump content (Args target json cp all) said b e.
Proof. exact session_iff. Qed.
Print Assumptions C77_every_run.

(** Without -c nothing is assumed. *)
Theorem C77_default_code_page :
  forall s dump content target json all said b e,
    session s dump content (Args target json CpNone all) = (said, (b, e))
    <-> writes s dump content (Args target json CpNone all) said b e.
Proof.
  exact (fun s dump content target json all said b e =>
    session_iff s dump content target json CpNone all said b e RunProofs.none_usable (JsonTextProofs.text_python _ C56_default_code_page)).
Qed.
Print Assumptions C77_default_code_page.

(** An unknown code page: the same bytes as with every page, or none and a LookupError; with the warnings of every page up
    to there. C76 tells which. *)
Theorem C77_unknown_page :
  forall s dump content target json cp all,
    session s dump content (Args target json CpUnknown all) = session s dump content (Args target json cp all)
    \/ exists said more,
         session s dump content (Args target json CpUnknown all) = (said, ([], Raised LookupError))
         /\ fst (session s dump content (Args target json cp all)) = said ++ more.
Proof. exact unknown_session. Qed.
Print Assumptions C77_unknown_page.

(** ** JSON *)

(** Whatever is in the file, -j is written on every standard output that can write ASCII, and it is the JSON text (C68,
    C69) and a line end, in ASCII. Nothing is written before an exception. No assumption on the code page. *)
Theorem C77_json :
  forall s dump content target cp all w b e,
    ascii_stream s -> session s dump content (Args target true cp all) = (w, (b, e)) ->
    (exists x, e = Raised x /\ b = [] /\ main content (Args target true cp all) = (w, Err x))
    \/ e = Done /\ exists o t,
        main content (Args target true cp all) = (w, Ok o) /\ (o = OutCommandJson t \/ o = OutJson t)
        /\ ascii_bytes (crlf s) (t ++ [10]) b /\ Forall (fun c => c = 10 \/ 32 <= c <= 126) t.
Proof. exact json_written. Qed.
Print Assumptions C77_json.

(** The encoding of standard output, the locale and the YAML library do not matter to it. *)
Theorem C77_json_same_everywhere :
  forall s1 s2 dump1 dump2 content target cp all,
    ascii_stream s1 -> ascii_stream s2 -> crlf s1 = crlf s2 ->
    session s1 dump1 content (Args target true cp all) = session s2 dump2 content (Args target true cp all).
Proof. exact json_same. Qed.
Print Assumptions C77_json_same_everywhere.

(** Equal bytes, equal JSON texts. *)
Theorem C77_json_recovered :
  forall s1 s2 dump1 dump2 content1 content2 target cp1 cp2 all1 all2 w1 w2 b,
    ascii_stream s1 -> ascii_stream s2 -> crlf s1 = crlf s2 ->
    session s1 dump1 content1 (Args target true cp1 all1) = (w1, (b, Done)) ->
    session s2 dump2 content2 (Args target true cp2 all2) = (w2, (b, Done)) ->
    snd (main content1 (Args target true cp1 all1)) = snd (main content2 (Args target true cp2 all2)).
Proof. exact json_recovered. Qed.
Print Assumptions C77_json_recovered.

(** -t -j writes one line. *)
Theorem C77_target_json_one_line :
  forall s dump content cp all w b,
    ascii_stream s -> session s dump content (Args true true cp all) = (w, (b, Done)) ->
    exists line, b = line ++ (if crlf s then [x0d; x0a] else [x0a]) /\ Forall (fun x => 32 <= b2n x <= 126) line.
Proof. exact target_json_line. Qed.
Print Assumptions C77_target_json_one_line.

(** ** The command *)

(** -t writes the command and a line end if every character has an encoding, and otherwise nothing. *)
Theorem C77_target :
  forall s dump content cp all w c,
    ascii_stream s -> main content (Args true false cp all) = (w, Ok (OutCommand c)) ->
    (exists b, session s dump content (Args true false cp all) = (w, (b, Done)) /\ encoded s (c ++ [10]) b
               /\ ~ not_encodable s c)
    \/ session s dump content (Args true false cp all) = (w, ([], NotEncodable)) /\ not_encodable s c.
Proof. exact target_exact. Qed.
Print Assumptions C77_target.

(** With UTF-8 it is always written, in UTF-8; and the bytes give the command back. *)
Theorem C77_target_utf8 :
  forall s dump content cp all w c,
    utf8_stream s -> text_page (page_of cp) -> main content (Args true false cp all) = (w, Ok (OutCommand c)) ->
    exists u, line_ends (crlf s) (c ++ [10]) u /\ session s dump content (Args true false cp all) = (w, (utf8 u, Done)).
Proof. exact target_utf8. Qed.
Print Assumptions C77_target_utf8.
Theorem C77_target_recovered :
  forall s1 s2 dump1 dump2 content1 content2 cp1 cp2 all1 all2 w1 w2 b,
    utf8_stream s1 -> utf8_stream s2 -> crlf s1 = crlf s2 -> text_page (page_of cp1) -> text_page (page_of cp2) ->
    session s1 dump1 content1 (Args true false cp1 all1) = (w1, (b, Done)) ->
    session s2 dump2 content2 (Args true false cp2 all2) = (w2, (b, Done)) ->
    snd (main content1 (Args true false cp1 all1)) = snd (main content2 (Args true false cp2 all2)).
Proof. exact target_recovered. Qed.
Print Assumptions C77_target_recovered.

(** ** The readable report *)

(** Its title is always written; the rest is, if all of its characters can be, and otherwise nothing of it is. *)
Theorem C77_readable :
  forall s dump content cp all w tree b e,
    ascii_stream s -> main content (Args false false cp all) = (w, Ok (OutYaml tree)) ->
    session s dump content (Args false false cp all) = (w, (b, e)) ->
    exists first,
      ascii_bytes (crlf s) (s2t "Windows Shortcut Information:" ++ [10]) first
      /\ (e = NotEncodable /\ b = first /\ (exists t, SpecIndent.printed (dump tree) t /\ not_encodable s t)
          \/ e = Done /\ exists t, SpecIndent.printed (dump tree) t /\ encoded s t b).
Proof. exact readable_exact. Qed.
Print Assumptions C77_readable.

(** With UTF-8 no run ends in [print]. *)
Theorem C77_utf8 :
  forall s dump content target json cp all w b e,
    utf8_stream s -> text_page (page_of cp) -> (forall tree, Forall scalar (dump tree)) ->
    session s dump content (Args target json cp all) = (w, (b, e)) -> e <> NotEncodable.
Proof. exact utf8_always. Qed.
Print Assumptions C77_utf8.

(** ** Examples *)

(** UTF-8 and ASCII. *)
Definition utf8_out (windows : bool) : stream :=
  Stream (fun c => if (c <? 0xD800) || (0xDFFF <? c) && (c <? 0x110000) then Some (utf8_char c) else None) windows.
Definition ascii_out : stream := Stream (fun c => if c <? 128 then Some [n2b c] else None) false.
Example C77_example_streams : (forall w, utf8_stream (utf8_out w)) /\ ascii_stream ascii_out.
Proof.
  split.
  - intros w c. cbn [encode utf8_out]. unfold scalar.
    destruct ((c <? 0xD800) || (0xDFFF <? c) && (c <? 0x110000)) eqn:E; split; intros H; try reflexivity; exfalso; [apply H|]; lia.
  - intros c H. cbn [encode ascii_out]. now replace (c <? 128) with true by lia.
Qed.

Definition no_dump (_ : dict) : text := s2t "a: 1" ++ [10].
Definition asked (target json : bool) : args := Args target json CpNone false.
Definition line (s : string) : bytes := map n2b (s2t s).
(** The shortcut of C43: a path with a blank and a quotation mark, two arguments. *)
Example C77_example_command :
  session (utf8_out false) no_dump command_file (asked true false) = ([], (line """a \""b\\"" x ""y z""" ++ [x0a], Done))
  /\ session (utf8_out true) no_dump command_file (asked true true)
     = ([], (line "{""shortcut_target"": ""\""a \\\""b\\\\\"" x \""y z\""""}" ++ [x0d; x0a], Done))
  /\ session (utf8_out true) no_dump command_file (asked false false)
     = ([], (line "Windows Shortcut Information:" ++ [x0d; x0a] ++ line "   a: 1" ++ [x0d; x0a; x0d; x0a], Done))
  /\ session ascii_out no_dump [] (asked true true) = ([], ([], Raised LnkParserError)).
Proof. repeat split; vm_compute; reflexivity. Qed.

(** "-t prints one line" is false: the arguments are printed as they are, and two lines of a listing can come from one
    file. With -j they are one line. *)
Definition two_lines_file : bytes :=
  encode_header (plain_header 0xA8)
  ++ encode_strings (map (option_map unicode_string) [Some (s2t "a.exe"); Some (s2t "-x" ++ [10] ++ s2t "b.exe")]) ++ enc32 0.
Theorem C77_target_one_line_refuted :
  exists s dump content w b,
    utf8_stream s /\ session s dump content (asked true false) = (w, (b, Done))
    /\ b = line "a.exe -x" ++ [x0a] ++ line "b.exe" ++ [x0a]
    /\ snd (snd (session s dump content (asked true true))) = Done.
Proof.
  exists (utf8_out false), no_dump, two_lines_file, [], (line "a.exe -x" ++ [x0a] ++ line "b.exe" ++ [x0a]).
  split; [apply C77_example_streams|]. split; [vm_compute; reflexivity|]. split; [reflexivity|vm_compute; reflexivity].
Qed.

(** "A shortcut whose command can be asked for can have it printed" is false on a standard output without its
    characters: the run fails with a traceback. With -j it does not. *)
Definition chinese_file : bytes :=
  encode_header (plain_header 0x88) ++ encode_strings (map (option_map unicode_string) [Some [0x4E2D; 0x6587]]) ++ enc32 0.
Theorem C77_target_always_printed_refuted :
  exists s dump content,
    ascii_stream s /\ main content (asked true false) = ([], Ok (OutCommand [0x4E2D; 0x6587]))
    /\ session s dump content (asked true false) = ([], ([], NotEncodable))
    /\ session s dump content (asked true true) = ([], (line "{""shortcut_target"": ""\u4e2d\u6587""}" ++ [x0a], Done)).
Proof.
  exists ascii_out, no_dump, chinese_file. split; [apply C77_example_streams|]. repeat split; vm_compute; reflexivity.
Qed.

(** Nor is it true with UTF-8 for every code page: utf-7 and unicode_escape can yield half of a surrogate pair, which
    UTF-8 has no bytes for. *)
Definition half_page : codec := Codec (fun _ => Some [0xD83D]) (fun _ => [0xD83D]).
Definition ansi_file : bytes := encode_header (plain_header 0x8) ++ encode_strings [Some (page_string [x61])] ++ enc32 0.
Theorem C77_utf8_every_page_refuted :
  exists s dump content page,
    utf8_stream s /\ python_page page
    /\ session s dump content (Args true false (CpCodec page) false) = ([], ([], NotEncodable))
    /\ snd (snd (session s dump content (Args true true (CpCodec page) false))) = Done.
Proof.
  exists (utf8_out false), no_dump, ansi_file, half_page. split; [apply C77_example_streams|]. split.
  - split; [intros b t [= <-]|intros b]; repeat constructor.
  - split; vm_compute; reflexivity.
Qed.

(** A readable report that stops after its title. *)
Example C77_example_title_only :
  session ascii_out (fun _ => [0x4E2D]) chinese_file (asked false false)
  = ([], (line "Windows Shortcut Information:" ++ [x0a], NotEncodable)).
Proof. vm_compute. reflexivity. Qed.
