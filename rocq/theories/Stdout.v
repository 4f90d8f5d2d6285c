(** * Standard output: the bytes that [print] writes

    The calls of [print] are lnk_file.py:146-147, 177, 179 and 189-197; [print] and [TextIOWrapper.write] are those of
    CPython 3.11. *)
From Verif Require Import Py Codec LnkFile Json Report Readable.

(** A text stream: the bytes of one character ([None]: the encoding has none, UnicodeEncodeError), and whether line
    feeds are written as carriage return and line feed, as on Windows. Encodings that depend on what was written before
    (UTF-16 with a mark, ISO 2022) are not modelled. *)
Record stream := Stream { encode : N -> option bytes; crlf : bool }.

(** [TextIOWrapper.write]: all of the text is encoded before any of it is written. *)
Definition write (s : stream) (t : text) : option bytes :=
  let t := if crlf s then flat_map (fun c => if c =? 10 then [13; 10] else [c]) t else t in
  option_map (@concat byte) (Codec.all_some (map (encode s) t)).
(** [print(t)]: the text, then a line feed. The bytes written, and whether there was no exception. *)
Definition print (s : stream) (t : text) : bytes * bool :=
  match write s t with
  | None => ([], false)
  | Some b => match write s [10] with None => (b, false) | Some n => (b ++ n, true) end
  end.
(** Calls in a row, up to an exception. *)
Fixpoint print_all (s : stream) (ts : list text) : bytes * bool :=
  match ts with
  | [] => ([], true)
  | t :: r => let (b, ok) := print s t in if ok then let (b', ok') := print_all s r in (b ++ b', ok') else (b, false)
  end.
(** The texts printed: lnk_file.py:146-147 [print_lnk_file], with the dump of [yaml.dump]; 177 and 179
    [print_shortcut_target]; 189-197 [print_json] *)
Definition texts (dump : dict -> text) (o : output) : list text :=
  match o with
  | OutCommand t | OutCommandJson t | OutJson t => [t]
  | OutYaml tree =>
    [s2t "Windows Shortcut Information:"; indent (s2t "   ") (replace (s2t placeholder) [10] (dump tree))]
  end.

(** How a run ends: well, with an exception of LnkParse3 or Python's before printing, or in [print]. *)
Inductive ending := Done | Raised (e : exn) | NotEncodable.
(** lnk_file.py:375-382 with the prints: the warnings, the bytes on standard output, the end *)
Definition session (s : stream) (dump : dict -> text) (content : bytes) (a : args) : list warning * (bytes * ending) :=
  match main content a with
  | (said, Err e) => (said, ([], Raised e))
  | (said, Ok o) => let (b, ok) := print_all s (texts dump o) in (said, (b, if ok then Done else NotEncodable))
  end.
