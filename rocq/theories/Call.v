(** * The calls of the constructor: file objects, and the arguments that may be left out *)
From Verif Require Import Py Codec LnkFile.

(** A file opened for reading in binary mode: its bytes and the position in it. Files that change meanwhile, cannot be
    read or are closed, and objects whose truth value is false, are not modelled. *)
Record handle := Handle { content : bytes; position : N }.
(** [f.read()]: all bytes behind the position; it is at the end then. *)
Definition read (h : handle) : bytes * handle :=
  (dropN (position h) (content h), Handle (content h) (N.max (position h) (lenN (content h)))).
(** [f.seek(p)] for p >= 0 *)
Definition seek (p : N) (h : handle) : handle := Handle (content h) p.

(** lnk_file.py:25-34 [LnkFile(fhandle, indata, cp, allow_terminal_blocks)], [None]: left out. The outcome and the file
    as it is left. *)
Definition lnk_call (fhandle : option handle) (indata : option bytes) (cp : cp_arg) (allow : bool) : M lnk * option handle :=
  match fhandle with
  | Some h => let (b, h') := read h in (lnk_init (FromHandle b) cp allow, Some h')
  | None => (match indata with Some b => lnk_init (FromBytes b) cp allow | None => raise AttributeError end, None)
  end.
