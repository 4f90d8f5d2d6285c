(** * Lines, indentation and section markers *)
From Verif Require Import Py.

Definition contains (m t : text) : Prop := exists a b, t = a ++ m ++ b.
(** The texts of a list, with [m] between them. *)
Inductive joined (m : text) : list text -> text -> Prop :=
| joined_one p : joined m [p] p
| joined_more p ps t : joined m ps t -> joined m (p :: ps) (p ++ m ++ t).

Definition empty_line_marker : text := s2t "EMPTY_LINE_PLACEHOLDER".
(** [u] is [y] with every marker turned into a line feed. *)
Definition marks_replaced (y u : text) : Prop :=
  exists pieces, joined empty_line_marker pieces y /\ Forall (fun p => ~ contains empty_line_marker p) pieces
  /\ joined [10] pieces u.

(** Python's line boundaries. *)
Definition line_boundary (c : N) : Prop :=
  In c [0x0A; 0x0B; 0x0C; 0x0D; 0x1C; 0x1D; 0x1E; 0x85; 0x2028; 0x2029].
(** [e] ends a line that is followed by [rest]; a carriage return and a line feed count as one. *)
Definition line_end (e rest : text) : Prop :=
  e = [0x0D; 0x0A] \/ exists c, e = [c] /\ line_boundary c /\ ~ (c = 0x0D /\ exists r, rest = 0x0A :: r).
Definition one_line (t : text) : Prop := Forall (fun c => ~ line_boundary c) t.
(** The lines of a text, with their ends. *)
Inductive lines : text -> list text -> Prop :=
| lines_none : lines [] []
| lines_last t : t <> [] -> one_line t -> lines t [t]
| lines_next t e rest ls : one_line t -> line_end e rest -> lines rest ls -> lines (t ++ e ++ rest) ((t ++ e) :: ls).

(** Python's white space. *)
Definition white (c : N) : Prop :=
  In c [0x09; 0x0A; 0x0B; 0x0C; 0x0D; 0x1C; 0x1D; 0x1E; 0x1F; 0x20; 0x85; 0xA0; 0x1680; 0x2000; 0x2001; 0x2002; 0x2003;
        0x2004; 0x2005; 0x2006; 0x2007; 0x2008; 0x2009; 0x200A; 0x2028; 0x2029; 0x202F; 0x205F; 0x3000].
Definition blank (line : text) : Prop := Forall white line.
(** Three spaces before every line that is not blank. *)
Definition indented (line line' : text) : Prop :=
  (blank line /\ line' = line) \/ (~ blank line /\ line' = [32; 32; 32] ++ line).

(** What is printed for the dump [y]. *)
Definition printed (y t : text) : Prop :=
  exists u ls ls', marks_replaced y u /\ lines u ls /\ Forall2 indented ls ls'
  /\ t = s2t "Windows Shortcut Information:" ++ [10] ++ concat ls' ++ [10].
