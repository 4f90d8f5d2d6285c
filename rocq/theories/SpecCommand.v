(** * Command lines (C43, C44)

    The rules by which the Microsoft C runtime and CommandLineToArgvW split a command line
    into arguments:
    - arguments are separated by blanks and tabs outside quotation marks;
    - [2n] backslashes before a quotation mark are [n] backslashes, and the mark opens or
      closes a quoted part;
    - [2n+1] backslashes before a quotation mark are [n] backslashes and a literal mark;
    - backslashes not before a quotation mark are literal;
    - a pair of marks inside a quoted part is a literal mark. *)
From Verif Require Import Py Codec Spec SpecText.

(** The argument being collected; [None] between arguments. *)
Definition collect (arg : option text) (t : text) : option text :=
  Some (match arg with Some a => a ++ t | None => t end).
Definition with_backslashes (n : nat) (arg : option text) : option text :=
  match n with O => arg | _ => collect arg (repeat 92 n) end.
Definition finish (arg : option text) (rest : list text) : list text :=
  match arg with Some a => a :: rest | None => rest end.

(** [n] backslashes are pending, [quoted] tells whether a quoted part is open. *)
Fixpoint split_from (t : text) (n : nat) (quoted : bool) (arg : option text) : list text :=
  match t with
  | [] => finish (with_backslashes n arg) []
  | c :: r =>
    if c =? 92 then split_from r (S n) quoted arg
    else if c =? 34 then
      if Nat.odd n then split_from r 0 quoted (collect arg (repeat 92 (n / 2)%nat ++ [34]))
      else
        let closed := split_from r 0 (negb quoted) (collect arg (repeat 92 (n / 2)%nat)) in
        match r with
        | c1 :: r1 =>
          if quoted && (c1 =? 34)
          then split_from r1 0 quoted (collect arg (repeat 92 (n / 2)%nat ++ [34]))
          else closed
        | [] => closed
        end
    else if negb quoted && ((c =? 32) || (c =? 9)) then
      finish (with_backslashes n arg) (split_from r 0 false None)
    else split_from r 0 quoted (collect arg (repeat 92 n ++ [c]))
  end.
Definition arguments_of (command : text) : list text := split_from command 0 false None.

(** The text of one of the strings found in a file. *)
Definition text_of (b : bytes) (cp : cp_arg) (found : list (string * bytes)) (name : string) : option text :=
  option_map (fun f => stored_text (bit_set 7 b) cp (snd f)) (find (fun f => String.eqb name (fst f)) found).

(** A string announced by the link flags but not found. *)
Definition missing (b : bytes) (found : list (string * bytes)) (i : N) (name : string) : bool :=
  bit_set i b && negb (existsb (fun f => String.eqb name (fst f)) found).
