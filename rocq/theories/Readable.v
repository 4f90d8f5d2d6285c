(** * lnk_file.py: the text printed by [print_lnk_file] *)
From Verif Require Import Py LnkFile Json Report.

(** ** [str.replace], [str.splitlines(True)], [textwrap.indent] (CPython 3.11) *)

Fixpoint prefixb (m s : text) : bool :=
  match m, s with
  | [], _ => true
  | c :: m, d :: s => (c =? d) && prefixb m s
  | _ :: _, [] => false
  end.
(** [s.replace(m, new)] for a non-empty [m], from the left; [skip] characters belong to the last
    occurrence found. *)
Fixpoint replace_from (m new : text) (skip : nat) (s : text) : text :=
  match s with
  | [] => []
  | c :: r =>
    match skip with
    | S k => replace_from m new k r
    | O => if prefixb m s then new ++ replace_from m new (length m - 1) r else c :: replace_from m new 0 r
    end
  end.
Definition replace (m new s : text) : text := replace_from m new 0 s.

(** [_PyUnicode_IsLinebreak] *)
Definition is_linebreak (c : N) : bool :=
  existsb (N.eqb c) [0x0A; 0x0B; 0x0C; 0x0D; 0x1C; 0x1D; 0x1E; 0x85; 0x2028; 0x2029].
(** [_PyUnicode_IsWhitespace] *)
Definition is_whitespace (c : N) : bool :=
  ((0x09 <=? c) && (c <=? 0x0D)) || ((0x1C <=? c) && (c <=? 0x20)) || (c =? 0x85) || (c =? 0xA0) || (c =? 0x1680)
  || ((0x2000 <=? c) && (c <=? 0x200A)) || (c =? 0x2028) || (c =? 0x2029) || (c =? 0x202F) || (c =? 0x205F) || (c =? 0x3000).

(** [s.splitlines(True)]; [cur] is the line being read, backwards. *)
Fixpoint splitlines (cur s : text) : list text :=
  match s with
  | [] => match cur with [] => [] | _ => [rev cur] end
  | c :: r =>
    if c =? 0x0D then
      match r with
      | d :: r' => if d =? 0x0A then rev (d :: c :: cur) :: splitlines [] r' else rev (c :: cur) :: splitlines [] r
      | [] => [rev (c :: cur)]
      end
    else if is_linebreak c then rev (c :: cur) :: splitlines [] r
    else splitlines (c :: cur) r
  end.
(** [textwrap.indent(s, prefix)]: [line.strip()] is true if some character is not white space. *)
Definition indent (prefix s : text) : text :=
  flat_map (fun line => if existsb (fun c => negb (is_whitespace c)) line then prefix ++ line else line) (splitlines [] s).

(** lnk_file.py:141-147: what is printed, for an arbitrary YAML dumper *)
Definition print_lnk_file (dump : dict -> text) (l : lnk) (print_all : bool) : M text :=
  tree <- yaml_tree l print_all ;;
  let res_yaml := replace (s2t placeholder) [10] (dump tree) in
  ret (s2t "Windows Shortcut Information:" ++ [10] ++ indent (s2t "   ") res_yaml ++ [10]).
