(** * The arguments of the program (C73)

    What a list of arguments says, word by word; no knowledge of argparse. *)
From Verif Require Import Py Codec LnkFile Report Args.

(** What a word can say: a switch, a code page, help; a word that is no option; an option that does not exist. *)
Inductive saying := SayTarget | SayJson | SayAll | SayPage (name : text) | SayHelp | SayWord (w : text) | SayUnknown.
(** The options: letter, name, meaning. [None]: a code page. *)
Definition switches : list (N * string * option saying) :=
  [(104, "help"%string, Some SayHelp); (116, "target"%string, Some SayTarget); (106, "json"%string, Some SayJson);
   (99, "codepage"%string, None); (97, "all"%string, Some SayAll)].
Definition letter (c : N) (m : option saying) : Prop := exists name, In (c, name, m) switches.
Definition no_letter (c : N) : Prop := forall m, ~ letter c m.
(** A long name may be cut down to any beginning of it. *)
Definition long_name (p : text) (m : option saying) : Prop :=
  p <> [] /\ exists c name q, In (c, name, m) switches /\ s2t name = p ++ q.

(** Letters behind a single dash: switches, then perhaps a code page, with or without "=", in the same word or ([true]) in
    the next one. A letter that is no option spoils the rest of the word; "-" and "=" behind a switch are not allowed. *)
Definition page_of_tail (v : text) : text := match v with c :: r => if c =? 61 then r else v | [] => [] end.
Inductive group : text -> list saying -> bool -> Prop :=
| group_switch c m : letter c (Some m) -> group [c] [m] false
| group_switches c m s l next : letter c (Some m) -> group s l next -> group (c :: s) (m :: l) next
| group_page c v : letter c None -> v <> [] -> group (c :: v) [SayPage (page_of_tail v)] false
| group_page_next c : letter c None -> group [c] [] true
| group_spoilt c m x s : letter c (Some m) -> no_letter x -> x <> 45 -> x <> 61 -> group (c :: x :: s) [m; SayUnknown] false.

(** ** Words that are no options *)
Section Digits.
  Variable digit : N -> bool.
  (** -12, -.5 or -3.75, perhaps with a line feed behind it *)
  Definition digits (t : text) : Prop := Forall (fun c => digit c = true) t.
  Definition number (w : text) : Prop :=
    exists end_, (end_ = [] \/ end_ = [10])
      /\ ((exists t, t <> [] /\ digits t /\ w = 45 :: t ++ end_)
          \/ exists t u, digits t /\ u <> [] /\ digits u /\ w = 45 :: t ++ 46 :: u ++ end_).
  (** It begins like an option, but there is none. *)
  Inductive no_option : text -> Prop :=
  | no_short c s : c <> 45 -> no_letter c -> no_option (45 :: c :: s)
  | no_long p : p <> [] -> ~ In 61 p -> (forall m, ~ long_name p m) -> no_option (45 :: 45 :: p)
  | no_long_value p v : p <> [] -> ~ In 61 p -> (forall m, ~ long_name p m) -> no_option (45 :: 45 :: p ++ 61 :: v).
  Definition plain (w : text) : Prop :=
    w = [] \/ w = [45] \/ (exists c s, c <> 45 /\ w = c :: s) \/ no_option w /\ (number w \/ In 32 w).

  (** ** One option; [true]: its code page is the next word *)
  Inductive option_word : text -> list saying -> bool -> Prop :=
  | short_options s l next : group s l next -> option_word (45 :: s) l next
  | long_switch p m : long_name p (Some m) -> option_word (45 :: 45 :: p) [m] false
  | long_page p v : long_name p None -> option_word (45 :: 45 :: p ++ 61 :: v) [SayPage v] false
  | long_page_next p : long_name p None -> option_word (45 :: 45 :: p) [] true
  | unknown_option w : no_option w -> ~ number w -> ~ In 32 w -> option_word w [SayUnknown] false.

  Definition two_dashes : text := [45; 45].
  (** ** A list of words. Behind "--" nothing is an option; "--" is dropped there, and directly behind a last word. *)
  Inductive says : list text -> list saying -> Prop :=
  | says_nothing : says [] []
  | says_option w l r m : option_word w l false -> says r m -> says (w :: r) (l ++ m)
  | says_page w l v r m : option_word w l true -> plain v -> says r m -> says (w :: v :: r) (l ++ SayPage v :: m)
  | says_word w r m : plain w -> r <> [two_dashes] -> says r m -> says (w :: r) (SayWord w :: m)
  | says_last_word w : plain w -> says [w; two_dashes] [SayWord w]
  | says_only_words w r : says (two_dashes :: w :: r) (map SayWord (w :: r))
  | says_dangling : says [two_dashes] [SayUnknown].
  (** "--=" stands for every long option and ends the program at once, wherever it is. *)
  Definition ambiguous (ws : list text) : Prop :=
    exists before v after, ws = before ++ ([45; 45; 61] ++ v) :: after /\ ~ In two_dashes before.
  (** Help is given as soon as it is asked for. *)
  Inductive says_help : list text -> Prop :=
  | help_now w l r : option_word w l false -> In SayHelp l -> says_help (w :: r)
  | help_with_page w l v r : option_word w l true -> plain v -> In SayHelp l -> says_help (w :: v :: r)
  | help_later w l r : option_word w l false -> says_help r -> says_help (w :: r)
  | help_behind_page w l v r : option_word w l true -> plain v -> says_help r -> says_help (w :: v :: r)
  | help_behind_word w r : plain w -> says_help r -> says_help (w :: r).

  (** ** What is asked for *)
  Record request := Request { q_file : text; q_target : bool; q_json : bool; q_page : text; q_all : bool }.
  (** The last code page counts. *)
  Fixpoint last_page (d : text) (l : list saying) : text :=
    match l with [] => d | SayPage n :: r => last_page n r | _ :: r => last_page d r end.
  Definition words_of (l : list saying) : list text := flat_map (fun s => match s with SayWord w => [w] | _ => [] end) l.
  Definition asks (l : list saying) (q : request) : Prop :=
    words_of l = [q_file q] /\ ~ In SayHelp l /\ ~ In SayUnknown l
    /\ (q_target q = true <-> In SayTarget l) /\ (q_json q = true <-> In SayJson l) /\ (q_all q = true <-> In SayAll l)
    /\ q_page q = last_page (s2t "cp1252") l.
End Digits.
