(** * The command line: the arguments of the program

    [main] builds an [argparse.ArgumentParser] (lnk_file.py:349-373) and runs it on the arguments. Modelled is what
    argparse of Python 3.11.10 does for this parser: which arguments are options, which words are taken, what is stored.
    The texts of the help and of the messages are not modelled. *)
From Verif Require Import Py Codec Utils LnkFile Report.

(** lnk_file.py:349-372: the options; [-h] is added by argparse. *)
Inductive action := AHelp | ATarget | AJson | ACp | AAll.
(** [_option_string_actions] of the parser, in the order of the [add_argument] calls (lnk_file.py:350-372) *)
Definition option_strings : list (text * action) :=
  [(s2t "-h", AHelp); (s2t "--help", AHelp); (s2t "-t", ATarget); (s2t "--target", ATarget); (s2t "-j", AJson); (s2t "--json", AJson);
   (s2t "-c", ACp); (s2t "--codepage", ACp); (s2t "-a", AAll); (s2t "--all", AAll)].
(** lnk_file.py:359-365: only the code page takes an argument. *)
Definition takes_argument (a : action) : bool := match a with ACp => true | _ => false end.
(** A look-up in [_option_string_actions]. *)
Definition find_option (w : text) : option action :=
  option_map snd (find (fun e => text_eqb w (fst e)) option_strings).

(** [w.partition("=")]: before, whether there is one, behind *)
Fixpoint partition_eq (w : text) : text * bool * text :=
  match w with
  | [] => ([], false, [])
  | c :: r => if c =? 61 then ([], true, r) else let '(p, s, q) := partition_eq r in (c :: p, s, q)
  end.
(** [w.startswith(p)] *)
Fixpoint starts_with (p w : text) : bool :=
  match p, w with
  | [], _ => true
  | c :: p', d :: w' => (c =? d) && starts_with p' w'
  | _ :: _, [] => false
  end.

(** An option as found in an argument: what it stands for ([None]: no such option), the option string, the separator,
    the explicit argument. *)
Record found_option := Found { f_action : option action; f_string : text; f_sep : option text; f_explicit : option text }.

(** argparse.py [_get_option_tuples] *)
Definition option_tuples (w : text) : list found_option :=
  match w with
  | _ :: c :: rest =>
    if c =? 45 then
      let '(p, sep, e) := partition_eq w in
      flat_map (fun '(s, a) =>
        if starts_with p s then [Found (Some a) s (if sep then Some [61] else None) (if sep then Some e else None)] else [])
        option_strings
    else
      flat_map (fun '(s, a) =>
        if text_eqb s (firstn 2 w) then [Found (Some a) s (Some []) (Some rest)]
        else if starts_with w s then [Found (Some a) s None None] else []) option_strings
  | _ => []
  end.

Section Digits.
  (** Which characters match [\d]: 0 to 9 and the other decimal digits of Unicode. *)
  Variable digit : N -> bool.

  (** [re.match(r"^-\d+$|^-\d*\.\d+$", w)] of argparse.py [_negative_number_matcher]; [$] also matches before a line feed
      at the end. *)
  Fixpoint decimal (r : text) : bool :=
    match r with
    | [] => false
    | c :: r' => (c =? 46) && negb (match r' with [] => true | _ => false end) && forallb digit r' || digit c && decimal r'
    end.
  Definition exactly_number (w : text) : bool :=
    match w with
    | c :: r => (c =? 45) && (negb (match r with [] => true | _ => false end) && forallb digit r || decimal r)
    | [] => false
    end.
  Definition negative_number (w : text) : bool :=
    exactly_number w || match rev w with c :: r => (c =? 10) && exactly_number (rev r) | [] => false end.

  (** argparse.py [_parse_optional]; [Ambiguous] ends in [parser.error]. *)
  Inductive parsed := Positional | Optional (f : found_option) | Ambiguous.
  Definition parse_optional (w : text) : parsed :=
    match w with
    | [] => Positional
    | c :: r =>
      if negb (c =? 45) then Positional
      else match find_option w with
      | Some a => Optional (Found (Some a) w None None)
      | None =>
        match r with
        | [] => Positional
        | _ =>
          let '(p, sep, e) := partition_eq w in
          match (if sep then find_option p else None) with
          | Some a => Optional (Found (Some a) p (Some [61]) (Some e))
          | None =>
            match option_tuples w with
            | _ :: _ :: _ => Ambiguous
            | [f] => Optional f
            | [] =>
              if negative_number w then Positional
              else if existsb (N.eqb 32) w then Positional
              else Optional (Found None w None None)
            end
          end
        end
      end
    end.

  (** argparse.py [_parse_known_args], the pattern: A, O or - for each argument; behind "--" all are A. [None]: an
      ambiguous option, the parser has ended the program. *)
  Inductive kind := KA | KO (f : found_option) | KDash.
  Fixpoint classify (ws : list text) : option (list (text * kind)) :=
    match ws with
    | [] => Some []
    | w :: r =>
      if text_eqb w (s2t "--") then Some ((w, KDash) :: map (fun x => (x, KA)) r)
      else match parse_optional w with
      | Ambiguous => None
      | Positional => match classify r with Some l => Some ((w, KA) :: l) | None => None end
      | Optional f => match classify r with Some l => Some ((w, KO f) :: l) | None => None end
      end
    end.
End Digits.

(** The namespace (lnk_file.py:350-373) and the list [extras]. *)
Record namespace := Ns { n_file : option text; n_target : bool; n_json : bool; n_cp : text; n_all : bool; n_extras : list text }.
(** The defaults: lnk_file.py:356, 358, 363, 370 *)
Definition defaults : namespace := Ns None false false (s2t "cp1252") false [].

(** How parsing ends: the help and exit status 0; a message and exit status 2; the namespace. *)
Inductive parsing := Helped | Refused | Namespace (ns : namespace).

(** [take_action] for an option: store_true, store or help *)
Definition take (a : action) (v : option text) (ns : namespace) : option namespace :=
  match a with
  | AHelp => None
  | ATarget => Some (Ns (n_file ns) true (n_json ns) (n_cp ns) (n_all ns) (n_extras ns))
  | AJson => Some (Ns (n_file ns) (n_target ns) true (n_cp ns) (n_all ns) (n_extras ns))
  | ACp =>
    Some (Ns (n_file ns) (n_target ns) (n_json ns) (match v with Some t => t | None => n_cp ns end) (n_all ns) (n_extras ns))
  | AAll => Some (Ns (n_file ns) (n_target ns) (n_json ns) (n_cp ns) true (n_extras ns))
  end.
Fixpoint take_all (acts : list (action * option text)) (ns : namespace) : option namespace :=
  match acts with
  | [] => Some ns
  | (a, v) :: r => match take a v ns with Some ns' => take_all r ns' | None => None end
  end.
Definition add_extras (l : list text) (ns : namespace) : namespace :=
  Ns (n_file ns) (n_target ns) (n_json ns) (n_cp ns) (n_all ns) (n_extras ns ++ l).
Definition set_file (f : text) (ns : namespace) : namespace :=
  Ns (Some f) (n_target ns) (n_json ns) (n_cp ns) (n_all ns) (n_extras ns).

(** argparse.py [consume_optional], the loop over the letters of one argument: it ends in an ArgumentError ([Bad]), with
    all actions known and perhaps an extra, or with a last action whose arguments are to follow. *)
Inductive letters := Bad | Done (acts : list (action * option text)) (extra : list text) | Follow (acts : list (action * option text)) (a : action).
Definition and_before (a : action) (l : letters) : letters :=
  match l with
  | Bad => Bad
  | Done acts x => Done ((a, None) :: acts) x
  | Follow acts b => Follow ((a, None) :: acts) b
  end.
Definition nonempty_text (t : text) : bool := match t with [] => false | _ => true end.
(** The loop with an explicit argument [e]; [single]: the option string is one of a single dash, [sep]: the separator is
    a nonempty string. *)
Fixpoint explicit_loop (a : action) (single sep : bool) (e : text) : letters :=
  if takes_argument a then Done [(a, Some e)] []
  else if single then
    match e with
    | [] => Bad
    | c :: e1 =>
      if sep || (c =? 45) then Bad
      else match find_option [45; c] with
      | Some a' =>
        and_before a match e1 with
                     | [] => Follow [] a'
                     | c1 :: e2 => if c1 =? 61 then explicit_loop a' true true e2 else explicit_loop a' true false e1
                     end
      | None => Done [(a, None)] [45 :: e]
      end
    end
  else Bad.
Definition single_dash (s : text) : bool := match s with _ :: c :: _ => negb (c =? 45) | _ => false end.
Definition option_letters (a : action) (f : found_option) : letters :=
  match f_explicit f with
  | None => Follow [] a
  | Some e => explicit_loop a (single_dash (f_string f)) (match f_sep f with Some s => nonempty_text s | None => false end) e
  end.

(** argparse.py [consume_optional] for the argument [w]; [rest]: the arguments behind it *)
Inductive step := Stop (p : parsing) | Go (ns : namespace) (rest : list (text * kind)).
Definition taken (o : option namespace) (rest : list (text * kind)) : step :=
  match o with Some ns => Go ns rest | None => Stop Helped end.
Definition consume_optional (w : text) (f : found_option) (rest : list (text * kind)) (ns : namespace) : step :=
  match f_action f with
  | None => Go (add_extras [w] ns) rest
  | Some a =>
    match option_letters a f with
    | Bad => Stop Refused
    | Done acts x => taken (take_all acts (add_extras x ns)) rest
    | Follow acts b =>
      if takes_argument b then
        match rest with
        | (v, KA) :: rest' => taken (take_all (acts ++ [(b, Some v)]) ns) rest'
        | _ => Stop Refused
        end
      else taken (take_all (acts ++ [(b, None)]) ns) rest
    end
  end.

(** argparse.py [consume_positionals]: FILE takes what matches -*A-*; without the first "--" it is one argument. *)
Fixpoint dashes (l : list (text * kind)) : nat := match l with (_, KDash) :: r => S (dashes r) | _ => O end.
Definition file_count (l : list (text * kind)) : nat :=
  match skipn (dashes l) l with
  | (_, KA) :: r => (dashes l + 1 + dashes r)%nat
  | _ => O
  end.
Fixpoint remove_dashes (l : list text) : list text :=
  match l with
  | [] => []
  | w :: r => if text_eqb w (s2t "--") then r else w :: remove_dashes r
  end.
Definition consume_positionals (l : list (text * kind)) (ns : namespace) : namespace * list (text * kind) :=
  match n_file ns with
  | Some _ => (ns, l)
  | None =>
    match remove_dashes (map fst (firstn (file_count l) l)) with
    | [f] => (set_file f ns, skipn (file_count l) l)
    | _ => (ns, l)
    end
  end.

(** argparse.py [_parse_known_args], the main loop. The position is the list of the arguments from it on. *)
Definition is_option (e : text * kind) : bool := match snd e with KO _ => true | _ => false end.
Fixpoint to_option (l : list (text * kind)) : list text * list (text * kind) :=
  match l with
  | [] => ([], [])
  | e :: r => if is_option e then ([], l) else let '(x, l') := to_option r in (fst e :: x, l')
  end.
Definition at_option (l : list (text * kind)) (ns : namespace) : step :=
  match to_option l with
  | (x, (w, KO f) :: r) => consume_optional w f r (add_extras x ns)
  | (x, r) => Go (add_extras x ns) r
  end.
Definition one_step (l : list (text * kind)) (ns : namespace) : step :=
  match l with
  | (_, KO _) :: _ => at_option l ns
  | _ =>
    let '(ns', l') := consume_positionals l ns in
    if Nat.ltb (length l') (length l) then Go ns' l' else at_option l' ns'
  end.
(** Behind the last option, and [parse_args]: FILE is required, nothing may be left over. *)
Definition finish (l : list (text * kind)) (ns : namespace) : parsing :=
  let '(ns1, l1) := consume_positionals l ns in
  let ns2 := add_extras (map fst l1) ns1 in
  match n_file ns2, n_extras ns2 with
  | Some _, [] => Namespace ns2
  | _, _ => Refused
  end.
Fixpoint parse_loop (fuel : nat) (l : list (text * kind)) (ns : namespace) : parsing :=
  match fuel with
  | O => Refused
  | S fuel' =>
    if existsb is_option l then
      match one_step l ns with Stop p => p | Go ns' l' => parse_loop fuel' l' ns' end
    else finish l ns
  end.
(** lnk_file.py:373 [arg_parser.parse_args()] *)
Definition parse_args (digit : N -> bool) (argv : list text) : parsing :=
  match classify digit argv with
  | None => Refused
  | Some l => parse_loop (S (length l)) l defaults
  end.

(** text_processor.py:13-14 and the code page that Python knows by a name ([codecs]: the others) *)
Definition page_named (codecs : text -> option codec) (name : text) : cp_arg :=
  if text_eqb name [] || text_eqb name (s2t "cp1252") then CpNone
  else match codecs name with Some c => CpCodec c | None => CpUnknown end.
(** lnk_file.py:348-382: a run of the program. [files]: the contents of the files that can be opened; [NoSuchFile]: the
    exception of [open], whichever. *)
Inductive process := Exit (status : N) | NoSuchFile | Ran (o : M output).
Definition program (digit : N -> bool) (codecs : text -> option codec) (files : text -> option bytes) (argv : list text) : process :=
  match parse_args digit argv with
  | Helped => Exit 0
  | Refused => Exit 2
  | Namespace ns =>
    match n_file ns with
    | None => Exit 2
    | Some f =>
      match files f with
      | None => NoSuchFile
      | Some content => Ran (main content (Args (n_target ns) (n_json ns) (page_named codecs (n_cp ns)) (n_all ns)))
      end
    end
  end.
