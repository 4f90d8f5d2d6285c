(** * lnk_file.py: [lnk_command], [print_shortcut_target], [print_json],
    [print_lnk_file] and [main] *)
From Verif Require Import Py PyTime Codec Utils Header StringData Targets Info Extra LnkFile Json.

(** ** [subprocess.list2cmdline([arg])] (CPython 3.11) *)

(** The loop over the characters; [bs] counts the buffered backslashes. The result is the
    text produced and the backslashes left in the buffer. *)
Fixpoint l2c_loop (arg : text) (bs : nat) : text * nat :=
  match arg with
  | [] => ([], bs)
  | c :: r =>
    if c =? 92 then l2c_loop r (S bs)
    else if c =? 34 then
      let (out, b) := l2c_loop r 0 in (repeat 92 (bs * 2) ++ [92; 34] ++ out, b)
    else
      let (out, b) := l2c_loop r 0 in (repeat 92 bs ++ [c] ++ out, b)
  end.

Definition list2cmdline1 (arg : text) : text :=
  let needquote := existsb (N.eqb 32) arg || existsb (N.eqb 9) arg || (lenN arg =? 0) in
  let (out, bs) := l2c_loop arg 0 in
  if needquote then [34] ++ out ++ repeat 92 bs ++ repeat 92 bs ++ [34] else out ++ repeat 92 bs.

(** string_data.py:69-70, 75-76: [relative_path()] and [command_line_arguments()] *)
Definition sd_get (k : string) (sd : string_data) : option text :=
  match dget k (sd_data sd) with Some (PStr t) => Some t | _ => None end.

(** lnk_file.py:160-171 [lnk_command]; [os.fsdecode(None)] and [" ".join] of a None raise
    TypeError. *)
Definition lnk_command (l : lnk) : M text :=
  has_path <- has_flag "HasRelativePath" (l_header l) ;;
  out1 <- (if has_path : bool then
             match sd_get "relative_path" (l_string_data l) with
             | None => raise TypeError
             | Some p => ret [Some (list2cmdline1 p)]
             end
           else ret []) ;;
  has_args <- has_flag "HasArguments" (l_header l) ;;
  let out2 := if has_args : bool then [sd_get "command_line_arguments" (l_string_data l)] else [] in
  match Codec.all_some (out1 ++ out2) with
  | None => raise TypeError
  | Some parts => ret (join (s2t " ") parts)
  end.

(** ** [print_lnk_file] *)

(** Python's [upper], [lower] and [capitalize] on ASCII identifiers. *)
Definition upper_char (c : ascii) : ascii :=
  let n := N_of_ascii c in if (97 <=? n) && (n <=? 122) then ascii_of_N (n - 32) else c.
Definition lower_char (c : ascii) : ascii :=
  let n := N_of_ascii c in if (65 <=? n) && (n <=? 90) then ascii_of_N (n + 32) else c.
Fixpoint map_string (f : ascii -> ascii) (s : string) : string :=
  match s with EmptyString => EmptyString | String c r => String (f c) (map_string f r) end.
Definition upper := map_string upper_char.
Definition lower := map_string lower_char.
Definition capitalize (s : string) : string :=
  match s with EmptyString => EmptyString | String c r => String (upper_char c) (lower r) end.
(** [s.replace("_", " ")] *)
Definition underscores_to_spaces := map_string (fun c => if Ascii.eqb c "_" then " "%char else c).

(** lnk_file.py:107-111 [nice_id] *)
Definition strip_r (s : string) : string :=
  match s with String "r" (String "_" r) => r | s => s end.
Definition nice_id (identifier : string) (uppercase : bool) : string :=
  let identifier := strip_r identifier in
  if uppercase || String.eqb (upper identifier) identifier then underscores_to_spaces (upper identifier)
  else underscores_to_spaces (capitalize identifier).

(** A report value used as a dictionary key (only strings occur: the class names of
    shell items, all ASCII). *)
Definition key_of (v : pyval) : string :=
  match v with
  | PStr t => string_of_list_ascii (map ascii_of_N t)
  | _ => EmptyString
  end.

(** lnk_file.py:113-124 [make_keys_nice]; [result[k] = v] keeps the first position of a
    repeated key and the last value. *)
Fixpoint make_keys_nice (uppercase : bool) (v : pyval) {struct v} : pyval :=
  match v with
  | PList l => PList (map (make_keys_nice false) l)
  | PDict d =>
    let nice := (fix rows (d : dict) : list (string * pyval) :=
                   match d with
                   | [] => []
                   | (k, v) :: r => (k, make_keys_nice false v) :: rows r
                   end) d in
    let build (up : bool) (rows : dict) : dict :=
      fold_left (fun res e => dset (nice_id (fst e) up) (snd e) res) rows [] in
    match dget "class" d with
    | Some key => PDict [(key_of key, PDict (build false (dpop "class" nice)))]
    | None => PDict (build uppercase nice)
    end
  | v => v
  end.

(** lnk_file.py:149-157 [format_linkFlags], [format_fileFlags] *)
Definition format_flags (raw_flags : N) (names : list string) : text :=
  join (s2t " | ") (map s2t names)
  ++ (if raw_flags =? 0 then s2t "(" ++ dec_text raw_flags ++ s2t ")"
      else s2t " - (" ++ dec_text raw_flags ++ s2t ")").
Definition format_linkFlags (h : bytes) : M text :=
  n <- r_link_flags h ;; names <- link_flags h ;; ret (format_flags n names).
Definition format_fileFlags (h : bytes) : M text :=
  n <- r_file_flags h ;; names <- file_flags h ;; ret (format_flags n names).

Definition placeholder : string := "EMPTY_LINE_PLACEHOLDER".

(** lnk_file.py:104-139: the dictionary handed to [yaml.dump]. The YAML rendering
    (lines 141-147) is not modelled. *)
Definition yaml_tree (l : lnk) (print_all : bool) : M dict :=
  res <- get_json l print_all ;;
  link_flags <- format_linkFlags (l_header l) ;;
  file_flags <- format_fileFlags (l_header l) ;;
  let res := dupd "header" (on_dict (fun h =>
               dset "file_flags" (PStr file_flags)
                 (dset "link_flags" (PStr link_flags) (dpop "r_hotkey" h)))) res in
  match make_keys_nice true (PDict res) with
  | PDict nice =>
    let nice := map (fun e => (String.append placeholder (fst e), snd e)) nice in
    let header_key := String.append placeholder "HEADER" in
    match dget header_key nice with
    | Some (PDict h) => ret (fold_left (fun res e => dset (fst e) (snd e) res) (dpop header_key nice) h)
    | _ => raise KeyError
    end
  | _ => raise TypeError
  end.

(** ** [main] *)

(** What the command prints on standard output (each followed by a line feed). *)
Inductive output :=
| OutCommand (t : text)          (* print(out) *)
| OutCommandJson (t : text)      (* print(json.dumps({"shortcut_target": out})) *)
| OutJson (t : text)             (* print_json *)
| OutYaml (tree : dict).         (* print_lnk_file *)

(** The namespace produced by argparse (lnk_file.py:350-373). *)
Record args := Args { a_target : bool; a_json : bool; a_cp : cp_arg; a_all : bool }.

(** lnk_file.py:177: [json.dumps] of a one-entry dict with default separators. *)
Definition command_json (out : text) : text :=
  s2t "{" ++ json_string (s2t "shortcut_target") ++ s2t ": " ++ json_string out ++ s2t "}".

(** lnk_file.py:375-382, with the content of the opened file *)
Definition main (content : bytes) (a : args) : M output :=
  l <- lnk_init (FromHandle content) (a_cp a) true ;;
  if a_target a then
    out <- lnk_command l ;;
    ret (if a_json a then OutCommandJson (command_json out) else OutCommand out)
  else if a_json a then
    res <- get_json l (a_all a) ;; ret (OutJson (print_json_text res))
  else
    tree <- yaml_tree l (a_all a) ;; ret (OutYaml tree).
