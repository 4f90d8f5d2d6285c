(** * Specification: a link that is processed again (property C75) *)
From Verif Require Import Py PyTime Codec Sha256 LnkFile Spec SpecText SpecHeader SpecTime SpecDouble SpecItems SpecInfo SpecExtra SpecOutcome SpecEntries SpecBlocks.
From Verif Require Import SpecWhole SpecFailure SpecTrace SpecUnknown SpecReport SpecCommand SpecReadable SpecJsonText SpecRun Fields SpecFields Again.

(** Which file each part of a link was read from, and with which code page. [given] is what the attributes [indata],
    [cp] and [allow_terminal_blocks] hold. *)
Record origin := Origin {
  given : bytes * cp_arg * bool;
  header_from : bytes;
  list_from : option (bytes * cp_arg);       (* None: there is no ID list *)
  info_from : bytes * cp_arg;
  strings_from : bytes * cp_arg;
  extras_from : bytes * cp_arg * bool;
  size_from : bytes * bool }.
(** A new link is of one piece. *)
Definition all_from (b : bytes) (cp : cp_arg) (allow : bool) : origin :=
  Origin (b, cp, allow) b (Some (b, cp)) (b, cp) (b, cp) (b, cp, allow) (b, allow).

(** ** How far processing comes *)
Inductive stage :=
| Nowhere          (* there is no header *)
| ToHeader         (* the header is too small to hold its size *)
| ToList           (* the flags or the size of the ID list are missing *)
| ToStrings        (* the code page is unknown, and needed *)
| ToSize           (* a block is too small to hold its size *)
| ToTheEnd.
Inductive reaches (b : bytes) (cp : cp_arg) : stage -> Prop :=
| reaches_nothing : lenN b < 4 -> reaches b cp Nowhere
| reaches_header : 4 <= lenN b -> header_len b < 4 -> reaches b cp ToHeader
| reaches_list : 4 <= lenN b -> 4 <= header_len b -> ~ room b -> reaches b cp ToList
| reaches_strings found e cut :
    room b -> cp = CpUnknown -> string_walk b string_fields (info_end b) found e cut -> page_needed b found ->
    reaches b cp ToStrings
| reaches_size found e cut blocks r :
    room b -> string_walk b string_fields (info_end b) found e cut -> (cp = CpUnknown -> ~ page_needed b found) ->
    block_walk (dropN e b) blocks r -> ~ sizes_readable blocks -> reaches b cp ToSize
| reaches_the_end found e cut blocks r :
    room b -> string_walk b string_fields (info_end b) found e cut -> (cp = CpUnknown -> ~ page_needed b found) ->
    block_walk (dropN e b) blocks r -> sizes_readable blocks -> reaches b cp ToTheEnd.

(** Of what the link is made then. *)
Definition made_anew (g : origin) (s : stage) : origin :=
  let '(b, cp, allow) := given g in
  match s with
  | Nowhere => g
  | ToHeader => Origin (given g) b (list_from g) (info_from g) (strings_from g) (extras_from g) (size_from g)
  | ToList => Origin (given g) b None (info_from g) (strings_from g) (extras_from g) (size_from g)
  | ToStrings => Origin (given g) b (Some (b, cp)) (b, cp) (strings_from g) (extras_from g) (size_from g)
  | ToSize => Origin (given g) b (Some (b, cp)) (b, cp) (b, cp) (b, cp, allow) (size_from g)
  | ToTheEnd => all_from b cp allow
  end.

(** ** Histories *)
Inductive comes_to : origin -> list act -> origin -> Prop :=
| no_act g : comes_to g [] g
| assigned b cp allow b' acts g g' :
    given g = (b, cp, allow) ->
    comes_to (Origin (b', cp, allow) (header_from g) (list_from g) (info_from g) (strings_from g) (extras_from g) (size_from g)) acts g' ->
    comes_to g (Assign b' :: acts) g'
| page_assigned b cp allow cp' acts g g' :
    given g = (b, cp, allow) ->
    comes_to (Origin (b, cp', allow) (header_from g) (list_from g) (info_from g) (strings_from g) (extras_from g) (size_from g)) acts g' ->
    comes_to g (AssignPage cp' :: acts) g'
| allow_assigned b cp allow allow' acts g g' :
    given g = (b, cp, allow) ->
    comes_to (Origin (b, cp, allow') (header_from g) (list_from g) (info_from g) (strings_from g) (extras_from g) (size_from g)) acts g' ->
    comes_to g (AssignAllow allow' :: acts) g'
| processed b cp allow s acts g g' :
    given g = (b, cp, allow) -> reaches b cp s -> comes_to (made_anew g s) acts g' -> comes_to g (Process :: acts) g'
| only_read a acts g g' :
    match a with Report _ | Size | Flag _ | Strings | Command => True | _ => False end ->
    comes_to g acts g' -> comes_to g (a :: acts) g'.

(** ** The sections of a report *)
Inductive header_section (b : bytes) : list warning -> result dict -> Prop :=
| header_no_class : N.min (header_len b) (lenN b) < 20 -> header_section b [] (Err StructError)
| header_cut h created accessed written :
    h = takeN (header_len b) b -> 20 <= lenN h < 76 ->
    time_read (signed64 28 h) created -> time_read (signed64 36 h) accessed -> time_read (signed64 44 h) written ->
    header_section b (header_tried h created accessed written) (Err StructError)
| header_whole_there h rest created accessed written :
    wf_header h -> b = encode_header h ++ rest ->
    time_read (h_ctime h) created -> time_read (h_atime h) accessed -> time_read (h_wtime h) written ->
    header_section b
      (clsid_warning h ++ time_said (h_ctime h) created ++ time_said (h_atime h) accessed ++ time_said (h_wtime h) written
       ++ size_warning h ++ reserved_warnings h)
      (Ok (header_report h created accessed written)).
(** A section that decodes strings with a code page: [known] with a page that Python knows. With one that it does not know
    the section stops at the first string that needs a page (SpecTrace.v); without such a string it is as with any page. *)
Inductive with_any_page (known : cp_arg -> list warning -> result dict -> Prop) (traced : list event -> Prop)
  : cp_arg -> list warning -> result dict -> Prop :=
| page_known cp said r : usable cp -> known cp said r -> with_any_page known traced cp said r
| page_missed trace before :
    traced trace -> page_stops trace before -> with_any_page known traced CpUnknown (heard CpNone before) (Err LookupError)
| page_not_missed trace said r :
    traced trace -> no_page_needed trace -> known CpNone said r -> with_any_page known traced CpUnknown said r.

Inductive list_known (b : bytes) (cp : cp_arg) : list warning -> result dict -> Prop :=
| list_absent : has_id_list b = false -> list_known b cp [] (Ok [])
| list_there items said :
    has_id_list b = true -> entries_listed cp (id_list b) items said ->
    list_known b cp said
      (Ok [("target", PDict [("size", PN (num 2 (header_len b) b)); ("items", PList (map PDict items));
                             ("index", PN (header_len b + 2))])]%string)
| list_bad e said :
    has_id_list b = true -> entries_tried cp (id_list b) e said -> list_known b cp said (Err e).
Inductive list_section : option (bytes * cp_arg) -> list warning -> result dict -> Prop :=
| list_gone : list_section None [] (Ok [])
| list_kept b cp said r :
    with_any_page (list_known b) (fun trace => exists o, items_trace b o trace) cp said r -> list_section (Some (b, cp)) said r.

Inductive info_known (b : bytes) (cp : cp_arg) : list warning -> result dict -> Prop :=
| info_absent : info_processed b = false -> info_known b cp [] (Ok [])
| info_there raw network :
    info_processed b = true -> raw = dropN (id_list_end b) b -> network = negb (N.testbit (num 4 8 raw) 0) ->
    info_readable network raw = true ->
    info_known b cp (info_warnings cp network raw) (Ok (info_entries cp network raw))
| info_bad raw network :
    info_processed b = true -> raw = dropN (id_list_end b) b -> network = negb (N.testbit (num 4 8 raw) 0) ->
    info_readable network raw = false ->
    info_known b cp (info_tried cp network raw) (Err StructError).
Inductive info_traced (b : bytes) : list event -> Prop :=
| info_not_traced : info_processed b = false -> info_traced b []
| info_is_traced raw network :
    info_processed b = true -> raw = dropN (id_list_end b) b -> network = negb (N.testbit (num 4 8 raw) 0) ->
    info_traced b (if info_readable network raw then info_trace network raw else info_tried_trace network raw).
Definition info_section (b : bytes) : cp_arg -> list warning -> result dict -> Prop :=
  with_any_page (info_known b) (info_traced b).

Inductive data_section (b : bytes) (cp : cp_arg) : dict -> Prop :=
| data_there found e cut :
    string_walk b string_fields (info_end b) found e cut ->
    data_section b cp (map (fun f => (fst f, PStr (stored_text (bit_set 7 b) cp (snd f)))) found).

(** The blocks, of any size. Four bytes hold the size of a block. A block without them is left out; but if it is an unknown
    one, the list of the unknown blocks is begun. *)
Inductive blocks_told (cp : cp_arg) : list (N * bytes) -> list (string * option dict) -> list warning -> option exn -> Prop :=
| told_none : blocks_told cp [] [] [] None
| told_kept signature raw rest d w l ws o :
    4 <= lenN raw -> block_read cp signature raw d w -> blocks_told cp rest l ws o ->
    blocks_told cp ((signature, raw) :: rest) ((block_name signature, Some d) :: l) (w ++ ws) o
| told_left_out signature raw rest w l ws o :
    4 <= lenN raw -> block_tried cp signature raw w -> blocks_told cp rest l ws o ->
    blocks_told cp ((signature, raw) :: rest) l (w ++ WExtraBlock (block_name signature) :: ws) o
| told_stops signature raw rest e w :
    4 <= lenN raw -> block_stops cp signature raw e w -> blocks_told cp ((signature, raw) :: rest) [] w (Some e)
| told_cut signature raw rest l ws o :
    lenN raw < 4 -> blocks_told cp rest l ws o ->
    blocks_told cp ((signature, raw) :: rest)
      ((if String.eqb (block_name signature) "UNKNOWN_BLOCK" then [(block_name signature, None)] else []) ++ l)
      (WExtraBlock (block_name signature) :: ws) o.
Definition decoded_ones (l : list (string * option dict)) : list (string * dict) :=
  flat_map (fun e => match snd e with Some d => [(fst e, d)] | None => [] end) l.
(** The report of them: see [SpecExtra.collect]. *)
Definition collect_told (l : list (string * option dict)) : dict :=
  map (fun k => (k, if String.eqb k "UNKNOWN_BLOCK" then PList (map PDict (all_of k (decoded_ones l)))
                    else match last_of k (decoded_ones l) with Some d => PDict d | None => PNone end))
      (first_seen (map fst l)).
Inductive blocks_traced : list (N * bytes) -> option exn -> list event -> Prop :=
| traced_none : blocks_traced [] None []
| traced_stopped signature raw rest e trace :
    4 <= lenN raw -> block_trace signature raw (Stops e) trace -> blocks_traced ((signature, raw) :: rest) (Some e) trace
| traced_shown signature raw rest trace o more :
    4 <= lenN raw -> block_trace signature raw Shown trace -> blocks_traced rest o more ->
    blocks_traced ((signature, raw) :: rest) o (trace ++ more)
| traced_left_out signature raw rest trace o more :
    4 <= lenN raw -> block_trace signature raw LeftOut trace -> blocks_traced rest o more ->
    blocks_traced ((signature, raw) :: rest) o (trace ++ Says [WExtraBlock (block_name signature)] :: more)
| traced_cut signature raw rest o more :
    lenN raw < 4 -> blocks_traced rest o more ->
    blocks_traced ((signature, raw) :: rest) o (Says [WExtraBlock (block_name signature)] :: more).
Inductive extra_known (b : bytes) (allow : bool) (cp : cp_arg) : list warning -> result dict -> Prop :=
| extra_there found e cut blocks tail entries said :
    string_walk b string_fields (info_end b) found e cut -> block_walk (dropN e b) blocks tail ->
    blocks_told cp blocks entries said None ->
    extra_known b allow cp said
      (Ok (collect_told (entries ++ map (fun x => (fst x, Some (snd x))) (behind_blocks allow tail))%list))
| extra_bad found e cut blocks tail entries x said :
    string_walk b string_fields (info_end b) found e cut -> block_walk (dropN e b) blocks tail ->
    blocks_told cp blocks entries said (Some x) -> extra_known b allow cp said (Err x).
Inductive extra_traced (b : bytes) : list event -> Prop :=
| extra_is_traced found e cut blocks tail o trace :
    string_walk b string_fields (info_end b) found e cut -> block_walk (dropN e b) blocks tail ->
    blocks_traced blocks o trace -> extra_traced b trace.
Definition extra_section (b : bytes) (allow : bool) : cp_arg -> list warning -> result dict -> Prop :=
  with_any_page (extra_known b allow) (extra_traced b).

Inductive size_section (b : bytes) (allow : bool) : N -> Prop :=
| size_there found e cut blocks tail sections :
    string_walk b string_fields (info_end b) found e cut -> block_walk (dropN e b) blocks tail ->
    sections = e + size_of_extras allow blocks tail ->
    size_section b allow (sections + N.min 4 (lenN b - sections)).

(** The full report: the sections in this order, up to the first that fails. *)
Inductive report_from (g : origin) : list warning -> result dict -> Prop :=
| fails_in_header w e : header_section (header_from g) w (Err e) -> report_from g w (Err e)
| fails_in_list w h w2 e :
    header_section (header_from g) w (Ok h) -> list_section (list_from g) w2 (Err e) -> report_from g (w ++ w2) (Err e)
| fails_in_info w h w2 l w3 e :
    header_section (header_from g) w (Ok h) -> list_section (list_from g) w2 (Ok l) ->
    info_section (fst (info_from g)) (snd (info_from g)) w3 (Err e) -> report_from g (w ++ w2 ++ w3) (Err e)
| fails_in_extra w h w2 l w3 i w4 e b cp allow :
    header_section (header_from g) w (Ok h) -> list_section (list_from g) w2 (Ok l) ->
    info_section (fst (info_from g)) (snd (info_from g)) w3 (Ok i) ->
    extras_from g = (b, cp, allow) -> extra_section b allow cp w4 (Err e) -> report_from g (w ++ w2 ++ w3 ++ w4) (Err e)
| succeeds w h w2 l w3 i d w4 x b cp allow n :
    header_section (header_from g) w (Ok h) -> list_section (list_from g) w2 (Ok l) ->
    info_section (fst (info_from g)) (snd (info_from g)) w3 (Ok i) ->
    data_section (fst (strings_from g)) (snd (strings_from g)) d ->
    extras_from g = (b, cp, allow) -> extra_section b allow cp w4 (Ok x) ->
    size_section (fst (size_from g)) (snd (size_from g)) n ->
    report_from g (w ++ w2 ++ w3 ++ w4)
      (Ok ([("size", PN n); ("header", PDict h)]%string ++ l
           ++ [("link_info", PDict i); ("data", PDict d); ("extra", PDict x)]%string)%list).

(** A string of the link: announced by the flags, that is by the header; found in what the strings were read from. *)
Definition string_asked (g : origin) (found : list (string * bytes)) (i : N) (name : string) : option (option text) :=
  if bit_set i (header_from g) then Some (text_of (fst (strings_from g)) (snd (strings_from g)) found name) else None.
Definition flags_there (b : bytes) : Prop := 24 <= header_len b /\ 24 <= lenN b.

(** ** The answers *)
Inductive answers (g : origin) : act -> list warning -> result reply -> Prop :=
| answers_assign b : answers g (Assign b) [] (Ok Nothing)
| answers_page cp : answers g (AssignPage cp) [] (Ok Nothing)
| answers_allow allow : answers g (AssignAllow allow) [] (Ok Nothing)
(* processing says and raises what the constructor does; empty data are refused as such *)
| answers_empty cp allow : given g = ([], cp, allow) -> answers g Process [] (Err LnkParserError)
| answers_process b cp allow said :
    given g = (b, cp, allow) -> construction b cp said None -> answers g Process said (Ok Nothing)
| answers_process_fails b cp allow said e :
    given g = (b, cp, allow) -> b <> [] -> construction b cp said (Some e) -> answers g Process said (Err e)
| answers_report all said full chosen :
    report_from g said (Ok full) -> selected all full chosen -> answers g (Report all) said (Ok (Entries chosen))
| answers_report_fails all said e : report_from g said (Err e) -> answers g (Report all) said (Err e)
| answers_size n : size_section (fst (size_from g)) (snd (size_from g)) n -> answers g Size [] (Ok (Number n))
| answers_flag p : flags_there (header_from g) -> answers g (Flag p) [] (Ok (Yes (bit_set (predicate_bit p) (header_from g))))
| answers_no_flag p : ~ flags_there (header_from g) -> answers g (Flag p) [] (Err StructError)
| answers_strings d : data_section (fst (strings_from g)) (snd (strings_from g)) d -> answers g Strings [] (Ok (Entries d))
| answers_no_flags : ~ flags_there (header_from g) -> answers g Command [] (Err StructError)
| answers_no_string found e cut :
    flags_there (header_from g) ->
    string_walk (fst (strings_from g)) string_fields (info_end (fst (strings_from g))) found e cut ->
    string_asked g found 3 "relative_path" = Some None \/ string_asked g found 5 "command_line_arguments" = Some None ->
    answers g Command [] (Err TypeError)
| answers_command found e cut path args c :
    flags_there (header_from g) ->
    string_walk (fst (strings_from g)) string_fields (info_end (fst (strings_from g))) found e cut ->
    string_asked g found 3 "relative_path" = option_map Some path ->
    string_asked g found 5 "command_line_arguments" = option_map Some args ->
    command_of path args c -> answers g Command [] (Ok (Words c)).
