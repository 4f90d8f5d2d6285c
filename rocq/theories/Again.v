(** * Calling [process] again

    [process] is a public method: it reads the attributes [indata], [cp] and [allow_terminal_blocks] of the link and sets
    the others one after the other. A caller can assign the three and call it again. An exception leaves the attributes
    that were set before it new and the others as they were. *)
From Verif Require Import Py PyTime Codec Utils Header StringData Targets Info Extra LnkFile Json Report Fields.

(** lnk_file.py:25-102: the attributes of a link. The parts keep the code page that they were made with
    (lnk_targets.py:29, lnk_info.py:56-58, extra_data.py:36-37); the string data keep their texts (string_data.py:27). *)
Record object := Object {
  o_indata : bytes;
  o_cp : cp_arg;
  o_allow : bool;
  o_header : bytes;
  o_index : N;                                   (* _target_index *)
  o_targets : option (targets * cp_arg);
  o_info : option (info_kind * bytes * cp_arg);
  o_strings : string_data;
  o_extras : list extra * cp_arg;
  o_size : N }.

(** Assignments to one attribute (lnk_file.py:27-32 and by the caller; 67, 71, 74 and 76, 80 and 85, 89, 93, 102). *)
Definition set_indata v o := Object v (o_cp o) (o_allow o) (o_header o) (o_index o) (o_targets o) (o_info o) (o_strings o) (o_extras o) (o_size o).
Definition set_cp v o := Object (o_indata o) v (o_allow o) (o_header o) (o_index o) (o_targets o) (o_info o) (o_strings o) (o_extras o) (o_size o).
Definition set_allow v o := Object (o_indata o) (o_cp o) v (o_header o) (o_index o) (o_targets o) (o_info o) (o_strings o) (o_extras o) (o_size o).
Definition set_header v o := Object (o_indata o) (o_cp o) (o_allow o) v (o_index o) (o_targets o) (o_info o) (o_strings o) (o_extras o) (o_size o).
Definition set_index v o := Object (o_indata o) (o_cp o) (o_allow o) (o_header o) v (o_targets o) (o_info o) (o_strings o) (o_extras o) (o_size o).
Definition set_targets v o := Object (o_indata o) (o_cp o) (o_allow o) (o_header o) (o_index o) v (o_info o) (o_strings o) (o_extras o) (o_size o).
Definition set_info v o := Object (o_indata o) (o_cp o) (o_allow o) (o_header o) (o_index o) (o_targets o) v (o_strings o) (o_extras o) (o_size o).
Definition set_strings v o := Object (o_indata o) (o_cp o) (o_allow o) (o_header o) (o_index o) (o_targets o) (o_info o) v (o_extras o) (o_size o).
Definition set_extras v o := Object (o_indata o) (o_cp o) (o_allow o) (o_header o) (o_index o) (o_targets o) (o_info o) (o_strings o) v (o_size o).
Definition set_size v o := Object (o_indata o) (o_cp o) (o_allow o) (o_header o) (o_index o) (o_targets o) (o_info o) (o_strings o) (o_extras o) v.

(** A method that changes its object (Python method calls): an outcome, and the object afterwards, also after an
    exception. *)
Definition P (A : Type) := object -> M A * object.
Definition pret {A} (x : A) : P A := fun o => (ret x, o).
Definition pcall {A} (m : M A) : P A := fun o => (m, o).
Definition pset (f : object -> object) : P unit := fun o => (ret tt, f o).
Definition pget : P object := fun o => (ret o, o).
Definition pbind {A B} (m : P A) (k : A -> P B) : P B :=
  fun o => let '((w, r), o1) := m o in
           match r with
           | Ok x => let '((w2, r2), o2) := k x o1 in ((w ++ w2, r2), o2)
           | Err e => ((w, Err e), o1)
           end.
Notation "x <<- m ;; k" := (pbind m (fun x => k)) (at level 61, m at next level, right associativity).
Notation "m ;;;; k" := (pbind m (fun _ => k)) (at level 61, right associativity).

(** lnk_file.py:63-102 [process] *)
Definition process_again : P unit :=
  self <<- pget ;;
  let indata := o_indata self in
  (* Parse header *)
  header <<- pcall (header_init indata) ;;
  pset (set_header header) ;;;;
  index <<- pcall (header_size header) ;;
  pset (set_index (index + 2)) ;;;;
  (* Parse ID List *)
  pset (set_targets None) ;;;;
  has_targets <<- pcall (has_flag "HasTargetIDList" header) ;;
  index <<- (if has_targets : bool then
               t <<- pcall (targets_init (dropN index indata)) ;;
               pset (set_targets (Some (t, o_cp self))) ;;;;
               size <<- pcall (targets_size (tg_raw t)) ;;
               pret (index + size)
             else pret index) ;;
  (* Parse Link Info *)
  pset (set_info None) ;;;;
  has_info <<- pcall (b <- has_flag "HasLinkInfo" header ;;
                      if b : bool then f <- has_flag "ForceNoLinkInfo" header ;; ret (negb f)
                      else ret false) ;;
  index <<- (if has_info : bool then
               let raw := dropN index indata in
               c <<- pcall (info_class raw) ;;
               match c with
               | Some k =>
                 pset (set_info (Some (k, raw, o_cp self))) ;;;;
                 size <<- pcall (info_size raw) ;;
                 pret (index + size)
               | None => pret index
               end
             else pret index) ;;
  (* Parse String Data *)
  sd <<- pcall (string_data_init header (o_cp self) (dropN index indata)) ;;
  pset (set_strings sd) ;;;;
  let index := index + sd_size sd in
  (* Parse Extra Data *)
  extras <<- pcall (extra_init (o_allow self) (dropN index indata)) ;;
  pset (set_extras (extras, o_cp self)) ;;;;
  extras_sz <<- pcall (extras_size extras) ;;
  let index := index + extras_sz in
  (* Add size of the footer if present *)
  let index := index + N.min (lenN (dropN index indata)) 4 in
  pset (set_size index).

(** lnk_file.py:199-345 [get_json], each part with its own code page *)
Definition object_json (o : object) : M dict :=
  h <- header_dict (o_header o) ;;
  t <- (match o_targets o with
        | Some (t, cp) =>
          d <- fields
            [("size"%string, n <- id_list_size (tg_raw t) ;; ret (PN n));
             ("items"%string, items <- targets_as_list cp t ;; ret (PList items));
             ("index"%string, ret (PN (o_index o)))] ;;
          ret [("target"%string, PDict d)]
        | None => ret []
        end) ;;
  i <- (match o_info o with
        | Some (k, raw, cp) => info_dict cp k raw
        | None => ret []
        end) ;;
  let data := string_data_as_dict (o_strings o) in
  e <- extras_as_dict (snd (o_extras o)) (fst (o_extras o)) ;;
  ret ([("size", PN (o_size o)); ("header", PDict h)]%string ++ t ++
       [("link_info", PDict i); ("data", PDict data); ("extra", PDict e)]%string).
Definition object_report (o : object) (all : bool) : M dict :=
  res <- object_json o ;; ret (if all then res else prune res).

(** lnk_file.py:160-171 [lnk_command] *)
Definition object_command (o : object) : M text :=
  has_path <- has_flag "HasRelativePath" (o_header o) ;;
  out1 <- (if has_path : bool then
             match sd_get "relative_path" (o_strings o) with
             | None => raise TypeError
             | Some p => ret [Some (list2cmdline1 p)]
             end
           else ret []) ;;
  has_args <- has_flag "HasArguments" (o_header o) ;;
  let out2 := if has_args : bool then [sd_get "command_line_arguments" (o_strings o)] else [] in
  match Codec.all_some (out1 ++ out2) with
  | None => raise TypeError
  | Some parts => ret (join (s2t " ") parts)
  end.

(** What a caller does with a link (lnk_file.py:25-345): assign one of the three attributes, process, make a report, read
    the attribute [size], ask for a flag (36-61), for the strings as a dictionary, for the command. *)
Inductive act :=
| Assign (content : bytes)
| AssignPage (cp : cp_arg)
| AssignAllow (allow : bool)
| Process
| Report (all : bool)
| Size
| Flag (p : predicate)
| Strings
| Command.
Inductive reply :=
| Nothing
| Number (n : N)
| Yes (b : bool)
| Words (t : text)
| Entries (d : dict).

Definition fmap {A B} (f : A -> B) (m : M A) : M B := x <- m ;; ret (f x).
(** lnk_file.py:25-345; string_data.py:95-96 *)
Definition do_act (o : object) (a : act) : M reply * object :=
  match a with
  | Assign b => (ret Nothing, set_indata b o)
  | AssignPage cp => (ret Nothing, set_cp cp o)
  | AssignAllow allow => (ret Nothing, set_allow allow o)
  | Process => let (m, o') := process_again o in (fmap (fun _ => Nothing) m, o')
  | Report all => (fmap Entries (object_report o all), o)
  | Size => (ret (Number (o_size o)), o)
  | Flag p => (fmap Yes (has_flag (flag_of p) (o_header o)), o)
  | Strings => (ret (Entries (string_data_as_dict (o_strings o))), o)
  | Command => (fmap Words (object_command o), o)
  end.
(** A sequence of such calls, each exception caught by the caller. *)
Fixpoint do_all (o : object) (acts : list act) : list (M reply) * object :=
  match acts with
  | [] => ([], o)
  | a :: acts => let (m, o1) := do_act o a in let (ms, o2) := do_all o1 acts in (m :: ms, o2)
  end.
Definition replies (o : object) (acts : list act) : list (M reply) := fst (do_all o acts).

(** lnk_file.py:25-34: the link that the constructor has made of [b] *)
Definition object_of (b : bytes) (allow : bool) (l : lnk) : object :=
  Object b (l_cp l) allow (l_header l) (l_target_index l)
    (match l_targets l with Some t => Some (t, l_cp l) | None => None end)
    (match l_info l with Some (k, raw) => Some (k, raw, l_cp l) | None => None end)
    (l_string_data l) (l_extras l, l_cp l) (l_size l).
