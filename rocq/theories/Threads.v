(** * lnk_file.py step by step

    Heap.v models a method as one change of the objects. Here a method is a program of single
    steps, between which other threads may run: each creation of a dictionary or list, each
    look at one, and each change of one is a step. What the code computes from attributes that are
    never written again (raw bytes, numbers, texts) needs no step of its own: no other thread can
    have an effect on it. *)
From Verif Require Import Py Codec Header StringData Targets Info Extra LnkFile Json Report Readable Heap.

Inductive prog (A : Type) : Type :=
| Return (a : A)
| Raise (e : exn)
| Warn (w : warning) (p : prog A)
| New (c : cell) (k : nat -> prog A)                    (* a new object *)
| Look (r : nat) (k : cell -> prog A)                   (* what an object holds *)
| Change (r : nat) (f : cell -> cell) (p : prog A)      (* one operation on an object: [pop], [d[k] = v] *)
| Bound (k : nat -> prog A).                            (* artefact: a bound for the depth of values *)
Arguments Return {A} a. Arguments Raise {A} e. Arguments Warn {A} w p. Arguments New {A} c k.
Arguments Look {A} r k. Arguments Change {A} r f p. Arguments Bound {A} k.

(** One step of a program: the warning that it gives, the objects after it, and what is left. *)
Inductive move {A} : heap -> prog A -> list warning -> heap -> prog A -> Prop :=
| move_warn h w p : move h (Warn w p) [w] h p
| move_new h c k : move h (New c k) [] (h ++ [c]) (k (length h))
| move_look h r k c : nth_error h r = Some c -> move h (Look r k) [] h (k c)
| move_change h r f p c : nth_error h r = Some c -> move h (Change r f p) [] (put h r (f c)) p
| move_bound h k : move h (Bound k) [] h (k (S (length h))).

(** ** Composition *)
Fixpoint andthen {A B} (p : prog A) (q : A -> prog B) : prog B :=
  match p with
  | Return a => q a
  | Raise e => Raise e
  | Warn w p => Warn w (andthen p q)
  | New c k => New c (fun r => andthen (k r) q)
  | Look r k => Look r (fun c => andthen (k c) q)
  | Change r f p => Change r f (andthen p q)
  | Bound k => Bound (fun n => andthen (k n) q)
  end.
Notation "x <~ p ;; q" := (andthen p (fun x => q)) (at level 61, p at next level, right associativity).

(** A computation on values: its warnings, then its value or exception *)
Definition lift {A} (m : M A) : prog A :=
  fold_right (fun w p => Warn w p) (match snd m with Ok a => Return a | Err e => Raise e end) (fst m).

(** ** Objects *)

(** A display or comprehension: its parts first *)
Fixpoint build (v : pyval) : prog hval :=
  match v with
  | PNone => Return HNone
  | PInt z => Return (HInt z)
  | PStr t => Return (HStr t)
  | PDate d => Return (HDate d)
  | PList l =>
    vs <~ (fix elems (l : list pyval) : prog (list hval) :=
             match l with
             | [] => Return []
             | v :: l => x <~ build v ;; xs <~ elems l ;; Return (x :: xs)
             end) l ;;
    New (CList vs) (fun r => Return (HRef r))
  | PDict d =>
    ds <~ (fix rows (d : list (string * pyval)) : prog (list (string * hval)) :=
             match d with
             | [] => Return []
             | (k, v) :: d => x <~ build v ;; xs <~ rows d ;; Return ((k, x) :: xs)
             end) d ;;
    New (CDict ds) (fun r => Return (HRef r))
  end.

(** [v["a"]["b"][0]], one look for each object on the way *)
Fixpoint walk (v : hval) (q : list place) : prog (option hval) :=
  match q with
  | [] => Return (Some v)
  | s :: q =>
    match v with
    | HRef r =>
      Look r (fun c =>
        match c, s with
        | CDict ds, PKey k => match hget k ds with Some x => walk x q | None => Return None end
        | CList vs, PElem i => match nth_error vs i with Some x => walk x q | None => Return None end
        | _, _ => Return None
        end)
    | _ => Return None
    end
  end.
(** An operation on the dictionary [r], and on the dictionary at a place *)
Definition on_rows (f : list (string * hval) -> list (string * hval)) (c : cell) : cell :=
  match c with CDict ds => CDict (f ds) | CList vs => CList vs end.
Definition assign (r : nat) (k : string) (v : hval) : prog unit := Change r (on_rows (hset k v)) (Return tt).
Definition change_at (v : hval) (q : list place) (f : list (string * hval) -> list (string * hval)) : prog unit :=
  x <~ walk v q ;;
  match x with Some (HRef r) => Change r (on_rows f) (Return tt) | _ => Return tt end.
Fixpoint pops_at (ks : list string) (v : hval) (q : list place) : prog unit :=
  match ks with
  | [] => Return tt
  | k :: ks => _ <~ change_at v q (hpop k) ;; pops_at ks v q
  end.
Definition located (s : string) (res : hval) : prog bool :=
  x <~ walk res [PKey "link_info"; PKey "location"] ;;
  Return (match x with Some (HStr t) => text_eqb t (s2t s) | _ => false end).
Definition count_at (v : hval) (q : list place) : prog nat :=
  x <~ walk v q ;;
  match x with
  | Some (HRef r) => Look r (fun c => Return (match c with CList vs => length vs | _ => O end))
  | _ => Return O
  end.
Fixpoint each_item (res : hval) (l : list nat) : prog unit :=
  match l with
  | [] => Return tt
  | i :: l => _ <~ pops_at ["modification_time"%string] res [PKey "target"; PKey "items"; PElem i] ;; each_item res l
  end.

(** lnk_file.py:318-343 *)
Definition prune_prog (res : hval) : prog unit :=
  _ <~ pops_at ["header_size"; "reserved0"; "reserved1"; "reserved2"]%string res [PKey "header"] ;;
  _ <~ pops_at ["link_info_size"; "link_info_header_size"; "volume_id_offset"; "local_base_path_offset";
                "common_network_relative_link_offset"; "common_path_suffix_offset"]%string res [PKey "link_info"] ;;
  local <~ located "Local" res ;;
  _ <~ (if local : bool then pops_at ["volume_id_size"; "volume_label_offset"]%string res [PKey "link_info"; PKey "location_info"]
        else Return tt) ;;
  network <~ located "Network" res ;;
  _ <~ (if network : bool then pops_at ["common_network_relative_link_size"; "net_name_offset"; "device_name_offset"]%string res
                          [PKey "link_info"; PKey "location_info"]
        else Return tt) ;;
  _ <~ pops_at ["index"; "size"]%string res [PKey "target"] ;;
  n <~ count_at res [PKey "target"; PKey "items"] ;;
  each_item res (seq 0 n).

(** string_data.py:95-96 [as_dict]. The iteration over the string table is one look. *)
Definition table_prog (o : obj) : prog hval :=
  match o_data o with
  | HRef r =>
    Look r (fun c =>
      match c with
      | CDict ds => New (CDict (filter (fun e => match snd e with HNone => false | _ => true end) ds)) (fun r => Return (HRef r))
      | _ => Return HNone
      end)
  | _ => Return HNone
  end.

(** lnk_file.py:199-345 [get_json]: the report is created with the header, the other sections are
    assigned one after the other, then entries are popped. The dictionary of "link_info" is
    built at once where the code assigns its optional entries one by one. *)
Definition get_json_prog (o : obj) (get_all : bool) : prog hval :=
  let l := o_link o in
  hd <~ lift (header_dict (l_header l)) ;;
  hdv <~ build (PDict hd) ;;
  New (CDict [("size", HInt (Z.of_N (l_size l))); ("header", hdv)]%string) (fun res =>
  _ <~ (match l_targets l with
        | Some t => d <~ lift (target_dict l t) ;; tv <~ build (PDict d) ;; assign res "target" tv
        | None => Return tt
        end) ;;
  iv <~ build (PDict []) ;;
  _ <~ assign res "link_info" iv ;;
  _ <~ (match l_info l with
        | Some (k, raw) => d <~ lift (info_dict (l_cp l) k raw) ;; iv <~ build (PDict d) ;; assign res "link_info" iv
        | None => Return tt
        end) ;;
  dv <~ table_prog o ;;
  _ <~ assign res "data" dv ;;
  e <~ lift (extras_as_dict (l_cp l) (l_extras l)) ;;
  ev <~ build (PDict e) ;;
  _ <~ assign res "extra" ev ;;
  _ <~ (if get_all then Return tt else prune_prog (HRef res)) ;;
  Return (HRef res)).

(** The traversal of a report by json.dumps *)
Fixpoint read_prog (fuel : nat) (v : hval) : prog (option pyval) :=
  match fuel with
  | O => Return None
  | S n =>
    match v with
    | HNone => Return (Some PNone)
    | HInt z => Return (Some (PInt z))
    | HStr t => Return (Some (PStr t))
    | HDate d => Return (Some (PDate d))
    | HRef r =>
      Look r (fun c =>
        match c with
        | CList vs =>
          xs <~ (fix elems (vs : list hval) : prog (list (option pyval)) :=
                   match vs with
                   | [] => Return []
                   | v :: vs => x <~ read_prog n v ;; xs <~ elems vs ;; Return (x :: xs)
                   end) vs ;;
          Return (option_map PList (all_some xs))
        | CDict ds =>
          xs <~ (fix rows (ds : list (string * hval)) : prog (list (option (string * pyval))) :=
                   match ds with
                   | [] => Return []
                   | (k, v) :: ds => x <~ read_prog n v ;; xs <~ rows ds ;; Return (option_map (pair k) x :: xs)
                   end) ds ;;
          Return (option_map PDict (all_some xs))
        end)
    end
  end.
(** lnk_file.py:181-197 [print_json] *)
Definition print_json_prog (o : obj) (print_all : bool) : prog text :=
  res <~ get_json_prog o print_all ;;
  Bound (fun n =>
    p <~ read_prog n res ;;
    match p with
    | Some (PDict d) => Return (print_json_text d)
    | _ => Raise ValueError
    end).

(** string_data.py:63-79: [self._data.get(k)] *)
Definition table_get (o : obj) (k : string) : prog (option text) :=
  match o_data o with
  | HRef r => Look r (fun c => Return (match c with
                                       | CDict ds => match hget k ds with Some (HStr t) => Some t | _ => None end
                                       | _ => None end))
  | _ => Return None
  end.
(** lnk_file.py:160-171 [lnk_command] *)
Definition command_prog (o : obj) : prog text :=
  let l := o_link o in
  has_path <~ lift (has_flag "HasRelativePath" (l_header l)) ;;
  out1 <~ (if has_path : bool then
             p <~ table_get o "relative_path" ;;
             match p with
             | None => Raise TypeError
             | Some p => Return [Some (list2cmdline1 p)]
             end
           else Return []) ;;
  has_args <~ lift (has_flag "HasArguments" (l_header l)) ;;
  out2 <~ (if has_args : bool then a <~ table_get o "command_line_arguments" ;; Return [a] else Return []) ;;
  match Codec.all_some (out1 ++ out2) with
  | None => Raise TypeError
  | Some parts => Return (join (s2t " ") parts)
  end.

(** lnk_file.py:113-124 [make_keys_nice]. The membership test, [pop("class")] and the iteration
    over the items are a look and, if there is a class, a change. *)
Fixpoint nice_prog (fuel : nat) (uppercase : bool) (v : hval) : prog (option pyval) :=
  match fuel with
  | O => Return None
  | S n =>
    match v with
    | HNone => Return (Some PNone)
    | HInt z => Return (Some (PInt z))
    | HStr t => Return (Some (PStr t))
    | HDate d => Return (Some (PDate d))
    | HRef r =>
      Look r (fun c =>
        match c with
        | CList vs =>
          xs <~ (fix elems (vs : list hval) : prog (list (option pyval)) :=
                   match vs with
                   | [] => Return []
                   | v :: vs => x <~ nice_prog n false v ;; xs <~ elems vs ;; Return (x :: xs)
                   end) vs ;;
          Return (option_map PList (all_some xs))
        | CDict ds =>
          let rows := fix rows (ds : list (string * hval)) : prog (list (option (string * pyval))) :=
                        match ds with
                        | [] => Return []
                        | (k, v) :: ds => x <~ nice_prog n false v ;; xs <~ rows ds ;; Return (option_map (pair k) x :: xs)
                        end in
          match hget "class" ds with
          | Some key =>
            Change r (on_rows (hpop "class"))
              (xs <~ rows (hpop "class" ds) ;;
               Return (option_map (fun xs => PDict [(key_of (match key with HStr t => PStr t | _ => PNone end),
                                       PDict (fold_left (fun res e => dset (nice_id (fst e) false) (snd e) res) xs []))])
                         (all_some xs)))
          | None =>
            xs <~ rows ds ;;
            Return (option_map (fun xs => PDict (fold_left (fun res e => dset (nice_id (fst e) uppercase) (snd e) res) xs [])) (all_some xs))
          end
        end)
    end
  end.
(** lnk_file.py:104-147 [print_lnk_file], for an arbitrary YAML dumper *)
Definition print_readable_prog (dump : dict -> text) (o : obj) (print_all : bool) : prog text :=
  res <~ get_json_prog o print_all ;;
  _ <~ change_at res [PKey "header"] (hpop "r_hotkey") ;;
  link_flags <~ lift (format_linkFlags (l_header (o_link o))) ;;
  _ <~ change_at res [PKey "header"] (hset "link_flags" (HStr link_flags)) ;;
  file_flags <~ lift (format_fileFlags (l_header (o_link o))) ;;
  _ <~ change_at res [PKey "header"] (hset "file_flags" (HStr file_flags)) ;;
  Bound (fun n =>
    nice <~ nice_prog n true res ;;
    match nice with
    | Some (PDict nice) =>
      let nice := map (fun e => (String.append placeholder (fst e), snd e)) nice in
      let header_key := String.append placeholder "HEADER" in
      match dget header_key nice with
      | Some (PDict hd) =>
        let tree := fold_left (fun res e => dset (fst e) (snd e) res) (dpop header_key nice) hd in
        let res_yaml := replace (s2t placeholder) [10] (dump tree) in
        Return (s2t "Windows Shortcut Information:" ++ [10] ++ indent (s2t "   ") res_yaml ++ [10])
      | _ => Raise KeyError
      end
    | _ => Raise TypeError
    end).

(** lnk_file.py:25-34, string_data.py:25-61: the constructor. The string table is created empty
    and its entries are assigned, here after everything else that the constructor does. *)
Fixpoint assign_all (r : nat) (d : dict) : prog unit :=
  match d with
  | [] => Return tt
  | (k, v) :: d => _ <~ assign r k (match v with PStr t => HStr t | _ => HNone end) ;; assign_all r d
  end.
Definition open_prog (src : source) (cp : cp_arg) (allow_terminal_blocks : bool) : prog obj :=
  l <~ lift (lnk_init src cp allow_terminal_blocks) ;;
  New (CDict []) (fun r => _ <~ assign_all r (sd_data (l_string_data l)) ;; Return (Obj l (HRef r))).

(** ** Requests *)
Inductive request := Open (src : source) (cp : cp_arg) (allow_terminal_blocks : bool) | Ask (o : obj) (c : call).
Inductive reply := ROpened (o : obj) | RAnswer (a : answer).
Definition code (dump : dict -> text) (q : request) : prog reply :=
  match q with
  | Open src cp allow => o <~ open_prog src cp allow ;; Return (ROpened o)
  | Ask o (GetJson all) => v <~ get_json_prog o all ;; Return (RAnswer (AReport v))
  | Ask o (PrintJson all) => t <~ print_json_prog o all ;; Return (RAnswer (AText t))
  | Ask o (PrintReadable all) => t <~ print_readable_prog dump o all ;; Return (RAnswer (AText t))
  | Ask o Command => t <~ command_prog o ;; Return (RAnswer (AText t))
  end.
