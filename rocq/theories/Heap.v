(** * lnk_file.py with mutable objects

    The other files model reports as values. Here dictionaries and lists are objects: a report
    is a reference, [pop] and item assignment change the object in place, and the caller may keep
    and change every object that it was given. *)
From Verif Require Import Py Codec Header StringData Targets Info Extra LnkFile Json Report Readable.

(** ** Objects *)
Inductive hval := HNone | HInt (z : Z) | HStr (t : text) | HDate (d : datetime) | HRef (r : nat).
Inductive cell := CDict (d : list (string * hval)) | CList (l : list hval).
(** The objects created so far. Object [r] is the [r]-th. *)
Definition heap := list cell.

Fixpoint put (h : heap) (r : nat) (c : cell) : heap :=
  match h, r with
  | [], _ => []
  | _ :: h, O => c :: h
  | c' :: h, S r => c' :: put h r c
  end.

(** A dictionary or list display, or comprehension: a new object, after those of its parts. *)
Fixpoint alloc (v : pyval) (h : heap) {struct v} : hval * heap :=
  match v with
  | PNone => (HNone, h)
  | PInt z => (HInt z, h)
  | PStr t => (HStr t, h)
  | PDate d => (HDate d, h)
  | PList l =>
    let '(vs, h) := (fix elems (l : list pyval) (h : heap) : list hval * heap :=
                       match l with
                       | [] => ([], h)
                       | v :: l => let '(x, h) := alloc v h in let '(xs, h) := elems l h in (x :: xs, h)
                       end) l h in
    (HRef (length h), h ++ [CList vs])
  | PDict d =>
    let '(ds, h) := (fix rows (d : list (string * pyval)) (h : heap) : list (string * hval) * heap :=
                       match d with
                       | [] => ([], h)
                       | (k, v) :: d => let '(x, h) := alloc v h in let '(xs, h) := rows d h in ((k, x) :: xs, h)
                       end) d h in
    (HRef (length h), h ++ [CDict ds])
  end.

(** The value of an object: what a traversal sees. [fuel] bounds the depth. *)
Fixpoint all_some {A} (l : list (option A)) : option (list A) :=
  match l with
  | [] => Some []
  | Some x :: l => match all_some l with Some xs => Some (x :: xs) | None => None end
  | None :: _ => None
  end.
Fixpoint read (fuel : nat) (h : heap) (v : hval) : option pyval :=
  match fuel with
  | O => None
  | S n =>
    match v with
    | HNone => Some PNone
    | HInt z => Some (PInt z)
    | HStr t => Some (PStr t)
    | HDate d => Some (PDate d)
    | HRef r =>
      match nth_error h r with
      | Some (CList vs) => option_map PList (all_some (map (read n h) vs))
      | Some (CDict ds) =>
        option_map PDict (all_some (map (fun e => option_map (pair (fst e)) (read n h (snd e))) ds))
      | None => None
      end
    end
  end.
(** No value without cycles is deeper than there are objects. *)
Definition read_all (h : heap) (v : hval) : option pyval := read (S (length h)) h v.

(** [d.get(k)], [d.pop(k, None)] and [d[k] = v] on the rows of a dictionary object *)
Fixpoint hget (k : string) (d : list (string * hval)) : option hval :=
  match d with
  | [] => None
  | (k', v) :: r => if String.eqb k k' then Some v else hget k r
  end.
Fixpoint hpop (k : string) (d : list (string * hval)) : list (string * hval) :=
  match d with
  | [] => []
  | (k', v) :: r => if String.eqb k k' then r else (k', v) :: hpop k r
  end.
Fixpoint hset (k : string) (v : hval) (d : list (string * hval)) : list (string * hval) :=
  match d with
  | [] => [(k, v)]
  | (k', v') :: r => if String.eqb k k' then (k', v) :: r else (k', v') :: hset k v r
  end.

(** [v["a"]["b"][0]]. The places used below always exist; Python would raise otherwise. *)
Inductive place := PKey (k : string) | PElem (i : nat).
Fixpoint follow (h : heap) (v : hval) (q : list place) : option hval :=
  match q with
  | [] => Some v
  | s :: q =>
    match v with
    | HRef r =>
      match nth_error h r, s with
      | Some (CDict ds), PKey k => match hget k ds with Some x => follow h x q | None => None end
      | Some (CList vs), PElem i => match nth_error vs i with Some x => follow h x q | None => None end
      | _, _ => None
      end
    | _ => None
    end
  end.
(** An update in place of the dictionary at a place. *)
Definition update (h : heap) (v : hval) (q : list place) (f : list (string * hval) -> list (string * hval)) : heap :=
  match follow h v q with
  | Some (HRef r) => match nth_error h r with Some (CDict ds) => put h r (CDict (f ds)) | _ => h end
  | _ => h
  end.
(** Successive [pop]s at one place. *)
Definition pops (ks : list string) (v : hval) (q : list place) (h : heap) : heap :=
  fold_left (fun h k => update h v q (hpop k)) ks h.

(** ** The link object *)

(** The attributes of [process]; the dictionary [string_data._data] is an object. *)
Record obj := Obj { o_link : lnk; o_data : hval }.
(** lnk_file.py:25-34, string_data.py:25-61 *)
Definition obj_init (src : source) (cp : cp_arg) (allow_terminal_blocks : bool) (h : heap) : M (obj * heap) :=
  l <- lnk_init src cp allow_terminal_blocks ;;
  let '(v, h) := alloc (PDict (sd_data (l_string_data l))) h in
  ret (Obj l v, h).

(** string_data.py:95-96 [as_dict] *)
Definition data_as_dict (o : obj) (h : heap) : hval * heap :=
  match follow h (o_data o) [] with
  | Some (HRef r) =>
    match nth_error h r with
    | Some (CDict ds) =>
      (HRef (length h), h ++ [CDict (filter (fun e => match snd e with HNone => false | _ => true end) ds)])
    | _ => (HNone, h)
    end
  | _ => (HNone, h)
  end.
(** string_data.py:63-79: [self._data.get(k)] *)
Definition data_get (o : obj) (h : heap) (k : string) : option text :=
  match o_data o with
  | HRef r => match nth_error h r with
              | Some (CDict ds) => match hget k ds with Some (HStr t) => Some t | _ => None end
              | _ => None end
  | _ => None
  end.

(** ["X" in res["link_info"]["location"]], false if there is no location *)
Definition location_at (s : string) (h : heap) (res : hval) : bool :=
  match follow h res [PKey "link_info"; PKey "location"] with Some (HStr t) => text_eqb t (s2t s) | _ => false end.
(** The number of elements of the list at a place *)
Definition length_at (h : heap) (v : hval) (q : list place) : nat :=
  match follow h v q with
  | Some (HRef r) => match nth_error h r with Some (CList vs) => length vs | _ => O end
  | _ => O
  end.
(** lnk_file.py:318-343 *)
Definition prune_heap (res : hval) (h : heap) : heap :=
  let h := pops ["header_size"; "reserved0"; "reserved1"; "reserved2"] res [PKey "header"] h in
  let h := pops ["link_info_size"; "link_info_header_size"; "volume_id_offset"; "local_base_path_offset";
                 "common_network_relative_link_offset"; "common_path_suffix_offset"] res [PKey "link_info"] h in
  let h := if location_at "Local" h res
           then pops ["volume_id_size"; "volume_label_offset"] res [PKey "link_info"; PKey "location_info"] h else h in
  let h := if location_at "Network" h res
           then pops ["common_network_relative_link_size"; "net_name_offset"; "device_name_offset"] res
                  [PKey "link_info"; PKey "location_info"] h else h in
  let h := pops ["index"; "size"] res [PKey "target"] h in
  fold_left (fun h i => pops ["modification_time"] res [PKey "target"; PKey "items"; PElem i] h)
    (seq 0 (length_at h res [PKey "target"; PKey "items"])) h.

(** lnk_file.py:199-345 [get_json]. The dictionaries that the sections build are displays and
    comprehensions: they are new on each call. What is allocated before an exception cannot be
    reached and is left out. *)
Definition get_json_heap (o : obj) (get_all : bool) (h : heap) : M (hval * heap) :=
  let l := o_link o in
  hd <- header_dict (l_header l) ;;
  t <- (match l_targets l with
        | Some t => d <- target_dict l t ;; ret (Some d)
        | None => ret None
        end) ;;
  i <- (match l_info l with
        | Some (k, raw) => info_dict (l_cp l) k raw
        | None => ret []
        end) ;;
  e <- extras_as_dict (l_cp l) (l_extras l) ;;
  let '(hdv, h) := alloc (PDict hd) h in
  let '(tv, h) := match t with
                  | Some d => let '(v, h) := alloc (PDict d) h in ([("target"%string, v)], h)
                  | None => ([], h)
                  end in
  let '(iv, h) := alloc (PDict i) h in
  let '(dv, h) := data_as_dict o h in
  let '(ev, h) := alloc (PDict e) h in
  let res := HRef (length h) in
  let h := h ++ [CDict ([("size", HInt (Z.of_N (l_size l))); ("header", hdv)]%string ++ tv
                        ++ [("link_info", iv); ("data", dv); ("extra", ev)]%string)] in
  ret (res, if get_all then h else prune_heap res h).

(** lnk_file.py:181-197 [print_json] *)
Definition print_json_heap (o : obj) (print_all : bool) (h : heap) : M (text * heap) :=
  r <- get_json_heap o print_all h ;;
  let '(res, h) := r in
  match read_all h res with
  | Some (PDict d) => ret (print_json_text d, h)
  | _ => raise ValueError
  end.

(** lnk_file.py:160-171 [lnk_command] *)
Definition command_heap (o : obj) (h : heap) : M text :=
  let l := o_link o in
  has_path <- has_flag "HasRelativePath" (l_header l) ;;
  out1 <- (if has_path : bool then
             match data_get o h "relative_path" with
             | None => raise TypeError
             | Some p => ret [Some (list2cmdline1 p)]
             end
           else ret []) ;;
  has_args <- has_flag "HasArguments" (l_header l) ;;
  let out2 := if has_args : bool then [data_get o h "command_line_arguments"] else [] in
  match Codec.all_some (out1 ++ out2) with
  | None => raise TypeError
  | Some parts => ret (join (s2t " ") parts)
  end.

(** lnk_file.py:113-124 [make_keys_nice]: [pop("class")] changes the item that it is given. Its
    results are new dictionaries without references to the report, here values. *)
Fixpoint nice_heap (fuel : nat) (uppercase : bool) (v : hval) (h : heap) : option pyval * heap :=
  match fuel with
  | O => (None, h)
  | S n =>
    match v with
    | HNone => (Some PNone, h)
    | HInt z => (Some (PInt z), h)
    | HStr t => (Some (PStr t), h)
    | HDate d => (Some (PDate d), h)
    | HRef r =>
      match nth_error h r with
      | Some (CList vs) =>
        let '(xs, h) := fold_left (fun '(xs, h) v => let '(x, h) := nice_heap n false v h in (xs ++ [x], h)) vs ([], h) in
        (option_map PList (all_some xs), h)
      | Some (CDict ds) =>
        let '(class, ds', h) := match hget "class" ds with
                                | Some key => (Some key, hpop "class" ds, put h r (CDict (hpop "class" ds)))
                                | None => (None, ds, h)
                                end in
        let up := match class with Some _ => false | None => uppercase end in
        let '(rows, h) := fold_left (fun '(rows, h) e => let '(x, h) := nice_heap n false (snd e) h in
                                       (rows ++ [option_map (pair (fst e)) x], h)) ds' ([], h) in
        (match all_some rows with
         | Some rows =>
           let d := fold_left (fun res e => dset (nice_id (fst e) up) (snd e) res) rows [] in
           Some (match class with
                 | Some key => PDict [(key_of (match key with HStr t => PStr t | _ => PNone end), PDict d)]
                 | None => PDict d
                 end)
         | None => None
         end, h)
      | None => (None, h)
      end
    end
  end.

(** lnk_file.py:104-147 [print_lnk_file], for an arbitrary YAML dumper *)
Definition print_readable_heap (dump : dict -> text) (o : obj) (print_all : bool) (h : heap) : M (text * heap) :=
  r <- get_json_heap o print_all h ;;
  let '(res, h) := r in
  let h := update h res [PKey "header"] (hpop "r_hotkey") in
  link_flags <- format_linkFlags (l_header (o_link o)) ;;
  let h := update h res [PKey "header"] (hset "link_flags" (HStr link_flags)) in
  file_flags <- format_fileFlags (l_header (o_link o)) ;;
  let h := update h res [PKey "header"] (hset "file_flags" (HStr file_flags)) in
  let '(nice, h) := nice_heap (S (length h)) true res h in
  match nice with
  | Some (PDict nice) =>
    let nice := map (fun e => (String.append placeholder (fst e), snd e)) nice in
    let header_key := String.append placeholder "HEADER" in
    match dget header_key nice with
    | Some (PDict hd) =>
      let tree := fold_left (fun res e => dset (fst e) (snd e) res) (dpop header_key nice) hd in
      let res_yaml := replace (s2t placeholder) [10] (dump tree) in
      ret (s2t "Windows Shortcut Information:" ++ [10] ++ indent (s2t "   ") res_yaml ++ [10], h)
    | _ => raise KeyError
    end
  | _ => raise TypeError
  end.

(** ** Callers *)

(** What a caller does: calls a method, overwrites an object that it knows, or creates one. *)
Inductive call := GetJson (get_all : bool) | PrintJson (print_all : bool) | PrintReadable (print_all : bool) | Command.
Inductive action := Call (c : call) | Overwrite (r : nat) (c : cell) | Create (c : cell).
(** What a call gives back. *)
Inductive answer := AReport (v : hval) | AText (t : text).
Definition call_heap (dump : dict -> text) (o : obj) (c : call) (h : heap) : M (answer * heap) :=
  match c with
  | GetJson all => r <- get_json_heap o all h ;; ret (AReport (fst r), snd r)
  | PrintJson all => r <- print_json_heap o all h ;; ret (AText (fst r), snd r)
  | PrintReadable all => r <- print_readable_heap dump o all h ;; ret (AText (fst r), snd r)
  | Command => t <- command_heap o h ;; ret (AText t, h)
  end.
