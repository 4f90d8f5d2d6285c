(** * Model: walking the parts of a link by hand (property C71)

    [for item in lnk.targets], [for block in lnk.extras], the methods of what comes out of these loops, and the methods
    of [lnk.string_data]. Iterators are kept in the variables of the caller, numbered here. *)
From Verif Require Import Py PyTime Codec Utils Header StringData Targets Info Extra LnkFile Report.

(** lnk_targets.py:35-36 [__iter__], 52-83 [_id_lists]: a generator between two resumptions. It is suspended before the
    loop or behind [yield] (then [rest] is what it will go on with), or it has ended. *)
Inductive generator := Suspended (rest : bytes) | Ended.
(** [next(g)]; a generator that has returned or raised only raises StopIteration. *)
Definition generator_next (cp : cp_arg) (g : generator) : generator * M target :=
  match g with
  | Ended => (Ended, raise StopIteration)
  | Suspended rest =>
    match next_target cp rest with
    | (w, Ok (Some (t, rest'))) => (Suspended rest', (w, Ok t))
    | (w, Ok None) => (Ended, (w, Err StopIteration))
    | (w, Err e) => (Ended, (w, Err e))
    end
  end.

(** An iterator, with what it has given so far. extra_data.py:24-25 [__iter__] is an iterator of a list: a position. *)
Inductive iterator :=
| ItemIterator (g : generator) (got : list target)
| BlockIterator (at_ : nat).

(** string_data.py:66-79: the five methods. *)
Inductive string_method := Description | RelativePath | WorkingDirectory | CommandLineArguments | IconLocation.
Definition string_key (m : string_method) : string :=
  match m with
  | Description => "description" | RelativePath => "relative_path" | WorkingDirectory => "working_directory"
  | CommandLineArguments => "command_line_arguments" | IconLocation => "icon_location"
  end.

(** What a caller does. [v] is a variable, [k] counts what the iterator in [v] has given from 0 on. *)
Inductive call :=
| IterItems (v : nat)        (* v = iter(lnk.targets) *)
| IterBlocks (v : nat)       (* v = iter(lnk.extras) *)
| Next (v : nat)             (* next(v) *)
| NameOf (v k : nat)         (* item.name, block.name() *)
| SizeOf (v k : nat)         (* item.size(), block.size() *)
| Show (v k : nat)           (* item.as_item(), block.as_dict() *)
| Ask (m : string_method)    (* lnk.string_data.m() *)
| Report (all : bool).       (* lnk.get_json(all) *)
Inductive answer := Nothing | Given | AText (t : text) | AName (s : string) | ANumber (n : N) | ADict (d : dict).

(** The variables of the caller. *)
Definition variables := nat -> option iterator.
Definition assign (v : nat) (i : iterator) (s : variables) : variables := fun v' => if Nat.eqb v v' then Some i else s v'.

(** One call: the variables afterwards and the answer; [None] if there is nothing to call. *)
Definition made {A} (f : A -> answer) (m : M A) : M answer := x <- m ;; ret (f x).
Definition do_call (l : lnk) (s : variables) (c : call) : variables * option (M answer) :=
  let cp := l_cp l in
  match c with
  | IterItems v =>
    match l_targets l with                                      (* lnk_file.py:73-76; iter(None) *)
    | Some t => (assign v (ItemIterator (Suspended (tg_raw_targets t)) []) s, Some (ret Nothing))
    | None => (s, Some (raise TypeError))
    end
  | IterBlocks v => (assign v (BlockIterator 0) s, Some (ret Nothing))
  | Next v =>
    match s v with
    | Some (ItemIterator g got) =>
      match generator_next cp g with
      | (g', (w, Ok t)) => (assign v (ItemIterator g' (got ++ [t])) s, Some (w, Ok Given))
      | (g', (w, Err e)) => (assign v (ItemIterator g' got) s, Some (w, Err e))
      end
    | Some (BlockIterator n) =>
      match nth_error (l_extras l) n with
      | Some _ => (assign v (BlockIterator (S n)) s, Some (ret Given))
      | None => (s, Some (raise StopIteration))
      end
    | None => (s, None)
    end
  | NameOf v k =>
    (s, match s v with
        | Some (ItemIterator _ got) => option_map (fun t => ret (AName (target_name (t_class t)))) (nth_error got k)
        | Some (BlockIterator n) => option_map (fun e => ret (AName (extra_name (ex_class e)))) (nth_error (firstn n (l_extras l)) k)
        | None => None
        end)
  | SizeOf v k =>
    (s, match s v with
        | Some (ItemIterator _ got) => option_map (fun t => made ANumber (target_size (t_raw t))) (nth_error got k)
        | Some (BlockIterator n) => option_map (fun e => made ANumber (extra_size e)) (nth_error (firstn n (l_extras l)) k)
        | None => None
        end)
  | Show v k =>
    (s, match s v with
        | Some (ItemIterator _ got) => option_map (fun t => made ADict (as_item cp t)) (nth_error got k)
        | Some (BlockIterator n) => option_map (fun e => made ADict (extra_as_dict cp e)) (nth_error (firstn n (l_extras l)) k)
        | None => None
        end)
  | Ask m => (s, Some (ret (match sd_get (string_key m) (l_string_data l) with Some t => AText t | None => Nothing end)))
  | Report all => (s, Some (made ADict (get_json l all)))
  end.

(** The variables after some calls, the latest call first. *)
Fixpoint after (l : lnk) (h : list call) : variables :=
  match h with
  | [] => fun _ => None
  | c :: h => fst (do_call l (after l h) c)
  end.
(** The answer to [c] after the calls [h]. *)
Definition answered (l : lnk) (h : list call) (c : call) : option (M answer) := snd (do_call l (after l h) c).
