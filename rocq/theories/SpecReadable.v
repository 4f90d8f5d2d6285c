(** * The readable report (C45) *)
From Verif Require Import Py.

(** ** Names

    A key of the report as shown: without a leading "r_", underscores as blanks, and in
    capitals for the headings of the sections and for keys without small letters, with one
    initial capital otherwise. *)
Definition small (c : ascii) : bool := (97 <=? N_of_ascii c) && (N_of_ascii c <=? 122).
Definition big (c : ascii) : bool := (65 <=? N_of_ascii c) && (N_of_ascii c <=? 90).
Definition to_big (c : ascii) : ascii := if small c then ascii_of_N (N_of_ascii c - 32) else c.
Definition to_small (c : ascii) : ascii := if big c then ascii_of_N (N_of_ascii c + 32) else c.
Definition blank (c : ascii) : ascii := if N_of_ascii c =? 95 then ascii_of_N 32 else c.
Definition bare (k : string) : list ascii :=
  match list_ascii_of_string k with
  | a :: b :: r => if (N_of_ascii a =? 114) && (N_of_ascii b =? 95) then r else a :: b :: r
  | r => r
  end.
Definition heading (k : string) : string := string_of_list_ascii (map (fun c => blank (to_big c)) (bare k)).
Definition label (k : string) : string :=
  match bare k with
  | c :: r => if existsb small (c :: r)
              then string_of_list_ascii (blank (to_big c) :: map (fun c => blank (to_small c)) r)
              else heading k
  | [] => EmptyString
  end.
Definition shown_name (top : bool) (k : string) : string := if top then heading k else label k.

(** Each name once, in order of first appearance. *)
Fixpoint once (ks : list string) : list string :=
  match ks with
  | [] => []
  | k :: r => k :: filter (fun x => negb (String.eqb x k)) (once r)
  end.

(** ** Values

    [shown top v t] - the tree [t] shows the value [v]. In a dictionary, the last entry with
    a given name is the one shown; a dictionary with a class is shown under its class. *)
Inductive shown : bool -> pyval -> pyval -> Prop :=
| shown_none top : shown top PNone PNone
| shown_int top z : shown top (PInt z) (PInt z)
| shown_str top t : shown top (PStr t) (PStr t)
| shown_date top d : shown top (PDate d) (PDate d)
| shown_list top vs ts : Forall2 (shown false) vs ts -> shown top (PList vs) (PList ts)
| shown_dict top d t :
    dget "class" d = None ->
    map fst t = once (map (fun e => shown_name top (fst e)) d) ->
    (forall d1 k v d2, d = d1 ++ (k, v) :: d2 ->
       ~ In (shown_name top k) (map (fun e => shown_name top (fst e)) d2) ->
       exists w, In (shown_name top k, w) t /\ shown false v w) ->
    shown top (PDict d) (PDict t)
| shown_class top d d1 v d2 c t :
    d = d1 ++ ("class"%string, v) :: d2 ->
    (forall s, v = PStr s -> Forall (fun c => c < 256) s -> s2t c = s) ->
    shown false (PDict (d1 ++ d2)) t ->
    shown top (PDict d) (PDict [(c, t)]).

(** ** The header

    The raw hot key is left out and the flags are shown on one line, with their number. *)
Fixpoint bars (names : list text) : text :=
  match names with
  | [] => []
  | [x] => x
  | x :: r => x ++ s2t " | " ++ bars r
  end.
Definition texts (vs : list pyval) : list text := map (fun v => match v with PStr t => t | _ => [] end) vs.
Definition flags_line (n : Z) (names : list text) : text :=
  bars names ++ (if (n =? 0)%Z then s2t "(0)" else s2t " - (" ++ decZ_text n ++ s2t ")").
Definition flags_shown (h : dict) (raw names : string) : pyval :=
  match dget raw h, dget names h with
  | Some (PInt n), Some (PList vs) => PStr (flags_line n (texts vs))
  | _, _ => PNone
  end.
Definition header_shown (h : dict) : dict :=
  map (fun e => if String.eqb (fst e) "link_flags" then (fst e, flags_shown h "r_link_flags" "link_flags")
                else if String.eqb (fst e) "file_flags" then (fst e, flags_shown h "r_file_flags" "file_flags")
                else e)
      (filter (fun e => negb (String.eqb (fst e) "r_hotkey")) h).

(** The sections of the report, the header apart. *)
Definition others (d : dict) : dict := filter (fun e => negb (String.eqb (fst e) "header")) d.

(** Two entries of one dictionary get the same name only if the first is the second with the
    prefix "r_", or the second is the raw hot key. *)
Definition names_collide_only_raw (ks : list string) : Prop :=
  forall ks1 j ks2 k ks3 top,
    ks = ks1 ++ j :: ks2 ++ k :: ks3 -> shown_name top j = shown_name top k ->
    j = String.append "r_" k \/ (j = "hotkey"%string /\ k = "r_hotkey"%string).

(** What marks the empty line before a section. *)
Definition empty_line : string := "EMPTY_LINE_PLACEHOLDER".
