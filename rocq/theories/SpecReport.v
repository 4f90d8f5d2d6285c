(** * What a report looks like, and how it is abridged, printed and quoted

    The vocabulary of properties C41-C45, C49 and C56. *)
From Coq Require Export Sorting.Permutation Sorting.Sorted.
From Verif Require Import Py Codec SpecText SpecTime.

(** ** Well-formed report values

    A tree of None, integers, strings, points in time, lists and dictionaries: every
    dictionary has distinct keys satisfying [K], every string satisfies [T], every point in
    time is a date of the calendar. *)
Section WellFormed.
  Variable T : text -> Prop.
  Variable K : list string -> Prop.
  Fixpoint well_formed (v : pyval) : Prop :=
    match v with
    | PNone | PInt _ => True
    | PStr t => T t
    | PDate d => valid_datetime d
    | PList l => (fix all (l : list pyval) : Prop :=
                    match l with [] => True | v :: r => well_formed v /\ all r end) l
    | PDict d => NoDup (map fst d) /\ K (map fst d)
                 /\ (fix all (d : dict) : Prop :=
                       match d with [] => True | (_, v) :: r => well_formed v /\ all r end) d
    end.
End WellFormed.

(** A code page that yields Unicode scalar values. *)
Definition text_page (c : codec) : Prop :=
  (forall b t, strict c b = Some t -> Forall scalar t) /\ forall b, Forall scalar (replace c b).

(** ** The abridged report *)

(** A position in a report: the keys and list indices leading to it. *)
Inductive step := Key (k : string) | Element (i : N).
Definition path := list step.

(** The positions the abridged report leaves out. *)
Definition left_out (p : path) : bool :=
  match p with
  | [Key a; Key b] =>
    existsb (fun e => String.eqb a (fst e) && existsb (String.eqb b) (snd e))
      [("header", ["header_size"; "reserved0"; "reserved1"; "reserved2"]);
       ("link_info",
         ["link_info_size"; "link_info_header_size"; "volume_id_offset"; "local_base_path_offset";
          "common_network_relative_link_offset"; "common_path_suffix_offset"]);
       ("target", ["index"; "size"])]
  | [Key a; Key b; Key c] =>
    String.eqb a "link_info" && String.eqb b "location_info"
    && existsb (String.eqb c)
         ["volume_id_size"; "volume_label_offset";
          "common_network_relative_link_size"; "net_name_offset"; "device_name_offset"]
  | [Key a; Key b; Element _; Key c] =>
    String.eqb a "target" && String.eqb b "items" && String.eqb c "modification_time"
  | _ => false
  end.

(** [v], found at position [p], without the entries at the positions [left_out]. *)
Section Abridge.
  Variable out : path -> bool.
  Fixpoint abridged (p : path) (v : pyval) : pyval :=
    match v with
    | PList l =>
      PList ((fix go (i : N) (l : list pyval) : list pyval :=
                match l with
                | [] => []
                | v :: r => abridged (p ++ [Element i]) v :: go (i + 1) r
                end) 0 l)
    | PDict d =>
      PDict ((fix go (d : dict) : dict :=
                match d with
                | [] => []
                | (k, v) :: r =>
                  if out (p ++ [Key k]) then go r else (k, abridged (p ++ [Key k]) v) :: go r
                end) d)
    | v => v
    end.
End Abridge.

(** Whether the position [q] below [p], or one that encloses it, is left out. *)
Fixpoint hidden (out : path -> bool) (p q : path) : bool :=
  match q with
  | [] => false
  | Key k :: r => out (p ++ [Key k]) || hidden out (p ++ [Key k]) r
  | s :: r => hidden out (p ++ [s]) r
  end.

(** The value at a position. *)
Definition child (s : step) (v : pyval) : option pyval :=
  match s, v with
  | Key k, PDict d => dget k d
  | Element i, PList l => nth_error l (N.to_nat i)
  | _, _ => None
  end.
Fixpoint at_path (p : path) (v : pyval) : option pyval :=
  match p with
  | [] => Some v
  | s :: p => match child s v with Some v => at_path p v | None => None end
  end.

(** ** JSON (RFC 8259)

    A reader for JSON texts without fractions and exponents (a text it accepts is a JSON
    text). *)
Inductive json :=
| JNull | JBool (b : bool) | JInt (z : Z) | JStr (t : text)
| JArray (l : list json) | JObject (l : list (text * json)).

(** RFC 8259 section 2: white space *)
Definition is_space (c : N) : bool := existsb (N.eqb c) [32; 9; 10; 13].
Fixpoint skip_space (t : text) : text :=
  match t with c :: r => if is_space c then skip_space r else t | [] => [] end.

(** section 7: strings *)
Definition hex_value (c : N) : option N :=
  if (48 <=? c) && (c <=? 57) then Some (c - 48)
  else if (65 <=? c) && (c <=? 70) then Some (c - 55)
  else if (97 <=? c) && (c <=? 102) then Some (c - 87)
  else None.
Definition hex4 (a b c d : N) : option N :=
  match hex_value a, hex_value b, hex_value c, hex_value d with
  | Some a, Some b, Some c, Some d => Some (((a * 16 + b) * 16 + c) * 16 + d)
  | _, _, _, _ => None
  end.
Definition escape (c : N) : option N :=
  if c =? 34 then Some 34 else if c =? 92 then Some 92 else if c =? 47 then Some 47
  else if c =? 98 then Some 8 else if c =? 102 then Some 12 else if c =? 110 then Some 10
  else if c =? 114 then Some 13 else if c =? 116 then Some 9 else None.
Definition high_surrogate (u : N) : bool := (0xD800 <=? u) && (u <? 0xDC00).
Definition low_surrogate (u : N) : bool := (0xDC00 <=? u) && (u <? 0xE000).
(** A character following the code units read so far: a high surrogate followed by a low
    one is one character. *)
Definition join_units (u : N) (t : text) : text :=
  match t with
  | v :: r => if high_surrogate u && low_surrogate v
              then 0x10000 + (u - 0xD800) * 1024 + (v - 0xDC00) :: r else u :: t
  | [] => [u]
  end.
(** The characters up to the closing quotation mark, and what follows it. *)
Fixpoint string_body (t : text) : option (text * text) :=
  match t with
  | [] => None
  | c :: r =>
    if c =? 34 then Some ([], r)
    else if c =? 92 then
      match r with
      | e :: r1 =>
        if e =? 117 then
          match r1 with
          | h1 :: h2 :: h3 :: h4 :: r2 =>
            match hex4 h1 h2 h3 h4, string_body r2 with
            | Some u, Some (s, r3) => Some (join_units u s, r3)
            | _, _ => None
            end
          | _ => None
          end
        else
          match escape e, string_body r1 with
          | Some u, Some (s, r2) => Some (u :: s, r2)
          | _, _ => None
          end
      | [] => None
      end
    else if c <? 32 then None
    else match string_body r with Some (s, r1) => Some (c :: s, r1) | None => None end
  end.

(** section 6: numbers *)
Definition is_digit (c : N) : bool := (48 <=? c) && (c <=? 57).
Fixpoint span_digits (t : text) : text * text :=
  match t with
  | c :: r => if is_digit c then let (d, r) := span_digits r in (c :: d, r) else ([], t)
  | [] => ([], [])
  end.
Definition decimal (d : text) : N := fold_left (fun n c => n * 10 + (c - 48)) d 0.
Definition natural (t : text) : option (N * text) :=
  let (d, r) := span_digits t in
  match d, r with
  | [], _ => None
  | 48 :: _ :: _, _ => None
  | _, c :: _ => if existsb (N.eqb c) [46; 69; 101] then None else Some (decimal d, r)
  | _, [] => Some (decimal d, r)
  end.

(** [t] after the literal [l]. *)
Fixpoint after (l t : text) : option text :=
  match l, t with
  | [], _ => Some t
  | a :: l, b :: t => if a =? b then after l t else None
  | _ :: _, [] => None
  end.

(** sections 3-5: values, arrays and objects *)
Fixpoint value (fuel : nat) (t : text) {struct fuel} : option (json * text) :=
  match fuel with
  | O => None
  | S fuel =>
    match skip_space t with
    | [] => None
    | c :: r =>
      if c =? 110 then option_map (pair JNull) (after (s2t "ull") r)
      else if c =? 116 then option_map (pair (JBool true)) (after (s2t "rue") r)
      else if c =? 102 then option_map (pair (JBool false)) (after (s2t "alse") r)
      else if c =? 34 then
        match string_body r with Some (s, r) => Some (JStr s, r) | None => None end
      else if c =? 45 then
        match natural r with Some (n, r) => Some (JInt (- Z.of_N n), r) | None => None end
      else if c =? 91 then
        match skip_space r with
        | c1 :: r1 =>
          if c1 =? 93 then Some (JArray [], r1)
          else match elements fuel r with Some (l, r) => Some (JArray l, r) | None => None end
        | [] => None
        end
      else if c =? 123 then
        match skip_space r with
        | c1 :: r1 =>
          if c1 =? 125 then Some (JObject [], r1)
          else match members fuel r with Some (l, r) => Some (JObject l, r) | None => None end
        | [] => None
        end
      else match natural (c :: r) with Some (n, r) => Some (JInt (Z.of_N n), r) | None => None end
    end
  end
(** the elements of an array, and what follows its closing bracket *)
with elements (fuel : nat) (t : text) {struct fuel} : option (list json * text) :=
  match fuel with
  | O => None
  | S fuel =>
    match value fuel t with
    | None => None
    | Some (v, r) =>
      match skip_space r with
      | c :: r =>
        if c =? 44 then
          match elements fuel r with Some (l, r) => Some (v :: l, r) | None => None end
        else if c =? 93 then Some ([v], r) else None
      | [] => None
      end
    end
  end
(** the members of an object, and what follows its closing brace *)
with members (fuel : nat) (t : text) {struct fuel} : option (list (text * json) * text) :=
  match fuel with
  | O => None
  | S fuel =>
    match skip_space t with
    | q :: r =>
      if q =? 34 then
        match string_body r with
        | None => None
        | Some (k, r) =>
          match skip_space r with
          | colon :: r =>
            if colon =? 58 then
              match value fuel r with
              | None => None
              | Some (v, r) =>
                match skip_space r with
                | c :: r =>
                  if c =? 44 then
                    match members fuel r with Some (l, r) => Some ((k, v) :: l, r) | None => None end
                  else if c =? 125 then Some ([(k, v)], r) else None
                | [] => None
                end
              end
            else None
          | [] => None
          end
        end
      else None
    | [] => None
    end
  end.

(** A document: one value and nothing else. *)
Definition read_json (t : text) : option json :=
  match value (2 * length t + 1) t with
  | Some (v, r) => match skip_space r with [] => Some v | _ => None end
  | None => None
  end.

(** Printable ASCII characters and line feeds only. *)
Definition plain (t : text) : Prop := Forall (fun c => c = 10 \/ 32 <= c <= 126) t.

(** ISO 8601 with whole seconds, in UTC: "2021-07-09T10:15:59+00:00". *)
Definition two (z : Z) : text := [Z.to_N (48 + z / 10); Z.to_N (48 + z mod 10)].
Definition iso8601 (t : datetime) : text :=
  two (dt_year t / 100) ++ two (dt_year t mod 100) ++ [45] ++ two (dt_month t) ++ [45] ++ two (dt_day t)
  ++ [84] ++ two (dt_hour t) ++ [58] ++ two (dt_min t) ++ [58] ++ two (dt_sec t) ++ s2t "+00:00".

(** The JSON values that denote a report value: members in any order. *)
Inductive denotes : json -> pyval -> Prop :=
| denotes_none : denotes JNull PNone
| denotes_int z : denotes (JInt z) (PInt z)
| denotes_str t : denotes (JStr t) (PStr t)
| denotes_date d : denotes (JStr (iso8601 d)) (PDate d)
| denotes_list js vs : Forall2 denotes js vs -> denotes (JArray js) (PList vs)
| denotes_dict ms d d' :
    Permutation d d' ->
    Forall2 (fun (m : text * json) (e : string * pyval) => fst m = s2t (fst e) /\ denotes (snd m) (snd e)) ms d' ->
    denotes (JObject ms) (PDict d).

(** The lexicographic order of character codes. *)
Fixpoint before (a b : text) : Prop :=
  match a, b with
  | [], _ => True
  | _ :: _, [] => False
  | x :: a, y :: b => x < y \/ (x = y /\ before a b)
  end.
(** Every object lists its members in increasing order of their names. *)
Inductive ordered : json -> Prop :=
| ordered_null : ordered JNull
| ordered_bool b : ordered (JBool b)
| ordered_int z : ordered (JInt z)
| ordered_str t : ordered (JStr t)
| ordered_array l : Forall ordered l -> ordered (JArray l)
| ordered_object l :
    StronglySorted before (map fst l) -> Forall (fun m => ordered (snd m)) l -> ordered (JObject l).
