(** * json.dumps as lnk_file.py calls it *)
From Verif Require Import Py PyTime.

(** ** Strings: [json.encoder.py_encode_basestring_ascii] *)

(** ['\\u%04x' % n] *)
Definition u_escape (n : N) : text := s2t "\u" ++ hexx 4 n.

(** One character of a string literal, with [ensure_ascii=True]. *)
Definition json_char (c : N) : text :=
  if c =? 34 then [92; 34]
  else if c =? 92 then [92; 92]
  else if c =? 10 then s2t "\n"
  else if c =? 13 then s2t "\r"
  else if c =? 9 then s2t "\t"
  else if c =? 12 then s2t "\f"
  else if c =? 8 then s2t "\b"
  else if (32 <=? c) && (c <=? 126) then [c]
  else if c <? 0x10000 then u_escape c
  else
    let n := c - 0x10000 in
    u_escape (0xD800 + n / 1024 mod 1024) ++ u_escape (0xDC00 + n mod 1024).

Definition json_string (t : text) : text := [34] ++ flat_map json_char t ++ [34].

(** ** Dates: lnk_file.py:184-187 [_datetime_to_str]

    [datetime.replace(microsecond=0).isoformat()] of an aware UTC datetime. *)
Definition pad_dec (w : nat) (z : Z) : text := pad0 w (decZ_text z).
Definition isoformat (d : datetime) : text :=
  pad_dec 4 (dt_year d) ++ s2t "-" ++ pad_dec 2 (dt_month d) ++ s2t "-" ++ pad_dec 2 (dt_day d) ++ s2t "T"
  ++ pad_dec 2 (dt_hour d) ++ s2t ":" ++ pad_dec 2 (dt_min d) ++ s2t ":" ++ pad_dec 2 (dt_sec d) ++ s2t "+00:00".

(** ** Key order: [sort_keys=True]

    Python compares [str] by code points, [String.compare] compares the ASCII codes. *)
Fixpoint sort_insert {A} (k : string) (v : A) (l : list (string * A)) : list (string * A) :=
  match l with
  | [] => [(k, v)]
  | (k', v') :: r => if String.leb k k' then (k, v) :: l else (k', v') :: sort_insert k v r
  end.
Fixpoint sort_entries {A} (l : list (string * A)) : list (string * A) :=
  match l with
  | [] => []
  | (k, v) :: r => sort_insert k v (sort_entries r)
  end.

(** ** Layout *)

Fixpoint join (sep : text) (l : list text) : text :=
  match l with
  | [] => []
  | [x] => x
  | x :: r => x ++ sep ++ join sep r
  end.

(** Line break followed by the indentation of the given depth ([indent=4]). *)
Definition newline (depth : nat) : text := 10 :: repeat 32 (4 * depth).

(** A container: elements one per line, or the bare brackets when empty. *)
Definition container (open close : N) (depth : nat) (elems : list text) : text :=
  match elems with
  | [] => [open; close]
  | _ => open :: newline (S depth) ++ join (44 :: newline (S depth)) elems ++ newline depth ++ [close]
  end.

(** lnk_file.py:189-197: [json.dumps(res, indent=4, separators=(",", ": "),
    default=_datetime_to_str, sort_keys=True)] *)
Fixpoint dumps (depth : nat) (v : pyval) {struct v} : text :=
  match v with
  | PNone => s2t "null"
  | PInt z => decZ_text z
  | PStr t => json_string t
  | PDate d => json_string (isoformat d)
  | PList l => container 91 93 depth (map (dumps (S depth)) l)
  | PDict d =>
    container 123 125 depth
      (map (fun e : string * text => json_string (s2t (fst e)) ++ s2t ": " ++ snd e)
        (sort_entries
          ((fix rows (d : dict) : list (string * text) :=
              match d with
              | [] => []
              | (k, v) :: r => (k, dumps (S depth) v) :: rows r
              end) d)))
  end.

Definition print_json_text (res : dict) : text := dumps 0 (PDict res).
