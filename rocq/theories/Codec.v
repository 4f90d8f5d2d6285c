(** * Text decoding: the codecs CPython provides, and text_processor.py *)
From Verif Require Import Py.

(** ** CPython codecs

    A decoder is described by the list of its decoding events: [Some c] is a decoded
    code point, [None] is one decoding error. [errors="strict"] fails if there is an
    error, [errors="replace"] turns each error into U+FFFD. *)

Fixpoint all_some {A} (l : list (option A)) : option (list A) :=
  match l with
  | [] => Some []
  | Some x :: r => match all_some r with Some xs => Some (x :: xs) | None => None end
  | None :: _ => None
  end.
Definition replaced (l : list (option N)) : text :=
  map (fun o => match o with Some c => c | None => 0xFFFD end) l.

(** A code page as the parser uses it: strict decoding and decoding with replacement. *)
Record codec := Codec { strict : bytes -> option text; replace : bytes -> text }.
Definition event_codec (ev : bytes -> list (option N)) : codec :=
  Codec (fun b => all_some (ev b)) (fun b => replaced (ev b)).

(** Windows-1252 as in Python's [encodings/cp1252.py]. *)
Definition cp1252_high : list (option N) :=
  [Some 0x20AC; None; Some 0x201A; Some 0x0192; Some 0x201E; Some 0x2026; Some 0x2020; Some 0x2021;
   Some 0x02C6; Some 0x2030; Some 0x0160; Some 0x2039; Some 0x0152; None; Some 0x017D; None;
   None; Some 0x2018; Some 0x2019; Some 0x201C; Some 0x201D; Some 0x2022; Some 0x2013; Some 0x2014;
   Some 0x02DC; Some 0x2122; Some 0x0161; Some 0x203A; Some 0x0153; None; Some 0x017E; Some 0x0178].
Definition cp1252_char (b : byte) : option N :=
  let n := b2n b in
  if (128 <=? n) && (n <? 160) then nth (N.to_nat (n - 128)) cp1252_high None else Some n.
Definition cp1252 : codec := event_codec (map cp1252_char).

(** ASCII. *)
Definition ascii_char (b : byte) : option N := if b2n b <? 128 then Some (b2n b) else None.
Definition ascii_replace (b : bytes) : text := replaced (map ascii_char b).

(** Strict UTF-8 (well-formed sequences of Unicode table 3-7). *)
Definition in_range (lo hi : N) (b : byte) : bool := (lo <=? b2n b) && (b2n b <=? hi).
Definition ucons (c : N) (r : option text) : option text :=
  match r with Some t => Some (c :: t) | None => None end.
Fixpoint utf8_strict (b : bytes) : option text :=
  match b with
  | [] => Some []
  | a :: r =>
    if b2n a <? 0x80 then ucons (b2n a) (utf8_strict r)
    else if in_range 0xC2 0xDF a then
      match r with
      | c :: r' => if in_range 0x80 0xBF c
                   then ucons ((b2n a - 0xC0) * 64 + (b2n c - 0x80)) (utf8_strict r') else None
      | _ => None
      end
    else if in_range 0xE0 0xEF a then
      match r with
      | c :: d :: r' =>
        let lo := if b2n a =? 0xE0 then 0xA0 else 0x80 in
        let hi := if b2n a =? 0xED then 0x9F else 0xBF in
        if in_range lo hi c && in_range 0x80 0xBF d
        then ucons ((b2n a - 0xE0) * 4096 + (b2n c - 0x80) * 64 + (b2n d - 0x80)) (utf8_strict r')
        else None
      | _ => None
      end
    else if in_range 0xF0 0xF4 a then
      match r with
      | c :: d :: e :: r' =>
        let lo := if b2n a =? 0xF0 then 0x90 else 0x80 in
        let hi := if b2n a =? 0xF4 then 0x8F else 0xBF in
        if in_range lo hi c && in_range 0x80 0xBF d && in_range 0x80 0xBF e
        then ucons ((b2n a - 0xF0) * 262144 + (b2n c - 0x80) * 4096 + (b2n d - 0x80) * 64 + (b2n e - 0x80))
                   (utf8_strict r')
        else None
      | _ => None
      end
    else None
  end.

(** UTF-16LE as in CPython's [_PyUnicode_DecodeUTF16Stateful]: an unpaired low surrogate
    is one error of two bytes; a high surrogate followed by something else is one error and
    decoding resumes at that something; a high surrogate followed by at most one byte, or a
    single remaining byte, is one error up to the end. *)
Definition unit16 (a b : byte) : N := b2n a + 256 * b2n b.
Definition is_surrogate (u : N) : bool := (0xD800 <=? u) && (u <=? 0xDFFF).
Definition is_high (u : N) : bool := (0xD800 <=? u) && (u <=? 0xDBFF).
Definition is_low (u : N) : bool := (0xDC00 <=? u) && (u <=? 0xDFFF).
Fixpoint utf16_events (b : bytes) : list (option N) :=
  match b with
  | [] => []
  | [_] => [None]
  | a0 :: a1 :: r =>
    let u := unit16 a0 a1 in
    if negb (is_surrogate u) then Some u :: utf16_events r
    else if negb (is_high u) then None :: utf16_events r
    else match r with
         | c0 :: c1 :: r' =>
           let v := unit16 c0 c1 in
           if is_low v
           then Some (0x10000 + (u - 0xD800) * 1024 + (v - 0xDC00)) :: utf16_events r'
           else None :: utf16_events r
         | _ => [None]
         end
  end.
Definition utf16_strict (b : bytes) : option text := all_some (utf16_events b).
Definition utf16_replace (b : bytes) : text := replaced (utf16_events b).

(** ** The [cp] argument *)

(** [CpNone] is [None] or [""]; [CpCodec] a code page known to Python; [CpUnknown] a name
    for which [bytes.decode] raises LookupError (not on empty input, which CPython
    short-cuts). *)
Inductive cp_arg := CpNone | CpCodec (c : codec) | CpUnknown.

(** text_processor.py:13-14 [TextProcessor.__init__] *)
Definition tp_codec (cp : cp_arg) : option codec :=
  match cp with CpNone => Some cp1252 | CpCodec c => Some c | CpUnknown => None end.

(** ** text_processor.py *)

(** text_processor.py:19-31 [read_strings._chars_to_string] *)
Definition chars_to_string (cp : cp_arg) (bin_string : bytes) : M text :=
  match bin_string with
  | [] => ret []
  | _ =>
    match tp_codec cp with
    | None => raise LookupError
    | Some c =>
      match strict c bin_string with
      | Some s => ret s
      | None =>
        match utf8_strict bin_string with
        | Some s => ret s
        | None => let s := replace c bin_string in warn (WDecode s) ;;; ret s
        end
      end
    end
  end.

(** text_processor.py:33-40: the byte groups between NULs; [chars] is the pending group. *)
Fixpoint split_nul (chars : bytes) (binary : bytes) : list bytes :=
  match binary with
  | [] => [chars]
  | c :: r => if Byte.eqb c x00 then chars :: split_nul [] r else split_nul (chars ++ [c]) r
  end.

(** text_processor.py:16-40 [read_strings]: the generator's elements, each decoded only
    when it is asked for. *)
Definition read_strings (cp : cp_arg) (binary : bytes) : list (M text) :=
  map (chars_to_string cp) (split_nul [] binary).

(** [next(it)] on the remaining elements of such a generator. *)
Definition next_string (it : list (M text)) : M (text * list (M text)) :=
  match it with
  | [] => raise StopIteration
  | m :: it' => t <- m ;; ret (t, it')
  end.

(** text_processor.py:42-44 [read_string] *)
Definition read_string (cp : cp_arg) (binary : bytes) : M text :=
  r <- next_string (read_strings cp binary) ;; ret (fst r).

(** text_processor.py:72-84 [_2bytes_each] *)
Fixpoint two_bytes_each (binary : bytes) : list bytes :=
  match binary with
  | [] => []
  | [a] => [[a]]
  | a :: b :: r => [a; b] :: two_bytes_each r
  end.

Definition is_nul_unit (u : bytes) : bool :=
  match u with [a; b] => Byte.eqb a x00 && Byte.eqb b x00 | _ => false end.

(** text_processor.py:59-66 *)
Fixpoint split_nul_units (chars : bytes) (units : list bytes) : list bytes :=
  match units with
  | [] => [chars]
  | u :: r => if is_nul_unit u then chars :: split_nul_units [] r else split_nul_units (chars ++ u) r
  end.

(** text_processor.py:49-57 [read_unicode_strings._chars_to_string] *)
Definition uchars_to_string (bin_string : bytes) : M text :=
  match utf16_strict bin_string with
  | Some s => ret s
  | None => let s := utf16_replace bin_string in warn (WDecode s) ;;; ret s
  end.

(** text_processor.py:46-66 [read_unicode_strings] *)
Definition read_unicode_strings (binary : bytes) : list (M text) :=
  map uchars_to_string (split_nul_units [] (two_bytes_each binary)).

(** text_processor.py:68-70 [read_unicode_string] *)
Definition read_unicode_string (binary : bytes) : M text :=
  r <- next_string (read_unicode_strings binary) ;; ret (fst r).
