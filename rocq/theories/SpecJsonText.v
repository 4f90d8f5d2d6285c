(** * The text of a JSON document to the last character (C68)

    RFC 8259 leaves open where white space goes, which characters are escaped, and how. What follows fixes
    all of it. *)
From Verif Require Import Py Codec SpecText SpecReport.

(** A code point, and a code page that yields code points. A Python string holds nothing else, so this is every code
    page there is. Some yield more than text: utf-7 and unicode_escape can yield half of a surrogate pair. *)
Definition code_point (c : N) : Prop := c < 0x110000.
Definition python_page (c : codec) : Prop :=
  (forall b t, strict c b = Some t -> Forall code_point t) /\ forall b, Forall code_point (replace c b).

(** ** Strings *)

Definition quotation_mark : N := 34.
Definition backslash : N := 92.

(** The characters with an escape of their own: the character, and the one after the backslash. *)
Definition short_escapes : list (N * N) :=
  [(34, 34); (92, 92); (10, 110); (13, 114); (9, 116); (12, 102); (8, 98)].

(** [t] is a code unit written with four lower case hexadecimal digits. *)
Definition hexadecimal (u : N) (t : text) : Prop :=
  exists a b c d, t = [backslash; 117; a; b; c; d] /\ hex4 a b c d = Some u
    /\ Forall (fun x => 48 <= x <= 57 \/ 97 <= x <= 102) [a; b; c; d].

(** What stands for one character. *)
Inductive escaped : N -> text -> Prop :=
| itself c : 32 <= c <= 126 -> c <> quotation_mark -> c <> backslash -> escaped c [c]
| short c e : In (c, e) short_escapes -> escaped c [backslash; e]
| unit c t : c < 32 \/ 126 < c < 0x10000 -> (forall e, ~ In (c, e) short_escapes) -> hexadecimal c t -> escaped c t
| pair c u v t1 t2 :
    high_surrogate u = true -> low_surrogate v = true -> c = 0x10000 + (u - 0xD800) * 1024 + (v - 0xDC00) ->
    hexadecimal u t1 -> hexadecimal v t2 -> escaped c (t1 ++ t2).
Inductive quoted : text -> text -> Prop :=
| quoted_chars t parts : Forall2 escaped t parts -> quoted t ([quotation_mark] ++ concat parts ++ [quotation_mark]).

(** ** Numbers: a minus sign if it takes one, and digits that do not begin with a needless zero *)
Inductive number : Z -> text -> Prop :=
| number_natural n t : natural t = Some (n, []) -> number (Z.of_N n) t
| number_negative n t : natural t = Some (n, []) -> 0 < n -> number (- Z.of_N n) (45 :: t).

(** ** Layout: one element or member per line, four blanks to the left for every bracket that is open *)
Definition indented (depth : nat) (t : text) : text := [10] ++ repeat 32 (4 * depth) ++ t.
Fixpoint with_commas (l : list text) : text :=
  match l with
  | [] => []
  | t :: r => t ++ match r with [] => [] | _ => [44] ++ with_commas r end
  end.
Definition bracketed (a b : N) (depth : nat) (rows : list text) : text :=
  [a] ++ with_commas (map (indented (S depth)) rows) ++ indented depth [b].

Inductive written (depth : nat) : json -> text -> Prop :=
| written_null : written depth JNull (s2t "null")
| written_true : written depth (JBool true) (s2t "true")
| written_false : written depth (JBool false) (s2t "false")
| written_int z t : number z t -> written depth (JInt z) t
| written_str s t : quoted s t -> written depth (JStr s) t
| written_empty_array : written depth (JArray []) (s2t "[]")
| written_array l rows :
    l <> [] -> Forall2 (written (S depth)) l rows -> written depth (JArray l) (bracketed 91 93 depth rows)
| written_empty_object : written depth (JObject []) (s2t "{}")
| written_object l rows :
    l <> [] ->
    Forall2 (fun m row => exists k v, quoted (fst m) k /\ written (S depth) (snd m) v /\ row = k ++ s2t ": " ++ v) l rows ->
    written depth (JObject l) (bracketed 123 125 depth rows).

(** The text of a report: the members of every object in the order of their names. *)
Definition printed (v : pyval) (t : text) : Prop := exists j, denotes j v /\ ordered j /\ written 0 j t.
