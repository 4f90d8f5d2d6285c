(** * Specification of single characters (C12, C13)

    Windows-1252 as a table of characters, and what becomes of malformed UTF-16. *)
From Verif Require Import Py Spec SpecText.

(** The characters of Windows-1252 between 0x80 and 0x9F, in the order of their code points. Behind each its byte. *)
Definition windows_1252_table : list (N * N) :=
  [(338, 0x8C) (* OE *); (339, 0x9C) (* oe *); (352, 0x8A) (* S caron *); (353, 0x9A) (* s caron *);
   (376, 0x9F) (* Y diaeresis *); (381, 0x8E) (* Z caron *); (382, 0x9E) (* z caron *); (402, 0x83) (* f hook *);
   (710, 0x88) (* circumflex *); (732, 0x98) (* small tilde *); (8211, 0x96) (* en dash *); (8212, 0x97) (* em dash *);
   (8216, 0x91) (* left quote *); (8217, 0x92) (* right quote *); (8218, 0x82) (* low quote *);
   (8220, 0x93) (* left double quote *); (8221, 0x94) (* right double quote *); (8222, 0x84) (* low double quote *);
   (8224, 0x86) (* dagger *); (8225, 0x87) (* double dagger *); (8226, 0x95) (* bullet *); (8230, 0x85) (* ellipsis *);
   (8240, 0x89) (* per mille *); (8249, 0x8B) (* left angle quote *); (8250, 0x9B) (* right angle quote *);
   (8364, 0x80) (* euro *); (8482, 0x99) (* trade mark *)].
(** Byte [x] stands for [c]: Latin-1 outside 0x80 to 0x9F. *)
Definition stands_for (x : byte) (c : N) : Prop :=
  (b2n x < 0x80 \/ 0xA0 <= b2n x) /\ c = b2n x \/ In (c, b2n x) windows_1252_table.
(** The five bytes that stand for nothing. *)
Definition unassigned (x : byte) : Prop := In (b2n x) [0x81; 0x8D; 0x8F; 0x90; 0x9D].

(** Malformed UTF-16: a replacement character for each surrogate without its other half, and for an odd byte at the
    end. A first half at the end takes the odd byte behind it along. *)
Definition first_half (u : N) : Prop := 0xD800 <= u < 0xDC00.
Definition second_half (u : N) : Prop := 0xDC00 <= u < 0xE000.
Inductive wide_chars : bytes -> text -> Prop :=
| wide_end : wide_chars [] []
| wide_char c r t : scalar c -> wide_chars r t -> wide_chars (utf16_char c ++ r) (c :: t)
| wide_second u r t : second_half u -> wide_chars r t -> wide_chars (enc16 u ++ r) (0xFFFD :: t)
| wide_first u r t : first_half u -> 2 <= lenN r -> ~ second_half (num 2 0 r) -> wide_chars r t -> wide_chars (enc16 u ++ r) (0xFFFD :: t)
| wide_cut u r : first_half u -> lenN r < 2 -> wide_chars (enc16 u ++ r) [0xFFFD]
| wide_odd x : wide_chars [x] [0xFFFD].
