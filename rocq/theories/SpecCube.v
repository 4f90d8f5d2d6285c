(** * Specification: files whose reports grow with the cube of their length (property C59)

    A property store of [n] equal blocks of 256 bytes and zeros behind them. Each block is a storage of named properties
    whose size leads to the next block; 24 bytes later it is a property whose size leads to the same place of the next
    block, and whose name is said to be longer than all blocks. *)
From Verif Require Import Py PyTime Codec Spec SpecText SpecExtra.

(** The length of the names; [q] is the uppermost of its four bytes, the others are 1. *)
Definition name_length (q : N) : N := 0x010101 + 2 ^ 24 * q.
Definition cube_block (q : N) : bytes :=
  map n2b [0; 1; 0; 0; 1; 1; 1; 1] ++ named_format ++ map n2b [0; 1; 0; 0; 1; 1; 1] ++ n2b q :: repeat x01 224.
Definition uppermost (n : nat) : N := N.of_nat n / 2 ^ 16 + 1.
Definition cube_store (n : nat) : bytes :=
  concat (repeat (cube_block (uppermost n)) n) ++ repeat x00 (N.to_nat (name_length (uppermost n))).
Definition cube_file (n : nat) : bytes :=
  encode_header (plain_header 0) ++ enc32 (8 + lenN (cube_store n)) ++ enc32 0xA0000009 ++ cube_store n ++ enc32 0.
