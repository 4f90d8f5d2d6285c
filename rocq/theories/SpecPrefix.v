(** * Specification: what of a file a report depends on (C67) *)
From Verif Require Import Py Codec Spec SpecText SpecInfo SpecUnknown.

(** Two files that begin with the same [n] bytes: one may be the other cut off behind them, or be continued
    differently. *)
Definition agree (n : N) (b1 b2 : bytes) : Prop := n <= lenN b1 /\ n <= lenN b2 /\ takeN n b1 = takeN n b2.

(** The string that starts at an offset ends inside the bytes [p], at a zero byte or a zero unit. *)
Definition closed (p : bytes) (off : N) : Prop := In x00 (dropN off p).
Definition closed_wide (p : bytes) (off : N) : Prop := exists k, off + 2 * k + 2 <= lenN p /\ num 2 (off + 2 * k) p = 0.

(** All of a LinkInfo lies inside [p]: its fields, and every string that is shown. *)
Definition info_complete (network : bool) (p : bytes) : Prop :=
  info_readable network p = true
  /\ (num 4 16 p <> 0 -> closed p (num 4 16 p))
  /\ (num 4 24 p <> 0 -> closed p (num 4 24 p))
  /\ (wide_offset 28 p <> 0 -> closed_wide p (wide_offset 28 p))
  /\ (wide_offset 32 p <> 0 -> closed_wide p (wide_offset 32 p + 4))
  /\ if network then
       let o := num 4 20 p in
       if 20 <? num 4 (o + 8) p
       then (num 4 (o + 20) p <> 0 -> closed_wide p (o + num 4 (o + 20) p))
            /\ (num 4 (o + 24) p <> 0 -> closed_wide p (o + num 4 (o + 24) p))
       else closed p (o + num 4 (o + 8) p) /\ closed p (o + num 4 (o + 12) p)
     else
       let o := num 4 12 p in
       if num 4 (o + 12) p =? 0x14 then num 4 (o + 16) p <> 0 -> closed_wide p (o + num 4 (o + 16) p)
       else closed p (o + num 4 (o + 12) p).

(** The header and the ID list of [b] lie in its first [n] bytes; and so does its LinkInfo. *)
Definition lists_inside (n : N) (b : bytes) : Prop :=
  24 <= header_len b /\ id_list_end b <= n /\ 24 <= n.
Definition info_inside (n : N) (b : bytes) : Prop :=
  bit_set 1 b = true -> bit_set 8 b = false ->
  id_list_end b + 12 <= n
  /\ (info_processed b = true ->
      info_complete (negb (N.testbit (num 4 (id_list_end b + 8) b) 0)) (dropN (id_list_end b) (takeN n b))).

(** All of the link [b] lies in its first [n] bytes, up to and with the four zero bytes behind the last block. *)
Definition link_inside (n : N) (b : bytes) : Prop :=
  lists_inside n b /\ info_inside n b
  /\ exists found e blocks tail,
       string_walk b string_fields (info_end b) found e false
       /\ block_walk (dropN e b) blocks tail /\ Forall (fun blk => 4 <= declared blk) blocks
       /\ e + sumN (map declared blocks) + 4 <= n /\ num 4 (e + sumN (map declared blocks)) b = 0.
