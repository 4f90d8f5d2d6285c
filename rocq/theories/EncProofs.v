(** * Encoded numbers are read back; tactics for slices of concatenations *)
From Verif Require Import Lemmas Spec.

Lemma le_val_enc8 n : n < 256 -> le_val (enc8 n) = n.
Proof. intros H. cbn [enc8 le_val]. rewrite b2n_n2b. lia. Qed.
Lemma le_val_enc16 n : n < 65536 -> le_val (enc16 n) = n.
Proof. intros H. cbn [enc16 le_val]. rewrite !b2n_n2b. lia. Qed.
Lemma le_val_enc32 n : n < 4294967296 -> le_val (enc32 n) = n.
Proof.
  intros H. unfold enc32. rewrite le_val_app. change (lenN (enc16 n)) with 2.
  unfold enc16. cbn [le_val]. rewrite !b2n_n2b. change (256 ^ 2) with 65536. lia.
Qed.
Lemma le_val_enc32_mod n : le_val (enc32 n) = n mod 4294967296.
Proof.
  unfold enc32. rewrite le_val_app. change (lenN (enc16 n)) with 2.
  unfold enc16. cbn [le_val]. rewrite !b2n_n2b. change (256 ^ 2) with 65536. lia.
Qed.
Lemma le_val_enc64 n : n < 18446744073709551616 -> le_val (enc64 n) = n.
Proof.
  intros H. unfold enc64. rewrite le_val_app, !le_val_enc32_mod. change (lenN (enc32 n)) with 4.
  change (256 ^ 4) with 4294967296. lia.
Qed.

Lemma signed_twos16 z : fits_i16 z -> signed 16 (twos 16 z) = z.
Proof. unfold fits_i16, signed, twos. intros H. change (2 ^ (16 - 1)) with 32768. change (2 ^ 16) with 65536.
  change (2 ^ 16)%Z with 65536%Z. destruct (_ <? _) eqn:E; lia. Qed.
Lemma signed_twos32 z : fits_i32 z -> signed 32 (twos 32 z) = z.
Proof. unfold fits_i32, signed, twos. intros H. change (2 ^ (32 - 1)) with 2147483648. change (2 ^ 32) with 4294967296.
  change (2 ^ 32)%Z with 4294967296%Z. destruct (_ <? _) eqn:E; lia. Qed.
Lemma signed_twos64 z : fits_i64 z -> signed 64 (twos 64 z) = z.
Proof. unfold fits_i64, signed, twos. intros H. change (2 ^ (64 - 1)) with 9223372036854775808.
  change (2 ^ 64) with 18446744073709551616. change (2 ^ 64)%Z with 18446744073709551616%Z. destruct (_ <? _) eqn:E; lia. Qed.
Lemma twos_lt bits z : (0 <= bits)%Z -> Z.of_N (twos bits z) = (z mod 2 ^ bits)%Z.
Proof. intros H. unfold twos. rewrite Z2N.id; [reflexivity|]. apply Z.mod_pos_bound. lia. Qed.

Lemma unpack_enc8 n : n < 256 -> unpack_u8 (enc8 n) = ret n.
Proof. intros H. unfold unpack_u8. rewrite unpack_le_ok by reflexivity. now rewrite le_val_enc8. Qed.
Lemma unpack_enc16 n : fits16 n -> unpack_u16 (enc16 n) = ret n.
Proof. intros H. unfold unpack_u16. rewrite unpack_le_ok by reflexivity. now rewrite le_val_enc16. Qed.
Lemma unpack_enc32 n : fits32 n -> unpack_u32 (enc32 n) = ret n.
Proof. intros H. unfold unpack_u32. rewrite unpack_le_ok by reflexivity. now rewrite le_val_enc32. Qed.
Lemma unpack_enci16 z : fits_i16 z -> unpack_i16 (enci16 z) = ret z.
Proof.
  intros H. unfold unpack_i16, enci16. rewrite unpack_le_ok by reflexivity. rewrite bind_ret_l.
  rewrite le_val_enc16; [now rewrite signed_twos16|].
  pose proof (twos_lt 16 z ltac:(lia)) as E. change (2 ^ 16)%Z with 65536%Z in E. lia.
Qed.
Lemma unpack_enci32 z : fits_i32 z -> unpack_i32 (enci32 z) = ret z.
Proof.
  intros H. unfold unpack_i32, enci32. rewrite unpack_le_ok by reflexivity. rewrite bind_ret_l.
  rewrite le_val_enc32; [now rewrite signed_twos32|].
  pose proof (twos_lt 32 z ltac:(lia)) as E. change (2 ^ 32)%Z with 4294967296%Z in E. lia.
Qed.
Lemma unpack_enci64 z : fits_i64 z -> unpack_i64 (enci64 z) = ret z.
Proof.
  intros H. unfold unpack_i64, enci64. rewrite unpack_le_ok by reflexivity. rewrite bind_ret_l.
  rewrite le_val_enc64; [now rewrite signed_twos64|].
  pose proof (twos_lt 64 z ltac:(lia)) as E. change (2 ^ 64)%Z with 18446744073709551616%Z in E. lia.
Qed.

(** Lengths *)
Create HintDb lens.
Lemma lenN_enc8 n : lenN (enc8 n) = 1. Proof. reflexivity. Qed.
Lemma lenN_enc16 n : lenN (enc16 n) = 2. Proof. reflexivity. Qed.
Lemma lenN_enc32 n : lenN (enc32 n) = 4. Proof. reflexivity. Qed.
Lemma lenN_enc64 n : lenN (enc64 n) = 8. Proof. reflexivity. Qed.
Lemma lenN_enci16 n : lenN (enci16 n) = 2. Proof. reflexivity. Qed.
Lemma lenN_enci32 n : lenN (enci32 n) = 4. Proof. reflexivity. Qed.
Lemma lenN_enci64 n : lenN (enci64 n) = 8. Proof. reflexivity. Qed.
#[export] Hint Resolve lenN_enc8 lenN_enc16 lenN_enc32 lenN_enc64 lenN_enci16 lenN_enci32 lenN_enci64 : lens.
#[export] Hint Rewrite @lenN_app @lenN_cons @lenN_nil lenN_enc8 lenN_enc16 lenN_enc32 lenN_enc64 lenN_enci16 lenN_enci32 lenN_enci64 : lens.

Lemma slice_skip_n {A} i j n (a b : list A) : lenN a = n -> n <= i -> slice i j (a ++ b) = slice (i - n) (j - n) b.
Proof. intros <- H. now apply slice_skip. Qed.
Lemma slice_here_n {A} j (a b : list A) : lenN a = j -> slice 0 j (a ++ b) = a.
Proof. apply slice_here. Qed.
Lemma dropN_skip_n {A} i n (a b : list A) : lenN a = n -> n <= i -> dropN i (a ++ b) = dropN (i - n) b.
Proof. intros <- H. now apply dropN_app_ge. Qed.

(** [off_norm]: compute differences of literals. *)
Ltac off_norm :=
  repeat match goal with
  | |- context [N.sub ?a ?b] => let r := eval vm_compute in (N.sub a b) in
      match r with N0 => change (N.sub a b) with r | N.pos _ => change (N.sub a b) with r end
  | |- context [N.add ?a ?b] => let r := eval vm_compute in (N.add a b) in
      match r with N0 => change (N.add a b) with r | N.pos _ => change (N.add a b) with r end
  end.
(** [with_len a k]: find the length [n] of [a] and continue with the equation. *)
Ltac literalN n := match n with N0 => idtac | N.pos _ => idtac end.
Ltac with_len a k :=
  first [ let H := fresh "HL" in eassert (H : lenN a = _) by (eauto with lens nocore); k H; clear H
        | let n := eval vm_compute in (lenN a) in literalN n;
          let H := fresh "HL" in assert (H : lenN a = n) by reflexivity; k H; clear H ].
(** [slices]: resolve every [slice i j (piece ++ rest)] with literal bounds. *)
Ltac slice1 :=
  match goal with
  | |- context [slice ?i ?j (?a ++ ?b)] =>
    with_len a ltac:(fun H =>
      first [ rewrite (slice_here_n j a b H)
            | rewrite (slice_skip_n i j _ a b H) by lia; off_norm ])
  | |- context [slice 0 ?j ?a] =>
    rewrite (slice_full j a) by (autorewrite with lens; lia)
  end.
Ltac slices := repeat slice1.

Lemma holds_slice raw off piece : holds raw off piece -> slice off (off + lenN piece) raw = piece.
Proof.
  intros (b & a & -> & <-). rewrite slice_skip by lia. rewrite N.sub_diag.
  replace (lenN b + lenN piece - lenN b) with (lenN piece) by lia. now apply slice_here.
Qed.
Lemma holds_slice_n raw off piece n : holds raw off piece -> lenN piece = n -> slice off (off + n) raw = piece.
Proof. intros H <-. now apply holds_slice. Qed.
Lemma holds_drop raw off piece : holds raw off piece -> exists after, dropN off raw = piece ++ after.
Proof. intros (b & a & -> & <-). exists a. now apply dropN_app_exact. Qed.
Lemma holds_app raw off a b : holds raw off (a ++ b) -> holds raw off a /\ holds raw (off + lenN a) b.
Proof.
  intros (x & y & -> & <-). split.
  - exists x, (b ++ y). now rewrite <- app_assoc.
  - exists (x ++ a), y. rewrite lenN_app, <- !app_assoc. now split.
Qed.
Lemma holds_here a b : holds (a ++ b) 0 a.
Proof. exists [], b. now split. Qed.
Lemma holds_suffix raw off piece tail : holds raw off piece -> holds (raw ++ tail) off piece.
Proof. intros (x & y & -> & <-). exists x, (y ++ tail). now rewrite <- !app_assoc. Qed.
Lemma holds_len raw off piece : holds raw off piece -> off + lenN piece <= lenN raw.
Proof. intros (x & y & -> & <-). rewrite !lenN_app. lia. Qed.
Lemma holds_num32 raw off n : holds raw off (enc32 n) -> fits32 n -> num 4 off raw = n.
Proof.
  intros H Hn. apply holds_drop in H as [a E]. unfold num. rewrite E.
  rewrite takeN_app_exact by reflexivity. now apply le_val_enc32.
Qed.
