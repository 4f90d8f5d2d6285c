(** * SHA-256, after FIPS 180-4 *)
From Coq Require Import Sorting.Sorted.
From Verif Require Import Py Spec.

(** ** Words of 32 bits (section 2.2, 3.2) *)
Definition modulus : N := 2 ^ 32.
Definition plus (a b : N) : N := (a + b) mod modulus.
Definition shr (n x : N) : N := x / 2 ^ n.
(** The n low bits move to the top. *)
Definition rotate (n x : N) : N := x / 2 ^ n + (x mod 2 ^ n) * 2 ^ (32 - n).
Definition complement (x : N) : N := modulus - 1 - x.
Definition xor3 (a b c : N) : N := N.lxor (N.lxor a b) c.

(** ** Functions (section 4.1.2) *)
Definition Ch (x y z : N) : N := N.lxor (N.land x y) (N.land (complement x) z).
Definition Maj (x y z : N) : N := xor3 (N.land x y) (N.land x z) (N.land y z).
Definition Sigma0 (x : N) : N := xor3 (rotate 2 x) (rotate 13 x) (rotate 22 x).
Definition Sigma1 (x : N) : N := xor3 (rotate 6 x) (rotate 11 x) (rotate 25 x).
Definition sigma0 (x : N) : N := xor3 (rotate 7 x) (rotate 18 x) (shr 3 x).
Definition sigma1 (x : N) : N := xor3 (rotate 17 x) (rotate 19 x) (shr 10 x).

(** ** Constants (sections 4.2.2, 5.3.3): the first 32 bits of the fractional parts of the cube
    roots of the first 64 primes, and of the square roots of the first eight. *)
Definition prime (p : N) : Prop := 2 <= p /\ forall d, 2 <= d -> d < p -> p mod d <> 0.
Definition first_primes (ps : list N) : Prop :=
  StronglySorted N.lt ps /\ forall p, In p ps <-> prime p /\ p <= last ps 0.
(** [r] is [2^32] times the root, rounded down. *)
Definition root_bits (e p k : N) : Prop :=
  exists r, r ^ e <= p * 2 ^ (32 * e) < (r + 1) ^ e /\ k = r mod 2 ^ 32.
Definition cube_root_bits := root_bits 3.
Definition square_root_bits := root_bits 2.
Definition constants (ks hs : list N) : Prop :=
  exists ps, first_primes ps /\ length ps = 64%nat
  /\ Forall2 cube_root_bits ps ks /\ Forall2 square_root_bits (firstn 8 ps) hs.

(** ** Padding (section 5.1.1): a bit 1, the fewest zeros that fill the block, the length in bits
    as a 64-bit number. *)
Definition padded (m p : bytes) : Prop :=
  exists (z : nat) len, p = m ++ x80 :: repeat x00 z ++ rev len
  /\ lenN len = 8 /\ num 8 0 len = 8 * lenN m /\ lenN p mod 64 = 0 /\ (z < 64)%nat.

(** ** Hash computation (section 6.2.2) *)

(** Word [t] of a block: four bytes, most significant first. *)
Definition block_word (block : bytes) (t : nat) : N := num 4 0 (rev (slice (4 * N.of_nat t) (4 * N.of_nat t + 4) block)).
Definition message_schedule (block : bytes) (w : nat -> N) : Prop :=
  (forall t, (t < 16)%nat -> w t = block_word block t)
  /\ (forall t, (16 <= t < 64)%nat ->
        w t = plus (plus (sigma1 (w (t - 2)%nat)) (w (t - 7)%nat)) (plus (sigma0 (w (t - 15)%nat)) (w (t - 16)%nat))).
Definition state : Type := N * N * N * N * N * N * N * N.
Definition one_round (k w : N) (s : state) : state :=
  let '(a, b, c, d, e, f, g, h) := s in
  let T1 := (h + Sigma1 e + Ch e f g + k + w) mod modulus in
  let T2 := plus (Sigma0 a) (Maj a b c) in
  (plus T1 T2, a, b, c, plus d T1, e, f, g).
(** The state before round [t], from the one before round 0. *)
Inductive rounds (ks : list N) (w : nat -> N) (s : state) : nat -> state -> Prop :=
| rounds_start : rounds ks w s 0 s
| rounds_next t u k : rounds ks w s t u -> nth_error ks t = Some k -> rounds ks w s (S t) (one_round k (w t) u).
Definition state_of (h : list N) (s : state) : Prop :=
  let '(a, b, c, d, e, f, g, i) := s in h = [a; b; c; d; e; f; g; i].
Definition next_hash (ks : list N) (block : bytes) (h h' : list N) : Prop :=
  exists w s s' u, message_schedule block w /\ state_of h s /\ rounds ks w s 64 s' /\ state_of u s'
  /\ h' = map (fun p => plus (fst p) (snd p)) (combine h u).
(** Over the blocks of 64 bytes. *)
Inductive hashes (ks : list N) : list N -> bytes -> list N -> Prop :=
| hash_end h : hashes ks h [] h
| hash_block h h' h'' block rest :
    lenN block = 64 -> next_hash ks block h h' -> hashes ks h' rest h'' -> hashes ks h (block ++ rest) h''.

(** [t] is the digest of [m], in hexadecimal. *)
Definition sha256_digest (m : bytes) (t : text) : Prop :=
  exists ks hs p h, constants ks hs /\ padded m p /\ hashes ks hs p h /\ t = flat_map (hexx 8) h.
