(** * SHA-256 (FIPS 180-4), as provided by Python's [hashlib.sha256] *)
From Verif Require Import Py.

Definition w32 (n : N) : N := n mod 4294967296.
Definition add32 (a b : N) : N := w32 (a + b).
Definition rotr (n x : N) : N := N.lor (N.shiftr x n) (w32 (N.shiftl x (32 - n))).
Definition ch (x y z : N) : N := N.lxor (N.land x y) (N.land (N.lxor x 0xffffffff) z).
Definition maj (x y z : N) : N := N.lxor (N.lxor (N.land x y) (N.land x z)) (N.land y z).
Definition bsig0 (x : N) : N := N.lxor (N.lxor (rotr 2 x) (rotr 13 x)) (rotr 22 x).
Definition bsig1 (x : N) : N := N.lxor (N.lxor (rotr 6 x) (rotr 11 x)) (rotr 25 x).
Definition ssig0 (x : N) : N := N.lxor (N.lxor (rotr 7 x) (rotr 18 x)) (N.shiftr x 3).
Definition ssig1 (x : N) : N := N.lxor (N.lxor (rotr 17 x) (rotr 19 x)) (N.shiftr x 10).

Definition sha_k : list N :=
  [0x428a2f98; 0x71374491; 0xb5c0fbcf; 0xe9b5dba5; 0x3956c25b; 0x59f111f1; 0x923f82a4; 0xab1c5ed5;
   0xd807aa98; 0x12835b01; 0x243185be; 0x550c7dc3; 0x72be5d74; 0x80deb1fe; 0x9bdc06a7; 0xc19bf174;
   0xe49b69c1; 0xefbe4786; 0x0fc19dc6; 0x240ca1cc; 0x2de92c6f; 0x4a7484aa; 0x5cb0a9dc; 0x76f988da;
   0x983e5152; 0xa831c66d; 0xb00327c8; 0xbf597fc7; 0xc6e00bf3; 0xd5a79147; 0x06ca6351; 0x14292967;
   0x27b70a85; 0x2e1b2138; 0x4d2c6dfc; 0x53380d13; 0x650a7354; 0x766a0abb; 0x81c2c92e; 0x92722c85;
   0xa2bfe8a1; 0xa81a664b; 0xc24b8b70; 0xc76c51a3; 0xd192e819; 0xd6990624; 0xf40e3585; 0x106aa070;
   0x19a4c116; 0x1e376c08; 0x2748774c; 0x34b0bcb5; 0x391c0cb3; 0x4ed8aa4a; 0x5b9cca4f; 0x682e6ff3;
   0x748f82ee; 0x78a5636f; 0x84c87814; 0x8cc70208; 0x90befffa; 0xa4506ceb; 0xbef9a3f7; 0xc67178f2].
Definition sha_h0 : list N :=
  [0x6a09e667; 0xbb67ae85; 0x3c6ef372; 0xa54ff53a; 0x510e527f; 0x9b05688c; 0x1f83d9ab; 0x5be0cd19].

(** Padding: 0x80, zeros, 64-bit big-endian bit length. *)
Definition sha_pad (m : bytes) : bytes :=
  let n := lenN m in
  let z := (119 - n mod 64) mod 64 in
  m ++ [x80] ++ repeat x00 (N.to_nat z)
    ++ map (fun i => n2b (N.shiftr (8 * n) (8 * i))) [7; 6; 5; 4; 3; 2; 1; 0].

(** The 16 big-endian words of a 64-byte block. *)
Fixpoint words_be (b : bytes) : list N :=
  match b with
  | a :: c :: d :: e :: r => be_val [a; c; d; e] :: words_be r
  | _ => []
  end.

(** Message schedule. [w] holds the last sixteen words, oldest first. *)
Fixpoint schedule (fuel : nat) (w : list N) : list N :=
  match fuel with
  | O => []
  | S f =>
    match w with
    | w0 :: r =>
      let new := add32 (add32 (ssig1 (nth 14 w 0)) (nth 9 w 0)) (add32 (ssig0 (nth 1 w 0)) w0) in
      w0 :: schedule f (r ++ [new])
    | [] => []
    end
  end.

Definition sha_round (s : list N) (kw : N * N) : list N :=
  match s with
  | [a; b; c; d; e; f; g; h] =>
    let t1 := add32 (add32 (add32 h (bsig1 e)) (add32 (ch e f g) (fst kw))) (snd kw) in
    let t2 := add32 (bsig0 a) (maj a b c) in
    [add32 t1 t2; a; b; c; add32 d t1; e; f; g]
  | _ => s
  end.

Definition sha_block (h : list N) (block : bytes) : list N :=
  let s := fold_left sha_round (combine sha_k (schedule 64 (words_be block))) h in
  map (fun p => add32 (fst p) (snd p)) (combine h s).

Fixpoint sha_blocks (fuel : nat) (h : list N) (m : bytes) : list N :=
  match fuel, m with
  | S f, _ :: _ => sha_blocks f (sha_block h (firstn 64 m)) (skipn 64 m)
  | _, _ => h
  end.

(** [hashlib.sha256(m).hexdigest()] *)
Definition sha256_hex (m : bytes) : text :=
  let p := sha_pad m in
  flat_map (hexx 8) (sha_blocks (length p) sha_h0 p).

(** FIPS 180-4 test vector "abc" (a test, not a proof). *)
Example sha256_abc :
  sha256_hex [x61; x62; x63]
  = s2t "ba7816bf8f01cfea414140de5dae2223b00361a396177a9cb410ff61f20015ad".
Proof. vm_compute. reflexivity. Qed.
