(** * Property C48: digests are those of FIPS 180-4

    SpecSha.v states SHA-256 from the standard: the constants as roots of primes, the padding, the
    message schedule and the rounds as equations and relations. The length of a message must fit in
    64 bits, as in the standard. *)
From Verif Require Import Lemmas Codec Sha256 Extra.
From Verif Require Import Spec SpecSha ShaProofs ExtraFileProofs DigestProofs.

(** Every message has one digest. It is the one that the program computes. *)
Theorem C48_sha256 :
  forall m t, 8 * lenN m < 2 ^ 64 -> sha256_digest m t <-> t = sha256_hex m.
Proof. exact sha256_digest_iff. Qed.
Print Assumptions C48_sha256.

(** The digest reported for an unknown block is that of everything after its size. *)
Theorem C48_unknown_block :
  forall cp c raw t, 4 <= lenN raw -> 8 * lenN raw < 2 ^ 64 -> extra_name c = "UNKNOWN_BLOCK"%string ->
    sha256_digest (dropN 4 raw) t <->
    snd (extra_as_dict cp (Extra c raw)) = Ok [("size", PN (num 4 0 raw)); ("extra_data_sha256", PStr t)]%string.
Proof. exact unknown_digest. Qed.
Print Assumptions C48_unknown_block.

(** The digest reported for appended data is that of everything after the terminal mark. *)
Theorem C48_appended_data :
  forall cp c raw t, 4 <= lenN raw -> 8 * lenN raw < 2 ^ 64 -> extra_name c = "TERMINAL_BLOCK"%string ->
    sha256_digest (dropN 4 raw) t <->
    snd (extra_as_dict cp (Extra c raw)) = Ok [("size", PN (lenN raw)); ("appended_data_sha256", PStr t)]%string.
Proof. exact appended_digest. Qed.
Print Assumptions C48_appended_data.

(** The specification on the standard's own two-block example, and the hypotheses on a block. *)
Example C48_two_blocks :
  sha256_digest (map n2b (s2t "abcdbcdecdefdefgefghfghighijhijkijkljklmklmnlmnomnopnopq"))
    (s2t "248d6a61d20638b8e5c026930c3e6039a33ce45964ff2167f6ecedd419db06c1").
Proof. apply C48_sha256; vm_compute; reflexivity. Qed.
Example C48_block_example :
  exists t, sha256_digest [x61; x62; x63; x64] t
    /\ snd (extra_as_dict CpNone (Extra UnknownExtra (enc32 8 ++ [x61; x62; x63; x64])))
       = Ok [("size", PN 8); ("extra_data_sha256", PStr t)]%string.
Proof.
  eexists. split; [|apply (C48_unknown_block CpNone UnknownExtra (enc32 8 ++ [x61; x62; x63; x64])); try reflexivity; try discriminate].
  - apply C48_sha256; [reflexivity|]. reflexivity.
  - apply C48_sha256; [reflexivity|]. reflexivity.
Qed.
