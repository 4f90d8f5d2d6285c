(** * Digests of blocks (property C48) *)
From Verif Require Import Lemmas Codec Sha256 Extra Spec SpecSha ShaProofs ExtraFileProofs.

Lemma block_digest raw t k v : 8 * lenN raw < 2 ^ 64 ->
  sha256_digest (dropN 4 raw) t <->
  @Ok (list (string * pyval)) [("size", v); (k, PStr (sha256_hex (dropN 4 raw)))]%string = Ok [("size", v); (k, PStr t)]%string.
Proof.
  intros H. rewrite sha256_digest_iff by (rewrite lenN_dropN; lia). split; [now intros ->|]. now intros [= ->].
Qed.
Lemma unknown_digest cp c raw t : 4 <= lenN raw -> 8 * lenN raw < 2 ^ 64 -> extra_name c = "UNKNOWN_BLOCK"%string ->
  sha256_digest (dropN 4 raw) t <->
  snd (extra_as_dict cp (Extra c raw)) = Ok [("size", PN (num 4 0 raw)); ("extra_data_sha256", PStr t)]%string.
Proof.
  intros H H' Hc. rewrite (proj1 (what_is_hashed cp c raw H) Hc). now apply block_digest.
Qed.
Lemma appended_digest cp c raw t : 4 <= lenN raw -> 8 * lenN raw < 2 ^ 64 -> extra_name c = "TERMINAL_BLOCK"%string ->
  sha256_digest (dropN 4 raw) t <->
  snd (extra_as_dict cp (Extra c raw)) = Ok [("size", PN (lenN raw)); ("appended_data_sha256", PStr t)]%string.
Proof.
  intros H H' Hc. rewrite (proj2 (what_is_hashed cp c raw H) Hc). now apply block_digest.
Qed.
