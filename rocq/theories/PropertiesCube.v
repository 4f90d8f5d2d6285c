(** * Property C59, continued: reports that grow with the cube of the file *)
From Verif Require Import Py PyTime Codec LnkFile Spec SpecText SpecExtra SpecSize SpecBlocks SpecCube CubeProofs.

(** The power three in [C59_polynomial] is reached: for every [n] a file of at most [512 n + 2^25] bytes has a report of
    [21 n^3] values and characters. (The file's one extra block states its size in 32 bits, which bounds [n].) *)
Theorem C59_cube :
  forall n cp allow all,
    usable cp -> 512 * N.of_nat n + 2 ^ 25 < 2 ^ 32 ->
    lenN (cube_file n) <= 512 * N.of_nat n + 2 ^ 25
    /\ exists l d, snd (lnk_init (FromBytes (cube_file n)) cp allow) = Ok l /\ snd (get_json l all) = Ok d
       /\ 21 * N.of_nat n ^ 3 <= weight (PDict d).
Proof. exact cube_report. Qed.
Print Assumptions C59_cube.

(** No multiple up to 256 of the square of the file's length bounds the report. *)
Theorem C59_quadratic_refuted :
  forall cp allow all k, usable cp -> k <= 2 ^ 8 ->
    exists b l d, snd (lnk_init (FromBytes b) cp allow) = Ok l /\ snd (get_json l all) = Ok d
      /\ k * lenN b ^ 2 < weight (PDict d).
Proof. exact quadratic_refuted. Qed.
Print Assumptions C59_quadratic_refuted.

(** One block, read as a storage and, 24 bytes later, as a property; numbers of blocks that fit. *)
Example C59_block :
  lenN (cube_block 1) = 256 /\ num 4 0 (cube_block 1) = 256 /\ slice 8 24 (cube_block 1) = named_format
  /\ num 4 24 (cube_block 1) = 256 /\ num 4 28 (cube_block 1) = name_length 1
  /\ 512 * N.of_nat 1000 + 2 ^ 25 < 2 ^ 32 /\ uppermost 1000 = 1.
Proof. repeat split. Qed.
