(** * Property C80: how many warnings a file can cause *)
From Verif Require Import Py PyTime Codec Utils Sha256 LnkFile.
From Verif Require Import ExtraFileProofs FloodProofs FloodInitProofs.
From Verif Require Import Spec SpecText SpecExtra SpecFlood.

(** What the constructor warns about, whether it succeeds or raises. *)
Theorem C80_constructor_says :
  forall src b cp allow,
    (src = FromBytes b \/ src = FromHandle b) -> b <> [] -> usable cp ->
    constructor_says b cp (fst (lnk_init src cp allow)).
Proof. exact constructor_said. Qed.
Print Assumptions C80_constructor_says.

(** It gives at most nine warnings, whatever the file. *)
Theorem C80_constructor :
  forall src cp allow, usable cp -> lenN (fst (lnk_init src cp allow)) <= 9.
Proof. exact constructor_nine. Qed.
Print Assumptions C80_constructor.

(** A report, complete or abridged, finished or not, gives at most one warning per byte of the file when there is no
    property store, and at most the square of that when there is one. *)
Theorem C80_report :
  forall src b cp allow l all,
    (src = FromBytes b \/ src = FromHandle b) -> usable cp -> snd (lnk_init src cp allow) = Ok l ->
    lenN (fst (get_json l all)) <= lenN b ^ 2
    /\ (no_store b -> lenN (fst (get_json l all)) <= lenN b).
Proof. exact report_warned. Qed.
Print Assumptions C80_report.

(** With a property store the square is reached, up to a factor: a file of [64 n + 128] bytes whose complete and abridged
    reports come with [n (n + 1) / 2] warnings. *)
Theorem C80_square :
  forall n cp allow all,
    usable cp -> 64 * N.of_nat n + 48 < 2 ^ 32 ->
    lenN (broken_file n) = 64 * N.of_nat n + 128
    /\ exists l d, snd (lnk_init (FromBytes (broken_file n)) cp allow) = Ok l /\ snd (get_json l all) = Ok d
       /\ 2 * lenN (fst (get_json l all)) = N.of_nat n * (N.of_nat n + 1).
Proof. exact (fun n cp allow all h l => conj (broken_file_len n) (broken_many n cp allow h l all)). Qed.
Print Assumptions C80_square.

(** So one warning per byte is not a bound for all files, nor any number of them up to 2^18. *)
Theorem C80_linear_refuted :
  forall cp allow all k,
    usable cp -> k <= 2 ^ 18 ->
    exists b l d, snd (lnk_init (FromBytes b) cp allow) = Ok l /\ snd (get_json l all) = Ok d
      /\ k * lenN b < lenN (fst (get_json l all)).
Proof. exact no_linear_warnings. Qed.
Print Assumptions C80_linear_refuted.

(** Nine warnings: a header that says it has 77 bytes, five strings of one byte that no page knows, seven bytes of extra data
    that twice announce a block and leave no room for its signature. *)
Definition loud_file : bytes :=
  enc32 77 ++ slice 4 20 (encode_header (plain_header 0)) ++ enc32 0x7C ++ repeat x00 53
  ++ flat_map (fun _ => enc16 1 ++ [x81]) [0; 1; 2; 3; 4] ++ enc32 3 ++ [x01; x00; x00].
Example C80_nine :
  fst (lnk_init (FromBytes loud_file) CpNone false)
  = [WMustBe "size"; WMustBe "size"; WDecode [0xFFFD]; WDecode [0xFFFD]; WDecode [0xFFFD]; WDecode [0xFFFD]; WDecode [0xFFFD];
     WExtraSig; WExtraSig].
Proof. vm_compute. reflexivity. Qed.
(** The reports of the smallest stores. *)
Definition warned (b : bytes) : option N :=
  match snd (lnk_init (FromBytes b) CpNone true) with Ok l => Some (lenN (fst (get_json l true))) | Err _ => None end.
Example C80_some : map (fun n => warned (broken_file n)) [0; 1; 2; 3]%nat = [Some 0; Some 1; Some 3; Some 6].
Proof. vm_compute. reflexivity. Qed.
(** A file without a property store. *)
Example C80_no_store : no_store loud_file.
Proof.
  intros blocks tail signature raw HW HI. apply short_walk in HW; [subst blocks; destruct HI|].
  vm_compute. reflexivity.
Qed.
