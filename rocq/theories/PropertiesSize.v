(** * Property C59: how large a report is *)
From Verif Require Import Py PyTime Codec Utils Sha256 LnkFile Spec SpecText SpecSize.
From Verif Require Import SizeProofs GrowthProofs.

(** Everything but the property store is at most 500 times as large as the file, plus a constant;
    this for every file, every report and every code page that gives no more characters than bytes. *)
Theorem C59_linear :
  forall src b cp allow l all d,
    (src = FromBytes b \/ src = FromHandle b) -> narrow_page (page_of cp) ->
    snd (lnk_init src cp allow) = Ok l -> snd (get_json l all) = Ok d ->
    weight (PDict d) <= 1500 + 500 * lenN b + store_weight d.
Proof. exact (fun src b cp allow l all d hs hp hl hd => proj1 (size_parts src b cp allow l all d hs hp hl hd)). Qed.
Print Assumptions C59_linear.

(** With the property store: a polynomial of degree three. *)
Theorem C59_polynomial :
  forall src b cp allow l all d,
    (src = FromBytes b \/ src = FromHandle b) -> narrow_page (page_of cp) ->
    snd (lnk_init src cp allow) = Ok l -> snd (get_json l all) = Ok d ->
    weight (PDict d) <= 1505 + 581 * lenN b + 31 * lenN b ^ 2 + 2 * lenN b ^ 3.
Proof. exact size_cubic. Qed.
Print Assumptions C59_polynomial.

(** The page the code takes by default is such a page. *)
Theorem C59_default_page : narrow_page (page_of CpNone).
Proof. exact cp1252_narrow. Qed.
Print Assumptions C59_default_page.

(** The report is not linear in the file, whichever page, switch or report is asked for: a file of
    [4 n + 128] bytes gives a report of [n * n] and more. *)
Theorem C59_square :
  forall n cp allow all,
    usable cp -> 4 * N.of_nat n + 48 < 2 ^ 32 ->
    lenN (store_file n) = 4 * N.of_nat n + 128
    /\ exists l d, snd (lnk_init (FromBytes (store_file n)) cp allow) = Ok l /\ snd (get_json l all) = Ok d
       /\ N.of_nat n ^ 2 <= weight (PDict d).
Proof. exact store_square. Qed.
Print Assumptions C59_square.

(** So no factor up to 2^27 bounds it. *)
Theorem C59_linear_refuted :
  forall cp allow all k, usable cp -> k <= 2 ^ 27 ->
    exists b l d, snd (lnk_init (FromBytes b) cp allow) = Ok l /\ snd (get_json l all) = Ok d
      /\ k * lenN b < weight (PDict d).
Proof. exact no_linear_bound. Qed.
Print Assumptions C59_linear_refuted.

(** A file with a name and no property store; one with a property store of eight words. *)
Definition named_file : bytes := encode_header (plain_header 0x84) ++ enc16 2 ++ utf16 (s2t "ab") ++ enc32 0.
Definition report_size (b : bytes) : option (N * N) :=
  match snd (lnk_init (FromBytes b) CpNone true) with
  | Ok l => match snd (get_json l true) with Ok d => Some (weight (PDict d), store_weight d) | Err _ => None end
  | Err _ => None
  end.
Example C59_sizes : report_size named_file = Some (161, 0) /\ report_size (store_file 8) = Some (580, 440).
Proof. vm_compute. split; reflexivity. Qed.
