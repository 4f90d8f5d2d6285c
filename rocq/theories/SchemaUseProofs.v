(** * The ranges and lists of the schema are used in full (property C85) *)
From Verif Require Import Lemmas Codec Utils Header StringData Targets Info Extra LnkFile.
From Verif Require Import Spec SpecText SpecTime SpecReport SpecItems SpecInfo SpecHeader SpecExtra SpecLink LinkProofs.
From Verif Require Import SpecSchema.

(** A file with nothing but a header. *)
Definition bare (attrs fsize : N) (icon : Z) (show : N) (key mods : byte) (r0 r1 r2 : N) : shell_header :=
  ShellHeader 76 link_clsid 0 attrs 0 0 0 fsize icon show key mods r0 r1 r2.
Definition bare_link (h : shell_header) : link :=
  Link h None None None None None (CodePage [None; None; None; None; None]) [].
Lemma bare_reported attrs fsize icon show key mods r0 r1 r2 :
  fits32 attrs -> fits32 fsize -> fits_i32 icon -> fits32 show -> fits16 r0 -> fits32 r1 -> fits32 r2 ->
  exists b l d, snd (lnk_init (FromBytes b) CpNone false) = Ok l /\ snd (get_json l true) = Ok d
    /\ dget "header" d = Some (PDict (header_report (bare attrs fsize icon show key mods r0 r1 r2) None None None)).
Proof.
  intros H1 H2 H3 H7 H4 H5 H6. set (h := bare attrs fsize icon show key mods r0 r1 r2).
  assert (W : wf_link (bare_link h)).
  { unfold wf_link, bare_link, h, bare. cbn [k_header k_created k_accessed k_modified k_items k_info k_texts k_blocks
      h_size h_ctime h_atime h_wtime h_flags]. split.
    { unfold wf_header. cbn [h_size h_clsid h_flags h_attrs h_ctime h_atime h_wtime h_fsize h_icon h_show h_res1 h_res2 h_res3].
      split; [lia|]. split; [reflexivity|]. split; [reflexivity|]. split; [reflexivity|]. split; [exact H1|].
      split; [unfold fits_i64; lia|]. split; [unfold fits_i64; lia|]. split; [unfold fits_i64; lia|].
      split; [exact H2|]. split; [exact H3|]. split; [exact H7|]. now split. }
    split; [reflexivity|]. split; [reflexivity|]. split; [reflexivity|]. split; [reflexivity|]. split; [reflexivity|].
    split; [discriminate|]. split; [reflexivity|]. split; [discriminate|]. split; [|constructor].
    split; [reflexivity|]. split; [repeat constructor|]. unfold fields_fit. repeat constructor. }
  destruct (link_exact CpNone false (bare_link h) [] ltac:(discriminate) W) as (l & HL & _ & HJ).
  exists (encode_link (bare_link h) ++ []), l, (link_report CpNone false (bare_link h) []).
  rewrite HL, HJ. split; [reflexivity|]. split; [reflexivity|]. reflexivity.
Qed.

(** Every choice of names is the choice of some number. *)
Lemma set_bits_lor i j names n : i < j -> set_bits j names (N.lor (2 ^ i) n) = set_bits j names n.
Proof.
  revert j; induction names as [|s names IH]; intros j H; cbn [set_bits]; [reflexivity|].
  rewrite IH by lia. rewrite N.lor_spec, N.pow2_bits_false by lia. reflexivity.
Qed.
Lemma choice_number names l :
  some_of names l ->
  forall i, exists n, (forall j, j < i \/ i + lenN names <= j -> N.testbit n j = false) /\ set_bits i names n = l.
Proof.
  induction 1 as [|k names l H IH|k names l H IH]; intros i.
  - exists 0. split; [intros j _; apply N.bits_0|reflexivity].
  - destruct (IH (i + 1)) as (n & B & E). exists (N.lor (2 ^ i) n). split.
    + intros j Hj. rewrite lenN_cons in Hj. rewrite N.lor_spec, N.pow2_bits_false, B by lia. reflexivity.
    + cbn [set_bits]. rewrite N.lor_spec, N.pow2_bits_true. cbn [orb]. rewrite set_bits_lor by lia. now rewrite E.
  - destruct (IH (i + 1)) as (n & B & E). exists n. split.
    + intros j Hj. rewrite lenN_cons in Hj. apply B. lia.
    + cbn [set_bits]. rewrite (B i) by lia. exact E.
Qed.
Lemma small_number n k : (forall j, k <= j -> N.testbit n j = false) -> n < 2 ^ k.
Proof.
  intros H. destruct (N.eq_dec n 0) as [->|Hn]; [apply N.neq_0_lt_0, N.pow_nonzero; lia|].
  apply N.log2_lt_pow2; [lia|]. destruct (N.lt_ge_cases (N.log2 n) k) as [L|L]; [exact L|].
  specialize (H _ L). rewrite N.bit_log2 in H by exact Hn. discriminate.
Qed.

(** What is reported of some file under a key of the header. *)
Definition in_header (key : string) (v : pyval) : Prop :=
  exists b l d, snd (lnk_init (FromBytes b) CpNone false) = Ok l /\ snd (get_json l true) = Ok d
    /\ at_path [Key "header"; Key key] (PDict d) = Some v.
Lemma in_bare attrs fsize icon show key mods r0 r1 r2 name v :
  fits32 attrs -> fits32 fsize -> fits_i32 icon -> fits32 show -> fits16 r0 -> fits32 r1 -> fits32 r2 ->
  dget name (header_report (bare attrs fsize icon show key mods r0 r1 r2) None None None) = Some v ->
  in_header name v.
Proof.
  intros H1 H2 H3 H4 H5 H6 H7 E.
  destruct (bare_reported attrs fsize icon show key mods r0 r1 r2 H1 H2 H3 H4 H5 H6 H7) as (b & l & d & HL & HD & HG).
  exists b, l, d. split; [exact HL|]. split; [exact HD|]. cbn [at_path child]. rewrite HG. cbn [child].
  now rewrite E.
Qed.
Lemma header_used rows key k v :
  header_kind true = Record rows -> In (Always, [(key, k)]) rows ->
  In key ["r_file_flags"; "file_size"; "icon_index"; "windowstyle"; "r_hotkey"; "file_flags"; "reserved0"; "reserved1"; "reserved2"]%string ->
  conforms k v -> in_header key v.
Proof.
  intros HR HI HK HC. unfold header_kind in HR. injection HR as <-.
  assert (F0 : fits32 0) by reflexivity. assert (G0 : fits16 0) by reflexivity.
  assert (I0 : fits_i32 0) by (unfold fits_i32; lia).
  unfold always, only_if in HI.
  repeat (destruct HI as [HI|HI]; [injection HI as <- <-|]); [..|destruct HI].
  all: try (exfalso; repeat (destruct HK as [HK|HK]; [discriminate HK|]); exact HK).
  all: clear HK; inversion HC; subst; clear HC; cbv beta in *.
  - apply (in_bare (Z.to_N z) 0 0 0 x00 x00 0 0 0); auto; [unfold fits32; lia|].
    change (Some (PInt (Z.of_N (Z.to_N z))) = Some (PInt z)). now rewrite Z2N.id by lia.
  - apply (in_bare 0 (Z.to_N z) 0 0 x00 x00 0 0 0); auto; [unfold fits32; lia|].
    change (Some (PInt (Z.of_N (Z.to_N z))) = Some (PInt z)). now rewrite Z2N.id by lia.
  - apply (in_bare 0 0 z 0 x00 x00 0 0 0); auto.
  - match goal with H : _ \/ _ |- _ => destruct H as [<-|[<-|[<-|[]]]] end.
    + apply (in_bare 0 0 0 1 x00 x00 0 0 0); auto; reflexivity.
    + apply (in_bare 0 0 0 3 x00 x00 0 0 0); auto; reflexivity.
    + apply (in_bare 0 0 0 7 x00 x00 0 0 0); auto; reflexivity.
  - assert (Hm : Z.to_N z mod 256 < 256) by (apply N.mod_lt; lia).
    assert (Hd : Z.to_N z / 256 < 256) by (apply N.div_lt_upper_bound; lia).
    apply (in_bare 0 0 0 0 (n2b (Z.to_N z mod 256)) (n2b (Z.to_N z / 256)) 0 0 0); auto.
    change (Some (PInt (Z.of_N (b2n (n2b (Z.to_N z mod 256)) + 256 * b2n (n2b (Z.to_N z / 256))))) = Some (PInt z)).
    rewrite !b2n_n2b, !(N.mod_small _ 256 Hm), !(N.mod_small _ 256 Hd). do 2 f_equal. pose proof (N.div_mod (Z.to_N z) 256 ltac:(lia)). lia.
  - match goal with H : some_of _ _ |- _ => destruct (choice_number _ _ H 0) as (n & B & E) end.
    apply (in_bare n 0 0 0 x00 x00 0 0 0); auto.
    + assert (n < 2 ^ 32); [|exact H].
      apply small_number. intros j Hj. apply B. right. change (lenN file_attribute_bits) with 18. lia.
    + change (Some (PList (map PS (set_bits 0 file_attribute_bits n))) = Some (PList (map PS l))). now rewrite E.
  - apply (in_bare 0 0 0 0 x00 x00 (Z.to_N z) 0 0); auto; [unfold fits16; lia|].
    change (Some (PInt (Z.of_N (Z.to_N z))) = Some (PInt z)). now rewrite Z2N.id by lia.
  - apply (in_bare 0 0 0 0 x00 x00 0 (Z.to_N z) 0); auto; [unfold fits32; lia|].
    change (Some (PInt (Z.of_N (Z.to_N z))) = Some (PInt z)). now rewrite Z2N.id by lia.
  - apply (in_bare 0 0 0 0 x00 x00 0 0 (Z.to_N z)); auto; [unfold fits32; lia|].
    change (Some (PInt (Z.of_N (Z.to_N z))) = Some (PInt z)). now rewrite Z2N.id by lia.
Qed.
