(** * What can be read back from a report *)
From Verif Require Import Lemmas PyTime Codec Utils Sha256 Header StringData Targets Info Extra LnkFile Report.
From Verif Require Import ApiProofs.
From Verif Require Import Spec SpecText SpecHeader SpecTime SpecDouble SpecItems SpecInfo SpecExtra SpecOutcome SpecEntries SpecBlocks SpecWhole SpecBack.
From Verif Require Import LayoutProofs EncProofs TextProofs TimeProofs FormatProofs StringProofs HeaderProofs ConstructProofs ExtraProofs ExtraListProofs AnyBlockProofs DoubleProofs WholeProofs InReportProofs.

(** ** Times *)
Lemma shown_near t dt : fits_i64 t -> time_read t (Some dt) ->
  (Z.abs (10 * microseconds dt - filetime_instant t) <= 170)%Z
  /\ (near_1970 t -> (Z.abs (10 * microseconds dt - filetime_instant t) < 10)%Z).
Proof.
  intros Hf H. pose proof H as (H0 & V & _). pose proof (proj2 (filetime_read t (Some dt) _ Hf) (conj H eq_refl)) as HP. cbn [time_said] in HP.
  assert (HR : forall R, reports_time (WFiletime (enci64 t)) R (parse_filetime (enci64 t)) -> microseconds dt = R /\ (0 <= R < end_of_time)%Z).
  { intros R [HA HB]. destruct (Z_le_dec 0 R) as [HL|HL]; [destruct (Z_lt_dec R end_of_time) as [HU|HU]|].
    - destruct (HA (conj HL HU)) as (dt' & E & V' & M). rewrite HP in E. injection E as <-. now split.
    - rewrite HB in HP by lia. discriminate HP.
    - rewrite HB in HP by lia. discriminate HP. }
  split.
  - destruct (filetime_everywhere t Hf H0) as (R & HT & HE). destruct (HR R HT) as [-> HB]. apply HE. now left.
  - intros HN. destruct (filetime_near_1970 t Hf H0 HN) as (R & HT & HE & _). destruct (HR R HT) as [-> HB]. lia.
Qed.
Lemma missing_near t : fits_i64 t -> time_read t None -> may_be_missing t.
Proof.
  intros Hf H. unfold may_be_missing. destruct (Z.eq_dec t 0) as [E|H0]; [now left|]. right.
  destruct (Z.lt_ge_cases (filetime_instant t) 170) as [L|L]; [now left|]. right.
  destruct (Z.lt_ge_cases (filetime_instant t) (10 * end_of_time - 170)) as [G|G]; [|exact G]. exfalso.
  destruct (filetime_in_range t Hf H0 (conj L G)) as (dt & E & _). pose proof (proj2 (filetime_read t None _ Hf) (conj H eq_refl)) as HP.
  rewrite E in HP. discriminate HP.
Qed.
Lemma times_back t1 t2 shown : fits_i64 t1 -> fits_i64 t2 -> time_read t1 shown -> time_read t2 shown -> times_alike t1 t2.
Proof.
  intros F1 F2 H1 H2. destruct shown as [dt|].
  - right. destruct (shown_near _ _ F1 H1) as [A1 B1], (shown_near _ _ F2 H2) as [A2 B2]. unfold filetime_instant in *. split; [lia|].
    intros N1 N2. specialize (B1 N1). specialize (B2 N2). lia.
  - left. split; now apply missing_near.
Qed.

(** ** Headers *)
Lemma pn_inj a b : PN a = PN b -> a = b.
Proof. unfold PN. intros H. injection H. lia. Qed.
Lemma opt_date_inj a b : POpt PDate a = POpt PDate b -> a = b.
Proof. destruct a, b; cbn; intros H; try discriminate H; [now injection H as ->|reflexivity]. Qed.
Lemma show_back a b : show_text a = show_text b -> a = b \/ ~ In a [3; 7] /\ ~ In b [3; 7].
Proof.
  unfold show_text. destruct (N.eqb_spec a 3), (N.eqb_spec b 3); try (destruct (N.eqb_spec a 7)); try (destruct (N.eqb_spec b 7)); intros H; try discriminate H;
    try (left; congruence); right; cbn [In]; lia.
Qed.
Lemma ps_inj a b : PS a = PS b -> s2t a = s2t b.
Proof. unfold PS. intros H. now injection H. Qed.
Lemma show_ps a b : PS (show_text a) = PS (show_text b) -> show_text a = show_text b.
Proof.
  unfold show_text. destruct (a =? 3), (b =? 3), (a =? 7), (b =? 7); intros H; try reflexivity; exfalso; revert H; vm_compute; discriminate.
Qed.
Lemma cons_both (k : string) (v1 v2 : pyval) l1 l2 : (k, v1) :: l1 = (k, v2) :: l2 -> v1 = v2 /\ l1 = l2.
Proof. intros H. injection H as -> ->. now split. Qed.
Lemma header_back h1 h2 c1 a1 w1 c2 a2 w2 : wf_header h1 -> wf_header h2 ->
  time_read (h_ctime h1) c1 -> time_read (h_atime h1) a1 -> time_read (h_wtime h1) w1 ->
  time_read (h_ctime h2) c2 -> time_read (h_atime h2) a2 -> time_read (h_wtime h2) w2 ->
  header_report h1 c1 a1 w1 = header_report h2 c2 a2 w2 -> headers_alike h1 h2.
Proof.
  intros W1 W2 C1 A1 T1 C2 A2 T2 E. unfold header_report in E.
  apply cons_both in E as [E0 E]. apply cons_both in E as [E1 E]. apply cons_both in E as [E2 E]. apply cons_both in E as [E3 E].
  apply cons_both in E as [E4 E]. apply cons_both in E as [E5 E]. apply cons_both in E as [E6 E]. apply cons_both in E as [E7 E].
  apply cons_both in E as [E8 E]. apply cons_both in E as [E9 E]. apply cons_both in E as [E10 E]. apply cons_both in E as [_ E].
  apply cons_both in E as [_ E]. apply cons_both in E as [E13 E]. apply cons_both in E as [E14 E]. apply cons_both in E as [E15 E].
  apply cons_both in E as [E16 _].
  apply opt_date_inj in E3, E4, E5. subst c2 a2 w2. apply pn_inj in E1, E2, E6, E10, E13, E14, E15, E16.
  destruct W1 as (_ & _ & L1 & _ & _ & FC1 & FA1 & FW1 & _). destruct W2 as (_ & _ & L2 & _ & _ & FC2 & FA2 & FW2 & _).
  pose proof (b2n_lt (h_key h1)). pose proof (b2n_lt (h_key h2)).
  assert (EK : b2n (h_key h1) = b2n (h_key h2)) by lia. assert (EM : b2n (h_mods h1) = b2n (h_mods h2)) by lia.
  split; [exact E13|]. split; [apply guid_text_inj; [exact L1|exact L2|now injection E0]|]. split; [exact E1|]. split; [exact E2|].
  split; [now apply times_back with c1|]. split; [now apply times_back with a1|]. split; [now apply times_back with w1|].
  split; [exact E6|]. split; [now injection E7|]. split; [apply show_back, show_ps, E8|].
  split; [now apply b2n_inj|]. split; [now apply b2n_inj|]. now repeat split.
Qed.
Lemma headers_back b1 b2 cp1 cp2 allow1 allow2 l1 l2 d1 d2 : usable cp1 -> usable cp2 ->
  snd (lnk_init (FromBytes b1) cp1 allow1) = Ok l1 -> snd (lnk_init (FromBytes b2) cp2 allow2) = Ok l2 ->
  snd (get_json l1 true) = Ok d1 -> snd (get_json l2 true) = Ok d2 -> dget "header" d1 = dget "header" d2 ->
  exists h1 rest1 h2 rest2, wf_header h1 /\ wf_header h2 /\ b1 = encode_header h1 ++ rest1 /\ b2 = encode_header h2 ++ rest2 /\ headers_alike h1 h2.
Proof.
  intros U1 U2 I1 I2 G1 G2 E. destruct (header_times b1 cp1 allow1 l1 d1 U1 I1 G1) as (h1 & r1 & c1 & a1 & w1 & W1 & B1 & C1 & A1 & T1 & R1 & _).
  destruct (header_times b2 cp2 allow2 l2 d2 U2 I2 G2) as (h2 & r2 & c2 & a2 & w2 & W2 & B2 & C2 & A2 & T2 & R2 & _).
  exists h1, r1, h2, r2. split; [exact W1|]. split; [exact W2|]. split; [exact B1|]. split; [exact B2|].
  rewrite R1, R2 in E. apply (f_equal (fun o => match o with Some (PDict x) => x | _ => [] end)) in E. cbv beta iota in E.
  exact (header_back _ _ _ _ _ _ _ _ W1 W2 C1 A1 T1 C2 A2 T2 E).
Qed.

(** ** Blocks *)
Lemma takeN_sum {A} n m (l : list A) : takeN (n + m) l = takeN n l ++ takeN m (dropN n l).
Proof.
  rewrite !takeN_firstn, dropN_skipn. replace (N.to_nat (n + m)) with (N.to_nat n + N.to_nat m)%nat by lia.
  generalize (N.to_nat n), (N.to_nat m). clear. intros i j. revert l. induction i as [|i IH]; intros [|x l]; cbn; [reflexivity..|now destruct j|]. now rewrite IH.
Qed.
Lemma slice_join {A} i j k (l : list A) : i <= j -> j <= k -> slice i j l ++ slice j k l = slice i k l.
Proof.
  intros H1 H2. unfold slice. replace (dropN j l) with (dropN (j - i) (dropN i l)) by (rewrite dropN_dropN; f_equal; lia).
  replace (k - i) with ((j - i) + (k - j)) by lia. now rewrite takeN_sum.
Qed.
Definition same_at (i j : N) (raw1 raw2 : bytes) : Prop := slice i j raw1 = slice i j raw2.
Lemma same_join i j k raw1 raw2 : i <= j -> j <= k -> same_at i j raw1 raw2 -> same_at j k raw1 raw2 -> same_at i k raw1 raw2.
Proof. unfold same_at. intros H1 H2 E1 E2. rewrite <- (slice_join i j k raw1), <- (slice_join i j k raw2) by assumption. now rewrite E1, E2. Qed.
Lemma same_num w i raw1 raw2 : i + w <= lenN raw1 -> i + w <= lenN raw2 -> num w i raw1 = num w i raw2 -> same_at i (i + w) raw1 raw2.
Proof.
  intros L1 L2 E. unfold same_at. rewrite !slice_num. apply le_val_inj; [|exact E]. rewrite !lenN_takeN, !lenN_dropN. unfold bytes in *. lia.
Qed.
Lemma same_number w i raw1 raw2 : i + w <= lenN raw1 -> i + w <= lenN raw2 -> number_at w i raw1 = number_at w i raw2 -> same_at i (i + w) raw1 raw2.
Proof. intros L1 L2 E. apply same_num; [assumption..|]. now apply pn_inj. Qed.
Lemma num2_lt i raw : num 2 i raw < 65536.
Proof.
  unfold num. pose proof (le_val_lt (takeN 2 (dropN i raw))) as H. assert (L : lenN (takeN 2 (dropN i raw)) <= 2) by (rewrite lenN_takeN; unfold bytes in *; lia).
  pose proof (N.pow_le_mono_r 256 _ _ ltac:(lia) L) as HP. change (256 ^ 2) with 65536 in HP. lia.
Qed.
Lemma same_integer i raw1 raw2 : i + 2 <= lenN raw1 -> i + 2 <= lenN raw2 -> integer_at i raw1 = integer_at i raw2 -> same_at i (i + 2) raw1 raw2.
Proof.
  intros L1 L2 E. apply same_num; [assumption..|]. unfold integer_at, signed in E. injection E as E.
  pose proof (num2_lt i raw1). pose proof (num2_lt i raw2). change (2 ^ (16 - 1)) with 32768 in E. change (2 ^ 16) with 65536 in E.
  destruct (N.ltb_spec (num 2 i raw1) 32768), (N.ltb_spec (num 2 i raw2) 32768); lia.
Qed.
Lemma same_guid i raw1 raw2 : i + 16 <= lenN raw1 -> i + 16 <= lenN raw2 -> guid_field i raw1 = guid_field i raw2 -> same_at i (i + 16) raw1 raw2.
Proof.
  intros L1 L2 E. unfold guid_field in E. injection E as E. apply guid_text_inj in E; [exact E|..]; rewrite slice_num, lenN_takeN, lenN_dropN; unfold bytes in *; lia.
Qed.
Lemma fixed_pair cp1 cp2 sig raw1 raw2 x w1 w2 : sig <> 0xA0000006 -> sig <> 0xA0000009 -> sig <> 0xA000000C ->
  block_read cp1 sig raw1 x w1 -> block_read cp2 sig raw2 x w2 ->
  fixed_report cp1 sig raw1 = fixed_report cp2 sig raw2 /\ fixed_bytes sig <= lenN raw1 /\ fixed_bytes sig <= lenN raw2.
Proof.
  intros N1 N2 N3 H1 H2. inversion H1 as [d1 F1 M1 D1 V1|E|? ? ? E|? ? E]; try contradiction.
  inversion H2 as [d2 F2 M2 D2 V2|E|? ? ? E|? ? E]; try contradiction.
  split; [|now split]. rewrite F1, F2. f_equal. rewrite <- D1 in D2. now injection D2.
Qed.
Lemma told_only sig i j : ~ In sig [0xA0000002; 0xA0000003; 0xA0000004; 0xA0000005; 0xA000000B] -> In (i, j) (told_bytes sig) -> i = 0 /\ j = 4.
Proof.
  intros HN HI. assert (E : told_bytes sig = [(0, 4)]).
  { revert HN. clear. unfold told_bytes. intros HN.
    repeat match goal with |- context [match ?p with _ => _ end] => destruct p; try reflexivity; try (exfalso; apply HN; cbn [In]; tauto) end. }
  rewrite E in HI. destruct HI as [HI|[]]. now injection HI as <- <-.
Qed.
Lemma size_back cp1 cp2 sig raw1 raw2 x w1 w2 : 4 <= lenN raw1 -> 4 <= lenN raw2 ->
  block_read cp1 sig raw1 x w1 -> block_read cp2 sig raw2 x w2 -> same_at 0 4 raw1 raw2.
Proof.
  intros L1 L2 H1 H2. apply (same_number 4 0); [lia..|].
  assert (HX : forall cp raw w, block_read cp sig raw x w -> dget "size" x = Some (number_at 4 0 raw)) by (intros cp raw w H; destruct H; reflexivity).
  pose proof (HX _ _ _ H1) as E1. rewrite (HX _ _ _ H2) in E1. injection E1 as E1. unfold number_at, PN. now rewrite E1.
Qed.
Ltac peel H n := apply cons_both in H as [n H].
Lemma bytes_back cp1 cp2 sig raw1 raw2 x w1 w2 i j : 4 <= lenN raw1 -> 4 <= lenN raw2 ->
  block_read cp1 sig raw1 x w1 -> block_read cp2 sig raw2 x w2 -> In (i, j) (told_bytes sig) -> slice i j raw1 = slice i j raw2.
Proof.
  intros L1 L2 H1 H2 HI. change (same_at i j raw1 raw2). pose proof (size_back _ _ _ _ _ _ _ _ L1 L2 H1 H2) as HS.
  destruct (in_dec N.eq_dec sig [0xA0000002; 0xA0000003; 0xA0000004; 0xA0000005; 0xA000000B]) as [HK|HK];
    [|destruct (told_only _ _ _ HK HI) as [-> ->]; exact HS].
  assert (HP : fixed_report cp1 sig raw1 = fixed_report cp2 sig raw2 /\ fixed_bytes sig <= lenN raw1 /\ fixed_bytes sig <= lenN raw2).
  { apply (fixed_pair cp1 cp2 sig raw1 raw2 x w1 w2); try assumption; intros ->; cbn [In] in HK; intuition discriminate. }
  destruct HP as (E & M1 & M2). clear H1 H2 x w1 w2.
  cbn [In] in HK. destruct HK as [<-|[<-|[<-|[<-|[<-|[]]]]]]; cbn [told_bytes In] in HI; cbn [fixed_bytes] in M1, M2; cbn [fixed_report] in E;
    apply (f_equal (fun o => match o with Some d => d | None => [] end)) in E; cbv beta iota in E;
    (destruct HI as [HI|HI]; [injection HI as <- <-; exact HS|]).
  - peel E E1. peel E E2. peel E E3. peel E E4. peel E E5. peel E E6. peel E E7. peel E E8. peel E E9. peel E E10. peel E E11. peel E E12.
    peel E E13. peel E E14. peel E E15. peel E E16. peel E E17. peel E E18. peel E E19. peel E E20. peel E E21.
    apply same_number in E1, E2, E9, E10, E11, E13, E14, E15, E16, E17, E18, E19, E20, E21; try lia.
    apply same_integer in E3, E4, E5, E6, E7, E8; try lia.
    destruct HI as [HI|[HI|[HI|[]]]]; injection HI as <- <-.
    + refine (same_join 8 10 24 _ _ _ _ E1 _); [lia..|]. refine (same_join 10 12 24 _ _ _ _ E2 _); [lia..|]. refine (same_join 12 14 24 _ _ _ _ E3 _); [lia..|].
      refine (same_join 14 16 24 _ _ _ _ E4 _); [lia..|]. refine (same_join 16 18 24 _ _ _ _ E5 _); [lia..|]. refine (same_join 18 20 24 _ _ _ _ E6 _); [lia..|].
      refine (same_join 20 22 24 _ _ _ _ E7 E8); lia.
    + refine (same_join 32 36 44 _ _ _ _ E9 _); [lia..|]. refine (same_join 36 40 44 _ _ _ _ E10 E11); lia.
    + refine (same_join 108 112 144 _ _ _ _ E13 _); [lia..|]. refine (same_join 112 116 144 _ _ _ _ E14 _); [lia..|]. refine (same_join 116 120 144 _ _ _ _ E15 _); [lia..|].
      refine (same_join 120 124 144 _ _ _ _ E16 _); [lia..|]. refine (same_join 124 128 144 _ _ _ _ E17 _); [lia..|]. refine (same_join 128 132 144 _ _ _ _ E18 _); [lia..|].
      refine (same_join 132 136 144 _ _ _ _ E19 _); [lia..|]. refine (same_join 136 140 144 _ _ _ _ E20 E21); lia.
  - peel E E1. peel E E2. peel E E3. peel E E4. peel E E5. peel E E6. peel E E7.
    apply same_number in E1, E2; try lia. apply same_guid in E4, E5, E6, E7; try lia. destruct HI as [HI|[HI|[]]]; injection HI as <- <-.
    + refine (same_join 8 12 16 _ _ _ _ E1 E2); lia.
    + refine (same_join 32 48 96 _ _ _ _ E4 _); [lia..|]. refine (same_join 48 64 96 _ _ _ _ E5 _); [lia..|]. refine (same_join 64 80 96 _ _ _ _ E6 E7); lia.
  - peel E E1. apply same_number in E1; try lia. destruct HI as [HI|[]]; injection HI as <- <-. exact E1.
  - peel E E1. peel E E2. apply same_number in E1, E2; try lia. destruct HI as [HI|[]]; injection HI as <- <-. refine (same_join 8 12 16 _ _ _ _ E1 E2); lia.
  - peel E E1. peel E E2. apply same_guid in E1; try lia. apply same_number in E2; try lia. destruct HI as [HI|[]]; injection HI as <- <-.
    refine (same_join 8 24 28 _ _ _ _ E1 E2); lia.
Qed.

(** The same for two files. *)
Definition sig_of (c : extra_class) : N :=
  match c with
  | Environment => 0xA0000001 | Console => 0xA0000002 | DistributedTracker => 0xA0000003 | CodePage => 0xA0000004
  | SpecialFolder => 0xA0000005 | Darwin => 0xA0000006 | Icon => 0xA0000007 | ShimLayer => 0xA0000008
  | Metadata => 0xA0000009 | KnownFolder => 0xA000000B | ShellItem => 0xA000000C | _ => 0
  end.
Lemma sig_of_class s : class_of_sig s = UnknownExtra \/ s = sig_of (class_of_sig s).
Proof.
  unfold class_of_sig.
  repeat match goal with |- context [match ?p with _ => _ end] => destruct p; try (now left); try (now right) end.
Qed.
Lemma name_inj s1 s2 : block_name s1 <> "UNKNOWN_BLOCK"%string -> block_name s1 = block_name s2 -> s1 = s2.
Proof.
  rewrite <- !block_name_class, !sig_class_num. intros HN E. pose proof E as EC. apply extra_name_inj in EC.
  destruct (sig_of_class s1) as [U|E1]; [rewrite U in HN; now destruct HN|]. destruct (sig_of_class s2) as [U|E2]; [rewrite <- EC in U; rewrite U in HN; now destruct HN|].
  now rewrite E1, E2, EC.
Qed.
Lemma blocks_back b1 b2 cp1 cp2 allow1 allow2 all1 all2 l1 l2 d1 d2 blocks1 tail1 blocks2 tail2 e1 e2 sig x : usable cp1 -> usable cp2 ->
  snd (lnk_init (FromBytes b1) cp1 allow1) = Ok l1 -> snd (lnk_init (FromBytes b2) cp2 allow2) = Ok l2 ->
  snd (get_json l1 all1) = Ok d1 -> snd (get_json l2 all2) = Ok d2 ->
  block_walk (dropN (string_data_end b1) b1) blocks1 tail1 -> block_walk (dropN (string_data_end b2) b2) blocks2 tail2 ->
  reported_extra d1 = Some e1 -> reported_extra d2 = Some e2 ->
  dget (block_name sig) e1 = Some (PDict x) -> dget (block_name sig) e2 = Some (PDict x) ->
  exists before1 raw1 after1 before2 raw2 after2,
    blocks1 = before1 ++ (sig, raw1) :: after1 /\ blocks2 = before2 ++ (sig, raw2) :: after2
    /\ forall i j, In (i, j) (told_bytes sig) -> slice i j raw1 = slice i j raw2.
Proof.
  intros U1 U2 I1 I2 G1 G2 W1 W2 X1 X2 D1 D2. pose proof (name_not_terminal sig) as HT.
  destruct (source_reported b1 cp1 allow1 all1 l1 d1 U1 I1 G1 blocks1 tail1 W1 e1 _ x X1 D1 HT) as (p1 & s1 & r1 & a1 & w1 & E1 & N1 & L1 & R1 & _).
  destruct (source_reported b2 cp2 allow2 all2 l2 d2 U2 I2 G2 blocks2 tail2 W2 e2 _ x X2 D2 HT) as (p2 & s2 & r2 & a2 & w2 & E2 & N2 & L2 & R2 & _).
  assert (HU : block_name sig <> "UNKNOWN_BLOCK"%string).
  { intros HE. rewrite HE in D1. destruct (unknown_reported b1 cp1 allow1 all1 l1 d1 U1 I1 G1 blocks1 tail1 W1) as (e & Ee & H). rewrite X1 in Ee. injection Ee as <-.
    cbv zeta in H. rewrite D1 in H. destruct (map snd _) in H; discriminate H. }
  assert (s1 = sig) as -> by (symmetry; apply name_inj; congruence). assert (s2 = sig) as -> by (symmetry; apply name_inj; congruence).
  exists p1, r1, a1, p2, r2, a2. split; [exact E1|]. split; [exact E2|]. intros i j HI. exact (bytes_back _ _ _ _ _ _ _ _ _ _ L1 L2 R1 R2 HI).
Qed.

(** ** Strings *)
Lemma wide_text_of t : Forall scalar t -> no_nul t -> wide_text (utf16 t) = t.
Proof.
  intros Hs Hn. unfold wide_text. rewrite <- (app_nil_r (utf16 t)), before_nul_unit_text by assumption. cbn [before_nul_unit].
  now rewrite app_nil_r, utf16_strict_text by assumption.
Qed.
Lemma utf16_back cp1 cp2 t1 t2 : Forall scalar t1 -> no_nul t1 -> Forall scalar t2 -> no_nul t2 ->
  stored_text true cp1 (utf16 t1) = stored_text true cp2 (utf16 t2) -> t1 = t2.
Proof.
  intros S1 N1 S2 N2 E. unfold stored_text in E. now rewrite !wide_text_of in E by assumption.
Qed.
Lemma strings_back b1 b2 cp1 cp2 allow1 allow2 l1 l2 d1 d2 found1 e1 cut1 found2 e2 cut2 : usable cp1 -> usable cp2 ->
  snd (lnk_init (FromBytes b1) cp1 allow1) = Ok l1 -> snd (lnk_init (FromBytes b2) cp2 allow2) = Ok l2 ->
  snd (get_json l1 true) = Ok d1 -> snd (get_json l2 true) = Ok d2 -> dget "data" d1 = dget "data" d2 ->
  bit_set 7 b1 = true -> bit_set 7 b2 = true ->
  string_walk b1 string_fields (info_end b1) found1 e1 cut1 -> string_walk b2 string_fields (info_end b2) found2 e2 cut2 ->
  Forall (fun f => exists t, Forall scalar t /\ no_nul t /\ snd f = utf16 t) (found1 ++ found2) -> found1 = found2.
Proof.
  intros U1 U2 I1 I2 G1 G2 E B1 B2 W1 W2 HF.
  rewrite (proj1 (strings_of_file b1 cp1 allow1 l1 d1 found1 e1 cut1 U1 I1 G1 W1)) in E.
  rewrite (proj1 (strings_of_file b2 cp2 allow2 l2 d2 found2 e2 cut2 U2 I2 G2 W2)) in E. rewrite B1, B2 in E.
  apply (f_equal (fun o => match o with Some (PDict x) => x | _ => [] end)) in E. cbv beta iota in E.
  apply Forall_app in HF as [F1 F2]. clear - E F1 F2. revert found2 E F2. induction F1 as [|[k1 f1] r1 (t1 & S1 & N1 & V1) _ IH]; intros [|[k2 f2] r2] E F2; try discriminate E; [reflexivity|].
  inversion F2 as [|? ? (t2 & S2 & N2 & V2) F2']; subst. cbn [fst snd map] in *. injection E as -> ET E. f_equal; [|now apply IH].
  f_equal. rewrite V1, V2. f_equal. rewrite V1, V2 in ET. now apply (utf16_back cp1 cp2).
Qed.
