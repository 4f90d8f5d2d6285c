(** * How many warnings a file can cause: the constructor, and stores full of them (C80) *)
From Verif Require Import Lemmas PyTime Codec Utils Sha256 Header StringData Targets Info Extra LnkFile.
From Verif Require Import EncProofs OutcomeProofs LayoutProofs CoreProofs ApiProofs TextProofs ConstructProofs ExtraListProofs ClassProofs FloodProofs.
From Verif Require Import Spec SpecText SpecExtra SpecFlood.

Lemma header_size_short raw : lenN raw < 4 -> header_size raw = ([], Err StructError).
Proof.
  intros H. unfold header_size. change (slice 0 4 raw) with (slice 0 (0 + 4) raw). rewrite unpack_u32_at.
  now replace (0 + 4 <=? lenN raw) with false by lia.
Qed.
Lemma flag_short name raw : lenN raw < 24 -> has_flag name raw = ([], Err StructError).
Proof.
  intros H. unfold has_flag, link_flags, r_link_flags. change (slice 20 24 raw) with (slice 20 (20 + 4) raw). rewrite unpack_u32_at.
  now replace (20 + 4 <=? lenN raw) with false by lia.
Qed.
Lemma process_says b cp allow : b <> [] -> usable cp -> constructor_says b cp (fst (process b cp allow)).
Proof.
  intros Hb Hcp. unfold process. destruct b as [|x0 b0]; [contradiction|]. set (b := x0 :: b0) in *.
  change (header_init b) with (size <- header_size b ;; ret (takeN size b)).
  destruct (N.lt_ge_cases (lenN b) 4) as [L4|L4].
  { rewrite header_size_short by assumption. now apply says_nothing. }
  rewrite bind_assoc, fst_bind, header_size_snd, header_size_fst by lia.
  replace (4 <=? lenN b) with true by lia. rewrite bind_ret_l. fold (header_len b). fold (size_warning_of b).
  destruct (N.lt_ge_cases (header_len b) 4) as [H4|H4].
  { rewrite header_size_short by (rewrite lenN_takeN; lia). cbn [bind fst]. rewrite app_nil_r. now apply says_once. }
  rewrite fst_bind, header_size_snd, header_size_fst by (rewrite lenN_takeN; lia).
  rewrite lenN_takeN, num_takeN by lia. fold (header_len b). fold (size_warning_of b).
  replace (4 <=? N.min (header_len b) (lenN b)) with true by lia.
  destruct (N.lt_ge_cases (N.min (header_len b) (lenN b)) 24) as [H24|H24].
  { rewrite flag_short by (rewrite lenN_takeN; lia). cbn [bind fst]. rewrite app_nil_r. apply says_twice; [assumption|assumption|]. lia. }
  assert (HF : forall name i, In (name, i) used_flags ->
                 has_flag name (takeN (header_len b) b) = ret (bit_set i b)).
  { intros name i Hin. apply has_flag_bit; [assumption|lia|lia]. }
  rewrite (HF _ 0) by (cbn; auto 12). rewrite bind_ret_l. fold (has_id_list b).
  destruct (has_id_list b && (lenN b <? header_len b + 2)) eqn:EI.
  { apply andb_prop in EI as [EI1 EI2]. rewrite EI1. unfold targets_init, targets_size, id_list_size. rewrite unpack_u16_0, lenN_dropN.
    replace (2 <=? lenN b - header_len b) with false by lia. cbn [bind raise fst]. rewrite app_nil_r.
    apply says_twice; [assumption|assumption|]. right. right. split; [assumption|lia]. }
  assert (EI' : has_id_list b = false \/ header_len b + 2 <= lenN b).
  { destruct (has_id_list b); [right|now left]. cbn [andb] in EI. lia. }
  rewrite id_list_step by assumption.
  rewrite bind_ret_l.
  rewrite (HF _ 1) by (cbn; auto 12). rewrite bind_ret_l.
  assert (EF : (if bit_set 1 b then f <- has_flag "ForceNoLinkInfo" (takeN (header_len b) b);; ret (negb f)
                else ret false) = ret (bit_set 1 b && negb (bit_set 8 b))).
  { destruct (bit_set 1 b); [|reflexivity]. rewrite (HF _ 8) by (cbn; auto 12). reflexivity. }
  rewrite EF, bind_ret_l. clear EF.
  cbv zeta. rewrite info_step. rewrite bind_Ok. cbn [fst].
  destruct (string_data_full b cp Hcp ltac:(lia) ltac:(lia)) as (found & cut & HW & sd & HS & HD & HE).
  rewrite HS, bind_Ok. cbn [fst]. rewrite <- app_assoc.
  match goal with |- constructor_says _ _ (_ ++ _ ++ _ ++ _ ++ _ ++ ?w) =>
    assert (E : w = fst (extra_init allow (dropN (string_data_end b) b))) end.
  { rewrite HE, fst_bind. destruct (extra_init_spec allow (dropN (string_data_end b) b)) as (blocks & r & HW' & HE'). rewrite HE'.
    rewrite fst_bind, extras_size_fst. destruct (snd (extras_size _)); apply app_nil_r. }
  rewrite E. apply says_all; [lia|lia| |assumption|apply extra_init_fst].
  intros HI. destruct EI' as [EI'|EI']; [congruence|assumption].
Qed.

Lemma b2n_lt x : b2n x < 256.
Proof. destruct x; reflexivity. Qed.
Lemma four_bytes a b c d r : num 4 0 (a :: b :: c :: d :: r) = b2n a + 256 * (b2n b + 256 * (b2n c + 256 * b2n d)).
Proof.
  change (num 4 0 (a :: b :: c :: d :: r)) with (le_val (a :: b :: c :: d :: takeN 0 r)).
  replace (takeN 0 r) with (@nil byte) by (now destruct r). cbn [le_val]. lia.
Qed.
(** Behind a size below four the next one is zero or far too large. *)
Lemma small_size r : 4 <= lenN r < 8 -> num 4 0 r <> 0 -> num 4 0 r <= 3 -> 4 <= lenN (dropN (num 4 0 r) r) ->
  num 4 0 (dropN (num 4 0 r) r) = 0 \/ 8 <= num 4 0 (dropN (num 4 0 r) r).
Proof.
  intros L Hn H3 HL. assert (D0 : forall l : bytes, dropN 0 l = l) by (intros []; reflexivity).
  destruct r as [|a [|b [|c [|d r]]]]; try (cbn in L; lia).
  pose proof (b2n_lt a). rewrite four_bytes in *.
  assert (E4 : b2n b = 0 /\ b2n c = 0 /\ b2n d = 0 /\ b2n a + 256 * (b2n b + 256 * (b2n c + 256 * b2n d)) = b2n a) by lia.
  destruct E4 as (Eb & Ec & Ed & Ea). rewrite Ea in *.
  assert (HC : b2n a = 1 \/ b2n a = 2 \/ b2n a = 3) by lia.
  destruct HC as [HC|[HC|HC]]; rewrite HC in *.
  - change (dropN 1 (a :: b :: c :: d :: r)) with (b :: c :: d :: r) in *.
    destruct r as [|x r]; [cbn in HL; lia|]. rewrite four_bytes. lia.
  - change (dropN 2 (a :: b :: c :: d :: r)) with (c :: d :: r) in *.
    destruct r as [|x [|y r]]; try (cbn in HL; lia). rewrite four_bytes. lia.
  - change (dropN 3 (a :: b :: c :: d :: r)) with (d :: r) in *.
    destruct r as [|x [|y [|z r]]]; try (cbn in HL; lia). rewrite four_bytes. lia.
Qed.
Lemma walk_warnings_few r w : walk_warnings r w -> lenN w <= 2 /\ (lenN r < 4 -> lenN w <= 1)
  /\ (lenN r < 8 -> 8 <= num 4 0 r -> lenN w <= 1) /\ (lenN r < 8 -> num 4 0 r = 0 -> lenN w <= 1) /\ (lenN r = 0 -> w = []).
Proof.
  induction 1 as [r _|r L|r w L Hn H IH|r w L Hn H IH]; nil0; rewrite ?lenN_cons; nil0; try (repeat split; try reflexivity; lia).
  - destruct IH as (I1 & I2 & I3 & I4 & I5). pose proof (lenN_dropN (num 4 0 r) r) as HD.
    split; [|split; [lia|split; [|lia]]].
    + destruct (N.le_gt_cases 4 (lenN (dropN (num 4 0 r) r))) as [HL|HL]; [|specialize (I2 HL); lia].
      assert (HS : num 4 0 r <= 3) by lia. destruct (small_size r L Hn HS HL) as [HZ|HZ].
      * specialize (I4 ltac:(lia) HZ). lia.
      * specialize (I3 ltac:(lia) HZ). lia.
    + intros _ H8. rewrite (I5 ltac:(lia)). nil0. lia.
Qed.
Lemma string_walk_few b u cp fs p found e cut : string_walk b fs p found e cut ->
  lenN (flat_map (fun f : string * bytes => stored_warning u cp (snd f)) found) + (if cut then 1 else 0) <= lenN fs.
Proof.
  induction 1 as [p|i name lim fs p found e cut _ H IH|i name lim fs p _ _|i name lim fs p n found e cut _ _ _ H IH];
    cbn [flat_map]; rewrite ?lenN_cons, ?lenN_app; cbn [snd]; nil0; try (cbn; lia).
  - pose proof (stored_one u cp (slice (p + 2) (p + 2 + n) b)). lia.
Qed.
Lemma string_walk_long b u cp fs p found e cut : string_walk b fs p found e cut ->
  p + 3 * lenN (flat_map (fun f : string * bytes => stored_warning u cp (snd f)) found) <= e.
Proof.
  induction 1 as [p|i name lim fs p found e cut _ H IH|i name lim fs p _ _|i name lim fs p n found e cut _ _ _ H IH];
    cbn [flat_map]; rewrite ?lenN_app; cbn [snd]; nil0; try lia.
  pose proof (stored_one u cp (slice (p + 2) (p + 2 + n) b)) as [H1 H2]. rewrite lenN_slice in H2. lia.
Qed.
Lemma constructor_few b cp w : constructor_says b cp w -> lenN w <= 9.
Proof.
  assert (HS : lenN (size_warning_of b) <= 1) by (unfold size_warning_of; destruct (_ =? _); cbn; lia).
  intros H. destruct H as [_|_ _|_ _ _|found cut bw _ _ _ HW HB]; rewrite ?lenN_app; nil0; try lia.
  apply walk_warnings_few in HB as (HB & _ & _ & _ & HB0). rewrite lenN_dropN in HB0.
  pose proof (string_walk_few b (bit_set 7 b) cp _ _ _ _ _ HW) as HF. pose proof (string_walk_long b (bit_set 7 b) cp _ _ _ _ _ HW) as HE.
  change (lenN string_fields) with 5 in HF.
  set (k := lenN (flat_map _ found)) in *.
  replace (lenN (if cut then [WStringData] else [])) with (if cut then 1 else 0) by (now destruct cut).
  unfold info_warning. destruct (bit_set 1 b && negb (bit_set 8 b) && (lenN b <? id_list_end b + 12)) eqn:EI; nil0; [|lia].
  change (lenN [WInfoClass]) with 1.
  assert (Ee : info_end b = id_list_end b).
  { unfold info_end, info_processed. apply andb_prop in EI as [_ EI]. replace (id_list_end b + 12 <=? lenN b) with false by lia.
    now rewrite andb_false_r. }
  apply andb_prop in EI as [_ EI]. rewrite Ee in HE.
  destruct (N.le_gt_cases 4 k) as [HK|HK]; [|destruct cut; lia]. rewrite HB0 by lia. nil0. lia.
Qed.

(** ** Any report *)
From Verif Require Import HeaderFileProofs LinkProofs ExactProofs WholeProofs FailureProofs ExtraProofs ExtraFileProofs GrowthProofs.
From Verif Require Import Spec SpecText SpecHeader SpecTime SpecDouble SpecItems SpecInfo SpecExtra SpecOutcome SpecEntries SpecBlocks SpecWhole SpecFailure SpecFlood.
Lemma report_warnings src b cp allow l all : (src = FromBytes b \/ src = FromHandle b) -> usable cp ->
  snd (lnk_init src cp allow) = Ok l -> warnings_bound b (fst (get_json l all)).
Proof.
  intros Hs Hcp Hl. rewrite warnings_all.
  assert (Hl' : snd (lnk_init (FromBytes b) cp allow) = Ok l).
  { destruct Hs as [->| ->]; [assumption|]. rewrite handle_bytes in Hl; [assumption|]. intros ->. discriminate Hl. }
  destruct (init_constructed b cp allow l Hcp Hl') as [HC _].
  destruct (get_json l true) as [said r] eqn:HG. cbn [fst].
  pose proof (proj1 (complete_iff b cp allow l Hcp Hl' said r) HG) as H. destruct r as [d|e].
  - destruct H as [_ H].
    destruct (reported_whole b cp allow l true d Hl' ltac:(now rewrite HG)) as [L1 L2].
    exact (whole_bound _ _ _ _ _ HC L1 L2 H).
  - exact (fails_bound _ _ _ _ HC H).
Qed.

Lemma constructor_said src b cp allow : (src = FromBytes b \/ src = FromHandle b) -> b <> [] -> usable cp ->
  constructor_says b cp (fst (lnk_init src cp allow)).
Proof.
  intros Hs Hb Hcp. assert (E : lnk_init src cp allow = process b cp allow).
  { destruct Hs as [->| ->]; [|reflexivity]. destruct b; [contradiction|reflexivity]. }
  rewrite E. now apply process_says.
Qed.
Lemma constructor_nine src cp allow : usable cp -> lenN (fst (lnk_init src cp allow)) <= 9.
Proof.
  intros Hcp. destruct src as [b|b]; (destruct b as [|x b]; [vm_compute; discriminate|]);
    (apply (constructor_few (x :: b) cp); apply constructor_said; [|discriminate|assumption]; auto).
Qed.
Lemma report_warned src b cp allow l all : (src = FromBytes b \/ src = FromHandle b) -> usable cp -> snd (lnk_init src cp allow) = Ok l ->
  lenN (fst (get_json l all)) <= lenN b ^ 2 /\ (no_store b -> lenN (fst (get_json l all)) <= lenN b).
Proof. intros Hs Hcp Hl. rewrite N.pow_2_r. exact (report_warnings src b cp allow l all Hs Hcp Hl). Qed.

(** ** A store full of warnings *)
Lemma broken_S n : broken_store (S n) = broken_unit ++ broken_store n.
Proof. unfold broken_store. cbn [repeat concat]. now rewrite app_assoc. Qed.
Lemma broken_len n : lenN (broken_store n) = 64 * N.of_nat n + 40.
Proof. induction n as [|n IH]; [reflexivity|]. rewrite broken_S, lenN_app, IH. change (lenN broken_unit) with 64. lia. Qed.
Definition inner (n : nat) : bytes := dropN 24 (broken_store n).
Lemma inner_S n : inner (S n) = dropN 24 broken_unit ++ broken_store n.
Proof. unfold inner. rewrite broken_S. reflexivity. Qed.
Lemma inner_len n : lenN (inner n) = 64 * N.of_nat n + 16.
Proof. unfold inner. rewrite lenN_dropN, broken_len. lia. Qed.
Lemma inner_next n : dropN 64 (inner (S n)) = inner n.
Proof. rewrite inner_S, dropN_app_ge; [reflexivity|vm_compute; discriminate]. Qed.
Lemma broken_next n : dropN 64 (broken_store (S n)) = broken_store n.
Proof. rewrite broken_S. now apply dropN_app_exact. Qed.

Fixpoint from_S (f : nat -> bytes) (n : nat) : list bytes := match n with O => [] | S m => f n :: from_S f m end.
Lemma broken_elements n : elements (broken_store n) (from_S broken_store n).
Proof.
  induction n as [|n IH]; [apply no_more; [vm_compute; discriminate|reflexivity]|]. cbn [from_S].
  apply one_more; [rewrite broken_len; lia| |]; replace (num 4 0 (broken_store (S n))) with 64 by (rewrite broken_S; vm_compute; reflexivity).
  - discriminate.
  - now rewrite broken_next.
Qed.
Lemma inner_elements n : elements (inner n) (from_S inner n).
Proof.
  induction n as [|n IH]; [apply no_more; [vm_compute; discriminate|reflexivity]|]. cbn [from_S].
  apply one_more; [rewrite inner_len; lia| |]; replace (num 4 0 (inner (S n))) with 64 by (rewrite inner_S; vm_compute; reflexivity).
  - discriminate.
  - now rewrite inner_next.
Qed.
Lemma inner_property n : exists d w, property_at false (inner (S n)) d w /\ lenN w = 1.
Proof.
  do 2 eexists. split.
  - apply numbered_property; [reflexivity|rewrite inner_len; lia|]. apply value_text.
    + rewrite lenN_dropN, inner_len. lia.
    + rewrite inner_S. vm_compute. reflexivity.
    + rewrite inner_S. vm_compute. reflexivity.
    + reflexivity.
  - rewrite inner_S. vm_compute. reflexivity.
Qed.
Lemma inner_properties n : exists ds w, each (property_at false) (from_S inner n) ds w /\ lenN w = N.of_nat n.
Proof.
  induction n as [|n (ds & w & H & L)]; [exists [], []; split; [constructor|reflexivity]|].
  destruct (inner_property n) as (d & w1 & H1 & L1). exists (d :: ds), (w1 ++ w). cbn [from_S]. split; [now constructor|].
  rewrite lenN_app. lia.
Qed.
Lemma broken_storage n : exists d w, storage_at (broken_store (S n)) d w /\ lenN w = N.of_nat (S n).
Proof.
  destruct (inner_properties (S n)) as (ds & w & H & L). do 2 eexists. split; [|exact L].
  apply (storage_read _ false (from_S inner (S n)) ds w).
  - rewrite broken_len. lia.
  - split; [discriminate|]. rewrite broken_S. intros E. vm_compute in E. discriminate E.
  - apply inner_elements.
  - exact H.
Qed.
Lemma broken_storages n : exists ds w, each storage_at (from_S broken_store n) ds w /\ 2 * lenN w = N.of_nat n * (N.of_nat n + 1).
Proof.
  induction n as [|n (ds & w & H & L)]; [exists [], []; split; [constructor|reflexivity]|].
  destruct (broken_storage n) as (d & w1 & H1 & L1). exists (d :: ds), (w1 ++ w). cbn [from_S]. split; [now constructor|].
  rewrite lenN_app, L1. nia.
Qed.

Lemma broken_file_len n : lenN (broken_file n) = 64 * N.of_nat n + 128.
Proof.
  unfold broken_file. rewrite !lenN_app, !lenN_enc32, broken_len. change (lenN (encode_header (plain_header 0))) with 76. lia.
Qed.
Section Broken.
  Variables (n : nat) (cp : cp_arg) (allow : bool).
  Hypotheses (Hcp : usable cp) (L : 64 * N.of_nat n + 48 < 2 ^ 32).
  Let b := broken_file n.
  Let raw : bytes := encode_block (0xA0000009, broken_store n).

  Lemma broken_parts : b = encode_header (plain_header 0) ++ encode_blocks [(0xA0000009, broken_store n)] ++ enc32 0 ++ [].
  Proof.
    unfold b, broken_file, encode_blocks, encode_block. cbn [flat_map fst snd]. rewrite broken_len, !app_nil_r.
    replace (8 + (64 * N.of_nat n + 40)) with (64 * N.of_nat n + 48) by lia. now rewrite <- !app_assoc.
  Qed.
  Lemma broken_fits : Forall block_fits [(0xA0000009, broken_store n)].
  Proof. constructor; [|constructor]. split; [unfold fits32; cbn; lia|]. cbn [snd]. rewrite broken_len. lia. Qed.
  Lemma broken_ends : string_data_end b = 76.
  Proof. rewrite broken_parts. apply plain_string_end. Qed.
  Lemma broken_rest : dropN (string_data_end b) b = encode_blocks [(0xA0000009, broken_store n)] ++ enc32 0 ++ [].
  Proof. rewrite broken_ends, broken_parts. now apply dropN_app_exact. Qed.
  Lemma broken_bits i : bit_set i b = false.
  Proof. rewrite broken_parts. apply plain_bits. Qed.
  Lemma broken_walk : block_walk (dropN (string_data_end b) b) [(0xA0000009, raw)] (enc32 0).
  Proof. rewrite broken_rest, app_nil_r. rewrite <- (app_nil_r (enc32 0)) at 2. apply (walk_encoded _ _ [] _ broken_fits). exact (walk_terminal []). Qed.
  Lemma raw_len : lenN raw = 64 * N.of_nat n + 48.
  Proof. unfold raw. rewrite lenN_block. cbn [snd]. rewrite broken_len. lia. Qed.
  Lemma raw_rest : dropN 8 raw = broken_store n.
  Proof. unfold raw, encode_block. cbn [fst snd]. rewrite app_assoc. now apply dropN_app_exact. Qed.

  Lemma broken_reported l : snd (lnk_init (FromBytes b) cp allow) = Ok l ->
    exists said d, get_json l true = (said, Ok d) /\ 2 * lenN said = N.of_nat n * (N.of_nat n + 1).
  Proof.
    intros Hl. destruct (broken_storages n) as (ds & w & HS & HL).
    destruct (read_time (h_ctime (plain_header 0)) ltac:(apply plain_wf)) as (c & _ & Rc).
    assert (E0 : has_id_list b = false) by apply broken_bits.
    assert (EI : info_processed b = false) by (unfold info_processed; now rewrite broken_bits).
    assert (H76 : header_len b = 76) by (rewrite broken_parts; now rewrite (header_len_encode _ _ plain_wf)).
    assert (HSW : string_walk b string_fields (info_end b) [] (string_data_end b) false).
    { unfold string_data_end, string_slots. cbn [strings_end]. rewrite !broken_bits.
      unfold string_fields. repeat (apply string_absent; [apply broken_bits|]). constructor. }
    assert (HB : blocks_read cp [(0xA0000009, raw)] [("METADATA_PROPERTIES_BLOCK"%string, [("size", number_at 4 0 raw); ("property_store", PList (map PDict ds))]%string)] (w ++ [])).
    { apply (block_kept cp 0xA0000009 raw []); [|constructor]. apply (store_read cp 0xA0000009 raw (from_S broken_store n)); [reflexivity| |exact HS].
      rewrite raw_rest. apply broken_elements. }
    assert (HR : report_outcome b None).
    { apply (blocks_decide b [(0xA0000009, raw)] (enc32 0) None); [unfold header_whole; rewrite H76; unfold b; rewrite broken_file_len; lia| | |exact broken_walk|].
      - unfold items_whole. rewrite E0. discriminate.
      - unfold info_whole. rewrite EI. discriminate.
      - apply block_passes; [|constructor]. intros e H. inversion H; discriminate. }
    assert (HX : exists d, whole_report b cp allow d
      (clsid_warning (plain_header 0) ++ time_said 0 c ++ time_said 0 c ++ time_said 0 c ++ size_warning (plain_header 0) ++ reserved_warnings (plain_header 0)
       ++ [] ++ (if info_processed b then info_warnings cp (negb (N.testbit (num 4 8 (dropN (id_list_end b) b)) 0)) (dropN (id_list_end b) b) else []) ++ w ++ [])).
    { eexists. eapply (whole b cp allow (plain_header 0)); try reflexivity; try exact Rc; try exact plain_wf; try exact broken_parts;
        [rewrite E0; split; reflexivity|exact HSW|exact broken_walk|exact HB]. }
    destruct HX as (d & HX). eexists _, d. split; [apply (complete_iff b cp allow l Hcp Hl _ (Ok d)); split; [exact HR|exact HX]|].
    rewrite EI. rewrite !lenN_app. 
    replace (lenN (time_said 0 c)) with 0 by (unfold time_said; destruct c; reflexivity).
    change (lenN (clsid_warning (plain_header 0))) with 0. change (lenN (size_warning (plain_header 0))) with 0.
    change (lenN (reserved_warnings (plain_header 0))) with 0. nil0. rewrite !N.add_0_l, N.add_0_r. exact HL.
  Qed.
  Lemma broken_many all : exists l d, snd (lnk_init (FromBytes b) cp allow) = Ok l /\ snd (get_json l all) = Ok d
    /\ 2 * lenN (fst (get_json l all)) = N.of_nat n * (N.of_nat n + 1).
  Proof.
    assert (H76 : header_len b = 76) by (rewrite broken_parts; now rewrite (header_len_encode _ _ plain_wf)).
    assert (HL : lenN b = 64 * N.of_nat n + 128) by apply broken_file_len.
    destruct (terminal_zero_init b cp allow _ [] Hcp broken_fits ltac:(lia) ltac:(lia)) as (l & Hl).
    { unfold has_id_list. rewrite broken_bits. discriminate. }
    { exact broken_rest. }
    destruct (broken_reported l Hl) as (said & d & HG & HS). exists l.
    assert (HA : exists d', snd (get_json l all) = Ok d').
    { apply (proj1 (report_exact_iff b cp allow l all Hcp Hl)). apply (proj1 (report_exact_iff b cp allow l true Hcp Hl)). exists d. now rewrite HG. }
    destruct HA as (d' & HA). exists d'. split; [exact Hl|]. split; [exact HA|]. rewrite warnings_all, HG. exact HS.
  Qed.
End Broken.

Lemma no_linear_warnings cp allow all k : usable cp -> k <= 2 ^ 18 ->
  exists b l d, snd (lnk_init (FromBytes b) cp allow) = Ok l /\ snd (get_json l all) = Ok d
    /\ k * lenN b < lenN (fst (get_json l all)).
Proof.
  intros Hcp HK. change (2 ^ 18) with 262144 in HK. set (n := N.to_nat (128 * k + 10)).
  assert (E : N.of_nat n = 128 * k + 10) by (unfold n; lia).
  destruct (broken_many n cp allow Hcp ltac:(rewrite E; change (2 ^ 32) with 4294967296; lia) all) as (l & d & H1 & H2 & H3).
  exists (broken_file n), l, d. split; [exact H1|]. split; [exact H2|]. rewrite broken_file_len, E in *. nia.
Qed.
