(** * Asking blocks for single fields (C74) *)
From Verif Require Import ApiProofs ShapeProofs ReportProofs CommandProofs.
From Verif Require Import Lemmas PyTime Codec Utils Sha256 Header StringData Targets Info Extra LnkFile Json Report.
From Verif Require Import Spec SpecText SpecHeader SpecTime SpecItems SpecInfo SpecExtra SpecCommand SpecOutcome SpecEntries SpecBlocks SpecFailure SpecRun.
From Verif Require Import OutcomeProofs LayoutProofs CoreProofs FormatProofs EncProofs TextProofs HeaderProofs StringProofs ItemProofs ExtraProofs ExtraListProofs.
From Verif Require Import EntryProofs AnyBlockProofs TriedProofs ExactProofs FailureProofs.
From Verif Require Import Walk SpecWalk WalkItemProofs WalkBlockProofs Pieces SpecPieces PiecesProofs.

(** ** Fields *)
Lemma value_of (m : M N) : value_read (n <- m ;; ret (PN n)) = number_read m.
Proof. unfold value_read, number_read. rewrite bind_assoc. reflexivity. Qed.
Lemma u16_model i raw : value_read (u16_field i raw) = number 2 i raw.
Proof. unfold u16_field, unpack_u16. rewrite value_of. apply number_model; lia. Qed.
Lemma u32_model i raw : value_read (u32_field i raw) = number 4 i raw.
Proof. unfold u32_field, unpack_u32. rewrite value_of. apply number_model; lia. Qed.
Lemma i16_model i raw : value_read (i16_field i raw) = signed_number i raw.
Proof.
  unfold signed_number, have. destruct (N.leb_spec (i + 2) (lenN raw)) as [L|L]; unfold value_read.
  - now rewrite i16_row by assumption.
  - unfold i16_field, unpack_i16. now rewrite cut_at by lia.
Qed.
Lemma uuid_model i raw : value_read (uuid_field i raw) = guid_there i raw.
Proof.
  unfold guid_there, have. destruct (N.leb_spec (i + 16) (lenN raw)) as [L|L]; unfold value_read.
  - now rewrite uuid_row by assumption.
  - unfold uuid_field. now rewrite guid_cut by lia.
Qed.
Lemma str_model cp i j raw : usable cp -> value_read (str_field cp i j raw) = page_there cp (slice i j raw).
Proof. intros Hcp. unfold value_read. rewrite str_row by assumption. cbn. now rewrite app_nil_r. Qed.
Lemma ustr_model i j raw : value_read (ustr_field i j raw) = wide_there (slice i j raw).
Proof. unfold value_read. rewrite ustr_row. cbn. now rewrite app_nil_r. Qed.

Lemma console_model raw m : ask_console raw m = console_field raw m.
Proof.
  destruct m; cbn [ask_console console_field]; try reflexivity;
    first [apply u16_model|apply u32_model|apply i16_model|apply ustr_model].
Qed.
Lemma checked_model name e i j raw : j = i + 4 ->
  number_read (must_be_N name e (unpack_u32 (slice i j raw))) = have j raw (must_be name (num 4 i raw =? e), Ok (Plain (PN (num 4 i raw)))).
Proof.
  intros ->. unfold number_read, unpack_u32, have. destruct (N.leb_spec (i + 4) (lenN raw)) as [L|L].
  - rewrite read_at by lia. rewrite must_be_N_ret, bind_Ok. cbn. now rewrite app_nil_r.
  - unfold must_be_N. now rewrite cut_at by lia.
Qed.
Lemma tracker_model cp raw m : usable cp -> ask_tracker cp raw m = tracker_field cp raw m.
Proof.
  intros Hcp. destruct m; cbn [ask_tracker tracker_field]; try reflexivity;
    first [apply uuid_model|now apply str_model|now apply checked_model].
Qed.
Lemma packed_model t : parse_packed_uuid t = ([], if 20 <=? lenN t then Ok (unpacked_guid t) else Err IndexError).
Proof. destruct (N.leb_spec 20 (lenN t)) as [L|L]; [now rewrite unpack_says|now rewrite packed_short]. Qed.
Lemma darwin_model cp raw m : usable cp -> ask_darwin cp raw m = darwin_field cp raw m.
Proof.
  intros Hcp. unfold darwin_field. cbv zeta. set (t := wide_text (slice 268 788 raw)). set (w := wide_warning (slice 268 788 raw)).
  assert (HU : darwin_data_unicode raw = (w, Ok t)) by apply read_unicode_field.
  destruct m; cbn [ask_darwin]; try reflexivity.
  - now apply str_model.
  - unfold text_read. rewrite HU. cbn. now rewrite app_nil_r.
  - unfold text_read, product_code_id, unpacked. rewrite HU, bind_Ok. unfold slice. rewrite dropN_0, packed_model.
    destruct (20 <=? _); cbn; now rewrite !app_nil_r.
  - unfold feature_name. rewrite HU. cbn [bind]. rewrite !find_char_position by lia. unfold feature_end.
    assert (HX : forall n : N, (if n =? 20 then PNone else PStr (slice 20 n t)) = match n with 20 => PNone | _ => PStr (slice 20 n t) end).
    { intros n. destruct (N.eqb_spec n 20) as [->|E]; [reflexivity|].
      repeat (destruct n as [|n]; try reflexivity; repeat match goal with |- context [match ?p with _ => _ end] => destruct p; try reflexivity end). now destruct E. }
    assert (HY : forall z n, z = Z.of_N n -> (if (z =? 20)%Z then ret None else if (z <? 0)%Z then ret (Some (slice 20 (lenN t - 1) t)) else ret (Some (slice 20 (Z.to_N z) t)))
        = ret (if n =? 20 then None else Some (slice 20 n t))).
    { intros z n ->. destruct (N.eqb_spec n 20) as [->|E]; [reflexivity|]. replace (Z.of_N n =? 20)%Z with false by lia.
      replace (Z.of_N n <? 0)%Z with false by lia. now rewrite N2Z.id. }
    destruct (position 62 t) as [i|], (position 60 t) as [j|].
    + rewrite (HY _ (N.max i j)) by lia. rewrite <- HX. cbn. rewrite !app_nil_r. now destruct (N.max i j =? 20).
    + rewrite (HY _ i) by lia. rewrite <- HX. cbn. rewrite !app_nil_r. now destruct (i =? 20).
    + rewrite (HY _ j) by lia. rewrite <- HX. cbn. rewrite !app_nil_r. now destruct (j =? 20).
    + cbn. now rewrite !app_nil_r.
  - unfold component_id. rewrite HU. cbn [bind]. rewrite find_char_position by lia. destruct (position 62 t) as [n|].
    + replace (0 + Z.of_N n =? -1)%Z with false by lia. replace (Z.to_N (0 + Z.of_N n + 1)) with (n + 1) by lia.
      rewrite packed_model. unfold unpacked. destruct (20 <=? _); cbn; now rewrite ?app_nil_r.
    + change (-1 =? -1)%Z with true. cbn. now rewrite !app_nil_r.
Qed.

Lemma field_sig cp signature raw m : block_field cp signature raw m =
  match class_of_sig signature with
  | Environment | Icon =>
    match m with TargetAnsi => page_there cp (slice 8 268 raw) | TargetUnicode => wide_there (slice 268 788 raw) | _ => no_such_method end
  | Console => console_field raw m | DistributedTracker => tracker_field cp raw m
  | CodePage => match m with CodePageNumber => number 4 8 raw | _ => no_such_method end
  | SpecialFolder => match m with SpecialFolderId => number 4 8 raw | Offset => number 4 12 raw | _ => no_such_method end
  | Darwin => darwin_field cp raw m
  | ShimLayer => match m with LayerName => page_there cp (dropN 8 raw) | _ => no_such_method end
  | Metadata => match m with StoreSize => number 4 4 raw | _ => no_such_method end
  | KnownFolder => match m with KnownFolderId => guid_there 8 raw | Offset => number 4 24 raw | _ => no_such_method end
  | ShellItem => no_such_method
  | _ => match m with ExtraBytes => ([], Ok (Raw (dropN 4 raw))) | _ => no_such_method end
  end.
Proof.
  unfold block_field. etransitivity; [refine (sig_choice_class (A := reply) signature _ _ _ _ _ _ _ _ _ _ _ _)|].
  destruct (class_of_sig signature); reflexivity.
Qed.
Lemma sig_shell signature : class_of_sig signature = ShellItem <-> signature = 0xA000000C.
Proof. split; [|now intros ->]. intros E. pose proof (class_sig signature) as H. now rewrite E in H. Qed.
Lemma sig_store signature : class_of_sig signature = Metadata <-> signature = 0xA0000009.
Proof. split; [|now intros ->]. intros E. pose proof (class_sig signature) as H. now rewrite E in H. Qed.
Lemma block_field_model cp signature raw m : usable cp -> signature <> 0xA000000C \/ m <> IdList ->
  ask_block_method cp (Extra (class_of_sig signature) raw) m = block_field cp signature raw m.
Proof.
  intros Hcp HN. rewrite field_sig. unfold ask_block_method. cbn [ex_class ex_raw]. cbv zeta. pose proof (sig_shell signature) as HS.
  pose proof (class_sig signature) as HC.
  destruct (class_of_sig signature); try contradiction;
    try (destruct m; cbn [ask_location]; try reflexivity;
      first [now apply str_model|apply ustr_model|apply u32_model|apply uuid_model|now apply page_model]).
  - apply console_model.
  - now apply tracker_model.
  - now apply darwin_model.
  - destruct m; try reflexivity. exfalso. destruct HN as [HN|HN]; [apply HN; now apply HS|now apply HN].
Qed.

(** ** Property stores *)
Lemma typed_model v q : q <> ValueSize -> ask_typed v q = typed_field v q.
Proof.
  intros _. assert (HV : value_read (tv_value v) = typed_field v TypedValue).
  { unfold value_read, tv_value, tv_value_padding, tv_value_type, unpack_u16. cbn [typed_field]. rewrite bind_assoc.
    apply first_read; [lia|reflexivity| |]; intros L; [rewrite have_yes by lia|now rewrite have_no by lia].
    destruct (num 2 2 v =? 0) eqn:E; cbn [negb]; [|reflexivity].
    rewrite !read_at by lia. rewrite !bind_ret_l. destruct (num 2 0 v =? 2) eqn:E2.
    { unfold unpack_i32. rewrite unpack_le_bad by (rewrite lenN_slice; lia). reflexivity. }
    destruct (num 2 0 v =? 31) eqn:E3; [|reflexivity]. unfold unpack_u32. rewrite bind_assoc.
    apply first_read; [lia|reflexivity| |]; intros L8; [rewrite have_yes by lia|now rewrite have_no by lia].
    rewrite (N.mul_comm _ 2). rewrite bind_assoc. rewrite read_unicode_field. cbn. now rewrite app_nil_r. }
  destruct q; try exact HV; unfold ask_typed, typed_field, tv_value_type, tv_value_padding, unpack_u16; now apply number_model.
Qed.
Lemma property_model (named : bool) p q said r : property_gives named p q said r -> ask_property named p q = (said, r).
Proof.
  destruct 1 as [said r ->|said r ->|said r ->|said r ->|q said r HI ->|d w HP|w HP]; cbn [ask_property].
  - unfold pv_value_size, unpack_u32. now apply number_model.
  - destruct named; [reflexivity|apply u32_model].
  - destruct named; [|reflexivity]. unfold sn_name_size, unpack_u32. now apply number_model.
  - destruct named; [|reflexivity]. unfold text_read, sn_value_offset, sn_name_size, unpack_u32. rewrite !bind_assoc.
    apply first_read; [lia|reflexivity| |]; intros L; [rewrite have_yes by lia|now rewrite have_no by lia].
    rewrite bind_ret_l. apply wide_model.
  - assert (HQ : ask_property named p q = if named then o <- sn_value_offset p ;; ask_typed (dropN o p) q else ask_typed (dropN 9 p) q).
    { cbn [In] in HI. destruct HI as [<-|[<-|[<-|[]]]]; reflexivity. }
    assert (HV : q <> ValueSize) by (intros ->; cbn in HI; intuition discriminate).
    rewrite HQ. destruct named; [|now apply typed_model].
    unfold sn_value_offset, sn_name_size, unpack_u32. rewrite !bind_assoc.
    apply first_read; [lia|reflexivity| |]; intros L; [rewrite have_yes by lia|now rewrite have_no by lia].
    rewrite bind_ret_l. now apply typed_model.
  - unfold dict_read. rewrite (proj1 (property_settles named p) _ _ HP), bind_Ok. cbn. now rewrite app_nil_r.
  - unfold dict_read. destruct (proj1 (property_tries named p) _ HP) as (e & _ & HE).
    pose proof (property_raises named p (proj1 HP)) as HR. rewrite HE in HR |- *. cbn in HR. injection HR as ->. reflexivity.
Qed.
Lemma property_total (named : bool) p q : exists said r, property_gives named p q said r.
Proof.
  destruct q.
  - do 2 eexists. apply gives_value_size. now rewrite <- surjective_pairing.
  - do 2 eexists. apply gives_id. now rewrite <- surjective_pairing.
  - do 2 eexists. apply gives_name_size. now rewrite <- surjective_pairing.
  - do 2 eexists. apply gives_property_name. now rewrite <- surjective_pairing.
  - destruct ((if named then string_name_dict else integer_name_dict) p) as [w [d|e]] eqn:E.
    + destruct (proj2 (property_settles named p) d) as (d' & w' & H); [now rewrite E|]. do 2 eexists. exact (gives_property named p d' w' H).
    + destruct (property_settles named p) as [HS _].
      assert (HR : snd ((if named then string_name_dict else integer_name_dict) p) = Err (property_error named p)).
      { apply property_raises. intros d w' H. apply HS in H. rewrite H in E. discriminate E. }
      destruct (proj2 (property_tries named p) (property_error named p)) as [w' H]; [exact HR| |].
      { unfold property_error, value_error. destruct (8 <=? _); [|reflexivity]. destruct (_ && _); reflexivity. }
      do 2 eexists. exact (gives_no_property named p w' H).
  - do 2 eexists. apply gives_typed; [cbn; tauto|now rewrite <- surjective_pairing].
  - do 2 eexists. apply gives_typed; [cbn; tauto|now rewrite <- surjective_pairing].
  - do 2 eexists. apply gives_typed; [cbn; tauto|now rewrite <- surjective_pairing].
Qed.

Lemma values_model s ps named : 24 <= lenN s -> SpecBlocks.elements (dropN 24 s) ps -> (named = true <-> slice 8 24 s = named_format) ->
  serialized_property_values s = ret (named, ps).
Proof.
  intros L HE HN. unfold serialized_property_values, ps_format_id. rewrite guid_at, bind_ret_l by lia. cbv zeta.
  rewrite (elements_sound _ _ HE) by apply length_drop. rewrite bind_ret_l. now rewrite (storage_named s named L HN).
Qed.
Lemma values_cut s : lenN s < 24 \/ (forall ps, ~ SpecBlocks.elements (dropN 24 s) ps) -> serialized_property_values s = raise StructError.
Proof.
  intros H. unfold serialized_property_values, ps_format_id. destruct (N.lt_ge_cases (lenN s) 24) as [L|L]; [rewrite guid_cut; [reflexivity|reflexivity|lia]|].
  destruct H as [H|H]; [lia|]. rewrite guid_at, bind_ret_l by lia. cbv zeta. rewrite elements_fail; [reflexivity|apply length_drop|exact H].
Qed.
Lemma naming s : exists named : bool, named = true <-> slice 8 24 s = named_format.
Proof.
  destruct (list_eq_dec Byte.byte_eq_dec (slice 8 24 s) named_format) as [E|E]; [now exists true|]. exists false. split; [discriminate|now intros H].
Qed.
Lemma storage_model s q said r : storage_gives s q said r -> ask_storage s q = (said, r).
Proof.
  destruct 1 as [said r ->|said r ->|said r ->|d w HS|w e HT HE|q HQ HC|ps L HE|ps j q L HE HJ|ps j p q named said r L HE HJ HN HG]; cbn [ask_storage].
  - apply u32_model.
  - unfold unpack_u32. apply first_read; [lia|reflexivity| |]; intros L; [now rewrite have_yes by lia|now rewrite have_no by lia].
  - unfold ps_format_id. now apply guid_model.
  - unfold dict_read. rewrite (proj1 (storage_settles s) _ _ HS), bind_Ok. cbn. now rewrite app_nil_r.
  - unfold dict_read. destruct (proj1 (storage_tries s) _ HT) as (x & _ & HX). pose proof (storage_raises s e HE) as HR.
    rewrite HX in HR |- *. cbn in HR. injection HR as ->. reflexivity.
  - destruct HQ as [->|(j & pq & ->)]; cbn [ask_storage]; now rewrite values_cut by exact HC.
  - destruct (naming s) as [named HN]. now rewrite (values_model s ps named L HE HN).
  - destruct (naming s) as [named HN]. rewrite (values_model s ps named L HE HN), bind_ret_l. cbn [snd]. now rewrite HJ.
  - rewrite (values_model s ps named L HE HN), bind_ret_l. cbn [fst snd]. rewrite HJ. now apply property_model.
Qed.
Lemma storage_total s q : exists said r, storage_gives s q said r.
Proof.
  assert (HP : forall q, q = HowManyProperties \/ (exists j pq, q = Property j pq) ->
    (exists said r, storage_gives s q said r) \/ (24 <= lenN s /\ exists ps, SpecBlocks.elements (dropN 24 s) ps)).
  { intros q0 HQ. destruct (N.lt_ge_cases (lenN s) 24) as [L|L]; [left; do 2 eexists; apply properties_cut; [exact HQ|now left]|].
    destruct (elements_either (dropN 24 s)) as [HE|HE]; [right; now split|]. left. do 2 eexists. apply properties_cut; [exact HQ|now right]. }
  destruct q as [| | | | |j q].
  - do 2 eexists. apply gives_storage_size. now rewrite <- surjective_pairing.
  - do 2 eexists. apply gives_version. now rewrite <- surjective_pairing.
  - do 2 eexists. apply gives_format. now rewrite <- surjective_pairing.
  - destruct (storage_dict s) as [w [d|e]] eqn:E.
    + destruct (proj2 (storage_settles s) d) as (d' & w' & H); [now rewrite E|]. do 2 eexists. exact (gives_storage s d' w' H).
    + assert (HK : is_struct_or_value_error e = true).
      { apply (r_storage_dict (fun e => is_struct_or_value_error e = true) eq_refl eq_refl s). now rewrite E. }
      destruct (proj2 (storage_tries s) e) as [w' H]; [now rewrite E|exact HK|].
      destruct (storage_error_exists s w' H) as [x HX]. do 2 eexists. exact (gives_no_storage s w' x H HX).
  - destruct (HP HowManyProperties) as [H|[L [ps HE]]]; [now left|exact H|]. do 2 eexists. exact (properties_counted s ps L HE).
  - destruct (HP (Property j q)) as [H|[L [ps HE]]]; [right; eauto|exact H|].
    destruct (nth_error ps j) as [p|] eqn:EJ; [|do 2 eexists; exact (property_missing s ps j q L HE EJ)].
    destruct (naming s) as [named HN]. destruct (property_total named p q) as (said & r & HG).
    do 2 eexists. exact (property_asked s ps j p q named said r L HE EJ HN HG).
Qed.

(** ** Any block *)
Section Blocks.
  Variable cp : cp_arg.
  Hypothesis Hcp : usable cp.

  Lemma block_model signature raw q said r : 4 <= lenN raw -> block_gives cp signature raw q said r ->
    ask_block cp (Extra (class_of_sig signature) raw) q = (said, r).
  Proof.
    intros L. destruct 1 as [m said r HN ->|entries w -> HE|e w -> HE|q HN HQ|q -> HQ HE|ss -> HE|ss i q -> HE HI|ss i s q said r -> HE HI HG].
    - now apply block_field_model.
    - cbn [ask_block]. unfold ask_block_method. cbn [class_of_sig ex_class ex_raw]. cbv zeta. rewrite base_size_num, bind_ret_l by assumption.
      rewrite (entries_of cp Hcp _ _ _ HE), bind_Ok. cbn. now rewrite app_nil_r.
    - cbn [ask_block]. unfold ask_block_method. cbn [class_of_sig ex_class ex_raw]. cbv zeta. rewrite base_size_num, bind_ret_l by assumption.
      now rewrite (tried_of cp Hcp _ _ _ HE).
    - destruct q as [m| |i q]; [now destruct (HQ m)| |]; cbn [ask_block ex_class ex_raw];
        pose proof (sig_store signature) as HS; destruct (class_of_sig signature); try reflexivity; exfalso; apply HN, HS; reflexivity.
    - destruct q as [m| |i q]; [now destruct (HQ m)| |]; cbn [ask_block ex_class ex_raw class_of_sig];
        (rewrite elements_fail; [reflexivity|apply length_drop|exact HE]).
    - cbn [ask_block ex_class ex_raw class_of_sig]. now rewrite (elements_sound _ _ HE) by apply length_drop.
    - cbn [ask_block ex_class ex_raw class_of_sig]. rewrite (elements_sound _ _ HE) by apply length_drop. rewrite bind_ret_l. now rewrite HI.
    - cbn [ask_block ex_class ex_raw class_of_sig]. rewrite (elements_sound _ _ HE) by apply length_drop. rewrite bind_ret_l, HI.
      now apply storage_model.
  Qed.
  Lemma block_total signature raw q : 4 <= lenN raw -> exists said r, block_gives cp signature raw q said r.
  Proof.
    intros L. destruct q as [m| |i q].
    - destruct (N.eq_dec signature 0xA000000C) as [E|E].
      + assert (HM : m = IdList \/ m <> IdList) by (destruct m; (now left) || (right; discriminate)).
        destruct HM as [->|HM]; [|do 2 eexists; apply gives_field; [now right|now rewrite <- surjective_pairing]].
        destruct (items_outcome_total (slice 8 (num 4 0 raw) raw)) as [[e|] Ho].
        * destruct (tried_total cp _ _ e Ho eq_refl) as [w HW]. do 2 eexists. exact (gives_no_id_list cp signature raw e w E HW).
        * destruct (entries_total cp _ _ Ho eq_refl) as (en & sa & HE). do 2 eexists. exact (gives_id_list cp signature raw en sa E HE).
      + do 2 eexists. apply gives_field; [now left|now rewrite <- surjective_pairing].
    - destruct (N.eq_dec signature 0xA0000009) as [E|E]; [|do 2 eexists; apply no_store; [exact E|discriminate]].
      destruct (elements_either (dropN 8 raw)) as [[ss HE]|HE]; [do 2 eexists; exact (storages_counted cp signature raw ss E HE)|].
      do 2 eexists. apply store_is_cut; [exact E|discriminate|exact HE].
    - destruct (N.eq_dec signature 0xA0000009) as [E|E]; [|do 2 eexists; apply no_store; [exact E|discriminate]].
      destruct (elements_either (dropN 8 raw)) as [[ss HE]|HE]; [|do 2 eexists; apply store_is_cut; [exact E|discriminate|exact HE]].
      destruct (nth_error ss i) as [s|] eqn:EI; [|do 2 eexists; exact (storage_missing cp signature raw ss i q E HE EI)].
      destruct (storage_total s q) as (said & r & HG). do 2 eexists. exact (storage_asked cp signature raw ss i s q said r E HE EI HG).
  Qed.
  Lemma part_model_of p q said r : part_ok p -> part_says cp p q said r -> ask_block cp (extra_of p) q = (said, r).
  Proof.
    intros HP. destruct 1 as [signature raw q said r H|x|x q HN]; cbn [part_ok extra_of] in *.
    - now apply block_model.
    - reflexivity.
    - destruct q as [m| |i q]; try reflexivity. cbn [ask_block]. unfold ask_block_method. cbn [ex_class]. destruct m; try reflexivity. now destruct HN.
  Qed.
  Lemma part_asked p q : part_ok p -> exists said r, part_says cp p q said r.
  Proof.
    destruct p as [signature raw|x]; cbn [part_ok]; intros L.
    - destruct (block_total signature raw q L) as (said & r & H). do 2 eexists. apply of_a_block. exact H.
    - assert (HQ : q = BlockField AppendedBytes \/ q <> BlockField AppendedBytes).
      { destruct q as [m| |i q]; try (right; discriminate). destruct m; (now left) || (right; discriminate). }
      destruct HQ as [->|HQ]; do 2 eexists; [apply of_the_bytes_behind|now apply of_nothing_else].
  Qed.
  Lemma part_iff p q said r : part_ok p -> part_says cp p q said r <-> ask_block cp (extra_of p) q = (said, r).
  Proof.
    intros HP. split; [now apply part_model_of|]. intros H. destruct (part_asked p q HP) as (said' & r' & H').
    pose proof (part_model_of p q said' r' HP H') as H2. rewrite H in H2. now injection H2 as -> ->.
  Qed.
End Blocks.
