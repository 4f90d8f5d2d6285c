(** * Asking for single fields (C72) *)
From Verif Require Import ApiProofs ShapeProofs ReportProofs CommandProofs.
From Verif Require Import Lemmas PyTime Codec Utils Sha256 Header StringData Targets Info Extra LnkFile Json Report.
From Verif Require Import Spec SpecText SpecHeader SpecTime SpecDouble SpecItems SpecInfo SpecExtra SpecOutcome SpecEntries SpecBlocks SpecWhole SpecFailure SpecReadable.
From Verif Require Import OutcomeProofs LayoutProofs CoreProofs FormatProofs EncProofs TextProofs HeaderProofs StringProofs.
From Verif Require Import ConstructProofs ExtraProofs ExtraListProofs AnyBlockProofs InfoProofs HeaderFileProofs EntryProofs TriedProofs WholeProofs FailureProofs ExactProofs ReadableProofs.
From Verif Require Import Fields SpecFields.

(** ** The header *)
Lemma num_at w i j h : num w i (dropN j h) = num w (j + i) h.
Proof. unfold num. now rewrite dropN_dropN. Qed.
Lemma num_at0 w j h : num w 0 (dropN j h) = num w j h.
Proof. rewrite num_at. f_equal. lia. Qed.

Lemma show_at h : 64 <= lenN h -> window_style h = ret (show_text (num 4 60 h)).
Proof.
  intros L. unfold window_style, unpack_i32. rewrite read_at by lia. rewrite !bind_ret_l.
  pose proof (num_lt 4 60 h) as B. change (256 ^ 4) with 4294967296 in B. set (n := num 4 60 h) in *. unfold show_text, signed.
  change (2 ^ (32 - 1)) with 2147483648. change (2 ^ 32) with 4294967296.
  destruct (n <? 2147483648) eqn:E.
  - replace (Z.of_N n <? 0)%Z with false by lia. rewrite N2Z.id. unfold WINDOW_STYLES. cbn [assocN].
    destruct (n =? 1) eqn:E1; [replace (n =? 3) with false by lia; replace (n =? 7) with false by lia; reflexivity|].
    destruct (n =? 3); [reflexivity|]. destruct (n =? 7); reflexivity.
  - replace (Z.of_N n - Z.of_N 4294967296 <? 0)%Z with true by lia.
    replace (n =? 3) with false by lia; replace (n =? 7) with false by lia. reflexivity.
Qed.
Lemma hot_key_at h : 66 <= lenN h -> hot_key h = ret (hot_key_text (n2b (num 1 64 h)) (n2b (num 1 65 h))).
Proof.
  intros L. pose proof (one_byte 64 h ltac:(lia)) as A. pose proof (one_byte 65 h ltac:(lia)) as B.
  assert (E : slice 64 66 h = [n2b (num 1 64 h); n2b (num 1 65 h)]).
  { unfold slice. rewrite <- (next_piece 64 1 h), <- A. change (64 + 1) with 65. rewrite <- (next_piece 65 1 h), <- B. rewrite app_assoc. now apply takeN_app_exact. }
  unfold hot_key. rewrite E. unfold hot_key_text. rewrite <- modifier_table, <- key_table, bytes_hex_low. cbn [flat_map]. rewrite app_nil_r.
  destruct (assocN (b2n (n2b (num 1 65 h))) _), (assocN (b2n (n2b (num 1 64 h))) _); reflexivity.
Qed.

Lemma hot_key_cut h : lenN h < 66 -> hot_key h = raise StructError.
Proof.
  intros L. unfold hot_key. cbv zeta. assert (E : lenN (slice 64 66 h) < 2) by (rewrite lenN_slice; lia).
  destruct (slice 64 66 h) as [|x [|y [|z r]]]; rewrite ?lenN_cons in E; try (exfalso; cbn in E; lia); reflexivity.
Qed.

Lemma header_model h m said r : header_gives h m said r -> ask_header h m = (said, r).
Proof.
  intros [start end_ f HP L HT ->|start end_ t o HP L HT -> HR|start end_ HP L].
  - destruct m; try discriminate HT; injection HP as <- <-; cbn [ask_header header_value header_said];
      unfold header_size, link_flags, r_link_flags, file_flags, r_file_flags, file_size, icon_index, raw_hot_key, reserved0, reserved1, reserved2,
        unpack_i32, unpack_u32, unpack_u16;
      rewrite ?num_at, ?N.add_0_r, ?N.add_0_l; rewrite ?dropN_0.
    all: try (rewrite read_at by lia; rewrite ?bind_ret_l, ?must_be_N_ret; reflexivity).
    all: try (rewrite read_at by lia; rewrite !bind_ret_l, ?link_flag_names, ?file_flag_names; reflexivity).
    all: try (unfold link_cls_id; rewrite guid_at by lia; rewrite must_be_text_ret; rewrite bind_Ok; cbn; rewrite app_nil_r; reflexivity).
    all: try (rewrite show_at by lia; reflexivity).
    all: try (rewrite hot_key_at by lia; reflexivity).
    all: rewrite read_at by lia; rewrite must_be_N_ret, bind_Ok; cbn; rewrite app_nil_r; reflexivity.
  - destruct m; try discriminate HT; injection HP as <- <-; cbn [ask_header]; unfold creation_time, access_time, write_time;
      rewrite (filetime_at _ _ h o) by (reflexivity || assumption); rewrite bind_Ok; cbn; now rewrite app_nil_r.
  - destruct m; injection HP as <- <-; cbn [ask_header];
      unfold header_size, link_flags, r_link_flags, file_flags, r_file_flags, file_size, icon_index, raw_hot_key, reserved0, reserved1, reserved2,
        window_style, creation_time, access_time, write_time, unpack_i32, unpack_u32, unpack_u16.
    all: try (rewrite cut_at by lia; reflexivity).
    all: try (unfold link_cls_id; rewrite guid_cut by lia; reflexivity).
    all: try (rewrite filetime_cut by lia; reflexivity).
    all: now rewrite hot_key_cut by lia.
Qed.
Lemma header_total h m : exists said r, header_gives h m said r.
Proof.
  destruct (header_place m) as [i j] eqn:E. destruct (N.lt_ge_cases (lenN h) j) as [L|L].
  { do 2 eexists. eapply header_cut_off; eassumption. }
  destruct (is_time m) eqn:T.
  - destruct (read_time (signed64 i h) (signed64_fits i h)) as (o & _ & HR). do 2 eexists. eapply header_time; eauto.
  - do 2 eexists. eapply header_there; eauto.
Qed.
Lemma header_iff h m said r : ask_header h m = (said, r) <-> header_gives h m said r.
Proof.
  split; [|apply header_model]. intros H. destruct (header_total h m) as (s & x & HG). pose proof (header_model _ _ _ _ HG) as E.
  rewrite E in H. now injection H as <- <-.
Qed.

(** ** The link info *)
Definition run_there (t : there) : M pyval := match t with There said v => (said, Ok v) | CutOff => raise StructError end.

Lemma within_true n raw t : n <= lenN raw -> within n raw t = t.
Proof. intros H. unfold within. now replace (n <=? lenN raw) with true by lia. Qed.
Lemma within_false n raw t : lenN raw < n -> within n raw t = CutOff.
Proof. intros H. unfold within. now replace (n <=? lenN raw) with false by lia. Qed.
Lemma number_run off raw : run_there (number_field off raw) = (n <- u32_at off raw ;; ret (PN n)).
Proof.
  unfold number_field. rewrite u32_eq. destruct (N.lt_ge_cases (lenN raw) (off + 4)) as [L|L].
  - rewrite within_false by assumption. now replace (off + 4 <=? lenN raw) with false by lia.
  - rewrite within_true by assumption. now replace (off + 4 <=? lenN raw) with true by lia.
Qed.
Lemma some_says {A} (m : M A) (f : A -> pyval) w a : m = (w, Ok a) -> (x <- (t <- m ;; ret (Some t)) ;; ret (POpt f x)) = (w, Ok (f a)).
Proof. intros ->. cbn. now rewrite !app_nil_r. Qed.

Section Info.
  Variables (cp : cp_arg) (raw : bytes).
  Hypothesis (Hcp : usable cp).

  Lemma base_run : run_there (info_field cp true raw IBase) = (t <- local_base_path cp raw ;; ret (POpt PStr t)).
  Proof.
    cbn [info_field]. unfold local_base_path, local_base_path_offset. rewrite !u32_eq. change (16 + 4) with 20.
    unfold within. destruct (20 <=? lenN raw); [|reflexivity]. rewrite !bind_ret_l. unfold if_set.
    destruct (num 4 16 raw =? 0); [reflexivity|]. cbn [run_there page_string]. symmetry. now apply some_says, read_page.
  Qed.
  Lemma suffix_run : run_there (info_field cp true raw ISuffix) = (t <- common_path_suffix cp raw ;; ret (POpt PStr t)).
  Proof.
    cbn [info_field]. unfold common_path_suffix, common_path_suffix_offset. rewrite !u32_eq. change (24 + 4) with 28.
    unfold within. destruct (28 <=? lenN raw); [|reflexivity]. rewrite !bind_ret_l. unfold if_set.
    destruct (num 4 24 raw =? 0); [reflexivity|]. cbn [run_there page_string]. symmetry. now apply some_says, read_page.
  Qed.
  Lemma opt_run : has_opt_fields raw = if 8 <=? lenN raw then ret (0x24 <=? num 4 4 raw) else raise StructError.
  Proof. unfold has_opt_fields, info_header_size. rewrite u32_eq. change (4 + 4) with 8. now destruct (8 <=? lenN raw). Qed.
  Lemma wide_base_offset_run :
    local_base_path_offset_unicode raw
    = if 8 <=? lenN raw then if 0x24 <=? num 4 4 raw then if 32 <=? lenN raw then ret (Some (num 4 28 raw)) else raise StructError else ret None
      else raise StructError.
  Proof.
    unfold local_base_path_offset_unicode. rewrite opt_run, u32_eq. change (28 + 4) with 32.
    destruct (8 <=? lenN raw); [|reflexivity]. rewrite bind_ret_l. destruct (0x24 <=? num 4 4 raw); [|reflexivity]. now destruct (32 <=? lenN raw).
  Qed.
  Lemma wide_suffix_offset_run :
    common_path_suffix_offset_unicode raw
    = if 8 <=? lenN raw then if 0x24 <=? num 4 4 raw then if 36 <=? lenN raw then ret (Some (num 4 32 raw)) else raise StructError else ret None
      else raise StructError.
  Proof.
    unfold common_path_suffix_offset_unicode. rewrite opt_run, u32_eq. change (32 + 4) with 36.
    destruct (8 <=? lenN raw); [|reflexivity]. rewrite bind_ret_l. destruct (0x24 <=? num 4 4 raw); [|reflexivity]. now destruct (36 <=? lenN raw).
  Qed.
  Lemma info_run k m : run_there (info_field cp (is_network k) raw m) = ask_info cp k raw m.
  Proof.
    destruct m; cbn [ask_info]; try apply number_run.
    - apply suffix_run.
    - cbn [info_field]. rewrite wide_base_offset_run. unfold if_wide, number_field, within. change (28 + 4) with 32.
      destruct (8 <=? lenN raw); [|reflexivity]. destruct (0x24 <=? num 4 4 raw); [|reflexivity]. now destruct (32 <=? lenN raw).
    - cbn [info_field]. rewrite wide_suffix_offset_run. unfold if_wide, number_field, within. change (32 + 4) with 36.
      destruct (8 <=? lenN raw); [|reflexivity]. destruct (0x24 <=? num 4 4 raw); [|reflexivity]. now destruct (36 <=? lenN raw).
    - apply base_run.
    - reflexivity.
    - cbn [info_field]. unfold local_base_path_unicode. rewrite wide_base_offset_run. unfold if_wide, within.
      destruct (8 <=? lenN raw); [|reflexivity]. destruct (0x24 <=? num 4 4 raw); [|reflexivity]. destruct (32 <=? lenN raw); [|reflexivity].
      rewrite !bind_ret_l. cbn [truthyN valN]. unfold if_set. destruct (num 4 28 raw =? 0); [reflexivity|]. cbn [negb run_there wide_string].
      symmetry. apply some_says, read_unicode_field.
    - cbn [info_field]. unfold common_path_suffix_unicode. rewrite wide_suffix_offset_run. unfold if_wide, within.
      destruct (8 <=? lenN raw); [|reflexivity]. destruct (0x24 <=? num 4 4 raw); [|reflexivity]. destruct (36 <=? lenN raw); [|reflexivity].
      rewrite !bind_ret_l. cbn [truthyN valN]. unfold if_set. destruct (num 4 32 raw =? 0); [reflexivity|]. cbn [negb run_there wide_string].
      symmetry. apply some_says, read_unicode_field.
    - destruct k; reflexivity.
  Qed.


  Lemma vol_run {A} (f : N -> M A) : bind (volume_id_offset raw) f = if 16 <=? lenN raw then f (num 4 12 raw) else raise StructError.
  Proof. unfold volume_id_offset. rewrite u32_eq. change (12 + 4) with 16. destruct (16 <=? lenN raw); [apply bind_ret_l|reflexivity]. Qed.
  Lemma net_run {A} (f : N -> M A) :
    bind (common_network_relative_link_offset raw) f = if 24 <=? lenN raw then f (num 4 20 raw) else raise StructError.
  Proof. unfold common_network_relative_link_offset. rewrite u32_eq. change (20 + 4) with 24. destruct (24 <=? lenN raw); [apply bind_ret_l|reflexivity]. Qed.
  Lemma u32_run {A} off (f : N -> M A) : bind (u32_at off raw) f = if off + 4 <=? lenN raw then f (num 4 off raw) else raise StructError.
  Proof. rewrite u32_eq. destruct (off + 4 <=? lenN raw); [apply bind_ret_l|reflexivity]. Qed.
  Lemma label_run {A} (f : N -> M A) :
    bind (volume_label_offset raw) f
    = if 16 <=? lenN raw then if num 4 12 raw + 16 <=? lenN raw then f (num 4 (num 4 12 raw + 12) raw) else raise StructError else raise StructError.
  Proof.
    unfold volume_label_offset. rewrite vol_run. destruct (16 <=? lenN raw); [|reflexivity]. rewrite u32_run. now rewrite <- N.add_assoc.
  Qed.
  Lemma name_run {A} (f : N -> M A) :
    bind (net_name_offset raw) f
    = if 24 <=? lenN raw then if num 4 20 raw + 12 <=? lenN raw then f (num 4 (num 4 20 raw + 8) raw) else raise StructError else raise StructError.
  Proof.
    unfold net_name_offset. rewrite net_run. destruct (24 <=? lenN raw); [|reflexivity]. rewrite u32_run. now rewrite <- N.add_assoc.
  Qed.
  Lemma drive_run : drive_type raw
    = if 16 <=? lenN raw then if num 4 12 raw + 8 <=? lenN raw then ret (drive_name (num 4 (num 4 12 raw + 4) raw)) else raise StructError else raise StructError.
  Proof.
    unfold drive_type, r_drive_type. rewrite !vol_run. destruct (16 <=? lenN raw); [|reflexivity]. rewrite !u32_run. rewrite <- !N.add_assoc.
    destruct (num 4 12 raw + (4 + 4) <=? lenN raw) eqn:E; change (4 + 4) with 8 in E; rewrite E; [|reflexivity].
    rewrite <- drive_lookup. now destruct (_ <? lenN DRIVE_TYPES).
  Qed.
  Lemma wide_label_run : volume_label_unicode_offset raw
    = if 16 <=? lenN raw then
        if num 4 12 raw + 16 <=? lenN raw then
          if num 4 (num 4 12 raw + 12) raw =? 0x14 then
            if num 4 12 raw + 20 <=? lenN raw then ret (Some (num 4 (num 4 12 raw + 16) raw)) else raise StructError
          else ret None
        else raise StructError
      else raise StructError.
  Proof.
    unfold volume_label_unicode_offset, has_volume_label_offset_unicode. rewrite bind_assoc, label_run.
    destruct (16 <=? lenN raw) eqn:E; [|reflexivity]. destruct (num 4 12 raw + 16 <=? lenN raw); [|reflexivity].
    rewrite bind_ret_l. destruct (_ =? 0x14); [|reflexivity]. rewrite vol_run, E, u32_run. now rewrite <- N.add_assoc.
  Qed.
  Lemma local_run m : run_there (local_field cp raw m) = ask_local cp raw m.
  Proof.
    unfold local_field, number_field, within, if_set. cbv zeta.
    destruct m; cbn [ask_local].
    - unfold volume_id_size. rewrite bind_assoc, vol_run. destruct (16 <=? lenN raw); [|reflexivity]. rewrite u32_run. now destruct (_ <=? lenN raw).
    - unfold r_drive_type. rewrite bind_assoc, vol_run. destruct (16 <=? lenN raw); [|reflexivity]. rewrite u32_run. now destruct (_ <=? lenN raw).
    - unfold drive_serial_number. rewrite bind_assoc, vol_run. destruct (16 <=? lenN raw); [|reflexivity]. rewrite bind_assoc, u32_run.
      rewrite <- N.add_assoc. change (8 + 4) with 12. now destruct (_ <=? lenN raw).
    - rewrite label_run. destruct (16 <=? lenN raw); [|reflexivity]. rewrite <- N.add_assoc. change (12 + 4) with 16. now destruct (_ <=? lenN raw).
    - rewrite drive_run. destruct (16 <=? lenN raw); [|reflexivity]. now destruct (_ <=? lenN raw).
    - unfold volume_label, has_volume_label_offset_unicode. rewrite !bind_assoc, label_run.
      destruct (16 <=? lenN raw) eqn:E1; [|reflexivity]. destruct (num 4 12 raw + 16 <=? lenN raw) eqn:E2; [|reflexivity].
      rewrite bind_ret_l. destruct (_ =? 0x14); [reflexivity|]. rewrite vol_run, E1, label_run, E1, E2. cbn [run_there page_string].
      symmetry. now apply some_says, read_page.
    - rewrite wide_label_run. destruct (16 <=? lenN raw); [|reflexivity]. destruct (num 4 12 raw + 16 <=? lenN raw); [|reflexivity].
      destruct (_ =? 0x14); [|reflexivity]. rewrite <- N.add_assoc. change (16 + 4) with 20. now destruct (_ <=? lenN raw).
    - unfold volume_label_unicode. rewrite wide_label_run.
      destruct (16 <=? lenN raw) eqn:E1; [|reflexivity]. destruct (num 4 12 raw + 16 <=? lenN raw); [|reflexivity].
      destruct (_ =? 0x14); [|reflexivity]. destruct (num 4 12 raw + 20 <=? lenN raw); [|reflexivity].
      rewrite !bind_ret_l. cbn [truthyN valN]. destruct (num 4 (num 4 12 raw + 16) raw =? 0); [reflexivity|]. cbn [negb run_there wide_string].
      rewrite vol_run, E1, bind_ret_l. cbn [valN]. symmetry. apply some_says, read_unicode_field.
  Qed.

  Lemma wide_name_run : net_name_offset_unicode raw
    = if 24 <=? lenN raw then
        if num 4 20 raw + 12 <=? lenN raw then
          if 20 <? num 4 (num 4 20 raw + 8) raw then
            if num 4 20 raw + 24 <=? lenN raw then ret (Some (num 4 (num 4 20 raw + 20) raw)) else raise StructError
          else ret None
        else raise StructError
      else raise StructError.
  Proof.
    unfold net_name_offset_unicode. rewrite name_run. destruct (24 <=? lenN raw) eqn:E; [|reflexivity].
    destruct (num 4 20 raw + 12 <=? lenN raw); [|reflexivity]. rewrite (N.leb_antisym 20). destruct (20 <? _); [|reflexivity].
    cbn [negb]. rewrite net_run, E, u32_run. now rewrite <- N.add_assoc.
  Qed.
  Lemma wide_device_run : device_name_offset_unicode raw
    = if 24 <=? lenN raw then
        if num 4 20 raw + 12 <=? lenN raw then
          if 20 <? num 4 (num 4 20 raw + 8) raw then
            if num 4 20 raw + 28 <=? lenN raw then ret (Some (num 4 (num 4 20 raw + 24) raw)) else raise StructError
          else ret None
        else raise StructError
      else raise StructError.
  Proof.
    unfold device_name_offset_unicode. rewrite name_run. destruct (24 <=? lenN raw) eqn:E; [|reflexivity].
    destruct (num 4 20 raw + 12 <=? lenN raw); [|reflexivity]. rewrite (N.leb_antisym 20). destruct (20 <? _); [|reflexivity].
    cbn [negb]. rewrite net_run, E, u32_run. now rewrite <- N.add_assoc.
  Qed.
  Lemma network_run m : run_there (network_field cp raw m) = ask_network cp raw m.
  Proof.
    unfold network_field, number_field, within. cbv zeta.
    destruct m; cbn [ask_network].
    - unfold cnrl_size. rewrite bind_assoc, net_run. destruct (24 <=? lenN raw); [|reflexivity]. rewrite u32_run. now destruct (_ <=? lenN raw).
    - unfold cnrl_flags. rewrite bind_assoc, net_run. destruct (24 <=? lenN raw); [|reflexivity]. rewrite u32_run. now destruct (_ <=? lenN raw).
    - unfold net_name_offset. rewrite bind_assoc, net_run. destruct (24 <=? lenN raw); [|reflexivity]. rewrite u32_run. now destruct (_ <=? lenN raw).
    - unfold device_name_offset. rewrite bind_assoc, net_run. destruct (24 <=? lenN raw); [|reflexivity]. rewrite u32_run. now destruct (_ <=? lenN raw).
    - unfold r_network_provider_type. rewrite bind_assoc, net_run. destruct (24 <=? lenN raw); [|reflexivity]. rewrite bind_assoc, u32_run.
      rewrite <- N.add_assoc. change (16 + 4) with 20. now destruct (_ <=? lenN raw).
    - unfold network_provider_type, cnrl_flags, r_network_provider_type. rewrite !bind_assoc, net_run.
      destruct (24 <=? lenN raw) eqn:E1; [|reflexivity]. rewrite u32_run. rewrite <- !N.add_assoc. change (4 + 4) with 8.
      destruct (num 4 20 raw + 8 <=? lenN raw); [|reflexivity]. pose proof (mask_bit (num 4 (num 4 20 raw + 4) raw) 2 1 eq_refl) as HM.
      destruct (N.land _ 2 =? 0); cbn [negb] in HM; rewrite <- HM; [reflexivity|]. rewrite !bind_assoc, net_run, E1, bind_assoc, u32_run.
      rewrite <- !N.add_assoc. change (16 + 4) with 20. destruct (num 4 20 raw + 20 <=? lenN raw); [|reflexivity].
      rewrite !bind_ret_l. now rewrite provider_lookup.
    - rewrite wide_name_run. destruct (24 <=? lenN raw); [|reflexivity]. destruct (num 4 20 raw + 12 <=? lenN raw); [|reflexivity].
      destruct (20 <? _); [|reflexivity]. rewrite <- N.add_assoc. change (20 + 4) with 24. now destruct (_ <=? lenN raw).
    - unfold net_name_unicode. rewrite name_run, wide_name_run.
      destruct (24 <=? lenN raw) eqn:E1; [|reflexivity]. destruct (num 4 20 raw + 12 <=? lenN raw); [|reflexivity].
      rewrite (N.leb_antisym 20). destruct (20 <? _); [|reflexivity]. cbn [negb]. rewrite net_run, E1.
      destruct (num 4 20 raw + 24 <=? lenN raw); [|reflexivity]. rewrite bind_ret_l. cbn [run_there wide_string valN].
      symmetry. apply some_says, read_unicode_field.
    - rewrite wide_device_run. destruct (24 <=? lenN raw); [|reflexivity]. destruct (num 4 20 raw + 12 <=? lenN raw); [|reflexivity].
      destruct (20 <? _); [|reflexivity]. rewrite <- N.add_assoc. change (24 + 4) with 28. now destruct (_ <=? lenN raw).
    - unfold device_name_unicode. rewrite name_run, wide_device_run.
      destruct (24 <=? lenN raw) eqn:E1; [|reflexivity]. destruct (num 4 20 raw + 12 <=? lenN raw); [|reflexivity].
      rewrite (N.leb_antisym 20). destruct (20 <? _); [|reflexivity]. cbn [negb]. rewrite net_run, E1.
      destruct (num 4 20 raw + 28 <=? lenN raw); [|reflexivity]. rewrite bind_ret_l. cbn [run_there wide_string valN].
      symmetry. apply some_says, read_unicode_field.
    - unfold net_name. rewrite name_run. destruct (24 <=? lenN raw) eqn:E1; [|reflexivity].
      destruct (num 4 20 raw + 12 <=? lenN raw) eqn:E2; [|reflexivity]. destruct (20 <? _); [reflexivity|].
      rewrite net_run, E1, name_run, E1, E2. cbn [run_there page_string]. symmetry. now apply some_says, read_page.
    - unfold device_name, device_name_offset. rewrite name_run. destruct (24 <=? lenN raw) eqn:E1; [|reflexivity].
      destruct (num 4 20 raw + 12 <=? lenN raw); [|reflexivity]. destruct (20 <? _); [reflexivity|].
      rewrite !net_run, E1, u32_run. rewrite <- N.add_assoc. change (12 + 4) with 16. destruct (num 4 20 raw + 16 <=? lenN raw); [|reflexivity].
      cbn [run_there page_string]. symmetry. now apply some_says, read_page.
  Qed.
End Info.

(** ** All questions *)
Lemma run_value t : (v <- run_there t ;; ret (Value v)) = (said_there t, value_there t).
Proof. destruct t; [|reflexivity]. cbn. now rewrite app_nil_r. Qed.
Lemma flag_used p : In (flag_of p, predicate_bit p) used_flags.
Proof. destruct p; cbn; tauto. Qed.

Section Link.
  Variables (b : bytes) (cp : cp_arg) (allow : bool) (l : lnk).
  Hypotheses (Hcp : usable cp) (Hl : snd (lnk_init (FromBytes b) cp allow) = Ok l).

  Lemma blocks_of_link : exists blocks tail, block_walk (dropN (string_data_end b) b) blocks tail /\ sizes_readable blocks
    /\ l_extras l = map mk_block blocks ++ tail_blocks allow tail.
  Proof. destruct (file_extras b cp allow l Hcp Hl) as (_ & blocks & r & HW & HS & HE). now exists blocks, r. Qed.
  Lemma page_of_link : l_cp l = cp.
  Proof. now destruct (init_constructed b cp allow l Hcp Hl) as [_ (H & _)]. Qed.
  Lemma header_of_link : 24 <= header_len b /\ 24 <= lenN b /\ l_header l = takeN (header_len b) b.
  Proof. now apply (init_header b cp allow). Qed.
  Lemma info_of_link : l_info l = if info_processed b
    then Some (if N.testbit (num 4 8 (dropN (id_list_end b) b)) 0 then Local else Network, dropN (id_list_end b) b) else None.
  Proof. destruct (init_constructed b cp allow l Hcp Hl) as [_ (_ & _ & _ & _ & H & _)]. rewrite num_at. exact H. Qed.
  Lemma strings_of_link : exists found cut, string_walk b string_fields (info_end b) found (string_data_end b) cut
    /\ sd_data (l_string_data l) = map (fun f => (fst f, PStr (stored_text (bit_set 7 b) cp (snd f)))) found
    /\ info_end b + sd_size (l_string_data l) = string_data_end b.
  Proof.
    destruct header_of_link as (H1 & H2 & H3). destruct (string_data_full b cp Hcp H1 H2) as (found & cut & HW & sd & HS & HD & HE).
    destruct (init_constructed b cp allow l Hcp Hl) as [_ (_ & _ & _ & _ & _ & H & _)]. rewrite H3, HS in H. injection H as ->.
    exists found, cut. split; [exact HW|]. now split.
  Qed.

  Lemma extras_size_link blocks tail : block_walk (dropN (string_data_end b) b) blocks tail ->
    extras_size (l_extras l) = ret (size_of_extras allow blocks tail).
  Proof.
    intros HW. destruct blocks_of_link as (bl & r & HW' & HS & HE). destruct (block_walk_det _ _ _ _ _ HW HW') as [-> ->].
    rewrite (surjective_pairing (extras_size _)), extras_size_fst. rewrite HE. unfold ret. f_equal. apply extras_size_app.
    - rewrite extras_size_blocks. replace (forallb _ bl) with true; [reflexivity|]. symmetry. apply forallb_forall.
      intros x Hx. pose proof (proj1 (Forall_forall _ _) HS x Hx) as H. cbv beta in H. unfold bytes in *. lia.
    - apply extras_size_tail.
  Qed.
  Lemma items_link items : has_id_list b = true -> l_targets l = Some items -> targets_as_list (l_cp l) items = items_of cp (id_list b).
  Proof.
    intros Hid. destruct (init_constructed b cp allow l Hcp Hl) as [_ (Lc & _ & _ & Lt & _)]. rewrite Lt, Hid, Lc. intros [= <-].
    unfold targets_as_list. cbn [tg_raw_targets]. now rewrite id_list_slice.
  Qed.
  Lemma blocks_read_link blocks tail entries said : block_walk (dropN (string_data_end b) b) blocks tail -> blocks_read cp blocks entries said ->
    extras_as_dict (l_cp l) (l_extras l) = (said, Ok (collect (entries ++ behind_blocks allow tail))).
  Proof.
    intros HW HR. destruct blocks_of_link as (bl & r & HW' & HS & HE). destruct (block_walk_det _ _ _ _ _ HW HW') as [-> ->].
    assert (HD : Forall (decodable cp) (map mk_block bl)).
    { clear HW HW' HE. revert HS. induction HR as [|sig raw rest d w x ws HB _ IH|sig raw rest w x ws HB _ IH]; intros HS; [constructor| |];
        inversion_clear HS as [|? ? L HS']; cbn [snd] in L; cbn [map]; (constructor; [|now apply IH]); rewrite block_of; unfold decodable.
      - rewrite (proj1 (block_settles cp sig raw Hcp L) _ _ HB). exact I.
      - destruct (proj1 (block_tries cp sig raw Hcp L) _ HB) as (x' & Hx & ->). exact Hx. }
    pose proof (blocks_settle cp bl Hcp HS HD) as HR'. destruct (blocks_read_det _ _ _ _ _ _ Hcp HS HR HR') as [-> ->].
    rewrite page_of_link. assert (HU := file_unknown b cp allow l Hcp Hl).
    rewrite extras_ok; [|rewrite HE; apply Forall_app; split; [exact HD|]|exact HU].
    - rewrite HE, !flat_map_app. destruct (tail_settles cp allow r) as [-> ->]. now rewrite app_nil_r.
    - unfold tail_blocks. destruct (_ && _); [|constructor]. constructor; [|constructor]. unfold decodable, extra_as_dict. cbn [ex_class].
      unfold terminal_dict, terminal_size. exact I.
  Qed.
  Lemma blocks_stop_link blocks tail e said : block_walk (dropN (string_data_end b) b) blocks tail -> blocks_stop cp blocks e said ->
    extras_as_dict (l_cp l) (l_extras l) = (said, Err e).
  Proof.
    intros HW HR. destruct blocks_of_link as (bl & r & HW' & HS & HE). destruct (block_walk_det _ _ _ _ _ HW HW') as [-> ->].
    rewrite page_of_link, HE. unfold extras_as_dict. now apply blocks_stop_here.
  Qed.

  Lemma asked_model q said r : asked b cp allow q said r -> ask l q = (said, r).
  Proof.
    destruct header_of_link as (H1 & H2 & H3).
    assert (L24 : 24 <= lenN (takeN (header_len b) b)) by (rewrite lenN_takeN; unfold bytes in *; lia).
    pose proof (init_constructed b cp allow l Hcp Hl) as [_ (Lc & _ & _ & Lt & _)].
    intros [p|m s x HG|m raw network t EP -> -> ->|m EP|m raw t EP -> EB ->|m EB|m raw t EP -> EB ->|m EB|EI|EI|entries s EI HE|e s EI HE|m EI HM
      |found end_ cut HW|found end_ cut HW|blocks tail HW|blocks tail entries s HW HR|blocks tail e s HW HR|blocks tail sections HW ->
      |n -> |n -> A1 A2|A]; cbn [ask].
    - rewrite (predicates_of_flags b cp allow l Hl _ _ (flag_used p)). reflexivity.
    - rewrite H3, (header_model _ _ _ _ HG). destruct x; cbn [value_of]; [|reflexivity]. rewrite bind_Ok. cbn. now rewrite app_nil_r.
    - rewrite info_of_link, EP, Lc. rewrite <- (info_run cp _ Hcp).
      replace (is_network _) with (negb (N.testbit (num 4 8 (dropN (id_list_end b) b)) 0)) by (now destruct (N.testbit _ 0)). apply run_value.
    - rewrite info_of_link, EP. reflexivity.
    - rewrite info_of_link, EP, EB, Lc. rewrite <- (local_run cp _ Hcp). apply run_value.
    - rewrite info_of_link. destruct EB as [-> | ->]; [reflexivity|]. destruct (info_processed b); reflexivity.
    - rewrite info_of_link, EP, EB, Lc. rewrite <- (network_run cp _ Hcp). apply run_value.
    - rewrite info_of_link. destruct EB as [-> | ->]; [reflexivity|]. destruct (info_processed b); reflexivity.
    - rewrite Lt, EI. cbn [tg_raw]. rewrite (size_here b cp allow l Hcp Hl EI). reflexivity.
    - rewrite Lt, EI. cbn [tg_raw]. unfold targets_size. rewrite (size_here b cp allow l Hcp Hl EI). reflexivity.
    - destruct (l_targets l) as [t|] eqn:ET; [|rewrite EI in Lt; discriminate Lt]. rewrite (items_link t EI ET).
      rewrite (entries_of cp Hcp _ _ _ HE). cbn. now rewrite app_nil_r.
    - destruct (l_targets l) as [t|] eqn:ET; [|rewrite EI in Lt; discriminate Lt]. rewrite (items_link t EI ET).
      rewrite (tried_of cp Hcp _ _ _ HE). reflexivity.
    - rewrite Lt, EI. destruct HM as [<-|[<-|[<-|[]]]]; reflexivity.
    - destruct strings_of_link as (f & c & HW' & _ & HS). destruct (string_walk_det _ _ _ _ _ _ _ _ _ HW HW') as (-> & -> & ->).
      unfold ret. do 4 f_equal. lia.
    - destruct strings_of_link as (f & c & HW' & HD & _). destruct (string_walk_det _ _ _ _ _ _ _ _ _ HW HW') as (-> & -> & ->).
      unfold string_data_as_dict. now rewrite HD.
    - rewrite (extras_size_link _ _ HW). reflexivity.
    - rewrite (blocks_read_link _ _ _ _ HW HR). cbn. now rewrite app_nil_r.
    - rewrite (blocks_stop_link _ _ _ _ HW HR). reflexivity.
    - destruct (init_constructed b cp allow l Hcp Hl) as [_ (_ & _ & _ & _ & _ & _ & bl & tl & HW' & _ & ->)].
      destruct (block_walk_det _ _ _ _ _ HW HW') as [-> ->]. cbv zeta. unfold size_of_extras, tail_size. now rewrite N.add_assoc.
    - unfold format_linkFlags, link_flags, r_link_flags, unpack_u32. rewrite H3, !read_at, !bind_ret_l by lia.
      rewrite num_takeN by lia. rewrite link_flag_names, flags_lines, texts_PS. reflexivity.
    - unfold format_fileFlags, file_flags, r_file_flags, unpack_u32. rewrite H3, !read_at, !bind_ret_l by (rewrite ?lenN_takeN; unfold bytes in *; lia).
      rewrite num_takeN by lia. rewrite file_flag_names, flags_lines, texts_PS. reflexivity.
    - unfold format_fileFlags, r_file_flags, unpack_u32. rewrite H3, cut_at by (rewrite ?lenN_takeN; unfold bytes in *; lia). reflexivity.
  Qed.
  Lemma asked_total q : exists said r, asked b cp allow q said r.
  Proof.
    destruct q as [p|m|m|m|m|m].
    - do 2 eexists. apply ask_flag.
    - destruct (header_total (takeN (header_len b) b) m) as (s & r & H). do 2 eexists. eapply ask_the_header; exact H.
    - destruct (info_processed b) eqn:EP; do 2 eexists; [eapply ask_the_info; [exact EP|reflexivity..]|now apply ask_no_info].
    - destruct (info_processed b) eqn:EP; [|do 2 eexists; apply ask_no_volume; now left].
      destruct (N.testbit (num 4 8 (dropN (id_list_end b) b)) 0) eqn:EB; do 2 eexists;
        [eapply ask_a_volume; [exact EP|reflexivity|exact EB|reflexivity]|apply ask_no_volume; now right].
    - destruct (info_processed b) eqn:EP; [|do 2 eexists; apply ask_no_share; now left].
      destruct (N.testbit (num 4 8 (dropN (id_list_end b) b)) 0) eqn:EB; do 2 eexists;
        [apply ask_no_share; now right|eapply ask_a_share; [exact EP|reflexivity|exact EB|reflexivity]].
    - destruct blocks_of_link as (bl & tl & HW & HS & HE). destruct strings_of_link as (f & c & HSW & _).
      destruct m.
      1-3: destruct (has_id_list b) eqn:EI; [|do 2 eexists; apply ask_no_list; [exact EI|cbn; tauto]].
      + do 2 eexists. now apply ask_targets_size.
      + do 2 eexists. now apply ask_list_size.
      + destruct (items_outcome_total (id_list b)) as [[e|] HO].
        * destruct (tried_total cp _ _ _ HO eq_refl) as [s HT]. do 2 eexists. eapply ask_bad_items; eassumption.
        * destruct (entries_total cp _ _ HO eq_refl) as (en & s & HT). do 2 eexists. eapply ask_items; eassumption.
      + do 2 eexists. eapply ask_strings_size, HSW.
      + do 2 eexists. eapply ask_strings, HSW.
      + do 2 eexists. eapply ask_extras_size, HW.
      + destruct (extras_outcome cp bl [] Hcp HS) as ([e|] & HO & HI).
        * destruct (blocks_stop_total cp Hcp _ _ e HS HO eq_refl) as [w Hw]. do 2 eexists. eapply ask_bad_blocks; eassumption.
        * assert (HD : Forall (decodable cp) (map mk_block bl)).
          { destruct HI as [d HI]. now apply extras_decodable in HI. }
          do 2 eexists. eapply ask_blocks; [exact HW|now apply blocks_settle].
      + do 2 eexists. eapply ask_size; [exact HW|reflexivity].
      + do 2 eexists. now eapply ask_link_flags.
      + destruct (N.lt_ge_cases (header_len b) 28) as [A|A]; [do 2 eexists; apply ask_no_file_flags; now left|].
        destruct (N.lt_ge_cases (lenN b) 28) as [B|B]; [do 2 eexists; apply ask_no_file_flags; now right|].
        do 2 eexists. now eapply ask_file_flags.
  Qed.
  Theorem asked_iff q said r : ask l q = (said, r) <-> asked b cp allow q said r.
  Proof.
    split; [|apply asked_model]. intros H. destruct (asked_total q) as (s & x & HA). pose proof (asked_model _ _ _ HA) as E.
    rewrite E in H. now injection H as <- <-.
  Qed.
End Link.
