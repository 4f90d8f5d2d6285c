(** * The entries of an arbitrary ID list (C61) *)
From Verif Require Import Lemmas PyTime Codec Utils Header StringData Targets Info Extra LnkFile.
From Verif Require Import Spec SpecText SpecTime SpecItems SpecInfo SpecExtra SpecOutcome SpecEntries.
From Verif Require Import OutcomeProofs LayoutProofs CoreProofs FormatProofs EncProofs TextProofs TimeProofs ApiProofs.
From Verif Require Import ItemProofs ExtraProofs ExtraListProofs InfoProofs HeaderFileProofs ExactProofs.

Lemma says_bind {A B} (m : M A) (f : A -> M B) w a w' b :
  m = (w, Ok a) -> f a = (w', Ok b) -> bind m f = (w ++ w', Ok b).
Proof. intros -> H. rewrite bind_Ok, H. reflexivity. Qed.
Lemma says_ret {A B} (m : M A) (f : A -> B) w a : m = (w, Ok a) -> (x <- m ;; ret (f x)) = (w, Ok (f a)).
Proof. intros ->. rewrite bind_Ok. cbn. now rewrite app_nil_r. Qed.

Lemma read_at w i j b : 0 < w -> j = i + w -> j <= lenN b -> unpack_le w (slice i j b) = ret (num w i b).
Proof. intros Hw -> H. rewrite unpack_at by assumption. now replace (i + w <=? lenN b) with true by lia. Qed.
Lemma guid_at i j b : j = i + 16 -> j <= lenN b -> parse_uuid (slice i j b) = ret (guid_text (slice i j b)).
Proof. intros -> H. apply parse_uuid_guid. rewrite lenN_slice. lia. Qed.

(** ** FAT times *)
Lemma fat_exists_valid n : fat_exists n = true <-> valid_datetime (fat_datetime n).
Proof.
  unfold fat_exists, valid_datetime, valid_date. cbv zeta.
  assert (HY : (1 <= dt_year (fat_datetime n) <= 9999)%Z).
  { unfold fat_datetime. cbn [dt_year]. pose proof (N.mod_lt (n / 512) 128 ltac:(discriminate)). lia. }
  assert (HU : (0 <= dt_us (fat_datetime n) <= 999999)%Z) by (cbn; lia).
  assert (HH : (0 <= dt_hour (fat_datetime n) /\ 0 <= dt_min (fat_datetime n) /\ 0 <= dt_sec (fat_datetime n))%Z) by (cbn; lia).
  set (t := fat_datetime n) in *. clearbody t. set (ml := month_length _ _). clearbody ml.
  rewrite !andb_true_iff, !Z.leb_le. lia.
Qed.
Lemma dostime_at i j b : j = i + 4 -> j <= lenN b ->
  parse_dostime (slice i j b) = (fat_warned (num 4 i b), Ok (fat_shown (num 4 i b))).
Proof.
  intros -> H. replace (slice i (i + 4) b) with (enc32 (num 4 i b)).
  2: { rewrite enc32_num by assumption. unfold slice. f_equal. lia. }
  set (n := num 4 i b). assert (HF : fits32 n) by (apply (num_lt 4)).
  destruct (dostime_spec n HF) as (H0 & HV & HI). unfold fat_warned, fat_shown.
  destruct (N.eqb_spec n 0) as [E|E]; [cbn; now apply H0|]. cbn [orb].
  pose proof (fat_exists_valid n) as HX. destruct (fat_exists n).
  - apply HV; [assumption|]. now apply HX.
  - apply HI; [assumption|]. intros HC. apply HX in HC. discriminate HC.
Qed.

(** ** Strings *)
Lemma stored_says u cp b : usable cp ->
  (if u : bool then read_unicode_string b else read_string cp b) = (stored_warning u cp b, Ok (stored_text u cp b)).
Proof. intros Hcp. destruct u; [apply read_unicode_field|now apply read_string_field]. Qed.

Lemma split_after b : forall c, match split_nul c b with
  | [] => False
  | s :: r => s = c ++ before_nul b /\ (if 0 <? nuls b then r = split_nul [] (after_nul b) else r = [])
  end.
Proof.
  unfold nuls. induction b as [|x b IH]; intros c; cbn [split_nul before_nul after_nul filter]; [now rewrite app_nil_r|].
  assert (E : Byte.eqb x00 x = Byte.eqb x x00).
  { destruct (Byte.eqb x x00) eqn:H1, (Byte.eqb x00 x) eqn:H2; auto.
    - apply byte_eqb_eq in H1. apply byte_eqb_neq in H2. congruence.
    - apply byte_eqb_eq in H2. apply byte_eqb_neq in H1. congruence. }
  rewrite E. destruct (Byte.eqb x x00).
  - rewrite lenN_cons. replace (0 <? 1 + _) with true by lia. now rewrite app_nil_r.
  - specialize (IH (c ++ [x])). destruct (split_nul (c ++ [x]) b) as [|s r]; [exact IH|]. now rewrite <- app_assoc in IH.
Qed.
Lemma before_nul_clean b : ~ In x00 (before_nul b).
Proof.
  induction b as [|x b IH]; cbn [before_nul]; [intros []|]. destruct (Byte.eqb x x00) eqn:E; [intros []|].
  intros [H|H]; [|now apply IH]. apply byte_eqb_neq in E. congruence.
Qed.
Lemma before_before b : before_nul (before_nul b) = before_nul b.
Proof. apply before_nul_all, before_nul_clean. Qed.
Lemma next_says cp b : usable cp ->
  next_string (read_strings cp b)
  = (field_warning cp b, Ok (field_text cp b, if 0 <? nuls b then read_strings cp (after_nul b) else [])).
Proof.
  intros Hcp. unfold read_strings. pose proof (split_after b []) as H. destruct (split_nul [] b) as [|s r]; [destruct H|].
  destruct H as [-> HR]. cbn [map next_string app]. rewrite chars_field by (assumption || apply before_nul_clean).
  unfold field_warning, field_text. rewrite before_before. rewrite bind_Ok. cbn. rewrite app_nil_r. f_equal. f_equal. f_equal.
  destruct (0 <? nuls b); now rewrite HR.
Qed.
Lemma nuls_after b : 0 < nuls b -> nuls b = 1 + nuls (after_nul b).
Proof.
  unfold nuls. induction b as [|x b IH]; cbn [filter after_nul]; [cbn; lia|].
  assert (E : Byte.eqb x00 x = Byte.eqb x x00).
  { destruct (Byte.eqb x x00) eqn:H1, (Byte.eqb x00 x) eqn:H2; auto.
    - apply byte_eqb_eq in H1. apply byte_eqb_neq in H2. congruence.
    - apply byte_eqb_eq in H2. apply byte_eqb_neq in H1. congruence. }
  rewrite E. destruct (Byte.eqb x x00); [rewrite lenN_cons; lia|exact IH].
Qed.

Lemma num1_lt i b : num 1 i b < 256.
Proof. apply (num_lt 1). Qed.

(** ** The class of a type *)
Lemma class_says ty : ty < 256 ->
  class_step ty = (match class_for ty with UnknownTarget => [WItemType ty] | _ => [] end, Ok (class_for ty)).
Proof. intros Hlt. pattern ty. apply by_bytes; [|assumption]. intros b. destruct b; vm_compute; reflexivity. Qed.
Lemma class_kinds ty : ty < 256 ->
  match class_for ty with
  | ControlPanelCPL => ty = 0
  | ControlPanelCategory => ty = 1
  | RootFolder => ty = 0x1E \/ ty = 0x1F
  | MyComputer => ty / 16 mod 8 = 2
  | ShellFSFolder => ty / 16 mod 8 = 3
  | NetworkLocation => ty / 16 mod 8 = 4
  | CompressedFolder => ty = 0x52
  | Internet => ty = 0x61
  | ControlPanel => ty = 0x70 \/ ty = 0x71
  | Printers => ty = 0x72
  | CommonPlacesFolder => ty = 0x73
  | UsersFilesFolder => ty = 0x74
  | UnknownTarget => True
  end.
Proof. intros Hlt. pattern ty. apply by_bytes; [|assumption]. intros b. destruct b; vm_compute; auto. Qed.
(** The choice among classes that [entry_of] and [entry_says] make. *)
Definition choice {A} (ty : N) (volume file network cpl category root compressed internet panel printers common users unknown : A) : A :=
  match ty / 16 mod 8 with
  | 2 => volume | 3 => file | 4 => network
  | _ =>
    match ty with
    | 0x00 => cpl | 0x01 => category | 0x1E | 0x1F => root | 0x52 => compressed | 0x61 => internet | 0x70 | 0x71 => panel
    | 0x72 => printers | 0x73 => common | 0x74 => users | _ => unknown
    end
  end.
Lemma choice_class {A} ty (volume file network cpl category root compressed internet panel printers common users unknown : A) : ty < 256 ->
  choice ty volume file network cpl category root compressed internet panel printers common users unknown
  = match class_for ty with
    | MyComputer => volume | ShellFSFolder => file | NetworkLocation => network | ControlPanelCPL => cpl
    | ControlPanelCategory => category | RootFolder => root | CompressedFolder => compressed | Internet => internet
    | ControlPanel => panel | Printers => printers | CommonPlacesFolder => common | UsersFilesFolder => users
    | UnknownTarget => unknown
    end.
Proof. intros Hlt. pattern ty. apply by_bytes; [|assumption]. intros b. destruct b; reflexivity. Qed.
Lemma entry_unknown cp ty n rt : ty < 256 -> num 1 0 rt = ty -> class_for ty = UnknownTarget ->
  entry_of cp n rt = [("class", PS "Unknown"); ("size", PN (2 + n))]%string /\ entry_says cp rt = [WItemType ty].
Proof.
  intros Hlt E Hc. unfold entry_of, entry_says. cbv zeta. rewrite E. split.
  - match goal with |- ?l = _ => match l with context C [match ty / 16 mod 8 with _ => _ end] =>
      etransitivity; [refine (choice_class (A := dict) ty _ _ _ _ _ _ _ _ _ _ _ _ _ Hlt)|now rewrite Hc] end end.
  - etransitivity; [refine (choice_class (A := list warning) ty _ _ _ _ _ _ _ _ _ _ _ _ _ Hlt)|now rewrite Hc].
Qed.
Lemma entry_size cp ty n m rt : ty < 256 -> num 1 0 rt = ty -> class_for ty <> UnknownTarget ->
  entry_of cp n rt = entry_of cp m rt.
Proof.
  intros Hlt E Hc. unfold entry_of. cbv zeta. rewrite E.
  etransitivity; [refine (choice_class (A := dict) ty _ _ _ _ _ _ _ _ _ _ _ _ _ Hlt)|].
  symmetry. etransitivity; [refine (choice_class (A := dict) ty _ _ _ _ _ _ _ _ _ _ _ _ _ Hlt)|].
  destruct (class_for ty); try reflexivity. now destruct Hc.
Qed.

Section Entries.
  Variable cp : cp_arg.
  Hypothesis Hcp : usable cp.

  Ltac rd := rewrite ?bind_ret_l; unfold unpack_u8, unpack_u16, unpack_u32;
    repeat (rewrite read_at by lia; rewrite ?bind_ret_l).

  Lemma network_says rt : 3 <= lenN rt -> nuls (dropN 3 rt) <? extra_strings (num 1 2 rt) = false ->
    nl_init_strings cp rt
    = (field_warning cp (network_location_at rt) ++ opt_field_warning cp (network_description rt)
         ++ opt_field_warning cp (network_comments rt),
       Ok (field_text cp (network_location_at rt), option_map (field_text cp) (network_description rt),
           option_map (field_text cp) (network_comments rt))).
  Proof.
    intros L HN. apply N.ltb_ge in HN. unfold extra_strings in HN.
    unfold nl_init_strings, network_comments, network_description, network_location_at, nl_has_description, nl_has_comments, nl_content_flags.
    unfold unpack_u8. rewrite !read_at by lia. rewrite !bind_ret_l.
    rewrite !(testbit_mask _ 7), !(testbit_mask _ 6) by reflexivity.
    rewrite next_says by assumption. set (s0 := dropN 3 rt) in *.
    pose proof (fun H => nuls_after s0 H) as HA.
    assert (EZ : forall b : bytes, nuls b = 0 \/ 0 < nuls b) by (intros; lia).
    destruct (N.testbit (num 1 2 rt) 7) eqn:E7, (N.testbit (num 1 2 rt) 6) eqn:E6; cbn [opt_field_warning option_map];
      try (replace (0 <? nuls s0) with true by lia); cbv beta iota delta [bind ret fst snd];
      repeat (rewrite next_says by assumption; try (replace (0 <? nuls (after_nul s0)) with true by (specialize (HA ltac:(lia)); lia));
              cbv beta iota delta [bind ret fst snd]); now rewrite ?app_nil_r.
  Qed.

  Lemma fs_says rt : 12 <= lenN rt -> fs_as_item cp rt = (file_entry_says cp rt, Ok (file_entry_of cp rt)).
  Proof.
    intros L. unfold fs_as_item, fs_flags, fs_file_size, fs_modification_time, fs_file_attribute_flags, fs_primary_name,
      has_unicode_strings, class_type_indicator, file_entry_says, file_entry_of. cbv zeta. rd.
    rewrite fs_folder by apply num1_lt. rewrite bind_Ok. rewrite bind_ret_l. rewrite dostime_at by lia. rewrite bind_Ok. rewrite bind_ret_l.
    rewrite (testbit_mask _ 2) by reflexivity. rewrite stored_says by assumption. rewrite bind_Ok. cbn. now rewrite !app_nil_r.
  Qed.

  Lemma cpl_wide_code rt : cpl_is_unicode rt = cpl_wide rt.
  Proof.
    unfold cpl_is_unicode, cpl_wide. destruct (N.ltb_spec (lenN rt) 22) as [L|L].
    - now replace (22 <=? lenN rt) with false by lia.
    - replace (22 <=? lenN rt) with true by lia. cbn [andb]. unfold num. destruct (dropN 10 rt) as [|x r] eqn:E.
      { apply (f_equal lenN) in E. rewrite lenN_dropN in E. cbn in E. unfold bytes in *. lia. }
      cbn [takeN]. change (1 =? 0) with false. cbn [takeN le_val]. change (N.pred 1) with 0. rewrite takeN_0. cbn [le_val].
      rewrite N.mul_0_r, N.add_0_r. destruct x; reflexivity.
  Qed.
  Lemma cpl_says rt : 10 <= lenN rt -> num 1 0 rt = 0 ->
    cpl_as_item cp rt = (entry_says cp rt, Ok (entry_of cp 0 rt)).
  Proof.
    intros L Hty. unfold entry_says, entry_of. cbv zeta. rewrite Hty. cbn [N.div N.modulo].
    change (0 / 16 mod 8) with 0. cbv iota.
    unfold cpl_as_item, cpl_signature, cpl_file_path, cpl_name_string, cpl_comments, cpl_name_offset, cpl_comments_offset,
      cpl_strings_start, cpl_name_offset_of, cpl_comments_offset_of, cpl_string. rewrite !cpl_wide_code. rd.
    assert (H22 : cpl_wide rt = true -> 22 <= lenN rt).
    { unfold cpl_wide. destruct (N.leb_spec 22 (lenN rt)); [trivial|discriminate]. }
    assert (HX : s2t "0x" ++ hexX 8 (num 4 2 rt) = hex32 (num 4 2 rt)).
    { unfold hex32. rewrite hexX_enc32; [reflexivity|apply (num_lt 4)]. }
    rewrite HX. cbv zeta. destruct (cpl_wide rt); [specialize (H22 eq_refl)|]; rd.
    - rewrite read_unicode_field, bind_Ok. rewrite read_unicode_field, bind_Ok.
      rewrite !(N.mul_comm 2). rewrite N.mul_0_l, N.add_0_r.
      destruct (num 2 20 rt =? 0); [rewrite bind_ret_l|rewrite read_unicode_field, bind_Ok]; cbn; now rewrite ?app_nil_r.
    - rewrite read_string_field, bind_Ok by assumption. rewrite read_string_field, bind_Ok by assumption.
      rewrite N.add_0_r. unfold base_item.
      destruct (num 2 8 rt =? 0); [rewrite bind_ret_l|rewrite read_string_field, bind_Ok by assumption]; cbn; now rewrite ?app_nil_r.
  Qed.
  Lemma cat_says rt : 10 <= lenN rt -> num 1 0 rt = 1 -> cat_as_item rt = (entry_says cp rt, Ok (entry_of cp 0 rt)).
  Proof.
    intros L Hty. unfold entry_says, entry_of. cbv zeta. rewrite Hty. change (1 / 16 mod 8) with 0. cbv iota.
    unfold cat_as_item, cat_category, cat_id. rd. rewrite category_spec, bind_Ok. cbn. now rewrite app_nil_r.
  Qed.
  Lemma rf_says rt : 18 <= lenN rt -> num 1 0 rt = 0x1E \/ num 1 0 rt = 0x1F ->
    rf_as_item rt = (entry_says cp rt, Ok (entry_of cp 0 rt)).
  Proof.
    intros L Hty.
    assert (E : rf_as_item rt = (unless_known (sort_name (num 1 1 rt)) (WSortIndex (num 1 1 rt)),
      Ok [("class", PS "Root Folder"); ("sort_index", PS (or_unknown (sort_name (num 1 1 rt))));
          ("sort_index_value", PN (num 1 1 rt)); ("guid", PStr (guid_text (slice 2 18 rt)))]%string)).
    { unfold rf_as_item, rf_sort_index_value. rd. rewrite sort_index_spec by apply num1_lt. rewrite bind_Ok, !bind_ret_l.
      rewrite guid_at by lia. rewrite bind_ret_l. cbn. now rewrite app_nil_r. }
    rewrite E. unfold entry_says, entry_of. cbv zeta. destruct Hty as [-> | ->]; reflexivity.
  Qed.
  Lemma cpanel_says rt : 30 <= lenN rt -> num 1 0 rt = 0x70 \/ num 1 0 rt = 0x71 ->
    cpanel_as_item rt = (entry_says cp rt, Ok (entry_of cp 0 rt)).
  Proof.
    intros L Hty.
    assert (E : cpanel_as_item rt = ret [("class", PS "Control panel"); ("item_identifier", PStr (guid_text (slice 14 30 rt)))]%string).
    { unfold cpanel_as_item. rewrite guid_at by lia. now rewrite bind_ret_l. }
    rewrite E. unfold entry_says, entry_of. cbv zeta. destruct Hty as [-> | ->]; reflexivity.
  Qed.
  Lemma uf_says rt : 10 <= lenN rt -> 12 <= lenN (slice 10 (10 + num 2 8 rt) rt) -> 36 + num 2 2 rt <= lenN rt -> num 1 0 rt = 0x74 ->
    uf_as_item cp rt = (entry_says cp rt, Ok (entry_of cp 0 rt)).
  Proof.
    intros L LI LG Hty. unfold entry_says, entry_of. cbv zeta. rewrite Hty. change (0x74 / 16 mod 8) with 7. cbv iota.
    unfold uf_as_item, uf_delegate_offset, uf_inner_data_size, target_base_init, target_size. cbv zeta. unfold unpack_u16.
    rewrite (read_at 2 0 2 (dropN 8 rt)); [|lia|reflexivity|rewrite lenN_dropN; unfold bytes in *; lia].
    rewrite bind_ret_l, bind_ret_l. rewrite num_dropN, slice_dropN. change (8 + 0) with 8.
    replace (8 + 2) with 10 by reflexivity. replace (8 + (2 + num 2 8 rt)) with (10 + num 2 8 rt) by lia.
    rewrite fs_says by assumption. rewrite bind_Ok. rd. rewrite !guid_at by lia. rewrite !bind_ret_l.
    replace (4 + num 2 2 rt + 16) with (20 + num 2 2 rt) by lia. replace (20 + num 2 2 rt + 16) with (36 + num 2 2 rt) by lia.
    rewrite guid_at by lia. rewrite bind_ret_l. cbn [fst snd ret]. rewrite app_nil_r, ascii_replace_map. reflexivity.
  Qed.

  Lemma mc_says rt : 1 <= lenN rt -> num 1 0 rt / 16 mod 8 = 2 -> (N.testbit (num 1 0 rt) 0 = false -> 18 <= lenN rt) ->
    mc_as_item cp rt = (entry_says cp rt, Ok (entry_of cp 0 rt)).
  Proof.
    intros L Hty HG. unfold entry_says, entry_of. cbv zeta. rewrite Hty.
    destruct (volume_flags (num 1 0 rt) (num1_lt 0 rt)) as [EF EB].
    unfold mc_as_item, mc_has_name, mc_flags, class_type_indicator. rd. rewrite EB, EF.
    destruct (N.testbit (num 1 0 rt) 0).
    - rewrite read_string_field by assumption. rewrite bind_Ok. cbn [fst snd ret]. rewrite app_nil_r. reflexivity.
    - rewrite guid_at by (specialize (HG eq_refl); lia). now rewrite bind_ret_l.
  Qed.

  (** ** One item *)
  Lemma item_says rest : 3 <= lenN rest -> num 2 0 rest <> 0 ->
    let fields := slice 2 (2 + num 2 0 rest) rest in
    item_error (num 1 2 rest) fields = None ->
    exists t w1 w2,
      next_target cp rest = (w1, Ok (Some (t, dropN (num 2 0 rest) rest)))
      /\ as_item cp t = (w2, Ok (entry_of cp (num 2 0 rest) fields)) /\ w1 ++ w2 = entry_says cp fields.
  Proof.
    intros L Hn rt He.
    assert (E2 : unpack_le 2 (slice 0 2 rest) = ret (num 2 0 rest)) by (apply read_at; lia).
    assert (E4 : unpack_le 1 (slice 2 3 rest) = ret (num 1 2 rest)) by (apply read_at; lia).
    assert (Lrt : 1 <= lenN rt) by (unfold rt; rewrite lenN_slice; lia).
    assert (Hty : num 1 0 rt = num 1 2 rest).
    { unfold rt. revert Hn. generalize (num 2 0 rest). intros n Hn. unfold num, slice. rewrite dropN_0, takeN_takeN. f_equal. f_equal. lia. }
    set (ty := num 1 2 rest) in *. assert (Hlt : ty < 256) by apply num1_lt.
    assert (HT : next_target cp rest
      = in_generator (c <- class_step ty ;; t <- target_init c cp rest ;; ret (Some (t, dropN (num 2 0 rest) rest)))).
    { unfold next_target, tf_target_class, tf_item_size, tf_item_type, unpack_u16, unpack_u8.
      destruct rest as [|x r] eqn:ER; [cbn in L; lia|]. rewrite <- ER in *.
      rewrite E2, !bind_ret_l, E4, !bind_ret_l. apply N.eqb_neq in Hn. rewrite Hn. cbv zeta. rewrite bind_assoc.
      f_equal. fold ty. fold (class_step ty). destruct (class_step ty) as [w [c|e]]; [|reflexivity].
      cbn [bind]. rewrite bind_ret_l. destruct (target_init c cp rest) as [w' [t|e]]; reflexivity. }
    assert (HB : target_base_init rest = ret rt).
    { unfold target_base_init, target_size, unpack_u16. now rewrite E2, bind_ret_l. }
    assert (HI : forall c, c <> NetworkLocation -> target_init c cp rest = ret (Target c rest rt [] None None)).
    { intros c H. unfold target_init. rewrite HB, bind_ret_l. destruct c; try reflexivity. now destruct H. }
    assert (HS : forall c w, class_step ty = (w, Ok c) -> c <> NetworkLocation ->
      next_target cp rest = (w, Ok (Some (Target c rest rt [] None None, dropN (num 2 0 rest) rest)))).
    { intros c w Hc HN. rewrite HT, Hc, bind_Ok, HI by assumption. rewrite bind_ret_l. cbn. now rewrite app_nil_r. }
    assert (HE : class_for ty <> UnknownTarget -> entry_of cp 0 rt = entry_of cp (num 2 0 rest) rt)
      by (intros; now apply (entry_size cp ty)).
    assert (HF : error_for (class_for ty) ty rt = None).
    { rewrite <- He. clear -Hlt. revert rt. pattern ty. apply by_bytes; [|assumption]. intros b rt. symmetry. apply item_error_byte. }
    pose proof (class_says ty Hlt) as HC. pose proof (class_kinds ty Hlt) as HK. pose proof (entry_unknown cp ty (num 2 0 rest) rt Hlt Hty) as HU.
    assert (HN : forall n, needs n rt = None -> n <= lenN rt) by (intros n; unfold needs; destruct (N.ltb_spec (lenN rt) n); [discriminate|auto]).
    assert (HG : forall c w2, class_step ty = ([], Ok c) -> c <> NetworkLocation ->
      as_item cp (Target c rest rt [] None None) = (w2, Ok (entry_of cp (num 2 0 rest) rt)) -> w2 = entry_says cp rt ->
      exists t w1 w2, next_target cp rest = (w1, Ok (Some (t, dropN (num 2 0 rest) rest)))
        /\ as_item cp t = (w2, Ok (entry_of cp (num 2 0 rest) rt)) /\ w1 ++ w2 = entry_says cp rt).
    { intros c w2 Hc Hc2 Ha Hw. exists (Target c rest rt [] None None), [], w2. split; [now apply HS|]. now split. }
    destruct (class_for ty) eqn:EC; cbn [error_for] in HF; rewrite <- ?Hty in HK.
    - eapply HG; [exact HC|discriminate| |reflexivity]. rewrite <- HE by discriminate. apply cpl_says; auto.
    - eapply HG; [exact HC|discriminate| |reflexivity]. rewrite <- HE by discriminate. apply cat_says; auto.
    - eapply HG; [exact HC|discriminate| |reflexivity]. rewrite <- HE by discriminate. apply rf_says; auto.
    - eapply HG; [exact HC|discriminate| |reflexivity]. rewrite <- HE by discriminate. apply mc_says; auto.
      rewrite Hty. intros E. rewrite E in HF. auto.
    - eapply HG; [exact HC|discriminate| |].
      + unfold as_item. cbn [t_class t_raw_target]. rewrite fs_says by auto. f_equal. f_equal. unfold entry_of. cbv zeta. now rewrite HK.
      + unfold entry_says. cbv zeta. now rewrite HK.
    - destruct (needs 3 rt) eqn:E3; [discriminate HF|]. apply HN in E3. cbn [after_all] in HF.
      destruct (_ <? _) eqn:EX in HF; [discriminate HF|].
      pose proof (network_says rt E3 EX) as HNS.
      eexists (Target NetworkLocation rest rt _ _ _), _, _. split; [|split].
      + rewrite HT, HC, bind_Ok. unfold target_init. rewrite HB, bind_ret_l, HNS, !bind_Ok. cbn [fst snd ret in_generator app].
        reflexivity.
      + unfold as_item, nl_as_item, nl_flags, nl_content_flags. cbn [t_class t_raw_target t_location t_description t_comments]. rd.
        rewrite fs_folder by apply num1_lt. rewrite bind_Ok. rewrite bind_ret_l. unfold entry_of. cbv zeta. rewrite HK. cbn [fst snd ret]. rewrite app_nil_r. reflexivity.
      + unfold entry_says. cbv zeta. rewrite HK. cbn [bind ret fst]. now rewrite ?app_nil_r, <- ?app_assoc.
    - eapply HG; [exact HC|discriminate| |]; [unfold entry_of|unfold entry_says]; cbv zeta; rewrite HK; reflexivity.
    - eapply HG; [exact HC|discriminate| |]; [unfold entry_of|unfold entry_says]; cbv zeta; rewrite HK; reflexivity.
    - eapply HG; [exact HC|discriminate| |reflexivity]. rewrite <- HE by discriminate. apply cpanel_says; auto.
    - eapply HG; [exact HC|discriminate| |]; [unfold entry_of|unfold entry_says]; cbv zeta; rewrite HK; reflexivity.
    - eapply HG; [exact HC|discriminate| |]; [unfold entry_of|unfold entry_says]; cbv zeta; rewrite HK; reflexivity.
    - destruct (needs 10 rt) eqn:E1; [discriminate HF|]. destruct (needs 12 _) eqn:E5 in HF; [discriminate HF|]. cbn [after_all] in HF.
      eapply HG; [exact HC|discriminate| |reflexivity]. rewrite <- HE by discriminate. apply uf_says; auto.
      unfold needs in E5. destruct (N.ltb_spec (lenN (slice 10 (10 + num 2 8 rt) rt)) 12); [discriminate E5|assumption].
    - destruct (HU eq_refl) as [U1 U2]. exists (Target UnknownTarget rest rt [] None None), [WItemType ty], []. split; [|split].
      + apply HS; [exact HC|discriminate].
      + unfold as_item. cbn [t_class t_raw]. unfold unknown_as_item, target_size, unpack_u16. rewrite E2, bind_ret_l. now rewrite U1.
      + now rewrite U2.
  Qed.

  (** ** The whole list *)
  Lemma entries_loop rest entries said : entries_listed cp rest entries said ->
    forall fuel, (length rest < fuel)%nat -> items_loop fuel cp rest = (said, Ok (map PDict entries)).
  Proof.
    induction 1 as [rest H|rest entries said L Hn rt He _ IH]; intros fuel Hf; (destruct fuel as [|fuel]; [lia|]); cbn [items_loop].
    - assert (E : next_target cp rest = ret None).
      { destruct H as [-> |[L H]]; [reflexivity|]. destruct rest as [|x r]; [reflexivity|].
        unfold next_target, tf_target_class, tf_item_size, unpack_u16. rewrite read_at by lia. rewrite H. reflexivity. }
      now rewrite E, bind_ret_l.
    - destruct (item_says rest L Hn He) as (t & w1 & w2 & HN & HA & HW). rewrite HN, bind_Ok, HA. cbn [bind ret try_except fst snd].
      rewrite !app_nil_r.
      assert (HF : (length (dropN (num 2 0 rest) rest) < fuel)%nat).
      { assert (Hne : rest <> []) by (intros ->; cbn in L; lia). pose proof (dropN_shorter _ rest Hn Hne). lia. }
      rewrite (IH fuel HF). cbn [bind ret fst snd map]. rewrite app_nil_r. fold rt in HW. rewrite <- HW, <- app_assoc. reflexivity.
  Qed.
  Lemma entries_of rest entries said : entries_listed cp rest entries said -> items_of cp rest = (said, Ok (map PDict entries)).
  Proof. intros H. apply (entries_loop _ _ _ H). lia. Qed.
End Entries.

Lemma entries_total cp rest o : items_outcome rest o -> o = None -> exists entries said, entries_listed cp rest entries said.
Proof.
  induction 1 as [rest H| | |rest o L Hn He _ IH]; intros E; try discriminate E.
  - exists [], []. now apply entries_end.
  - destruct (IH E) as (en & sa & H). eexists _, _. now apply entries_next; [..|exact H].
Qed.
