(** * What is warned about before something cannot be read (C62) *)
From Verif Require Import Lemmas PyTime Codec Utils Sha256 Header StringData Targets Info Extra LnkFile.
From Verif Require Import Spec SpecText SpecHeader SpecTime SpecItems SpecInfo SpecExtra SpecOutcome SpecEntries SpecBlocks.
From Verif Require Import OutcomeProofs LayoutProofs CoreProofs FormatProofs EncProofs TextProofs TimeProofs HeaderProofs StringProofs ApiProofs.
From Verif Require Import ItemProofs ExtraProofs ExtraListProofs InfoProofs HeaderFileProofs ExactProofs EntryProofs AnyBlockProofs.

Lemma cut_at w i j b : 0 < w -> j = i + w -> lenN b < j -> unpack_le w (slice i j b) = raise StructError.
Proof. intros Hw -> H. rewrite unpack_at by assumption. now replace (i + w <=? lenN b) with false by lia. Qed.
Lemma guid_cut i j b : j = i + 16 -> lenN b < j -> parse_uuid (slice i j b) = raise StructError.
Proof. intros -> H. apply parse_uuid_short. rewrite lenN_slice. lia. Qed.
Lemma dostime_cut i j b : j = i + 4 -> lenN b < j -> parse_dostime (slice i j b) = raise StructError.
Proof. intros -> H. unfold parse_dostime, unpack_u32. now rewrite cut_at by lia. Qed.
Lemma says_fail {A B} (m : M A) (f : A -> M B) w a w' e :
  m = (w, Ok a) -> f a = (w', Err e) -> bind m f = (w ++ w', Err e).
Proof. intros -> H. rewrite bind_Ok, H. reflexivity. Qed.
Lemma then_fail {A B} (m : M A) (f : A -> M B) w a e :
  m = (w, Ok a) -> f a = raise e -> bind m f = (w, Err e).
Proof. intros -> H. rewrite bind_Ok, H. cbn. now rewrite app_nil_r. Qed.
Lemma fail_bind {A B} (m : M A) (f : A -> M B) w e : m = (w, Err e) -> bind m f = (w, Err e).
Proof. now intros ->. Qed.

Lemma few_class {A} ty (none file network root users : A) : ty < 256 ->
  match ty / 16 mod 8 with
  | 2 => none | 3 => file | 4 => network
  | _ => match ty with 0x1E | 0x1F => root | 0x74 => users | _ => none end
  end
  = match class_for ty with
    | ShellFSFolder => file | NetworkLocation => network | RootFolder => root | UsersFilesFolder => users | _ => none
    end.
Proof. intros Hlt. pattern ty. apply by_bytes; [|assumption]. intros b. destruct b; reflexivity. Qed.

Section Tried.
  Variable cp : cp_arg.
  Hypothesis Hcp : usable cp.

  Ltac rd := rewrite ?bind_ret_l; unfold unpack_u8, unpack_u16, unpack_u32;
    repeat (rewrite read_at by lia; rewrite ?bind_ret_l).
  Ltac cut := unfold unpack_u8, unpack_u16, unpack_u32; rewrite cut_at by lia; reflexivity.

  Lemma fs_tried rt : lenN rt < 12 -> fs_as_item cp rt = (file_entry_tried rt, Err StructError).
  Proof.
    intros L. unfold fs_as_item, fs_flags, fs_file_size, fs_modification_time, fs_file_attribute_flags, class_type_indicator, file_entry_tried.
    destruct (N.leb_spec 1 (lenN rt)) as [L1|L1]; [|replace (10 <=? lenN rt) with false by lia; cut]. rd.
    rewrite fs_folder by apply num1_lt. apply (says_fail _ _ _ (flags_text (num 1 0 rt))); [reflexivity|].
    destruct (N.leb_spec 6 (lenN rt)) as [L6|L6]; [rd|replace (10 <=? lenN rt) with false by lia; cut].
    destruct (N.leb_spec 10 (lenN rt)) as [L10|L10]; [|now rewrite dostime_cut by lia].
    rewrite dostime_at by lia. eapply then_fail; [reflexivity|]. cut.
  Qed.
  Lemma cpl_tried rt : lenN rt < 10 -> cpl_as_item cp rt = ([], Err StructError).
  Proof.
    intros L. unfold cpl_as_item, cpl_signature, cpl_file_path, cpl_name_string, cpl_comments, cpl_name_offset, cpl_comments_offset, cpl_strings_start.
    rewrite cpl_wide_code. unfold cpl_wide. replace (22 <=? lenN rt) with false by lia. cbn [andb].
    assert (ED : forall n, 10 <= n -> dropN n rt = []) by (intros n Hn; apply dropN_all; lia).
    destruct (N.leb_spec 6 (lenN rt)) as [L6|L6]; [rd|cut]. rewrite ED by lia.
    rewrite read_string_field by assumption. apply (says_fail _ _ [] (field_text cp [])); [reflexivity|].
    destruct (N.leb_spec 8 (lenN rt)) as [L8|L8]; [rd|cut]. rewrite ED by lia.
    rewrite read_string_field by assumption. apply (says_fail _ _ [] (field_text cp [])); [reflexivity|].
    cut.
  Qed.
  Lemma cat_tried rt : lenN rt < 10 -> cat_as_item rt = ([], Err StructError).
  Proof. intros L. unfold cat_as_item, cat_id. cut. Qed.
  Lemma rf_tried rt : lenN rt < 18 ->
    rf_as_item rt = (if 2 <=? lenN rt then unless_known (sort_name (num 1 1 rt)) (WSortIndex (num 1 1 rt)) else [], Err StructError).
  Proof.
    intros L. unfold rf_as_item, rf_sort_index_value. destruct (N.leb_spec 2 (lenN rt)) as [L2|L2]; [rd|cut].
    rewrite sort_index_spec by apply num1_lt. eapply then_fail; [reflexivity|].
    rewrite bind_ret_l. now rewrite guid_cut by lia.
  Qed.
  Lemma cpanel_tried rt : lenN rt < 30 -> cpanel_as_item rt = ([], Err StructError).
  Proof. intros L. unfold cpanel_as_item. now rewrite guid_cut by lia. Qed.
  Lemma mc_tried rt : 1 <= lenN rt -> N.testbit (num 1 0 rt) 0 = false -> lenN rt < 18 -> mc_as_item cp rt = ([], Err StructError).
  Proof.
    intros L Hty HG. destruct (volume_flags (num 1 0 rt) (num1_lt 0 rt)) as [EF EB].
    unfold mc_as_item, mc_has_name, mc_flags, class_type_indicator. rd. rewrite EB, Hty. now rewrite guid_cut by lia.
  Qed.
  Lemma uf_tried rt : after_all (needs 10 rt) (after_all (needs 12 (slice 10 (10 + num 2 8 rt) rt)) (needs (36 + num 2 2 rt) rt)) <> None ->
    uf_as_item cp rt
    = (let inner := slice 10 (10 + num 2 8 rt) rt in
       if lenN rt <? 10 then [] else if lenN inner <? 12 then file_entry_tried inner else file_entry_says cp inner, Err StructError).
  Proof.
    intros H. unfold uf_as_item, uf_delegate_offset, uf_inner_data_size, target_base_init, target_size. cbv zeta. unfold unpack_u16.
    unfold needs in H. destruct (N.ltb_spec (lenN rt) 10) as [L|L].
    - rewrite (cut_at 2 0 2 (dropN 8 rt)); [reflexivity|lia|reflexivity|rewrite lenN_dropN; unfold bytes in *; lia].
    - cbn [after_all] in H. rewrite (read_at 2 0 2 (dropN 8 rt)); [|lia|reflexivity|rewrite lenN_dropN; unfold bytes in *; lia].
      rewrite bind_ret_l, bind_ret_l. rewrite num_dropN, slice_dropN. change (8 + 0) with 8.
      replace (8 + 2) with 10 by reflexivity. replace (8 + (2 + num 2 8 rt)) with (10 + num 2 8 rt) by lia.
      set (inner := slice 10 (10 + num 2 8 rt) rt) in *.
      destruct (N.ltb_spec (lenN inner) 12) as [LI|LI]; [now apply fail_bind, fs_tried|]. cbn [after_all] in H.
      destruct (N.ltb_spec (lenN rt) (36 + num 2 2 rt)) as [LG|LG]; [|now destruct H].
      eapply then_fail; [now apply fs_says|]. rd.
      destruct (N.le_gt_cases (20 + num 2 2 rt) (lenN rt)) as [L1|L1].
      + rewrite guid_at by lia. rewrite bind_ret_l. rd. now rewrite guid_cut by lia.
      + now rewrite guid_cut by lia.
  Qed.
  (** The strings of a network location. *)
  Lemma network_tried rt :
    after_all (needs 3 rt) (if nuls (dropN 3 rt) <? extra_strings (num 1 2 rt) then Some RuntimeError else None) <> None ->
    nl_init_strings cp rt
    = (field_warning cp (network_location_at rt)
         ++ (if nuls (network_location_at rt) =? 0 then [] else opt_field_warning cp (network_description rt)),
       Err (if lenN rt <? 3 then StructError else StopIteration)).
  Proof.
    intros H. unfold nl_init_strings, network_description, network_location_at, nl_has_description, nl_has_comments, nl_content_flags.
    rewrite next_says by assumption. unfold needs in H. destruct (N.ltb_spec (lenN rt) 3) as [L|L].
    - rewrite dropN_all by lia. eapply says_fail; [reflexivity|]. cut.
    - cbn [after_all] in H. destruct (N.ltb_spec (nuls (dropN 3 rt)) (extra_strings (num 1 2 rt))) as [HN|HN]; [|now destruct H]. clear H.
      unfold extra_strings in HN. unfold unpack_u8. rewrite !read_at by lia. rewrite !bind_ret_l.
      rewrite !(testbit_mask _ 7), !(testbit_mask _ 6) by reflexivity.
      set (s0 := dropN 3 rt) in *. pose proof (fun H => nuls_after s0 H) as HA.
      eapply says_fail; [reflexivity|]. cbv iota. rewrite ?bind_ret_l.
      destruct (N.testbit (num 1 2 rt) 7) eqn:E7, (N.testbit (num 1 2 rt) 6) eqn:E6; cbn [opt_field_warning]; try lia.
      + destruct (N.eq_dec (nuls s0) 0) as [E0|E0].
        * rewrite E0. reflexivity.
        * replace (0 <? nuls s0) with true by lia. replace (nuls s0 =? 0) with false by lia.
          rewrite next_says by assumption. specialize (HA ltac:(lia)). replace (0 <? nuls (after_nul s0)) with false by lia.
          eapply then_fail; [apply says_ret; reflexivity|]. reflexivity.
      + assert (E0 : nuls s0 = 0) by lia. rewrite E0. reflexivity.
      + assert (E0 : nuls s0 = 0) by lia. rewrite E0. reflexivity.
  Qed.

  (** One item *)
  Lemma entry_tried_class ty rt : ty < 256 -> num 1 0 rt = ty ->
    entry_tried cp rt
    = match class_for ty with
      | ShellFSFolder => file_entry_tried rt
      | NetworkLocation =>
        field_warning cp (network_location_at rt)
        ++ (if nuls (network_location_at rt) =? 0 then [] else opt_field_warning cp (network_description rt))
      | RootFolder => if 2 <=? lenN rt then unless_known (sort_name (num 1 1 rt)) (WSortIndex (num 1 1 rt)) else []
      | UsersFilesFolder =>
        let inner := slice 10 (10 + num 2 8 rt) rt in
        if lenN rt <? 10 then [] else if lenN inner <? 12 then file_entry_tried inner else file_entry_says cp inner
      | _ => []
      end.
  Proof.
    intros Hlt Hty. unfold entry_tried. cbv zeta. rewrite Hty.
    exact (few_class ty [] _ _ _ _ Hlt).
  Qed.
  Lemma item_tried rest e : 3 <= lenN rest -> num 2 0 rest <> 0 ->
    let fields := slice 2 (2 + num 2 0 rest) rest in
    item_error (num 1 2 rest) fields = Some e ->
    next_target cp rest = (entry_tried cp fields, Err e)
    \/ exists t r, next_target cp rest = ([], Ok (Some (t, r))) /\ as_item cp t = (entry_tried cp fields, Err e).
  Proof.
    intros L Hn rt He.
    assert (E2 : unpack_le 2 (slice 0 2 rest) = ret (num 2 0 rest)) by (apply read_at; lia).
    assert (E4 : unpack_le 1 (slice 2 3 rest) = ret (num 1 2 rest)) by (apply read_at; lia).
    assert (Lrt : 1 <= lenN rt) by (unfold rt; rewrite lenN_slice; lia).
    assert (Hty : num 1 0 rt = num 1 2 rest).
    { unfold rt. revert Hn. generalize (num 2 0 rest). intros n Hn. unfold num, slice. rewrite dropN_0, takeN_takeN. f_equal. f_equal. lia. }
    set (ty := num 1 2 rest) in *. assert (Hlt : ty < 256) by apply num1_lt.
    assert (HT : next_target cp rest
      = in_generator (c <- class_step ty ;; t <- target_init c cp rest ;; ret (Some (t, dropN (num 2 0 rest) rest)))).
    { unfold next_target, tf_target_class, tf_item_size, tf_item_type, unpack_u16, unpack_u8.
      destruct rest as [|x r] eqn:ER; [cbn in L; lia|]. rewrite <- ER in *.
      rewrite E2, !bind_ret_l, E4, !bind_ret_l. apply N.eqb_neq in Hn. rewrite Hn. cbv zeta. rewrite bind_assoc.
      f_equal. fold ty. fold (class_step ty). destruct (class_step ty) as [w [c|x']]; [|reflexivity].
      cbn [bind]. rewrite bind_ret_l. destruct (target_init c cp rest) as [w' [t|x']]; reflexivity. }
    assert (HB : target_base_init rest = ret rt).
    { unfold target_base_init, target_size, unpack_u16. now rewrite E2, bind_ret_l. }
    assert (HI : forall c, c <> NetworkLocation -> target_init c cp rest = ret (Target c rest rt [] None None)).
    { intros c H. unfold target_init. rewrite HB, bind_ret_l. destruct c; try reflexivity. now destruct H. }
    assert (HF : error_for (class_for ty) ty rt = Some e).
    { rewrite <- He. clear -Hlt. revert rt. pattern ty. apply by_bytes; [|assumption]. intros b rt. symmetry. apply item_error_byte. }
    pose proof (class_says ty Hlt) as HC. pose proof (class_kinds ty Hlt) as HK. rewrite (entry_tried_class ty rt Hlt Hty).
    assert (HN : forall n, needs n rt = Some e -> lenN rt < n /\ e = StructError).
    { intros n. unfold needs. destruct (N.ltb_spec (lenN rt) n); [|discriminate]. intros [= <-]. now split. }
    assert (HG : forall c w, class_step ty = ([], Ok c) -> c <> NetworkLocation -> as_item cp (Target c rest rt [] None None) = (w, Err e) ->
      exists t r, next_target cp rest = ([], Ok (Some (t, r))) /\ as_item cp t = (w, Err e)).
    { intros c w Hc Hc2 Ha. exists (Target c rest rt [] None None), (dropN (num 2 0 rest) rest). split; [|exact Ha].
      rewrite HT, Hc, bind_Ok, HI by assumption. rewrite bind_ret_l. reflexivity. }
    destruct (class_for ty) eqn:EC; cbn [error_for] in HF; try discriminate HF; rewrite <- ?Hty in HK.
    - right. apply HN in HF as [HL ->]. eapply HG; [exact HC|discriminate|]. now apply cpl_tried.
    - right. apply HN in HF as [HL ->]. eapply HG; [exact HC|discriminate|]. now apply cat_tried.
    - right. apply HN in HF as [HL ->]. eapply HG; [exact HC|discriminate|]. now apply rf_tried.
    - right. destruct (N.testbit ty 0) eqn:E0; [discriminate HF|]. apply HN in HF as [HL ->]. eapply HG; [exact HC|discriminate|].
      exact (mc_tried rt Lrt (eq_trans (f_equal (fun x => N.testbit x 0) Hty) E0) HL).
    - right. apply HN in HF as [HL ->]. eapply HG; [exact HC|discriminate|]. now apply fs_tried.
    - left. rewrite HT, HC, bind_Ok. unfold target_init. rewrite HB, bind_ret_l, network_tried by congruence.
      unfold needs in HF. destruct (lenN rt <? 3); cbn [after_all] in HF.
      + injection HF as <-. reflexivity.
      + destruct (_ <? _) in HF; [|discriminate HF]. injection HF as <-. reflexivity.
    - right. apply HN in HF as [HL ->]. eapply HG; [exact HC|discriminate|]. now apply cpanel_tried.
    - right. assert (e = StructError) as ->.
      { unfold after_all, needs in HF. destruct (_ <? 10) in HF; [congruence|]. destruct (_ <? 12) in HF; [congruence|].
        destruct (_ <? 36 + _) in HF; congruence. }
      eapply HG; [exact HC|discriminate|]. apply uf_tried. congruence.
  Qed.

  (** The whole list *)
  Lemma tried_loop rest e said : entries_tried cp rest e said ->
    forall fuel, (length rest < fuel)%nat -> items_loop fuel cp rest = (said, Err e).
  Proof.
    induction 1 as [rest H|rest e L Hn rt He|rest e said L Hn rt He _ IH]; intros fuel Hf; (destruct fuel as [|fuel]; [lia|]); cbn [items_loop].
    - apply fail_bind. unfold next_target, tf_target_class, tf_item_size, tf_item_type, unpack_u16, unpack_u8.
      destruct rest as [|x r]; [cbn in H; lia|]. destruct H as [H|[H Hn]].
      + now rewrite cut_at by lia.
      + rewrite !read_at by lia. rewrite !bind_ret_l. apply N.eqb_neq in Hn. rewrite Hn. now rewrite cut_at by lia.
    - destruct (item_tried rest e L Hn He) as [HN|(t & r & HN & HA)]; [now apply fail_bind|]. rewrite HN. cbn [bind]. rewrite HA.
      assert (HK : is_key_error e = false) by (apply item_error_kinds in He; [destruct He; now subst|apply num1_lt]).
      cbn [bind try_except]. rewrite HK. reflexivity.
    - destruct (item_says cp Hcp rest L Hn He) as (t & w1 & w2 & HN & HA & HW). rewrite HN, bind_Ok, HA. cbn [bind ret try_except fst snd].
      rewrite !app_nil_r.
      assert (HF : (length (dropN (num 2 0 rest) rest) < fuel)%nat).
      { assert (Hne : rest <> []) by (intros ->; cbn in L; lia). pose proof (dropN_shorter _ rest Hn Hne). lia. }
      rewrite (IH fuel HF). cbn [bind ret fst snd map]. fold rt in HW. rewrite <- HW, <- app_assoc. reflexivity.
  Qed.
  Lemma tried_of rest e said : entries_tried cp rest e said -> items_of cp rest = (said, Err e).
  Proof. intros H. apply (tried_loop _ _ _ H). lia. Qed.
  Lemma tried_total rest o e : items_outcome rest o -> o = Some e -> exists said, entries_tried cp rest e said.
  Proof.
    induction 1 as [rest H|rest H|rest e' L Hn He|rest o L Hn He _ IH]; intros E; try discriminate E.
    - injection E as <-. eexists. now apply entries_cut.
    - injection E as ->. eexists. now apply entry_bad.
    - destruct (IH E) as [said HS]. eexists. now apply entry_before; [..|exact HS].
  Qed.
  Lemma tried_kinds rest e said : entries_tried cp rest e said -> e = StructError \/ e = RuntimeError.
  Proof.
    induction 1 as [rest H|rest e L Hn rt He|rest e said L Hn rt He _ IH]; [now left| |exact IH].
    apply item_error_kinds in He; [tauto|apply num1_lt].
  Qed.
End Tried.

(** ** Blocks *)
Definition fails {A} (m : M A) (w : list warning) : Prop := exists e, is_struct_or_value_error e = true /\ m = (w, Err e).
Lemma fails_bind {A B} (m : M A) (f : A -> M B) w : fails m w -> fails (bind m f) w.
Proof. intros (e & He & ->). now exists e. Qed.
Lemma fails_then {A B} (m : M A) (f : A -> M B) w a w' : m = (w, Ok a) -> fails (f a) w' -> fails (bind m f) (w ++ w').
Proof. intros -> (e & He & H). exists e. split; [assumption|]. now rewrite bind_Ok, H. Qed.
Lemma fields_stop k m rows w : fails m w -> fails (fields ((k, m) :: rows)) w.
Proof. intros H. cbn [fields]. now apply fails_bind. Qed.
Lemma fields_skip k m rows w v w' : m = (w, Ok v) -> fails (fields rows) w' -> fails (fields ((k, m) :: rows)) (w ++ w').
Proof. intros Hm H. cbn [fields]. eapply fails_then; [exact Hm|]. now apply fails_bind. Qed.
Lemma fields_skip0 k m rows v w : m = ([], Ok v) -> fails (fields rows) w -> fails (fields ((k, m) :: rows)) w.
Proof. intros Hm H. now apply (fields_skip _ _ _ [] v). Qed.

Lemma cut_fails {A} w i j b (f : N -> M A) : 0 < w -> j = i + w -> lenN b < j -> fails (bind (unpack_le w (slice i j b)) f) [].
Proof. intros Hw -> H. exists StructError. split; [reflexivity|]. now rewrite cut_at by lia. Qed.
Lemma u16_cut i raw : lenN raw < i + 2 -> fails (u16_field i raw) [].
Proof. intros H. now apply cut_fails. Qed.
Lemma u32_cut i raw : lenN raw < i + 4 -> fails (u32_field i raw) [].
Proof. intros H. now apply cut_fails. Qed.
Lemma i16_cut i raw : lenN raw < i + 2 -> fails (i16_field i raw) [].
Proof. intros H. unfold i16_field, unpack_i16. apply fails_bind. now apply cut_fails. Qed.
Lemma uuid_cut i raw : lenN raw < i + 16 -> fails (uuid_field i raw) [].
Proof. intros H. exists StructError. split; [reflexivity|]. unfold uuid_field. now rewrite guid_cut by lia. Qed.
Lemma must_cut {A} name e i j raw (f : N -> M A) : j = i + 4 -> lenN raw < j -> fails (bind (must_be_N name e (unpack_u32 (slice i j raw))) f) [].
Proof. intros -> H. apply fails_bind. unfold must_be_N. now apply cut_fails. Qed.

Ltac rows_until := lazymatch goal with
  | |- fails (fields ((_, u16_field ?i ?raw) :: _)) _ =>
    destruct (N.lt_ge_cases (lenN raw) (i + 2)); [first [exfalso; lia | apply fields_stop, u16_cut; assumption]|eapply fields_skip0; [apply u16_row; assumption|]; rows_until]
  | |- fails (fields ((_, i16_field ?i ?raw) :: _)) _ =>
    destruct (N.lt_ge_cases (lenN raw) (i + 2)); [first [exfalso; lia | apply fields_stop, i16_cut; assumption]|eapply fields_skip0; [apply i16_row; assumption|]; rows_until]
  | |- fails (fields ((_, u32_field ?i ?raw) :: _)) _ =>
    destruct (N.lt_ge_cases (lenN raw) (i + 4)); [first [exfalso; lia | apply fields_stop, u32_cut; assumption]|eapply fields_skip0; [apply u32_row; assumption|]; rows_until]
  | |- fails (fields ((_, uuid_field ?i ?raw) :: _)) _ =>
    destruct (N.lt_ge_cases (lenN raw) (i + 16)); [first [exfalso; lia | apply fields_stop, uuid_cut; assumption]|eapply fields_skip0; [apply uuid_row; assumption|]; rows_until]
  | |- fails (fields []) _ => exfalso; lia
  | _ => idtac
  end.

Lemma fixed_fails cp sig raw : usable cp -> 4 <= lenN raw -> lenN raw < fixed_bytes sig ->
  fails (extra_as_dict cp (Extra (class_of_sig sig) raw)) (fixed_tried cp sig raw).
Proof.
  intros Hcp L4 HB. pose proof (class_sig sig) as HC. unfold extra_as_dict. cbn [ex_class ex_raw].
  destruct (class_of_sig sig) eqn:EC; try subst sig; cbn [fixed_bytes fixed_tried] in *; try (exfalso; lia); try contradiction;
    unfold console_dict, tracker_dict, code_page_dict, special_folder_dict, known_folder_dict, base_fields; cbn [app];
    try (eapply fields_skip0; [now apply size_row|]).
  - destruct (N.leb_spec 44 (lenN raw)) as [HL|HL].
    + rows_until. rewrite <- (app_nil_r (wide_warning _)). eapply fields_skip; [apply ustr_row|]. rows_until.
    + rows_until; exfalso; lia.
  - destruct (N.leb_spec 12 (lenN raw)) as [HL|HL].
    + eapply fields_skip; [apply must_row; lia|]. destruct (N.leb_spec 16 (lenN raw)) as [HL'|HL'].
      * eapply fields_skip; [apply must_row; lia|]. rewrite <- (app_nil_r (field_warning _ _)). eapply fields_skip; [now apply str_row|]. rows_until.
      * apply fields_stop. apply must_cut; lia.
    + replace (16 <=? lenN raw) with false by lia. apply fields_stop. apply must_cut; lia.
  - rows_until.
  - rows_until.
  - rows_until.
  - exfalso. assert (E2 : fixed_bytes sig = 0).
    { clear -EC. revert EC. unfold fixed_bytes, class_of_sig.
      repeat match goal with |- context [match ?p with _ => _ end] =>
        is_var p; destruct p; try reflexivity; try (intros EC; discriminate EC) end. }
    lia.
Qed.

(** *** Property stores *)
Lemma elements_fail fuel : forall r, (length r < fuel)%nat -> (forall l, ~ elements r l) -> sized_suffixes fuel r = raise StructError.
Proof.
  induction fuel as [|fuel IH]; intros r Hf HN; [lia|]. cbn [sized_suffixes]. unfold unpack_u32.
  destruct (N.lt_ge_cases (lenN r) 4) as [L|L]; [now rewrite cut_at by lia|]. rewrite read_at, bind_ret_l by lia.
  destruct (num 4 0 r =? 0) eqn:E; [exfalso; apply (HN []); apply no_more; lia|].
  rewrite IH; [reflexivity| |].
  - pose proof (lenN_dropN (num 4 0 r) r) as HL. unfold bytes, lenN in *. lia.
  - intros l Hl. apply (HN (r :: l)). apply one_more; [lia..|assumption].
Qed.
Lemma elements_either r : (exists l, elements r l) \/ forall l, ~ elements r l.
Proof.
  destruct (snd (sized_suffixes (S (length r)) r)) as [l|e] eqn:E; [left; exists l; now apply elements_complete in E|].
  right. intros l H. apply elements_sound with (fuel := S (length r)) in H; [|lia]. rewrite H in E. discriminate E.
Qed.

(** [T] gives the warnings of [m] whenever it fails with a caught error, [P] its result. *)
Definition tries (m : M dict) (T : list warning -> Prop) : Prop :=
  (forall w, T w -> fails m w) /\ (forall e, snd m = Err e -> is_struct_or_value_error e = true -> exists w, T w).
Lemma tries_iff m T : tries m T -> forall w, T w <-> fails m w.
Proof.
  intros [H1 H2] w. split; [apply H1|]. intros (e & He & H). destruct (H2 e) as [w' H']; [now rewrite H|assumption|].
  apply H1 in H' as H''. destruct H'' as (e' & _ & H''). rewrite H in H''. now injection H'' as -> _.
Qed.
Lemma each_fails (f : bytes -> M dict) P T l w :
  (forall a, settles (f a) (P a)) -> (forall a, tries (f a) (T a)) -> each_tried P T l w -> fails (mapM f l) w.
Proof.
  intros HS HT. induction 1 as [a l w Ha|a l d w ws Ha _ IH]; cbn [mapM].
  - apply fails_bind. now apply HT.
  - eapply fails_then; [exact (proj1 (HS a) _ _ Ha)|]. now apply fails_bind.
Qed.
Lemma each_either (f : bytes -> M dict) P T l e :
  (forall a, settles (f a) (P a)) -> (forall a, tries (f a) (T a)) -> snd (mapM f l) = Err e -> is_struct_or_value_error e = true ->
  exists w, each_tried P T l w.
Proof.
  intros HS HT H He. induction l as [|a l IH]; cbn [mapM] in H; [discriminate|].
  destruct (f a) as [w [d|x]] eqn:E.
  - cbn [bind] in H. destruct (mapM f l) as [ws [ds|x]] eqn:EM; [discriminate H|]. destruct (IH H) as [w' Hw].
    destruct (proj2 (HS a) d) as (d' & w'' & HP); [now rewrite E|]. exists (w'' ++ w'). now apply tried_later with d'.
  - destruct (proj2 (HT a) e) as [w' Hw]; [rewrite E; cbn [bind snd] in *; congruence|assumption|]. exists w'. now apply tried_here.
Qed.

Lemma value_fails v : (forall d w, ~ value_at v d w) -> fails (fields (value_rows v)) [].
Proof.
  intros HN. unfold value_rows, tv_value, tv_value_padding, tv_value_type, unpack_u16, unpack_u32.
  destruct (N.lt_ge_cases (lenN v) 4) as [L|L]; [apply fields_stop; apply cut_fails; lia|].
  rewrite !read_at by lia. rewrite !bind_ret_l.
  assert (HT : (num 2 2 v <> 0 \/ num 2 0 v <> 0x1F /\ num 2 0 v <> 0x02) -> fails (property_type_name (num 2 0 v)) []).
  { intros Hk. unfold property_type_name. destruct (assocN (num 2 0 v) PropertyType) as [name|] eqn:E; [|now exists ValueError].
    exfalso. eapply HN. apply value_none; [lia|exact Hk|]. rewrite <- type_names. apply assocN_some. exact E. }
  destruct (num 2 2 v =? 0) eqn:E; cbn [negb].
  - destruct (num 2 0 v =? 2) eqn:E2.
    + apply fields_stop. unfold unpack_i32. apply fails_bind. exists StructError. split; [reflexivity|].
      rewrite unpack_le_bad by (rewrite lenN_slice; lia). reflexivity.
    + rewrite ?bind_ret_l. destruct (num 2 0 v =? 31) eqn:E3.
      * apply fields_stop. destruct (N.lt_ge_cases (lenN v) 8) as [L8|L8]; [apply cut_fails; lia|].
        exfalso. eapply HN. apply value_text; [lia..|reflexivity].
      * eapply fields_skip0; [reflexivity|]. apply fields_stop. apply HT. right. lia.
  - eapply fields_skip0; [reflexivity|]. apply fields_stop. apply HT. left. lia.
Qed.
Lemma property_tries (named : bool) p :
  tries ((if named then string_name_dict else integer_name_dict) p) (property_tried named p).
Proof.
  assert (HF : (forall d w', ~ property_at named p d w') ->
    fails ((if named then string_name_dict else integer_name_dict) p) (if named && (8 <=? lenN p) then wide_warning (slice 9 (9 + num 4 4 p) p) else [])).
  { intros HN. unfold string_name_dict, integer_name_dict, pv_value_size, sn_value_offset, sn_name_size, u32_field, unpack_u32.
    destruct (N.leb_spec 8 (lenN p)) as [L|L].
    - rewrite andb_true_r. destruct named; rewrite !read_at by lia.
      + rewrite !bind_ret_l. do 2 (eapply fields_skip0; [reflexivity|]).
        rewrite <- (app_nil_r (wide_warning _)). eapply fields_skip; [apply says_ret, read_unicode_field|].
        apply value_fails. intros d w HV. eapply HN. apply named_property; [reflexivity|lia|exact HV].
      + do 2 (eapply fields_skip0; [reflexivity|]).
        apply value_fails. intros d w HV. eapply HN. apply numbered_property; [reflexivity|lia|exact HV].
    - rewrite andb_false_r. destruct (N.lt_ge_cases (lenN p) 4) as [L4|L4].
      + destruct named; apply fields_stop, cut_fails; lia.
      + destruct named; rewrite (read_at 4 0 4) by lia;
        (eapply fields_skip0; [reflexivity|]; apply fields_stop, cut_fails; lia). }
  split.
  - intros w [HN ->]. now apply HF.
  - intros e He _. eexists. split; [|reflexivity]. intros d w HP. apply (proj1 (property_settles named p)) in HP. rewrite HP in He. discriminate He.
Qed.

Lemma storage_tries s : tries (storage_dict s) (storage_tried s).
Proof.
  assert (HC : lenN s < 24 \/ (forall ps, ~ elements (dropN 24 s) ps) -> fails (storage_dict s) []).
  { intros H. unfold storage_dict, serialized_property_values, ps_format_id, u32_field, unpack_u32.
    destruct (N.lt_ge_cases (lenN s) 4) as [L4|L4]; [apply fields_stop, cut_fails; lia|]. rewrite (read_at 4 0 4) by lia.
    eapply fields_skip0; [reflexivity|].
    destruct (N.lt_ge_cases (lenN s) 8) as [L8|L8]; [apply fields_stop, cut_fails; lia|]. rewrite (read_at 4 4 8) by lia.
    eapply fields_skip0; [reflexivity|].
    destruct (N.lt_ge_cases (lenN s) 24) as [L|L].
    - apply fields_stop. exists StructError. split; [reflexivity|]. now rewrite guid_cut by lia.
    - destruct H as [H|H]; [lia|]. rewrite !guid_at by lia. rewrite !bind_ret_l. eapply fields_skip0; [reflexivity|].
      apply fields_stop. cbv zeta. rewrite elements_fail; [now exists StructError|apply length_drop|exact H]. }
  set (b := text_eqb (guid_text (slice 8 24 s)) (s2t "D5CDD505-2E9C-101B-9397-08002B2CF9AE")).
  assert (HO : 24 <= lenN s -> forall ps, elements (dropN 24 s) ps -> exists rest,
    storage_dict s = fields [("storage_size", ret (PN (num 4 0 s))); ("version", ret (PStr (hex_text (num 4 4 s)))); ("format_id", ret (PStr (guid_text (slice 8 24 s))));
      ("serialized_property_values", ds <- mapM (if b then string_name_dict else integer_name_dict) ps ;; rest ds)]%string
    /\ forall ds, rest ds = ret (PList (map PDict ds))).
  { intros L ps HE. eexists. split; [|intros ds; reflexivity].
    unfold storage_dict, serialized_property_values, ps_format_id, u32_field, unpack_u32. rewrite !read_at by lia. rewrite !guid_at by lia.
    rewrite !bind_ret_l. cbv zeta. rewrite (elements_sound _ _ HE) by apply length_drop. rewrite !bind_ret_l. reflexivity. }
  split.
  - intros w [H|named ps w' L HN HE HT]; [now apply HC|].
    assert (Eb : b = named).
    { pose proof (named_reflects s L) as HR. fold b in HR. destruct b, named; try reflexivity.
      - symmetry. apply HN, HR. reflexivity.
      - apply HR, HN. reflexivity. }
    destruct (HO L ps HE) as (rest & -> & _). do 3 (eapply fields_skip0; [reflexivity|]). apply fields_stop, fails_bind.
    rewrite Eb. eapply each_fails; [apply property_settles|apply property_tries|exact HT].
  - intros e He Hc. destruct (N.lt_ge_cases (lenN s) 24) as [L|L]; [exists []; apply storage_cut; now left|].
    destruct (elements_either (dropN 24 s)) as [[ps HE]|HE]; [|exists []; apply storage_cut; now right].
    destruct (HO L ps HE) as (rest & E & HR). rewrite E in He. cbn [fields] in He. rewrite !bind_ret_l in He.
    destruct (mapM (if b then string_name_dict else integer_name_dict) ps) as [ws [ds|x]] eqn:EM.
    { cbn [bind] in He. rewrite HR in He. discriminate He. }
    cbn [bind snd] in He. injection He as ->.
    destruct (each_either _ (property_at b) (property_tried b) ps e (property_settles b) (property_tries b)) as [w Hw];
      [now rewrite EM|exact Hc|]. exists w. eapply storage_fails; [exact L| |exact HE|exact Hw]. now apply named_reflects.
Qed.

(** *** Any block *)
Lemma block_tries cp sig raw : usable cp -> 4 <= lenN raw ->
  tries (extra_as_dict cp (Extra (class_of_sig sig) raw)) (block_tried cp sig raw).
Proof.
  intros Hcp L. split.
  - intros w [HL| -> HE|ss w' -> HE HT|w' -> HT].
    + now apply fixed_fails.
    + unfold extra_as_dict. cbn [class_of_sig ex_class ex_raw]. unfold metadata_dict, base_fields. cbn [app].
      eapply fields_skip0; [now apply size_row|]. apply fields_stop. rewrite elements_fail; [now exists StructError|apply length_drop|exact HE].
    + unfold extra_as_dict. cbn [class_of_sig ex_class ex_raw]. unfold metadata_dict, base_fields. cbn [app].
      eapply fields_skip0; [now apply size_row|]. apply fields_stop. rewrite (elements_sound _ _ HE) by apply length_drop.
      rewrite bind_ret_l. apply fails_bind. eapply each_fails; [apply storage_settles|apply storage_tries|exact HT].
    + unfold extra_as_dict. cbn [class_of_sig ex_class ex_raw]. unfold shell_item_dict, base_fields. cbn [app].
      eapply fields_skip0; [now apply size_row|]. apply fields_stop. rewrite base_size_num, bind_ret_l by assumption.
      apply fails_bind. exists StructError. split; [reflexivity|]. now apply tried_of.
  - intros e H Hc. destruct (N.eq_dec sig 0xA0000006) as [->|N1]; [|destruct (N.eq_dec sig 0xA0000009) as [->|N2]; [|destruct (N.eq_dec sig 0xA000000C) as [->|N3]]].
    + exfalso. unfold extra_as_dict in H. cbn [class_of_sig ex_class ex_raw] in H.
      destruct (block_settles cp 0xA0000006 raw Hcp L) as [HS _].
      destruct (darwin_outcome cp raw Hcp L) as [HD _].
      assert (HH : short_descriptor (wide_text (slice 268 788 raw)) -> e = IndexError) by (intros HX; rewrite (HD HX) in H; congruence).
      assert (HK : ~ short_descriptor (wide_text (slice 268 788 raw))) by (intros HX; rewrite (HH HX) in Hc; discriminate Hc).
      rewrite (darwin_sound cp Hcp raw L HK) in H. discriminate H.
    + unfold extra_as_dict in H. cbn [class_of_sig ex_class ex_raw] in H. unfold metadata_dict, base_fields in H. cbn [app] in H.
      destruct (elements_either (dropN 8 raw)) as [[ss HE]|HE]; [|exists []; now apply store_cut].
      rewrite (elements_sound _ _ HE) in H by apply length_drop. cbn [fields] in H. rewrite size_row in H by assumption.
      rewrite !bind_ret_l in H. cbn [bind] in H.
      destruct (mapM storage_dict ss) as [ws [ds|x]] eqn:EM; [discriminate H|]. cbn [bind snd] in H. injection H as ->.
      destruct (each_either _ storage_at storage_tried ss e storage_settles storage_tries) as [w Hw]; [now rewrite EM|exact Hc|].
      exists w. now apply store_fails with ss.
    + unfold extra_as_dict in H. cbn [class_of_sig ex_class ex_raw] in H.
      destruct (items_outcome_total (slice 8 (num 4 0 raw) raw)) as [o Ho]. pose proof (shell_outcome cp raw o Hcp L Ho) as HO.
      destruct o as [x|]; cbn [outcome_is] in HO.
      * rewrite HO in H. injection H as ->. destruct (tried_total cp _ _ e Ho eq_refl) as [w Hw]. exists w. apply id_list_fails; [reflexivity|].
        assert (e = StructError) as ->; [|exact Hw]. apply tried_kinds in Hw as [->| ->]; [reflexivity|discriminate Hc].
      * destruct HO as [d HO]. rewrite HO in H. discriminate H.
    + destruct (N.lt_ge_cases (lenN raw) (fixed_bytes sig)) as [HL|HL]; [eexists; now apply fixed_cut|].
      exfalso. destruct (fixed_report cp sig raw) as [d|] eqn:EF.
      * rewrite (fixed_sound cp Hcp sig raw d L EF HL) in H. discriminate H.
      * pose proof (class_sig sig) as HC.
        destruct (class_of_sig sig) eqn:EC; try contradiction; try (subst sig; cbn [fixed_report] in EF; discriminate EF); try congruence.
        assert (E1 : fixed_report cp sig raw = Some [("extra_data_sha256"%string, PStr (sha256_hex (dropN 4 raw)))]).
        { unfold fixed_report. etransitivity; [refine (sig_choice_class (A := option dict) sig _ _ _ _ _ _ _ _ _ _ _ _)|now rewrite EC]. }
        congruence.
Qed.

(** ** All blocks of a file *)
Lemma block_of sig raw : mk_block (sig, raw) = Extra (class_of_sig sig) raw.
Proof. unfold mk_block. cbn [fst snd]. now rewrite sig_class_num. Qed.
Lemma block_tried_iff cp sig e : usable cp -> extra_name (ex_class e) = block_name sig -> 4 <= lenN (ex_raw e) ->
  forall w, block_tried cp sig (ex_raw e) w <-> fails (extra_as_dict cp e) w.
Proof.
  intros Hcp HN L. rewrite <- block_name_class, sig_class_num in HN. apply extra_name_inj in HN. destruct e as [c raw].
  cbn [ex_class ex_raw] in *. subst c. apply tries_iff. now apply block_tries.
Qed.
Lemma block_left_out_iff cp sig e : usable cp -> extra_name (ex_class e) = block_name sig -> 4 <= lenN (ex_raw e) ->
  forall w, block_tried cp sig (ex_raw e) w <-> exists x, (x = StructError \/ x = ValueError) /\ extra_as_dict cp e = (w, Err x).
Proof.
  intros Hcp HN L w. rewrite (block_tried_iff cp sig e Hcp HN L w). split.
  - intros (x & Hx & H). exists x. split; [|assumption]. clear -Hx. destruct x; (discriminate Hx || tauto).
  - intros (x & Hx & H). exists x. split; [|assumption]. now destruct Hx as [->| ->].
Qed.
Lemma blocks_settle cp blocks : usable cp -> sizes_readable blocks -> Forall (decodable cp) (map mk_block blocks) ->
  blocks_read cp blocks (flat_map (decoded cp) (map mk_block blocks)) (flat_map (decode_warnings cp) (map mk_block blocks)).
Proof.
  intros Hcp. induction 1 as [|[sig raw] blocks L _ IH]; intros HD; [constructor|]. cbn [map flat_map] in *. cbn [snd] in L.
  inversion_clear HD as [|? ? HD1 HD2]. specialize (IH HD2).
  destruct (block_settles cp sig raw Hcp L) as [H1 H2].
  assert (EN : extra_name (class_of_sig sig) = block_name sig) by (now rewrite <- sig_class_num, block_name_class).
  rewrite block_of in *. unfold decodable in HD1. unfold decoded at 1, decode_warnings at 1. cbn [ex_class]. rewrite EN.
  destruct (snd (extra_as_dict cp (Extra (class_of_sig sig) raw))) as [d|x] eqn:ED.
  - destruct (H2 _ eq_refl) as (d' & w' & HB). pose proof (H1 _ _ HB) as HX. rewrite HX in ED |- *. injection ED as <-.
    cbn [fst app]. rewrite app_nil_r. now apply block_kept.
  - cbn [app]. rewrite <- app_assoc. cbn [app]. apply block_left_out; [|exact IH].
    apply (tries_iff _ _ (block_tries cp sig raw Hcp L)). exists x. split; [exact HD1|]. rewrite <- ED. now destruct (extra_as_dict _ _).
Qed.
Lemma block_either cp sig raw d w w' : usable cp -> 4 <= lenN raw -> block_read cp sig raw d w -> ~ block_tried cp sig raw w'.
Proof.
  intros Hcp L HB HT. apply (proj1 (block_settles cp sig raw Hcp L)) in HB. apply (proj1 (block_tries cp sig raw Hcp L)) in HT as (e & _ & HT).
  rewrite HB in HT. discriminate HT.
Qed.
Lemma block_tried_det cp sig raw w1 w2 : usable cp -> 4 <= lenN raw -> block_tried cp sig raw w1 -> block_tried cp sig raw w2 -> w1 = w2.
Proof.
  intros Hcp L H1 H2. apply (proj1 (block_tries cp sig raw Hcp L)) in H1 as (e1 & _ & H1).
  apply (proj1 (block_tries cp sig raw Hcp L)) in H2 as (e2 & _ & H2). rewrite H1 in H2. now injection H2 as <- _.
Qed.
Lemma blocks_read_det cp blocks l1 w1 l2 w2 : usable cp -> sizes_readable blocks ->
  blocks_read cp blocks l1 w1 -> blocks_read cp blocks l2 w2 -> l1 = l2 /\ w1 = w2.
Proof.
  intros Hcp HS H1. revert l2 w2. induction H1 as [|sig raw rest d w l ws HB H1 IH|sig raw rest w l ws HB H1 IH]; intros l2 w2 H2.
  - now inversion H2.
  - inversion_clear HS as [|? ? HL HS']. cbn [snd] in HL. inversion H2 as [|? ? ? d2 w3 l3 ws3 HB2 H3|? ? ? w3 l3 ws3 HB2 H3]; subst.
    + destruct (block_read_det _ _ _ _ _ _ _ Hcp HL HB HB2) as [<- <-]. destruct (IH HS' _ _ H3) as [<- <-]. now split.
    + exfalso. now apply (block_either _ _ _ _ _ _ Hcp HL HB HB2).
  - inversion_clear HS as [|? ? HL HS']. cbn [snd] in HL. inversion H2 as [|? ? ? d2 w3 l3 ws3 HB2 H3|? ? ? w3 l3 ws3 HB2 H3]; subst.
    + exfalso. now apply (block_either _ _ _ _ _ _ Hcp HL HB2 HB).
    + rewrite (block_tried_det _ _ _ _ _ Hcp HL HB HB2). destruct (IH HS' _ _ H3) as [<- <-]. now split.
Qed.

(** What stands behind the blocks. *)
Lemma tail_settles cp allow r :
  flat_map (decoded cp) (tail_blocks allow r) = behind_blocks allow r /\ flat_map (decode_warnings cp) (tail_blocks allow r) = [].
Proof.
  unfold tail_blocks, behind_blocks. destruct (allow && (4 <? lenN r) && (num 4 0 r =? 0)) eqn:E; [|now split].
  assert (HL : 4 < lenN r). { apply andb_true_iff in E as [E _]. apply andb_true_iff in E as [_ E]. lia. }
  cbn [flat_map]. unfold decoded, decode_warnings, extra_as_dict, terminal_dict, terminal_size. cbn [ex_class ex_raw fields].
  rewrite !bind_ret_l. split; [|reflexivity]. cbn [snd ret app]. rewrite lenN_dropN. replace (4 + (lenN r - 4)) with (lenN r) by lia. reflexivity.
Qed.

Theorem extra_settled b cp allow l all d : usable cp -> snd (lnk_init (FromBytes b) cp allow) = Ok l -> snd (get_json l all) = Ok d ->
  exists blocks r entries said, block_walk (dropN (string_data_end b) b) blocks r
  /\ blocks_read cp blocks entries said
  /\ fst (extras_as_dict cp (l_extras l)) = said
  /\ reported_extra d = Some (collect (entries ++ behind_blocks allow r)).
Proof.
  intros Hcp Hl Hd. rewrite (extra_reported b cp allow l all d Hcp Hl Hd).
  apply extra_of_report in Hd as (e & He & _). assert (Hc : l_cp l = cp) by (now apply file_extras in Hl as (? & _)). rewrite Hc in He.
  rewrite (extras_of_file b cp allow l e Hcp Hl He). cbn [fst].
  apply extras_decodable in He.
  destruct (file_extras b cp allow l Hcp Hl) as (_ & blocks & r & HW & HS & HE). rewrite HE in He |- *. rewrite !flat_map_app.
  apply Forall_app in He as [HD _].
  destruct (tail_settles cp allow r) as [-> ->]. rewrite app_nil_r.
  do 4 eexists. split; [exact HW|]. split; [now apply blocks_settle|]. now split.
Qed.
