(** * Asking items and blocks for single fields (C74): each method *)
From Verif Require Import ApiProofs ShapeProofs ReportProofs CommandProofs.
From Verif Require Import Lemmas PyTime Codec Utils Sha256 Header StringData Targets Info Extra LnkFile Json Report.
From Verif Require Import Spec SpecText SpecHeader SpecTime SpecItems SpecInfo SpecExtra SpecCommand SpecOutcome SpecEntries SpecBlocks SpecFailure SpecRun.
From Verif Require Import OutcomeProofs LayoutProofs CoreProofs FormatProofs EncProofs TextProofs HeaderProofs StringProofs ItemProofs ExtraProofs ExtraListProofs.
From Verif Require Import EntryProofs AnyBlockProofs TriedProofs ExactProofs FailureProofs.
From Verif Require Import Walk SpecWalk WalkItemProofs WalkBlockProofs Pieces SpecPieces.

(** ** Fields *)
Lemma number_model w i j f : 0 < w -> j = i + w -> number_read (unpack_le w (slice i j f)) = number w i f.
Proof.
  intros Hw ->. unfold number, have. destruct (N.leb_spec (i + w) (lenN f)) as [L|L]; unfold number_read.
  - now rewrite read_at by lia.
  - now rewrite cut_at by lia.
Qed.
Lemma guid_model i j f : j = i + 16 -> text_read (parse_uuid (slice i j f)) = guid_there i f.
Proof.
  intros ->. unfold guid_there, have. destruct (N.leb_spec (i + 16) (lenN f)) as [L|L]; unfold text_read.
  - now rewrite guid_at by lia.
  - now rewrite guid_cut by lia.
Qed.
Lemma string_model u cp s : usable cp ->
  text_read (if u : bool then read_unicode_string s else read_string cp s) = string_there u cp s.
Proof. intros Hcp. unfold text_read. rewrite stored_says by assumption. cbn. now rewrite app_nil_r. Qed.
Lemma wide_model s : text_read (read_unicode_string s) = wide_there s.
Proof. unfold text_read. rewrite read_unicode_field. cbn. now rewrite app_nil_r. Qed.
Lemma page_model cp s : usable cp -> text_read (read_string cp s) = page_there cp s.
Proof. intros Hcp. exact (string_model false cp s Hcp). Qed.

(** A number is read first. *)
Lemma first_read {A} w i j f (k : N -> M A) (spec : M A) :
  0 < w -> j = i + w -> (j <= lenN f -> k (num w i f) = spec) -> (lenN f < j -> spec = raise StructError) ->
  bind (unpack_le w (slice i j f)) k = spec.
Proof.
  intros Hw -> H1 H2. destruct (N.lt_ge_cases (lenN f) (i + w)) as [L|L].
  - rewrite cut_at by lia. symmetry. now apply H2.
  - rewrite read_at by lia. rewrite bind_ret_l. now apply H1.
Qed.
Lemma have_yes n f r : n <= lenN f -> have n f r = r.
Proof. intros L. unfold have. now replace (n <=? lenN f) with true by lia. Qed.
Lemma have_no n f r : lenN f < n -> have n f r = fails_with StructError.
Proof. intros L. unfold have. now replace (n <=? lenN f) with false by lia. Qed.
Lemma folder_model i j f : i = 0 -> j = 1 ->
  name_read (flags <- unpack_u8 (slice i j f) ;; get_item_shell_fs_folder (N.land flags 0x0F))
  = have 1 f (flags_warning (num 1 0 f), Ok (Plain (PS (flags_text (num 1 0 f))))).
Proof.
  intros -> ->. unfold name_read, unpack_u8. rewrite bind_assoc. apply first_read; [lia|reflexivity| |].
  - intros L. rewrite have_yes by lia. rewrite fs_folder by apply num1_lt. cbn. now rewrite app_nil_r.
  - intros L. now rewrite have_no by lia.
Qed.

Section Items.
  Variable cp : cp_arg.
  Hypothesis Hcp : usable cp.

  Lemma common_model f m : ask_base f m = common_field f m.
  Proof.
    destruct m; cbn [ask_base common_field]; try reflexivity.
    - unfold class_type_indicator, unpack_u8. now apply number_model.
    - unfold has_unicode_strings, class_type_indicator, unpack_u8. rewrite bind_assoc. apply first_read; [lia|reflexivity| |].
      + intros L. rewrite have_yes by lia. rewrite bind_ret_l. now rewrite (testbit_mask _ 2) by reflexivity.
      + intros L. now rewrite have_no by lia.
  Qed.
  Lemma file_model f m : ask_file_entry cp f m = file_field cp f m.
  Proof.
    destruct m; cbn [ask_file_entry file_field]; try (exact (common_model f _)); try reflexivity.
    - unfold fs_flags, class_type_indicator. now apply folder_model.
    - unfold fs_file_size, unpack_u32. now apply number_model.
    - unfold fs_modification_time. destruct (N.lt_ge_cases (lenN f) 10) as [L|L].
      + now rewrite dostime_cut, have_no by lia.
      + rewrite dostime_at, have_yes by lia. rewrite bind_Ok. cbn. now rewrite app_nil_r.
    - unfold fs_file_attribute_flags, unpack_u16. now apply number_model.
    - unfold text_read, fs_primary_name, has_unicode_strings, class_type_indicator, unpack_u8. cbv zeta. rewrite !bind_assoc.
      apply first_read; [lia|reflexivity| |]; intros L; [rewrite have_yes by lia|now rewrite have_no by lia].
      rewrite bind_ret_l. rewrite (testbit_mask _ 2) by reflexivity. now apply string_model.
  Qed.
  Lemma volume_model f m : ask_volume cp f m = volume_field cp f m.
  Proof.
    destruct (volume_flags (num 1 0 f) (num1_lt 0 f)) as [EF EB].
    destruct m; cbn [ask_volume volume_field]; try (exact (common_model f _)); unfold number_read, mc_has_name, mc_flags, class_type_indicator, unpack_u8;
      cbv zeta; rewrite !bind_assoc;
      (apply first_read; [lia|reflexivity| |]; intros L; [rewrite have_yes by lia|now rewrite have_no by lia]).
    - rewrite bind_ret_l. unfold simply. do 4 f_equal. rewrite (N.land_ones _ 4 : N.land _ 15 = _ mod 16). reflexivity.
    - rewrite !bind_ret_l. rewrite EB. destruct (N.testbit (num 1 0 f) 0); [now apply page_model|reflexivity].
    - rewrite !bind_ret_l. rewrite EB. destruct (N.testbit (num 1 0 f) 0); [reflexivity|now apply guid_model].
  Qed.
  Lemma root_model f m : ask_root f m = root_field f m.
  Proof.
    destruct m; cbn [ask_root root_field]; try (exact (common_model f _)); try reflexivity.
    - unfold rf_sort_index_value, unpack_u8. now apply number_model.
    - unfold name_read, rf_sort_index_value, unpack_u8. rewrite bind_assoc. cbv zeta.
      apply first_read; [lia|reflexivity| |]; intros L; [rewrite have_yes by lia|now rewrite have_no by lia].
      rewrite sort_index_spec by apply num1_lt. rewrite bind_Ok. cbn. now rewrite app_nil_r.
    - now apply guid_model.
  Qed.
  Lemma panel_model f m : ask_panel f m = panel_field f m.
  Proof. destruct m; cbn [ask_panel panel_field]; try (exact (common_model f _)). now apply guid_model. Qed.
  Lemma category_model f m : ask_category f m = category_field f m.
  Proof.
    destruct m; cbn [ask_category category_field]; try (exact (common_model f _)).
    - unfold unpack_u32. now apply number_model.
    - unfold cat_id, unpack_u32. now apply number_model.
    - unfold name_read, cat_category, cat_id, unpack_u32. rewrite bind_assoc. cbv zeta.
      apply first_read; [lia|reflexivity| |]; intros L; [rewrite have_yes by lia|now rewrite have_no by lia].
      rewrite category_spec, bind_Ok. cbn. now rewrite app_nil_r.
  Qed.
  Lemma cpl_model f m : ask_cpl cp f m = cpl_field cp f m.
  Proof.
    assert (H22 : cpl_wide f = true -> 22 <= lenN f).
    { unfold cpl_wide. destruct (N.leb_spec 22 (lenN f)); [trivial|discriminate]. }
    destruct m; cbn [ask_cpl cpl_field]; try (exact (common_model f _)).
    - unfold text_read, cpl_comments, cpl_comments_offset, cpl_comments_offset_of, cpl_string, cpl_strings_start. rewrite cpl_wide_code.
      unfold unpack_u16. cbv zeta. destruct (cpl_wide f) eqn:E; [specialize (H22 eq_refl)|]; rewrite !bind_assoc.
      + rewrite have_yes by lia. rewrite read_at, bind_ret_l by lia. destruct (num 2 20 f =? 0); [reflexivity|].
        rewrite (N.mul_comm _ 2). exact (string_model true cp _ Hcp).
      + apply first_read; [lia|reflexivity| |]; intros L; [rewrite have_yes by lia|now rewrite have_no by lia].
        destruct (num 2 8 f =? 0); [reflexivity|]. exact (string_model false cp _ Hcp).
    - unfold cpl_signature, unpack_u32. now apply number_model.
    - unfold cpl_file_path, cpl_string, cpl_strings_start. rewrite cpl_wide_code. cbv zeta. rewrite N.mul_0_r, !N.add_0_r.
      destruct (cpl_wide f); [exact (string_model true cp _ Hcp)|exact (string_model false cp _ Hcp)].
    - unfold text_read, cpl_name_string, cpl_name_offset, cpl_name_offset_of, cpl_string, cpl_strings_start. rewrite cpl_wide_code.
      unfold unpack_u16. cbv zeta. destruct (cpl_wide f) eqn:E; [specialize (H22 eq_refl)|]; rewrite !bind_assoc.
      + rewrite have_yes by lia. rewrite read_at, bind_ret_l by lia. rewrite (N.mul_comm _ 2). exact (string_model true cp _ Hcp).
      + apply first_read; [lia|reflexivity| |]; intros L; [rewrite have_yes by lia|now rewrite have_no by lia].
        exact (string_model false cp _ Hcp).
  Qed.
  Lemma users_model f m : ask_users f m = users_field f m.
  Proof.
    destruct m; cbn [ask_users users_field]; try (exact (common_model f _)); try reflexivity.
    - unfold uf_inner_data_size, unpack_u16. now apply number_model.
    - unfold unpack_u16. now apply number_model.
    - unfold text_read, uf_delegate_offset, uf_inner_data_size, unpack_u16. rewrite !bind_assoc.
      apply first_read; [lia|reflexivity| |]; intros L.
      + rewrite bind_ret_l. now apply guid_model.
      + unfold guid_there. now rewrite have_no by lia.
    - unfold text_read, uf_delegate_offset, uf_inner_data_size, unpack_u16. rewrite !bind_assoc.
      apply first_read; [lia|reflexivity| |]; intros L.
      + rewrite bind_ret_l. replace (4 + num 2 2 f + 16) with (20 + num 2 2 f) by lia. now apply guid_model.
      + unfold guid_there. now rewrite have_no by lia.
  Qed.

  (** ** The item of a type *)
  Definition made_of (t : target) : Prop := snd (target_init (t_class t) cp (t_raw t)) = Ok t.
  Lemma field_class f m : item_field cp f m =
    match class_for (num 1 0 f) with
    | ControlPanelCPL => cpl_field cp f m | ControlPanelCategory => category_field f m | RootFolder => root_field f m
    | MyComputer => volume_field cp f m | ShellFSFolder => file_field cp f m | NetworkLocation => network_field cp f m
    | ControlPanel => panel_field f m | UsersFilesFolder => users_field f m
    | _ => common_field f m
    end.
  Proof.
    unfold item_field. cbv zeta.
    etransitivity; [|etransitivity; [refine (choice_class (A := reply) (num 1 0 f) (volume_field cp f m) (file_field cp f m) (network_field cp f m)
      (cpl_field cp f m) (category_field f m) (root_field f m) (common_field f m) (common_field f m) (panel_field f m)
      (common_field f m) (common_field f m) (users_field f m) (common_field f m) (num1_lt 0 f))|]].
    - pattern (num 1 0 f). apply by_bytes; [|apply num1_lt]. intros b. destruct b; reflexivity.
    - destruct (class_for (num 1 0 f)); reflexivity.
  Qed.
  Lemma users_class ty : ty < 256 -> (ty =? 0x74) = match class_for ty with UsersFilesFolder => true | _ => false end.
  Proof. intros Hlt. pattern ty. apply by_bytes; [|assumption]. intros b. destruct b; reflexivity. Qed.

  (** The target made at [there]. *)
  Lemma target_made there t : item_there there -> (network_item there -> error_at there = None) ->
    t_class t = class_for (num 1 2 there) -> t_raw t = there -> made_of t ->
    t = match class_for (num 1 2 there) with
        | NetworkLocation =>
          let f := fields_at there in
          Target NetworkLocation there f (field_text cp (network_location_at f)) (option_map (field_text cp) (network_description f))
            (option_map (field_text cp) (network_comments f))
        | c => Target c there (fields_at there) [] None None
        end.
  Proof.
    intros HT HE HC HR HM. unfold made_of in HM. rewrite HC, HR in HM. unfold target_init in HM. rewrite base_there, bind_ret_l in HM by assumption.
    destruct (class_for (num 1 2 there)) eqn:EC; try (now injection HM as <-).
    assert (HN : network_item there) by (apply class_network_iff; [apply num1_lt|exact EC]).
    pose proof (network_error _ _ HN (HE HN)) as HF. unfold needs in HF.
    destruct (N.ltb_spec (lenN (fields_at there)) 3) as [HL|HL]; [discriminate HF|]. cbn [after_all] in HF.
    destruct (_ <? _) eqn:EX in HF; [discriminate HF|].
    rewrite (network_says cp Hcp (fields_at there) HL EX), bind_Ok in HM. cbn in HM. injection HM as <-. reflexivity.
  Qed.
  Lemma method_model there t m : item_there there -> (network_item there -> error_at there = None) ->
    t_class t = class_for (num 1 2 there) -> t_raw t = there -> made_of t ->
    ask_method cp t m = item_field cp (fields_at there) m.
  Proof.
    intros HT HE HC HR HM. rewrite (target_made there t HT HE HC HR HM). rewrite field_class, (type_of there HT).
    set (c := class_for (num 1 2 there)). clearbody c. unfold ask_method.
    destruct c; cbn [t_class t_raw_target];
      try (exact (common_model _ _)).
    - apply cpl_model.
    - apply category_model.
    - apply root_model.
    - apply volume_model.
    - apply file_model.
    - unfold ask_network, network_field. cbv zeta. cbn [t_raw_target t_location t_description t_comments].
      destruct m; try (exact (common_model _ _)); try reflexivity.
      + now apply folder_model.
      + unfold nl_content_flags, unpack_u8. now apply number_model.
    - apply panel_model.
    - apply users_model.
  Qed.
  Lemma item_model_of there t q : item_there there -> (network_item there -> error_at there = None) ->
    t_class t = class_for (num 1 2 there) -> t_raw t = there -> made_of t ->
    ask_item cp t q = item_says_to cp (fields_at there) q.
  Proof.
    intros HT HE HC HR HM. destruct q as [m|q]; [now apply method_model|]. cbn [ask_item item_says_to].
    rewrite (type_of there HT), (users_class _ (num1_lt 2 there)), HC.
    pose proof (target_made there t HT HE HC HR HM) as Et.
    destruct (class_for (num 1 2 there)) eqn:EC; try reflexivity.
    rewrite Et. cbn [t_raw_target]. set (f := fields_at there).
    unfold file_entry_there, target_init, target_base_init, target_size, unpack_u16. cbv zeta.
    destruct (N.lt_ge_cases (lenN f) 10) as [L|L].
    - rewrite have_no by lia. rewrite cut_at; [reflexivity|lia|reflexivity|]. rewrite lenN_dropN. unfold bytes in *. lia.
    - rewrite have_yes by lia. assert (L2 : 2 <= lenN (dropN 8 f)) by (rewrite lenN_dropN; unfold bytes in *; lia).
      rewrite (read_at 2 0 2 (dropN 8 f)) by (reflexivity || exact L2 || lia).
      rewrite !bind_ret_l. rewrite num_dropN, slice_dropN. change (8 + 0) with 8.
      change (8 + 2) with 10. replace (8 + (2 + num 2 8 f)) with (10 + num 2 8 f) by lia.
      destruct q as [| | |m].
      + reflexivity.
      + unfold number_read. cbn [t_raw]. rewrite (read_at 2 0 2 (dropN 8 f)) by (reflexivity || exact L2 || lia).
        rewrite num_dropN. reflexivity.
      + unfold dict_read, as_item. cbn [t_class t_raw_target]. set (inner := slice 10 _ f).
        destruct (N.leb_spec 12 (lenN inner)) as [LI|LI].
        * rewrite fs_says, bind_Ok by assumption. cbn. now rewrite app_nil_r.
        * now rewrite fs_tried by assumption.
      + unfold ask_method. cbn [t_class t_raw_target]. apply file_model.
  Qed.

  (** Every item an iterator has given was made by its constructor. *)
  Lemma next_made rest w t r : next_target cp rest = (w, Ok (Some (t, r))) -> made_of t.
  Proof.
    unfold next_target. destruct rest as [|x r0]; [discriminate|]. set (rest := x :: r0). unfold in_generator.
    match goal with |- match ?m with _ => _ end = _ -> _ => destruct m as [w' [o|e]] eqn:E end;
      [|destruct e; intros H; discriminate H].
    intros H. injection H as -> ->. revert E.
    destruct (tf_target_class rest) as [w1 [[c|]|e]]; cbn [bind]; [|intros H; discriminate H|intros H; discriminate H].
    destruct (target_init c cp rest) as [w2 [t'|e]] eqn:ET; cbn [bind]; [|intros H; discriminate H].
    destruct (tf_item_size rest) as [w3 [n|e]]; cbn [bind ret]; [|intros H; discriminate H].
    intros H. injection H as _ <- _. unfold made_of.
    assert (EC : t_class t' = c /\ t_raw t' = rest).
    { revert ET. unfold target_init. destruct (target_base_init rest) as [w4 [rt|e]]; cbn [bind]; [|intros H; discriminate H].
      destruct c; try (intros H; injection H as _ <-; now split).
      destruct (nl_init_strings cp rt) as [w5 [[[a b] d]|e]]; cbn [bind ret]; [|intros H; discriminate H].
      intros H; injection H as _ <-; now split. }
    destruct EC as [-> ->]. now rewrite ET.
  Qed.
End Items.

(** ** The methods that are given a number *)

Lemma flags_of_number n : get_item_shell_fs_folder n
  = match number_flags n with Some name => ([], Ok name) | None => ([WItemFlags n], Ok "Unknown"%string) end.
Proof. destruct n as [|p]; [reflexivity|]. do 8 (destruct p as [p|p|]; try reflexivity). Qed.
Lemma sort_of_number n : get_sort_index n
  = match sort_name n with Some name => ([], Ok name) | None => ([WSortIndex n], Ok "Unknown"%string) end.
Proof. destruct n as [|p]; [reflexivity|]. do 8 (destruct p as [p|p|]; try reflexivity). Qed.
