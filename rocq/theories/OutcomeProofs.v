(** * Which exceptions can be raised, and termination (properties C01-C03) *)
From Verif Require Import Lemmas PyTime Codec Utils Sha256 Header StringData Targets Info Extra LnkFile.

(** The exceptions of a report: struct.error, IndexError, RuntimeError, and LookupError when
    Python does not know the code page. *)
Definition cp_error (cp : cp_arg) (e : exn) : Prop := e = LookupError /\ cp = CpUnknown.

Create HintDb raises.
#[export] Hint Resolve raises_ret raises_warn : raises.

(** Solve a [raises] goal by following the structure of the code. *)
Ltac rstep :=
  match goal with
  | |- raises _ (ret _) => apply raises_ret
  | |- raises _ (warn _) => apply raises_warn
  | |- raises _ (bind _ _) => apply raises_bind; [|intros ?]
  | |- raises _ (if ?b then _ else _) => destruct b
  | |- raises _ (match ?x with _ => _ end) => destruct x
  | |- raises _ (raise _) => apply raises_raise
  end.
Ltac rsolve := repeat first [ progress (eauto 3 with raises) | rstep ].

Section Raises.
  Variable P : exn -> Prop.
  Hypothesis PS : P StructError.

  Lemma r_unpack n b : raises P (unpack_le n b).
  Proof. now apply raises_unpack_le. Qed.
  Hint Resolve r_unpack : raises.
  Lemma r_u8 b : raises P (unpack_u8 b). Proof. apply r_unpack. Qed.
  Lemma r_u16 b : raises P (unpack_u16 b). Proof. apply r_unpack. Qed.
  Lemma r_u32 b : raises P (unpack_u32 b). Proof. apply r_unpack. Qed.
  Lemma r_i16 b : raises P (unpack_i16 b). Proof. unfold unpack_i16. rsolve. Qed.
  Lemma r_i32 b : raises P (unpack_i32 b). Proof. unfold unpack_i32. rsolve. Qed.
  Lemma r_i64 b : raises P (unpack_i64 b). Proof. unfold unpack_i64. rsolve. Qed.
  Hint Resolve r_u8 r_u16 r_u32 r_i16 r_i32 r_i64 : raises.

  Lemma r_parse_uuid b : raises P (parse_uuid b). Proof. unfold parse_uuid. rsolve. Qed.
  Lemma r_parse_filetime b : raises P (parse_filetime b). Proof. unfold parse_filetime. rsolve. Qed.
  Lemma r_parse_dostime b : raises P (parse_dostime b). Proof. unfold parse_dostime. rsolve. Qed.
  Lemma r_must_be_N s n m : raises P m -> raises P (must_be_N s n m).
  Proof. intros. unfold must_be_N. rsolve. Qed.
  Lemma r_must_be_text s n m : raises P m -> raises P (must_be_text s n m).
  Proof. intros. unfold must_be_text. rsolve. Qed.
  Hint Resolve r_parse_uuid r_parse_filetime r_parse_dostime r_must_be_N r_must_be_text : raises.

  Lemma r_header_size raw : raises P (header_size raw). Proof. unfold header_size. rsolve. Qed.
  Lemma r_link_cls_id raw : raises P (link_cls_id raw). Proof. unfold link_cls_id. rsolve. Qed.
  Lemma r_r_link_flags raw : raises P (r_link_flags raw). Proof. unfold r_link_flags. rsolve. Qed.
  Hint Resolve r_header_size r_link_cls_id r_r_link_flags : raises.
  Lemma r_link_flags_ raw : raises P (link_flags raw). Proof. unfold link_flags. rsolve. Qed.
  Hint Resolve r_link_flags_ : raises.
  Lemma r_has_flag n raw : raises P (has_flag n raw). Proof. unfold has_flag. rsolve. Qed.
  Hint Resolve r_has_flag : raises.
  Lemma r_window_style raw : raises P (window_style raw). Proof. unfold window_style. rsolve. Qed.
  Lemma r_hot_key raw : raises P (hot_key raw). Proof. unfold hot_key. rsolve. Qed.
  Lemma r_file_flags_ raw : raises P (file_flags raw). Proof. unfold file_flags, r_file_flags. rsolve. Qed.
  Hint Resolve r_window_style r_hot_key r_file_flags_ : raises.

  Lemma r_fields rows : (forall k m, In (k, m) rows -> raises P m) -> raises P (fields rows).
  Proof.
    induction rows as [|[k m] rows IH]; intros H; cbn [fields]; [apply raises_ret|].
    apply raises_bind; [apply (H k m); now left|]. intros v.
    apply raises_bind; [apply IH; intros k' m' Hi; apply (H k' m'); now right|].
    intros; apply raises_ret.
  Qed.

  (** ** Strings *)
  Section Cp.
    Variable cp : cp_arg.
    Hypothesis PL : cp = CpUnknown -> P LookupError.

    Lemma r_chars_to_string b : raises P (chars_to_string cp b).
    Proof.
      unfold chars_to_string. destruct b; [apply raises_ret|].
      destruct (tp_codec cp) eqn:E; [rsolve|]. apply raises_raise, PL. now destruct cp.
    Qed.
    Lemma read_string_eq b :
      read_string cp b = match split_nul [] b with c :: _ => chars_to_string cp c | [] => raise StopIteration end.
    Proof.
      unfold read_string, read_strings, next_string. destruct (split_nul [] b) as [|c r]; [reflexivity|].
      cbn [map]. destruct (chars_to_string cp c) as [w [a|e]]; cbn; rewrite ?app_nil_r; reflexivity.
    Qed.
    Lemma split_nul_nonempty c b : split_nul c b <> [].
    Proof.
      revert c; induction b as [|x b IH]; intros c; cbn [split_nul]; [discriminate|].
      destruct (Byte.eqb _ _); [discriminate|apply IH].
    Qed.
    Lemma r_read_string b : raises P (read_string cp b).
    Proof.
      rewrite read_string_eq. destruct (split_nul [] b) eqn:E; [now apply split_nul_nonempty in E|].
      apply r_chars_to_string.
    Qed.
  End Cp.

  Lemma r_uchars_to_string b : raises P (uchars_to_string b).
  Proof. unfold uchars_to_string. rsolve. Qed.
  Lemma read_unicode_string_eq b :
    read_unicode_string b =
      match split_nul_units [] (two_bytes_each b) with c :: _ => uchars_to_string c | [] => raise StopIteration end.
  Proof.
    unfold read_unicode_string, read_unicode_strings, next_string.
    destruct (split_nul_units [] (two_bytes_each b)) as [|c r]; [reflexivity|].
    cbn [map]. destruct (uchars_to_string c) as [w [a|e]]; cbn; rewrite ?app_nil_r; reflexivity.
  Qed.
  Lemma split_nul_units_nonempty c b : split_nul_units c b <> [].
  Proof.
    revert c; induction b as [|x b IH]; intros c; cbn [split_nul_units]; [discriminate|].
    destruct (is_nul_unit _); [discriminate|apply IH].
  Qed.
  Lemma r_read_unicode_string b : raises P (read_unicode_string b).
  Proof.
    rewrite read_unicode_string_eq.
    destruct (split_nul_units [] (two_bytes_each b)) eqn:E; [now apply split_nul_units_nonempty in E|].
    apply r_uchars_to_string.
  Qed.
  Hint Resolve r_read_unicode_string r_read_string r_chars_to_string : raises.


  (** ** Targets *)
  Section Cp2.
    Variable cp : cp_arg.
    Hypothesis PL : cp = CpUnknown -> P LookupError.
    Hypothesis PR : P RuntimeError.
    Hint Resolve PL PR : raises.

    Lemma r_get_classes n : raises P (get_shell_item_classes n).
    Proof. unfold get_shell_item_classes. rsolve. Qed.
    Hint Resolve r_get_classes : raises.
    Lemma r_tf_target_class b : raises P (tf_target_class b).
    Proof. unfold tf_target_class, tf_item_size, tf_item_type. rsolve. Qed.
    Lemma r_target_base_init b : raises P (target_base_init b).
    Proof. unfold target_base_init, target_size. rsolve. Qed.
    Lemma r_fs_flags n : raises P (get_item_shell_fs_folder n).
    Proof. unfold get_item_shell_fs_folder. rsolve. Qed.
    Hint Resolve r_tf_target_class r_target_base_init r_fs_flags : raises.
    Lemma r_fs_as_item b : raises P (fs_as_item cp b).
    Proof.
      unfold fs_as_item, fs_flags, fs_file_size, fs_modification_time, fs_file_attribute_flags,
        fs_primary_name, has_unicode_strings, class_type_indicator. rsolve.
    Qed.
    Hint Resolve r_fs_as_item : raises.
    Lemma r_as_item t : raises P (as_item cp t).
    Proof.
      unfold as_item. destruct (t_class t);
      unfold cpl_as_item, cpl_signature, cpl_file_path, cpl_name_string, cpl_comments, cpl_name_offset,
        cpl_comments_offset, cat_as_item, cat_category, cat_id, rf_as_item, rf_sort_index_value,
        get_sort_index, mc_as_item, mc_has_name, mc_flags, class_type_indicator, nl_as_item, nl_flags,
        nl_content_flags, cpanel_as_item, uf_as_item, uf_delegate_offset, uf_inner_data_size,
        unknown_as_item, target_size; rsolve.
    Qed.
  End Cp2.
End Raises.

#[export] Hint Resolve r_unpack r_u8 r_u16 r_u32 r_i16 r_i32 r_i64 r_parse_uuid r_parse_filetime r_parse_dostime
  r_must_be_N r_must_be_text r_header_size r_link_cls_id r_r_link_flags r_link_flags_ r_has_flag
  r_window_style r_hot_key r_file_flags_ r_read_unicode_string r_read_string r_chars_to_string
  r_tf_target_class r_target_base_init r_as_item : raises.

(** ** The ID list *)

Section Items.
  Variable P : exn -> Prop.
  Hypothesis PS : P StructError.
  Hypothesis PR : P RuntimeError.
  Variable cp : cp_arg.
  Hypothesis PL : cp = CpUnknown -> P LookupError.

  Lemma raises_in_generator {A} (m : M A) :
    raises (fun e => P e \/ e = StopIteration) m -> raises P (in_generator m).
  Proof.
    intros H e. destruct m as [w [a|e']]; cbn [in_generator snd]; [discriminate|].
    destruct (H e' eq_refl) as [He| ->]; [|intros [= <-]; exact PR].
    destruct e'; cbn [snd]; intros [= <-]; assumption.
  Qed.

  Lemma r_next_string it : (forall m, In m it -> raises P m) ->
    raises (fun e => P e \/ e = StopIteration) (next_string it).
  Proof.
    intros H. unfold next_string. destruct it as [|m it]; [apply raises_raise; now right|].
    apply raises_bind; [|intros; apply raises_ret].
    apply (raises_weaken P); [now left|]. apply H. now left.
  Qed.
  Lemma next_string_rest it r : snd (next_string it) = Ok r -> exists m, it = m :: snd r.
  Proof.
    unfold next_string. destruct it as [|m it]; [discriminate|]. intros H.
    apply snd_bind_Ok in H as (t & _ & [= <-]). now exists m.
  Qed.

  Lemma r_target_init c b : raises (fun e => P e \/ e = StopIteration) (target_init c cp b).
  Proof.
    unfold target_init. apply raises_bind; [apply r_target_base_init; now left|]. intros rt.
    assert (HQ : raises (fun e => P e \/ e = StopIteration) (nl_init_strings cp rt)).
    { assert (Hall : forall m, In m (read_strings cp (dropN 3 rt)) -> raises P m).
      { intros m Hm. unfold read_strings in Hm. apply in_map_iff in Hm as (x & <- & _).
        now apply r_chars_to_string. }
      unfold nl_init_strings. apply raises_bind'; [now apply r_next_string|]. intros [t1 it1] H1.
      apply next_string_rest in H1 as [m1 E1]. cbn [snd] in E1. rewrite E1 in Hall.
      assert (Hall1 : forall m, In m it1 -> raises P m) by (intros m Hm; apply Hall; now right).
      apply raises_bind; [unfold nl_has_description, nl_content_flags; rsolve; now left|]. intros hd.
      apply raises_bind'.
      { destruct hd; [|apply raises_ret]. apply raises_bind; [now apply r_next_string|].
        intros; apply raises_ret. }
      intros [t2 it2] H2.
      assert (Hall2 : forall m, In m it2 -> raises P m).
      { destruct hd.
        - apply snd_bind_Ok in H2 as ([t' it'] & H2 & [= _ <-]). apply next_string_rest in H2 as [m2 E2].
          cbn in E2. subst it1. intros m Hm. apply Hall1. now right.
        - injection H2 as _ <-. assumption. }
      apply raises_bind; [unfold nl_has_comments, nl_content_flags; rsolve; now left|]. intros hc.
      apply raises_bind; [|intros; apply raises_ret].
      destruct hc; [|apply raises_ret]. apply raises_bind; [now apply r_next_string|].
      intros; apply raises_ret. }
    destruct c; try apply raises_ret.
    apply raises_bind; [assumption|]. intros [[l d] co]. apply raises_ret.
  Qed.

  Lemma r_next_target b : raises P (next_target cp b).
  Proof.
    unfold next_target. apply raises_in_generator. destruct b as [|x b]; [apply raises_ret|].
    apply raises_bind; [apply r_tf_target_class; now left|]. intros [c|]; [|apply raises_ret].
    apply raises_bind; [apply r_target_init|]. intros t. apply raises_bind; [|intros; apply raises_ret].
    unfold tf_item_size. apply r_u16. now left.
  Qed.

  Lemma next_target_size b t rest :
    snd (next_target cp b) = Ok (Some (t, rest)) ->
    exists n, snd (tf_item_size b) = Ok n /\ n <> 0 /\ rest = dropN n b /\ b <> [].
  Proof.
    unfold next_target. intros H.
    assert (H' : forall (m : M (option (target * bytes))) r, snd (in_generator m) = Ok r -> snd m = Ok r).
    { intros m r. destruct m as [w [a|[]]]; cbn; congruence. }
    apply H' in H. clear H'. destruct b as [|x b]; [discriminate|].
    apply snd_bind_Ok in H as (c & Hc & H). destruct c as [c|]; [|discriminate].
    apply snd_bind_Ok in H as (t' & Ht & H). apply snd_bind_Ok in H as (n & Hn & [= _ <-]).
    exists n. repeat split; try assumption; try discriminate.
    unfold tf_target_class in Hc. apply snd_bind_Ok in Hc as (n' & Hn' & Hc).
    rewrite Hn in Hn'. injection Hn' as <-. destruct (n =? 0) eqn:E; [discriminate|].
    now apply N.eqb_neq in E.
  Qed.

  Lemma dropN_shorter {A} n (b : list A) : n <> 0 -> b <> [] -> (length (dropN n b) < length b)%nat.
  Proof.
    intros Hn Hb. pose proof (lenN_dropN n b). unfold lenN in *. destruct b; [contradiction|].
    cbn [length] in *. lia.
  Qed.

  Lemma r_items_loop fuel b : (length b < fuel)%nat -> raises P (items_loop fuel cp b).
  Proof.
    revert b; induction fuel as [|fuel IH]; intros b Hf; [lia|]. cbn [items_loop].
    apply raises_bind'; [apply r_next_target|]. intros [[t rest]|] Hn; [|apply raises_ret].
    apply next_target_size in Hn as (n & _ & Hn & -> & Hb).
    apply raises_bind; [|intros; apply raises_bind; [apply IH|intros; apply raises_ret]].
    - apply raises_try; [|apply raises_bind; [apply raises_warn|intros; apply raises_ret]].
      apply (raises_weaken P); [auto|]. apply raises_bind; [|intros; apply raises_ret].
      now apply r_as_item.
    - pose proof (dropN_shorter n b Hn Hb). lia.
  Qed.

  Lemma r_items_of b : raises P (items_of cp b).
  Proof. apply r_items_loop. lia. Qed.
End Items.

(** ** Extra data *)

Section ExtraRaises.
  Variable P : exn -> Prop.
  Hypothesis PS : P StructError.

  Lemma r_sized_suffixes fuel b : (length b < fuel)%nat -> raises P (sized_suffixes fuel b).
  Proof.
    revert b; induction fuel as [|fuel IH]; intros b Hf; [lia|]. cbn [sized_suffixes].
    apply raises_bind'; [now apply r_u32|]. intros n Hn.
    destruct (n =? 0) eqn:E; [apply raises_ret|]. apply N.eqb_neq in E.
    apply raises_bind; [|intros; apply raises_ret]. apply IH.
    assert (b <> []). { intros ->. cbn in Hn. discriminate. }
    pose proof (dropN_shorter n b E H). lia.
  Qed.

  Lemma r_tv_value b : raises P (tv_value b).
  Proof. unfold tv_value, tv_value_padding, tv_value_type. rsolve. Qed.

  Hypothesis PV : P ValueError.
  Lemma r_property_type_name n : raises P (property_type_name n).
  Proof. unfold property_type_name. rsolve. Qed.
  Hint Resolve r_tv_value r_property_type_name : raises.

  Ltac rfields := apply r_fields; let k := fresh "key" in let m := fresh "m" in intros k m Hin; cbn [In app base_fields] in Hin;
    repeat (destruct Hin as [[= <- <-]|Hin]); [..|contradiction].

  Lemma r_string_name_dict b : raises P (string_name_dict b).
  Proof.
    unfold string_name_dict. rfields;
    unfold pv_value_size, sn_name_size, sn_value_offset, sn_name_size, tv_value_type; rsolve.
  Qed.
  Lemma r_integer_name_dict b : raises P (integer_name_dict b).
  Proof. unfold integer_name_dict. rfields; unfold pv_value_size, u32_field, tv_value_type; rsolve. Qed.
  Lemma r_serialized b : raises P (serialized_property_values b).
  Proof.
    unfold serialized_property_values, ps_format_id. apply raises_bind; [now apply r_parse_uuid|]. intros t.
    apply raises_bind; [|intros; apply raises_ret]. apply r_sized_suffixes.
    pose proof (lenN_dropN 24 b). unfold lenN in *. lia.
  Qed.
  Lemma r_storage_dict b : raises P (storage_dict b).
  Proof.
    unfold storage_dict. rfields; unfold u32_field, ps_format_id; try (rsolve; fail).
    apply raises_bind; [apply r_serialized|]. intros [bn vs]. apply raises_bind; [|intros; apply raises_ret].
    apply raises_mapM. intros v. destruct bn; [apply r_string_name_dict|apply r_integer_name_dict].
  Qed.
  Lemma r_metadata_dict b : raises P (metadata_dict b).
  Proof.
    unfold metadata_dict. rfields; unfold base_size; try (rsolve; fail).
    apply raises_bind.
    - apply (r_sized_suffixes (S (length b))). pose proof (lenN_dropN 8 b). unfold lenN in *. lia.
    - intros l. apply raises_bind; [|intros; apply raises_ret]. apply raises_mapM, r_storage_dict.
  Qed.

  Hypothesis PI : P IndexError.
  Hypothesis PR : P RuntimeError.
  Variable cp : cp_arg.
  Hypothesis PL : cp = CpUnknown -> P LookupError.

  Lemma r_quad_loop q i z : raises P (quad_loop q i z).
  Proof. revert z; induction i as [|i IH]; intros z; cbn [quad_loop]; rsolve. Qed.
  Lemma r_packed t : raises P (parse_packed_uuid t).
  Proof. unfold parse_packed_uuid, quad_to_hex. pose proof r_quad_loop. rsolve. Qed.

  Lemma r_extra_as_dict e : raises P (extra_as_dict cp e).
  Proof.
    pose proof r_packed.
    unfold extra_as_dict. destruct (ex_class e);
      try apply r_metadata_dict;
      unfold environment_dict, console_dict, tracker_dict, code_page_dict, special_folder_dict,
        known_folder_dict, shim_dict, darwin_dict, shell_item_dict, unknown_extra_dict, terminal_dict;
      rfields;
      unfold base_size, terminal_size, darwin_data_unicode, product_code_id, feature_name, component_id,
        str_field, ustr_field, u16_field, i16_field, u32_field, uuid_field, darwin_data_unicode;
      try (rsolve; fail).
    apply raises_bind; [now apply r_u32|]. intros n. apply raises_bind; [|intros; apply raises_ret].
    now apply r_items_of.
  Qed.
End ExtraRaises.

(** The exceptions that [get_json] lets through. *)
Definition report_exn (cp : cp_arg) (e : exn) : Prop :=
  e = StructError \/ e = IndexError \/ e = RuntimeError \/ cp_error cp e.

Lemma r_add_block cp res e : raises (report_exn cp) (add_block cp res e).
Proof.
  assert (H : raises (fun e => is_struct_or_value_error e = false -> report_exn cp e) (extra_as_dict cp e)).
  { apply r_extra_as_dict; try discriminate; unfold report_exn; auto.
    intros E _. right; right; right. split; auto. }
  unfold add_block.
  destruct (ex_class e);
    (apply raises_try; [apply raises_bind; [exact H|intros; apply raises_ret]|
      apply raises_bind; [apply raises_warn|intros; apply raises_ret]]).
Qed.

Lemma r_extras_as_dict cp l : raises (report_exn cp) (extras_as_dict cp l).
Proof.
  unfold extras_as_dict. generalize (@nil (string * pyval)).
  induction l as [|e l IH]; intros res; cbn [extras_loop]; [apply raises_ret|].
  apply raises_bind; [apply r_add_block|]. intros; apply IH.
Qed.

(** ** The report *)

Ltac rfields := apply r_fields; let k := fresh "key" in let m := fresh "m" in intros k m Hin; cbn [In app base_fields] in Hin;
  repeat (destruct Hin as [[= <- <-]|Hin]); [..|contradiction].

Section Report.
  Variable P : exn -> Prop.
  Hypothesis PS : P StructError.
  Variable cp : cp_arg.
  Hypothesis PL : cp = CpUnknown -> P LookupError.

  Lemma r_when t d : raises P t -> raises P d -> raises P (when t d).
  Proof. intros. unfold when. rsolve. Qed.

  Lemma r_header_dict h : raises P (header_dict h).
  Proof.
    unfold header_dict. rfields;
      unfold r_file_flags, creation_time, access_time, write_time, file_size, icon_index, raw_hot_key,
        reserved0, reserved1, reserved2; rsolve.
  Qed.

  Lemma r_info_dict k raw : raises P (info_dict cp k raw).
  Proof.
    unfold info_dict. apply raises_bind.
    { rfields; unfold info_size, info_header_size, info_flags, volume_id_offset, local_base_path_offset,
        common_network_relative_link_offset, common_path_suffix_offset, u32_at; rsolve. }
    intros d.
    assert (HO : raises P (local_base_path_offset_unicode raw)).
    { unfold local_base_path_offset_unicode, has_opt_fields, info_header_size, u32_at. rsolve. }
    assert (HO2 : raises P (common_path_suffix_offset_unicode raw)).
    { unfold common_path_suffix_offset_unicode, has_opt_fields, info_header_size, u32_at. rsolve. }
    apply raises_bind.
    { apply r_when; [unfold local_base_path_offset, u32_at; rsolve|]. rfields.
      unfold local_base_path, local_base_path_offset, u32_at. rsolve. }
    intros d2. apply raises_bind.
    { apply r_when; [unfold common_path_suffix_offset, u32_at; rsolve|]. rfields.
      unfold common_path_suffix, common_path_suffix_offset, u32_at. rsolve. }
    intros d3. apply raises_bind.
    { apply r_when; [rsolve|]. rfields; unfold local_base_path_unicode; rsolve. }
    intros d4. apply raises_bind.
    { apply r_when; [rsolve|]. rfields; unfold common_path_suffix_unicode; rsolve. }
    intros d5. apply raises_bind; [|intros; apply raises_ret].
    destruct k.
    - unfold local_info_dict.
      assert (HV : raises P (volume_label_unicode_offset raw)).
      { unfold volume_label_unicode_offset, has_volume_label_offset_unicode, volume_label_offset,
          volume_id_offset, u32_at. rsolve. }
      apply raises_bind.
      { rfields; unfold volume_id_size, r_drive_type, drive_serial_number, drive_type, r_drive_type, volume_label,
          has_volume_label_offset_unicode, volume_label_offset, volume_id_offset, u32_at; rsolve. }
      intros. apply raises_bind; [|intros; apply raises_ret].
      apply r_when; [rsolve|]. rfields; unfold volume_label_unicode, volume_id_offset, u32_at; rsolve.
    - unfold network_info_dict.
      assert (HA : raises P (network_provider_type raw)).
      { unfold network_provider_type, cnrl_flags, r_network_provider_type,
          common_network_relative_link_offset, u32_at. rsolve. }
      assert (HB : raises P (net_name_offset raw)).
      { unfold net_name_offset, common_network_relative_link_offset, u32_at. rsolve. }
      assert (HC : raises P (common_network_relative_link_offset raw)).
      { unfold common_network_relative_link_offset, u32_at. rsolve. }
      assert (HN : raises P (net_name_offset_unicode raw)).
      { unfold net_name_offset_unicode, u32_at. rsolve. }
      assert (HD : raises P (device_name_offset_unicode raw)).
      { unfold device_name_offset_unicode, u32_at. rsolve. }
      assert (HE : raises P (net_name cp raw)) by (unfold net_name; rsolve).
      assert (HF : raises P (device_name cp raw)) by (unfold device_name, device_name_offset, u32_at; rsolve).
      apply raises_bind.
      { rfields; unfold cnrl_size, cnrl_flags, device_name_offset, r_network_provider_type, u32_at; rsolve. }
      intros. apply raises_bind; [apply r_when; [rsolve|rfields; rsolve]|]. intros.
      apply raises_bind.
      { apply r_when; [rsolve|]. rfields; unfold net_name_unicode; rsolve. } intros.
      apply raises_bind.
      { apply r_when; [rsolve|]. rfields; unfold device_name_unicode; rsolve. } intros.
      apply raises_bind; [apply r_when; [rsolve|rfields; rsolve]|]. intros.
      apply raises_bind; [apply r_when; [rsolve|rfields; rsolve]|]. intros. apply raises_ret.
  Qed.
End Report.

Lemma r_full_json l : raises (report_exn (l_cp l)) (full_json l).
Proof.
  assert (PS : report_exn (l_cp l) StructError) by now left.
  assert (PR : report_exn (l_cp l) RuntimeError) by (right; right; now left).
  assert (PL : l_cp l = CpUnknown -> report_exn (l_cp l) LookupError).
  { intros E. right; right; right. now split. }
  unfold full_json. apply raises_bind; [now apply r_header_dict|]. intros h.
  apply raises_bind.
  { destruct (l_targets l) as [t|]; [|apply raises_ret].
    apply raises_bind; [|intros; apply raises_ret]. unfold target_dict.
    rfields; unfold id_list_size, targets_as_list; try (rsolve; fail).
    apply raises_bind; [now apply r_items_of|intros; apply raises_ret]. }
  intros. apply raises_bind.
  { destruct (l_info l) as [[k raw]|]; [|apply raises_ret]. now apply r_info_dict. }
  intros. apply raises_bind; [apply r_extras_as_dict|]. intros; apply raises_ret.
Qed.

Lemma r_get_json l all : raises (report_exn (l_cp l)) (get_json l all).
Proof. unfold get_json. apply raises_bind; [apply r_full_json|]. intros; apply raises_ret. Qed.

(** ** The constructor *)

Lemma r_sd_read header cp b limit :
  raises (fun e => e = StructError \/ cp_error cp e) (sd_read header cp b limit).
Proof.
  unfold sd_read. apply raises_bind; [apply r_u16; now left|]. intros n.
  apply raises_bind; [apply r_has_flag; now left|]. intros u. apply raises_bind; [|intros; apply raises_ret].
  destruct u; [apply r_read_unicode_string|apply r_read_string; intros E; right; now split].
Qed.

Lemma r_sd_loop header cp raw fs st : raises (cp_error cp) (sd_loop fs header cp raw st).
Proof.
  revert st; induction fs as [|[[f name] lim] fs IH]; intros st; cbn [sd_loop]; [apply raises_ret|].
  assert (HF : raises (fun e => e = StructError) (has_flag f header)) by now apply r_has_flag.
  destruct (has_flag f header) as [w [[]|e]] eqn:EF.
  - pose proof (r_sd_read header cp (dropN (sd_size st) raw) lim) as HR.
    destruct (sd_read header cp (dropN (sd_size st) raw) lim) as [w' [[t n]|e]] eqn:ER.
    + specialize (IH (SD (dset name (PStr t) (sd_data st)) (sd_size st + n))).
      destruct (sd_loop _ _ _ _ _) as [w'' r]. intros e He. apply IH, He.
    + destruct (HR e eq_refl) as [-> |Hc]; [intros e' He; discriminate|].
      destruct e; cbn; intros e' He; try discriminate; injection He as <-; assumption.
  - apply IH.
  - rewrite (HF e eq_refl). intros e' He. discriminate.
Qed.

Lemma r_info_class raw P : raises P (info_class raw).
Proof.
  unfold info_class. apply raises_try; [|rsolve].
  assert (H : raises (fun e => e = StructError) (info_flags raw)) by (unfold info_flags, u32_at; rsolve).
  apply (raises_weaken (fun e => e = StructError)); [now intros e -> |].
  unfold volume_id_and_local_base_path, common_network_relative_link_and_path_suffix. rsolve.
Qed.

Lemma r_ef_extra_class raw P : raises P (ef_extra_class raw).
Proof.
  unfold ef_extra_class. apply raises_try; [|rsolve].
  apply (raises_weaken (fun e => e = StructError)); [now intros e -> |]. unfold ef_rsig. rsolve.
Qed.

Lemma r_extra_loop P fuel b : (length b < fuel)%nat -> raises P (extra_loop fuel b).
Proof.
  revert b; induction fuel as [|fuel IH]; intros b Hf; [lia|]. cbn [extra_loop].
  destruct b as [|x b]; [apply raises_ret|].
  assert (HS : raises (fun e => e = StructError) (ef_item_size (x :: b))) by (unfold ef_item_size; rsolve).
  destruct (ef_item_size (x :: b)) as [w [n|e]].
  - destruct (n =? 0) eqn:E; [apply raises_ret|]. apply N.eqb_neq in E.
    apply raises_bind; [apply r_ef_extra_class|]. intros c.
    apply raises_bind; [apply IH|intros [bs r]; apply raises_ret].
    assert (Hb : x :: b <> []) by discriminate. pose proof (dropN_shorter n (x :: b) E Hb). lia.
  - rewrite (HS e eq_refl). intros e' He. discriminate.
Qed.

Lemma r_extra_init (P : exn -> Prop) allow b : P StructError -> raises P (extra_init allow b).
Proof.
  intros HP. unfold extra_init. apply raises_bind; [apply r_extra_loop; lia|]. intros [bs r].
  rsolve.
Qed.

Lemma r_extras_size (P : exn -> Prop) l : P StructError -> raises P (extras_size l).
Proof.
  intros HP. induction l as [|e l IH]; cbn [extras_size]; [apply raises_ret|].
  apply raises_bind; [unfold extra_size, terminal_size, base_size; rsolve|]. intros.
  apply raises_bind; [apply IH|intros; apply raises_ret].
Qed.

(** The exceptions of the constructor on non-empty data. *)
Definition init_exn (cp : cp_arg) (e : exn) : Prop := e = StructError \/ cp_error cp e.

Lemma r_process b cp allow : b <> [] -> raises (init_exn cp) (process b cp allow).
Proof.
  intros Hb. assert (PS : init_exn cp StructError) by now left.
  unfold process. apply raises_bind; [unfold header_init; destruct b; [contradiction|]; rsolve|]. intros h.
  apply raises_bind; [now apply r_header_size|]. intros idx.
  apply raises_bind; [now apply r_has_flag|]. intros ht.
  apply raises_bind; [unfold targets_init, targets_size, id_list_size; rsolve|]. intros [ts idx1].
  apply raises_bind; [rsolve|]. intros hi.
  apply raises_bind.
  { destruct hi; [|apply raises_ret]. apply raises_bind; [apply r_info_class|]. intros [k|]; [|apply raises_ret].
    unfold info_size, u32_at. rsolve. }
  intros [info idx2]. apply raises_bind.
  { apply (raises_weaken (cp_error cp)); [now right|]. apply r_sd_loop. }
  intros sd. apply raises_bind; [now apply r_extra_init|]. intros ex.
  apply raises_bind; [now apply r_extras_size|]. intros; apply raises_ret.
Qed.

Lemma process_cp b cp allow l : snd (process b cp allow) = Ok l -> l_cp l = cp.
Proof.
  unfold process. intros H.
  repeat (apply snd_bind_Ok in H as (? & _ & H); try match type of H with context [let (_, _) := ?p in _] => destruct p end).
  injection H as <-. reflexivity.
Qed.
