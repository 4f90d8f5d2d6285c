(** * How a report fails (C65) *)
From Verif Require Import Lemmas PyTime Codec Utils Sha256 Header StringData Targets Info Extra LnkFile.
From Verif Require Import Spec SpecText SpecHeader SpecTime SpecDouble SpecItems SpecInfo SpecExtra SpecOutcome SpecEntries SpecBlocks SpecWhole SpecFailure.
From Verif Require Import OutcomeProofs LayoutProofs CoreProofs FormatProofs EncProofs TextProofs TimeProofs HeaderProofs StringProofs ApiProofs.
From Verif Require Import ConstructProofs ItemProofs ExtraProofs ExtraListProofs InfoProofs InfoFileProofs HeaderFileProofs ExactProofs EntryProofs AnyBlockProofs TriedProofs DoubleProofs OrderProofs WholeProofs.

Lemma row_ok k m rows w v w' e : m = (w, Ok v) -> fields rows = (w', Err e) -> fields ((k, m) :: rows) = (w ++ w', Err e).
Proof. intros -> H. cbn [fields]. rewrite H. reflexivity. Qed.
Lemma row_ok0 k m rows v w e : m = ([], Ok v) -> fields rows = (w, Err e) -> fields ((k, m) :: rows) = (w, Err e).
Proof. intros Hm H. now apply (row_ok _ _ _ [] v). Qed.
Lemma row_bad k m rows w e : m = (w, Err e) -> fields ((k, m) :: rows) = (w, Err e).
Proof. intros ->. reflexivity. Qed.
Lemma row_bad_ret {A} k (m : M A) (f : A -> pyval) rows w e : m = (w, Err e) -> fields ((k, x <- m ;; ret (f x)) :: rows) = (w, Err e).
Proof. intros ->. reflexivity. Qed.

(** ** The header *)
Lemma signed64_fits i h : fits_i64 (signed64 i h).
Proof.
  pose proof (num_lt 8 i h) as B. change (256 ^ 8) with 18446744073709551616 in B. exact (proj2 (twos_signed64 _ B)).
Qed.
Lemma filetime_at i j h o : j = i + 8 -> j <= lenN h -> time_read (signed64 i h) o ->
  parse_filetime (slice i j h) = (time_said (signed64 i h) o, Ok o).
Proof.
  intros -> L HT. pose proof (num_lt 8 i h) as B. change (256 ^ 8) with 18446744073709551616 in B.
  destruct (twos_signed64 _ B) as [E F]. pose proof (proj2 (filetime_read (signed64 i h) o _ F) (conj HT eq_refl)) as R.
  change (twos 64 (signed64 i h) = num 8 i h) in E. unfold enci64 in R. rewrite E, enc64_num in R by assumption. unfold slice. now replace (i + 8 - i) with 8 by lia.
Qed.
Lemma filetime_cut i j h : j = i + 8 -> lenN h < j -> parse_filetime (slice i j h) = raise StructError.
Proof. intros -> L. unfold parse_filetime, unpack_i64. now rewrite cut_at by lia. Qed.

Section Header.
  Variables (h : bytes) (created accessed written : option datetime).
  Hypotheses (H24 : 24 <= lenN h) (TC : time_read (signed64 28 h) created) (TA : time_read (signed64 36 h) accessed)
    (TW : time_read (signed64 44 h) written).

  Lemma ft_clsid : link_cls_id h = (must_be "link_cls_id" (text_eqb (guid_text (slice 4 20 h)) link_clsid_text), Ok (guid_text (slice 4 20 h))).
  Proof. unfold link_cls_id. rewrite guid_at by lia. apply must_be_text_ret. Qed.
  Lemma ft_show : 64 <= lenN h -> exists s, window_style h = ret s.
  Proof.
    intros L. unfold window_style, unpack_i32. rewrite read_at by lia. rewrite !bind_ret_l.
    destruct (if (_ <? 0)%Z then _ else _); now eexists.
  Qed.
  Lemma ft_hot_key : 66 <= lenN h -> exists t, hot_key h = ret t.
  Proof.
    intros L. unfold hot_key. cbv zeta. assert (E : lenN (slice 64 66 h) = 2) by (rewrite lenN_slice; lia).
    destruct (slice 64 66 h) as [|x [|y [|z r]]]; rewrite ?lenN_cons in E; try (exfalso; cbn in E; lia).
    destruct (assocN _ _); [destruct (assocN _ _)|]; now eexists.
  Qed.
  Lemma ft_hot_key_cut : lenN h < 66 -> hot_key h = raise StructError.
  Proof.
    intros L. unfold hot_key. cbv zeta. assert (E : lenN (slice 64 66 h) < 2) by (rewrite lenN_slice; lia).
    destruct (slice 64 66 h) as [|x [|y [|z r]]]; rewrite ?lenN_cons in E; try (exfalso; cbn in E; lia); reflexivity.
  Qed.

  Ltac past n := lazymatch goal with |- context [warn_if (n <=? lenN h)] => idtac end;
    replace (n <=? lenN h) with true by lia; cbn [warn_if].
  Ltac before n := replace (n <=? lenN h) with false by lia; cbn [warn_if].
  Lemma header_fails_here : lenN h < 76 -> header_dict h = (header_tried h created accessed written, Err StructError).
  Proof.
    intros L. unfold header_dict, header_tried. replace (76 <=? lenN h) with false by lia. cbn [warn_if]. rewrite app_nil_r.
    apply row_ok with (PStr (guid_text (slice 4 20 h))); [apply says_ret, ft_clsid|].
    unfold r_link_flags, r_file_flags, creation_time, access_time, write_time, file_size, icon_index, raw_hot_key, link_flags, file_flags,
      r_link_flags, r_file_flags, header_size, reserved0, reserved1, reserved2, unpack_i32, unpack_u32, unpack_u16.
    rewrite !(read_at 4 20 24) by lia. rewrite !bind_ret_l. eapply row_ok0; [reflexivity|].
    destruct (N.lt_ge_cases (lenN h) 28) as [C|C].
    { before 36. before 44. before 52. before 66. before 68. before 72. apply row_bad_ret. now rewrite cut_at by lia. }
    rewrite !(read_at 4 24 28) by lia. rewrite !bind_ret_l. eapply row_ok0; [reflexivity|].
    destruct (N.lt_ge_cases (lenN h) 36) as [C1|C1].
    { before 36. before 44. before 52. before 66. before 68. before 72. apply row_bad_ret. now rewrite filetime_cut by lia. }
    past 36. eapply row_ok; [apply says_ret; apply filetime_at; [reflexivity|assumption|exact TC]|].
    destruct (N.lt_ge_cases (lenN h) 44) as [C2|C2].
    { before 44. before 52. before 66. before 68. before 72. apply row_bad_ret. now rewrite filetime_cut by lia. }
    past 44. eapply row_ok; [apply says_ret; apply filetime_at; [reflexivity|assumption|exact TA]|].
    destruct (N.lt_ge_cases (lenN h) 52) as [C3|C3].
    { before 52. before 66. before 68. before 72. apply row_bad_ret. now rewrite filetime_cut by lia. }
    past 52. eapply row_ok; [apply says_ret; apply filetime_at; [reflexivity|assumption|exact TW]|].
    destruct (N.lt_ge_cases (lenN h) 66) as [C4|C4].
    - before 66. before 68. before 72.
      destruct (N.lt_ge_cases (lenN h) 56) as [D1|D1]; [apply row_bad_ret; now rewrite cut_at by lia|].
      rewrite !(read_at 4 52 56) by lia. rewrite !bind_ret_l. eapply row_ok0; [reflexivity|].
      destruct (N.lt_ge_cases (lenN h) 60) as [D2|D2]; [apply row_bad_ret; now rewrite cut_at by lia|].
      rewrite !(read_at 4 56 60) by lia. rewrite !bind_ret_l. eapply row_ok0; [reflexivity|].
      destruct (N.lt_ge_cases (lenN h) 64) as [D3|D3].
      { apply row_bad_ret. unfold window_style, unpack_i32. now rewrite cut_at by lia. }
      destruct (ft_show D3) as [s ->]. rewrite bind_ret_l. eapply row_ok0; [reflexivity|]. apply row_bad_ret. now apply ft_hot_key_cut.
    - past 66. rewrite !(read_at 4 52 56), !(read_at 4 56 60), !(read_at 2 64 66), !(read_at 4 0 4) by lia. rewrite !bind_ret_l.
      destruct (ft_show ltac:(lia)) as [s ->], (ft_hot_key C4) as [t ->]. rewrite !bind_ret_l.
      do 7 (eapply row_ok0; [reflexivity|]).
      eapply row_ok; [apply says_ret, must_be_N_ret|].
      destruct (N.lt_ge_cases (lenN h) 68) as [C5|C5].
      { before 68. before 72. apply row_bad_ret. unfold must_be_N. now rewrite cut_at by lia. }
      past 68. rewrite !(read_at 2 66 68) by lia. eapply row_ok; [apply says_ret, must_be_N_ret|].
      destruct (N.lt_ge_cases (lenN h) 72) as [C6|C6].
      { before 72. apply row_bad_ret. unfold must_be_N. now rewrite cut_at by lia. }
      past 72. rewrite !(read_at 4 68 72) by lia. rewrite <- (app_nil_r (must_be "reserved1" _)). eapply row_ok; [apply says_ret, must_be_N_ret|].
      apply row_bad_ret. unfold must_be_N. now rewrite cut_at by lia.
  Qed.
End Header.

Lemma header_read_here h created accessed written : 76 <= lenN h ->
  time_read (signed64 28 h) created -> time_read (signed64 36 h) accessed -> time_read (signed64 44 h) written ->
  exists d, header_dict h = (header_tried h created accessed written, Ok d).
Proof.
  intros L TC TA TW. assert (H24 : 24 <= lenN h) by lia. assert (Hs : exists s, window_style h = ret s) by (apply ft_show; lia).
  assert (Ht : exists t, hot_key h = ret t) by (apply ft_hot_key; lia). destruct Hs as [s Hs], Ht as [t Ht].
  unfold header_dict, header_tried.
  replace (36 <=? lenN h) with true by lia. replace (44 <=? lenN h) with true by lia. replace (52 <=? lenN h) with true by lia.
  replace (66 <=? lenN h) with true by lia. replace (68 <=? lenN h) with true by lia. replace (72 <=? lenN h) with true by lia.
  replace (76 <=? lenN h) with true by lia. cbn [warn_if]. rewrite Hs, Ht.
  unfold r_link_flags, r_file_flags, creation_time, access_time, write_time, file_size, icon_index, raw_hot_key, link_flags, file_flags,
    r_link_flags, r_file_flags, header_size, reserved0, reserved1, reserved2, unpack_i32, unpack_u32, unpack_u16.
  rewrite !read_at by lia. rewrite !bind_ret_l. rewrite !must_be_N_ret, ft_clsid by assumption.
  rewrite (filetime_at 28 36 h created), (filetime_at 36 44 h accessed), (filetime_at 44 52 h written) by (reflexivity || assumption || lia).
  cbn [fields bind ret fst snd app]. eexists. rewrite ?app_nil_r, <- ?app_assoc. reflexivity.
Qed.

(** ** The link info *)
Definition quiet (r : string * M pyval) : Prop := (exists v, snd r = ret v) \/ snd r = raise StructError.
Lemma quiet_fails rows1 rows2 : Forall quiet rows1 -> Exists (fun r => snd r = raise StructError) rows1 ->
  fields (rows1 ++ rows2) = raise StructError.
Proof.
  intros HF HE. induction HF as [|[k m] rows1 [[v Hv]|Hm] HF IH]; [inversion HE|..]; cbn [snd] in *; cbn [app fields].
  - subst m. rewrite bind_ret_l. inversion HE as [? ? HX|? ? HX]; subst; [discriminate HX|]. now rewrite IH.
  - now rewrite Hm.
Qed.
Lemma quiet_row k off raw (f : N -> pyval) : quiet (k, n <- u32_at off raw ;; ret (f n)).
Proof. unfold quiet. cbn [snd]. rewrite u32_eq. destruct (_ <=? _); [left; now eexists|now right]. Qed.
Lemma u32_cut_at off raw : lenN raw < off + 4 -> u32_at off raw = raise StructError.
Proof. intros H. rewrite u32_eq. now replace (off + 4 <=? lenN raw) with false by lia. Qed.

Section Info.
  Variables (cp : cp_arg) (raw : bytes).
  Hypothesis (Hcp : usable cp).

  Definition common_rows : list (string * M pyval) :=
    [("link_info_size", n <- info_size raw ;; ret (PN n));
     ("link_info_header_size", n <- info_header_size raw ;; ret (PN n));
     ("link_info_flags", n <- info_flags raw ;; ret (PN n));
     ("volume_id_offset", n <- volume_id_offset raw ;; ret (PN n));
     ("local_base_path_offset", n <- local_base_path_offset raw ;; ret (PN n));
     ("common_network_relative_link_offset", n <- common_network_relative_link_offset raw ;; ret (PN n));
     ("common_path_suffix_offset", n <- common_path_suffix_offset raw ;; ret (PN n))]%string.
  Lemma common_cut : lenN raw < 28 -> fields common_rows = raise StructError.
  Proof.
    intros L. rewrite <- (app_nil_r common_rows). apply quiet_fails.
    - unfold common_rows. repeat (constructor; [apply quiet_row|]). constructor.
    - unfold common_rows. do 6 apply Exists_cons_tl. apply Exists_cons_hd. cbn [snd]. unfold common_path_suffix_offset. now rewrite u32_cut_at by lia.
  Qed.
  Lemma common_there : 28 <= lenN raw -> exists d, fields common_rows = ret d.
  Proof.
    intros L. unfold common_rows, info_size, info_header_size, info_flags, volume_id_offset, local_base_path_offset,
      common_network_relative_link_offset, common_path_suffix_offset. rewrite !u32_ok by lia. rewrite !bind_ret_l. eexists. reflexivity.
  Qed.

  (** The code-page strings *)
  Lemma base_here : 28 <= lenN raw ->
    exists d, when (o <- local_base_path_offset raw ;; ret (negb (o =? 0)))
        (fields [("local_base_path"%string, t <- local_base_path cp raw ;; ret (POpt PStr t))])
      = (warn_if (negb (num 4 16 raw =? 0)) (field_warning cp (dropN (num 4 16 raw) raw)), Ok d).
  Proof.
    intros L. unfold when, local_base_path, local_base_path_offset. rewrite u32_ok by lia. rewrite !bind_ret_l.
    destruct (num 4 16 raw =? 0); cbn [negb warn_if]; [eexists; reflexivity|].
    cbn [fields]. rewrite read_page by assumption. rewrite !bind_Ok. cbn. rewrite !app_nil_r. eexists. reflexivity.
  Qed.
  Lemma suffix_here : 28 <= lenN raw ->
    exists d, when (o <- common_path_suffix_offset raw ;; ret (negb (o =? 0)))
        (fields [("common_path_suffix"%string, t <- common_path_suffix cp raw ;; ret (POpt PStr t))])
      = (warn_if (negb (num 4 24 raw =? 0)) (field_warning cp (dropN (num 4 24 raw) raw)), Ok d).
  Proof.
    intros L. unfold when, common_path_suffix, common_path_suffix_offset. rewrite u32_ok by lia. rewrite !bind_ret_l.
    destruct (num 4 24 raw =? 0); cbn [negb warn_if]; [eexists; reflexivity|].
    cbn [fields]. rewrite read_page by assumption. rewrite !bind_Ok. cbn. rewrite !app_nil_r. eexists. reflexivity.
  Qed.

  (** The Unicode strings *)
  Lemma wide_base_here : 28 <= lenN raw -> (0x24 <= num 4 4 raw -> 32 <= lenN raw) ->
    exists d, when (o <- local_base_path_offset_unicode raw ;; ret (truthyN o))
        (fields
          [("local_base_path_offset_unicode", o <- local_base_path_offset_unicode raw ;; ret (POpt PN o));
           ("local_base_path_unicode", t <- local_base_path_unicode raw ;; ret (POpt PStr t))]%string)
      = (warn_if (negb (wide_offset 28 raw =? 0)) (wide_warning (dropN (wide_offset 28 raw) raw)), Ok d).
  Proof.
    intros L L2. assert (HO : local_base_path_offset_unicode raw = ret (if 0x24 <=? num 4 4 raw then Some (num 4 28 raw) else None)).
    { unfold local_base_path_offset_unicode, has_opt_fields, info_header_size. rewrite u32_ok by lia. rewrite !bind_ret_l.
      destruct (0x24 <=? num 4 4 raw) eqn:E; [|reflexivity]. rewrite u32_ok by lia. now rewrite bind_ret_l. }
    unfold when, local_base_path_unicode. rewrite HO. rewrite !bind_ret_l. unfold wide_offset.
    destruct (0x24 <=? num 4 4 raw); [|eexists; reflexivity]. cbn [truthyN]. cbv zeta.
    destruct (num 4 28 raw =? 0); cbn [negb warn_if]; [eexists; reflexivity|].
    cbn [fields valN]. rewrite read_unicode_field. rewrite !bind_Ok. cbn. rewrite !app_nil_r. eexists. reflexivity.
  Qed.
  Lemma wide_base_cut : 0x24 <= num 4 4 raw -> 28 <= lenN raw -> lenN raw < 32 -> local_base_path_offset_unicode raw = raise StructError.
  Proof.
    intros E L L2. unfold local_base_path_offset_unicode, has_opt_fields, info_header_size. rewrite u32_ok by lia. rewrite !bind_ret_l.
    replace (0x24 <=? num 4 4 raw) with true by lia. now rewrite u32_cut_at by lia.
  Qed.
  Lemma wide_suffix_cut : 0x24 <= num 4 4 raw -> 28 <= lenN raw -> lenN raw < 36 -> common_path_suffix_offset_unicode raw = raise StructError.
  Proof.
    intros E L L2. unfold common_path_suffix_offset_unicode, has_opt_fields, info_header_size. rewrite u32_ok by lia. rewrite !bind_ret_l.
    replace (0x24 <=? num 4 4 raw) with true by lia. now rewrite u32_cut_at by lia.
  Qed.

  (** The volume *)
  Lemma local_cut : 28 <= lenN raw ->
    (let o := num 4 12 raw in (o + 16 <=? lenN raw) && (if num 4 (o + 12) raw =? 0x14 then o + 20 <=? lenN raw else true)) = false ->
    local_info_dict cp raw = raise StructError.
  Proof.
    intros L. cbv zeta. set (o := num 4 12 raw). intros HR. unfold local_info_dict.
    assert (VO : volume_id_offset raw = ret o) by (unfold volume_id_offset; now rewrite u32_ok by lia).
    unfold volume_id_size, r_drive_type, drive_serial_number, drive_type, r_drive_type, volume_label, volume_label_unicode_offset,
      has_volume_label_offset_unicode, volume_label_offset. rewrite VO. rewrite !bind_ret_l.
    destruct (N.leb_spec (o + 16) (lenN raw)) as [L1|L1]; cbn [andb] in HR.
    - destruct (num 4 (o + 12) raw =? 0x14) eqn:E; [|discriminate HR]. apply N.leb_gt in HR.
      rewrite !(u32_ok o), !(u32_ok (o + 4)), !(u32_ok (o + 8)), !(u32_ok (o + 12)) by lia. rewrite !bind_ret_l. rewrite E. rewrite !bind_ret_l.
      rewrite (u32_cut_at (o + 16)) by lia.
      assert (HD : forall X : option string, (if num 4 (o + 4) raw <? lenN DRIVE_TYPES then ret X else ret None)
                     = (ret (if num 4 (o + 4) raw <? lenN DRIVE_TYPES then X else None) : M (option string)))
          by (intros; now destruct (_ <? _)).
      rewrite HD, bind_ret_l. reflexivity.
    - match goal with |- bind (fields (?a :: ?b :: ?c :: ?r)) _ = _ => change (a :: b :: c :: r) with ([a; b; c] ++ r) end.
      rewrite quiet_fails; [reflexivity|..].
      + repeat (constructor; [apply quiet_row|]). constructor.
      + do 2 apply Exists_cons_tl. apply Exists_cons_hd. cbn [snd]. now rewrite u32_cut_at by lia.
  Qed.

  (** The network share *)
  Lemma network_cut : 28 <= lenN raw ->
    (let o := num 4 20 raw in (o + 20 <=? lenN raw) && (if 20 <? num 4 (o + 8) raw then o + 28 <=? lenN raw else true)) = false ->
    network_info_dict cp raw
    = (let o := num 4 20 raw in
       warn_if ((o + 24 <=? lenN raw) && (20 <? num 4 (o + 8) raw) && negb (num 4 (o + 20) raw =? 0)) (wide_warning (dropN (o + num 4 (o + 20) raw) raw)),
       Err StructError).
  Proof.
    intros L. cbv zeta. set (o := num 4 20 raw). intros HR. unfold network_info_dict.
    assert (NO : common_network_relative_link_offset raw = ret o) by (unfold common_network_relative_link_offset; now rewrite u32_ok by lia).
    destruct (N.leb_spec (o + 20) (lenN raw)) as [L1|L1]; cbn [andb] in HR.
    - destruct (20 <? num 4 (o + 8) raw) eqn:E; [|discriminate HR]. apply N.leb_gt in HR.
      assert (HF : exists d, fields
        [("common_network_relative_link_size", n <- cnrl_size raw ;; ret (PN n));
         ("common_network_relative_link_flags", n <- cnrl_flags raw ;; ret (PN n));
         ("net_name_offset", n <- net_name_offset raw ;; ret (PN n));
         ("device_name_offset", n <- device_name_offset raw ;; ret (PN n));
         ("r_network_provider_type", t <- r_network_provider_type raw ;; ret (PStr t))]%string = ret d).
      { unfold cnrl_size, cnrl_flags, net_name_offset, device_name_offset, r_network_provider_type.
        rewrite NO, !bind_ret_l. rewrite !u32_ok by lia. rewrite !bind_ret_l. eexists. reflexivity. }
      destruct HF as [d ->]. rewrite bind_ret_l.
      assert (HP : exists d, when (t <- network_provider_type raw ;; ret (match t with Some _ => true | None => false end))
                     (fields [("network_provider_type"%string, t <- network_provider_type raw ;; ret (POpt PS t))]) = ret d).
      { assert (HN : exists t, network_provider_type raw = ret t).
        { unfold network_provider_type, cnrl_flags, r_network_provider_type. rewrite NO, !bind_ret_l.
          rewrite !u32_ok by lia. rewrite !bind_ret_l. destruct (N.land _ 2 =? 0); eexists; reflexivity. }
        destruct HN as [t ->]. unfold when. rewrite !bind_ret_l. destruct t; eexists; reflexivity. }
      destruct HP as [d2 ->]. rewrite bind_ret_l.
      assert (NA : net_name_offset raw = ret (num 4 (o + 8) raw)) by (unfold net_name_offset; rewrite NO, bind_ret_l; now rewrite u32_ok by lia).
      assert (EB : num 4 (o + 8) raw <=? 20 = false) by lia.
      destruct (N.leb_spec (o + 24) (lenN raw)) as [L2|L2]; cbn [andb].
      + assert (WO : net_name_offset_unicode raw = ret (Some (num 4 (o + 20) raw))).
        { unfold net_name_offset_unicode. rewrite NA, bind_ret_l, EB, NO, bind_ret_l. rewrite u32_ok by lia. reflexivity. }
        assert (DO : device_name_offset_unicode raw = raise StructError).
        { unfold device_name_offset_unicode. rewrite NA, bind_ret_l, EB, NO, bind_ret_l. now rewrite u32_cut_at by lia. }
        unfold net_name_unicode. rewrite WO, DO, NA, NO, !bind_ret_l, EB. unfold when. rewrite !bind_ret_l. cbn [truthyN valN].
        destruct (num 4 (o + 20) raw =? 0); cbn [negb warn_if]; [reflexivity|].
        cbn [fields]. rewrite read_unicode_field. cbn [bind ret fst snd app raise]. now rewrite ?app_nil_r.
      + assert (WO : net_name_offset_unicode raw = raise StructError).
        { unfold net_name_offset_unicode. rewrite NA, bind_ret_l, EB, NO, bind_ret_l. now rewrite u32_cut_at by lia. }
        rewrite WO. reflexivity.
    - replace (o + 24 <=? lenN raw) with false by lia. cbn [andb warn_if].
      unfold cnrl_size, cnrl_flags, net_name_offset, device_name_offset, r_network_provider_type. rewrite NO, !bind_ret_l.
      match goal with |- bind (fields ?r) _ = _ => rewrite <- (app_nil_r r) at 1 end. rewrite quiet_fails; [reflexivity|..].
      + do 4 (constructor; [apply quiet_row|]). constructor; [|constructor]. rewrite u32_eq. unfold quiet. cbn [snd]. destruct (_ <=? _); [left; now eexists|now right].
      + do 4 apply Exists_cons_tl. apply Exists_cons_hd. cbn [snd]. now rewrite u32_cut_at by lia.
  Qed.

  Lemma info_fails_here k : info_readable (is_network k) raw = false ->
    info_dict cp k raw = (info_tried cp (is_network k) raw, Err StructError).
  Proof.
    intros HR. unfold info_dict, info_tried. cbv zeta. fold common_rows.
    destruct (N.ltb_spec (lenN raw) 28) as [L|L].
    { now rewrite common_cut. }
    destruct (common_there L) as [d ->]. rewrite bind_ret_l.
    destruct (base_here L) as [d2 ->]. destruct (suffix_here L) as [d3 ->].
    unfold info_readable in HR. replace (28 <=? lenN raw) with true in HR by lia. cbn [andb] in HR.
    destruct (0x24 <=? num 4 4 raw) eqn:EH; cbn [andb].
    - destruct (N.ltb_spec (lenN raw) 32) as [L1|L1].
      { rewrite wide_base_cut by lia. cbn [bind ret fst snd app raise when]. now rewrite ?app_nil_r. }
      destruct (wide_base_here L ltac:(intros; lia)) as [d4 ->].
      destruct (N.ltb_spec (lenN raw) 36) as [L2|L2].
      { rewrite wide_suffix_cut by lia. cbn [bind ret fst snd app raise when]. now rewrite ?app_nil_r, ?app_assoc. }
      rewrite when_wide_suffix by (assumption || (intros; lia)). replace (36 <=? lenN raw) with true in HR by lia.
      destruct k; cbn [is_network andb] in *.
      + rewrite local_cut by assumption. cbn [bind ret fst snd app raise warn_if]. now rewrite ?app_nil_r, ?app_assoc.
      + rewrite network_cut by assumption. cbn [bind ret fst snd app raise]. cbv zeta. now rewrite ?app_nil_r, ?app_assoc.
    - destruct (wide_base_here L ltac:(intros; lia)) as [d4 ->].
      rewrite when_wide_suffix by (assumption || (intros; lia)).
      destruct k; cbn [is_network andb] in *.
      + rewrite local_cut by assumption. cbn [bind ret fst snd app raise warn_if]. now rewrite ?app_nil_r, ?app_assoc.
      + rewrite network_cut by assumption. cbn [bind ret fst snd app raise]. cbv zeta. now rewrite ?app_nil_r, ?app_assoc.
  Qed.
End Info.

(** ** The extra data blocks *)
Lemma silent_bind {A B} (m : M A) (f : A -> M B) : fst m = [] -> (forall a, fst (f a) = []) -> fst (bind m f) = [].
Proof. destruct m as [w [a|x]]; cbn [fst]; intros -> H; [|reflexivity]. rewrite bind_Ok. cbn [fst app]. apply H. Qed.
Lemma quad_loop_silent q n z : fst (quad_loop q n z) = [].
Proof.
  revert z; induction n as [|n IH]; intros z; [reflexivity|]. cbn [quad_loop].
  repeat (match goal with |- context [match ?x with _ => _ end] => destruct x end; try reflexivity; try apply IH).
Qed.
Lemma packed_short t : lenN t < 20 -> parse_packed_uuid t = raise IndexError.
Proof.
  intros L. pose proof (packed_outcome t) as H. replace (lenN t <? 20) with true in H by lia. cbn [outcome_is] in H.
  assert (HS : fst (parse_packed_uuid t) = []).
  { unfold parse_packed_uuid. assert (HQ : forall q, fst (quad_to_hex q) = []) by (intros q; apply silent_bind; [apply quad_loop_silent|reflexivity]).
    do 4 (apply silent_bind; [apply HQ|intros ?]). reflexivity. }
  destruct (parse_packed_uuid t) as [w r]. cbn [fst snd] in *. now subst.
Qed.

Section Blocks.
  Variable (cp : cp_arg).
  Hypothesis (Hcp : usable cp).

  Lemma darwin_fails raw text said : 4 <= lenN raw -> text = wide_text (slice 268 788 raw) -> said = wide_warning (slice 268 788 raw) ->
    short_descriptor text ->
    darwin_dict cp raw
    = (field_warning cp (slice 8 268 raw) ++ said ++ said ++ (if lenN text <? 20 then [] else said ++ said), Err IndexError).
  Proof.
    intros L Et Es HS. unfold darwin_dict, base_fields. cbn [app].
    assert (HU : darwin_data_unicode raw = (said, Ok text)) by (subst; apply read_unicode_field). clear Et Es.
    apply row_ok0 with (number_at 4 0 raw); [now apply size_row|].
    eapply row_ok; [now apply str_row|]. eapply row_ok; [apply (says_ret _ PStr), HU|].
    destruct (N.ltb_spec (lenN text) 20) as [L1|L1].
    - rewrite app_nil_r. apply row_bad_ret. unfold product_code_id. rewrite HU, bind_Ok. rewrite packed_short by (rewrite lenN_slice; lia).
      cbn. now rewrite app_nil_r.
    - eapply row_ok.
      { apply (says_ret _ PStr). unfold product_code_id. rewrite HU, bind_Ok. rewrite unpack_says by (rewrite lenN_slice; lia).
        cbn. rewrite app_nil_r. reflexivity. }
      assert (HF : exists v, feature_name raw = (said, Ok v)).
      { unfold feature_name. rewrite HU, bind_Ok. cbv zeta.
        destruct (_ =? 20)%Z; [|destruct (_ <? 0)%Z]; cbn; rewrite app_nil_r; eexists; reflexivity. }
      destruct HF as [v HF]. eapply row_ok; [apply (says_ret _ (POpt PStr)), HF|]. apply row_bad_ret.
      destruct HS as [HS|(a & c & E & Ha & Lc)]; [lia|].
      unfold component_id. rewrite HU, bind_Ok. cbv zeta.
      rewrite E, find_char_skip, find_char_here by assumption.
      replace (0 + Z.of_N (lenN a) =? -1)%Z with false by lia.
      replace (Z.to_N _) with (lenN (a ++ [62])) by (rewrite lenN_app; cbn; lia).
      change (62 :: c) with ([62] ++ c). rewrite app_assoc, dropN_app_exact by reflexivity. rewrite packed_short by assumption.
      cbn. now rewrite app_nil_r.
  Qed.

  Lemma block_stops_here sig raw e w : 4 <= lenN raw -> block_stops cp sig raw e w ->
    is_struct_or_value_error e = false /\ extra_as_dict cp (Extra (class_of_sig sig) raw) = (w, Err e).
  Proof.
    intros L [text said -> Et Es HS|said -> HT]; (split; [reflexivity|]).
    - now apply darwin_fails.
    - unfold extra_as_dict. cbn [class_of_sig ex_class ex_raw]. unfold shell_item_dict, base_fields. cbn [app].
      eapply row_ok0; [now apply size_row|]. apply row_bad. rewrite base_size_num, bind_ret_l by assumption.
      rewrite (tried_of cp Hcp _ _ _ HT). reflexivity.
  Qed.
  Lemma block_stops_total sig raw e : 4 <= lenN raw -> block_escape sig raw e -> exists w, block_stops cp sig raw e w.
  Proof.
    intros L [-> HS| -> HI].
    - eexists. now apply darwin_stops.
    - destruct (tried_total cp _ _ _ HI eq_refl) as [w Hw]. exists w. now apply id_list_stops.
  Qed.

  Lemma blocks_stop_here blocks e w tail : sizes_readable blocks -> blocks_stop cp blocks e w ->
    forall res, extras_loop cp res (map mk_block blocks ++ tail) = (w, Err e).
  Proof.
    intros HS H. revert HS. induction H as [sig raw rest e w HB|sig raw rest d w e ws HB _ IH|sig raw rest w e ws HB _ IH];
      intros HS res; inversion_clear HS as [|? ? L HS']; cbn [snd] in L; cbn [map app extras_loop]; rewrite block_of.
    - destruct (block_stops_here _ _ _ _ L HB) as [He E]. unfold add_block. cbn [ex_class]. rewrite E. cbn [bind try_except].
      rewrite He. destruct (class_of_sig sig); reflexivity.
    - apply (proj1 (block_settles cp sig raw Hcp L)) in HB. unfold add_block. cbn [ex_class]. rewrite HB. cbn [bind try_except ret app].
      rewrite app_nil_r. destruct (class_of_sig sig); cbn [bind]; now rewrite IH.
    - apply (proj1 (block_tries cp sig raw Hcp L)) in HB as (x & Hx & HB). unfold add_block. cbn [ex_class]. rewrite HB. cbn [bind try_except].
      rewrite Hx. rewrite <- block_name_class, sig_class_num.
      destruct (class_of_sig sig); cbn [bind warn ret app]; rewrite IH by assumption; now rewrite <- app_assoc.
  Qed.
  Lemma blocks_stop_total blocks o e : sizes_readable blocks -> blocks_outcome blocks o -> o = Some e -> exists w, blocks_stop cp blocks e w.
  Proof.
    intros HS H. revert HS. induction H as [|sig raw rest x HB|sig raw rest o HB _ IH]; intros HS E.
    - discriminate E.
    - injection E as ->. inversion_clear HS as [|? ? L _]. cbn [snd] in L. destruct (block_stops_total _ _ _ L HB) as [w Hw].
      exists w. now apply stops_here.
    - inversion_clear HS as [|? ? L HS']. cbn [snd] in L. destruct (IH HS' E) as [ws Hws].
      destruct (block_outcome cp sig raw Hcp L) as [(x & HX & _)|[_ HC]]; [now destruct (HB x)|]. rewrite block_of in HC.
      destruct (block_settles cp sig raw Hcp L) as [_ H1]. destruct (block_tries cp sig raw Hcp L) as [_ H2].
      destruct (snd (extra_as_dict cp (Extra (class_of_sig sig) raw))) as [d|x] eqn:ED.
      + destruct (H1 d eq_refl) as (d' & w & HR). eexists. eapply stops_behind; [exact HR|exact Hws].
      + unfold raises in HC. rewrite ED in HC. destruct (H2 x eq_refl (HC x eq_refl)) as [w HT].
        eexists. eapply stops_behind_left_out; [exact HT|exact Hws].
  Qed.
End Blocks.

(** ** The whole report *)
Section Report.
  Variables (b : bytes) (cp : cp_arg) (allow : bool) (l : lnk).
  Hypotheses (Hcp : usable cp) (Hl : snd (lnk_init (FromBytes b) cp allow) = Ok l).

  Let mt := match l_targets l with Some t => d <- target_dict l t ;; ret [("target"%string, PDict d)] | None => ret [] end.
  Let mi := match l_info l with Some (k, raw) => info_dict (l_cp l) k raw | None => ret [] end.

  Lemma size_here : has_id_list b = true -> id_list_size (dropN (header_len b) b) = ret (num 2 (header_len b) b).
  Proof.
    intros Hid. pose proof (init_constructed b cp allow l Hcp Hl) as [(_ & _ & H2 & _) _]. specialize (H2 Hid).
    unfold id_list_size, unpack_u16. rewrite read_at by (rewrite ?lenN_dropN; lia). unfold num. now rewrite dropN_0.
  Qed.
  Lemma items_said_here said : items_said_by b cp said -> exists d, mt = (said, Ok d).
  Proof.
    unfold items_said_by, mt. pose proof (init_constructed b cp allow l Hcp Hl) as [_ (Lc & _ & _ & Lt & _)]. rewrite Lt.
    destruct (has_id_list b) eqn:EI; [|intros ->; eexists; reflexivity]. intros (items & HE).
    unfold target_dict, targets_as_list. cbn [tg_raw tg_raw_targets]. rewrite size_here, id_list_slice, Lc by assumption.
    rewrite (entries_of cp Hcp _ _ _ HE). cbn [fields bind ret fst snd app]. rewrite !app_nil_r. eexists. reflexivity.
  Qed.
  Lemma items_stop_here e said : has_id_list b = true -> entries_tried cp (id_list b) e said -> mt = (said, Err e).
  Proof.
    unfold mt. intros EI HT. pose proof (init_constructed b cp allow l Hcp Hl) as [_ (Lc & _ & _ & Lt & _)]. rewrite Lt, EI.
    unfold target_dict, targets_as_list. cbn [tg_raw tg_raw_targets]. rewrite size_here, id_list_slice, Lc by assumption.
    rewrite (tried_of cp Hcp _ _ _ HT). reflexivity.
  Qed.

  Lemma info_here raw network : raw = dropN (id_list_end b) b -> network = negb (N.testbit (num 4 8 raw) 0) ->
    exists k, is_network k = network /\ mi = if info_processed b then info_dict cp k raw else ret [].
  Proof.
    intros -> ->. unfold mi. pose proof (init_constructed b cp allow l Hcp Hl) as [_ (Lc & _ & _ & _ & Lf & _)]. rewrite Lf, Lc.
    exists (if N.testbit (num 4 (id_list_end b + 8) b) 0 then Local else Network). split; [|now destruct (info_processed b)].
    unfold num. rewrite dropN_dropN. now destruct (N.testbit _ 0).
  Qed.

  Lemma fails_here all e said : report_fails b cp e said -> get_json l all = (said, Err e).
  Proof.
    pose proof (init_constructed b cp allow l Hcp Hl) as [(C1 & C2 & _ & HS) (Lc & Lh & _ & _ & _ & _ & blocks & r & HW & HE & _)].
    assert (H24 : 24 <= lenN (takeN (header_len b) b)) by (rewrite lenN_takeN; unfold bytes in *; lia).
    rewrite get_json_middle. unfold middle_json. fold mt mi. rewrite Lh, Lc, HE.
    intros [h c a w -> L Rc Ra Rw|h c a w x said' -> L Rc Ra Rw HF].
    { now rewrite (header_fails_here _ _ _ _ H24 Rc Ra Rw L). }
    destruct (header_read_here _ _ _ _ L Rc Ra Rw) as [d ->].
    destruct HF as [x said1 EI HT|said1 raw network HI EP Er En ER|said1 raw network blocks' tail x bsaid HI Er En HR HW' HB].
    - rewrite (items_stop_here _ _ EI HT). reflexivity.
    - destruct (items_said_here _ HI) as [t ->]. destruct (info_here _ _ Er En) as (k & Ek & ->). rewrite EP.
      rewrite <- Ek in ER. rewrite (info_fails_here cp raw Hcp k ER), Ek. cbn [bind ret fst snd app]. now rewrite ?app_nil_r, <- ?app_assoc.
    - destruct (items_said_here _ HI) as [t ->]. destruct (info_here _ _ Er En) as (k & Ek & ->).
      destruct (block_walk_det _ _ _ _ _ HW HW') as [-> ->]. unfold extras_as_dict. rewrite (blocks_stop_here cp Hcp _ _ _ _ (HS _ _ HW) HB).
      assert (EM : exists i, (if info_processed b then info_dict cp k raw else ret []) = (warn_if (info_processed b) (info_warnings cp network raw), Ok i)).
      { destruct (info_processed b); cbn [warn_if]; [|eexists; reflexivity]. specialize (HR eq_refl). rewrite <- Ek in HR.
        rewrite (info_dict_ok cp k raw Hcp HR), Ek. eexists. reflexivity. }
      destruct EM as [i ->]. cbn [bind ret fst snd app]. now rewrite ?app_nil_r, <- ?app_assoc.
  Qed.

  Lemma items_said_total : items_whole b -> exists said, items_said_by b cp said.
  Proof.
    unfold items_whole, items_said_by. destruct (has_id_list b); [|exists []; reflexivity]. intros H. specialize (H eq_refl).
    destruct (entries_total cp _ _ H eq_refl) as (items & said & HE). eauto.
  Qed.
  Lemma fails_total e : report_outcome b (Some e) -> exists said, report_fails b cp e said.
  Proof.
    pose proof (init_constructed b cp allow l Hcp Hl) as [(_ & _ & _ & HS) _].
    set (h := takeN (header_len b) b).
    destruct (read_time _ (signed64_fits 28 h)) as (c & _ & Rc). destruct (read_time _ (signed64_fits 36 h)) as (a & _ & Ra).
    destruct (read_time _ (signed64_fits 44 h)) as (w & _ & Rw).
    assert (EK : num 4 8 (dropN (id_list_end b) b) = num 4 (id_list_end b + 8) b) by (unfold num; now rewrite dropN_dropN).
    intros HO. remember (Some e) as o eqn:Eo.
    destruct HO as [HN|x HH EI HI|HH HI HF|blocks r o HH HI HF HW HB].
    - injection Eo as <-. rewrite header_whole_len in HN. eexists. apply (header_stops b cp h c a w); try assumption; [reflexivity|]. fold h in HN. lia.
    - injection Eo as ->. rewrite header_whole_len in HH. destruct (tried_total cp _ _ _ HI eq_refl) as [said HT].
      eexists. apply (sections_stop b cp h c a w); try assumption; [reflexivity|]. apply items_stop; [exact EI|exact HT].
    - injection Eo as <-. rewrite header_whole_len in HH. destruct (items_said_total HI) as [said HT].
      eexists. apply (sections_stop b cp h c a w); try assumption; [reflexivity|]. unfold info_whole in HF. rewrite <- EK in HF.
      destruct (info_processed b) eqn:EP; [|destruct HF; discriminate].
      apply info_stops; [exact HT|exact EP|reflexivity|reflexivity|].
      destruct (info_readable _ _) eqn:ER; [destruct HF; reflexivity|reflexivity].
    - subst o. rewrite header_whole_len in HH. destruct (items_said_total HI) as [said HT].
      destruct (blocks_stop_total cp Hcp _ _ _ (HS _ _ HW) HB eq_refl) as [ws HBS].
      eexists. apply (sections_stop b cp h c a w); try assumption; [reflexivity|].
      eapply extra_stops; [exact HT|reflexivity|reflexivity| |exact HW|exact HBS]. unfold info_whole in HF. rewrite <- EK in HF. exact HF.
  Qed.

  Lemma fails_iff all e said : get_json l all = (said, Err e) <-> report_fails b cp e said.
  Proof.
    split; [|apply fails_here]. intros H.
    destruct (fails_total e) as [said' HF]; [apply (proj2 (report_exact_iff b cp allow l all Hcp Hl)); now rewrite H|].
    rewrite (fails_here all _ _ HF) in H. injection H as <-. exact HF.
  Qed.
  Lemma fails_det e1 said1 e2 said2 : report_fails b cp e1 said1 -> report_fails b cp e2 said2 -> e1 = e2 /\ said1 = said2.
  Proof. intros H1 H2. apply (fails_here true) in H1. apply (fails_here true) in H2. rewrite H1 in H2. now injection H2 as -> ->. Qed.
  Lemma complete_iff said r : get_json l true = (said, r) <->
    match r with Ok d => report_outcome b None /\ whole_report b cp allow d said | Err e => report_fails b cp e said end.
  Proof.
    destruct r as [d|e]; [|apply fails_iff]. split.
    - intros H. split; [|now apply (whole_reported b cp allow l)].
      apply (proj1 (report_exact_iff b cp allow l true Hcp Hl)). exists d. now rewrite H.
    - intros [HO HR]. apply (proj1 (report_exact_iff b cp allow l true Hcp Hl)) in HO as [d' HO].
      destruct (get_json l true) as [said' r'] eqn:HG. cbn [snd] in HO. subst r'.
      apply (whole_reported b cp allow l) in HG; [|assumption..].
      destruct (init_constructed b cp allow l Hcp Hl) as [HC _].
      destruct (whole_det b cp allow _ _ _ _ Hcp HC HR HG) as [-> ->]. reflexivity.
  Qed.
End Report.

(** The specification says one thing about each file that can be opened. *)
Lemma one_outcome b cp allow : usable cp -> constructible b ->
  exists said r, (match r with Ok d => report_outcome b None /\ whole_report b cp allow d said | Err e => report_fails b cp e said end)
    /\ forall said' r',
      (match r' with Ok d => report_outcome b None /\ whole_report b cp allow d said' | Err e => report_fails b cp e said' end) ->
      said' = said /\ r' = r.
Proof.
  intros Hcp HC. destruct (construct_full b cp allow Hcp HC) as (l & found & cut & wx & HI & _).
  assert (Hl : snd (lnk_init (FromBytes b) cp allow) = Ok l) by (now rewrite HI).
  destruct (get_json l true) as [said r] eqn:HG. exists said, r. split; [now apply (complete_iff b cp allow l Hcp Hl)|].
  intros said' r' H. apply (complete_iff b cp allow l Hcp Hl) in H. rewrite HG in H. now injection H as -> ->.
Qed.

(** Running the model decides the specification. *)
Lemma fails_by_running b e said :
  match lnk_init (FromBytes b) CpNone true with
  | (_, Ok l) => match get_json l true with (w, Err x) => w = said /\ x = e | _ => False end
  | _ => False
  end -> report_fails b CpNone e said.
Proof.
  destruct (lnk_init (FromBytes b) CpNone true) as [w [l|x]] eqn:EL; [|intros []].
  assert (Hl : snd (lnk_init (FromBytes b) CpNone true) = Ok l) by (now rewrite EL).
  destruct (get_json l true) as [w' [d|x]] eqn:EJ; [intros []|]. intros [-> ->].
  now apply (fails_iff b CpNone true l ltac:(discriminate) Hl true).
Qed.
