(** * Whole links (C19, C46, C51) *)
From Verif Require Import Lemmas PyTime Codec Utils Header StringData Targets Info Extra LnkFile.
From Verif Require Import Spec SpecText SpecTime SpecHeader SpecItems SpecExtra SpecInfo SpecLink.
From Verif Require Import EncProofs OutcomeProofs LayoutProofs CoreProofs TimeProofs HeaderProofs ApiProofs TextProofs
  ConstructProofs StringProofs ItemProofs ExtraProofs ExtraListProofs InfoProofs InfoFileProofs.

Lemma lenN_encode_header h : wf_header h -> lenN (encode_header h) = 76.
Proof. intros (_ & _ & H & _). unfold encode_header. autorewrite with lens. rewrite H. reflexivity. Qed.
Lemma holds_middle (a p c : bytes) : holds (a ++ p ++ c) (lenN a) p.
Proof. now exists a, c. Qed.
Lemma appended_nonempty allow rest : appended_entry allow rest = appended allow rest.
Proof. unfold appended_entry, appended. destruct rest; [reflexivity|]. rewrite lenN_cons. destruct allow; [|reflexivity].
  cbn [andb nonempty]. replace (0 <? 1 + lenN rest) with true by lia. reflexivity. Qed.
Lemma sum_declared blocks : Forall block_fits blocks ->
  sumN (map declared (map (fun blk => (fst blk, encode_block blk)) blocks)) = lenN (encode_blocks blocks).
Proof.
  induction 1 as [|[sig p] blocks [H1 H2] _ IH]; [reflexivity|]. cbn [map sumN fold_right encode_blocks flat_map].
  rewrite lenN_app. fold (encode_blocks blocks). unfold sumN in IH. rewrite IH. f_equal.
  unfold declared. cbn [snd fst]. unfold encode_block. cbn [fst snd] in *. unfold num. rewrite dropN_0.
  rewrite takeN_app_exact by reflexivity. rewrite le_val_enc32 by exact H2. autorewrite with lens. lia.
Qed.
Lemma quiet_blocks blocks rest : Forall block_fits blocks -> walk_warnings (encode_blocks blocks ++ enc32 0 ++ rest) [].
Proof.
  induction 1 as [|blk blocks Hb _ IH]; cbn [encode_blocks flat_map app].
  - apply quiet_end. right. rewrite lenN_app. split; [change (lenN (enc32 0)) with 4; lia|].
    unfold num. rewrite dropN_0, takeN_app_exact by reflexivity. reflexivity.
  - rewrite <- app_assoc. set (r := flat_map encode_block blocks ++ enc32 0 ++ rest) in *.
    destruct (encode_block_num blk r Hb) as (E1 & _ & _ & E4). apply whole_block.
    + rewrite lenN_app, lenN_block. lia.
    + rewrite E1. lia.
    + rewrite E1, E4. exact IH.
Qed.

(** ** The warnings of a LinkInfo section *)
Lemma slot_page_warning cp raw base s : slot_in false raw base s ->
  warn_if (negb (at_offset s =? 0)) (field_warning cp (dropN (base + at_offset s) raw)) = slot_warning false cp s.
Proof.
  intros H. destruct s as [[off body]|]; [|reflexivity]. destruct (slot_text _ cp _ _ _ _ H) as [_ E]. destruct H as (H & _).
  cbn [at_offset slot_warning stored_warning] in *. rewrite E. replace (off =? 0) with false by lia. reflexivity.
Qed.
Lemma slot_wide_warning cp raw base s : slot_in true raw base s ->
  warn_if (negb (at_offset s =? 0)) (wide_warning (dropN (base + at_offset s) raw)) = slot_warning true cp s.
Proof.
  intros H. destruct s as [[off body]|]; [|reflexivity]. destruct (slot_text _ cp _ _ _ _ H) as [_ E]. destruct H as (H & _).
  cbn [at_offset slot_warning stored_warning] in *. rewrite E. replace (off =? 0) with false by lia. reflexivity.
Qed.
Lemma common_warned cp raw i : info_in raw i ->
  common_warnings cp raw
  = slot_warning false cp (i_base i) ++ slot_warning false cp (i_suffix i)
    ++ match i_wide i with Some (b, s) => slot_warning true cp b ++ suffix_warning raw s | None => [] end.
Proof.
  intros HI. pose proof HI as (_ & _ & _ & _ & _ & _ & _ & HB & HS & HWS).
  apply info_numbers in HI as (_ & _ & _ & _ & _ & _ & N4 & _ & N6 & W1 & W2).
  unfold common_warnings. cbv zeta. rewrite N4, N6, W1, W2.
  rewrite <- (slot_page_warning cp raw 0 _ HB), <- (slot_page_warning cp raw 0 _ HS). rewrite !N.add_0_l.
  destruct (i_wide i) as [[b s]|]; [|reflexivity]. destruct HWS as [HWB HWS].
  rewrite <- (slot_wide_warning cp raw 0 b HWB). rewrite N.add_0_l.
  destruct s as [[off body]|]; [|reflexivity]. destruct HWS as (H0 & _). cbn [at_offset suffix_warning].
  replace (off =? 0) with false by lia. reflexivity.
Qed.
Lemma local_warned cp raw at_ v : num 4 12 raw = at_ -> volume_in raw at_ v ->
  local_warnings cp raw
  = match v_label v with PageLabel _ body => field_warning cp body | WideLabel s => slot_warning true cp s end.
Proof.
  intros HA (F1 & F2 & F3 & HH & HL). unfold encode_volume in HH.
  apply holds_u32 in HH as (_ & _ & HH); [|assumption]. apply holds_u32 in HH as (_ & _ & HH); [|assumption].
  apply holds_u32 in HH as (_ & _ & HH); [|assumption].
  apply (holds_off _ _ (at_ + 12)) in HH; [|lia].
  unfold local_warnings. cbv zeta. rewrite HA. destruct (v_label v) as [off body|s].
  - destruct HL as (FO & HO & HZ & HS). apply holds_u32_last in HH as (N3 & L3); [|assumption]. rewrite N3.
    replace (off =? 0x14) with false by lia. cbn [negb warn_if N.eqb app].
    apply holds_drop in HS as [after ->]. destruct (stored_nul false cp body after HZ) as [_ E]. cbn [stored_warning] in E.
    rewrite E. apply app_nil_r.
  - pose proof (slot_fits _ _ _ _ HL) as FS. apply holds_u32 in HH as (N3 & L3 & HH); [|unfold fits32; lia].
    apply holds_u32_last in HH as (N4 & L4); [|assumption]. replace (at_ + 12 + 4) with (at_ + 16) in * by lia.
    rewrite N3, N4. cbn [N.eqb Pos.eqb negb warn_if app]. apply (slot_wide_warning cp raw at_ s HL).
Qed.
Lemma network_warned cp raw at_ n : num 4 20 raw = at_ -> network_in raw at_ n ->
  network_warnings cp raw
  = match n_names n with
    | PageNames _ name _ device => name_warnings cp name ++ name_warnings cp device
    | WideNames _ _ wn wd => slot_warning true cp wn ++ slot_warning true cp wd
    end.
Proof.
  intros HA (F1 & F2 & F3 & HH & HL). unfold encode_network in HH.
  apply holds_u32 in HH as (_ & _ & HH); [|assumption]. apply holds_u32 in HH as (_ & _ & HH); [|assumption].
  apply (holds_off _ _ (at_ + 8)) in HH; [|lia].
  unfold network_warnings. cbv zeta. rewrite HA. destruct (n_names n) as [na name da device|na da wn wd].
  - destruct HL as (HNA & FD & Z1 & Z2 & S1 & S2).
    apply holds_u32 in HH as (N2 & _ & HH); [|unfold fits32; lia]. apply holds_u32 in HH as (N3 & _ & HH); [|assumption].
    replace (at_ + 8 + 4) with (at_ + 12) in * by lia. rewrite N2, N3.
    replace (20 <? na) with false by lia. replace (na <=? 20) with true by lia. cbn [negb warn_if N.eqb app].
    apply holds_drop in S1 as [a1 ->]. apply holds_drop in S2 as [a2 ->].
    destruct (stored_nul false cp name a1 Z1) as [E1 W1]. destruct (stored_nul false cp device a2 Z2) as [E2 W2].
    cbn [stored_text stored_warning] in *. unfold name_warnings. rewrite E1, E2, W1, W2. reflexivity.
  - destruct HL as (HNA & FN & FD & S1 & S2). pose proof (slot_fits _ _ _ _ S1) as FS1. pose proof (slot_fits _ _ _ _ S2) as FS2.
    apply holds_u32 in HH as (N2 & _ & HH); [|assumption]. apply holds_u32 in HH as (N3 & _ & HH); [|assumption].
    apply (holds_off _ _ (at_ + 16)) in HH; [|lia]. apply holds_u32 in HH as (N4 & L4 & HH); [|assumption].
    apply (holds_off _ _ (at_ + 20)) in HH; [|lia]. apply holds_u32 in HH as (N5 & L5 & HH); [|assumption].
    apply (holds_off _ _ (at_ + 24)) in HH; [|lia]. apply holds_u32_last in HH as (N6 & L6); [|assumption].
    rewrite N2, N5, N6.
    replace (20 <? na) with true by lia. replace (na <=? 20) with false by lia.
    rewrite (slot_wide_warning cp raw at_ wn S1), (slot_wide_warning cp raw at_ wd S2). cbn [warn_if app]. now rewrite app_nil_r.
Qed.
Lemma located_warned cp raw i loc : located raw i loc ->
  info_warnings cp (is_network (kind_of loc)) raw = location_warnings cp raw i loc.
Proof.
  intros [HI HL]. pose proof (info_numbers _ _ HI) as (_ & _ & _ & _ & _ & N3 & _ & N5 & _).
  unfold info_warnings, location_warnings. rewrite (common_warned cp raw i HI), <- !app_assoc. do 2 f_equal.
  destruct (i_wide i) as [[b s]|]; cbn [app]; [rewrite <- !app_assoc; do 2 f_equal|];
    (destruct loc as [v|n]; cbn [kind_of is_network];
     [apply (local_warned cp raw _ v N3), HL|apply (network_warned cp raw _ n N5), HL]).
Qed.

(** The section decides, if it holds the Unicode suffix. *)
Lemma wide_same4 body a1 a2 : zbody true body -> 4 <= lenN body ->
  wide_text (dropN 4 (zstring true body ++ a1)) = wide_text (dropN 4 (zstring true body ++ a2))
  /\ wide_warning (dropN 4 (zstring true body ++ a1)) = wide_warning (dropN 4 (zstring true body ++ a2)).
Proof.
  intros [He _] HL. unfold zstring. rewrite <- !app_assoc, !dropN_app_le by assumption. cbn [app].
  assert (HE : N.even (lenN (dropN 4 body)) = true).
  { rewrite lenN_dropN. apply N.even_spec in He as [k Hk]. apply N.even_spec. exists (k - 2). lia. }
  unfold wide_text, wide_warning. rewrite !before_nul_unit_cut by exact HE. split; reflexivity.
Qed.
Lemma suffix_same s t i loc : located s i loc -> long_suffix i ->
  match i_wide i with
  | Some (_, Some (off, _)) => wide_text (dropN (off + 4) (s ++ t)) = wide_text (dropN (off + 4) s)
                               /\ wide_warning (dropN (off + 4) (s ++ t)) = wide_warning (dropN (off + 4) s)
  | _ => True
  end.
Proof.
  intros [HI _] HS. unfold long_suffix in HS. destruct HI as (_ & _ & _ & _ & _ & _ & _ & _ & _ & HI).
  destruct (i_wide i) as [[b [[off body]|]]|]; try exact I. destruct HI as [_ (_ & _ & HZ & HI)].
  rewrite N.add_0_l in HI. apply holds_drop in HI as HD. destruct HD as [a1 E1].
  assert (E2 : dropN off (s ++ t) = zstring true body ++ (a1 ++ t)).
  { apply holds_len in HI. rewrite dropN_app_le by lia. rewrite E1. now rewrite app_assoc. }
  rewrite <- !dropN_dropN, E1, E2. now apply wide_same4.
Qed.
Lemma location_same cp s t i loc : located s i loc -> long_suffix i ->
  location_report cp (s ++ t) i loc = location_report cp s i loc
  /\ location_warnings cp (s ++ t) i loc = location_warnings cp s i loc.
Proof.
  intros HL HS. pose proof (suffix_same s t i loc HL HS) as H. unfold location_report, location_warnings, info_report.
  destruct (i_wide i) as [[b [[off body]|]]|]; [|split; reflexivity..].
  cbn [wide_suffix_entries suffix_warning]. destruct H as [-> ->]. split; reflexivity.
Qed.

(** ** The texts *)
Lemma texts_found b cp t found cut :
  wf_texts (num 4 20 b) t -> holds b (info_end b) (encode_texts t) ->
  string_walk b string_fields (info_end b) found (string_data_end b) cut ->
  string_data_end b = info_end b + lenN (encode_texts t) /\ cut = false
  /\ map (entry (bit_set 7 b) cp) found = texts_report cp t
  /\ flat_map (entry_warning (bit_set 7 b) cp) found = texts_warnings cp t.
Proof.
  intros HW HH HS. destruct t as [l|l]; cbn [encode_texts texts_report texts_warnings] in *; destruct HW as (HU & HA & HF);
    fold (bit_set 7 b) in HU; rewrite HU.
  - assert (HC : counted (char_width b) string_fields (map (option_map unicode_string) l)).
    { unfold char_width. rewrite HU. eapply counted_of; [|exact HF]. intros lim t (_ & _ & H1 & H2). cbn [fst snd unicode_string].
      split; [assumption|]. rewrite utf16_units_double. unfold chars_read. destruct lim; [|reflexivity]. specialize (H2 eq_refl). lia. }
    pose proof (walk_of_layout b _ _ _ (announced_map _ _ _ _ HA) HC HH) as HX.
    destruct (string_walk_det _ _ _ _ _ _ _ _ _ HS HX) as (-> & -> & ->).
    split; [reflexivity|]. split; [reflexivity|]. rewrite keyed_map, map_map. cbn [fst snd].
    clear -HF. unfold fields_fit in HF. revert HF. generalize string_fields. intros fs HF.
    induction HF as [|[[i name] lim] [t|] fs l H1 H2 IH]; cbn [keyed map fst snd flat_map]; [split; reflexivity| |assumption].
    destruct IH as [IH1 IH2]. destruct H1 as (H1 & H3 & _). unfold entry at 1, entry_warning at 1. cbn [fst snd unicode_string].
    rewrite IH1, IH2, stored_unicode by assumption. split; [reflexivity|].
    rewrite app_nil_r. cbn [stored_warning]. unfold wide_warning.
    pose proof (read_unicode_field (utf16 t)) as HR. rewrite (wide_text_all t H1 H3) in HR.
    injection HR as HR _. unfold wide_warning in HR. now rewrite <- HR.
  - assert (HC : counted (char_width b) string_fields (map (option_map page_string) l)).
    { unfold char_width. rewrite HU. eapply counted_of; [|exact HF]. intros lim t (H1 & H2). cbn [fst snd page_string].
      split; [assumption|]. unfold chars_read. destruct lim; [specialize (H2 eq_refl)|]; lia. }
    pose proof (walk_of_layout b _ _ _ (announced_map _ _ _ _ HA) HC HH) as HX.
    destruct (string_walk_det _ _ _ _ _ _ _ _ _ HS HX) as (-> & -> & ->).
    split; [reflexivity|]. split; [reflexivity|]. rewrite keyed_map, map_map. cbn [fst snd].
    clear. induction (keyed string_fields l) as [|e r [IH1 IH2]]; [split; reflexivity|].
    cbn [map flat_map]. rewrite IH1, IH2. split; reflexivity.
Qed.

(** ** Times *)
Lemma stands z o : stands_for z o -> parse_filetime (enci64 z) = ([], Ok o).
Proof.
  destruct o as [t|]; cbn [stands_for].
  - intros (-> & H1 & H2 & H3). now apply filetime_round_trip.
  - intros ->. reflexivity.
Qed.

(** ** The target *)
Lemma target_warned l cp its after :
  usable cp -> l_cp l = cp -> Forall wf_item its -> Forall (fun it => item_fits (item_body it)) its ->
  let idl := encode_items (map item_body its) in
  lenN idl < 65536 ->
  target_dict l (Targets (encode_id_list (map item_body its) ++ after)
                  (slice 2 (lenN idl + 2) (encode_id_list (map item_body its) ++ after)))
  = (flat_map (item_warnings cp) its,
     Ok [("size", PN (lenN idl)); ("items", PList (map (fun it => PDict (item_report cp it)) its));
         ("index", PN (l_target_index l))]%string).
Proof.
  intros Hcp Hc HW HF idl HL. unfold encode_id_list. fold idl. rewrite <- app_assoc.
  rewrite (slice_skip_n 2 _ 2) by (reflexivity || lia). change (2 - 2) with 0.
  replace (lenN idl + 2 - 2) with (lenN idl) by lia. rewrite slice_here by reflexivity.
  unfold target_dict. cbn [fields tg_raw]. unfold id_list_size, targets_as_list. cbn [tg_raw_targets].
  rewrite slice_here_n, unpack_enc16 by (assumption || reflexivity).
  rewrite !bind_ret_l, Hc.
  pose proof (items_spec cp its [] Hcp HW HF) as HS. rewrite app_nil_r in HS. fold idl in HS. rewrite HS.
  cbn [ret bind snd fst app]. rewrite ?app_nil_r. cbn [bind]. rewrite ?app_nil_r. reflexivity.
Qed.

(** ** The layout of an encoded link *)
Section Layout.
  Variables (k : link) (t : bytes).
  Hypothesis Hk : wf_link k.
  Let b := encode_link k ++ t.
  Let blocks := map as_block (k_blocks k).
  Let after := encode_texts (k_texts k) ++ encode_blocks blocks ++ enc32 0 ++ t.

  Lemma link_bytes : b = encode_header (k_header k) ++ id_list_bytes k ++ info_bytes k ++ after.
  Proof. unfold b, encode_link, after, blocks. now rewrite <- !app_assoc. Qed.
  Lemma link_long : lenN b = 76 + lenN (id_list_bytes k) + lenN (info_bytes k) + lenN after.
  Proof. rewrite link_bytes, !lenN_app, lenN_encode_header by apply Hk. lia. Qed.
  Lemma link_header_len : header_len b = 76.
  Proof. rewrite link_bytes, header_len_encode by apply Hk. apply Hk. Qed.
  Lemma link_flags : num 4 20 b = h_flags (k_header k).
  Proof.
    destruct Hk as ((HC & HS & HL & HF & _) & _). apply holds_num32; [|exact HF].
    rewrite link_bytes. apply holds_suffix. unfold encode_header.
    exists (enc32 (h_size (k_header k)) ++ h_clsid (k_header k)). eexists. split.
    - rewrite <- app_assoc. reflexivity.
    - autorewrite with lens. lia.
  Qed.
  Lemma link_bit i : bit_set i b = N.testbit (h_flags (k_header k)) i.
  Proof. unfold bit_set. now rewrite link_flags. Qed.
  Lemma link_at_76 : dropN 76 b = id_list_bytes k ++ info_bytes k ++ after.
  Proof. rewrite link_bytes. apply dropN_app_exact, lenN_encode_header, Hk. Qed.
  Lemma link_id_list_num its : k_items k = Some its -> num 2 76 b = lenN (encode_items (map item_body its)).
  Proof.
    intros E. destruct Hk as (_ & _ & _ & _ & _ & _ & HI & _). destruct (HI its E) as (_ & _ & HL).
    unfold num. rewrite link_at_76. unfold id_list_bytes. rewrite E. unfold encode_id_list.
    rewrite <- !app_assoc, takeN_app_exact by reflexivity. now apply le_val_enc16.
  Qed.
  Lemma link_id_list_end : id_list_end b = 76 + lenN (id_list_bytes k).
  Proof.
    pose proof Hk as (_ & _ & _ & _ & _ & H0 & HI & _). unfold id_list_end, has_id_list. rewrite link_bit, link_header_len, H0.
    destruct (k_items k) as [its|] eqn:E; cbn [is_some].
    - rewrite (link_id_list_num its E). unfold id_list_bytes. rewrite E. unfold encode_id_list. rewrite lenN_app.
      change (lenN (enc16 _)) with 2. lia.
    - unfold id_list_bytes. rewrite E. reflexivity.
  Qed.
  Lemma link_at_info : dropN (id_list_end b) b = info_bytes k ++ after.
  Proof. rewrite link_id_list_end, <- dropN_dropN, link_at_76. now apply dropN_app_exact. Qed.
  Lemma link_info_facts : info_processed b = is_some (k_info k) /\ info_end b = id_list_end b + lenN (info_bytes k)
    /\ info_warning b = []
    /\ forall i loc section, k_info k = Some (i, loc, section) ->
       (if N.testbit (num 4 (id_list_end b + 8) b) 0 then Local else Network) = kind_of loc.
  Proof.
    pose proof Hk as (_ & _ & _ & _ & _ & _ & _ & H1 & HI & _).
    destruct (k_info k) as [[[i loc] section]|] eqn:E.
    - destruct (HI i loc section eq_refl) as (B8 & HL & HS).
      assert (HH : holds b (id_list_end b) section).
      { exists (takeN (id_list_end b) b), after. split.
        - pose proof link_at_info as HA. unfold info_bytes in HA. rewrite E in HA. rewrite <- HA. symmetry. apply take_drop.
        - rewrite lenN_takeN. pose proof link_long. rewrite link_id_list_end. lia. }
      rewrite <- link_bit in H1, B8. destruct (located_processed b section i loc HH HL H1 B8) as (HP & HE & HL' & HN).
      split; [exact HP|]. split; [|split].
      + unfold info_bytes. rewrite HE, E, HS. reflexivity.
      + unfold info_warning. destruct (info_numbers _ _ (proj1 HL')) as (L & _). rewrite lenN_dropN in L.
        replace (lenN b <? id_list_end b + 12) with false by lia. now rewrite andb_false_r.
      + intros i' loc' s' [= <- <- <-]. rewrite num_dropN in HN. destruct loc; cbn [kind_of is_network] in *; now destruct (N.testbit _ 0).
    - rewrite <- link_bit in H1. unfold info_end, info_processed, info_warning, info_bytes. cbv zeta. rewrite E, H1. cbn [is_some andb].
      split; [reflexivity|]. split; [change (lenN (@nil byte)) with 0; lia|]. split; [reflexivity|]. discriminate.
  Qed.
  Lemma link_at_texts : dropN (info_end b) b = after.
  Proof.
    destruct link_info_facts as (_ & -> & _). rewrite <- dropN_dropN, link_at_info. now apply dropN_app_exact.
  Qed.
  Lemma link_texts : wf_texts (num 4 20 b) (k_texts k) /\ holds b (info_end b) (encode_texts (k_texts k)).
  Proof.
    split; [rewrite link_flags; apply Hk|].
    exists (takeN (info_end b) b), (encode_blocks blocks ++ enc32 0 ++ t). split.
    - pose proof link_at_texts as HA. fold after. rewrite <- HA. symmetry. apply take_drop.
    - rewrite lenN_takeN. destruct link_info_facts as (_ & E & _). rewrite E, link_id_list_end. pose proof link_long. lia.
  Qed.
  Lemma link_blocks_fit : Forall block_fits blocks.
  Proof.
    destruct Hk as (_ & _ & _ & _ & _ & _ & _ & _ & _ & _ & HB). unfold blocks.
    clear -HB. induction HB; constructor; [now apply wf_block_fits|assumption].
  Qed.
  Lemma link_lens : lenN b = lenN (encode_link k) + lenN t
    /\ lenN (encode_link k) = info_end b + lenN (encode_texts (k_texts k)) + lenN (encode_blocks blocks) + 4.
  Proof.
    split; [apply lenN_app|]. destruct link_info_facts as (_ & -> & _). rewrite link_id_list_end.
    unfold encode_link. fold blocks. rewrite !lenN_app, lenN_encode_header by apply Hk. change (lenN (enc32 0)) with 4. lia.
  Qed.
End Layout.

(** ** The whole link *)
Definition info_after (k : link) (t : bytes) : bytes :=
  info_bytes k ++ encode_texts (k_texts k) ++ encode_blocks (map as_block (k_blocks k)) ++ enc32 0 ++ t.
Definition seen_report (cp : cp_arg) (k : link) (t : bytes) : dict :=
  match k_info k with Some (i, loc, _) => location_report cp (info_after k t) i loc | None => [] end.
Definition seen_warnings (cp : cp_arg) (k : link) (t : bytes) : list warning :=
  match k_info k with Some (i, loc, _) => location_warnings cp (info_after k t) i loc | None => [] end.

Lemma link_walk blocks t : Forall block_fits blocks ->
  block_walk (encode_blocks blocks ++ enc32 0 ++ t) (map (fun blk => (fst blk, encode_block blk)) blocks) (enc32 0 ++ t).
Proof.
  intros H. pose proof (walk_encoded blocks _ _ _ H (walk_terminal t)) as HW. now rewrite app_nil_r in HW.
Qed.
Lemma link_constructed cp allow k t :
  usable cp -> wf_link k ->
  let b := encode_link k ++ t in
  exists l, lnk_init (FromBytes b) cp allow = (texts_warnings cp (k_texts k), Ok l)
  /\ constructed b cp allow l /\ l_size l = total_size k allow t
  /\ sd_data (l_string_data l) = texts_report cp (k_texts k)
  /\ dropN (string_data_end b) b = encode_blocks (map as_block (k_blocks k)) ++ enc32 0 ++ t.
Proof.
  intros Hcp Hk. cbv zeta.
  pose proof (link_header_len k t Hk) as E76. pose proof (link_at_texts k t Hk) as ET.
  pose proof (link_texts k t Hk) as (HW & HH). pose proof (link_blocks_fit k Hk) as HB.
  pose proof (link_info_facts k t Hk) as (HP & HE & HIW & HIK). pose proof (link_lens k t Hk) as (HL1 & HL2).
  pose proof (link_long k t Hk) as HLL.
  cbv zeta in *. set (b := encode_link k ++ t) in *. set (blocks := map as_block (k_blocks k)) in *.
  assert (HD : string_data_end b = info_end b + lenN (encode_texts (k_texts k))).
  { destruct (string_data_full b cp Hcp) as (found & cut & HS & _); [lia..|]. now destruct (texts_found b cp _ found cut HW HH HS). }
  assert (HR : dropN (string_data_end b) b = encode_blocks blocks ++ enc32 0 ++ t).
  { rewrite HD, <- dropN_dropN, ET. now apply dropN_app_exact. }
  assert (HC : constructible b).
  { split; [lia|]. split; [lia|]. split.
    - intros H0. rewrite E76.
      unfold has_id_list in H0. pose proof (link_bit k t Hk 0) as HBit. cbv zeta in HBit. fold b in HBit. rewrite HBit in H0.
      pose proof Hk as (_ & _ & _ & _ & _ & HX & _). rewrite HX in H0. unfold id_list_bytes in HLL.
      destruct (k_items k) as [its|]; [|discriminate]. unfold encode_id_list in HLL. rewrite lenN_app in HLL.
      change (lenN (enc16 _)) with 2 in HLL. lia.
    - intros bs r HWb. rewrite HR in HWb. destruct (block_walk_det _ _ _ _ _ (link_walk blocks t HB) HWb) as [<- _].
      unfold sizes_readable. apply Forall_map. apply Forall_forall. intros blk _. cbn [snd]. rewrite lenN_block. lia. }
  destruct (construct_full b cp allow Hcp HC) as (l & found & cut & wx & HI & HS & HSD & HX).
  destruct (texts_found b cp _ found cut HW HH HS) as (_ & -> & ER & EW).
  rewrite HR in HX. rewrite (walk_warnings_det _ _ _ HX (quiet_blocks blocks t HB)) in HI.
  exists l. assert (HI2 : snd (lnk_init (FromBytes b) cp allow) = Ok l) by now rewrite HI.
  apply init_constructed in HI2 as (_ & HI2); [|assumption].
  split; [|split; [exact HI2|split; [|split; [congruence|exact HR]]]].
  - rewrite HI. unfold size_warning_of. rewrite E76, HIW, EW. cbn [N.eqb Pos.eqb app]. now rewrite app_nil_r.
  - destruct HI2 as (_ & _ & _ & _ & _ & _ & bs & r & HWb & _ & HZ). rewrite HZ. rewrite HR in HWb.
    destruct (block_walk_det _ _ _ _ _ (link_walk blocks t HB) HWb) as [<- <-].
    rewrite sum_declared by assumption. unfold total_size, tail_size. rewrite HL1, HD.
    rewrite lenN_app. change (lenN (enc32 0)) with 4. rewrite HL2.
    replace (num 4 0 (enc32 0 ++ t) =? 0) with true by (unfold num; rewrite dropN_0, takeN_app_exact by reflexivity; reflexivity).
    rewrite andb_true_r. destruct allow; cbn [andb]; [destruct (4 <? 4 + lenN t) eqn:E4|]; lia.
Qed.

Lemma link_seen cp allow k t :
  usable cp -> wf_link k ->
  exists l, lnk_init (FromBytes (encode_link k ++ t)) cp allow = (texts_warnings cp (k_texts k), Ok l)
  /\ l_size l = total_size k allow t
  /\ get_json l true
     = (clsid_warning (k_header k) ++ reserved_warnings (k_header k)
        ++ match k_items k with Some its => flat_map (item_warnings cp) its | None => [] end
        ++ seen_warnings cp k t ++ flat_map (block_warnings cp) (k_blocks k),
        Ok ([("size", PN (total_size k allow t));
             ("header", PDict (header_report (k_header k) (k_created k) (k_accessed k) (k_modified k)))]
            ++ match k_items k with
               | Some its =>
                 [("target", PDict [("size", PN (lenN (encode_items (map item_body its))));
                                    ("items", PList (map (fun it => PDict (item_report cp it)) its));
                                    ("index", PN 78)])]
               | None => []
               end
            ++ [("link_info", PDict (seen_report cp k t));
                ("data", PDict (texts_report cp (k_texts k)));
                ("extra", PDict (collect (map (fun x => (block_name (block_signature x), block_report cp x)) (k_blocks k)
                                          ++ appended allow t)))]%string)).
Proof.
  intros Hcp Hk. destruct (link_constructed cp allow k t Hcp Hk) as (l & HI & HC & HZ & HT & HR).
  exists l. split; [exact HI|]. split; [exact HZ|].
  assert (HI2 : snd (lnk_init (FromBytes (encode_link k ++ t)) cp allow) = Ok l) by now rewrite HI.
  assert (HB : Forall wf_block (k_blocks k)) by apply Hk.
  pose proof (blocks_warned _ cp allow l _ _ Hcp HI2 HB HR) as HE. rewrite appended_nonempty in HE.
  pose proof (link_header_len k t Hk) as E76. pose proof (link_at_76 k t Hk) as EA.
  pose proof (link_bit k t Hk) as EB. pose proof (link_info_facts k t Hk) as (HP & _ & _ & HIK).
  pose proof (link_at_info k t Hk) as EI. pose proof (link_bytes k t) as ELB. cbv zeta in *.
  destruct HC as (Hc & Hh & Hi & Ht & Hinf & _). rewrite E76 in *.
  assert (EH : header_dict (l_header l)
               = (clsid_warning (k_header k) ++ reserved_warnings (k_header k),
                  Ok (header_report (k_header k) (k_created k) (k_accessed k) (k_modified k)))).
  { destruct Hk as (Hw & H76 & S1 & S2 & S3 & _).
    rewrite Hh, ELB, <- H76. rewrite (hp_dict (k_header k) _ Hw _ _ _ _ _ _ (stands _ _ S1) (stands _ _ S2) (stands _ _ S3)).
    unfold size_warning. rewrite H76. reflexivity. }
  assert (ET : (match l_targets l with Some t0 => d <- target_dict l t0 ;; ret [("target"%string, PDict d)] | None => ret [] end)
               = (match k_items k with Some its => flat_map (item_warnings cp) its | None => [] end,
                  Ok match k_items k with
                     | Some its =>
                       [("target", PDict [("size", PN (lenN (encode_items (map item_body its))));
                                    ("items", PList (map (fun it => PDict (item_report cp it)) its));
                                    ("index", PN 78)])]%string
                     | None => []
                     end)).
  { rewrite Ht. unfold has_id_list. rewrite EB. pose proof Hk as (_ & _ & _ & _ & _ & H0 & HIt & _). rewrite H0.
    destruct (k_items k) as [its|] eqn:EK; cbn [is_some]; [|reflexivity].
    destruct (HIt its eq_refl) as (HW & HF & HL). rewrite (link_id_list_num k t Hk its EK), EA.
    unfold id_list_bytes. rewrite EK. rewrite (target_warned l cp its _ Hcp Hc HW HF HL), Hi. rewrite bind_Ok. cbn [ret snd fst].
    now rewrite app_nil_r. }
  assert (EL : (match l_info l with Some (kd, raw) => info_dict (l_cp l) kd raw | None => ret [] end)
               = (seen_warnings cp k t, Ok (seen_report cp k t))).
  { rewrite Hinf, HP, Hc. unfold seen_warnings, seen_report.
    destruct (k_info k) as [[[i loc] section]|] eqn:EK; cbn [is_some]; [|reflexivity].
    rewrite (HIK i loc section eq_refl), EI. fold (info_after k t).
    assert (HL : located (info_after k t) i loc).
    { unfold info_after, info_bytes. rewrite EK. apply located_suffix.
      destruct Hk as (_ & _ & _ & _ & _ & _ & _ & _ & HX & _). now destruct (HX i loc section EK) as (_ & HX2 & _). }
    destruct (located_report cp _ i loc HL) as (HRd & <-). rewrite info_dict_ok by assumption.
    now rewrite (located_warned cp _ i loc HL). }
  rewrite get_json_middle. unfold middle_json. rewrite EH, ET, EL, Hc, HE, HZ, HT. cbn [bind ret fst snd].
  f_equal; [rewrite !app_nil_r, <- ?app_assoc; reflexivity|]. f_equal.
  cbn [app]. do 2 f_equal. rewrite <- app_assoc. reflexivity.
Qed.
(** Four zero bytes end every Unicode string. *)
Lemma nul_unit_end (y t : bytes) n : n <= lenN y + 2 ->
  before_nul_unit (dropN n (y ++ enc32 0 ++ t)) = before_nul_unit (dropN n (y ++ enc32 0)).
Proof.
  change (enc32 0) with ([x00; x00; x00; x00] : bytes). intros H. destruct (N.le_gt_cases n (lenN y)) as [HL|HL].
  - rewrite !dropN_app_le by assumption. set (y' := dropN n y). destruct (N.even (lenN y')) eqn:E.
    + cbn [app]. now rewrite !before_nul_unit_cut by exact E.
    + assert (E2 : N.even (lenN (y' ++ [x00])) = true).
      { rewrite lenN_app. change (lenN [x00]) with 1. rewrite N.even_add, E. reflexivity. }
      change ([x00; x00; x00; x00] ++ t) with ([x00] ++ x00 :: x00 :: x00 :: t).
      change ([x00; x00; x00; x00] : bytes) with ([x00] ++ x00 :: x00 :: [x00]).
      rewrite !(app_assoc y'). now rewrite !before_nul_unit_cut by exact E2.
  - assert (E : n = lenN y + 1 \/ n = lenN y + 2) by lia.
    destruct E as [-> | ->]; rewrite <- !dropN_dropN, !(dropN_app_exact (lenN y) y _ eq_refl); reflexivity.
Qed.
Lemma info_after_eq k t : info_after k t = from_info k ++ t.
Proof. unfold info_after, from_info. now rewrite <- !app_assoc. Qed.
Lemma link_exact cp allow k t :
  usable cp -> wf_link k ->
  exists l, lnk_init (FromBytes (encode_link k ++ t)) cp allow = (texts_warnings cp (k_texts k), Ok l)
  /\ l_size l = total_size k allow t
  /\ get_json l true = (report_warnings cp k, Ok (link_report cp allow k t)).
Proof.
  intros Hcp Hk. destruct (link_seen cp allow k t Hcp Hk) as (l & HI & HZ & HJ). exists l.
  split; [exact HI|]. split; [exact HZ|]. rewrite HJ.
  assert (E : seen_report cp k t = match k_info k with Some (i, loc, _) => location_report cp (from_info k) i loc | None => [] end
              /\ seen_warnings cp k t = match k_info k with Some (i, loc, _) => location_warnings cp (from_info k) i loc | None => [] end).
  { unfold seen_report, seen_warnings. destruct (k_info k) as [[[i loc] section]|] eqn:EK; [|split; reflexivity].
    destruct Hk as (_ & _ & _ & _ & _ & _ & _ & _ & HX & _). destruct (HX i loc section EK) as (_ & HX2 & _).
    destruct HX2 as [(_ & _ & _ & _ & _ & _ & _ & _ & _ & HL) _].
    unfold location_report, location_warnings, info_report.
    destruct (i_wide i) as [[b [[off body]|]]|] eqn:EW; [|split; reflexivity..].
    cbn [wide_suffix_entries suffix_warning]. unfold wide_text, wide_warning.
    replace (before_nul_unit (dropN (off + 4) (info_after k t))) with (before_nul_unit (dropN (off + 4) (from_info k)));
      [split; reflexivity|].
    symmetry. unfold info_after, from_info, info_bytes. rewrite EK.
    destruct HL as [_ (_ & _ & _ & HL)]. apply holds_len in HL. unfold zstring in HL. rewrite lenN_app in HL.
    change (lenN [x00; x00]) with 2 in HL.
    rewrite !(app_assoc section), !(app_assoc (section ++ _)). apply nul_unit_end. rewrite !lenN_app. lia. }
  destruct E as [-> ->]. reflexivity.
Qed.
(** ** Conforming links *)
Lemma page_quiet cp f : page_readable cp f -> field_warning cp f = [].
Proof.
  unfold page_readable, field_warning, page_warning. intros H. destruct (before_nul f) as [|x r] eqn:E; [reflexivity|].
  destruct H as [H|[H|(t & Ht & H)]]; [discriminate| |].
  - now destruct (strict (page_of cp) (x :: r)).
  - rewrite H, utf8_strict_text by assumption. now destruct (strict _ _).
Qed.
Lemma wide_quiet f : wide_readable f -> wide_warning f = [].
Proof.
  intros (t & Ht & Hn & [-> | (rest & ->)]); unfold wide_warning.
  - pose proof (read_unicode_field (utf16 t)) as HR. rewrite (wide_text_all t Ht Hn) in HR.
    injection HR as HR _. unfold wide_warning in HR. now rewrite <- HR.
  - rewrite before_nul_unit_cut.
    + pose proof (read_unicode_field (utf16 t)) as HR. rewrite (wide_text_all t Ht Hn) in HR.
      injection HR as HR _. unfold wide_warning in HR. now rewrite <- HR.
    + rewrite utf16_units_double. apply N.even_spec. exists (utf16_units t). lia.
Qed.
Lemma quiet u cp f : readable u cp f -> stored_warning u cp f = [].
Proof. destruct u; [apply wide_quiet|apply page_quiet]. Qed.
Lemma slot_quiet u cp s : slot_readable u cp s -> slot_warning u cp s = [].
Proof. destruct s as [[off body]|]; [apply quiet|reflexivity]. Qed.
Lemma opt_quiet u cp o : if_some (readable u cp) o -> opt_warning u cp o = [].
Proof. destruct o; [apply quiet|reflexivity]. Qed.
Lemma flat_quiet {A} (w : A -> list warning) (l : list A) : Forall (fun a => w a = []) l -> flat_map w l = [].
Proof. induction 1 as [|a l H _ IH]; [reflexivity|]. cbn [flat_map]. now rewrite H, IH. Qed.
Lemma flags_quiet ty : ty mod 8 <> 0 -> flags_warning ty = [].
Proof.
  intros H. unfold flags_warning, flags_name.
  assert (HC : ty mod 8 = 1 \/ ty mod 8 = 2 \/ ty mod 8 = 3 \/ ty mod 8 = 4 \/ ty mod 8 = 5 \/ ty mod 8 = 6 \/ ty mod 8 = 7).
  { pose proof (N.mod_lt ty 8). lia. }
  destruct HC as [-> |[-> |[-> |[-> |[-> |[-> | ->]]]]]]; reflexivity.
Qed.
Lemma category_quiet id w : id < 12 -> unless_known (category_name id) w = [].
Proof.
  intros H. assert (HC : id = 0 \/ id = 1 \/ id = 2 \/ id = 3 \/ id = 4 \/ id = 5 \/ id = 6 \/ id = 7 \/ id = 8 \/ id = 9 \/ id = 10 \/ id = 11) by lia.
  destruct HC as [-> |[-> |[-> |[-> |[-> |[-> |[-> |[-> |[-> |[-> |[-> | ->]]]]]]]]]]]; reflexivity.
Qed.
Lemma entry_quiet cp e : conforming_entry cp e -> entry_warnings cp e = [].
Proof.
  intros [H1 H2]. unfold entry_warnings. now rewrite (quiet _ _ _ H2), flags_quiet.
Qed.
Lemma item_quiet cp it : conforming_item cp it -> item_warnings cp it = [].
Proof.
  destruct it; cbn [conforming_item item_warnings]; intros H; try reflexivity.
  - now destruct (sort_name sort).
  - now apply page_quiet.
  - now apply entry_quiet.
  - destruct H as (H1 & H2 & H3 & H4). rewrite page_quiet, !opt_quiet by assumption. now apply flags_quiet.
  - now apply category_quiet.
  - destruct H as (H1 & H2 & H3). now rewrite !page_quiet, opt_quiet by assumption.
  - destruct H as (H1 & H2 & H3). now rewrite !wide_quiet, opt_quiet by assumption.
  - now apply entry_quiet.
  - now destruct (documented_class ty).
Qed.
Lemma prop_quiet p : conforming_prop p -> prop_warnings p = [].
Proof.
  assert (HV : forall v, match v with VString body _ => wide_readable body | VOther _ _ _ _ => True end -> value_warnings v = []).
  { intros [body after|? ? ? ?] H; [now apply wide_quiet|reflexivity]. }
  destruct p; intros [H1 H2]; cbn [prop_value prop_warnings] in *; rewrite (HV _ H2); [reflexivity|]. now rewrite wide_quiet.
Qed.
Lemma block_quiet cp b : conforming_block cp b -> block_warnings cp b = [].
Proof.
  destruct b; cbn [conforming_block block_warnings]; intros H; try reflexivity.
  all: first
    [ destruct H; now rewrite page_quiet, wide_quiet
    | now apply wide_quiet
    | now apply page_quiet
    | destruct H as (H1 & H2 & H3); unfold tracker_warnings; now rewrite H1, H2, page_quiet
    | apply flat_quiet; revert H; apply Forall_impl; apply item_quiet
    | apply flat_quiet; revert H; apply Forall_impl; intros s H; unfold storage_warnings; apply flat_quiet;
      revert H; apply Forall_impl; apply prop_quiet ].
Qed.
Lemma info_quiet cp raw i loc :
  conforming_info cp (if_some (fun p => wide_readable (dropN (fst p + 4) raw))) i loc -> location_warnings cp raw i loc = [].
Proof.
  intros (H1 & H2 & H3 & H4). unfold location_warnings. rewrite !(slot_quiet false) by assumption. cbn [app].
  assert (E : match i_wide i with Some (b, s) => slot_warning true cp b ++ suffix_warning raw s | None => [] end = []).
  { destruct (i_wide i) as [[b s]|]; [|reflexivity]. cbn [if_some fst snd] in H3. destruct H3 as [H3 H5].
    rewrite slot_quiet by assumption. destruct s as [[off body]|]; [|reflexivity]. now apply wide_quiet. }
  rewrite E. cbn [app]. destruct loc as [v|n].
  - destruct (v_label v); [now apply page_quiet|now apply slot_quiet].
  - destruct (n_names n); destruct H4 as [H4 H5].
    + unfold name_warnings. rewrite !page_quiet by assumption. unfold warn_if. now destruct (nonempty _), (nonempty _).
    + now rewrite !slot_quiet.
Qed.
Lemma texts_quiet cp t : match t with Unicode _ => True | CodePage l => Forall (if_some (page_readable cp)) l end ->
  texts_warnings cp t = [].
Proof.
  destruct t as [l|l]; [reflexivity|]. cbn [texts_warnings]. generalize string_fields. intros fs H. revert fs.
  induction H as [|o l H _ IH]; intros [|[[i name] lim] fs]; try reflexivity.
  destruct o as [a|]; cbn [keyed flat_map snd]; [|apply IH]. rewrite IH. now rewrite page_quiet.
Qed.
Lemma conforming_quiet cp k : conforming_as_read cp k -> texts_warnings cp (k_texts k) = [] /\ report_warnings cp k = [].
Proof.
  intros (H1 & H2 & H3 & H4 & H5 & H6 & H7 & H8). split; [now apply texts_quiet|].
  unfold report_warnings.
  assert (E1 : clsid_warning (k_header k) = []) by (unfold clsid_warning; rewrite H1; reflexivity).
  assert (E2 : reserved_warnings (k_header k) = []) by (unfold reserved_warnings; rewrite H2, H3, H4; reflexivity).
  assert (E3 : match k_items k with Some its => flat_map (item_warnings cp) its | None => [] end = []).
  { destruct (k_items k) as [its|]; [|reflexivity]. apply flat_quiet. revert H5. apply Forall_impl. apply item_quiet. }
  assert (E4 : match k_info k with Some (i, loc, _) => location_warnings cp (from_info k) i loc | None => [] end = []).
  { destruct (k_info k) as [[[i loc] section]|]; [|reflexivity]. apply info_quiet, H6. }
  assert (E5 : flat_map (block_warnings cp) (k_blocks k) = []).
  { apply flat_quiet. revert H8. apply Forall_impl. apply block_quiet. }
  rewrite E1, E2, E3, E4, E5. reflexivity.
Qed.
Lemma warnings_all l all : fst (get_json l all) = fst (get_json l true).
Proof.
  unfold get_json. destruct (full_json l) as [w [d|e]]; reflexivity.
Qed.
Lemma conforming_silent cp allow k t :
  usable cp -> wf_link k -> conforming_as_read cp k ->
  exists l, lnk_init (FromBytes (encode_link k ++ t)) cp allow = ([], Ok l)
  /\ forall all, fst (get_json l all) = [].
Proof.
  intros Hcp Hk HC. destruct (conforming_quiet cp k HC) as [E1 E2].
  destruct (link_exact cp allow k t Hcp Hk) as (l & HI & _ & HJ). exists l. rewrite HI, E1. split; [reflexivity|].
  intros all. rewrite warnings_all, HJ. exact E2.
Qed.
Lemma plain_as_read cp k : wf_link k -> conforming_with plain_suffix cp k -> conforming_as_read cp k.
Proof.
  intros Hk (H1 & H2 & H3 & H4 & H5 & H6 & H7 & H8). repeat (split; [assumption|]). split; [|split; assumption].
  destruct (k_info k) as [[[i loc] section]|] eqn:EK; [|exact I]. cbn [if_some fst snd] in *.
  destruct H6 as (A1 & A2 & A3 & A4). split; [exact A1|]. split; [exact A2|]. split; [|exact A4].
  destruct Hk as (_ & _ & _ & _ & _ & _ & _ & _ & HX & _). destruct (HX i loc section EK) as (_ & [HI _] & _).
  destruct HI as (_ & _ & _ & _ & _ & _ & _ & _ & _ & HI).
  destruct (i_wide i) as [[b [[off body]|]]|]; [|exact A3|exact I].
  cbn [if_some fst snd plain_suffix] in *. destruct A3 as [A3 (c1 & c2 & t & S1 & S2 & S3 & S4 & S5)]. split; [exact A3|].
  destruct HI as [_ (_ & _ & _ & HI)]. rewrite N.add_0_l in HI.
  assert (HI2 : holds (from_info k) off (zstring true body)).
  { unfold from_info, info_bytes. rewrite EK. now apply holds_suffix. }
  apply holds_drop in HI2 as [a HI2]. rewrite <- dropN_dropN, HI2. subst body. unfold zstring.
  rewrite !utf16_bmp, <- !app_assoc by assumption. rewrite (app_assoc (enc16 c1)), dropN_app_exact by reflexivity.
  exists t. inversion S1 as [|? ? _ S1']; subst. inversion S1'; subst. inversion S2 as [|? ? _ S2']; subst. inversion S2'; subst.
  split; [assumption|]. split; [assumption|]. right. exists a. reflexivity.
Qed.
Lemma plain_silent cp allow k t :
  usable cp -> wf_link k -> conforming_with plain_suffix cp k ->
  exists l, lnk_init (FromBytes (encode_link k ++ t)) cp allow = ([], Ok l)
  /\ forall all, fst (get_json l all) = [].
Proof. intros Hcp Hk HC. apply conforming_silent; try assumption. now apply plain_as_read. Qed.
Lemma section_decides cp k i loc section :
  wf_link k -> k_info k = Some (i, loc, section) -> long_suffix i ->
  location_report cp (from_info k) i loc = location_report cp section i loc
  /\ location_warnings cp (from_info k) i loc = location_warnings cp section i loc.
Proof.
  intros (_ & _ & _ & _ & _ & _ & _ & _ & HX & _) EK HS. destruct (HX i loc section EK) as (_ & HL & _).
  unfold from_info, info_bytes. rewrite EK. now apply location_same.
Qed.

(** ** Links in a row *)
Lemma report_not_allowed cp k t : link_report cp false k t = link_report cp false k [].
Proof. reflexivity. Qed.
Lemma links_read cp gap ks t :
  usable cp -> Forall (fun sk => lenN (fst sk) = gap /\ wf_link (snd sk)) ks ->
  snd (read_links (length ks) gap cp (flat_map (fun sk => fst sk ++ encode_link (snd sk)) ks ++ t))
  = Ok (map (fun sk => link_report cp false (snd sk) []) ks, t).
Proof.
  intros Hcp H. induction H as [|[sep k] ks [Hs Hk] _ IH]; [reflexivity|]. cbn [fst snd] in *.
  cbn [length read_links flat_map]. rewrite <- !app_assoc. rewrite dropN_app_exact by exact Hs.
  set (r := flat_map _ ks ++ t) in *. destruct (link_exact cp false k r Hcp Hk) as (l & HI & HZ & HJ).
  cbn [fst snd]. rewrite HI, bind_Ok. cbn [snd]. rewrite HJ, bind_Ok. cbn [snd].
  replace (dropN (l_size l) (encode_link k ++ r)) with r.
  2:{ rewrite HZ. unfold total_size. rewrite N.add_0_r. symmetry. now apply dropN_app_exact. }
  destruct (read_links (length ks) gap cp r) as [w o]. cbn [snd] in IH. rewrite IH. reflexivity.
Qed.
Lemma link_bounded cp k t :
  usable cp -> wf_link k ->
  exists l l0, snd (lnk_init (FromBytes (encode_link k ++ t)) cp false) = Ok l
  /\ snd (lnk_init (FromBytes (encode_link k)) cp false) = Ok l0
  /\ l_size l = lenN (encode_link k) /\ l_size l0 = lenN (encode_link k)
  /\ get_json l true = get_json l0 true /\ snd (get_json l true) = Ok (link_report cp false k []).
Proof.
  intros Hcp Hk. destruct (link_exact cp false k t Hcp Hk) as (l & HI & HZ & HJ).
  destruct (link_exact cp false k [] Hcp Hk) as (l0 & HI0 & HZ0 & HJ0). rewrite app_nil_r in HI0.
  exists l, l0. rewrite HI, HI0, HJ, HJ0. split; [reflexivity|]. split; [reflexivity|].
  rewrite HZ, HZ0. unfold total_size. rewrite N.add_0_r. repeat split.
Qed.
