(** * Blocks one by one (C71) *)
From Verif Require Import Lemmas PyTime Codec Utils Sha256 Header StringData Targets Info Extra LnkFile.
From Verif Require Import Spec SpecText SpecHeader SpecTime SpecItems SpecInfo SpecExtra SpecOutcome SpecEntries SpecBlocks SpecFailure.
From Verif Require Import OutcomeProofs LayoutProofs CoreProofs FormatProofs EncProofs TextProofs TimeProofs HeaderProofs StringProofs ApiProofs.
From Verif Require Import ItemProofs ExtraProofs ExtraListProofs InfoProofs HeaderFileProofs ExactProofs EntryProofs AnyBlockProofs TriedProofs FailureProofs.
From Verif Require Import Walk SpecWalk.

(** ** No ValueError but for typed values *)
Definition other (e : exn) : Prop := e <> ValueError.
Lemma plain_block cp e : ex_class e <> Metadata -> raises other (extra_as_dict cp e).
Proof.
  intros HM. assert (PS : other StructError) by discriminate. assert (PI : other IndexError) by discriminate.
  assert (PR : other RuntimeError) by discriminate. assert (PL : cp = CpUnknown -> other LookupError) by discriminate.
  pose proof (r_packed other PI).
  unfold extra_as_dict. destruct (ex_class e); try (now destruct HM);
    unfold environment_dict, console_dict, tracker_dict, code_page_dict, special_folder_dict,
      known_folder_dict, shim_dict, darwin_dict, shell_item_dict, unknown_extra_dict, terminal_dict;
    (apply r_fields; let k := fresh "key" in let m := fresh "m" in intros k m Hin; cbn [In app base_fields] in Hin;
    repeat (destruct Hin as [[= <- <-]|Hin]); [..|contradiction]);
    unfold base_size, terminal_size, darwin_data_unicode, product_code_id, feature_name, component_id,
      str_field, ustr_field, u16_field, i16_field, u32_field, uuid_field, darwin_data_unicode;
    try (rsolve; fail).
  apply raises_bind; [now apply r_u32|]. intros n. apply raises_bind; [|intros; apply raises_ret].
  now apply r_items_of.
Qed.

(** ** The exception of a property store *)
Lemma row_raises k m rows e : snd m = Err e -> snd (fields ((k, m) :: rows)) = Err e.
Proof. intros H. destruct m as [w r]. cbn in H. subst r. reflexivity. Qed.
Lemma row_passes k m rows v w e : m = (w, Ok v) -> snd (fields rows) = Err e -> snd (fields ((k, m) :: rows)) = Err e.
Proof. intros -> H. cbn [fields bind]. destruct (fields rows) as [w' r]. cbn in H. subst r. reflexivity. Qed.
Lemma cut_raises {A} w i j b (f : N -> M A) : 0 < w -> j = i + w -> lenN b < j -> snd (bind (unpack_le w (slice i j b)) f) = Err StructError.
Proof. intros Hw -> H. now rewrite cut_at by lia. Qed.

Lemma value_raises v : (forall d w, ~ value_at v d w) -> snd (fields (value_rows v)) = Err (value_error v).
Proof.
  intros HN. unfold value_rows, tv_value, tv_value_padding, tv_value_type, unpack_u16, unpack_u32, value_error.
  destruct (N.leb_spec 4 (lenN v)) as [L|L]; [|apply row_raises; apply cut_raises; lia].
  rewrite !read_at by lia. rewrite !bind_ret_l.
  assert (HT : (num 2 2 v <> 0 \/ num 2 0 v <> 0x1F /\ num 2 0 v <> 0x02) -> snd (property_type_name (num 2 0 v)) = Err ValueError).
  { intros Hk. unfold property_type_name. destruct (assocN (num 2 0 v) PropertyType) as [name|] eqn:E; [|reflexivity].
    exfalso. eapply HN. apply value_none; [lia|exact Hk|]. rewrite <- type_names. apply assocN_some. exact E. }
  cbn [andb]. destruct (num 2 2 v =? 0) eqn:E; cbn [negb orb].
  - destruct (num 2 0 v =? 2) eqn:E2.
    + rewrite andb_false_r. apply row_raises. unfold unpack_i32.
      rewrite unpack_le_bad by (rewrite lenN_slice; lia). reflexivity.
    + rewrite ?bind_ret_l. destruct (num 2 0 v =? 31) eqn:E3; cbn [negb andb].
      * apply row_raises. destruct (N.lt_ge_cases (lenN v) 8) as [L8|L8]; [apply cut_raises; lia|].
        exfalso. eapply HN. apply value_text; [lia..|reflexivity].
      * eapply row_passes; [reflexivity|]. apply row_raises. apply HT. right. lia.
  - eapply row_passes; [reflexivity|]. apply row_raises. apply HT. left. lia.
Qed.
Lemma property_raises (named : bool) p : (forall d w', ~ property_at named p d w') ->
  snd ((if named then string_name_dict else integer_name_dict) p) = Err (property_error named p).
Proof.
  intros HN. unfold string_name_dict, integer_name_dict, pv_value_size, sn_value_offset, sn_name_size, u32_field, unpack_u32, property_error.
  destruct (N.leb_spec 8 (lenN p)) as [L|L].
  - destruct named; rewrite !read_at by lia.
    + rewrite !bind_ret_l. do 2 (eapply row_passes; [reflexivity|]).
      eapply row_passes; [apply says_ret, read_unicode_field|].
      apply value_raises. intros d w HV. eapply HN. apply named_property; [reflexivity|lia|exact HV].
    + do 2 (eapply row_passes; [reflexivity|]).
      apply value_raises. intros d w HV. eapply HN. apply numbered_property; [reflexivity|lia|exact HV].
  - destruct (N.lt_ge_cases (lenN p) 4) as [L4|L4].
    + destruct named; apply row_raises, cut_raises; lia.
    + destruct named; rewrite (read_at 4 0 4) by lia;
      (eapply row_passes; [reflexivity|]; apply row_raises, cut_raises; lia).
Qed.
Lemma first_raises (f : bytes -> M dict) P l a e :
  (forall a, settles (f a) (P a)) -> first_bad P l a -> snd (f a) = Err e -> snd (mapM f l) = Err e.
Proof.
  intros HS. induction 1 as [a l HN|a l d w x HP _ IH]; intros He; cbn [mapM].
  - destruct (f a) as [w r]. cbn in He. now subst r.
  - rewrite (proj1 (HS a) _ _ HP). cbn [bind]. specialize (IH He). destruct (mapM f l) as [ws r]. cbn in IH. now subst r.
Qed.
Lemma first_exists {A} (P : A -> dict -> list warning -> Prop) (T : A -> list warning -> Prop) l w :
  (forall a w, T a w -> forall d w', ~ P a d w') -> each_tried P T l w -> exists a, first_bad P l a /\ exists w', T a w'.
Proof.
  intros HT. induction 1 as [a l w Ha|a l d w ws Ha _ IH].
  - exists a. split; [apply bad_here; now apply (HT a w)|now exists w].
  - destruct IH as (x & Hx & Hw). exists x. split; [now apply (bad_later P a l d w)|exact Hw].
Qed.

Lemma storage_named s b : 24 <= lenN s -> (b = true <-> slice 8 24 s = named_format) ->
  text_eqb (guid_text (slice 8 24 s)) (s2t "D5CDD505-2E9C-101B-9397-08002B2CF9AE") = b.
Proof.
  intros L HN. pose proof (named_reflects s L) as HR. destruct (text_eqb _ _) eqn:E, b; try reflexivity.
  - symmetry. apply HN, HR. reflexivity.
  - apply HR, HN. reflexivity.
Qed.
Lemma storage_rows s ps : 24 <= lenN s -> elements (dropN 24 s) ps ->
  storage_dict s
  = fields [("storage_size", ret (PN (num 4 0 s))); ("version", ret (PStr (hex_text (num 4 4 s)))); ("format_id", ret (PStr (guid_text (slice 8 24 s))));
      ("serialized_property_values",
        ds <- mapM (if text_eqb (guid_text (slice 8 24 s)) (s2t "D5CDD505-2E9C-101B-9397-08002B2CF9AE") then string_name_dict else integer_name_dict) ps ;;
        ret (PList (map PDict ds)))]%string.
Proof.
  intros L HE. unfold storage_dict, serialized_property_values, ps_format_id, u32_field, unpack_u32. rewrite !read_at by lia. rewrite !guid_at by lia.
  rewrite !bind_ret_l. cbv zeta. rewrite (elements_sound _ _ HE) by apply length_drop. rewrite !bind_ret_l. reflexivity.
Qed.
Lemma storage_raises s e : storage_error s e -> snd (storage_dict s) = Err e.
Proof.
  intros [H|named ps p L HN HE HF].
  - unfold storage_dict, serialized_property_values, ps_format_id, u32_field, unpack_u32.
    destruct (N.lt_ge_cases (lenN s) 4) as [L4|L4]; [apply row_raises, cut_raises; lia|]. rewrite (read_at 4 0 4) by lia.
    eapply row_passes; [reflexivity|].
    destruct (N.lt_ge_cases (lenN s) 8) as [L8|L8]; [apply row_raises, cut_raises; lia|]. rewrite (read_at 4 4 8) by lia.
    eapply row_passes; [reflexivity|].
    destruct (N.lt_ge_cases (lenN s) 24) as [L|L].
    + apply row_raises. now rewrite guid_cut by lia.
    + destruct H as [H|H]; [lia|]. rewrite !guid_at by lia. rewrite !bind_ret_l. eapply row_passes; [reflexivity|].
      apply row_raises. cbv zeta. rewrite elements_fail; [reflexivity|apply length_drop|exact H].
  - rewrite (storage_rows s ps L HE), (storage_named s named L HN). do 3 (eapply row_passes; [reflexivity|]). apply row_raises.
    assert (HX : snd (mapM (if named then string_name_dict else integer_name_dict) ps) = Err (property_error named p)).
    { apply (first_raises _ _ _ _ _ (property_settles named) HF). apply property_raises.
      clear -HF. induction HF as [a l H|a l d w x _ _ IH]; assumption. }
    destruct (mapM _ ps) as [w r]. cbn in HX. now subst r.
Qed.
Lemma storage_error_exists s w : storage_tried s w -> exists e, storage_error s e.
Proof.
  intros [H|named ps w' L HN HE HT]; [exists StructError; now apply storage_error_cut|].
  destruct (first_exists _ _ _ _ (fun a w (H : property_tried named a w) => proj1 H) HT) as (p & HF & _).
  exists (property_error named p). now apply storage_error_property with ps.
Qed.
Lemma storage_tried_bad s w : storage_tried s w -> forall d w', ~ storage_at s d w'.
Proof.
  intros HT d w' HS. apply (proj1 (storage_tries s)) in HT as (e & _ & HT). apply (proj1 (storage_settles s)) in HS.
  rewrite HS in HT. discriminate HT.
Qed.

(** ** Any block *)
Section Blocks.
  Variable cp : cp_arg.
  Hypothesis Hcp : usable cp.
  Let dict_of (sig : N) (raw : bytes) := extra_as_dict cp (Extra (class_of_sig sig) raw).

  Lemma store_class sig : class_of_sig sig = Metadata -> sig = 0xA0000009.
  Proof. intros H. pose proof (class_sig sig) as HC. rewrite H in HC. exact HC. Qed.
  Lemma block_raises sig raw w e : 4 <= lenN raw -> block_tried cp sig raw w -> block_error sig raw e -> dict_of sig raw = (w, Err e).
  Proof.
    intros L HT HE. assert (HX : snd (dict_of sig raw) = Err e).
    { destruct HE as [HN| -> HN|ss s x -> HS HF HX].
      - apply (proj1 (block_tries cp sig raw Hcp L)) in HT as (x & Hx & HT).
        unfold dict_of. rewrite HT. cbn [snd]. assert (HO : x <> ValueError).
        { intros ->. apply (plain_block cp (Extra (class_of_sig sig) raw)) with ValueError; [|now rewrite HT|reflexivity].
          cbn [ex_class]. intros HM. apply HN. now apply store_class. }
        destruct x; cbn in Hx; congruence.
      - unfold dict_of, extra_as_dict. cbn [class_of_sig ex_class ex_raw]. unfold metadata_dict, base_fields. cbn [app].
        eapply row_passes; [now apply size_row|]. apply row_raises. rewrite elements_fail; [reflexivity|apply length_drop|exact HN].
      - unfold dict_of, extra_as_dict. cbn [class_of_sig ex_class ex_raw]. unfold metadata_dict, base_fields. cbn [app].
        eapply row_passes; [now apply size_row|]. apply row_raises. rewrite (elements_sound _ _ HS) by apply length_drop.
        rewrite bind_ret_l. pose proof (first_raises _ _ _ _ _ storage_settles HF (storage_raises _ _ HX)) as HM.
        destruct (mapM storage_dict ss) as [ws r]. cbn in HM. now subst r. }
    apply (proj1 (block_tries cp sig raw Hcp L)) in HT as (x & Hx & HT). unfold dict_of in *. rewrite HT in HX |- *. cbn in HX. congruence.
  Qed.
  Lemma block_error_exists sig raw w : block_tried cp sig raw w -> exists e, block_error sig raw e.
  Proof.
    intros HT. destruct (N.eq_dec sig 0xA0000009) as [ES|NS]; [|exists StructError; now apply block_error_plain].
    destruct HT as [HL|_ HE|ss w' _ HE HT|w' EX _].
    - subst sig. cbn in HL. lia.
    - exists StructError. now apply block_error_cut.
    - destruct (first_exists _ _ _ _ storage_tried_bad HT) as (s & HF & w2 & H2). apply storage_error_exists in H2 as [e He].
      exists e. now apply block_error_storage with ss s.
    - rewrite ES in EX. discriminate EX.
  Qed.

  Definition extra_of (p : part) : extra :=
    match p with Block sig raw => Extra (class_of_sig sig) raw | Behind r => Extra Terminal r end.
  Definition part_ok (p : part) : Prop := match p with Block _ raw => 4 <= lenN raw | Behind r => 4 < lenN r end.
  Lemma part_gives p said r : part_ok p -> part_shown cp p said r -> extra_as_dict cp (extra_of p) = (said, r).
  Proof.
    intros HP. destruct 1 as [sig raw d w H|sig raw w e H1 H2|sig raw w e H|r]; cbn [extra_of part_ok] in *.
    - now apply (proj1 (block_settles cp sig raw Hcp HP)).
    - now apply block_raises.
    - now apply block_stops_here.
    - unfold extra_as_dict. cbn [ex_class ex_raw]. unfold terminal_dict, terminal_size. cbn [fields]. rewrite !bind_ret_l.
      cbn [ret]. rewrite lenN_dropN. replace (4 + (lenN r - 4)) with (lenN r) by lia. reflexivity.
  Qed.
  Lemma part_total p : part_ok p -> exists said r, part_shown cp p said r.
  Proof.
    destruct p as [sig raw|r]; intros HP; [|do 2 eexists; apply behind_good]. cbn [part_ok] in HP.
    destruct (block_outcome cp sig raw Hcp HP) as [(e & HE & _)|[_ HC]].
    - destruct (block_stops_total cp sig raw e HP HE) as [w HW]. do 2 eexists. apply block_breaks. exact HW.
    - rewrite block_of in HC. destruct (block_settles cp sig raw Hcp HP) as [_ H1]. destruct (block_tries cp sig raw Hcp HP) as [_ H2].
      destruct (snd (extra_as_dict cp (Extra (class_of_sig sig) raw))) as [d|e] eqn:E.
      + destruct (H1 d eq_refl) as (d' & w & HR). do 2 eexists. apply block_good. exact HR.
      + assert (Hc : is_struct_or_value_error e = true).
        { unfold caught in HC. rewrite E in HC. exact (HC e eq_refl). }
        destruct (H2 e eq_refl Hc) as [w HW]. destruct (block_error_exists _ _ _ HW) as [x HX].
        do 2 eexists. apply block_bad; [exact HW|exact HX].
  Qed.
  Lemma part_named p : extra_name (ex_class (extra_of p)) = part_name p.
  Proof. destruct p as [sig raw|r]; cbn [extra_of ex_class part_name]; [now rewrite <- sig_class_num, block_name_class|reflexivity]. Qed.
  Lemma part_sized p : part_ok p -> extra_size (extra_of p) = ret (part_size p).
  Proof.
    destruct p as [sig raw|r]; cbn [extra_of part_ok part_size]; intros L; unfold extra_size; cbn [ex_class ex_raw].
    - pose proof (base_size_num raw L) as HB. pose proof (class_sig sig) as HC. destruct (class_of_sig sig) eqn:E; try exact HB.
      contradiction.
    - unfold terminal_size. rewrite lenN_dropN. f_equal. lia.
  Qed.

  Lemma file_parts b allow l : snd (lnk_init (FromBytes b) cp allow) = Ok l ->
    exists ps, parts b allow ps /\ l_extras l = map extra_of ps /\ Forall part_ok ps.
  Proof.
    intros Hl. destruct (file_extras b cp allow l Hcp Hl) as (_ & blocks & r & HW & HS & HE).
    eexists. split; [exact (parts_are b allow blocks r HW)|]. rewrite HE, map_app, map_map. unfold tail_blocks. split.
    - f_equal; [apply map_ext; intros [sig raw]; apply block_of|]. destruct (allow && _ && _); reflexivity.
    - apply Forall_app. split; [apply Forall_map; exact HS|].
      destruct (allow && (4 <? lenN r) && (num 4 0 r =? 0)) eqn:E; constructor; [|constructor].
      apply andb_true_iff in E as [E _]. apply andb_true_iff in E as [_ E]. cbn [part_ok]. lia.
  Qed.
  Lemma parts_det b allow ps1 ps2 : parts b allow ps1 -> parts b allow ps2 -> ps1 = ps2.
  Proof. intros [blocks1 r1 H1] [blocks2 r2 H2]. destruct (block_walk_det _ _ _ _ _ H1 H2) as [-> ->]. reflexivity. Qed.
End Blocks.
