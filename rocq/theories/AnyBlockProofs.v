(** * The report of an arbitrary block (C62) *)
From Verif Require Import Lemmas PyTime Codec Utils Sha256 Header StringData Targets Info Extra LnkFile.
From Verif Require Import Spec SpecText SpecHeader SpecTime SpecItems SpecInfo SpecExtra SpecOutcome SpecEntries SpecBlocks.
From Verif Require Import OutcomeProofs LayoutProofs CoreProofs FormatProofs EncProofs TextProofs TimeProofs HeaderProofs StringProofs ApiProofs.
From Verif Require Import ItemProofs ExtraProofs ExtraListProofs InfoProofs HeaderFileProofs ExactProofs EntryProofs.

(** ** Choosing by signature *)
Definition sig_choice {A} (n : N) (env con trk cpg spf dar ico shim meta kf shell unk : A) : A :=
  match n with
  | 0xA0000001 => env | 0xA0000002 => con | 0xA0000003 => trk | 0xA0000004 => cpg | 0xA0000005 => spf | 0xA0000006 => dar
  | 0xA0000007 => ico | 0xA0000008 => shim | 0xA0000009 => meta | 0xA000000B => kf | 0xA000000C => shell | _ => unk
  end.
Lemma sig_choice_class {A} n (env con trk cpg spf dar ico shim meta kf shell unk : A) :
  sig_choice n env con trk cpg spf dar ico shim meta kf shell unk
  = match class_of_sig n with
    | Environment => env | Console => con | DistributedTracker => trk | CodePage => cpg | SpecialFolder => spf | Darwin => dar
    | Icon => ico | ShimLayer => shim | Metadata => meta | KnownFolder => kf | ShellItem => shell | _ => unk
    end.
Proof.
  unfold sig_choice, class_of_sig.
  repeat match goal with |- context [match ?p with _ => _ end] => destruct p; try reflexivity end.
Qed.
Lemma class_sig n : match class_of_sig n with
  | Environment => n = 0xA0000001 | Console => n = 0xA0000002 | DistributedTracker => n = 0xA0000003 | CodePage => n = 0xA0000004
  | SpecialFolder => n = 0xA0000005 | Darwin => n = 0xA0000006 | Icon => n = 0xA0000007 | ShimLayer => n = 0xA0000008
  | Metadata => n = 0xA0000009 | KnownFolder => n = 0xA000000B | ShellItem => n = 0xA000000C
  | UnknownExtra => True | Terminal => False end.
Proof.
  destruct (in_dec N.eq_dec n sig_list) as [H|H].
  - cbn in H. repeat (destruct H as [<-|H]; [reflexivity|]). contradiction.
  - assert (E : class_of_sig n = UnknownExtra); [|now rewrite E].
    unfold class_of_sig. repeat match goal with |- context [match ?p with _ => _ end] => destruct p; try reflexivity end;
      exfalso; apply H; cbn; tauto.
Qed.

(** ** Rows *)
Definition reads (m : M pyval) (v : pyval) (w : list warning) : Prop := m = (w, Ok v).
Lemma fields_one k m w v rows ws d :
  m = (w, Ok v) -> fields rows = (ws, Ok d) -> fields ((k, m) :: rows) = (w ++ ws, Ok ((k, v) :: d)).
Proof. intros -> H. cbn [fields]. rewrite bind_Ok, H. cbn. now rewrite app_nil_r. Qed.
Lemma fields_last k m w v : m = (w, Ok v) -> fields [(k, m)] = (w, Ok [(k, v)]).
Proof. intros ->. cbn. now rewrite app_nil_r. Qed.

Lemma u16_row i raw : i + 2 <= lenN raw -> u16_field i raw = ([], Ok (number_at 2 i raw)).
Proof. intros H. unfold u16_field. rewrite unpack_u16_at. now replace (i + 2 <=? lenN raw) with true by lia. Qed.
Lemma u32_row i raw : i + 4 <= lenN raw -> u32_field i raw = ([], Ok (number_at 4 i raw)).
Proof. intros H. unfold u32_field. rewrite unpack_u32_at. now replace (i + 4 <=? lenN raw) with true by lia. Qed.
Lemma i16_row i raw : i + 2 <= lenN raw -> i16_field i raw = ([], Ok (integer_at i raw)).
Proof. intros H. unfold i16_field, unpack_i16. rewrite read_at by lia. reflexivity. Qed.
Lemma uuid_row i raw : i + 16 <= lenN raw -> uuid_field i raw = ([], Ok (guid_field i raw)).
Proof. intros H. unfold uuid_field. rewrite guid_at by lia. reflexivity. Qed.
Lemma size_row raw : 4 <= lenN raw -> (n <- base_size raw ;; ret (PN n)) = ([], Ok (number_at 4 0 raw)).
Proof. intros H. rewrite base_size_num by assumption. reflexivity. Qed.
Lemma str_row cp i j raw : usable cp -> str_field cp i j raw = (field_warning cp (slice i j raw), Ok (PStr (field_text cp (slice i j raw)))).
Proof. intros H. unfold str_field. apply says_ret. now apply read_string_field. Qed.
Lemma ustr_row i j raw : ustr_field i j raw = (wide_warning (slice i j raw), Ok (PStr (wide_text (slice i j raw)))).
Proof. unfold ustr_field. apply says_ret, read_unicode_field. Qed.
Lemma must_row name e i j raw : j = i + 4 -> j <= lenN raw ->
  (n <- must_be_N name e (unpack_u32 (slice i j raw)) ;; ret (PN n)) = (must_be name (num 4 i raw =? e), Ok (number_at 4 i raw)).
Proof. intros -> H. apply (says_ret _ PN). unfold unpack_u32. rewrite read_at by lia. apply must_be_N_ret. Qed.

Ltac rows := repeat first
  [ refine (fields_last _ _ _ _ _)
  | refine (fields_one _ _ _ _ _ _ _ _ _)
  | apply size_row; lia | apply u16_row; lia | apply u32_row; lia | apply i16_row; lia | apply uuid_row; lia
  | apply str_row; assumption | apply ustr_row | apply must_row; lia ].

Section Blocks.
  Variable cp : cp_arg.
  Hypothesis Hcp : usable cp.

  (** ** Fixed layouts *)
  Lemma fixed_sound sig raw d : 4 <= lenN raw -> fixed_report cp sig raw = Some d -> fixed_bytes sig <= lenN raw ->
    extra_as_dict cp (Extra (class_of_sig sig) raw) = (fixed_says cp sig raw, Ok (("size"%string, number_at 4 0 raw) :: d)).
  Proof.
    intros L4 HR HB. pose proof (class_sig sig) as HC. unfold extra_as_dict. cbn [ex_class ex_raw].
    destruct (class_of_sig sig) eqn:EC; try subst sig; cbn [fixed_bytes fixed_report fixed_says] in *;
      try discriminate HR; try contradiction; try (injection HR as <-);
      unfold environment_dict, console_dict, tracker_dict, code_page_dict, special_folder_dict, known_folder_dict, shim_dict,
        base_fields; cbn [app].
    - etransitivity; [rows|cbn [app]; rewrite ?app_nil_r; reflexivity].
    - etransitivity; [rows|cbn [app]; rewrite ?app_nil_r; reflexivity].
    - etransitivity; [rows|cbn [app]; rewrite ?app_nil_r; reflexivity].
    - etransitivity; [rows|cbn [app]; rewrite ?app_nil_r; reflexivity].
    - etransitivity; [rows|cbn [app]; rewrite ?app_nil_r; reflexivity].
    - etransitivity; [rows|cbn [app]; rewrite ?app_nil_r; reflexivity].
    - etransitivity; [rows; apply says_ret; now apply read_string_field|cbn [app]; rewrite ?app_nil_r; reflexivity].
    - etransitivity; [rows|cbn [app]; rewrite ?app_nil_r; reflexivity].
    - assert (E1 : fixed_report cp sig raw = Some [("extra_data_sha256"%string, PStr (sha256_hex (dropN 4 raw)))]).
      { unfold fixed_report. etransitivity; [refine (sig_choice_class (A := option dict) sig _ _ _ _ _ _ _ _ _ _ _ _)|now rewrite EC]. }
      assert (E2 : fixed_says cp sig raw = []).
      { clear -EC. revert EC. unfold fixed_says, class_of_sig.
        repeat match goal with |- context [match ?p with _ => _ end] =>
          is_var p; destruct p; try reflexivity; try (intros EC; discriminate EC) end. }
      rewrite E1 in HR. injection HR as <-. rewrite E2. unfold unknown_extra_dict, base_fields. cbn [app].
      etransitivity; [rows; reflexivity|reflexivity].
  Qed.

  Ltac last_row H k m := apply (fields_row _ _ k m) in H; [|cbn [In app base_fields]; intuition reflexivity].
  Lemma fixed_complete sig raw d : snd (extra_as_dict cp (Extra (class_of_sig sig) raw)) = Ok d ->
    sig <> 0xA0000006 -> sig <> 0xA0000009 -> sig <> 0xA000000C ->
    fixed_bytes sig <= lenN raw /\ exists d', fixed_report cp sig raw = Some d'.
  Proof.
    intros H N1 N2 N3. pose proof (class_sig sig) as HC. unfold extra_as_dict in H. cbn [ex_class ex_raw] in H.
    destruct (class_of_sig sig) eqn:EC; try subst sig; try contradiction; cbn [fixed_bytes fixed_report];
      try (split; [lia|eexists; reflexivity]).
    - split; [|eexists; reflexivity]. last_row H "color_table"%string (u32_field 140 raw). destruct H as [v H].
      unfold u32_field, unpack_u32 in H. apply snd_bind_Ok in H as (n & H & _). apply unpack_room in H; [exact H|lia..].
    - split; [|eexists; reflexivity]. last_row H "birth_droid_file_identifier"%string (uuid_field 80 raw). destruct H as [v H].
      unfold uuid_field in H. apply snd_bind_Ok in H as (n & H & _). apply uuid_room in H; [exact H|lia..].
    - split; [|eexists; reflexivity]. last_row H "code_page"%string (u32_field 8 raw). destruct H as [v H].
      unfold u32_field, unpack_u32 in H. apply snd_bind_Ok in H as (n & H & _). apply unpack_room in H; [exact H|lia..].
    - split; [|eexists; reflexivity]. last_row H "offset"%string (u32_field 12 raw). destruct H as [v H].
      unfold u32_field, unpack_u32 in H. apply snd_bind_Ok in H as (n & H & _). apply unpack_room in H; [exact H|lia..].
    - split; [|eexists; reflexivity]. last_row H "offset"%string (u32_field 24 raw). destruct H as [v H].
      unfold u32_field, unpack_u32 in H. apply snd_bind_Ok in H as (n & H & _). apply unpack_room in H; [exact H|lia..].
    - assert (E1 : fixed_report cp sig raw = Some [("extra_data_sha256"%string, PStr (sha256_hex (dropN 4 raw)))]).
      { unfold fixed_report. etransitivity; [refine (sig_choice_class (A := option dict) sig _ _ _ _ _ _ _ _ _ _ _ _)|now rewrite EC]. }
      assert (E2 : fixed_bytes sig = 0).
      { clear -EC. revert EC. unfold fixed_bytes, class_of_sig.
        repeat match goal with |- context [match ?p with _ => _ end] =>
          is_var p; destruct p; try reflexivity; try (intros EC; discriminate EC) end. }
      rewrite E1, E2. split; [lia|now eexists].
  Qed.

  (** ** Installer descriptors *)
  Lemma find_char_position c t : forall i, (0 <= i)%Z ->
    find_char c t i = match position c t with Some n => (i + Z.of_N n)%Z | None => (-1)%Z end.
  Proof.
    induction t as [|x t IH]; intros i Hi; cbn [find_char position]; [reflexivity|].
    destruct (x =? c); [lia|]. rewrite IH by lia. destruct (position c t) as [n|]; cbn [option_map]; lia.
  Qed.
  Lemma quad_value q : lenN q = 5 -> quad_to_hex q = ret (hexX_Z 8 (base85_value q)).
  Proof.
    intros H. destruct q as [|a [|b [|c [|d [|e [|f q]]]]]]; rewrite ?lenN_cons in H; try (exfalso; cbn in H; lia).
    unfold quad_to_hex. cbn [quad_loop nth_error Nat.ltb Nat.leb]. rewrite bind_ret_l. f_equal. f_equal.
    unfold base85_value. cbn [fold_right]. rewrite !find_char_position by lia.
    assert (E : forall x, match position x base_85 with Some n => (0 + Z.of_N n)%Z | None => (-1)%Z end = digit x) by reflexivity.
    rewrite !E. lia.
  Qed.
  Lemma unpack_says t : 20 <= lenN t -> parse_packed_uuid t = ret (unpacked_guid t).
  Proof.
    intros L. unfold parse_packed_uuid, unpacked_guid. rewrite !quad_value by (rewrite lenN_slice; lia). rewrite !bind_ret_l.
    cbv zeta. cbn [flat_map]. change (0 + 5) with 5. change (5 + 5) with 10. change (10 + 5) with 15. change (15 + 5) with 20.
    rewrite !app_nil_r. reflexivity.
  Qed.

  Lemma position_none c t : position c t = None <-> ~ In c t.
  Proof.
    induction t as [|x t IH]; cbn [position In]; [tauto|]. destruct (N.eqb_spec x c) as [E|E].
    - split; [discriminate|]. intros H. destruct H. now left.
    - destruct (position c t); cbn [option_map]; split; intros H; try discriminate H; try tauto.
      + exfalso. assert (HF : Some n = None) by tauto. discriminate HF.
  Qed.
  Lemma position_some c t n : position c t = Some n -> t = takeN n t ++ c :: dropN (n + 1) t /\ ~ In c (takeN n t).
  Proof.
    revert n; induction t as [|x t IH]; intros n; cbn [position]; [discriminate|]. destruct (N.eqb_spec x c) as [->|E].
    - intros [= <-]. rewrite takeN_0. change (0 + 1) with 1. cbn [app dropN]. change (1 =? 0) with false. cbv iota.
      change (N.pred 1) with 0. rewrite dropN_0. split; [reflexivity|intros []].
    - destruct (position c t) as [m|] eqn:EP; [|discriminate]. cbn [option_map]. intros [= <-].
      destruct (IH m eq_refl) as [H1 H2]. cbn [takeN dropN]. replace (1 + m =? 0) with false by lia.
      replace (1 + m + 1 =? 0) with false by lia. replace (N.pred (1 + m)) with m by lia. replace (N.pred (1 + m + 1)) with (m + 1) by lia.
      split; [cbn [app]; now f_equal|]. intros [H|H]; [congruence|now apply H2].
  Qed.
  Lemma position_lt c t n : position c t = Some n -> n < lenN t.
  Proof.
    intros H. apply position_some in H as [H _]. apply (f_equal lenN) in H. rewrite lenN_app, lenN_cons, lenN_takeN, lenN_dropN in H. lia.
  Qed.

  Lemma darwin_sound raw : 4 <= lenN raw -> ~ short_descriptor (wide_text (slice 268 788 raw)) ->
    darwin_dict cp raw = (darwin_says cp raw, Ok (("size"%string, number_at 4 0 raw) :: darwin_report cp raw)).
  Proof.
    intros L HS. unfold darwin_dict, darwin_report, darwin_says, base_fields. cbv zeta. cbn [app].
    set (t := wide_text (slice 268 788 raw)) in *. set (w := wide_warning (slice 268 788 raw)) in *.
    assert (HU : darwin_data_unicode raw = (w, Ok t)) by apply read_unicode_field.
    assert (L20 : 20 <= lenN t).
    { destruct (N.lt_ge_cases (lenN t) 20) as [H|H]; [destruct HS; now left|assumption]. }
    assert (HP : product_code_id raw = (w, Ok (unpacked_guid (takeN 20 t)))).
    { unfold product_code_id. rewrite HU, bind_Ok. unfold slice. rewrite dropN_0. rewrite unpack_says; [cbn; now rewrite app_nil_r|].
      rewrite lenN_takeN. lia. }
    assert (HF : (x <- feature_name raw ;; ret (POpt PStr x)) = (w, Ok match feature_end t with
       | Some 20 => PNone | Some n => PStr (slice 20 n t) | None => PStr (slice 20 (lenN t - 1) t) end)).
    { unfold feature_name. rewrite HU. cbn [bind]. rewrite !find_char_position by lia. unfold feature_end.
      assert (HX : forall n : N, (fun r => (fst (bind (w, r) (fun x => ret (POpt PStr x))), snd (bind (w, r) (fun x => ret (POpt PStr x)))))
          (Ok (if n =? 20 then None else Some (slice 20 n t)))
        = (w, Ok match n with 20 => PNone | _ => PStr (slice 20 n t) end)).
      { intros n. cbn. rewrite app_nil_r. destruct (N.eqb_spec n 20) as [->|E]; [reflexivity|]. f_equal. f_equal. cbn.
        repeat (destruct n as [|n]; try reflexivity; repeat match goal with |- context [match ?p with _ => _ end] => destruct p; try reflexivity end). now destruct E. }
      cbn in HX.
      assert (HY : forall z n, z = Z.of_N n -> (if (z =? 20)%Z then ret None else if (z <? 0)%Z then ret (Some (slice 20 (lenN t - 1) t)) else ret (Some (slice 20 (Z.to_N z) t)))
          = ret (if n =? 20 then None else Some (slice 20 n t))).
      { intros z n ->. destruct (N.eqb_spec n 20) as [->|E]; [reflexivity|]. replace (Z.of_N n =? 20)%Z with false by lia.
        replace (Z.of_N n <? 0)%Z with false by lia. now rewrite N2Z.id. }
      destruct (position 62 t) as [i|], (position 60 t) as [j|].
      - rewrite (HY _ (N.max i j)) by lia. cbn. rewrite <- HX. now rewrite !app_nil_r.
      - rewrite (HY _ i) by lia. cbn. rewrite <- HX. now rewrite !app_nil_r.
      - rewrite (HY _ j) by lia. cbn. rewrite <- HX. now rewrite !app_nil_r.
      - cbn. now rewrite !app_nil_r. }
    assert (HC : (x <- component_id raw ;; ret (POpt PStr x))
      = (w, Ok match position 62 t with Some n => PStr (unpacked_guid (dropN (n + 1) t)) | None => PNone end)).
    { unfold component_id. rewrite HU. cbn [bind]. rewrite find_char_position by lia. destruct (position 62 t) as [n|] eqn:EP.
      - replace (0 + Z.of_N n =? -1)%Z with false by lia. replace (Z.to_N (0 + Z.of_N n + 1)) with (n + 1) by lia.
        rewrite unpack_says; [cbn [bind ret POpt]; now rewrite !app_nil_r|]. apply position_some in EP as [EP1 EP2].
        destruct (N.lt_ge_cases (lenN (dropN (n + 1) t)) 20) as [H|H]; [|assumption]. destruct HS. right. eauto.
      - change (-1 =? -1)%Z with true. cbv iota. cbn [bind ret POpt]. now rewrite !app_nil_r. }
    etransitivity.
    { eapply fields_one; [apply size_row; lia|]. eapply fields_one; [now apply str_row|]. eapply fields_one; [apply says_ret, HU|].
      eapply fields_one; [apply says_ret, HP|]. eapply fields_one; [exact HF|]. eapply fields_last; exact HC. }
    reflexivity.
  Qed.
End Blocks.

(** ** Property stores *)
Definition settles (m : M dict) (P : dict -> list warning -> Prop) : Prop :=
  (forall d w, P d w -> m = (w, Ok d)) /\ (forall d, snd m = Ok d -> exists d' w, P d' w).

Lemma elements_sound r l : elements r l -> forall fuel, (length r < fuel)%nat -> sized_suffixes fuel r = ret l.
Proof.
  induction 1 as [r L Z|r l L Z H IH]; intros [|fuel] Hf; try lia; cbn [sized_suffixes]; unfold unpack_u32; rewrite read_at, bind_ret_l by lia.
  - now rewrite Z.
  - replace (num 4 0 r =? 0) with false by lia. rewrite IH; [reflexivity|].
    pose proof (lenN_dropN (num 4 0 r) r) as HL. unfold bytes, lenN in *. lia.
Qed.
Lemma elements_complete fuel : forall r l, snd (sized_suffixes fuel r) = Ok l -> elements r l.
Proof.
  induction fuel as [|fuel IH]; intros r l; cbn [sized_suffixes]; [discriminate|]. intros H.
  apply snd_bind_Ok in H as (n & H1 & H2). pose proof H1 as L. apply unpack_room in L; [|lia..].
  unfold unpack_u32 in H1. rewrite read_at in H1 by lia. injection H1 as <-.
  destruct (num 4 0 r =? 0) eqn:E.
  - injection H2 as <-. apply no_more; lia.
  - apply snd_bind_Ok in H2 as (l' & H2 & H3). injection H3 as <-. apply one_more; [lia..|]. now apply IH.
Qed.

Lemma each_sound (f : bytes -> M dict) P l ds w :
  (forall a, settles (f a) (P a)) -> each P l ds w -> mapM f l = (w, Ok ds).
Proof.
  intros HS. induction 1 as [|a l d ds w ws Ha _ IH]; [reflexivity|]. cbn [mapM].
  apply (proj1 (HS a)) in Ha. rewrite Ha, bind_Ok, IH. cbn. now rewrite app_nil_r.
Qed.
Lemma each_complete (f : bytes -> M dict) P l :
  (forall a, settles (f a) (P a)) -> forall ds, snd (mapM f l) = Ok ds -> exists ds' w, each P l ds' w.
Proof.
  intros HS. induction l as [|a l IH]; intros ds; [intros _; exists [], []; constructor|]. cbn [mapM]. intros H.
  apply snd_bind_Ok in H as (d & H1 & H). apply snd_bind_Ok in H as (ds' & H2 & _).
  apply (proj2 (HS a)) in H1 as (d1 & w1 & H1). apply IH in H2 as (d2 & w2 & H2). exists (d1 :: d2), (w1 ++ w2). now constructor.
Qed.

Lemma fields_rest k m rows d : snd (fields ((k, m) :: rows)) = Ok d -> exists d', snd (fields rows) = Ok d'.
Proof. cbn [fields]. intros H. apply snd_bind_Ok in H as (v & _ & H). apply snd_bind_Ok in H as (d' & H & _). now exists d'. Qed.
Lemma fields_head k m rows d : snd (fields ((k, m) :: rows)) = Ok d -> exists v, snd m = Ok v.
Proof. cbn [fields]. intros H. apply snd_bind_Ok in H as (v & H & _). now exists v. Qed.

Lemma assocN_some (t : list (N * string)) k v : assocN k t = Some v -> In (k, v) t.
Proof.
  induction t as [|[k' v'] t IH]; cbn [assocN]; [discriminate|]. destruct (N.eqb_spec k k') as [->|E]; [intros [= ->]; now left|].
  intros H. right. now apply IH.
Qed.
Lemma type_name_complete ty v : snd (property_type_name ty) = Ok v -> exists name, In (ty, name) type_table.
Proof.
  unfold property_type_name. destruct (assocN ty PropertyType) as [name|] eqn:E; [|discriminate]. intros _.
  exists name. rewrite <- type_names. now apply assocN_some.
Qed.

Definition value_rows (v : bytes) : list (string * M pyval) :=
  [("value", tv_value v); ("value_type", n <- tv_value_type v ;; property_type_name n)]%string.
Lemma value_settles v : settles (fields (value_rows v)) (value_at v).
Proof.
  unfold value_rows, tv_value, tv_value_padding, tv_value_type, unpack_u16, unpack_u32. split.
  - destruct 1 as [name L Ht Hp ->|name L Hk Hi]; rewrite !read_at by lia; rewrite !bind_ret_l.
    + rewrite Ht, Hp. change (negb (0 =? 0)) with false. change (31 =? 2) with false. change (31 =? 31) with true. cbv iota.
      rewrite ?bind_ret_l.
      rewrite (N.mul_comm (num 4 4 v) 2). rewrite <- (app_nil_r (wide_warning _)). apply fields_one.
      * apply says_ret, read_unicode_field.
      * apply fields_last. apply type_name_spec. vm_compute. tauto.
    + rewrite (type_name_spec _ _ Hi). destruct (num 2 2 v =? 0) eqn:E; cbn [negb]; [|reflexivity].
      destruct Hk as [Hk|[Hk1 Hk2]]; [lia|]. replace (num 2 0 v =? 2) with false by lia. rewrite ?bind_ret_l.
      replace (num 2 0 v =? 31) with false by lia. reflexivity.
  - intros d H. pose proof H as HV. apply fields_head in HV as (x & HV). apply fields_rest in H as (d' & HT).
    apply fields_head in HT as (y & HT). apply snd_bind_Ok in HV as (pad & HP & HV).
    apply unpack_room in HP as L; [|lia..]. rewrite read_at in HP by lia. injection HP as <-.
    rewrite read_at in HT, HV by lia. rewrite bind_ret_l in HT. rewrite bind_ret_l in HV. apply type_name_complete in HT as (name & Hi).
    destruct (num 2 2 v =? 0) eqn:E; cbn [negb] in HV.
    + destruct (num 2 0 v =? 2) eqn:E2.
      * exfalso. apply snd_bind_Ok in HV as (n & HV & _). unfold unpack_i32 in HV. apply snd_bind_Ok in HV as (m & HV & _).
        rewrite unpack_le_bad in HV by (rewrite lenN_slice; lia). discriminate HV.
      * rewrite ?bind_ret_l in HV. destruct (num 2 0 v =? 31) eqn:E3.
        -- apply snd_bind_Ok in HV as (n & HV & _). apply unpack_room in HV; [|lia..]. do 2 eexists. apply value_text; [lia..|reflexivity].
        -- do 2 eexists. apply value_none; [lia| |exact Hi]. right. lia.
    + do 2 eexists. apply value_none; [lia| |exact Hi]. left. lia.
Qed.

Lemma property_settles (named : bool) p :
  settles ((if named then string_name_dict else integer_name_dict) p) (property_at named p).
Proof.
  unfold string_name_dict, integer_name_dict, pv_value_size, sn_value_offset, sn_name_size, u32_field, unpack_u32. split.
  - destruct 1 as [d w -> L HV|d w -> L HV]; apply (proj1 (value_settles _)) in HV; rewrite !read_at by lia.
    + apply (fields_one _ _ []); [reflexivity|]. apply (fields_one _ _ []); [reflexivity|]. exact HV.
    + rewrite ?bind_ret_l. apply (fields_one _ _ []); [reflexivity|]. apply (fields_one _ _ []); [reflexivity|].
      apply fields_one; [|exact HV]. apply says_ret, read_unicode_field.
  - intros d H. destruct named.
    + apply fields_rest in H as (d1 & H). pose proof H as HL. apply fields_head in HL as (x & HL).
      apply snd_bind_Ok in HL as (n & HL & _). apply unpack_room in HL; [|lia..]. apply fields_rest in H as (d2 & H).
      apply fields_rest in H as (d3 & H). rewrite read_at in H by lia. rewrite !bind_ret_l in H.
      apply (proj2 (value_settles (dropN (9 + num 4 4 p) p))) in H as (d' & w' & H). do 2 eexists. apply named_property; [reflexivity|lia|exact H].
    + apply fields_rest in H as (d1 & H). pose proof H as HL. apply fields_head in HL as (x & HL).
      apply snd_bind_Ok in HL as (n & HL & _). apply unpack_room in HL; [|lia..]. apply fields_rest in H as (d2 & H).
      apply (proj2 (value_settles (dropN 9 p))) in H as (d' & w' & H). do 2 eexists. apply numbered_property; [reflexivity|lia|exact H].
Qed.

Lemma named_reflects s : 24 <= lenN s ->
  (text_eqb (guid_text (slice 8 24 s)) (s2t "D5CDD505-2E9C-101B-9397-08002B2CF9AE") = true <-> slice 8 24 s = named_format).
Proof.
  intros L. rewrite <- named_format_text, text_eqb_eq. split; [|now intros ->]. apply guid_text_inj; [rewrite lenN_slice; lia|reflexivity].
Qed.
Lemma length_drop n (s : bytes) : (length (dropN n s) < S (length s))%nat.
Proof. pose proof (lenN_dropN n s) as H. unfold bytes, lenN in *. lia. Qed.
Lemma storage_settles s : settles (storage_dict s) (storage_at s).
Proof.
  unfold storage_dict, serialized_property_values, ps_format_id, u32_field, unpack_u32. split.
  - destruct 1 as [named ps ds w L HN HE HP]. rewrite !read_at by lia. rewrite !guid_at by lia. rewrite !bind_ret_l. cbv zeta.
    rewrite (elements_sound _ _ HE) by apply length_drop.
    apply (fields_one _ _ []); [reflexivity|]. apply (fields_one _ _ []); [reflexivity|]. apply (fields_one _ _ []); [reflexivity|].
    apply fields_last. rewrite !bind_ret_l. apply (says_ret _ (fun ds => PList (map PDict ds))).
    set (b := text_eqb _ _). assert (E : b = named).
    { pose proof (named_reflects s L) as HR. fold b in HR. destruct b, named; try reflexivity.
      - symmetry. apply HN, HR. reflexivity.
      - apply HR, HN. reflexivity. }
    rewrite E. eapply each_sound; [|exact HP]. apply property_settles.
  - intros d H. apply fields_rest in H as (d1 & H). apply fields_rest in H as (d2 & H).
    pose proof H as HL. apply fields_head in HL as (x & HL). apply snd_bind_Ok in HL as (n & HL & _). apply uuid_room in HL; [|lia].
    apply fields_rest in H as (d3 & H). apply fields_head in H as (y & H). rewrite guid_at in H by lia. rewrite !bind_ret_l in H. cbv zeta in H.
    apply snd_bind_Ok in H as ([b vs] & HE & H). apply snd_bind_Ok in HE as (vs' & HE & HB). injection HB as <- <-.
    apply elements_complete in HE. apply snd_bind_Ok in H as (ds & H & _).
    set (b := text_eqb _ _) in H.
    apply (each_complete _ (property_at b)) in H as (ds' & w' & H); [|apply property_settles].
    do 2 eexists. eapply storage_read; [lia| |exact HE|exact H]. now apply named_reflects.
Qed.

(** ** Any block *)
Lemma block_settles cp sig raw : usable cp -> 4 <= lenN raw ->
  settles (extra_as_dict cp (Extra (class_of_sig sig) raw)) (block_read cp sig raw).
Proof.
  intros Hcp L. split.
  - destruct 1 as [d HF HL| -> HS|ss ds w -> HE HP|entries w -> HI].
    + now apply fixed_sound.
    + now apply darwin_sound.
    + unfold extra_as_dict. cbn [class_of_sig ex_class ex_raw]. unfold metadata_dict, base_fields. cbn [app].
      apply (fields_one _ _ []); [now apply size_row|]. apply fields_last. rewrite (elements_sound _ _ HE) by apply length_drop.
      rewrite bind_ret_l. apply (says_ret _ (fun ds => PList (map PDict ds))). eapply each_sound; [|exact HP]. apply storage_settles.
    + unfold extra_as_dict. cbn [class_of_sig ex_class ex_raw]. unfold shell_item_dict, base_fields. cbn [app].
      apply (fields_one _ _ []); [now apply size_row|]. apply fields_last. rewrite base_size_num, bind_ret_l by assumption.
      apply (says_ret _ PList). now apply entries_of.
  - intros d H. destruct (N.eq_dec sig 0xA0000006) as [->|N1]; [|destruct (N.eq_dec sig 0xA0000009) as [->|N2]; [|destruct (N.eq_dec sig 0xA000000C) as [->|N3]]].
    + do 2 eexists. apply darwin_read; [reflexivity|]. intros HS.
      unfold extra_as_dict in H. cbn [class_of_sig ex_class ex_raw] in H. rewrite (proj1 (darwin_outcome cp raw Hcp L) HS) in H. discriminate H.
    + unfold extra_as_dict in H. cbn [class_of_sig ex_class ex_raw] in H. unfold metadata_dict, base_fields in H. cbn [app] in H.
      apply fields_rest in H as (d1 & H). apply fields_head in H as (v & H). apply snd_bind_Ok in H as (ss & HE & H).
      apply elements_complete in HE. apply snd_bind_Ok in H as (ds & H & _).
      apply (each_complete _ storage_at) in H as (ds' & w' & H); [|apply storage_settles]. do 2 eexists. eapply store_read; [reflexivity|exact HE|exact H].
    + unfold extra_as_dict in H. cbn [class_of_sig ex_class ex_raw] in H.
      destruct (items_outcome_total (slice 8 (num 4 0 raw) raw)) as [o Ho]. pose proof (shell_outcome cp raw o Hcp L Ho) as HO.
      destruct o as [e|]; cbn [outcome_is] in HO; [rewrite HO in H; discriminate H|].
      destruct (entries_total cp _ _ Ho eq_refl) as (en & sa & HE). do 2 eexists. eapply id_list_read; [reflexivity|exact HE].
    + pose proof (fixed_complete cp sig raw d H N1 N2 N3) as (HL & d' & HF). do 2 eexists. eapply fixed_read; [exact HF|exact HL].
Qed.

Lemma extra_name_inj c1 c2 : extra_name c1 = extra_name c2 -> c1 = c2.
Proof. destruct c1, c2; intros H; (reflexivity || discriminate H). Qed.
Lemma block_read_iff cp sig e : usable cp -> extra_name (ex_class e) = block_name sig -> 4 <= lenN (ex_raw e) ->
  (forall d w, block_read cp sig (ex_raw e) d w <-> extra_as_dict cp e = (w, Ok d))
  /\ ((exists d w, block_read cp sig (ex_raw e) d w) <-> exists d, snd (extra_as_dict cp e) = Ok d).
Proof.
  intros Hcp HN L. rewrite <- block_name_class, sig_class_num in HN. apply extra_name_inj in HN. destruct e as [c raw].
  cbn [ex_class ex_raw] in *. subst c.
  destruct (block_settles cp sig raw Hcp L) as [H1 H2]. set (m := extra_as_dict cp _) in *. split.
  - intros d w. split; [apply H1|]. intros E. destruct (H2 d) as (d' & w' & H); [now rewrite E|].
    pose proof (H1 _ _ H) as E'. rewrite E in E'. now injection E' as -> ->.
  - split; [intros (d & w & H); exists d; now rewrite (H1 _ _ H)|]. intros [d H]. now apply (H2 d).
Qed.
Lemma block_read_det cp sig raw d1 w1 d2 w2 : usable cp -> 4 <= lenN raw ->
  block_read cp sig raw d1 w1 -> block_read cp sig raw d2 w2 -> d1 = d2 /\ w1 = w2.
Proof.
  intros Hcp L H1 H2. destruct (block_settles cp sig raw Hcp L) as [HS _]. apply HS in H1. apply HS in H2.
  rewrite H1 in H2. now injection H2 as <- <-.
Qed.
