(** * More about extra blocks: short blocks, terminal values, digests, text fields, 16-bit properties *)
From Verif Require Import Lemmas PyTime Codec Utils Sha256 Header StringData Targets Info Extra LnkFile.
From Verif Require Import Spec SpecHeader SpecTime SpecText SpecItems SpecExtra.
From Verif Require Import OutcomeProofs LayoutProofs CoreProofs FormatProofs EncProofs HeaderProofs ApiProofs WarnProofs.
From Verif Require Import TextProofs ConstructProofs StringProofs ItemProofs ExtraProofs ExtraListProofs.

(** ** Digests (C48) *)
Lemma sha_round_len s kw : length s = 8%nat -> length (sha_round s kw) = 8%nat.
Proof. intros H. do 9 (destruct s as [|? s]; try discriminate). reflexivity. Qed.
Lemma sha_rounds_len l s : length s = 8%nat -> length (fold_left sha_round l s) = 8%nat.
Proof. revert s; induction l as [|kw l IH]; intros s H; cbn; [assumption|]. apply IH. now apply sha_round_len. Qed.
Definition word (n : N) : Prop := n < 4294967296.
Lemma sha_block_words h blk : length h = 8%nat -> length (sha_block h blk) = 8%nat /\ Forall word (sha_block h blk).
Proof.
  intros H. unfold sha_block. split.
  - rewrite map_length, combine_length, H, sha_rounds_len by assumption. reflexivity.
  - apply Forall_map, Forall_forall. intros p _. unfold word, add32, w32. apply N.mod_lt. discriminate.
Qed.
Lemma sha_blocks_words fuel : forall h m, length h = 8%nat -> Forall word h ->
  length (sha_blocks fuel h m) = 8%nat /\ Forall word (sha_blocks fuel h m).
Proof.
  induction fuel as [|fuel IH]; intros h m Hh HF; cbn; [now split|]. destruct m; [now split|].
  destruct (sha_block_words h (firstn 64 (b :: m)) Hh). now apply IH.
Qed.
Lemma hexx8_word n : word n -> length (hexx 8 n) = 8%nat /\ Forall lower_hex_digit (hexx 8 n).
Proof.
  intros H.
  assert (HD : forall d, d < 16 -> lower_hex_digit (digit_char false d)).
  { intros d Hd. unfold digit_char, lower_hex_digit. destruct (d <? 10) eqn:E; lia. }
  assert (E : hexx 8 n = repeat 48 (8 - length (digits 16 n)) ++ map (digit_char false) (digits 16 n)).
  { unfold hexx, pad0. rewrite map_length. reflexivity. }
  assert (HL : (length (digits 16 n) <= 8)%nat).
  { unfold digits.
    assert (G : forall fuel m acc k, m < 16 ^ N.of_nat k -> (0 < k)%nat -> (length (digits_aux 16 fuel m acc) <= length acc + k)%nat).
    { induction fuel as [|fuel IH]; intros m acc k Hm Hk; cbn [digits_aux]; [lia|].
      destruct (m <? 16) eqn:E16; [cbn [length]; lia|].
      destruct k as [|k]; [lia|]. destruct k as [|k].
      - change (16 ^ N.of_nat 1) with 16 in Hm. lia.
      - rewrite IH with (k := S k); [cbn [length]; lia| |lia].
        apply N.div_lt_upper_bound; [discriminate|]. rewrite Nnat.Nat2N.inj_succ, N.pow_succ_r' in Hm. exact Hm. }
    rewrite (G _ n [] 8%nat); [reflexivity|exact H|lia]. }
  rewrite E. split.
  - rewrite app_length, repeat_length, map_length. lia.
  - apply Forall_app. split; [apply Forall_forall; intros x Hx; apply repeat_spec in Hx; subst; left; lia|].
    apply Forall_map. eapply Forall_impl; [exact HD|]. apply digits_aux_lt; [reflexivity|constructor].
Qed.
Lemma sha_hex_form m : length (sha256_hex m) = 64%nat /\ Forall lower_hex_digit (sha256_hex m).
Proof.
  unfold sha256_hex. cbv zeta.
  destruct (sha_blocks_words (length (sha_pad m)) sha_h0 (sha_pad m)) as [HL HF];
    [reflexivity|repeat (apply Forall_cons; [reflexivity|]); apply Forall_nil|].
  remember (sha_blocks _ _ _) as l. clear Heql. split.
  - do 9 (destruct l as [|? l]; try discriminate). repeat (apply Forall_cons_iff in HF as [? HF]).
    cbn [flat_map]. rewrite !app_length. rewrite !(fun n H => proj1 (hexx8_word n H)) by assumption. reflexivity.
  - apply Forall_forall. intros x Hx. apply in_flat_map in Hx as (n & Hn & Hx). rewrite Forall_forall in HF.
    destruct (hexx8_word n (HF n Hn)) as [_ H]. rewrite Forall_forall in H. now apply H.
Qed.

(** ** Terminal values 1, 2 and 3 (C24) *)
Lemma num_enc32 v t : fits32 v -> num 4 0 (enc32 v ++ t) = v.
Proof. intros H. unfold num. rewrite dropN_0, takeN_app_exact by reflexivity. now apply le_val_enc32. Qed.
Lemma short_walk r bs r' : block_walk r bs r' -> lenN r < 8 -> bs = [].
Proof.
  induction 1 as [|r bs r' Hr Hn HW IH|r bs r' Hr Hn HW IH]; intros HL; [reflexivity| |lia].
  apply IH. rewrite lenN_dropN. lia.
Qed.
Lemma terminal_value b blocks v t : Forall block_fits blocks -> 1 <= v <= 3 ->
  24 <= header_len b -> 24 <= lenN b -> (has_id_list b = true -> header_len b + 2 <= lenN b) ->
  dropN (string_data_end b) b = encode_blocks blocks ++ enc32 v ++ t ->
  (constructible b <-> lenN t < 4).
Proof.
  intros HF Hv H1 H2 H3 HB. assert (Hf : fits32 v) by (unfold fits32; lia).
  set (r := enc32 v ++ t) in *.
  assert (HN : num 4 0 r = v) by (unfold r; now apply num_enc32).
  assert (HL : lenN r = 4 + lenN t) by (unfold r; rewrite lenN_app, lenN_enc32; reflexivity).
  clearbody r.
  split.
  - intros (_ & _ & _ & HC). destruct (N.ltb_spec (lenN t) 4) as [|HT]; [assumption|exfalso].
    destruct (block_walk_total (dropN v r)) as (bs & r' & HW).
    assert (HW2 : block_walk r ((num 4 4 r, takeN (num 4 0 r) r) :: bs) r').
    { apply walk_block; [lia|lia|]. rewrite HN. exact HW. }
    apply (walk_encoded blocks _ _ _ HF) in HW2. rewrite <- HB in HW2. apply HC in HW2.
    apply Forall_app in HW2 as [_ HW2]. inversion_clear HW2 as [|? ? HX _]. cbn [snd] in HX. rewrite HN in HX. rewrite lenN_takeN in HX. lia.
  - intros HT. split; [assumption|]. split; [assumption|]. split; [assumption|]. intros bs r' HW. rewrite HB in HW.
    destruct (block_walk_total r) as (bs0 & r0 & HW0).
    pose proof (short_walk _ _ _ HW0 ltac:(lia)) as ->.
    apply (walk_encoded blocks _ _ _ HF) in HW0. destruct (block_walk_det _ _ _ _ _ HW HW0) as [-> _]. rewrite app_nil_r.
    apply Forall_map, Forall_forall. intros blk _. cbn [snd]. rewrite lenN_block. lia.
Qed.
Lemma terminal_value_init b cp allow blocks v t : usable cp -> Forall block_fits blocks -> 1 <= v <= 3 ->
  24 <= header_len b -> 24 <= lenN b -> (has_id_list b = true -> header_len b + 2 <= lenN b) ->
  dropN (string_data_end b) b = encode_blocks blocks ++ enc32 v ++ t ->
  if lenN t <? 4 then exists l, snd (lnk_init (FromBytes b) cp allow) = Ok l
  else snd (lnk_init (FromBytes b) cp allow) = Err StructError.
Proof.
  intros Hcp HF Hv H1 H2 H3 HB.
  assert (Hb : b <> []) by (intros ->; cbn in H2; lia).
  destruct (lnk_init_outcome (FromBytes b) b cp allow (or_introl eq_refl) Hb Hcp) as [HO HE].
  pose proof (terminal_value b blocks v t HF Hv H1 H2 H3 HB) as HC.
  destruct (N.ltb_spec (lenN t) 4); [tauto|]. apply HE. intros C. apply HC in C. lia.
Qed.
Lemma terminal_zero_init b cp allow blocks t : usable cp -> Forall block_fits blocks ->
  24 <= header_len b -> 24 <= lenN b -> (has_id_list b = true -> header_len b + 2 <= lenN b) ->
  dropN (string_data_end b) b = encode_blocks blocks ++ enc32 0 ++ t ->
  exists l, snd (lnk_init (FromBytes b) cp allow) = Ok l.
Proof.
  intros Hcp HF H1 H2 H3 HB. assert (Hb : b <> []) by (intros ->; cbn in H2; lia).
  apply (lnk_init_outcome (FromBytes b) b cp allow (or_introl eq_refl) Hb Hcp).
  split; [assumption|]. split; [assumption|]. split; [assumption|]. intros bs r' HW. rewrite HB in HW.
  destruct (block_walk_det _ _ _ _ _ HW (walk_encoded blocks _ _ _ HF (walk_terminal t))) as [-> _]. rewrite app_nil_r.
  apply Forall_map, Forall_forall. intros blk _. cbn [snd]. rewrite lenN_block. lia.
Qed.

(** ** Short blocks (C25) *)
Definition row_needs (raw : bytes) (n : N) (m : M pyval) : Prop :=
  if n <=? lenN raw then exists v, snd m = Ok v else snd m = Err StructError.
Lemma needs_u16 i raw : row_needs raw (i + 2) (u16_field i raw).
Proof.
  unfold row_needs, u16_field. rewrite unpack_u16_at. destruct (i + 2 <=? lenN raw); [rewrite bind_ret_l; eexists; reflexivity|reflexivity].
Qed.
Lemma needs_u32 i raw : row_needs raw (i + 4) (u32_field i raw).
Proof.
  unfold row_needs, u32_field. rewrite unpack_u32_at. destruct (i + 4 <=? lenN raw); [rewrite bind_ret_l; eexists; reflexivity|reflexivity].
Qed.
Lemma needs_i16 i raw : row_needs raw (i + 2) (i16_field i raw).
Proof.
  unfold row_needs, i16_field, unpack_i16. pose proof (unpack_u16_at i raw) as H. unfold unpack_u16 in H. rewrite H.
  destruct (i + 2 <=? lenN raw); [rewrite ?bind_ret_l; eexists; reflexivity|reflexivity].
Qed.
Lemma needs_uuid i raw : row_needs raw (i + 16) (uuid_field i raw).
Proof.
  unfold row_needs, uuid_field. destruct (i + 16 <=? lenN raw) eqn:E.
  - rewrite parse_uuid_guid by (rewrite lenN_slice; lia). rewrite bind_ret_l. eexists; reflexivity.
  - rewrite parse_uuid_short by (rewrite lenN_slice; lia). reflexivity.
Qed.
Lemma needs_must name e i raw : row_needs raw (i + 4) (n <- must_be_N name e (unpack_u32 (slice i (i + 4) raw)) ;; ret (PN n)).
Proof.
  unfold row_needs. rewrite unpack_u32_at. destruct (i + 4 <=? lenN raw); [|reflexivity].
  rewrite must_be_N_ret, bind_Ok. eexists; reflexivity.
Qed.
Lemma needs_str cp i j raw : usable cp -> row_needs raw 0 (str_field cp i j raw).
Proof. intros H. unfold row_needs, str_field. replace (0 <=? lenN raw) with true by lia. rewrite read_string_field by assumption. eexists; reflexivity. Qed.
Lemma needs_ustr i j raw : row_needs raw 0 (ustr_field i j raw).
Proof. unfold row_needs, ustr_field. replace (0 <=? lenN raw) with true by lia. rewrite read_unicode_field. eexists; reflexivity. Qed.
Lemma needs_size raw : row_needs raw 4 (n <- base_size raw ;; ret (PN n)).
Proof. apply (needs_u32 0). Qed.

Lemma fields_needs raw rows needs : Forall2 (fun n row => row_needs raw n (snd row)) needs rows ->
  if fold_right N.max 0 needs <=? lenN raw then exists d, snd (fields rows) = Ok d else snd (fields rows) = Err StructError.
Proof.
  induction 1 as [|n [k m] needs rows Hr HF IH]; [cbn [fold_right]; replace (0 <=? lenN raw) with true by lia; eexists; reflexivity|]. cbn [fold_right snd fields] in *.
  unfold row_needs in Hr. rewrite snd_bind.
  destruct (N.leb_spec n (lenN raw)) as [E|E].
  - destruct Hr as [v ->]. rewrite snd_bind. destruct (N.leb_spec (fold_right N.max 0 needs) (lenN raw)) as [E2|E2].
    + destruct IH as [d ->]. replace (N.max n _ <=? lenN raw) with true by lia. eexists; reflexivity.
    + rewrite IH. replace (N.max n _ <=? lenN raw) with false by lia. reflexivity.
  - rewrite Hr. replace (N.max n _ <=? lenN raw) with false by lia. reflexivity.
Qed.
Lemma at_least {A} (a b : N) (P Q : A) : a = b -> (if a <=? b then P else Q) = (if b <=? b then P else Q).
Proof. now intros ->. Qed.
Ltac need Hcp :=
  cbn [snd]; first
  [ apply needs_size | apply needs_ustr | apply (needs_str _ _ _ _ Hcp)
  | match goal with |- row_needs _ _ (u16_field ?i _) => exact (needs_u16 i _) end
  | match goal with |- row_needs _ _ (u32_field ?i _) => exact (needs_u32 i _) end
  | match goal with |- row_needs _ _ (i16_field ?i _) => exact (needs_i16 i _) end
  | match goal with |- row_needs _ _ (uuid_field ?i _) => exact (needs_uuid i _) end
  | match goal with |- row_needs _ _ (bind (must_be_N _ _ (unpack_u32 (slice ?i _ _))) _) => exact (needs_must _ _ i _) end ].
Ltac needs_all Hcp := repeat (apply Forall2_cons; [need Hcp|]); apply Forall2_nil.

Lemma short_block cp c sig raw : usable cp -> extra_name c = block_name sig ->
  ~ In sig [0xA0000006; 0xA0000009; 0xA000000C] -> 8 <= lenN raw ->
  if fixed_part sig <=? lenN raw
  then exists d, snd (extra_as_dict cp (Extra c raw)) = Ok d
  else snd (extra_as_dict cp (Extra c raw)) = Err StructError.
Proof.
  intros Hcp Hc Hn HL. apply named_class in Hc as ->. revert sig Hn.
  apply (by_sigs (fun sig => ~ In sig _ -> if fixed_part sig <=? lenN raw
    then exists d, snd (extra_as_dict cp (Extra (class_of_sig sig) raw)) = Ok d
    else snd (extra_as_dict cp (Extra (class_of_sig sig) raw)) = Err StructError)).
  - repeat apply Forall_cons; [..|apply Forall_nil]; intros Hn; try (exfalso; apply Hn; cbn; tauto); clear Hn;
      cbn [fixed_part class_of_sig]; unfold extra_as_dict; cbn [ex_class ex_raw].
    all: try (unfold environment_dict, base_fields; cbn [app];
      match goal with |- context [fields ?rows] => pose proof (fields_needs raw rows [4; 0; 0] ltac:(needs_all Hcp)) as H end;
      change (fold_right N.max 0 [4; 0; 0]) with 4 in H; replace (4 <=? lenN raw) with true in H by lia;
      replace (8 <=? lenN raw) with true by lia; exact H).
    all: try (unfold console_dict, base_fields; cbn [app];
      match goal with |- context [fields ?rows] =>
        exact (fields_needs raw rows [4; 10; 12; 14; 16; 18; 20; 22; 24; 36; 40; 44; 0; 112; 116; 120; 124; 128; 132; 136; 140; 144] ltac:(needs_all Hcp)) end).
    all: try (unfold tracker_dict, base_fields; cbn [app];
      match goal with |- context [fields ?rows] =>
        exact (fields_needs raw rows [4; 12; 16; 0; 48; 64; 80; 96] ltac:(needs_all Hcp)) end).
    all: try (unfold code_page_dict, base_fields; cbn [app];
      match goal with |- context [fields ?rows] => exact (fields_needs raw rows [4; 12] ltac:(needs_all Hcp)) end).
    all: try (unfold special_folder_dict, base_fields; cbn [app];
      match goal with |- context [fields ?rows] => exact (fields_needs raw rows [4; 12; 16] ltac:(needs_all Hcp)) end).
    all: try (unfold known_folder_dict, base_fields; cbn [app];
      match goal with |- context [fields ?rows] => exact (fields_needs raw rows [4; 24; 28] ltac:(needs_all Hcp)) end).
    (* shim layer *)
    unfold shim_dict, base_fields; cbn [app].
    replace (8 <=? lenN raw) with true by lia. cbn [fields].
    rewrite read_string_field by assumption.
    pose proof (needs_size raw) as H. unfold row_needs in H. replace (4 <=? lenN raw) with true in H by lia.
    destruct H as [v Hv]. rewrite snd_bind, Hv. eexists; reflexivity.
  - intros n Hi _.
    assert (EU : class_of_sig n = UnknownExtra /\ fixed_part n = 8).
    { split; unfold class_of_sig, fixed_part;
      (repeat match goal with |- context [match ?p with _ => _ end] => is_var p; destruct p; try reflexivity end;
       exfalso; apply Hi; vm_compute; tauto). }
    destruct EU as [-> ->]. replace (8 <=? lenN raw) with true by lia.
    destruct (unknown_decodes cp raw) as [d Hd]; [lia|]. rewrite Hd. eexists; reflexivity.
Qed.

(** ** Fixed-size text fields (C50) *)
Lemma text_field_value cp (wide : bool) raw i j : usable cp ->
  snd (if wide then ustr_field i j raw else str_field cp i j raw) = Ok (PStr (stored_text wide cp (slice i j raw))).
Proof.
  intros H. destruct wide; unfold ustr_field, str_field, stored_text; [rewrite read_unicode_field|rewrite read_string_field by assumption]; reflexivity.
Qed.
Lemma text_field cp c raw d name key wide i j : usable cp -> In (name, key, wide, i, j) text_fields -> extra_name c = name ->
  snd (extra_as_dict cp (Extra c raw)) = Ok d -> dget key d = Some (PStr (stored_text wide cp (slice i j raw))).
Proof.
  intros Hcp Hin Hc Hd. rewrite <- Hc in Hin. clear Hc name. unfold text_fields in Hin. cbn [In] in Hin.
  assert (G : forall c' w', extra_name c = extra_name c' ->
     (forall d, snd (extra_as_dict cp (Extra c' raw)) = Ok d -> exists v, snd (if w' : bool then ustr_field i j raw else str_field cp i j raw) = Ok v /\ dget key d = Some v) ->
     dget key d = Some (PStr (stored_text w' cp (slice i j raw)))).
  { intros c' w' E H. apply extra_name_inj in E as ->. destruct (H d Hd) as (v & Hv & G). rewrite text_field_value in Hv by assumption.
    injection Hv as <-. exact G. }
  repeat (destruct Hin as [Hin|Hin]; [injection Hin; intros <- <- <- <- Hc; clear Hin|]); [..|destruct Hin].
  all: match goal with G : forall c' w', _ -> _ -> _, H : ?s = extra_name _ |- dget ?k _ = Some (PStr (stored_text ?w _ _)) =>
    let go c := (apply (G c w); [exact (eq_sym H)|intros d' H'; exact (fields_dget _ _ k _ H' eq_refl)]) in
    first [go Environment | go Icon | go Darwin | go DistributedTracker | go Console] end.
Qed.

(** ** Shim layers (C26) *)
Lemma shim_first cp c t rest : cp = CpNone -> 0 < c < 128 ->
  field_text cp (utf16 (c :: t) ++ rest) = [c].
Proof.
  intros -> H.
  assert (E : utf16 (c :: t) ++ rest = map n2b [c] ++ x00 :: (utf16 t ++ rest)).
  { unfold utf16. cbn [flat_map]. unfold utf16_char. replace (c <? 65536) with true by lia.
    unfold enc16. cbn [map app]. replace (c / 256) with 0 by (symmetry; apply N.div_small; lia). reflexivity. }
  rewrite E. pose proof (ascii_field [c] (utf16 t ++ rest) ltac:(repeat constructor; lia)) as HA.
  rewrite read_string_field in HA by discriminate. injection HA as _ HA. exact HA.
Qed.

(** ** 16-bit properties (C27) *)
Lemma mapM_snd_cons {A B} (f : A -> M B) a l : snd (mapM f (a :: l))
  = match snd (f a) with Ok b => match snd (mapM f l) with Ok r => Ok (b :: r) | Err e => Err e end | Err e => Err e end.
Proof.
  cbn [mapM]. rewrite snd_bind. destruct (snd (f a)); [|reflexivity]. rewrite snd_bind. destruct (snd (mapM f l)); reflexivity.
Qed.
Lemma mapM_suffixes_err {A B} (f : bytes -> M B) (body : A -> bytes) (bad : A -> Prop) l tail :
  (forall a rest, In a l -> (exists d, snd (f (sized (body a) ++ rest)) = Ok d) \/ bad a) ->
  (forall a rest, In a l -> bad a -> snd (f (sized (body a) ++ rest)) = Err StructError) ->
  Exists bad l -> snd (mapM f (suffixes (map body l) tail)) = Err StructError.
Proof.
  induction l as [|a l IH]; intros H1 H2 HE; [inversion HE|]. cbn [map suffixes]. rewrite mapM_snd_cons.
  set (r := flat_map sized (map body l) ++ tail).
  assert (HC : bad a \/ Exists bad l) by (inversion_clear HE; tauto).
  destruct HC as [Hb|HC]; [now rewrite (H2 a r (or_introl eq_refl) Hb)|].
  destruct (H1 a r (or_introl eq_refl)) as [[d ->]|Hb]; [|now rewrite (H2 a r (or_introl eq_refl) Hb)].
  rewrite IH; [reflexivity|intros; apply H1; now right|intros; apply H2; [now right|assumption]|assumption].
Qed.
Lemma i2_value name data rest : snd (tv_value (encode_value (VOther 2 name 0 data) ++ rest)) = Err StructError.
Proof.
  unfold tv_value, tv_value_padding, tv_value_type. cbn [encode_value]. rewrite <- !app_assoc. slices.
  rewrite !unpack_enc16 by (unfold fits16; lia). rewrite !bind_ret_l. change (negb (0 =? 0)) with false. cbv iota.
  change (2 =? 2) with true. cbv iota. unfold unpack_i32.
  match goal with |- context [slice 0 2 ?x] => set (y := slice 0 2 x) end.
  assert (HY : lenN y <= 2) by (unfold y; rewrite lenN_slice; lia).
  unfold unpack_le. replace (lenN y =? 4) with false by lia. reflexivity.
Qed.
Lemma fields_err rows1 k m rows2 d e : snd (fields rows1) = Ok d -> snd m = Err e -> snd (fields (rows1 ++ (k, m) :: rows2)) = Err e.
Proof.
  revert d; induction rows1 as [|[k' m'] r IH]; intros d H1 Hm; cbn [app fields].
  - rewrite snd_bind, Hm. reflexivity.
  - cbn [fields] in H1. apply snd_bind_Ok in H1 as (v & Hv & H1). apply snd_bind_Ok in H1 as (d' & Hd' & _).
    rewrite snd_bind, Hv, snd_bind, (IH d') by assumption. reflexivity.
Qed.
Lemma i2_prop p rest : wf_prop_with (fun v => wf_value v \/ is_i2 v) p -> is_i2 (prop_value p) ->
  snd ((if is_named p then string_name_dict else integer_name_dict) (sized (prop_body p) ++ rest)) = Err StructError.
Proof.
  intros (Hs & _ & Hi) (nm & data & HV). unfold sized_fits in Hs. unfold sized. set (n := 4 + lenN (prop_body p)) in *.
  destruct p as [id res v|name res v]; cbn [is_named prop_body prop_value] in *; subst v.
  - unfold integer_name_dict. rewrite <- !app_assoc. unfold pv_value_size, u32_field. off_norm. slices. drops.
    match goal with |- context [fields [?a; ?b; (?k, ?m); ?c]] => apply (fields_err [a; b] k m [c] [("value_size", PN n); ("id", PN id)]%string) end.
    + cbn [fields]. rewrite !unpack_enc32, !bind_ret_l by assumption. reflexivity.
    + apply i2_value.
  - unfold string_name_dict. rewrite <- !app_assoc. unfold pv_value_size, sn_value_offset, sn_name_size. slices.
    assert (Hname : fits32 (lenN name)) by (unfold fits32; unfold n in Hs; cbn [prop_body] in Hs; rewrite !lenN_app in Hs; lia).
    rewrite !(unpack_enc32 (lenN name)), !bind_ret_l by assumption.
    set (v := VOther 2 nm 0 data) in *.
    assert (EN : slice 9 (9 + lenN name) (enc32 n ++ enc32 (lenN name) ++ [res] ++ name ++ encode_value v ++ rest) = name).
    { slices. apply slice_here_n. lia. }
    assert (ED : dropN (9 + lenN name) (enc32 n ++ enc32 (lenN name) ++ [res] ++ name ++ encode_value v ++ rest) = encode_value v ++ rest).
    { rewrite !app_assoc, <- (app_assoc _ (encode_value v)). apply dropN_app_exact. rewrite !lenN_app. autorewrite with lens. lia. }
    rewrite EN, ED.
    match goal with |- context [fields [?a; ?b; ?c; (?k, ?m); ?e]] => apply (fields_err [a; b; c] k m [e] [("value_size", PN n); ("name_size", PN (lenN name)); ("name", PStr (wide_text name))]%string) end.
    + cbn [fields]. rewrite unpack_enc32, !bind_ret_l by assumption. rewrite read_unicode_field. reflexivity.
    + apply i2_value.
Qed.
Lemma i2_storage s rest : wf_with_i2 s -> has_i2 s -> snd (storage_dict (sized (storage_body s) ++ rest)) = Err StructError.
Proof.
  intros (Hs & Hv & Hf & Hp & Hn) HX. unfold sized_fits in Hs. unfold sized. set (n := 4 + lenN (storage_body s)) in *.
  unfold storage_dict, serialized_property_values, ps_format_id, u32_field.
  assert (E : (enc32 n ++ storage_body s) ++ rest
              = enc32 n ++ enc32 (s_version s) ++ s_format s ++ flat_map sized (map prop_body (s_props s)) ++ enc32 0 ++ rest).
  { unfold storage_body. rewrite <- !app_assoc. repeat f_equal. rewrite flat_map_concat_map, (flat_map_concat_map sized), map_map. reflexivity. }
  rewrite E. set (raw := enc32 n ++ _). cbn zeta.
  assert (HL : Forall sized_fits (map prop_body (s_props s))).
  { apply Forall_map. eapply Forall_impl; [|exact Hp]. intros p H. apply H. }
  assert (HSX : sized_suffixes (S (length raw)) (dropN 24 raw) = ret (suffixes (map prop_body (s_props s)) (enc32 0 ++ rest))).
  { replace (dropN 24 raw) with (flat_map sized (map prop_body (s_props s)) ++ enc32 0 ++ rest)
      by (unfold raw; drops; reflexivity).
    apply sized_suffixes_spec; [|assumption].
    pose proof (flat_sized_length (map prop_body (s_props s))). unfold raw. rewrite !app_length. lia. }
  rewrite HSX.
  assert (HFMT : parse_uuid (slice 8 24 raw) = ret (guid_text (s_format s))).
  { unfold raw. slices. now apply parse_uuid_guid. }
  rewrite HFMT, !bind_ret_l.
  assert (HM : snd (mapM (if text_eqb (guid_text (s_format s)) (s2t "D5CDD505-2E9C-101B-9397-08002B2CF9AE")
                     then string_name_dict else integer_name_dict) (suffixes (map prop_body (s_props s)) (enc32 0 ++ rest)))
               = Err StructError).
  { assert (HK : forall p, In p (s_props s) ->
       (if text_eqb (guid_text (s_format s)) (s2t "D5CDD505-2E9C-101B-9397-08002B2CF9AE") then string_name_dict else integer_name_dict)
       = (if is_named p then string_name_dict else integer_name_dict)).
    { intros p Hi. rewrite <- named_format_text.
      destruct Hn as [[Hn Hg]|[Hn Hg]]; rewrite Forall_forall in Hn; rewrite (Hn p Hi).
      - now rewrite Hg, text_eqb_refl.
      - replace (text_eqb _ _) with false; [reflexivity|]. symmetry. apply text_eqb_neq. intros E2.
        apply Hg. now apply guid_text_inj in E2. }
    rewrite Forall_forall in Hp.
    apply (mapM_suffixes_err _ prop_body (fun p => is_i2 (prop_value p))); [| |exact HX].
    - intros p r Hi. rewrite (HK p Hi). destruct (Hp p Hi) as (P1 & [P2|P2] & P3); [left|now right].
      eexists. rewrite prop_spec; [reflexivity|]. split; [assumption|split; assumption].
    - intros p r Hi Hb. rewrite (HK p Hi). apply i2_prop; [now apply Hp|assumption]. }
  match goal with |- context [fields [?a; ?b; ?c; (?k, ?m)]] => apply (fields_err [a; b; c] k m [] [("storage_size", PN n); ("version", PStr (hex_text (s_version s))); ("format_id", PStr (guid_text (s_format s)))]%string) end.
  - cbn [fields]. unfold raw. off_norm. slices. rewrite !unpack_enc32, !bind_ret_l by assumption. reflexivity.
  - rewrite snd_bind, HM. reflexivity.
Qed.
Lemma i2_block cp c stores slack : extra_name c = block_name 0xA0000009 ->
  Forall wf_with_i2 stores -> Exists has_i2 stores ->
  8 + lenN (flat_map (fun s => sized (storage_body s)) stores ++ enc32 0 ++ slack) < 4294967296 ->
  snd (extra_as_dict cp (Extra c (encode_block (0xA0000009, flat_map (fun s => sized (storage_body s)) stores ++ enc32 0 ++ slack))))
  = Err StructError.
Proof.
  intros Hc HW HX HS. apply named_class in Hc as ->. unfold extra_as_dict. cbn [ex_class ex_raw class_of_sig].
  unfold encode_block. cbn [fst snd]. remember (8 + lenN _) as sz eqn:Esz. clear Esz. unfold metadata_dict.
  set (raw := enc32 sz ++ _).
  assert (HB : snd (fields (base_fields raw)) = Ok [("size", PN sz)]%string)
    by (unfold raw; now rewrite raw_base).
  apply (fields_err _ _ _ _ _ _ HB).
  replace (dropN 8 raw) with (flat_map sized (map storage_body stores) ++ enc32 0 ++ slack).
  2: { unfold raw. rewrite raw_drop8. f_equal. rewrite !flat_map_concat_map, map_map. reflexivity. }
  rewrite sized_suffixes_spec, bind_ret_l.
  - rewrite snd_bind. rewrite (mapM_suffixes_err storage_dict storage_body has_i2); [reflexivity| | |assumption].
    + intros s rest Hi. rewrite Forall_forall in HW. pose proof (HW s Hi) as HWs.
      assert (HD : has_i2 s \/ Forall (fun p => ~ is_i2 (prop_value p)) (s_props s)).
      { unfold has_i2. generalize (s_props s). induction l as [|p l IH]; [right; constructor|].
        assert (HP : is_i2 (prop_value p) \/ ~ is_i2 (prop_value p)).
        { unfold is_i2. destruct (prop_value p) as [|ty nm pad data]; [right; intros (? & ? & E); discriminate|].
          destruct (N.eq_dec ty 2) as [->|], (N.eq_dec pad 0) as [->|];
            [left; eauto|right; intros (? & ? & [= E]); congruence..]. }
        destruct HP as [HP|HP]; [left; now left|]. destruct IH as [IH|IH]; [left; now right|right; now constructor]. }
      destruct HD as [HD|HD]; [now right|left]. exists (storage_report s). rewrite storage_spec; [reflexivity|].
      destruct HWs as (P1 & P2 & P3 & P4 & P5). repeat (split; [assumption|]). split; [|assumption].
      rewrite Forall_forall in P4, HD. apply Forall_forall. intros p Hp. destruct (P4 p Hp) as (Q1 & [Q2|Q2] & Q3).
      * split; [assumption|now split].
      * exfalso. now apply (HD p Hp).
    + intros s rest Hi Hb. rewrite Forall_forall in HW. apply i2_storage; [now apply HW|assumption].
  - pose proof (flat_sized_length (map storage_body stores)). unfold raw. rewrite !app_length.
    replace (length (flat_map (fun s => sized (storage_body s)) stores)) with (length (flat_map sized (map storage_body stores))); [lia|].
    f_equal. rewrite !flat_map_concat_map, map_map. reflexivity.
  - apply Forall_map. eapply Forall_impl; [|exact HW]. intros s H. apply H.
Qed.

(** ** The ID list of the shell-item block (C34) *)
Lemma shell_item_block cp c idl : extra_name c = block_name 0xA000000C -> 8 + lenN idl < 4294967296 ->
  snd (extra_as_dict cp (Extra c (encode_block (0xA000000C, idl))))
  = match snd (items_of cp idl) with
    | Ok items => Ok [("size", PN (8 + lenN idl)); ("id_list", PList items)]%string
    | Err e => Err e
    end.
Proof.
  intros Hc HS. apply named_class in Hc as ->. unfold extra_as_dict. cbn [ex_class ex_raw class_of_sig].
  unfold encode_block. cbn [fst snd]. remember (8 + lenN idl) as sz eqn:Esz. unfold shell_item_dict.
  set (raw := enc32 sz ++ _).
  assert (HB : base_size raw = ret sz) by (unfold raw; now apply raw_size).
  assert (HI : slice 8 sz raw = idl).
  { unfold raw. rewrite raw_slice by lia. rewrite <- (app_nil_r idl) at 1. apply slice_here_n. lia. }
  unfold base_fields. cbn [app fields]. rewrite HB, !bind_ret_l, HI, !snd_bind.
  destruct (snd (items_of cp idl)); reflexivity.
Qed.
Lemma dget_collect k l : In k (map fst l) -> dget k (collect l) = Some (entry_for l k).
Proof.
  intros H. rewrite collect_eq, dget_map. destruct (in_dec _ _ _) as [|n]; [reflexivity|].
  exfalso. apply n. now apply first_seen_in.
Qed.
Lemma last_of_app k l1 l2 : last_of k (l1 ++ l2) = match last_of k l2 with Some d => Some d | None => last_of k l1 end.
Proof.
  induction l1 as [|[a d] l1 IH]; cbn [app last_of]; [now destruct (last_of k l2)|]. rewrite IH. now destruct (last_of k l2).
Qed.
Lemma last_of_absent k l : ~ In k (map fst l) -> last_of k l = None.
Proof.
  induction l as [|[a d] l IH]; intros H; [reflexivity|]. cbn [last_of]. rewrite IH by (intros Hi; apply H; now right).
  destruct (String.eqb_spec k a) as [->|]; [exfalso; apply H; now left|reflexivity].
Qed.
Lemma decoded_names cp es k : In k (map fst (flat_map (decoded cp) es)) -> In k (map (fun e => extra_name (ex_class e)) es).
Proof.
  intros H. apply in_map_iff in H as ([k' d] & <- & H). apply in_flat_map in H as (e & He & H). apply in_map_iff.
  exists e. split; [|assumption]. unfold decoded in H. destruct (snd (extra_as_dict cp e)); [|destruct H].
  destruct H as [H|[]]. now injection H as <- _.
Qed.
Lemma shell_name n : block_name n = "SHELL_ITEM_IDENTIFIER_BLOCK"%string -> n = 0xA000000C.
Proof.
  revert n. apply (by_sigs (fun n => block_name n = "SHELL_ITEM_IDENTIFIER_BLOCK"%string -> n = 0xA000000C)).
  - repeat apply Forall_cons; [..|apply Forall_nil]; vm_compute; intros H; (discriminate H || reflexivity).
  - intros n Hn H. exfalso.
    assert (E : block_name n = "UNKNOWN_BLOCK"%string).
    { unfold block_name. repeat match goal with |- context [match ?p with _ => _ end] => is_var p; destruct p; try reflexivity end;
        exfalso; apply Hn; vm_compute; tauto. }
    rewrite E in H. discriminate.
Qed.
Lemma same_items b cp allow l d idl before after rest :
  usable cp -> snd (lnk_init (FromBytes b) cp allow) = Ok l -> snd (get_json l true) = Ok d ->
  has_id_list b = true -> lenN idl < 65536 -> holds b (header_len b) (enc16 (lenN idl) ++ idl) ->
  Forall block_fits (before ++ (0xA000000C, idl) :: after) -> ~ In 0xA000000C (map fst after) ->
  dropN (string_data_end b) b = encode_blocks (before ++ (0xA000000C, idl) :: after) ++ enc32 0 ++ rest ->
  exists items e, reported_items d = Some items /\ reported_extra d = Some e
    /\ dget "SHELL_ITEM_IDENTIFIER_BLOCK" e = Some (PDict [("size", PN (8 + lenN idl)); ("id_list", PList items)]%string).
Proof.
  intros Hcp Hl Hd Hid Hlen HH HF HA HB.
  destruct (target_in_file b cp allow l d idl Hcp Hl Hd Hid Hlen HH) as (t & items & _ & Hi & HI & _).
  exists items. eexists. split; [exact Hi|]. split; [exact (extra_reported b cp allow l true d Hcp Hl Hd)|].
  rewrite (file_blocks _ _ _ _ _ _ Hcp Hl HF HB). rewrite map_app. cbn [map]. rewrite <- app_assoc. cbn [app].
  rewrite flat_map_app. cbn [flat_map].
  set (k := "SHELL_ITEM_IDENTIFIER_BLOCK"%string). set (dd := [("size", PN (8 + lenN idl)); ("id_list", PList items)]%string).
  assert (HDC : decoded cp (Extra (class_of_sig (fst (0xA000000C, idl))) (encode_block (0xA000000C, idl))) = [(k, dd)]).
  { unfold decoded. rewrite (shell_item_block cp _ idl); [rewrite HI; reflexivity|reflexivity|lia]. }
  match goal with |- context [decoded cp ?x ++ _] => replace (decoded cp x) with [(k, dd)] by (symmetry; exact HDC) end. cbn [app].
  rewrite dget_collect.
  - unfold entry_for. change (String.eqb k "UNKNOWN_BLOCK") with false. cbv iota. rewrite last_of_app. cbn [last_of].
    rewrite (last_of_absent k), String.eqb_refl; [reflexivity|].
    intros Hin. apply decoded_names in Hin. rewrite map_app, in_app_iff, map_map in Hin. destruct Hin as [Hin|Hin].
    + apply HA. apply in_map_iff in Hin as (blk & HE & Hin). cbn [ex_class] in HE. apply in_map_iff. exists blk. split; [|assumption].
      rewrite <- sig_class_num, block_name_class in HE. now apply shell_name.
    + destruct (allow && _); [|destruct Hin]. destruct Hin as [Hin|[]]. discriminate.
  - rewrite map_app, in_app_iff. right. now left.
Qed.

(** ** Statements about single blocks *)
Lemma one_block cp c x : usable cp -> wf_block x -> extra_name c = block_name (block_signature x) ->
  extra_as_dict cp (Extra c (encode_block (as_block x))) = (block_warnings cp x, Ok (block_report cp x)).
Proof. intros Hcp Hw Hc. apply named_class in Hc as ->. now apply block_spec. Qed.
Lemma tracker_warned cp c t slack : usable cp -> wf_block (BTracker t slack) -> extra_name c = "DISTRIBUTED_LINK_TRACKER_BLOCK"%string ->
  fst (extra_as_dict cp (Extra c (encode_block (as_block (BTracker t slack)))))
  = (if t_length t =? 88 then [] else [WMustBe "length"])
    ++ (if t_version t =? 0 then [] else [WMustBe "version"])
    ++ field_warning cp (t_machine t).
Proof. intros Hcp Hw Hc. now rewrite (one_block cp c (BTracker t slack) Hcp Hw Hc). Qed.
Lemma shim_reported cp c data : usable cp -> extra_name c = "SHIM_LAYER_BLOCK"%string -> 8 + lenN data < 4294967296 ->
  snd (extra_as_dict cp (Extra c (encode_block (0xA0000008, data))))
  = Ok [("size", PN (8 + lenN data)); ("layer_name", PStr (field_text cp data))]%string.
Proof. intros Hcp Hc HS. exact (f_equal snd (one_block cp c (BShim data) Hcp (conj HS I) Hc)). Qed.
Lemma store_reported cp c stores slack : extra_name c = "METADATA_PROPERTIES_BLOCK"%string -> Forall wf_storage stores ->
  8 + lenN (flat_map (fun s => sized (storage_body s)) stores ++ enc32 0 ++ slack) < 4294967296 ->
  extra_as_dict cp (Extra c (encode_block (0xA0000009, flat_map (fun s => sized (storage_body s)) stores ++ enc32 0 ++ slack)))
  = (flat_map storage_warnings stores,
     Ok [("size", PN (8 + lenN (flat_map (fun s => sized (storage_body s)) stores ++ enc32 0 ++ slack)));
         ("property_store", PList (map (fun s => PDict (storage_report s)) stores))]%string).
Proof.
  intros Hc HW HS. change "METADATA_PROPERTIES_BLOCK"%string with (extra_name Metadata) in Hc. apply extra_name_inj in Hc as ->.
  unfold extra_as_dict, encode_block. cbn [ex_class ex_raw fst snd]. now apply sp_metadata.
Qed.
Lemma descriptor_reported cp c ansi x wide slack : usable cp -> extra_name c = "DARWIN_BLOCK"%string ->
  lenN ansi = 260 -> wf_descriptor x -> wide_field (descriptor_text x) wide ->
  8 + lenN (ansi ++ wide ++ slack) < 4294967296 ->
  extra_as_dict cp (Extra c (encode_block (0xA0000006, ansi ++ wide ++ slack)))
  = (field_warning cp ansi,
     Ok (("size"%string, PN (8 + lenN (ansi ++ wide ++ slack)))
         :: [("darwin_data_ansi", PStr (field_text cp ansi)); ("darwin_data_unicode", PStr (descriptor_text x));
             ("product_code_id", PStr (guid_text (d_product x)));
             ("feature_name", match d_feature x with [] => PNone | f => PStr f end);
             ("component_id", match d_component x with Some g => PStr (guid_text g) | None => PNone end)]%string)).
Proof.
  intros Hcp Hc H1 H2 H3 HS.
  exact (one_block cp c (BDarwin ansi x wide slack) Hcp (conj HS (conj H1 (conj H2 H3))) Hc).
Qed.
Lemma what_is_hashed cp c raw : 4 <= lenN raw ->
  (extra_name c = "UNKNOWN_BLOCK"%string ->
   extra_as_dict cp (Extra c raw)
   = ([], Ok [("size", PN (num 4 0 raw)); ("extra_data_sha256", PStr (sha256_hex (dropN 4 raw)))]%string))
  /\ (extra_name c = "TERMINAL_BLOCK"%string ->
      extra_as_dict cp (Extra c raw)
      = ([], Ok [("size", PN (lenN raw)); ("appended_data_sha256", PStr (sha256_hex (dropN 4 raw)))]%string)).
Proof.
  intros HL. split; intros Hc.
  - change "UNKNOWN_BLOCK"%string with (extra_name UnknownExtra) in Hc. apply extra_name_inj in Hc as ->.
    unfold extra_as_dict, unknown_extra_dict, base_fields, base_size. cbn [ex_class ex_raw app fields].
    rewrite unpack_u32_0. replace (4 <=? lenN raw) with true by lia. now rewrite !bind_ret_l.
  - change "TERMINAL_BLOCK"%string with (extra_name Terminal) in Hc. apply extra_name_inj in Hc as ->.
    unfold extra_as_dict, terminal_dict, terminal_size. cbn [ex_class ex_raw fields]. rewrite !bind_ret_l, lenN_dropN.
    replace (4 + (lenN raw - 4)) with (lenN raw) by lia. reflexivity.
Qed.
Lemma volume_name cp ty name rest junk :
  usable cp -> wf_item (IVolume ty name rest) -> item_fits (item_body (IVolume ty name rest)) ->
  exists d, snd (items_of cp (encode_items [item_body (IVolume ty name rest)] ++ junk)) = Ok [PDict d]
    /\ lenN name = 20 /\ dget "volume_name" d = Some (PStr (field_text cp name)).
Proof.
  intros Hcp Hw Hf. exists (item_report cp (IVolume ty name rest)). split; [|split; [apply Hw|]].
  - change [item_body (IVolume ty name rest)] with (map item_body [IVolume ty name rest]).
    rewrite items_spec; [reflexivity|assumption|now constructor|now constructor].
  - reflexivity.
Qed.
