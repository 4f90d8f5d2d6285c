(** * StringData sections and packed GUIDs (C11, C14-C16) *)
From Verif Require Import Lemmas Codec Utils Header StringData Targets Info Extra LnkFile Spec SpecText.
From Verif Require Import EncProofs FormatProofs OutcomeProofs LayoutProofs CoreProofs ApiProofs TextProofs ConstructProofs.

(** ** C11 *)

Lemma find_char_alphabet n : n < 85 -> find_char (nth (N.to_nat n) base85_alphabet 0) base_85 0 = Z.of_N n.
Proof.
  intros H. assert (A : forallb (fun i => Z.eqb (find_char (nth i base85_alphabet 0) base_85 0) (Z.of_nat i)) (seq 0 85) = true)
    by (vm_compute; reflexivity).
  rewrite forallb_forall in A. specialize (A (N.to_nat n)). rewrite in_seq in A.
  assert (E : Z.eqb (find_char (nth (N.to_nat n) base85_alphabet 0) base_85 0) (Z.of_nat (N.to_nat n)) = true) by (apply A; lia).
  apply Z.eqb_eq in E. rewrite E. lia.
Qed.
Lemma mod85 w p : w / p mod 85 < 85.
Proof. apply N.mod_lt. discriminate. Qed.
Lemma quad_to_hex_word w : w < 4294967296 -> quad_to_hex (base85_word w) = ret (hexX 8 w).
Proof.
  intros H. unfold quad_to_hex, base85_word. cbn [map quad_loop nth_error Nat.ltb Nat.leb].
  rewrite !find_char_alphabet by apply mod85. rewrite bind_ret_l. f_equal.
  match goal with |- hexX_Z 8 ?z = _ => assert (E : z = Z.of_N w) end.
  { rewrite N.div_1_r.
    pose proof (N.div_mod w 85 ltac:(lia)) as D1. pose proof (N.div_mod (w / 85) 85 ltac:(lia)) as D2.
    pose proof (N.div_mod (w / 7225) 85 ltac:(lia)) as D3. pose proof (N.div_mod (w / 614125) 85 ltac:(lia)) as D4.
    rewrite (N.div_div w 85 85) in D2 by lia. rewrite (N.div_div w 7225 85) in D3 by lia. rewrite (N.div_div w 614125 85) in D4 by lia.
    change (85 * 85) with 7225 in D2. change (7225 * 85) with 614125 in D3. change (614125 * 85) with 52200625 in D4.
    assert (M : w / 52200625 mod 85 = w / 52200625) by (apply N.mod_small; apply N.div_lt_upper_bound; lia).
    rewrite M. clear M.
    remember (w / 52200625) as q4 eqn:E4. remember (w / 614125) as q3 eqn:E3. remember (w / 7225) as q2 eqn:E2.
    remember (w / 85) as q1 eqn:E1. remember (w mod 85) as r0 eqn:R0. remember (q1 mod 85) as r1 eqn:R1.
    remember (q2 mod 85) as r2 eqn:R2. remember (q3 mod 85) as r3 eqn:R3. clear E1 E2 E3 E4 R0 R1 R2 R3. clear H. lia. }
  rewrite E. unfold hexX_Z. replace (Z.of_N w <? 0)%Z with false by lia. now rewrite Zabs2N.id.
Qed.
Lemma base85_word_length w : lenN (base85_word w) = 5. Proof. reflexivity. Qed.
Lemma hexX_word a b c d : hexX 8 (le_val [a; b; c; d]) = flat_map hex_of_byte [d; c; b; a].
Proof.
  rewrite le_be_val. cbn [rev app]. rewrite <- (hexX_be_val [d; c; b; a]) by discriminate. reflexivity.
Qed.
Lemma packed_round_trip g : lenN g = 16 -> parse_packed_uuid (packed_guid g) = ret (guid_text g).
Proof.
  intros H. unfold packed_guid. cbn [flat_map]. rewrite app_nil_r. unfold parse_packed_uuid.
  set (w1 := num 4 0 g). set (w2 := num 4 4 g). set (w3 := num 4 8 g). set (w4 := num 4 12 g).
  assert (L : forall i, num 4 i g < 4294967296) by (intros i; apply num_lt).
  pose proof (L 0). pose proof (L 4). pose proof (L 8). pose proof (L 12).
  change (slice 0 5 _) with (base85_word w1). change (slice 5 10 _) with (base85_word w2).
  change (slice 10 15 _) with (base85_word w3). change (slice 15 20 _) with (base85_word w4).
  rewrite !quad_to_hex_word by assumption. rewrite !bind_ret_l. cbn zeta.
  destruct (sixteen g H) as (b0 & b1 & b2 & b3 & b4 & b5 & b6 & b7 & b8 & b9 & b10 & b11 & b12 & b13 & b14 & b15 & ->).
  change w1 with (le_val [b0; b1; b2; b3]). change w2 with (le_val [b4; b5; b6; b7]).
  change w3 with (le_val [b8; b9; b10; b11]). change w4 with (le_val [b12; b13; b14; b15]).
  rewrite !hexX_word. f_equal.
Qed.

(** ** StringData *)

Lemma holds_num16 raw off n : holds raw off (enc16 n) -> fits16 n -> num 2 off raw = n.
Proof.
  intros H F. apply holds_drop in H as [after H]. unfold num. rewrite H.
  rewrite (takeN_app_exact 2 (enc16 n)) by reflexivity. now apply le_val_enc16.
Qed.

Lemma walk_of_layout b fs l p :
  announced b fs l -> counted (char_width b) fs l -> holds b p (encode_strings l) ->
  string_walk b fs p (map (fun e => (fst e, snd (snd e))) (keyed fs l)) (p + lenN (encode_strings l)) false.
Proof.
  intros HA. revert p. induction HA as [|[[i name] lim] o fs l HB HA IH]; intros p HC HH.
  - cbn. rewrite N.add_0_r. constructor.
  - inversion HC as [|? ? ? ? HC1 HC2]; subst. cbn [fst snd] in *. destruct o as [[n body]|].
    + destruct HC1 as [F HL]. cbn [keyed map fst snd]. unfold encode_strings in *. cbn [flat_map] in *.
      unfold encode_string in *. cbn [fst snd] in *.
      rewrite <- app_assoc in HH. apply holds_app in HH as [H1 HH]. apply holds_app in HH as [H2 H3].
      rewrite lenN_enc16 in *.
      pose proof (holds_num16 _ _ _ H1 F) as HN. pose proof (holds_len _ _ _ H1) as HL1. rewrite lenN_enc16 in HL1.
      assert (ES : body = slice (p + 2) (p + 2 + lenN body) b) by (symmetry; now apply holds_slice).
      match goal with H : holds b (p + 2 + lenN body) ?t |- string_walk _ _ _ _ ?e _ =>
        replace e with (p + 2 + lenN body + lenN t) by (rewrite !lenN_app, lenN_enc16; lia); set (tail := t) in * end.
      rewrite ES at 1. apply string_found; [assumption|lia|now rewrite HN|]. apply IH; assumption.
    + cbn [keyed]. unfold encode_strings in *. cbn [flat_map app] in *. apply string_absent; [assumption|]. now apply IH.
Qed.

Lemma strings_of_file b cp allow l d found e cut :
  usable cp -> snd (lnk_init (FromBytes b) cp allow) = Ok l -> snd (get_json l true) = Ok d ->
  string_walk b string_fields (info_end b) found e cut ->
  dget "data" d = Some (PDict (map (fun f => (fst f, PStr (stored_text (bit_set 7 b) cp (snd f)))) found))
  /\ string_data_end b = e.
Proof.
  intros Hcp Hl Hd HW. destruct (init_constructed b cp allow l Hcp Hl) as [HC _].
  destruct (construct_full b cp allow Hcp HC) as (l' & found' & cut' & wx & HI & HW' & HD & _).
  rewrite HI in Hl. injection Hl as ->. destruct (string_walk_det _ _ _ _ _ _ _ _ _ HW HW') as (-> & -> & ->).
  split; [|reflexivity]. destruct (report_sections l d Hd) as (h & i & e & _ & _ & _ & _ & _ & HS & _).
  rewrite HS, HD. reflexivity.
Qed.

Lemma strings_with_counts b cp allow l d strings :
  usable cp -> snd (lnk_init (FromBytes b) cp allow) = Ok l -> snd (get_json l true) = Ok d ->
  announced b string_fields strings -> counted (char_width b) string_fields strings ->
  holds b (info_end b) (encode_strings strings) ->
  dget "data" d = Some (PDict (map (fun f => (fst f, PStr (stored_text (bit_set 7 b) cp (snd (snd f)))))
                                   (keyed string_fields strings)))
  /\ string_data_end b = info_end b + lenN (encode_strings strings).
Proof.
  intros Hcp Hl Hd HA HC HH. pose proof (walk_of_layout _ _ _ _ HA HC HH) as HW.
  destruct (strings_of_file _ _ _ _ _ _ _ _ Hcp Hl Hd HW) as [-> ->]. split; [|reflexivity].
  rewrite map_map. reflexivity.
Qed.

Lemma keyed_map {A B} (f : A -> B) fs l : keyed fs (map (option_map f) l) = map (fun e => (fst e, f (snd e))) (keyed fs l).
Proof.
  revert l; induction fs as [|[[i name] lim] fs IH]; intros [|[a|] l]; cbn; try reflexivity; rewrite IH; reflexivity.
Qed.
Lemma announced_map {A B} (f : A -> B) b fs l : announced b fs l -> announced b fs (map (option_map f) l).
Proof. induction 1 as [|x o fs l H1 H2 IH]; constructor; [destruct o; assumption|assumption]. Qed.

Lemma stored_unicode t cp : Forall scalar t -> no_nul t -> stored_text true cp (utf16 t) = t.
Proof.
  intros H1 H2. pose proof (wide_text_all t H1 H2) as E. rewrite read_unicode_field in E. unfold ret in E. injection E as _ E. exact E.
Qed.
Lemma utf16_units_double t : lenN (utf16 t) = utf16_units t * 2.
Proof.
  unfold utf16_units. pose proof (utf16_even t) as H. rewrite N.even_spec in H. destruct H as [k ->]. lia.
Qed.

Lemma counted_of {A} (fits : bool -> A -> Prop) (enc : A -> N * bytes) w (fs : list (N * string * bool)) l :
  (forall lim a, fits lim a -> fits16 (fst (enc a)) /\ lenN (snd (enc a)) = chars_read lim (fst (enc a)) * w) ->
  Forall2 (fun (f : N * string * bool) o => match o with Some a => fits (snd f) a | None => True end) fs l ->
  counted w fs (map (option_map enc) l).
Proof.
  intros HE. induction 1 as [|f o fs l H1 H2 IH]; constructor; [|assumption].
  destruct o as [a|]; [|exact I]. cbn [option_map]. specialize (HE _ _ H1). destruct (enc a). exact HE.
Qed.

Lemma strings_unicode b cp allow l d texts :
  usable cp -> snd (lnk_init (FromBytes b) cp allow) = Ok l -> snd (get_json l true) = Ok d ->
  bit_set 7 b = true -> announced b string_fields texts -> fields_fit unicode_fits texts ->
  holds b (info_end b) (encode_strings (map (option_map unicode_string) texts)) ->
  dget "data" d = Some (PDict (map (fun f => (fst f, PStr (snd f))) (keyed string_fields texts)))
  /\ string_data_end b = info_end b + lenN (encode_strings (map (option_map unicode_string) texts)).
Proof.
  intros Hcp Hl Hd HU HA HF HH.
  assert (HC : counted (char_width b) string_fields (map (option_map unicode_string) texts)).
  { unfold char_width. rewrite HU. eapply counted_of; [|exact HF]. intros lim t (_ & _ & H1 & H2). cbn [fst snd unicode_string].
    split; [assumption|]. rewrite utf16_units_double. unfold chars_read. destruct lim; [|reflexivity]. specialize (H2 eq_refl). lia. }
  destruct (strings_with_counts b cp allow l d _ Hcp Hl Hd (announced_map _ _ _ _ HA) HC HH) as [-> ->].
  split; [|reflexivity]. do 2 f_equal. rewrite HU, keyed_map, map_map. cbn [fst snd unicode_string].
  clear -HF. unfold fields_fit in HF. revert texts HF.
  generalize string_fields. intros fs texts HF. induction HF as [|[[i name] lim] [t|] fs l H1 H2 IH]; cbn [keyed map fst snd]; [reflexivity| |assumption].
  rewrite IH. destruct H1 as (H1 & H3 & _). rewrite stored_unicode by assumption. reflexivity.
Qed.

Lemma strings_page b cp allow l d bodies :
  usable cp -> snd (lnk_init (FromBytes b) cp allow) = Ok l -> snd (get_json l true) = Ok d ->
  bit_set 7 b = false -> announced b string_fields bodies -> fields_fit page_fits bodies ->
  holds b (info_end b) (encode_strings (map (option_map page_string) bodies)) ->
  dget "data" d = Some (PDict (map (fun f => (fst f, PStr (field_text cp (snd f)))) (keyed string_fields bodies)))
  /\ string_data_end b = info_end b + lenN (encode_strings (map (option_map page_string) bodies)).
Proof.
  intros Hcp Hl Hd HU HA HF HH.
  assert (HC : counted (char_width b) string_fields (map (option_map page_string) bodies)).
  { unfold char_width. rewrite HU. eapply counted_of; [|exact HF]. intros lim t (H1 & H2). cbn [fst snd page_string].
    split; [assumption|]. unfold chars_read. destruct lim; [specialize (H2 eq_refl)|]; lia. }
  destruct (strings_with_counts b cp allow l d _ Hcp Hl Hd (announced_map _ _ _ _ HA) HC HH) as [-> ->].
  split; [|reflexivity]. do 2 f_equal. rewrite HU, keyed_map, map_map. reflexivity.
Qed.

(** ** C15: the limit *)

Lemma utf16_events_length b : (2 * length (utf16_events b) <= length b + 1)%nat.
Proof.
  remember (length b) as n eqn:En. revert b En. induction n as [n IH] using lt_wf_ind. intros b ->.
  destruct b as [|a0 [|a1 r]]; cbn [utf16_events length]; [lia|lia|].
  destruct (negb _); [|destruct (negb _)].
  - cbn [length]. specialize (IH (length r) ltac:(cbn; lia) r eq_refl). lia.
  - cbn [length]. specialize (IH (length r) ltac:(cbn; lia) r eq_refl). lia.
  - destruct r as [|c0 [|c1 r']]; [cbn [length]; lia|cbn [length]; lia|].
    destruct (is_low _).
    + cbn [length]. specialize (IH (length r') ltac:(cbn; lia) r' eq_refl). lia.
    + cbn [length]. specialize (IH (length (c0 :: c1 :: r')) ltac:(cbn; lia) (c0 :: c1 :: r') eq_refl). cbn [length] in *. lia.
Qed.
Lemma wide_text_length field : 2 * lenN (wide_text field) <= lenN field + 1.
Proof.
  assert (L : (length (before_nul_unit field) <= length field)%nat).
  { destruct (before_nul_unit_cases field) as [E|[r E]]; rewrite E at 2; [lia|]. rewrite app_length. lia. }
  pose proof (utf16_events_length (before_nul_unit field)) as HL.
  unfold wide_text, utf16_strict, utf16_replace, replaced.
  destruct (all_some _) as [t|] eqn:E.
  - apply all_some_inv in E. rewrite E, map_length in HL. unfold lenN. lia.
  - rewrite lenN_map. unfold lenN. lia.
Qed.
Lemma string_walk_limited b fs p found e cut name field :
  string_walk b fs p found e cut -> In (name, field) found ->
  (forall f, In f fs -> snd (fst f) = name -> snd f = true) -> lenN field <= 260 * char_width b.
Proof.
  induction 1 as [|i nm lim fs p found e cut HB HW IH| |i nm lim fs p n found e cut HB HL HN HW IH]; intros HI HF;
    [destruct HI|apply IH; [assumption|intros f Hin; apply HF; now right]|destruct HI|].
  destruct HI as [[= -> <-]|HI].
  - rewrite lenN_slice. assert (lim = true) by (apply (HF (i, name, lim)); [now left|reflexivity]). subst lim n.
    unfold chars_read. nia.
  - apply IH; [assumption|]. intros f Hin. apply HF. now right.
Qed.

Lemma limited_unicode b cp allow l d name t :
  usable cp -> snd (lnk_init (FromBytes b) cp allow) = Ok l -> snd (get_json l true) = Ok d ->
  bit_set 7 b = true -> In name ["description"; "relative_path"; "working_directory"]%string ->
  (exists data, dget "data" d = Some (PDict data) /\ dget name data = Some (PStr t)) ->
  lenN t <= 260.
Proof.
  intros Hcp Hl Hd HU HN (data & HD & HT). destruct (init_constructed b cp allow l Hcp Hl) as [HC _].
  destruct (construct_full b cp allow Hcp HC) as (l' & found & cut & wx & HI & HW & _).
  destruct (strings_of_file _ _ _ _ _ _ _ _ Hcp Hl Hd HW) as [HD' _]. rewrite HD in HD'. injection HD' as ->.
  assert (HG : exists field, In (name, field) found /\ t = stored_text (bit_set 7 b) cp field).
  { clear -HT. induction found as [|[k f] found IH]; [discriminate|]. cbn [map dget fst snd] in HT.
    destruct (String.eqb name k) eqn:E.
    - apply String.eqb_eq in E. subst k. injection HT as <-. exists f. split; [now left|reflexivity].
    - destruct (IH HT) as (g & Hg & Ht). exists g. split; [now right|assumption]. }
  destruct HG as (field & Hin & ->). rewrite HU. cbn [stored_text].
  pose proof (wide_text_length field).
  assert (lenN field <= 260 * char_width b).
  { eapply string_walk_limited; [exact HW|exact Hin|]. intros f Hf. unfold string_fields in Hf. cbn in Hf.
    repeat match goal with H : _ \/ _ |- _ => destruct H as [H|H] end; subst; try contradiction; try reflexivity;
      cbn in *; intros Hn; subst; exfalso; repeat match goal with H : _ \/ _ |- _ => destruct H as [H|H] end; try discriminate; auto. }
  unfold char_width in *. rewrite HU in *. lia.
Qed.

(** ** C16: truncation *)

Lemma not_decode_other u cp f : ~ In WStringData (entry_warning u cp f).
Proof.
  unfold entry_warning, stored_warning, wide_warning, field_warning, page_warning. destruct u.
  - destruct (utf16_strict _); cbn; intuition discriminate.
  - destruct (before_nul _); [intros []|]. destruct (strict _ _); [intros []|]. destruct (utf8_strict _); cbn; intuition discriminate.
Qed.
Lemma walk_warnings_kind r w : walk_warnings r w -> ~ In WStringData w.
Proof. induction 1; cbn; intuition discriminate. Qed.

Lemma walk_keys b fs p found e cut :
  string_walk b fs p found e cut ->
  exists rest, map (fun f => snd (fst f)) (filter (fun f : N * string * bool => bit_set (fst (fst f)) b) fs) = map fst found ++ rest
    /\ (cut = false -> rest = []) /\ (cut = true -> rest <> []).
Proof.
  induction 1 as [|? ? ? ? ? ? ? ? HB HW (rest & HE & H1 & H2)|? ? ? ? ? HB HL|? ? ? ? ? ? ? ? ? HB HL HN HW (rest & HE & H1 & H2)].
  - exists []. cbn. repeat split; [discriminate].
  - exists rest. cbn [filter fst snd]. rewrite HB. auto.
  - eexists. cbn [filter fst snd]. rewrite HB. cbn [map fst snd app]. repeat split; discriminate.
  - exists rest. cbn [filter fst snd]. rewrite HB. cbn [map fst snd app]. rewrite HE. auto.
Qed.

Lemma strings_truncated b cp allow l d :
  usable cp -> snd (lnk_init (FromBytes b) cp allow) = Ok l -> snd (get_json l true) = Ok d ->
  exists data rest,
    dget "data" d = Some (PDict data)
    /\ announced_keys b = map fst data ++ rest
    /\ (In WStringData (fst (lnk_init (FromBytes b) cp allow)) <-> rest <> []).
Proof.
  intros Hcp Hl Hd. destruct (init_constructed b cp allow l Hcp Hl) as [HC _].
  destruct (construct_full b cp allow Hcp HC) as (l' & found & cut & wx & HI & HW & _ & HX).
  destruct (strings_of_file _ _ _ _ _ _ _ _ Hcp Hl Hd HW) as [HD _].
  destruct (walk_keys _ _ _ _ _ _ HW) as (rest & HE & H1 & H2).
  eexists. exists rest. split; [exact HD|]. split.
  - unfold announced_keys. rewrite HE, map_map. reflexivity.
  - rewrite HI. cbn [fst]. rewrite !in_app_iff. split.
    + intros H. apply H2. destruct cut; [reflexivity|exfalso].
      repeat match goal with H : _ \/ _ |- _ => destruct H as [H|H] end.
      * unfold size_warning_of in H. destruct (_ =? _); cbn in H; intuition discriminate.
      * unfold size_warning_of in H. destruct (_ =? _); cbn in H; intuition discriminate.
      * unfold info_warning in H. destruct (_ && _); cbn in H; intuition discriminate.
      * apply in_flat_map in H as (f & _ & H). now apply not_decode_other in H.
      * destruct H.
      * now apply walk_warnings_kind in HX.
    + intros H. destruct cut; [right; right; right; right; left; now left|]. exfalso. apply H, H1. reflexivity.
Qed.

Lemma string_walk_end_cut b fs p found e cut : string_walk b fs p found e cut -> cut = true -> lenN b < e + 2.
Proof. induction 1; intros HC; try discriminate; auto. Qed.
Lemma truncated_accepted b cp allow found e :
  usable cp -> 24 <= header_len b -> 24 <= lenN b -> (has_id_list b = true -> header_len b + 2 <= lenN b) ->
  string_walk b string_fields (info_end b) found e true ->
  exists l, snd (lnk_init (FromBytes b) cp allow) = Ok l
    /\ sd_data (l_string_data l) = map (fun f => (fst f, PStr (stored_text (bit_set 7 b) cp (snd f)))) found.
Proof.
  intros Hcp H1 H2 H3 HW. destruct (string_data_full b cp Hcp H1 H2) as (found' & cut' & HW' & _).
  destruct (string_walk_det _ _ _ _ _ _ _ _ _ HW HW') as (<- & -> & <-).
  assert (HC : constructible b).
  { split; [assumption|]. split; [assumption|]. split; [assumption|]. intros blocks r HB.
    pose proof (string_walk_end_cut _ _ _ _ _ _ HW eq_refl) as HL.
    inversion HB; subst; [constructor| |]; rewrite lenN_dropN in *; lia. }
  destruct (construct_full b cp allow Hcp HC) as (l & found2 & cut2 & wx & HI & HW2 & HD & _).
  destruct (string_walk_det _ _ _ _ _ _ _ _ _ HW HW2) as (<- & _ & _). exists l. rewrite HI. split; [reflexivity|exact HD].
Qed.
