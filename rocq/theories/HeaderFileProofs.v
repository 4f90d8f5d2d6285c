(** * The header of an arbitrary file (C04, C05) *)
From Verif Require Import Lemmas PyTime Codec Utils Header StringData Targets Info Extra LnkFile Spec SpecHeader SpecTime.
From Verif Require Import EncProofs FormatProofs OutcomeProofs LayoutProofs CoreProofs HeaderProofs TimeProofs ApiProofs.

Lemma shown_time t shown : fits_i64 t -> snd (parse_filetime (enci64 t)) = Ok shown -> time_shown t shown.
Proof.
  intros HF H. repeat split.
  - intros ->. rewrite filetime_zero in H. now injection H as <-.
  - intros H0 HO. rewrite filetime_out_of_range in H by assumption. now injection H as <-.
  - intros H0 HR. destruct (filetime_in_range t HF H0 HR) as (dt & E & V & D). rewrite E in H. injection H as <-.
    exists dt. repeat split; try apply V; try assumption.
    intros HN. destruct (filetime_near_1970_reported t HF H0 HN) as (dt' & E' & _ & D'). rewrite E in E'. injection E' as <-. exact D'.
  - intros dt V -> H0 HN. rewrite filetime_round_trip in H by assumption. now injection H as <-.
Qed.

(** ** Bytes as encodings *)

Lemma enc16_num i b : i + 2 <= lenN b -> enc16 (num 2 i b) = takeN 2 (dropN i b).
Proof.
  intros H. apply le_val_inj.
  - rewrite lenN_takeN, lenN_dropN. unfold bytes in *. change (lenN (enc16 _)) with 2. lia.
  - apply le_val_enc16. unfold num. eapply N.lt_le_trans; [apply le_val_lt|]. rewrite lenN_takeN, lenN_dropN.
    unfold bytes in *. replace (N.min 2 _) with 2 by lia. reflexivity.
Qed.
Lemma num_lt w i b : num w i b < 256 ^ w.
Proof.
  unfold num. eapply N.lt_le_trans; [apply le_val_lt|]. apply N.pow_le_mono_r; [lia|]. rewrite lenN_takeN. lia.
Qed.
Lemma enc32_num i b : i + 4 <= lenN b -> enc32 (num 4 i b) = takeN 4 (dropN i b).
Proof.
  intros H. apply le_val_inj.
  - rewrite lenN_takeN, lenN_dropN. unfold bytes in *. change (lenN (enc32 _)) with 4. lia.
  - apply le_val_enc32. apply (num_lt 4).
Qed.
Lemma enc64_num i b : i + 8 <= lenN b -> enc64 (num 8 i b) = takeN 8 (dropN i b).
Proof.
  intros H. apply le_val_inj.
  - rewrite lenN_takeN, lenN_dropN. unfold bytes in *. change (lenN (enc64 _)) with 8. lia.
  - apply le_val_enc64. apply (num_lt 8).
Qed.
Lemma twos_signed32 n : n < 4294967296 -> twos 32 (signed 32 n) = n /\ fits_i32 (signed 32 n).
Proof.
  intros H. unfold twos, signed, fits_i32. change (2 ^ (32 - 1)) with 2147483648. change (2 ^ 32) with 4294967296.
  change (2 ^ 32)%Z with 4294967296%Z. destruct (N.ltb_spec n 2147483648); lia.
Qed.
Lemma twos_signed64 n : n < 18446744073709551616 -> twos 64 (signed 64 n) = n /\ fits_i64 (signed 64 n).
Proof.
  intros H. unfold twos, signed, fits_i64. change (2 ^ (64 - 1)) with 9223372036854775808.
  change (2 ^ 64) with 18446744073709551616. change (2 ^ 64)%Z with 18446744073709551616%Z.
  destruct (N.ltb_spec n 9223372036854775808); lia.
Qed.

Definition header_of (b : bytes) : shell_header :=
  ShellHeader (num 4 0 b) (slice 4 20 b) (num 4 20 b) (num 4 24 b) (signed 64 (num 8 28 b)) (signed 64 (num 8 36 b))
    (signed 64 (num 8 44 b)) (num 4 52 b) (signed 32 (num 4 56 b)) (num 4 60 b)
    (n2b (num 1 64 b)) (n2b (num 1 65 b)) (num 2 66 b) (num 4 68 b) (num 4 72 b).

Lemma one_byte i b : i + 1 <= lenN b -> [n2b (num 1 i b)] = takeN 1 (dropN i b).
Proof.
  intros H. apply le_val_inj.
  - rewrite lenN_takeN, lenN_dropN. unfold bytes in *. change (lenN [_]) with 1. lia.
  - pose proof (num_lt 1 i b) as HL. change (256 ^ 1) with 256 in HL. cbn [le_val]. rewrite b2n_n2b.
    rewrite N.mod_small by assumption. unfold num. lia.
Qed.
Lemma next_piece i w (b : bytes) : takeN w (dropN i b) ++ dropN (i + w) b = dropN i b.
Proof. rewrite <- dropN_dropN. apply take_drop. Qed.

Lemma header_whole_encoded b : 76 <= header_len b -> 76 <= lenN b ->
  wf_header (header_of b) /\ b = encode_header (header_of b) ++ dropN 76 b.
Proof.
  intros H1 H2. split.
  - unfold wf_header, header_of, fits32, fits16. cbn. pose proof (fun i => num_lt 4 i b) as B4. pose proof (num_lt 2 66 b) as B2.
    pose proof (fun i => num_lt 8 i b) as B8. change (256 ^ 4) with 4294967296 in B4. change (256 ^ 2) with 65536 in B2.
    change (256 ^ 8) with 18446744073709551616 in B8.
    repeat split; try apply B4; try apply B2; try assumption;
      try (apply twos_signed64, B8); try (apply twos_signed32, B4).
    rewrite lenN_slice. lia.
  - unfold encode_header, header_of. cbn [h_size h_clsid h_flags h_attrs h_ctime h_atime h_wtime h_fsize h_icon h_show h_key h_mods h_res1 h_res2 h_res3].
    unfold enci64, enci32. rewrite !(fun i => proj1 (twos_signed64 (num 8 i b) (num_lt 8 i b))).
    rewrite (proj1 (twos_signed32 (num 4 56 b) (num_lt 4 56 b))).
    change [n2b (num 1 64 b); n2b (num 1 65 b)] with ([n2b (num 1 64 b)] ++ [n2b (num 1 65 b)]).
    rewrite !enc64_num, !enc32_num, !enc16_num, !one_byte by lia.
    replace (slice 4 20 b) with (takeN 16 (dropN 4 b)) by reflexivity.
    rewrite <- !app_assoc.
    rewrite (next_piece 72 4), (next_piece 68 4), (next_piece 66 2), (next_piece 65 1), (next_piece 64 1), (next_piece 60 4),
      (next_piece 56 4), (next_piece 52 4), (next_piece 44 8), (next_piece 36 8), (next_piece 28 8), (next_piece 24 4),
      (next_piece 20 4), (next_piece 4 16), (next_piece 0 4). now rewrite dropN_0.
Qed.

(** A reported header is whole. *)
Lemma reported_whole b cp allow l all d : snd (lnk_init (FromBytes b) cp allow) = Ok l -> snd (get_json l all) = Ok d ->
  76 <= header_len b /\ 76 <= lenN b.
Proof.
  intros Hl Hd. apply init_header in Hl as (_ & _ & Hl).
  unfold get_json in Hd. apply snd_bind_Ok in Hd as (f & Hd & _). unfold full_json in Hd. apply snd_bind_Ok in Hd as (h & Hh & _).
  unfold header_dict in Hh. apply (fields_dget _ _ "reserved2" (n <- reserved2 (l_header l) ;; ret (PN n))) in Hh as (v & Hv & _); [|reflexivity].
  apply snd_bind_Ok in Hv as (n & Hn & _). unfold reserved2, must_be_N in Hn. apply snd_bind_Ok in Hn as (m & Hm & _).
  change 76 with (72 + 4) in Hm. rewrite unpack_u32_at, Hl, lenN_takeN in Hm.
  destruct (N.leb_spec (72 + 4) (N.min (header_len b) (lenN b))) as [L|L]; [|discriminate Hm]. unfold bytes in *. lia.
Qed.

Lemma every_header b cp allow l d :
  snd (lnk_init (FromBytes b) cp allow) = Ok l -> snd (get_json l true) = Ok d ->
  exists h rest c a w,
    wf_header h /\ b = encode_header h ++ rest
    /\ dget "header" d = Some (PDict (header_report h c a w))
    /\ time_shown (h_ctime h) c /\ time_shown (h_atime h) a /\ time_shown (h_wtime h) w.
Proof.
  intros Hl Hd. destruct (reported_whole _ _ _ _ _ _ Hl Hd) as [H1 H2].
  destruct (header_whole_encoded b H1 H2) as [HW HB]. set (h := header_of b) in *. set (rest := dropN 76 b) in *.
  clearbody h rest. subst b.
  destruct (header_reported_times h rest cp allow l d HW Hl Hd) as (c & a & w & HR & Hc & Ha & Hw).
  exists h, rest, c, a, w. split; [assumption|]. split; [reflexivity|]. split; [assumption|].
  repeat split; apply shown_time; auto; apply HW.
Qed.

Lemma shown_header h rest cp allow l d :
  wf_header h ->
  snd (lnk_init (FromBytes (encode_header h ++ rest)) cp allow) = Ok l -> snd (get_json l true) = Ok d ->
  exists c a w,
    dget "header" d = Some (PDict (header_report h c a w))
    /\ time_shown (h_ctime h) c /\ time_shown (h_atime h) a /\ time_shown (h_wtime h) w.
Proof.
  intros HW Hl Hd. destruct (header_reported_times h rest cp allow l d HW Hl Hd) as (c & a & w & HR & Hc & Ha & Hw).
  exists c, a, w. split; [assumption|]. split; [apply shown_time; [apply HW|assumption]|].
  split; (apply shown_time; [apply HW|assumption]).
Qed.

Lemma every_flags b cp allow l d h :
  snd (lnk_init (FromBytes b) cp allow) = Ok l -> snd (get_json l true) = Ok d ->
  dget "header" d = Some (PDict h) ->
  dget "r_link_flags" h = Some (PN (num 4 20 b))
  /\ dget "link_flags" h = Some (names_value (set_bits 0 link_flag_bits (num 4 20 b)))
  /\ dget "r_file_flags" h = Some (PN (num 4 24 b))
  /\ dget "file_flags" h = Some (names_value (set_bits 0 file_attribute_bits (num 4 24 b))).
Proof.
  intros Hl Hd Hh. destruct (reported_whole _ _ _ _ _ _ Hl Hd) as [H1 H2].
  destruct (header_whole_encoded b H1 H2) as [HW HB]. 
  destruct (header_reported_times (header_of b) (dropN 76 b) cp allow l d HW ltac:(now rewrite <- HB) Hd) as (c & a & w & HR & _).
  rewrite Hh in HR. injection HR as ->. repeat split.
Qed.

Lemma warned_time t : fits_i64 t -> exists w o, parse_filetime (enci64 t) = (w, Ok o) /\ time_warned t w.
Proof.
  intros HF. destruct (parse_filetime_total t HF) as (w & o & E). exists w, o. split; [assumption|].
  unfold time_warned. repeat split.
  - intros ->. rewrite filetime_zero in E. now injection E as <- _.
  - intros H0 HO. rewrite filetime_out_of_range in E by assumption. now injection E as <- _.
  - intros H0 HR. destruct (filetime_in_range t HF H0 HR) as (dt & E' & _). rewrite E' in E. now injection E as <- _.
  - unfold parse_filetime in E. rewrite unpack_enci64, bind_ret_l in E by assumption.
    destruct (t =? 0)%Z; [injection E as <- _; now left|].
    destruct (PyTime.fromtimestamp_utc _ _); injection E as <- _; [now left|now right].
Qed.
Lemma warned_header h rest cp allow l all :
  wf_header h -> snd (lnk_init (FromBytes (encode_header h ++ rest)) cp allow) = Ok l ->
  exists wc wa ww others,
    fst (get_json l all) = clsid_warning h ++ wc ++ wa ++ ww ++ size_warning h ++ reserved_warnings h ++ others
    /\ time_warned (h_ctime h) wc /\ time_warned (h_atime h) wa /\ time_warned (h_wtime h) ww.
Proof.
  intros HW Hl. destruct (warned_time (h_ctime h) ltac:(apply HW)) as (wc & c & Hc & Wc).
  destruct (warned_time (h_atime h) ltac:(apply HW)) as (wa & a & Ha & Wa).
  destruct (warned_time (h_wtime h) ltac:(apply HW)) as (ww & w & Hw & Ww).
  destruct (header_warned h rest cp allow l all wc wa ww c a w HW Hc Ha Hw Hl) as (others & E).
  exists wc, wa, ww, others. split; [exact E|]. split; [exact Wc|]. split; assumption.
Qed.
