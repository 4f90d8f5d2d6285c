(** * Header: layout, flags, hot key (C04-C07, C10) *)
From Verif Require Import Lemmas Codec Utils Header Targets Info Extra StringData LnkFile Spec SpecHeader.
From Verif Require Import EncProofs FormatProofs LayoutProofs CoreProofs.

(** ** Flags *)

Lemma set_bits_table names i n :
  flag_names (combine (map (fun k => 2 ^ N.of_nat k) (seq i (length names))) names) n
  = set_bits (N.of_nat i) names n.
Proof.
  revert i; induction names as [|s r IH]; intros i; [reflexivity|].
  cbn [length seq map combine set_bits]. unfold flag_names in *. cbn [filter fst].
  rewrite land_pow2_eq0. replace (N.of_nat i + 1) with (N.of_nat (S i)) by lia. rewrite <- IH.
  destruct (N.testbit n (N.of_nat i)); reflexivity.
Qed.
Lemma link_flag_names n : flag_names LINK_FLAG_MASK n = set_bits 0 link_flag_bits n.
Proof. rewrite <- (set_bits_table link_flag_bits 0). reflexivity. Qed.
Lemma file_flag_names n : flag_names FILE_FLAG_MASK n = set_bits 0 file_attribute_bits n.
Proof. rewrite <- (set_bits_table file_attribute_bits 0). reflexivity. Qed.

Lemma set_bits_in names i n s :
  In s (set_bits i names n) <-> exists k, nth_error names k = Some s /\ N.testbit n (i + N.of_nat k) = true.
Proof.
  revert i; induction names as [|x r IH]; intros i; cbn [set_bits].
  - split; [intros []|intros (k & H & _); destruct k; discriminate].
  - rewrite in_app_iff, IH. split.
    + intros [H|(k & H & B)].
      * destruct (N.testbit n i) eqn:E; [|destruct H]. destruct H as [<-|[]].
        exists 0%nat. split; [reflexivity|]. now rewrite N.add_0_r.
      * exists (S k). split; [assumption|]. now replace (i + N.of_nat (S k)) with (i + 1 + N.of_nat k) by lia.
    + intros ([|k] & H & B).
      * left. cbn in H. injection H as ->. rewrite N.add_0_r in B. rewrite B. now left.
      * right. exists k. split; [assumption|]. now replace (i + 1 + N.of_nat k) with (i + N.of_nat (S k)) by lia.
Qed.
Lemma set_bits_NoDup names i n : NoDup names -> NoDup (set_bits i names n).
Proof.
  revert i; induction names as [|x r IH]; intros i H; cbn [set_bits]; [constructor|].
  inversion H as [|? ? Hx Hr]; subst. destruct (N.testbit n i); cbn [app]; [|now apply IH].
  constructor; [|now apply IH]. intros HI. apply set_bits_in in HI as (k & Hk & _).
  apply Hx. eapply nth_error_In; eassumption.
Qed.
Fixpoint nodupb (l : list string) : bool :=
  match l with [] => true | s :: r => negb (existsb (String.eqb s) r) && nodupb r end.
Lemma nodupb_ok l : nodupb l = true -> NoDup l.
Proof.
  induction l as [|s r IH]; cbn; [constructor|]. rewrite andb_true_iff, negb_true_iff.
  intros [H1 H2]. constructor; [|now apply IH]. intros HI.
  assert (existsb (String.eqb s) r = true); [|congruence].
  apply existsb_exists. exists s. split; [assumption|apply String.eqb_refl].
Qed.

(** A name is listed iff its bit is set. *)
Lemma link_flag_listed n i s :
  nth_error link_flag_bits i = Some s -> (In s (set_bits 0 link_flag_bits n) <-> N.testbit n (N.of_nat i) = true).
Proof.
  intros H. rewrite set_bits_in. split.
  - intros (k & Hk & B). rewrite N.add_0_l in B.
    assert (k = i); [|now subst].
    pose proof (nodupb_ok link_flag_bits eq_refl) as ND. rewrite NoDup_nth_error in ND.
    apply ND; [|congruence]. apply nth_error_Some. congruence.
  - intros B. exists i. now rewrite N.add_0_l.
Qed.
Lemma file_flag_listed n i s :
  nth_error file_attribute_bits i = Some s -> (In s (set_bits 0 file_attribute_bits n) <-> N.testbit n (N.of_nat i) = true).
Proof.
  intros H. rewrite set_bits_in. split.
  - intros (k & Hk & B). rewrite N.add_0_l in B.
    assert (k = i); [|now subst].
    pose proof (nodupb_ok file_attribute_bits eq_refl) as ND. rewrite NoDup_nth_error in ND.
    apply ND; [|congruence]. apply nth_error_Some. congruence.
  - intros B. exists i. now rewrite N.add_0_l.
Qed.

(** ** Hot key *)

Lemma modifier_table b : option_map s2t (assocN (b2n b) HOTKEY_VALUES_HIGH) = modifier_text (b2n b).
Proof.
  pose proof (forall_bytes (fun b => match option_map s2t (assocN (b2n b) HOTKEY_VALUES_HIGH), modifier_text (b2n b) with
                                     | Some a, Some b => text_eqb a b | None, None => true | _, _ => false end)
                eq_refl b) as H. cbv beta in H.
  destruct (option_map _ _), (modifier_text _); try discriminate; [apply text_eqb_eq in H; now subst|reflexivity].
Qed.
Lemma key_table b : option_map s2t (assocN (b2n b) HOTKEY_VALUES_LOW) = key_text (b2n b).
Proof.
  pose proof (forall_bytes (fun b => match option_map s2t (assocN (b2n b) HOTKEY_VALUES_LOW), key_text (b2n b) with
                                     | Some a, Some b => text_eqb a b | None, None => true | _, _ => false end)
                eq_refl b) as H. cbv beta in H.
  destruct (option_map _ _), (key_text _); try discriminate; [apply text_eqb_eq in H; now subst|reflexivity].
Qed.
Lemma low_hex_byte b : hexx 2 (b2n b) = low_hex b.
Proof.
  apply text_eqb_eq. revert b. apply forall_bytes. vm_compute. reflexivity.
Qed.
Lemma bytes_hex_low l : bytes_hex l = flat_map low_hex l.
Proof. apply flat_map_ext. apply low_hex_byte. Qed.

Definition low_hex_dec (t : text) : option byte := find (fun x => text_eqb (low_hex x) t) all_bytes.
Definition low_hex_dec_ok (x : byte) : bool :=
  match low_hex_dec (low_hex x) with Some y => Byte.eqb x y | None => false end.
Lemma low_hex_dec_all x : low_hex_dec_ok x = true.
Proof. apply forall_bytes. vm_compute. reflexivity. Qed.
Lemma low_hex_inj a b : low_hex a = low_hex b -> a = b.
Proof.
  intros H. pose proof (low_hex_dec_all a) as Ha. pose proof (low_hex_dec_all b) as Hb.
  unfold low_hex_dec_ok in Ha, Hb. rewrite H in Ha. destruct (low_hex_dec (low_hex b)); [|discriminate].
  apply byte_eqb_eq in Ha, Hb. congruence.
Qed.

Lemma hot_key_text_inj k1 m1 k2 m2 : hot_key_text k1 m1 = hot_key_text k2 m2 -> k1 = k2 /\ m1 = m2.
Proof.
  unfold hot_key_text.
  assert (FIN : low_hex k1 ++ low_hex m1 = low_hex k2 ++ low_hex m2 -> k1 = k2 /\ m1 = m2).
  { intros H. apply app_inj_length in H as [H1 H2]; [|reflexivity]. split; now apply low_hex_inj. }
  assert (LEN : forall (m k hex : text), length (m ++ s2t " - " ++ k ++ s2t " {0x" ++ hex ++ s2t "}") <> 4%nat).
  { intros. rewrite !app_length. cbn. lia. }
  destruct (modifier_text (b2n m1)), (key_text (b2n k1)), (modifier_text (b2n m2)), (key_text (b2n k2)); intros H;
    try (now apply FIN);
    try (exfalso; apply (f_equal (@length N)) in H; revert H; first [apply LEN | intros H; symmetry in H; revert H; apply LEN]).
  rewrite !app_assoc in H. apply app_inv_tail in H.
  rewrite <- !(app_assoc _ (low_hex _)) in H.
  apply app_inj_length_r in H as [_ H]; [now apply FIN|reflexivity].
Qed.

(** ** The whole header *)

Lemma header_piece h rest i j :
  wf_header h -> j <= 76 -> slice i j (takeN (h_size h) (encode_header h ++ rest)) = slice i j (encode_header h).
Proof.
  intros (Hs & _ & Hc & _) Hj. rewrite slice_takeN_le by lia. apply slice_within.
  unfold encode_header. rewrite !lenN_app, Hc. autorewrite with lens. lia.
Qed.

Lemma must_be_N_ret name e n : must_be_N name e (ret n) = (must_be name (n =? e), Ok n).
Proof. unfold must_be_N, must_be. rewrite bind_ret_l. destruct (n =? e); reflexivity. Qed.
Lemma must_be_text_ret name e t : must_be_text name e (ret t) = (must_be name (text_eqb t e), Ok t).
Proof. unfold must_be_text, must_be. rewrite bind_ret_l. destruct (text_eqb t e); reflexivity. Qed.

Lemma fields_cons k m w v r wr d :
  m = (w, Ok v) -> fields r = (wr, Ok d) -> fields ((k, m) :: r) = (w ++ wr, Ok ((k, v) :: d)).
Proof. intros -> H. cbn [fields]. rewrite H, !bind_Ok. cbn. now rewrite app_nil_r. Qed.
Lemma bind_val {A B} (m : M A) w a (f : A -> B) : m = (w, Ok a) -> (x <- m ;; ret (f x)) = (w, Ok (f a)).
Proof. intros ->. rewrite bind_Ok. cbn. now rewrite app_nil_r. Qed.

Ltac header_field := rewrite header_piece by (assumption || lia); unfold encode_header; slices.

Section Header.
  Variables (h : shell_header) (rest : bytes).
  Hypothesis Hwf : wf_header h.
  Let raw := takeN (h_size h) (encode_header h ++ rest).

  Lemma lenN_clsid : lenN (h_clsid h) = 16. Proof. apply Hwf. Qed.
  Local Hint Resolve lenN_clsid : lens.

  Ltac wf := pose proof Hwf as (? & ? & ? & ? & ? & ? & ? & ? & ? & ? & ? & ? & ? & ?).

  Lemma hp_size : header_size raw = (size_warning h, Ok (h_size h)).
  Proof. wf. unfold header_size, raw. header_field. rewrite unpack_enc32 by assumption. apply must_be_N_ret. Qed.
  Lemma hp_clsid : link_cls_id raw = (clsid_warning h, Ok (guid_text (h_clsid h))).
  Proof. wf. unfold link_cls_id, raw. header_field. rewrite parse_uuid_guid by assumption. apply must_be_text_ret. Qed.
  Lemma hp_flags : r_link_flags raw = ret (h_flags h).
  Proof. wf. unfold r_link_flags, raw. header_field. now apply unpack_enc32. Qed.
  Lemma hp_attrs : r_file_flags raw = ret (h_attrs h).
  Proof. wf. unfold r_file_flags, raw. header_field. now apply unpack_enc32. Qed.
  Lemma hp_ctime : creation_time raw = parse_filetime (enci64 (h_ctime h)).
  Proof. wf. unfold creation_time, raw. header_field. reflexivity. Qed.
  Lemma hp_atime : access_time raw = parse_filetime (enci64 (h_atime h)).
  Proof. wf. unfold access_time, raw. header_field. reflexivity. Qed.
  Lemma hp_wtime : write_time raw = parse_filetime (enci64 (h_wtime h)).
  Proof. wf. unfold write_time, raw. header_field. reflexivity. Qed.
  Lemma hp_fsize : file_size raw = ret (h_fsize h).
  Proof. wf. unfold file_size, raw. header_field. now apply unpack_enc32. Qed.
  Lemma hp_icon : icon_index raw = ret (h_icon h).
  Proof. wf. unfold icon_index, raw. header_field. now apply unpack_enci32. Qed.
  Lemma hp_show : window_style raw = ret (show_text (h_show h)).
  Proof.
    wf. unfold window_style, raw. header_field. unfold unpack_i32. rewrite unpack_le_ok by reflexivity.
    rewrite le_val_enc32 by assumption. rewrite !bind_ret_l. unfold show_text, signed.
    change (2 ^ (32 - 1)) with 2147483648. change (2 ^ 32) with 4294967296.
    destruct (h_show h <? 2147483648) eqn:E.
    - replace (Z.of_N (h_show h) <? 0)%Z with false by lia. rewrite N2Z.id.
      unfold WINDOW_STYLES. cbn [assocN].
      destruct (h_show h =? 1) eqn:E1; [replace (h_show h =? 3) with false by lia; replace (h_show h =? 7) with false by lia; reflexivity|].
      destruct (h_show h =? 3); [reflexivity|]. destruct (h_show h =? 7); reflexivity.
    - replace (Z.of_N (h_show h) - Z.of_N 4294967296 <? 0)%Z with true by (unfold fits32 in *; lia).
      replace (h_show h =? 3) with false by lia; replace (h_show h =? 7) with false by lia. reflexivity.
  Qed.
  Lemma hp_hot_key : hot_key raw = ret (hot_key_text (h_key h) (h_mods h)).
  Proof.
    wf. unfold hot_key, raw. header_field. unfold hot_key_text.
    rewrite <- modifier_table, <- key_table, bytes_hex_low. cbn [flat_map]. rewrite app_nil_r.
    destruct (assocN (b2n (h_mods h)) _), (assocN (b2n (h_key h)) _); reflexivity.
  Qed.
  Lemma hp_raw_hot_key : raw_hot_key raw = ret (b2n (h_key h) + 256 * b2n (h_mods h)).
  Proof.
    wf. unfold raw_hot_key, raw. header_field. unfold unpack_u16. rewrite unpack_le_ok by reflexivity.
    cbn [le_val]. do 2 f_equal. lia.
  Qed.
  Lemma hp_link_flags : link_flags raw = ret (set_bits 0 link_flag_bits (h_flags h)).
  Proof. unfold link_flags. rewrite hp_flags, bind_ret_l, link_flag_names. reflexivity. Qed.
  Lemma hp_file_flags : file_flags raw = ret (set_bits 0 file_attribute_bits (h_attrs h)).
  Proof. unfold file_flags. rewrite hp_attrs, bind_ret_l, file_flag_names. reflexivity. Qed.
  Lemma hp_res1 : reserved0 raw = (must_be "reserved0" (h_res1 h =? 0), Ok (h_res1 h)).
  Proof. wf. unfold reserved0, raw. header_field. rewrite unpack_enc16 by assumption. apply must_be_N_ret. Qed.
  Lemma hp_res2 : reserved1 raw = (must_be "reserved1" (h_res2 h =? 0), Ok (h_res2 h)).
  Proof. wf. unfold reserved1, raw. header_field. rewrite unpack_enc32 by assumption. apply must_be_N_ret. Qed.
  Lemma hp_res3 : reserved2 raw = (must_be "reserved2" (h_res3 h =? 0), Ok (h_res3 h)).
  Proof. wf. unfold reserved2, raw. header_field. rewrite unpack_enc32 by assumption. apply must_be_N_ret. Qed.

  Lemma hp_dict w1 w2 w3 c a w :
    parse_filetime (enci64 (h_ctime h)) = (w1, Ok c) ->
    parse_filetime (enci64 (h_atime h)) = (w2, Ok a) ->
    parse_filetime (enci64 (h_wtime h)) = (w3, Ok w) ->
    header_dict raw =
    (clsid_warning h ++ w1 ++ w2 ++ w3 ++ size_warning h ++ reserved_warnings h, Ok (header_report h c a w)).
  Proof.
    intros H1 H2 H3. unfold header_dict, header_report.
    rewrite <- hp_ctime in H1. rewrite <- hp_atime in H2. rewrite <- hp_wtime in H3.
    etransitivity.
    { repeat (apply fields_cons;
        [ apply bind_val;
          first [ apply hp_clsid | apply hp_flags | apply hp_attrs | exact H1 | exact H2 | exact H3 | apply hp_fsize
                | apply hp_icon | apply hp_show | apply hp_hot_key | apply hp_raw_hot_key | apply hp_link_flags
                | apply hp_file_flags | apply hp_size | apply hp_res1 | apply hp_res2 | apply hp_res3 ] | ]).
      reflexivity. }
    unfold reserved_warnings, names_value. cbn [app]. rewrite ?app_nil_r. reflexivity.
  Qed.
End Header.
