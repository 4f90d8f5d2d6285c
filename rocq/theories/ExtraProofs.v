(** * Extra data *)
From Verif Require Import Lemmas PyTime Codec Utils Sha256 Header StringData Targets Info Extra LnkFile.
From Verif Require Import Spec SpecHeader SpecTime SpecText SpecItems SpecExtra.
From Verif Require Import OutcomeProofs LayoutProofs CoreProofs FormatProofs EncProofs HeaderProofs ApiProofs WarnProofs.
From Verif Require Import TextProofs ConstructProofs StringProofs ItemProofs.

(** ** Signatures *)

Definition undigits (base : N) (l : list N) (a : N) : N := fold_left (fun a d => a * base + d) l a.
Lemma digits_aux_val base fuel n acc : 1 < base -> n < base ^ N.of_nat fuel -> (0 < fuel)%nat ->
  undigits base (digits_aux base fuel n acc) 0 = undigits base acc n.
Proof.
  intros Hb. revert n acc; induction fuel as [|fuel IH]; intros n acc Hn Hf; [lia|]. cbn [digits_aux].
  destruct (n <? base) eqn:E; [reflexivity|].
  rewrite Nat2N.inj_succ, N.pow_succ_r' in Hn.
  assert (Hd : n / base < base ^ N.of_nat fuel) by (apply N.div_lt_upper_bound; lia).
  rewrite IH; [|assumption|].
  - unfold undigits. cbn [fold_left]. f_equal. pose proof (N.div_mod n base ltac:(lia)). lia.
  - destruct fuel; [|lia]. change (N.of_nat 0) with 0 in *. rewrite N.pow_0_r, N.mul_1_r in Hn. lia.
Qed.
Lemma digits_val n : undigits 16 (digits 16 n) 0 = n.
Proof.
  unfold digits. rewrite digits_aux_val; [reflexivity|lia| |lia].
  pose proof (size_nat_bound n) as H. eapply N.lt_le_trans; [exact H|]. apply N.pow_le_mono_l. lia.
Qed.
Lemma digits_aux_lt base fuel n acc : 1 < base -> Forall (fun d => d < base) acc ->
  Forall (fun d => d < base) (digits_aux base fuel n acc).
Proof.
  intros Hb. revert n acc; induction fuel as [|fuel IH]; intros n acc Ha; cbn [digits_aux].
  - try assumption; constructor; try assumption. all: try (apply N.mod_lt; lia).
  - destruct (n <? base) eqn:E; [constructor; [lia|assumption]|]. apply IH. constructor; [apply N.mod_lt; lia|assumption].
Qed.
Lemma digit_char_inj a b : a < 16 -> b < 16 -> digit_char false a = digit_char false b -> a = b.
Proof. unfold digit_char. intros Ha Hb. destruct (a <? 10) eqn:E1, (b <? 10) eqn:E2; lia. Qed.
Lemma map_inj_on {A B} (f : A -> B) (P : A -> Prop) l1 l2 :
  (forall a b, P a -> P b -> f a = f b -> a = b) -> Forall P l1 -> Forall P l2 -> map f l1 = map f l2 -> l1 = l2.
Proof.
  intros Hf H1. revert l2; induction H1 as [|a l1 Ha H1 IH]; intros [|b l2] H2 E; try discriminate; [reflexivity|].
  inversion_clear H2. injection E as E1 E2. f_equal; [now apply Hf|now apply IH].
Qed.
Lemma digits_aux_nonempty base fuel n acc : (0 < fuel)%nat -> digits_aux base fuel n acc <> [].
Proof.
  revert n acc; induction fuel as [|fuel IH]; intros n acc Hf; [lia|]. cbn [digits_aux].
  destruct (n <? base); [discriminate|]. destruct fuel; [discriminate|]. apply IH. lia.
Qed.
Lemma hexx1 n : hexx 1 n = map (digit_char false) (digits 16 n).
Proof.
  unfold hexx, pad0. destruct (map (digit_char false) (digits 16 n)) as [|a l] eqn:E; [|reflexivity].
  apply map_eq_nil in E. exfalso. revert E. apply digits_aux_nonempty. lia.
Qed.
Lemma hexx1_inj a b : hexx 1 a = hexx 1 b -> a = b.
Proof.
  rewrite !hexx1. intros H. apply (map_inj_on _ (fun d => d < 16)) in H.
  - rewrite <- (digits_val a), <- (digits_val b). now rewrite H.
  - apply digit_char_inj.
  - apply digits_aux_lt; [lia|constructor].
  - apply digits_aux_lt; [lia|constructor].
Qed.
Lemma sig_eq k v n : hexx 1 v = s2t k -> text_eqb (dropN 2 (hex_text n)) (s2t k) = (n =? v).
Proof.
  intros <-. unfold hex_text. rewrite dropN_app_exact by reflexivity.
  destruct (n =? v) eqn:E.
  - apply N.eqb_eq in E as ->. now apply text_eqb_eq.
  - apply N.eqb_neq in E. destruct (text_eqb _ _) eqn:E2; [|reflexivity]. apply text_eqb_eq in E2. now apply hexx1_inj in E2.
Qed.

Definition class_of_sig (n : N) : extra_class :=
  match n with
  | 0xA0000001 => Environment | 0xA0000002 => Console | 0xA0000003 => DistributedTracker | 0xA0000004 => CodePage
  | 0xA0000005 => SpecialFolder | 0xA0000006 => Darwin | 0xA0000007 => Icon | 0xA0000008 => ShimLayer
  | 0xA0000009 => Metadata | 0xA000000B => KnownFolder | 0xA000000C => ShellItem | _ => UnknownExtra
  end.
Definition sig_list : list N :=
  [0xA0000001; 0xA0000002; 0xA0000003; 0xA0000004; 0xA0000005; 0xA0000006; 0xA0000007; 0xA0000008; 0xA0000009;
   0xA000000B; 0xA000000C].
Lemma by_sigs (P : N -> Prop) : Forall P sig_list -> (forall n, ~ In n sig_list -> P n) -> forall n, P n.
Proof.
  intros H1 H2 n. destruct (in_dec N.eq_dec n sig_list) as [Hi|Hi]; [|now apply H2].
  rewrite Forall_forall in H1. now apply H1.
Qed.
Lemma sig_class_num n : sig_class n = class_of_sig n.
Proof.
  unfold sig_class, EXTRA_SIGS. cbn [assoc_sig].
  rewrite (sig_eq "a0000001" 0xA0000001) by reflexivity. rewrite (sig_eq "a0000002" 0xA0000002) by reflexivity.
  rewrite (sig_eq "a0000003" 0xA0000003) by reflexivity. rewrite (sig_eq "a0000004" 0xA0000004) by reflexivity.
  rewrite (sig_eq "a0000005" 0xA0000005) by reflexivity. rewrite (sig_eq "a0000006" 0xA0000006) by reflexivity.
  rewrite (sig_eq "a0000007" 0xA0000007) by reflexivity. rewrite (sig_eq "a0000008" 0xA0000008) by reflexivity.
  rewrite (sig_eq "a0000009" 0xA0000009) by reflexivity. rewrite (sig_eq "a000000b" 0xA000000B) by reflexivity.
  rewrite (sig_eq "a000000c" 0xA000000C) by reflexivity.
  repeat match goal with |- context [if (n =? ?v) then _ else _] =>
    destruct (N.eqb_spec n v) as [->|?]; [reflexivity|] end.
  unfold class_of_sig.
  repeat match goal with |- context [match ?p with _ => _ end] => destruct p; try reflexivity; try contradiction end.
Qed.

(** ** One block *)

Lemma fields_app r1 r2 w1 d1 w2 d2 :
  fields r1 = (w1, Ok d1) -> fields r2 = (w2, Ok d2) -> fields (r1 ++ r2) = (w1 ++ w2, Ok (d1 ++ d2)).
Proof.
  revert w1 d1; induction r1 as [|[k m] r1 IH]; intros w1 d1 H1 H2; cbn [app fields] in *.
  - injection H1 as <- <-. exact H2.
  - destruct m as [wm [v|e]]; cbn [bind] in *; [|discriminate].
    destruct (fields r1) as [wr [d|e]]; cbn in H1; [|discriminate]. injection H1 as <- <-.
    rewrite (IH wr d eq_refl H2). cbn. rewrite !app_nil_r, app_assoc. reflexivity.
Qed.

Lemma lenN_block blk : lenN (encode_block blk) = 8 + lenN (snd blk).
Proof. unfold encode_block. rewrite !lenN_app. autorewrite with lens. lia. Qed.

Section Fields.
  Variables (sz sig : N) (payload : bytes).
  Hypothesis Hsz : fits32 sz.
  Let raw := enc32 sz ++ enc32 sig ++ payload.
  Lemma raw_slice i j : 8 <= i -> slice i j raw = slice (i - 8) (j - 8) payload.
  Proof.
    intros Hi. unfold raw. rewrite (slice_skip_n i j 4) by (reflexivity || lia).
    rewrite (slice_skip_n (i - 4) (j - 4) 4) by (reflexivity || lia).
    f_equal; lia.
  Qed.
  Lemma raw_size : base_size raw = ret sz.
  Proof. unfold base_size, raw. slices. now apply unpack_enc32. Qed.
  Lemma raw_base : fields (base_fields raw) = ret [("size", PN sz)]%string.
  Proof. unfold base_fields. cbn [fields]. now rewrite raw_size, !bind_ret_l. Qed.
  Lemma raw_rows rows w d : fields rows = (w, Ok d) -> fields (base_fields raw ++ rows) = (w, Ok (("size"%string, PN sz) :: d)).
  Proof. intros H. now apply (fields_app _ _ _ _ _ _ raw_base). Qed.
  Lemma raw_drop8 : dropN 8 raw = payload.
  Proof. unfold raw. drops. reflexivity. Qed.
  Lemma raw_drop4 : dropN 4 raw = enc32 sig ++ payload.
  Proof. unfold raw. now rewrite dropN_app_exact. Qed.
End Fields.

Lemma value_ret {A} (m : M A) a (f : A -> pyval) : m = ret a -> (x <- m ;; ret (f x)) = ([], Ok (f a)).
Proof. intros ->. now rewrite bind_ret_l. Qed.

(** Rows of fixed fields. *)
Ltac at_payload := rewrite raw_slice by lia; off_norm.
Ltac row_num :=
  unfold u16_field, i16_field, u32_field; at_payload; slices; apply value_ret;
  first [apply unpack_enc16 | apply unpack_enci16 | apply unpack_enc32]; assumption.
Ltac row_uuid := unfold uuid_field; at_payload; slices; apply value_ret; apply parse_uuid_guid; assumption.
Ltac row_str := unfold str_field; at_payload; slices; apply bind_val; apply read_string_field; assumption.
Ltac row_ustr := unfold ustr_field; at_payload; slices; apply bind_val; apply read_unicode_field.
Ltac row_must := at_payload; slices; apply bind_val; rewrite unpack_enc32 by assumption; apply must_be_N_ret.
Ltac rows tac := repeat (apply fields_cons; [tac|]); reflexivity.
Ltac nil_app := cbn [app]; rewrite ?app_nil_r; reflexivity.

Section Blocks.
  Variables (cp : cp_arg) (sz sig : N).
  Hypothesis Hcp : usable cp.
  Hypothesis Hsz : fits32 sz.
  Notation raw p := (enc32 sz ++ enc32 sig ++ p).

  Lemma sp_environment ansi wide slack : lenN ansi = 260 -> lenN wide = 520 ->
    environment_dict cp (raw (ansi ++ wide ++ slack))
    = (field_warning cp ansi ++ wide_warning wide,
       Ok [("size", PN sz); ("target_ansi", PStr (field_text cp ansi)); ("target_unicode", PStr (wide_text wide))]%string).
  Proof.
    intros H1 H2. unfold environment_dict. apply raw_rows; [assumption|]. etransitivity; [|].
    { rows ltac:(first [row_str|row_ustr]). }
    nil_app.
  Qed.

  Lemma sp_console c slack : wf_console c ->
    console_dict (raw (encode_console c ++ slack)) = (wide_warning (c_face c), Ok (("size"%string, PN sz) :: console_report c)).
  Proof.
    intros ((? & ? & ? & ? & ? & ? & ? & ?) & (? & ? & ? & ?) & (? & ? & ? & ? & ? & ? & ? & ? & ?)).
    unfold console_dict, encode_console. apply raw_rows; [assumption|]. rewrite <- !app_assoc.
    etransitivity; [rows ltac:(first [row_num|row_ustr])|]. nil_app.
  Qed.

  Lemma sp_tracker t slack : wf_tracker t ->
    tracker_dict cp (raw (encode_tracker t ++ slack))
    = (tracker_warnings cp t, Ok (("size"%string, PN sz) :: tracker_report cp t)).
  Proof.
    intros (? & ? & ? & ? & ? & ? & ?). unfold tracker_dict, encode_tracker. apply raw_rows; [assumption|].
    rewrite <- !app_assoc. etransitivity; [rows ltac:(first [row_must|row_str|row_uuid])|].
    unfold tracker_warnings. nil_app.
  Qed.

  Lemma sp_code_page n slack : fits32 n ->
    code_page_dict (raw (enc32 n ++ slack)) = ret [("size", PN sz); ("code_page", PN n)]%string.
  Proof. intros. unfold code_page_dict. apply raw_rows; [assumption|]. etransitivity; [rows row_num|]. nil_app. Qed.
  Lemma sp_special_folder id off slack : fits32 id -> fits32 off ->
    special_folder_dict (raw (enc32 id ++ enc32 off ++ slack))
    = ret [("size", PN sz); ("special_folder_id", PN id); ("offset", PN off)]%string.
  Proof. intros. unfold special_folder_dict. apply raw_rows; [assumption|]. etransitivity; [rows row_num|]. nil_app. Qed.
  Lemma sp_known_folder g off slack : lenN g = 16 -> fits32 off ->
    known_folder_dict (raw (g ++ enc32 off ++ slack))
    = ret [("size", PN sz); ("known_folder_id", PStr (guid_text g)); ("offset", PN off)]%string.
  Proof.
    intros. unfold known_folder_dict. apply raw_rows; [assumption|].
    etransitivity; [rows ltac:(first [row_uuid|row_num])|]. nil_app.
  Qed.
  Lemma sp_shim data :
    shim_dict cp (raw data) = (field_warning cp data, Ok [("size", PN sz); ("layer_name", PStr (field_text cp data))]%string).
  Proof.
    unfold shim_dict. apply raw_rows; [assumption|]. rewrite raw_drop8.
    etransitivity; [rows ltac:(apply bind_val; apply read_string_field; assumption)|]. nil_app.
  Qed.
  Lemma sp_unknown data :
    unknown_extra_dict (raw data)
    = ret [("size", PN sz); ("extra_data_sha256", PStr (sha256_hex (enc32 sig ++ data)%list))]%string.
  Proof.
    unfold unknown_extra_dict. apply raw_rows; [assumption|]. rewrite raw_drop4. reflexivity.
  Qed.
  Lemma sp_shell_item its slack : sz = 8 + lenN (encode_items (map item_body its) ++ slack) ->
    Forall wf_item its -> Forall (fun it => item_fits (item_body it)) its ->
    shell_item_dict cp (raw (encode_items (map item_body its) ++ slack))
    = (flat_map (item_warnings cp) its,
       Ok [("size", PN sz); ("id_list", PList (map (fun it => PDict (item_report cp it)) its))]%string).
  Proof.
    intros Es HW HF. unfold shell_item_dict. apply raw_rows; [assumption|].
    rewrite raw_size, bind_ret_l by assumption. rewrite raw_slice by lia.
    change (8 - 8) with 0. rewrite slice_full by lia.
    etransitivity; [rows ltac:(apply bind_val; apply items_spec; assumption)|]. nil_app.
  Qed.
End Blocks.

(** ** Installer descriptors *)

Lemma find_char_none c t i : ~ In c t -> find_char c t i = (-1)%Z.
Proof.
  revert i; induction t as [|x t IH]; intros i H; [reflexivity|]. cbn [find_char].
  destruct (x =? c) eqn:E; [apply N.eqb_eq in E; exfalso; apply H; now left|]. apply IH. intros Hi. apply H. now right.
Qed.
Lemma find_char_skip c a t i : ~ In c a -> find_char c (a ++ t) i = find_char c t (i + Z.of_N (lenN a))%Z.
Proof.
  revert i; induction a as [|x a IH]; intros i H; cbn [app find_char].
  - f_equal. change (lenN (@nil N)) with 0. lia.
  - destruct (x =? c) eqn:E; [apply N.eqb_eq in E; exfalso; apply H; now left|].
    rewrite IH by (intros Hi; apply H; now right). f_equal. rewrite lenN_cons. lia.
Qed.
Lemma find_char_here c t i : find_char c (c :: t) i = i.
Proof. cbn [find_char]. now rewrite N.eqb_refl. Qed.

Definition plain_char (c : N) : Prop := 0 < c < 128 /\ c <> 60 /\ c <> 62.
Lemma alphabet_plain : Forall plain_char base85_alphabet.
Proof.
  apply Forall_forall. intros c Hc.
  assert (H : forallb (fun c => (0 <? c) && (c <? 128) && negb (c =? 60) && negb (c =? 62)) base85_alphabet = true)
    by (vm_compute; reflexivity).
  rewrite forallb_forall in H. apply H in Hc. unfold plain_char. lia.
Qed.
Lemma base85_plain w : Forall plain_char (base85_word w).
Proof.
  unfold base85_word. apply Forall_forall. intros c Hc. apply in_map_iff in Hc as (p & <- & _).
  pose proof alphabet_plain as H. rewrite Forall_forall in H. apply H. apply nth_In.
  change (length base85_alphabet) with 85%nat. pose proof (mod85 w p). lia.
Qed.
Lemma packed_plain g : Forall plain_char (packed_guid g).
Proof. unfold packed_guid. cbn [flat_map]. rewrite app_nil_r. repeat (apply Forall_app; split); apply base85_plain. Qed.
Lemma packed_length g : lenN (packed_guid g) = 20. Proof. reflexivity. Qed.
Lemma plain_not_in t : Forall plain_char t -> ~ In 60 t /\ ~ In 62 t.
Proof. rewrite Forall_forall. intros H. split; intros Hi; apply H in Hi; unfold plain_char in Hi; lia. Qed.
Lemma plain_scalar t : Forall plain_char t -> Forall scalar t.
Proof. apply Forall_impl. unfold plain_char, scalar. intros; lia. Qed.
Lemma plain_no_nul t : Forall plain_char t -> no_nul t.
Proof. apply Forall_impl. unfold plain_char. intros; lia. Qed.

Lemma descriptor_scalar d : wf_descriptor d -> Forall scalar (descriptor_text d) /\ no_nul (descriptor_text d).
Proof.
  intros (_ & _ & Hs & Hn & _). unfold descriptor_text, no_nul in *.
  split; apply Forall_app; (split; [first [now apply plain_scalar, packed_plain | now apply plain_no_nul, packed_plain]|]);
    apply Forall_app; (split; [assumption|]); destruct (d_component d) as [c|].
  - apply Forall_app. split; [constructor; [left; vm_compute; reflexivity|constructor]|apply plain_scalar, packed_plain].
  - constructor; [left; vm_compute; reflexivity|constructor].
  - apply Forall_app. split; [constructor; [vm_compute; discriminate|constructor]|apply plain_no_nul, packed_plain].
  - constructor; [vm_compute; discriminate|constructor].
Qed.
Lemma wide_field_read t field : Forall scalar t -> no_nul t -> wide_field t field -> read_unicode_string field = ret t.
Proof. intros Hs Hn [_ [->|[rest ->]]]; [now apply wide_text_all|now apply wide_text_nul]. Qed.

Lemma terminator_positions d : wf_descriptor d ->
  let n := Z.of_N (20 + lenN (d_feature d)) in
  find_char 62 (descriptor_text d) 0 = (if d_component d then n else (-1)%Z)
  /\ find_char 60 (descriptor_text d) 0 = (if d_component d then (-1)%Z else n).
Proof.
  intros (Hp & Hc & _ & _ & Hf). unfold descriptor_text. cbv zeta.
  destruct (plain_not_in _ (packed_plain (d_product d))) as [P60 P62].
  assert (F60 : ~ In 60 (d_feature d)) by (rewrite Forall_forall in Hf; intros Hi; now apply Hf in Hi as [? _]).
  assert (F62 : ~ In 62 (d_feature d)) by (rewrite Forall_forall in Hf; intros Hi; now apply Hf in Hi as [_ ?]).
  rewrite !find_char_skip by assumption. rewrite packed_length.
  destruct (d_component d) as [c|].
  - destruct (plain_not_in _ (packed_plain c)) as [C60 C62]. split.
    + change (s2t ">") with [62]. cbn [app]. rewrite find_char_here. lia.
    + apply find_char_none. intros [Hi|Hi]; [discriminate|]. now apply C60.
  - change (s2t "<") with [60]. split; [reflexivity|]. rewrite find_char_here. lia.
Qed.

Lemma sp_darwin cp sz sig ansi d wide slack : usable cp -> fits32 sz -> lenN ansi = 260 -> wf_descriptor d ->
  wide_field (descriptor_text d) wide ->
  darwin_dict cp (enc32 sz ++ enc32 sig ++ ansi ++ wide ++ slack)
  = (field_warning cp ansi, Ok (("size"%string, PN sz) :: descriptor_report cp ansi d)).
Proof.
  intros Hcp Hsz Ha Hd Hw. unfold darwin_dict.
  set (raw := enc32 sz ++ enc32 sig ++ ansi ++ wide ++ slack).
  destruct (descriptor_scalar d Hd) as [Hs Hn].
  assert (HD : darwin_data_unicode raw = ret (descriptor_text d)).
  { assert (Hw520 : lenN wide = 520) by apply Hw.
    unfold darwin_data_unicode, raw. at_payload. slices. now apply wide_field_read. }
  destruct (terminator_positions d Hd) as [T62 T60]. cbv zeta in T62, T60.
  destruct Hd as (Hp & Hc & _).
  assert (HP : product_code_id raw = ret (guid_text (d_product d))).
  { unfold product_code_id. rewrite HD, bind_ret_l. unfold descriptor_text.
    rewrite slice_here_n by reflexivity. now apply packed_round_trip. }
  assert (HF : feature_name raw = ret (match d_feature d with [] => None | f => Some f end)).
  { unfold feature_name. rewrite HD, bind_ret_l, T62, T60. cbv zeta.
    assert (EM : Z.max (if d_component d then Z.of_N (20 + lenN (d_feature d)) else (-1)%Z)
                       (if d_component d then (-1)%Z else Z.of_N (20 + lenN (d_feature d)))
                 = Z.of_N (20 + lenN (d_feature d))) by (destruct (d_component d); lia).
    rewrite EM. destruct (d_feature d) as [|f0 f] eqn:EF; [reflexivity|].
    rewrite lenN_cons. replace (_ =? 20)%Z with false by lia. replace (_ <? 0)%Z with false by lia.
    rewrite N2Z.id. unfold descriptor_text. rewrite EF.
    rewrite (slice_skip_n _ _ 20) by (reflexivity || lia).
    replace (20 + (1 + lenN f) - 20) with (lenN (f0 :: f)) by (rewrite lenN_cons; lia).
    change (20 - 20) with 0. now rewrite slice_here_n. }
  assert (HC : component_id raw = ret (option_map guid_text (d_component d))).
  { unfold component_id. rewrite HD, bind_ret_l, T62. cbv zeta.
    destruct (d_component d) as [c|] eqn:EC; [|reflexivity].
    replace (_ =? -1)%Z with false by lia. unfold descriptor_text. rewrite EC.
    rewrite !app_assoc. rewrite dropN_app_exact.
    - rewrite packed_round_trip by (now apply Hc). reflexivity.
    - rewrite !lenN_app, packed_length. change (lenN (s2t ">")) with 1. lia. }
  apply raw_rows; [assumption|]. etransitivity.
  { apply fields_cons; [unfold raw; row_str|].
    apply fields_cons; [apply (value_ret _ _ PStr HD)|].
    apply fields_cons; [apply (value_ret _ _ PStr HP)|].
    apply fields_cons; [apply (value_ret _ _ (POpt PStr) HF)|].
    apply fields_cons; [apply (value_ret _ _ (POpt PStr) HC)|]. reflexivity. }
  unfold descriptor_report. cbn [app]. rewrite ?app_nil_r.
  destruct (d_feature d), (d_component d); reflexivity.
Qed.

(** ** Property stores *)

Fixpoint suffixes (bodies : list bytes) (tail : bytes) : list bytes :=
  match bodies with
  | [] => []
  | b :: r => (sized b ++ flat_map sized r ++ tail) :: suffixes r tail
  end.
Lemma lenN_sized b : lenN (sized b) = 4 + lenN b.
Proof. unfold sized. rewrite lenN_app. autorewrite with lens. lia. Qed.
Lemma sized_suffixes_spec fuel bodies tail : (length bodies < fuel)%nat -> Forall sized_fits bodies ->
  sized_suffixes fuel (flat_map sized bodies ++ enc32 0 ++ tail) = ret (suffixes bodies (enc32 0 ++ tail)).
Proof.
  revert fuel; induction bodies as [|b r IH]; intros [|fuel] Hf HF; try (cbn in Hf; lia); cbn [sized_suffixes].
  - cbn [flat_map app suffixes]. slices. rewrite unpack_enc32, bind_ret_l by (unfold fits32; lia). reflexivity.
  - inversion_clear HF as [|? ? Hb Hr]. cbn [flat_map suffixes]. rewrite <- app_assoc.
    assert (ES : forall t, sized b ++ t = enc32 (4 + lenN b) ++ b ++ t) by (intros; unfold sized; now rewrite <- app_assoc).
    rewrite !ES. slices. unfold sized_fits in Hb.
    rewrite unpack_enc32, bind_ret_l by assumption. replace (4 + lenN b =? 0) with false by lia.
    assert (HD : dropN (4 + lenN b) (enc32 (4 + lenN b) ++ b ++ flat_map sized r ++ enc32 0 ++ tail)
                 = flat_map sized r ++ enc32 0 ++ tail).
    { rewrite app_assoc. apply dropN_app_exact. rewrite lenN_app, lenN_enc32. lia. }
    rewrite HD, IH by (assumption || (cbn in Hf; lia)). now rewrite bind_ret_l.
Qed.
Lemma flat_sized_length bodies : (length bodies <= length (flat_map sized bodies))%nat.
Proof.
  induction bodies as [|b r IH]; [reflexivity|]. cbn [flat_map length]. rewrite app_length.
  assert (H : (1 <= length (sized b))%nat) by (unfold sized; rewrite app_length; cbn; lia). lia.
Qed.
Lemma mapM_suffixes {A B} (f : bytes -> M B) (body : A -> bytes) (w : A -> list warning) (d : A -> B) l tail :
  (forall a rest, In a l -> f (sized (body a) ++ rest) = (w a, Ok (d a))) ->
  mapM f (suffixes (map body l) tail) = (flat_map w l, Ok (map d l)).
Proof.
  induction l as [|a l IH]; intros H; [reflexivity|]. cbn [map suffixes mapM flat_map].
  rewrite H by now left. apply bind_pair. rewrite IH by (intros; apply H; now right).
  rewrite bind_Ok. cbn. now rewrite app_nil_r.
Qed.

Lemma type_names : PropertyType = type_table. Proof. vm_compute. reflexivity. Qed.
Lemma assocN_in (t : list (N * string)) k v : NoDup (map fst t) -> In (k, v) t -> assocN k t = Some v.
Proof.
  induction t as [|[k' v'] t IH]; intros HN H; [destruct H|]. destruct H as [H|H]; cbn [assocN map fst] in *.
  - injection H as -> ->. now rewrite N.eqb_refl.
  - inversion_clear HN as [|? ? Hn HN']. destruct (k =? k') eqn:E; [|now apply IH].
    apply N.eqb_eq in E as ->. exfalso. apply Hn. now apply (in_map fst) in H.
Qed.
Lemma type_table_nodup : NoDup (map fst type_table).
Proof.
  assert (H : (fix go (l : list N) := match l with [] => true | a :: r => negb (existsb (N.eqb a) r) && go r end) (map fst type_table) = true)
    by (vm_compute; reflexivity).
  revert H. generalize (map fst type_table). induction l as [|a r IH]; intros H; [constructor|].
  apply andb_true_iff in H as [H1 H2]. constructor; [|now apply IH]. intros Hi.
  apply negb_true_iff in H1. assert (E : existsb (N.eqb a) r = true); [|congruence].
  apply existsb_exists. exists a. split; [assumption|apply N.eqb_refl].
Qed.
Lemma type_name_spec ty name : In (ty, name) type_table -> property_type_name ty = ret (PS name).
Proof.
  intros H. unfold property_type_name. rewrite type_names.
  now rewrite (assocN_in _ _ _ type_table_nodup H).
Qed.

Lemma value_spec v rest : wf_value v ->
  fields [("value", tv_value (encode_value v ++ rest)%list);
                      ("value_type", n <- tv_value_type (encode_value v ++ rest)%list ;; property_type_name n)]%string
  = (value_warnings v, Ok (value_entries v)).
Proof.
  intros HW. unfold tv_value, tv_value_padding, tv_value_type. destruct v as [body after|ty name padding data]; cbn [encode_value].
  - destruct HW as [He Hn]. rewrite <- !app_assoc. slices. rewrite !unpack_enc16 by (unfold fits16; lia).
    rewrite !bind_ret_l. change (negb (0 =? 0)) with false. cbv iota. change (31 =? 2) with false. cbv iota.
    rewrite ?bind_ret_l. change (31 =? 31) with true. cbv iota. rewrite unpack_enc32, bind_ret_l by assumption.
    assert (EB : slice 8 (8 + lenN body / 2 * 2) (enc16 31 ++ enc16 0 ++ enc32 (lenN body / 2) ++ body ++ after ++ rest) = body).
    { pose proof (half_even (lenN body) He) as HE. rewrite HE. slices.
      apply slice_here_n. lia. }
    rewrite EB.
    etransitivity.
    { apply fields_cons; [apply bind_val, read_unicode_field|]. apply fields_cons; [|reflexivity].
      apply type_name_spec. vm_compute. tauto. }
    nil_app.
  - destruct HW as (Ht & Hp & Hi & Hd). rewrite <- !app_assoc. slices.
    rewrite !unpack_enc16 by assumption. rewrite !bind_ret_l. rewrite (type_name_spec _ _ Hi).
    destruct (padding =? 0) eqn:E; cbn [negb]; [|reflexivity].
    apply N.eqb_eq in E. destruct Hd as [Hd|[Hd1 Hd2]]; [contradiction|].
    replace (ty =? 2) with false by lia. rewrite ?bind_ret_l. replace (ty =? 31) with false by lia. reflexivity.
Qed.

Lemma prop_spec p rest : wf_prop p ->
  (if is_named p then string_name_dict else integer_name_dict) (sized (prop_body p) ++ rest)
  = (prop_warnings p, Ok (prop_report p)).
Proof.
  intros (Hs & Hv & Hi). unfold sized_fits in Hs. unfold sized. set (n := 4 + lenN (prop_body p)) in *.
  destruct p as [id res v|name res v]; cbn [is_named prop_body prop_warnings prop_report prop_value] in *.
  - unfold integer_name_dict. rewrite <- !app_assoc. unfold pv_value_size, u32_field. off_norm. slices. drops.
    etransitivity.
    { apply fields_cons; [apply value_ret, unpack_enc32; assumption|].
      apply fields_cons; [apply value_ret, unpack_enc32; assumption|].
      apply (value_spec v rest Hv). }
    nil_app.
  - unfold string_name_dict. rewrite <- !app_assoc. unfold pv_value_size, sn_value_offset, sn_name_size. slices.
    assert (Hname : fits32 (lenN name)) by (unfold fits32; unfold n in Hs; cbn [prop_body] in Hs; rewrite !lenN_app in Hs; lia).
    rewrite !(unpack_enc32 (lenN name)), !bind_ret_l by assumption.
    assert (EN : slice 9 (9 + lenN name) (enc32 n ++ enc32 (lenN name) ++ [res] ++ name ++ encode_value v ++ rest) = name).
    { slices. apply slice_here_n. lia. }
    assert (ED : dropN (9 + lenN name) (enc32 n ++ enc32 (lenN name) ++ [res] ++ name ++ encode_value v ++ rest) = encode_value v ++ rest).
    { rewrite !app_assoc, <- (app_assoc _ (encode_value v)). apply dropN_app_exact. rewrite !lenN_app. autorewrite with lens. lia. }
    rewrite EN, ED.
    etransitivity.
    { apply fields_cons; [apply value_ret, unpack_enc32; assumption|].
      apply fields_cons; [reflexivity|].
      apply fields_cons; [apply bind_val, read_unicode_field|].
      apply (value_spec v rest Hv). }
    nil_app.
Qed.

Lemma named_format_text : guid_text named_format = s2t "D5CDD505-2E9C-101B-9397-08002B2CF9AE".
Proof. vm_compute. reflexivity. Qed.

Lemma mapM_ext {A B} (f g : A -> M B) l : (forall a, f a = g a) -> mapM f l = mapM g l.
Proof. intros H. induction l as [|a l IH]; [reflexivity|]. cbn [mapM]. rewrite H. apply bind_ext. intros; now rewrite IH. Qed.

Lemma storage_spec s rest : wf_storage s ->
  storage_dict (sized (storage_body s) ++ rest) = (storage_warnings s, Ok (storage_report s)).
Proof.
  intros (Hs & Hv & Hf & Hp & Hn). unfold sized_fits in Hs. unfold sized. set (n := 4 + lenN (storage_body s)) in *.
  unfold storage_dict, serialized_property_values, ps_format_id, u32_field.
  assert (E : (enc32 n ++ storage_body s) ++ rest
              = enc32 n ++ enc32 (s_version s) ++ s_format s ++ flat_map sized (map prop_body (s_props s)) ++ enc32 0 ++ rest).
  { unfold storage_body. rewrite <- !app_assoc. repeat f_equal. rewrite flat_map_concat_map, (flat_map_concat_map sized), map_map. reflexivity. }
  rewrite E. set (raw := enc32 n ++ _). cbn zeta.
  assert (HL : Forall sized_fits (map prop_body (s_props s))).
  { apply Forall_map. eapply Forall_impl; [|exact Hp]. intros p H. apply H. }
  assert (HSX : sized_suffixes (S (length raw)) (dropN 24 raw) = ret (suffixes (map prop_body (s_props s)) (enc32 0 ++ rest))).
  { replace (dropN 24 raw) with (flat_map sized (map prop_body (s_props s)) ++ enc32 0 ++ rest)
      by (unfold raw; drops; reflexivity).
    apply sized_suffixes_spec; [|assumption].
    pose proof (flat_sized_length (map prop_body (s_props s))). unfold raw. rewrite !app_length. lia. }
  rewrite HSX.
  assert (HFMT : parse_uuid (slice 8 24 raw) = ret (guid_text (s_format s))).
  { unfold raw. slices. now apply parse_uuid_guid. }
  rewrite HFMT, !bind_ret_l.
  assert (HM : mapM (if text_eqb (guid_text (s_format s)) (s2t "D5CDD505-2E9C-101B-9397-08002B2CF9AE")
                     then string_name_dict else integer_name_dict) (suffixes (map prop_body (s_props s)) (enc32 0 ++ rest))
               = (flat_map prop_warnings (s_props s), Ok (map prop_report (s_props s)))).
  { apply mapM_suffixes. intros p r Hi. rewrite Forall_forall in Hp. rewrite <- (prop_spec p r) by now apply Hp.
    rewrite <- named_format_text.
    destruct Hn as [[Hn Hg]|[Hn Hg]]; rewrite Forall_forall in Hn; rewrite (Hn p Hi).
    - now rewrite Hg, text_eqb_refl.
    - replace (text_eqb _ _) with false; [reflexivity|]. symmetry. apply text_eqb_neq. intros E2.
      apply Hg. now apply guid_text_inj in E2. }
  rewrite HM.
  etransitivity.
  { apply fields_cons; [apply value_ret; unfold raw; off_norm; slices; apply unpack_enc32; assumption|].
    apply fields_cons; [apply value_ret; unfold raw; slices; apply unpack_enc32; assumption|].
    apply fields_cons; [reflexivity|].
    apply fields_cons; [|reflexivity].
    apply bind_val. reflexivity. }
  unfold storage_report, storage_warnings. rewrite map_map. nil_app.
Qed.

Lemma sp_metadata sz sig stores slack : fits32 sz -> Forall wf_storage stores ->
  metadata_dict (enc32 sz ++ enc32 sig ++ flat_map (fun s => sized (storage_body s)) stores ++ enc32 0 ++ slack)
  = (flat_map storage_warnings stores,
     Ok [("size", PN sz); ("property_store", PList (map (fun s => PDict (storage_report s)) stores))]%string).
Proof.
  intros Hsz HW. unfold metadata_dict. apply raw_rows; [assumption|]. rewrite raw_drop8.
  replace (flat_map (fun s => sized (storage_body s)) stores) with (flat_map sized (map storage_body stores))
    by (rewrite !flat_map_concat_map, map_map; reflexivity).
  rewrite sized_suffixes_spec, bind_ret_l.
  - rewrite (mapM_suffixes storage_dict storage_body storage_warnings storage_report).
    + etransitivity; [apply fields_cons; [apply bind_val; reflexivity|reflexivity]|]. rewrite map_map. nil_app.
    + intros s rest Hi. apply storage_spec. rewrite Forall_forall in HW. now apply HW.
  - pose proof (flat_sized_length (map storage_body stores)). rewrite !app_length. lia.
  - apply Forall_map. eapply Forall_impl; [|exact HW]. intros s H. apply H.
Qed.

(** ** All blocks *)
Lemma unknown_sig n : block_name n = "UNKNOWN_BLOCK"%string -> class_of_sig n = UnknownExtra.
Proof.
  unfold block_name, class_of_sig.
  repeat match goal with |- context [match ?p with _ => _ end] => destruct p; try reflexivity; try discriminate end.
Qed.
Lemma block_spec cp b : usable cp -> wf_block b ->
  extra_as_dict cp (Extra (class_of_sig (block_signature b)) (encode_block (as_block b)))
  = (block_warnings cp b, Ok (block_report cp b)).
Proof.
  intros Hcp [Hsz HW]. unfold encode_block, as_block, block_report. cbn [fst snd].
  assert (Hf : fits32 (8 + lenN (block_payload b))) by exact Hsz. clear Hsz.
  remember (8 + lenN (block_payload b)) as sz eqn:Esz.
  destruct b as [ansi wide slack|c slack|t slack|n slack|id off slack|ansi d wide slack|ansi wide slack|data
                |stores slack|g off slack|its slack|sig data];
    cbn [block_payload block_warnings] in *; unfold extra_as_dict; cbn [ex_raw].
  - destruct HW. exact (sp_environment cp sz _ Hcp Hf ansi wide slack ltac:(assumption) ltac:(assumption)).
  - exact (sp_console sz _ Hf c slack HW).
  - exact (sp_tracker cp sz _ Hcp Hf t slack HW).
  - exact (sp_code_page sz _ Hf n slack HW).
  - destruct HW as [H1 H2]. exact (sp_special_folder sz _ Hf id off slack H1 H2).
  - destruct HW as (H1 & H2 & H3). exact (sp_darwin cp sz _ ansi d wide slack Hcp Hf H1 H2 H3).
  - destruct HW. exact (sp_environment cp sz _ Hcp Hf ansi wide slack ltac:(assumption) ltac:(assumption)).
  - exact (sp_shim cp sz _ Hcp Hf data).
  - exact (sp_metadata sz _ stores slack Hf HW).
  - destruct HW as [H1 H2]. exact (sp_known_folder sz _ Hf g off slack H1 H2).
  - destruct HW as [H1 H2]. exact (sp_shell_item cp sz _ Hcp Hf its slack Esz H1 H2).
  - destruct HW as [_ HW]. cbn [block_signature]. rewrite (unknown_sig sig HW). exact (sp_unknown sz sig Hf data).
Qed.
