(** * The LinkInfo section: what the code reports *)
From Verif Require Import Lemmas PyTime Codec Utils Sha256 Header StringData Targets Info Extra LnkFile.
From Verif Require Import Spec SpecHeader SpecTime SpecText SpecItems SpecExtra SpecInfo.
From Verif Require Import OutcomeProofs LayoutProofs CoreProofs FormatProofs EncProofs HeaderProofs ApiProofs WarnProofs.
From Verif Require Import TextProofs ConstructProofs StringProofs ItemProofs ExtraProofs ExtraListProofs.

Lemma u32_eq off raw : u32_at off raw = if off + 4 <=? lenN raw then ret (num 4 off raw) else raise StructError.
Proof. apply unpack_u32_at. Qed.
Lemma u32_ok off raw : off + 4 <= lenN raw -> u32_at off raw = ret (num 4 off raw).
Proof. intros H. rewrite u32_eq. now replace (off + 4 <=? lenN raw) with true by lia. Qed.
Lemma u32_len off raw v : snd (u32_at off raw) = Ok v -> off + 4 <= lenN raw /\ v = num 4 off raw.
Proof. rewrite u32_eq. destruct (off + 4 <=? lenN raw) eqn:E; cbn; intros H; [injection H as <-; split; [lia|reflexivity]|discriminate]. Qed.

(** ** Provider names *)

Lemma lower_digits n : Forall lower_hex_digit (hexx 1 n).
Proof.
  rewrite hexx1. apply Forall_map.
  assert (H : Forall (fun d => d < 16) (digits 16 n)) by (apply digits_aux_lt; [lia|constructor]).
  eapply Forall_impl; [|exact H]. cbv beta. intros d Hd. unfold lower_hex_digit, digit_char.
  destruct (d <? 10) eqn:E; lia.
Qed.
Lemma hex_key k v n : s2t "0x" ++ hexx 1 v = s2t k -> text_eqb (hex_text n) (s2t k) = (n =? v).
Proof.
  intros <-. unfold hex_text. destruct (n =? v) eqn:E.
  - apply N.eqb_eq in E as ->. now apply text_eqb_eq.
  - apply N.eqb_neq in E. destruct (text_eqb _ _) eqn:E2; [|reflexivity]. apply text_eqb_eq in E2.
    apply app_inv_head in E2. now apply hexx1_inj in E2.
Qed.
Lemma hex_no_key k n : existsb (fun c => (65 <=? c) && (c <=? 90)) (s2t k) = true -> text_eqb (hex_text n) (s2t k) = false.
Proof.
  intros H. destruct (text_eqb _ _) eqn:E; [|reflexivity]. apply text_eqb_eq in E. rewrite <- E in H.
  apply existsb_exists in H as (c & Hin & Hc). unfold hex_text in Hin. apply in_app_or in Hin as [Hin|Hin].
  - cbn in Hin. destruct Hin as [<-|[<-|[]]]; discriminate Hc.
  - pose proof (lower_digits n) as HF. rewrite Forall_forall in HF. apply HF in Hin. unfold lower_hex_digit in Hin. lia.
Qed.
Definition provider_key (k : string) (v : N) : Prop :=
  forall n, text_eqb (hex_text n) (s2t k) = if letter_type v then false else n =? v.
Lemma letter_named n : letter_type n = true -> forall t, Forall (fun p => letter_type (fst p) = false) t -> named n t = None.
Proof.
  intros H t. induction 1 as [|[k s] t Hk _ IH]; [reflexivity|]. cbn [named]. destruct (n =? k) eqn:E; [|exact IH].
  apply N.eqb_eq in E as ->. cbn in Hk. congruence.
Qed.
Lemma provider_lookup_gen n (t1 : list (string * string)) (t2 : list (N * string)) :
  Forall2 (fun a b => provider_key (fst a) (fst b) /\ snd a = snd b) t1 t2 ->
  assoc_text (hex_text n) t1 = if letter_type n then None else named n t2.
Proof.
  induction 1 as [|[k s] [v s'] t1 t2 [HK HS] _ IH]; [now destruct (letter_type n)|].
  cbn [assoc_text named fst snd] in *. subst s'. rewrite HK. destruct (letter_type v) eqn:EV.
  - rewrite IH. destruct (letter_type n) eqn:EN; [reflexivity|]. destruct (n =? v) eqn:E; [|reflexivity].
    apply N.eqb_eq in E as ->. congruence.
  - destruct (n =? v) eqn:E; [|exact IH]. apply N.eqb_eq in E as ->. now rewrite EV.
Qed.
Lemma key_letter k v : letter_type v = true -> existsb (fun c => (65 <=? c) && (c <=? 90)) (s2t k) = true -> provider_key k v.
Proof. intros H1 H2 n. rewrite H1. now apply hex_no_key. Qed.
Lemma key_digit k v : letter_type v = false -> s2t "0x" ++ hexx 1 v = s2t k -> provider_key k v.
Proof. intros H1 H2 n. rewrite H1. now apply hex_key. Qed.
Lemma provider_lookup n : assoc_text (hex_text n) NETWORK_PROVIDER_TYPES = known_provider n.
Proof.
  unfold known_provider. apply provider_lookup_gen. unfold NETWORK_PROVIDER_TYPES, provider_table.
  repeat (apply Forall2_cons;
    [split; [first [apply key_letter; vm_compute; reflexivity | apply key_digit; vm_compute; reflexivity]|reflexivity]|]).
  apply Forall2_nil.
Qed.

Lemma drive_lookup n : (if n <? lenN DRIVE_TYPES then nth_error DRIVE_TYPES (N.to_nat n) else None) = drive_name n.
Proof.
  change (lenN DRIVE_TYPES) with 7. destruct (n <? 7) eqn:E.
  - assert (H : In n [0;1;2;3;4;5;6]) by (cbn; lia). cbn in H. repeat destruct H as [<-|H]; try reflexivity. destruct H.
  - unfold drive_name. destruct n as [|p]; [discriminate|].
    do 3 (destruct p as [p|p|]; try reflexivity; try discriminate).
Qed.

(** ** When all fixed fields are inside the file *)

Section Readable.
  Variables (cp : cp_arg) (raw : bytes).
  Hypothesis (Hcp : usable cp).

  Lemma read_page b : read_string cp b = (field_warning cp b, Ok (field_text cp b)).
  Proof. now apply read_string_field. Qed.

  Section Common.
    Hypotheses (H28 : 28 <= lenN raw) (H36 : 0x24 <= num 4 4 raw -> 36 <= lenN raw).

    Lemma when_base :
      when (o <- local_base_path_offset raw ;; ret (negb (o =? 0)))
        (fields [("local_base_path", t <- local_base_path cp raw ;; ret (POpt PStr t))])
      = (warn_if (negb (num 4 16 raw =? 0)) (field_warning cp (dropN (num 4 16 raw) raw)),
         Ok (entry_if (negb (num 4 16 raw =? 0)) [("local_base_path"%string, PStr (field_text cp (dropN (num 4 16 raw) raw)))])).
    Proof.
      unfold when, local_base_path, local_base_path_offset. rewrite u32_ok by lia. rewrite !bind_ret_l.
      destruct (num 4 16 raw =? 0); cbn [negb warn_if entry_if]; [reflexivity|].
      cbn [fields]. rewrite read_page. rewrite !bind_Ok. cbn. now rewrite !app_nil_r.
    Qed.
    Lemma when_suffix :
      when (o <- common_path_suffix_offset raw ;; ret (negb (o =? 0)))
        (fields [("common_path_suffix", t <- common_path_suffix cp raw ;; ret (POpt PStr t))])
      = (warn_if (negb (num 4 24 raw =? 0)) (field_warning cp (dropN (num 4 24 raw) raw)),
         Ok (entry_if (negb (num 4 24 raw =? 0)) [("common_path_suffix"%string, PStr (field_text cp (dropN (num 4 24 raw) raw)))])).
    Proof.
      unfold when, common_path_suffix, common_path_suffix_offset. rewrite u32_ok by lia. rewrite !bind_ret_l.
      destruct (num 4 24 raw =? 0); cbn [negb warn_if entry_if]; [reflexivity|].
      cbn [fields]. rewrite read_page. rewrite !bind_Ok. cbn. now rewrite !app_nil_r.
    Qed.
    Lemma wide_base_off : local_base_path_offset_unicode raw
      = ret (if 0x24 <=? num 4 4 raw then Some (num 4 28 raw) else None).
    Proof.
      unfold local_base_path_offset_unicode, has_opt_fields, info_header_size. rewrite u32_ok by lia. rewrite !bind_ret_l.
      destruct (0x24 <=? num 4 4 raw) eqn:E; [|reflexivity]. rewrite u32_ok by lia. now rewrite bind_ret_l.
    Qed.
    Lemma wide_suffix_off : common_path_suffix_offset_unicode raw
      = ret (if 0x24 <=? num 4 4 raw then Some (num 4 32 raw) else None).
    Proof.
      unfold common_path_suffix_offset_unicode, has_opt_fields, info_header_size. rewrite u32_ok by lia. rewrite !bind_ret_l.
      destruct (0x24 <=? num 4 4 raw) eqn:E; [|reflexivity]. rewrite u32_ok by lia. now rewrite bind_ret_l.
    Qed.
    Lemma when_wide_base :
      when (o <- local_base_path_offset_unicode raw ;; ret (truthyN o))
        (fields
          [("local_base_path_offset_unicode", o <- local_base_path_offset_unicode raw ;; ret (POpt PN o));
           ("local_base_path_unicode", t <- local_base_path_unicode raw ;; ret (POpt PStr t))])
      = (let w := wide_offset 28 raw in
         (warn_if (negb (w =? 0)) (wide_warning (dropN w raw)),
          Ok (entry_if (negb (w =? 0))
            [("local_base_path_offset_unicode"%string, PN w); ("local_base_path_unicode"%string, PStr (wide_text (dropN w raw)))]))).
    Proof.
      unfold when, local_base_path_unicode. rewrite wide_base_off. rewrite !bind_ret_l. unfold wide_offset.
      destruct (0x24 <=? num 4 4 raw); [|reflexivity]. cbn [truthyN]. cbv zeta.
      destruct (num 4 28 raw =? 0); cbn [negb warn_if entry_if]; [reflexivity|].
      cbn [fields valN]. rewrite read_unicode_field. rewrite !bind_Ok. cbn. now rewrite !app_nil_r.
    Qed.
    Lemma when_wide_suffix :
      when (o <- common_path_suffix_offset_unicode raw ;; ret (truthyN o))
        (fields
          [("common_path_suffix_offset_unicode", o <- common_path_suffix_offset_unicode raw ;; ret (POpt PN o));
           ("common_path_suffix_unicode", t <- common_path_suffix_unicode raw ;; ret (POpt PStr t))])
      = (let w := wide_offset 32 raw in
         (warn_if (negb (w =? 0)) (wide_warning (dropN (w + 4) raw)),
          Ok (entry_if (negb (w =? 0))
            [("common_path_suffix_offset_unicode"%string, PN w);
             ("common_path_suffix_unicode"%string, PStr (wide_text (dropN (w + 4) raw)))]))).
    Proof.
      unfold when, common_path_suffix_unicode. rewrite wide_suffix_off. rewrite !bind_ret_l. unfold wide_offset.
      destruct (0x24 <=? num 4 4 raw); [|reflexivity]. cbn [truthyN]. cbv zeta.
      destruct (num 4 32 raw =? 0); cbn [negb warn_if entry_if]; [reflexivity|].
      cbn [fields valN]. rewrite read_unicode_field. rewrite !bind_Ok. cbn. now rewrite !app_nil_r.
    Qed.
  End Common.

  Section LocalPart.
    Let o := num 4 12 raw.
    Hypotheses (H28 : 28 <= lenN raw) (H16 : o + 16 <= lenN raw) (H20 : num 4 (o + 12) raw = 0x14 -> o + 20 <= lenN raw).
    Lemma vol_off : volume_id_offset raw = ret o.
    Proof. clear H16 H20. unfold volume_id_offset. now rewrite u32_ok by lia. Qed.
    Lemma label_off : volume_label_offset raw = ret (num 4 (o + 12) raw).
    Proof. clear H20. unfold volume_label_offset. rewrite vol_off, bind_ret_l. now rewrite u32_ok by lia. Qed.
    Lemma label_wide : volume_label_unicode_offset raw
      = ret (if num 4 (o + 12) raw =? 0x14 then Some (num 4 (o + 16) raw) else None).
    Proof.
      unfold volume_label_unicode_offset, has_volume_label_offset_unicode. rewrite label_off, !bind_ret_l.
      destruct (num 4 (o + 12) raw =? 0x14) eqn:E; [|reflexivity].
      rewrite vol_off, bind_ret_l. rewrite u32_ok by lia. now rewrite bind_ret_l.
    Qed.
    Lemma local_ok : local_info_dict cp raw = (local_warnings cp raw, Ok (local_entries cp raw)).
    Proof.
      unfold local_info_dict, local_warnings, local_entries. fold o. cbv zeta. rewrite label_wide, bind_ret_l.
      assert (HF : fields
        [("volume_id_size", n <- volume_id_size raw ;; ret (PN n));
         ("r_drive_type", n <- r_drive_type raw ;; ret (PN n));
         ("volume_label_offset", n <- volume_label_offset raw ;; ret (PN n));
         ("drive_serial_number", t <- drive_serial_number raw ;; ret (PStr t));
         ("drive_type", s <- drive_type raw ;; ret (POpt PS s));
         ("volume_label", t <- volume_label cp raw ;; ret (POpt PStr t))]
        = (warn_if (negb (num 4 (o + 12) raw =? 0x14)) (field_warning cp (dropN (o + num 4 (o + 12) raw) raw)),
           Ok [("volume_id_size"%string, PN (num 4 o raw)); ("r_drive_type"%string, PN (num 4 (o + 4) raw)); ("volume_label_offset"%string, PN (num 4 (o + 12) raw));
   ("drive_serial_number"%string, PStr (hex_text (num 4 (o + 8) raw)));
   ("drive_type"%string, POpt PS (drive_name (num 4 (o + 4) raw)));
   ("volume_label"%string, if num 4 (o + 12) raw =? 0x14 then PNone else PStr (field_text cp (dropN (o + num 4 (o + 12) raw) raw)))])).
      { unfold volume_id_size, r_drive_type, drive_serial_number, drive_type, r_drive_type, volume_label,
          has_volume_label_offset_unicode.
        rewrite label_off, vol_off, !bind_ret_l. rewrite !u32_ok by lia. rewrite !bind_ret_l.
        rewrite <- drive_lookup.
        assert (HD : forall X : option string, (if num 4 (o + 4) raw <? lenN DRIVE_TYPES then ret X else ret None)
                     = (ret (if num 4 (o + 4) raw <? lenN DRIVE_TYPES then X else None) : M (option string)))
          by (intros; now destruct (_ <? _)).
        rewrite HD, bind_ret_l.
        destruct (num 4 (o + 12) raw =? 0x14).
        - rewrite !bind_ret_l. reflexivity.
        - rewrite read_page. cbn [fields negb warn_if]. rewrite !bind_ret_l, !bind_Ok. cbn [fst snd ret].
          rewrite !bind_Ok. cbn. now rewrite !app_nil_r. }
      rewrite HF. eapply eq_trans.
      { apply bind_pair. unfold when, volume_label_unicode. rewrite label_wide, !bind_ret_l.
        instantiate (1 := [("volume_id_size"%string, PN (num 4 o raw)); ("r_drive_type"%string, PN (num 4 (o + 4) raw)); ("volume_label_offset"%string, PN (num 4 (o + 12) raw));
   ("drive_serial_number"%string, PStr (hex_text (num 4 (o + 8) raw)));
   ("drive_type"%string, POpt PS (drive_name (num 4 (o + 4) raw)));
   ("volume_label"%string, if num 4 (o + 12) raw =? 0x14 then PNone else PStr (field_text cp (dropN (o + num 4 (o + 12) raw) raw)))]
          ++ entry_if (negb ((if num 4 (o + 12) raw =? 0x14 then num 4 (o + 16) raw else 0) =? 0))
             [("volume_label_unicode_offset"%string, PN (if num 4 (o + 12) raw =? 0x14 then num 4 (o + 16) raw else 0));
              ("volume_label_unicode"%string, PStr (wide_text (dropN (o + (if num 4 (o + 12) raw =? 0x14 then num 4 (o + 16) raw else 0)) raw)))]).
        instantiate (1 := warn_if (negb ((if num 4 (o + 12) raw =? 0x14 then num 4 (o + 16) raw else 0) =? 0))
          (wide_warning (dropN (o + (if num 4 (o + 12) raw =? 0x14 then num 4 (o + 16) raw else 0)) raw))).
        destruct (num 4 (o + 12) raw =? 0x14); [|reflexivity].
        cbn [truthyN]. destruct (num 4 (o + 16) raw =? 0); cbn [negb warn_if entry_if]; [reflexivity|].
        rewrite vol_off, !bind_ret_l. cbn [valN]. rewrite read_unicode_field. cbn [fields]. rewrite !bind_ret_l, !bind_Ok.
        cbn. now rewrite !app_nil_r. }
      reflexivity.
    Qed.
  End LocalPart.

  Section NetworkPart.
    Let o := num 4 20 raw.
    Hypotheses (H28 : 28 <= lenN raw) (H20 : o + 20 <= lenN raw) (HW : 20 < num 4 (o + 8) raw -> o + 28 <= lenN raw).
    Lemma net_off : common_network_relative_link_offset raw = ret o.
    Proof. clear H20 HW. unfold common_network_relative_link_offset. now rewrite u32_ok by lia. Qed.
    Lemma name_off : net_name_offset raw = ret (num 4 (o + 8) raw).
    Proof. clear HW. unfold net_name_offset. rewrite net_off, bind_ret_l. now rewrite u32_ok by lia. Qed.
    Lemma provider_ok : network_provider_type raw
      = ret (if N.testbit (num 4 (o + 4) raw) 1 then known_provider (num 4 (o + 16) raw) else None).
    Proof.
      unfold network_provider_type, cnrl_flags, r_network_provider_type. rewrite net_off, !bind_ret_l.
      rewrite !u32_ok by lia. rewrite !bind_ret_l. pose proof (mask_bit (num 4 (o + 4) raw) 2 1 eq_refl) as HM.
      destruct (N.land _ 2 =? 0); cbn [negb] in HM; rewrite <- HM; [reflexivity|]. now rewrite provider_lookup.
    Qed.
    Lemma wname_off : net_name_offset_unicode raw
      = ret (if 20 <? num 4 (o + 8) raw then Some (num 4 (o + 20) raw) else None).
    Proof.
      unfold net_name_offset_unicode. rewrite name_off, bind_ret_l. rewrite N.leb_antisym.
      destruct (20 <? num 4 (o + 8) raw) eqn:E; cbn [negb]; [|reflexivity].
      rewrite net_off, bind_ret_l. rewrite u32_ok by lia. now rewrite bind_ret_l.
    Qed.
    Lemma wdevice_off : device_name_offset_unicode raw
      = ret (if 20 <? num 4 (o + 8) raw then Some (num 4 (o + 24) raw) else None).
    Proof.
      unfold device_name_offset_unicode. rewrite name_off, bind_ret_l. rewrite N.leb_antisym.
      destruct (20 <? num 4 (o + 8) raw) eqn:E; cbn [negb]; [|reflexivity].
      rewrite net_off, bind_ret_l. rewrite u32_ok by lia. now rewrite bind_ret_l.
    Qed.
    Lemma name_ok : net_name cp raw =
      if num 4 (o + 8) raw <=? 20
      then (field_warning cp (dropN (o + num 4 (o + 8) raw) raw), Ok (Some (field_text cp (dropN (o + num 4 (o + 8) raw) raw))))
      else ret None.
    Proof.
      unfold net_name. rewrite name_off, bind_ret_l. rewrite (N.leb_antisym 20).
      destruct (20 <? num 4 (o + 8) raw) eqn:E; cbn [negb]; [reflexivity|].
      rewrite net_off, !bind_ret_l, read_page. rewrite bind_Ok. cbn. now rewrite app_nil_r.
    Qed.
    Lemma device_ok : device_name cp raw =
      if num 4 (o + 8) raw <=? 20
      then (field_warning cp (dropN (o + num 4 (o + 12) raw) raw), Ok (Some (field_text cp (dropN (o + num 4 (o + 12) raw) raw))))
      else ret None.
    Proof.
      unfold device_name, device_name_offset. rewrite name_off, bind_ret_l. rewrite (N.leb_antisym 20).
      destruct (20 <? num 4 (o + 8) raw) eqn:E; cbn [negb]; [reflexivity|].
      rewrite net_off, !bind_ret_l. rewrite u32_ok by lia. rewrite bind_ret_l, read_page. rewrite bind_Ok. cbn. now rewrite app_nil_r.
    Qed.
    Lemma when_name key (m : M (option text)) (b : bool) off :
      m = (if b then (field_warning cp (dropN off raw), Ok (Some (field_text cp (dropN off raw)))) else ret None) ->
      when (t <- m ;; ret (truthy_text t)) (fields [(key, t <- m ;; ret (POpt PStr t))])
      = (warn_if b (name_warnings cp (dropN off raw)),
         Ok (entry_if (b && nonempty (field_text cp (dropN off raw))) [(key, PStr (field_text cp (dropN off raw)))])).
    Proof.
      intros ->. unfold when, name_warnings. destruct b; cbn [andb]; [|reflexivity].
      rewrite !bind_Ok. cbn [fst snd ret]. rewrite app_nil_r. cbn [truthy_text].
      destruct (field_text cp (dropN off raw)) as [|c t] eqn:E; cbn [nonempty warn_if entry_if]; [cbn; now rewrite app_nil_r|].
      cbn [fields]. rewrite !bind_Ok. cbn. rewrite !app_nil_r. reflexivity.
    Qed.
    Lemma when_wide k1 k2 (mo : M (option N)) (mt : M (option text)) (b : bool) off :
      mo = ret (if b then Some off else None) ->
      (b = true -> mt = (wide_warning (dropN (o + off) raw), Ok (Some (wide_text (dropN (o + off) raw))))) ->
      when (x <- mo ;; ret (truthyN x)) (fields [(k1, x <- mo ;; ret (POpt PN x)); (k2, t <- mt ;; ret (POpt PStr t))])
      = (warn_if (negb ((if b then off else 0) =? 0)) (wide_warning (dropN (o + (if b then off else 0)) raw)),
         Ok (entry_if (negb ((if b then off else 0) =? 0))
               [(k1, PN (if b then off else 0)); (k2, PStr (wide_text (dropN (o + (if b then off else 0)) raw)))])).
    Proof.
      intros -> HT. unfold when. rewrite !bind_ret_l. destruct b; [|reflexivity]. rewrite HT by reflexivity. cbn [truthyN].
      destruct (off =? 0); cbn [negb warn_if entry_if]; [reflexivity|].
      cbn [fields]. rewrite !bind_ret_l, !bind_Ok. cbn. now rewrite !app_nil_r.
    Qed.
    Lemma network_ok : network_info_dict cp raw = (network_warnings cp raw, Ok (network_entries cp raw)).
    Proof.
      unfold network_info_dict, network_warnings, network_entries. fold o. cbv zeta.
      assert (HF : fields
        [("common_network_relative_link_size", n <- cnrl_size raw ;; ret (PN n));
         ("common_network_relative_link_flags", n <- cnrl_flags raw ;; ret (PN n));
         ("net_name_offset", n <- net_name_offset raw ;; ret (PN n));
         ("device_name_offset", n <- device_name_offset raw ;; ret (PN n));
         ("r_network_provider_type", t <- r_network_provider_type raw ;; ret (PStr t))]
        = ret [("common_network_relative_link_size"%string, PN (num 4 o raw));
   ("common_network_relative_link_flags"%string, PN (num 4 (o + 4) raw));
   ("net_name_offset"%string, PN (num 4 (o + 8) raw)); ("device_name_offset"%string, PN (num 4 (o + 12) raw));
   ("r_network_provider_type"%string, PStr (hex_text (num 4 (o + 16) raw)))]).
      { unfold cnrl_size, cnrl_flags, net_name_offset, device_name_offset, r_network_provider_type.
        rewrite net_off, !bind_ret_l. rewrite !u32_ok by lia. rewrite !bind_ret_l. reflexivity. }
      rewrite HF, bind_ret_l.
      assert (HP : when (t <- network_provider_type raw ;; ret (match t with Some _ => true | None => false end))
                     (fields [("network_provider_type", t <- network_provider_type raw ;; ret (POpt PS t))])
                   = ret (if N.testbit (num 4 (o + 4) raw) 1 then
                            match known_provider (num 4 (o + 16) raw) with Some s => [("network_provider_type"%string, PS s)] | None => [] end
                          else [])).
      { rewrite provider_ok. unfold when. rewrite !bind_ret_l. destruct (N.testbit _ 1); [|reflexivity].
        destruct (known_provider _); reflexivity. }
      rewrite HP, bind_ret_l.
      rewrite (when_wide _ _ _ (net_name_unicode raw) _ _ wname_off).
      2: { intros E. unfold net_name_unicode. rewrite name_off, bind_ret_l. replace (num 4 (o + 8) raw <=? 20) with false by lia.
           rewrite net_off, bind_ret_l, wname_off, E, bind_ret_l. cbn [valN]. rewrite read_unicode_field, bind_Ok. cbn.
           now rewrite app_nil_r. }
      rewrite (when_wide _ _ _ (device_name_unicode raw) _ _ wdevice_off).
      2: { intros E. unfold device_name_unicode. rewrite name_off, bind_ret_l. replace (num 4 (o + 8) raw <=? 20) with false by lia.
           rewrite net_off, bind_ret_l, wdevice_off, E, bind_ret_l. cbn [valN]. rewrite read_unicode_field, bind_Ok. cbn.
           now rewrite app_nil_r. }
      rewrite (when_name _ _ _ _ name_ok), (when_name _ _ _ _ device_ok).

      rewrite !bind_Ok. cbn [fst snd ret]. now rewrite !app_nil_r.
    Qed.
  End NetworkPart.
End Readable.

Definition is_network (k : info_kind) : bool := match k with Network => true | Local => false end.

Lemma readable_parts network raw : info_readable network raw = true ->
  28 <= lenN raw /\ (0x24 <= num 4 4 raw -> 36 <= lenN raw)
  /\ (if network then num 4 20 raw + 20 <= lenN raw /\ (20 < num 4 (num 4 20 raw + 8) raw -> num 4 20 raw + 28 <= lenN raw)
      else num 4 12 raw + 16 <= lenN raw /\ (num 4 (num 4 12 raw + 12) raw = 0x14 -> num 4 12 raw + 20 <= lenN raw)).
Proof.
  unfold info_readable. cbv zeta. intros H. apply andb_prop in H as [H H3]. apply andb_prop in H as [H1 H2].
  split; [lia|]. split.
  - intros HX. destruct (0x24 <=? num 4 4 raw) eqn:E; lia.
  - destruct network; apply andb_prop in H3 as [H3 H4]; (split; [lia|]); intros HX.
    + destruct (20 <? num 4 (num 4 20 raw + 8) raw) eqn:E; lia.
    + destruct (num 4 (num 4 12 raw + 12) raw =? 0x14) eqn:E; lia.
Qed.
Lemma readable_intro (network : bool) raw :
  28 <= lenN raw -> (0x24 <= num 4 4 raw -> 36 <= lenN raw) ->
  (if network then num 4 20 raw + 20 <= lenN raw /\ (20 < num 4 (num 4 20 raw + 8) raw -> num 4 20 raw + 28 <= lenN raw)
   else num 4 12 raw + 16 <= lenN raw /\ (num 4 (num 4 12 raw + 12) raw = 0x14 -> num 4 12 raw + 20 <= lenN raw)) ->
  info_readable network raw = true.
Proof.
  intros H1 H2 H3. unfold info_readable. cbv zeta. apply andb_true_intro. split; [apply andb_true_intro; split; [lia|]|].
  - destruct (0x24 <=? num 4 4 raw) eqn:E; [|reflexivity]. specialize (H2 ltac:(lia)). lia.
  - destruct network; destruct H3 as [H3 H4]; apply andb_true_intro; (split; [lia|]).
    + destruct (20 <? num 4 (num 4 20 raw + 8) raw) eqn:E; [|reflexivity]. specialize (H4 ltac:(lia)). lia.
    + destruct (num 4 (num 4 12 raw + 12) raw =? 0x14) eqn:E; [|reflexivity]. specialize (H4 ltac:(lia)). lia.
Qed.

Lemma info_dict_ok cp k raw : usable cp -> info_readable (is_network k) raw = true ->
  info_dict cp k raw = (info_warnings cp (is_network k) raw, Ok (info_entries cp (is_network k) raw)).
Proof.
  intros Hcp HR. apply readable_parts in HR as (H28 & H36 & HP). unfold info_dict.
  assert (HF : fields
    [("link_info_size", n <- info_size raw ;; ret (PN n));
     ("link_info_header_size", n <- info_header_size raw ;; ret (PN n));
     ("link_info_flags", n <- info_flags raw ;; ret (PN n));
     ("volume_id_offset", n <- volume_id_offset raw ;; ret (PN n));
     ("local_base_path_offset", n <- local_base_path_offset raw ;; ret (PN n));
     ("common_network_relative_link_offset", n <- common_network_relative_link_offset raw ;; ret (PN n));
     ("common_path_suffix_offset", n <- common_path_suffix_offset raw ;; ret (PN n))]
    = ret [("link_info_size"%string, PN (num 4 0 raw)); ("link_info_header_size"%string, PN (num 4 4 raw));
   ("link_info_flags"%string, PN (num 4 8 raw)); ("volume_id_offset"%string, PN (num 4 12 raw));
   ("local_base_path_offset"%string, PN (num 4 16 raw)); ("common_network_relative_link_offset"%string, PN (num 4 20 raw));
   ("common_path_suffix_offset"%string, PN (num 4 24 raw))]).
  { unfold info_size, info_header_size, info_flags, volume_id_offset, local_base_path_offset,
      common_network_relative_link_offset, common_path_suffix_offset. rewrite !u32_ok by lia. rewrite !bind_ret_l. reflexivity. }
  rewrite HF, bind_ret_l. rewrite when_base, when_suffix, when_wide_base, when_wide_suffix by assumption. cbv zeta.
  unfold info_warnings, info_entries, common_warnings, common_entries. cbv zeta.
  destruct k; cbn [is_network] in *; destruct HP as [HP1 HP2];
    [rewrite local_ok by assumption|rewrite network_ok by assumption];
    rewrite !bind_Ok; cbn [fst snd ret]; rewrite <- !app_assoc, app_nil_r; reflexivity.
Qed.

Lemma fields_row rows d k m : snd (fields rows) = Ok d -> In (k, m) rows -> exists v, snd m = Ok v.
Proof.
  revert d. induction rows as [|[k' m'] rows IH]; [intros ? _ []|]. cbn [fields]. intros d H [E|Hin].
  - injection E as <- <-. apply snd_bind_Ok in H as (v & Hv & _). now exists v.
  - apply snd_bind_Ok in H as (v & _ & H). apply snd_bind_Ok in H as (d' & H & _). eauto.
Qed.
Lemma snd_ret_bind {A B} (m : M A) (f : A -> B) v : snd (x <- m ;; ret (f x)) = Ok v -> exists a, snd m = Ok a.
Proof. intros H. apply snd_bind_Ok in H as (a & Ha & _). now exists a. Qed.
Lemma when_test test rows d : snd (when test rows) = Ok d -> exists b, snd test = Ok b.
Proof. unfold when. intros H. apply snd_bind_Ok in H as (b & Hb & _). now exists b. Qed.
Lemma num_bound off raw : fits32 (num 4 off raw).
Proof. exact (num_lt 4 off raw). Qed.

Lemma info_dict_readable cp k raw d : snd (info_dict cp k raw) = Ok d -> info_readable (is_network k) raw = true.
Proof.
  unfold info_dict. intros H. apply snd_bind_Ok in H as (d1 & H1 & H). apply snd_bind_Ok in H as (d2 & _ & H).
  apply snd_bind_Ok in H as (d3 & _ & H). apply snd_bind_Ok in H as (d4 & _ & H). apply snd_bind_Ok in H as (d5 & H5 & H).
  apply snd_bind_Ok in H as (li & HL & _).
  assert (H28 : 28 <= lenN raw).
  { eapply fields_row in H1 as [v Hv]; [|do 6 right; left; reflexivity]. apply snd_ret_bind in Hv as [a Ha].
    apply u32_len in Ha. lia. }
  apply readable_intro; [exact H28| |].
  - intros HX. apply when_test in H5 as [x Hx]. apply snd_ret_bind in Hx as [a Ha].
    unfold common_path_suffix_offset_unicode, has_opt_fields, info_header_size in Ha. rewrite (u32_ok 4) in Ha by lia.
    rewrite !bind_ret_l in Ha. replace (0x24 <=? num 4 4 raw) with true in Ha by lia.
    apply snd_ret_bind in Ha as [a' Ha]. apply u32_len in Ha. lia.
  - destruct k; cbn [is_network].
    + unfold local_info_dict in HL. apply snd_bind_Ok in HL as (l1 & HL1 & HL). apply snd_bind_Ok in HL as (l2 & HL2 & _).
      assert (H16 : num 4 12 raw + 16 <= lenN raw).
      { eapply fields_row in HL1 as [v Hv]; [|do 2 right; left; reflexivity]. apply snd_ret_bind in Hv as [a Ha].
        unfold volume_label_offset in Ha. rewrite vol_off, bind_ret_l in Ha by assumption. apply u32_len in Ha. lia. }
      split; [exact H16|]. intros HX. apply when_test in HL2 as [x Hx]. apply snd_ret_bind in Hx as [a Ha].
      unfold volume_label_unicode_offset, has_volume_label_offset_unicode in Ha.
      rewrite label_off, vol_off, !bind_ret_l in Ha by assumption.
      rewrite HX in Ha. cbn [N.eqb Pos.eqb] in Ha. apply snd_ret_bind in Ha as [a' Ha]. apply u32_len in Ha. lia.
    + unfold network_info_dict in HL. apply snd_bind_Ok in HL as (l1 & HL1 & HL). apply snd_bind_Ok in HL as (l2 & _ & HL).
      apply snd_bind_Ok in HL as (l3 & _ & HL). apply snd_bind_Ok in HL as (l4 & HL4 & _).
      assert (H20 : num 4 20 raw + 20 <= lenN raw).
      { eapply fields_row in HL1 as [v Hv]; [|do 4 right; left; reflexivity]. apply snd_ret_bind in Hv as [a Ha].
        unfold r_network_provider_type in Ha. rewrite net_off, bind_ret_l in Ha by assumption.
        apply snd_ret_bind in Ha as [a' Ha]. apply u32_len in Ha. lia. }
      split; [exact H20|]. intros HX. apply when_test in HL4 as [x Hx]. apply snd_ret_bind in Hx as [a Ha].
      unfold device_name_offset_unicode in Ha. rewrite name_off, bind_ret_l in Ha by assumption.
      replace (num 4 (num 4 20 raw + 8) raw <=? 20) with false in Ha by lia.
      rewrite net_off, bind_ret_l in Ha by assumption. apply snd_ret_bind in Ha as [a' Ha]. apply u32_len in Ha. lia.
Qed.
Lemma info_dict_snd cp k raw : usable cp ->
  snd (info_dict cp k raw) = if info_readable (is_network k) raw then Ok (info_entries cp (is_network k) raw) else Err StructError.
Proof.
  intros Hcp. destruct (info_readable _ _) eqn:E; [now rewrite info_dict_ok|].
  destruct (snd (info_dict cp k raw)) as [d|e] eqn:ED; [apply info_dict_readable in ED; congruence|].
  f_equal. assert (HR : raises (fun e => e = StructError) (info_dict cp k raw)).
  { apply r_info_dict; [reflexivity|intros ->; now destruct Hcp]. }
  exact (HR e ED).
Qed.

(** ** Abstract sections *)

Lemma slot_text u cp raw base off body : slot_in u raw base (Some (off, body)) ->
  stored_text u cp (dropN (base + off) raw) = stored_text u cp body
  /\ stored_warning u cp (dropN (base + off) raw) = stored_warning u cp body.
Proof.
  intros (_ & _ & HZ & HH). apply holds_drop in HH as [after ->]. now apply stored_nul.
Qed.
Lemma slot_off_zero u raw base s : slot_in u raw base s -> (at_offset s =? 0) = match s with Some _ => false | None => true end.
Proof. destruct s as [[off body]|]; [|reflexivity]. cbn. lia. Qed.
Lemma slot_fits u raw base s : slot_in u raw base s -> fits32 (at_offset s).
Proof. destruct s as [[off body]|]; cbn; unfold fits32; [tauto|lia]. Qed.
Lemma slot_suffix u raw tail base s : slot_in u raw base s -> slot_in u (raw ++ tail) base s.
Proof. destruct s as [[off body]|]; [|trivial]. intros (A & B & C & D). repeat split; try assumption. now apply holds_suffix. Qed.

(** Numbers stored one after the other. *)
Lemma holds_u32 raw p n rest : holds raw p (enc32 n ++ rest) -> fits32 n ->
  num 4 p raw = n /\ p + 4 <= lenN raw /\ holds raw (p + 4) rest.
Proof.
  intros H Hn. apply holds_app in H as [H1 H2]. change (lenN (enc32 n)) with 4 in H2.
  split; [now apply holds_num32|]. split; [|assumption]. apply holds_len in H1. change (lenN (enc32 n)) with 4 in H1. lia.
Qed.
Lemma holds_u32_last raw p n : holds raw p (enc32 n) -> fits32 n -> num 4 p raw = n /\ p + 4 <= lenN raw.
Proof.
  intros H Hn. split; [now apply holds_num32|]. apply holds_len in H. change (lenN (enc32 n)) with 4 in H. lia.
Qed.
Lemma holds_off raw p q piece : p = q -> holds raw p piece -> holds raw q piece.
Proof. now intros ->. Qed.

Lemma info_numbers raw i : info_in raw i ->
  28 <= lenN raw /\ (0x24 <= i_header i -> 36 <= lenN raw)
  /\ num 4 0 raw = i_size i /\ num 4 4 raw = i_header i /\ num 4 8 raw = i_flags i /\ num 4 12 raw = i_volume_at i
  /\ num 4 16 raw = at_offset (i_base i) /\ num 4 20 raw = i_network_at i /\ num 4 24 raw = at_offset (i_suffix i)
  /\ wide_offset 28 raw = match i_wide i with Some (b, _) => at_offset b | None => 0 end
  /\ wide_offset 32 raw = match i_wide i with Some (_, s) => at_offset s | None => 0 end.
Proof.
  intros (F1 & F2 & F3 & F4 & F5 & HW & HH & HB & HS & HWS). pose proof (slot_fits _ _ _ _ HB) as FB.
  pose proof (slot_fits _ _ _ _ HS) as FS. unfold encode_info in HH.
  apply holds_u32 in HH as (N0 & _ & HH); [|assumption]. apply holds_u32 in HH as (N1 & _ & HH); [|assumption].
  apply holds_u32 in HH as (N2 & _ & HH); [|assumption]. apply holds_u32 in HH as (N3 & _ & HH); [|assumption].
  apply holds_u32 in HH as (N4 & _ & HH); [|assumption]. apply holds_u32 in HH as (N5 & _ & HH); [|assumption].
  apply holds_u32 in HH as (N6 & L6 & HH); [|assumption].
  change (0 + 4) with 4 in *. change (4 + 4) with 8 in *. change (8 + 4) with 12 in *. change (12 + 4) with 16 in *.
  change (16 + 4) with 20 in *. change (20 + 4) with 24 in *. change (24 + 4) with 28 in *.
  unfold wide_offset. rewrite N1. destruct (i_wide i) as [[b s]|].
  - destruct HWS as [HWB HWS]. pose proof (slot_fits _ _ _ _ HWB) as FWB. pose proof (slot_fits _ _ _ _ HWS) as FWS.
    apply holds_u32 in HH as (N7 & L7 & HH); [|assumption]. apply holds_u32_last in HH as (N8 & L8); [|assumption].
    change (28 + 4) with 32 in *. change (32 + 4) with 36 in *.
    assert (0x24 <= i_header i) by (apply HW; discriminate). replace (36 <=? i_header i) with true by lia.
    repeat split; try assumption; lia.
  - assert (~ 0x24 <= i_header i) by (intros HX; apply HW in HX; congruence). replace (36 <=? i_header i) with false by lia.
    repeat split; try assumption; lia.
Qed.

Lemma slot_page cp raw base s key : slot_in false raw base s ->
  entry_if (negb (at_offset s =? 0)) [(key, PStr (field_text cp (dropN (base + at_offset s) raw)))] = slot_entry false cp key s.
Proof.
  intros H. rewrite (slot_off_zero _ _ _ _ H). destruct s as [[off body]|]; [|reflexivity].
  destruct (slot_text _ cp _ _ _ _ H) as [H1 _]. cbn [stored_text] in H1. cbn [negb entry_if at_offset slot_entry stored_text]. now rewrite H1.
Qed.
Lemma slot_wide raw base s k1 k2 : slot_in true raw base s ->
  entry_if (negb (at_offset s =? 0)) [(k1, PN (at_offset s)); (k2, PStr (wide_text (dropN (base + at_offset s) raw)))]
  = wide_entries k1 k2 s.
Proof.
  intros H. rewrite (slot_off_zero _ _ _ _ H). destruct s as [[off body]|]; [|reflexivity].
  destruct (slot_text _ CpNone _ _ _ _ H) as [H1 _]. cbn [stored_text] in H1. cbn [negb entry_if at_offset wide_entries]. now rewrite H1.
Qed.
Lemma common_located cp raw i : info_in raw i -> common_entries cp raw = info_report cp raw i.
Proof.
  intros HI. pose proof HI as (_ & _ & _ & _ & _ & _ & _ & HB & HS & HWS).
  apply info_numbers in HI as (_ & _ & N0 & N1 & N2 & N3 & N4 & N5 & N6 & W1 & W2).
  unfold common_entries, info_report. cbv zeta. rewrite N0, N1, N2, N3, N4, N5, N6, W1, W2.
  rewrite <- (slot_page cp raw 0 _ _ HB), <- (slot_page cp raw 0 _ _ HS). rewrite !N.add_0_l.
  destruct (i_wide i) as [[b s]|]; [|reflexivity]. destruct HWS as [HWB HWS].
  rewrite <- (slot_wide raw 0 b _ _ HWB). rewrite N.add_0_l.
  rewrite (slot_off_zero _ _ _ _ HWS). destruct s as [[off body]|]; reflexivity.
Qed.

Lemma volume_located cp raw at_ v : num 4 12 raw = at_ -> volume_in raw at_ v ->
  local_entries cp raw = volume_report cp v
  /\ at_ + 16 <= lenN raw /\ (num 4 (at_ + 12) raw = 0x14 -> at_ + 20 <= lenN raw).
Proof.
  intros HA (F1 & F2 & F3 & HH & HL). unfold encode_volume in HH.
  apply holds_u32 in HH as (N0 & _ & HH); [|assumption]. apply holds_u32 in HH as (N1 & _ & HH); [|assumption].
  apply holds_u32 in HH as (N2 & _ & HH); [|assumption].
  replace (at_ + 4 + 4) with (at_ + 8) in * by lia. apply (holds_off _ _ (at_ + 12)) in HH; [|lia].
  unfold local_entries, volume_report. cbv zeta. rewrite HA, N0, N1, N2. destruct (v_label v) as [off body|s].
  - destruct HL as (FO & HO & HZ & HS). apply holds_u32_last in HH as (N3 & L3); [|assumption]. rewrite N3.
    replace (off =? 0x14) with false by lia. split; [|split; [lia|lia]].
    apply holds_drop in HS as [after ->]. destruct (stored_nul false cp body after HZ) as [E _]. cbn [stored_text] in E.
    rewrite E. reflexivity.
  - pose proof (slot_fits _ _ _ _ HL) as FS. apply holds_u32 in HH as (N3 & L3 & HH); [|unfold fits32; lia].
    apply holds_u32_last in HH as (N4 & L4); [|assumption]. replace (at_ + 12 + 4) with (at_ + 16) in * by lia.
    rewrite N3, N4. cbn [N.eqb Pos.eqb]. split; [|split; lia]. rewrite (slot_wide raw at_ s _ _ HL). reflexivity.
Qed.

Lemma network_located cp raw at_ n : num 4 20 raw = at_ -> network_in raw at_ n ->
  network_entries cp raw = network_report cp n
  /\ at_ + 20 <= lenN raw /\ (20 < num 4 (at_ + 8) raw -> at_ + 28 <= lenN raw).
Proof.
  intros HA (F1 & F2 & F3 & HH & HL). unfold encode_network in HH.
  apply holds_u32 in HH as (N0 & _ & HH); [|assumption]. apply holds_u32 in HH as (N1 & _ & HH); [|assumption].
  apply (holds_off _ _ (at_ + 8)) in HH; [|lia].
  unfold network_entries, network_report. cbv zeta. rewrite HA, N0, N1. destruct (n_names n) as [na name da device|na da wn wd].
  - destruct HL as (HNA & FD & Z1 & Z2 & S1 & S2).
    apply holds_u32 in HH as (N2 & _ & HH); [|unfold fits32; lia]. apply holds_u32 in HH as (N3 & _ & HH); [|assumption].
    apply (holds_off _ _ (at_ + 16)) in HH; [|lia]. apply holds_u32_last in HH as (N4 & L4); [|assumption].
    replace (at_ + 8 + 4) with (at_ + 12) in * by lia. rewrite N2, N3, N4.
    replace (20 <? na) with false by lia. replace (na <=? 20) with true by lia. split; [|split; lia].
    apply holds_drop in S1 as [a1 ->]. apply holds_drop in S2 as [a2 ->].
    destruct (stored_nul false cp name a1 Z1) as [E1 _]. destruct (stored_nul false cp device a2 Z2) as [E2 _].
    cbn [stored_text] in E1, E2. rewrite E1, E2. reflexivity.
  - destruct HL as (HNA & FN & FD & S1 & S2). pose proof (slot_fits _ _ _ _ S1) as FS1. pose proof (slot_fits _ _ _ _ S2) as FS2.
    apply holds_u32 in HH as (N2 & _ & HH); [|assumption]. apply holds_u32 in HH as (N3 & _ & HH); [|assumption].
    apply (holds_off _ _ (at_ + 16)) in HH; [|lia]. apply holds_u32 in HH as (N4 & L4 & HH); [|assumption].
    apply (holds_off _ _ (at_ + 20)) in HH; [|lia]. apply holds_u32 in HH as (N5 & L5 & HH); [|assumption].
    apply (holds_off _ _ (at_ + 24)) in HH; [|lia]. apply holds_u32_last in HH as (N6 & L6); [|assumption].
    replace (at_ + 8 + 4) with (at_ + 12) in * by lia. rewrite N2, N3, N4, N5, N6.
    replace (20 <? na) with true by lia. replace (na <=? 20) with false by lia. split; [|split; lia].
    rewrite (slot_wide raw at_ wn _ _ S1), (slot_wide raw at_ wd _ _ S2). cbn [andb entry_if]. now rewrite !app_nil_r.
Qed.

Definition kind_of (loc : location) : info_kind := match loc with LocalAt _ => Local | NetworkAt _ => Network end.
Lemma located_report cp raw i loc : located raw i loc ->
  info_readable (is_network (kind_of loc)) raw = true
  /\ info_entries cp (is_network (kind_of loc)) raw = location_report cp raw i loc.
Proof.
  intros [HI HL]. pose proof (common_located cp raw i HI) as HC.
  apply info_numbers in HI as (L28 & L36 & N0 & N1 & N2 & N3 & N4 & N5 & N6 & W1 & W2).
  unfold info_entries, location_report. destruct loc as [v|n]; cbn [kind_of is_network].
  - destruct HL as [_ HV]. destruct (volume_located cp raw _ v N3 HV) as (HE & HA & HB).
    split; [apply readable_intro; [assumption|now rewrite N1|rewrite N3; now split]|]. now rewrite HC, HE.
  - destruct HL as (_ & _ & HV). destruct (network_located cp raw _ n N5 HV) as (HE & HA & HB).
    split; [apply readable_intro; [assumption|now rewrite N1|rewrite N5; now split]|]. now rewrite HC, HE.
Qed.

Lemma located_suffix s tail i loc : located s i loc -> located (s ++ tail) i loc.
Proof.
  intros [HI HL]. split.
  - destruct HI as (F1 & F2 & F3 & F4 & F5 & HW & HH & HB & HS & HWS). repeat split; try assumption; try (now apply slot_suffix).
    + apply HW.
    + apply HW.
    + now apply holds_suffix.
    + destruct (i_wide i) as [[b w]|]; [|trivial]. destruct HWS. split; now apply slot_suffix.
  - destruct loc as [v|n].
    + destruct HL as (HB & F1 & F2 & F3 & HH & HV). repeat split; try assumption; [now apply holds_suffix|].
      destruct (v_label v) as [off body|w]; [|now apply slot_suffix].
      destruct HV as (A & B & C & D). repeat split; try assumption. now apply holds_suffix.
    + destruct HL as (HB0 & HB & F1 & F2 & F3 & HH & HV). repeat split; try assumption; [now apply holds_suffix|].
      destruct (n_names n) as [na name da device|na da wn wd].
      * destruct HV as (A & B & C & D & E & F). repeat split; try assumption; now apply holds_suffix.
      * destruct HV as (A & B & C & D & E). repeat split; try assumption; now apply slot_suffix.
Qed.
