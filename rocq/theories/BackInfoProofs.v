(** * What can be read back from a report: the LinkInfo section *)
From Verif Require Import Lemmas PyTime Codec Utils Sha256 Header StringData Targets Info Extra LnkFile Report.
From Verif Require Import ApiProofs.
From Verif Require Import OutcomeProofs LayoutProofs EncProofs TextProofs TimeProofs FormatProofs ExtraProofs InfoProofs InfoFileProofs WholeProofs BackProofs.
From Verif Require Import Spec SpecText SpecHeader SpecTime SpecDouble SpecItems SpecInfo SpecExtra SpecOutcome SpecEntries SpecBlocks SpecWhole SpecBack.

Lemma dget_opt k c d : dget k (entry_if c d) = if c then dget k d else None. Proof. now destruct c. Qed.
Lemma both_same {A} (c : bool) (x : A) : (if c then x else x) = x. Proof. now destruct c. Qed.
Lemma or_none {A} (o : option A) : match o with Some v => Some v | None => None end = o. Proof. now destruct o. Qed.
Ltac look := rewrite ?dget_app, ?dget_opt; cbn [dget String.eqb Ascii.eqb Bool.eqb]; rewrite ?both_same, ?or_none.

Lemma hex_text_back a b : PStr (hex_text a) = PStr (hex_text b) -> a = b.
Proof. intros E. injection E as E. now apply hexx1_inj. Qed.
Lemma shown_back a b : (if negb (a =? 0) then Some (PN a) else None) = (if negb (b =? 0) then Some (PN b) else None) -> a = b.
Proof.
  destruct (N.eqb_spec a 0) as [->|Ha], (N.eqb_spec b 0) as [->|Hb]; cbn [negb]; intros E; try discriminate E; [reflexivity|].
  injection E as E. lia.
Qed.

Section Two.
  Variables (cp1 cp2 : cp_arg) (raw1 raw2 : bytes).

  Lemma common_back n1 n2 :
    (forall k, dget k (info_entries cp1 n1 raw1) = dget k (info_entries cp2 n2 raw2)) ->
    (forall o, In o [0; 4; 8; 12; 16; 20; 24] -> num 4 o raw1 = num 4 o raw2)
    /\ wide_offset 28 raw1 = wide_offset 28 raw2 /\ wide_offset 32 raw1 = wide_offset 32 raw2.
  Proof.
    intros H. split; [|split].
    - intros o Ho. assert (HK : forall k, In (k, o)
        [("link_info_size", 0); ("link_info_header_size", 4); ("link_info_flags", 8); ("volume_id_offset", 12);
         ("local_base_path_offset", 16); ("common_network_relative_link_offset", 20); ("common_path_suffix_offset", 24)]%string ->
        num 4 o raw1 = num 4 o raw2).
      { intros k Hk. specialize (H k). cbn [In] in Hk. unfold info_entries, common_entries in H. cbv zeta in H.
        destruct Hk as [[= <- <-]|[[= <- <-]|[[= <- <-]|[[= <- <-]|[[= <- <-]|[[= <- <-]|[[= <- <-]|[]]]]]]]];
          cbn [app dget String.eqb Ascii.eqb Bool.eqb] in H; injection H as H; lia. }
      cbn [In] in Ho, HK. destruct Ho as [<-|[<-|[<-|[<-|[<-|[<-|[<-|[]]]]]]]]; eapply HK; tauto.
    - specialize (H "local_base_path_offset_unicode"%string). apply shown_back. revert H. unfold info_entries, common_entries. cbv zeta. look. exact (fun x => x).
    - specialize (H "common_path_suffix_offset_unicode"%string). apply shown_back. revert H. unfold info_entries, common_entries. cbv zeta. look. exact (fun x => x).
  Qed.

  Lemma local_back :
    (forall k, dget k (local_entries cp1 raw1) = dget k (local_entries cp2 raw2)) ->
    let o1 := num 4 12 raw1 in let o2 := num 4 12 raw2 in
    (forall o, In o [0; 4; 8; 12] -> num 4 (o1 + o) raw1 = num 4 (o2 + o) raw2)
    /\ (num 4 (o1 + 12) raw1 = 0x14 -> num 4 (o1 + 16) raw1 = num 4 (o2 + 16) raw2).
  Proof.
    intros H o1 o2. unfold local_entries in H. cbv zeta in H. fold o1 o2 in H.
    pose proof (H "volume_id_size"%string) as H0. pose proof (H "r_drive_type"%string) as H4. pose proof (H "volume_label_offset"%string) as H12.
    pose proof (H "drive_serial_number"%string) as H8. pose proof (H "volume_label_unicode_offset"%string) as HW.
    cbn [app dget String.eqb Ascii.eqb Bool.eqb] in H0, H4, H8, H12.
    injection H0 as H0. injection H4 as H4. injection H12 as H12. assert (E8 : num 4 (o1 + 8) raw1 = num 4 (o2 + 8) raw2) by (apply hex_text_back; congruence).
    assert (E0 : num 4 o1 raw1 = num 4 o2 raw2) by lia. assert (E4 : num 4 (o1 + 4) raw1 = num 4 (o2 + 4) raw2) by lia.
    assert (E12 : num 4 (o1 + 12) raw1 = num 4 (o2 + 12) raw2) by lia. split.
    - intros o Ho. cbn [In] in Ho. destruct Ho as [<-|[<-|[<-|[<-|[]]]]]; rewrite ?N.add_0_r; assumption.
    - intros EL. rewrite <- E12, EL in HW. apply shown_back. revert HW. look. exact (fun x => x).
  Qed.

  Lemma network_back :
    (forall k, dget k (network_entries cp1 raw1) = dget k (network_entries cp2 raw2)) ->
    let o1 := num 4 20 raw1 in let o2 := num 4 20 raw2 in
    (forall o, In o [0; 4; 8; 12; 16] -> num 4 (o1 + o) raw1 = num 4 (o2 + o) raw2)
    /\ (20 < num 4 (o1 + 8) raw1 ->
        num 4 (o1 + 20) raw1 = num 4 (o2 + 20) raw2 /\ num 4 (o1 + 24) raw1 = num 4 (o2 + 24) raw2).
  Proof.
    intros H o1 o2. unfold network_entries in H. cbv zeta in H. fold o1 o2 in H.
    pose proof (H "common_network_relative_link_size"%string) as H0. pose proof (H "common_network_relative_link_flags"%string) as H4.
    pose proof (H "net_name_offset"%string) as H8. pose proof (H "device_name_offset"%string) as H12.
    pose proof (H "r_network_provider_type"%string) as H16.
    pose proof (H "net_name_offset_unicode"%string) as HN. pose proof (H "device_name_offset_unicode"%string) as HD.
    cbn [app dget String.eqb Ascii.eqb Bool.eqb] in H0, H4, H8, H12, H16.
    injection H0 as H0. injection H4 as H4. injection H8 as H8. injection H12 as H12.
    assert (E16 : num 4 (o1 + 16) raw1 = num 4 (o2 + 16) raw2) by (apply hex_text_back; congruence).
    assert (E0 : num 4 o1 raw1 = num 4 o2 raw2) by lia. assert (E4 : num 4 (o1 + 4) raw1 = num 4 (o2 + 4) raw2) by lia.
    assert (E8 : num 4 (o1 + 8) raw1 = num 4 (o2 + 8) raw2) by lia. assert (E12 : num 4 (o1 + 12) raw1 = num 4 (o2 + 12) raw2) by lia.
    assert (P : forall k (c : bool) p, k <> "network_provider_type"%string ->
      dget k (if c then match known_provider p with Some s => [("network_provider_type"%string, PS s)] | None => [] end else []) = None).
    { intros k c p Hk. destruct c; [destruct (known_provider p)|]; [|reflexivity..]. cbn [dget]. destruct (String.eqb_spec k "network_provider_type") as [->|_]; [now contradiction Hk|reflexivity]. }
    split.
    - intros o Ho. cbn [In] in Ho. destruct Ho as [<-|[<-|[<-|[<-|[<-|[]]]]]]; rewrite ?N.add_0_r; assumption.
    - intros EL. apply N.ltb_lt in EL. rewrite <- E8, EL in HN, HD.
      split; apply shown_back; [revert HN|revert HD]; rewrite !dget_app, !P by discriminate; look; exact (fun x => x).
  Qed.

  Lemma ranges_back n1 n2 : info_readable n1 raw1 = true -> info_readable n2 raw2 = true ->
    n1 = negb (N.testbit (num 4 8 raw1) 0) -> n2 = negb (N.testbit (num 4 8 raw2) 0) ->
    info_entries cp1 n1 raw1 = info_entries cp2 n2 raw2 ->
    n1 = n2 /\ told_info n1 raw1 = told_info n2 raw2 /\ same_ranges (told_info n1 raw1) raw1 raw2.
  Proof.
    intros R1 R2 D1 D2 E. assert (EK : forall k, dget k (info_entries cp1 n1 raw1) = dget k (info_entries cp2 n2 raw2)) by now rewrite E.
    destruct (common_back n1 n2 EK) as (EC & W1 & W2). assert (EN : n1 = n2) by (rewrite D1, D2, (EC 8) by (cbn; tauto); reflexivity).
    clear D1 D2. rewrite <- EN in *. clear EN n2. rename n1 into network. split; [reflexivity|].
    pose proof (EK "location_info"%string) as EL. rewrite !(proj2 (dget_location _ _ _)) in EL. injection EL as EL.
    apply readable_parts in R1 as (A28 & A36 & RA). apply readable_parts in R2 as (B28 & B36 & RB).
    pose proof (EC 4 ltac:(cbn; tauto)) as E4. pose proof (EC 12 ltac:(cbn; tauto)) as E12. pose proof (EC 20 ltac:(cbn; tauto)) as E20.
    assert (HC : same_at 0 (if 0x24 <=? num 4 4 raw1 then 36 else 28) raw1 raw2).
    { assert (HF : same_at 0 28 raw1 raw2).
      { assert (HF : forall o, In o [0; 4; 8; 12; 16; 20; 24] -> same_at o (o + 4) raw1 raw2).
        { intros o Ho. apply same_num; [cbn in Ho; lia..|now apply EC]. }
        pose proof (HF 0 ltac:(cbn; tauto)) as F0. pose proof (HF 4 ltac:(cbn; tauto)) as F4. pose proof (HF 8 ltac:(cbn; tauto)) as F8.
        pose proof (HF 12 ltac:(cbn; tauto)) as F12. pose proof (HF 16 ltac:(cbn; tauto)) as F16. pose proof (HF 20 ltac:(cbn; tauto)) as F20.
        pose proof (HF 24 ltac:(cbn; tauto)) as F24.
        apply (same_join 0 4 28); [lia..|exact F0|]. apply (same_join 4 8 28); [lia..|exact F4|]. apply (same_join 8 12 28); [lia..|exact F8|].
        apply (same_join 12 16 28); [lia..|exact F12|]. apply (same_join 16 20 28); [lia..|exact F16|].
        apply (same_join 20 24 28); [lia..|exact F20|]. exact F24. }
      destruct (0x24 <=? num 4 4 raw1) eqn:EW; [|exact HF]. unfold wide_offset in W1, W2. rewrite <- E4, EW in W1, W2.
      specialize (A36 ltac:(lia)). specialize (B36 ltac:(lia)).
      apply (same_join 0 28 36); [lia..|exact HF|]. apply (same_join 28 32 36); [lia..| |].
      - exact (same_num 4 28 raw1 raw2 ltac:(lia) ltac:(lia) W1).
      - exact (same_num 4 32 raw1 raw2 ltac:(lia) ltac:(lia) W2). }
    unfold told_info. cbv zeta. destruct network.
    - assert (EK' : forall k, dget k (network_entries cp1 raw1) = dget k (network_entries cp2 raw2)) by now rewrite EL.
      destruct (network_back EK') as [EF EU]. cbv zeta in EF, EU. rewrite <- E20 in *. set (o := num 4 20 raw1) in *.
      pose proof (EF 8 ltac:(cbn; tauto)) as E8. rewrite <- E4, <- E8. split; [reflexivity|].
      intros i j [[= <- <-]|[[= <- <-]|[]]]; [exact HC|]. destruct RA as [A20 A28']. destruct RB as [B20 B28'].
      assert (HF : same_at o (o + 20) raw1 raw2).
      { assert (HF : forall x, In x [0; 4; 8; 12; 16] -> same_at (o + x) (o + x + 4) raw1 raw2).
        { intros x Hx. apply same_num; [cbn in Hx; lia..|now apply EF]. }
        apply (same_join o (o + 4) (o + 20)); [lia..| |].
        { pose proof (HF 0 ltac:(cbn; tauto)) as F. now rewrite N.add_0_r in F. }
        apply (same_join (o + 4) (o + 8) (o + 20)); [lia..| |].
        { pose proof (HF 4 ltac:(cbn; tauto)) as F. now rewrite <- N.add_assoc in F. }
        apply (same_join (o + 8) (o + 12) (o + 20)); [lia..| |].
        { pose proof (HF 8 ltac:(cbn; tauto)) as F. now rewrite <- N.add_assoc in F. }
        apply (same_join (o + 12) (o + 16) (o + 20)); [lia..| |].
        { pose proof (HF 12 ltac:(cbn; tauto)) as F. now rewrite <- N.add_assoc in F. }
        pose proof (HF 16 ltac:(cbn; tauto)) as F. now rewrite <- N.add_assoc in F. }
      destruct (20 <? num 4 (o + 8) raw1) eqn:EW; [|exact HF]. specialize (EU ltac:(lia)). destruct EU as [U1 U2].
      specialize (A28' ltac:(lia)). specialize (B28' ltac:(lia)).
      change (same_at o (o + 28) raw1 raw2). apply (same_join o (o + 20) (o + 28)); [lia..|exact HF|].
      apply (same_join (o + 20) (o + 24) (o + 28)); [lia..| |].
      + pose proof (same_num 4 (o + 20) raw1 raw2 ltac:(lia) ltac:(lia) U1) as F. now rewrite <- N.add_assoc in F.
      + pose proof (same_num 4 (o + 24) raw1 raw2 ltac:(lia) ltac:(lia) U2) as F. now rewrite <- N.add_assoc in F.
    - assert (EK' : forall k, dget k (local_entries cp1 raw1) = dget k (local_entries cp2 raw2)) by now rewrite EL.
      destruct (local_back EK') as [EF EU]. cbv zeta in EF, EU. rewrite <- E12 in *. set (o := num 4 12 raw1) in *.
      pose proof (EF 12 ltac:(cbn; tauto)) as E8. rewrite <- E4, <- E8. split; [reflexivity|].
      intros i j [[= <- <-]|[[= <- <-]|[]]]; [exact HC|]. destruct RA as [A20 A28']. destruct RB as [B20 B28'].
      assert (HF : same_at o (o + 16) raw1 raw2).
      { assert (HF : forall x, In x [0; 4; 8; 12] -> same_at (o + x) (o + x + 4) raw1 raw2).
        { intros x Hx. apply same_num; [cbn in Hx; lia..|now apply EF]. }
        apply (same_join o (o + 4) (o + 16)); [lia..| |].
        { pose proof (HF 0 ltac:(cbn; tauto)) as F. now rewrite N.add_0_r in F. }
        apply (same_join (o + 4) (o + 8) (o + 16)); [lia..| |].
        { pose proof (HF 4 ltac:(cbn; tauto)) as F. now rewrite <- N.add_assoc in F. }
        apply (same_join (o + 8) (o + 12) (o + 16)); [lia..| |].
        { pose proof (HF 8 ltac:(cbn; tauto)) as F. now rewrite <- N.add_assoc in F. }
        pose proof (HF 12 ltac:(cbn; tauto)) as F. now rewrite <- N.add_assoc in F. }
      destruct (num 4 (o + 12) raw1 =? 0x14) eqn:EW; [|exact HF]. specialize (EU ltac:(lia)).
      specialize (A28' ltac:(lia)). specialize (B28' ltac:(lia)).
      change (same_at o (o + 20) raw1 raw2). apply (same_join o (o + 16) (o + 20)); [lia..|exact HF|].
      pose proof (same_num 4 (o + 16) raw1 raw2 ltac:(lia) ltac:(lia) EU) as F. now rewrite <- N.add_assoc in F.
  Qed.
End Two.

Lemma infos_back b1 b2 cp1 cp2 allow1 allow2 l1 l2 d1 d2 : usable cp1 -> usable cp2 ->
  snd (lnk_init (FromBytes b1) cp1 allow1) = Ok l1 -> snd (lnk_init (FromBytes b2) cp2 allow2) = Ok l2 ->
  snd (get_json l1 true) = Ok d1 -> snd (get_json l2 true) = Ok d2 ->
  reported_info d1 = reported_info d2 ->
  let raw1 := dropN (id_list_end b1) b1 in
  let raw2 := dropN (id_list_end b2) b2 in
  let network := negb (N.testbit (num 4 8 raw1) 0) in
  info_processed b1 = info_processed b2
  /\ (info_processed b1 = true ->
      told_info network raw1 = told_info network raw2 /\ same_ranges (told_info network raw1) raw1 raw2).
Proof.
  intros U1 U2 Hl1 Hl2 Hd1 Hd2 E. cbv zeta.
  destruct (info_of_file b1 cp1 allow1 l1 d1 U1 Hl1 Hd1) as [I1 R1]. destruct (info_of_file b2 cp2 allow2 l2 d2 U2 Hl2 Hd2) as [I2 R2].
  rewrite I1, I2 in E. injection E as E. destruct (info_processed b1), (info_processed b2); try (discriminate E).
  - split; [reflexivity|]. intros _. destruct (ranges_back cp1 cp2 _ _ _ _ (R1 eq_refl) (R2 eq_refl) eq_refl eq_refl E) as (EN & ET & ES).
    rewrite <- EN in ET. now split.
  - split; [reflexivity|discriminate].
Qed.
