(** * Files to which a part is added (C82) *)
From Verif Require Import ReportProofs CommandProofs.
From Verif Require Import Lemmas PyTime Codec Utils Sha256 Header StringData Targets Info Extra LnkFile Report.
From Verif Require Import OutcomeProofs LayoutProofs CoreProofs ApiProofs TextProofs ConstructProofs InfoProofs ExtraListProofs ExtraProofs UnknownProofs TriedProofs LinkProofs WholeProofs FailureProofs ExactProofs InReportProofs PrefixProofs PatchProofs.
From Verif Require Import Spec SpecText SpecHeader SpecTime SpecDouble SpecItems SpecInfo SpecExtra SpecOutcome SpecEntries SpecBlocks SpecWhole SpecFailure SpecUnknown SpecPrefix SpecPatch SpecAdd.

(** ** Headers *)
Lemma front_bit h r i : 24 <= lenN h -> bit_set i (h ++ r) = bit_set i h.
Proof. intros H. unfold bit_set. now rewrite num_inside by lia. Qed.
Lemma front_len h r : is_header h -> header_len (h ++ r) = lenN h.
Proof. intros [H <-]. unfold header_len. now rewrite num_inside by lia. Qed.
Lemma front_list h r : is_header h -> has_id_list (h ++ r) = has_id_list h.
Proof. intros [H _]. now apply front_bit. Qed.
Lemma dropN_two {A} (x y z : list A) : dropN (lenN x + lenN y) (x ++ y ++ z) = z.
Proof. rewrite app_assoc. apply dropN_app_exact. now rewrite lenN_app. Qed.
Lemma list_part_end h t r : is_header h -> list_part h t -> id_list_end (h ++ t ++ r) = lenN h + lenN t.
Proof.
  intros HH HT. unfold id_list_end. rewrite front_list, front_len by assumption. unfold list_part in HT.
  destruct (has_id_list h); [|subst t; cbn; lia]. unfold is_id_list in HT.
  rewrite <- (N.add_0_r (lenN h)) at 2. rewrite <- num_dropN, dropN_app_exact, num_inside by (reflexivity || lia). lia.
Qed.
Lemma list_part_list h t r : is_header h -> list_part h t -> has_id_list h = true -> id_list (h ++ t ++ r) = dropN 2 t.
Proof.
  intros HH HT HF. unfold id_list. rewrite front_len by assumption. unfold list_part in HT. rewrite HF in HT. unfold is_id_list in HT.
  rewrite <- (N.add_0_r (lenN h)) at 3. rewrite <- num_dropN, dropN_app_exact, num_inside by (reflexivity || lia).
  unfold slice. replace (lenN h + 2 + num 2 0 t - (lenN h + 2)) with (num 2 0 t) by lia.
  rewrite <- dropN_dropN, dropN_app_exact, dropN_app_le by (reflexivity || lia). apply takeN_app_exact. rewrite lenN_dropN. lia.
Qed.
Lemma list_part_info h t r : is_header h -> list_part h t -> info_bytes (h ++ t ++ r) = r.
Proof. intros HH HT. unfold info_bytes. rewrite list_part_end by assumption. apply dropN_two. Qed.
Lemma target_alike h1 h2 t r1 r2 cp allow d1 d2 w1 w2 : usable cp -> is_header h1 -> is_header h2 -> lenN h1 = lenN h2 ->
  has_id_list h1 = has_id_list h2 -> list_part h1 t ->
  whole_report (h1 ++ t ++ r1) cp allow d1 w1 -> whole_report (h2 ++ t ++ r2) cp allow d2 w2 -> dget "target" d1 = dget "target" d2.
Proof.
  intros Hcp HH1 HH2 EL EF T1 W1 W2. assert (T2 : list_part h2 t) by (unfold list_part in *; now rewrite <- EF).
  apply whole_parts in W1 as (a1 & s1 & ? & ? & ? & i1 & m1 & ? & ? & ? & ? & ? & ? & ? & F1 & B1 & _ & I1 & _ & _ & _ & _ & -> & _).
  apply whole_parts in W2 as (a2 & s2 & ? & ? & ? & i2 & m2 & ? & ? & ? & ? & ? & ? & ? & F2 & B2 & _ & I2 & _ & _ & _ & _ & -> & _).
  assert (Z1 : h_size a1 = lenN h1) by (rewrite <- (front_len h1 (t ++ r1) HH1), B1; symmetry; apply header_len_encode; assumption).
  assert (Z2 : h_size a2 = lenN h2) by (rewrite <- (front_len h2 (t ++ r2) HH2), B2; symmetry; apply header_len_encode; assumption).
  rewrite (front_list h1) in * by assumption. rewrite (front_list h2) in * by assumption. rewrite <- EF in *. destruct (has_id_list h1) eqn:EH; [|reflexivity].
  rewrite list_part_list in I1, I2 by congruence.
  destruct (entries_listed_det cp _ _ _ _ _ Hcp I1 I2) as [<- _]. rewrite Z1, Z2, <- EL.
  assert (EM : num 2 (lenN h1) (h1 ++ t ++ r1) = num 2 (lenN h1) (h2 ++ t ++ r2)).
  { rewrite <- (N.add_0_r (lenN h1)). rewrite <- num_dropN, dropN_app_exact by reflexivity. rewrite EL. rewrite <- num_dropN, dropN_app_exact by reflexivity.
    unfold list_part in T1. rewrite EH in T1. unfold is_id_list in T1. now rewrite !num_inside by lia. }
  now rewrite EM.
Qed.
Lemma alike_nonempty (b : bytes) : 24 <= lenN b -> b <> [].
Proof. intros H ->. cbn in H. lia. Qed.

(** ** An ID list is added *)
Section List.
  Variables h1 h2 x back : bytes.
  Let b1 := h1 ++ back.
  Let b2 := h2 ++ x ++ back.
  Hypothesis HA : announces 0 h1 h2.
  Hypothesis HX : is_id_list x.
  Lemma list_added cp allow : usable cp ->
    end_alike (snd (lnk_init (FromBytes b1) cp allow)) (snd (lnk_init (FromBytes b2) cp allow))
    /\ forall l1 l2, snd (lnk_init (FromBytes b1) cp allow) = Ok l1 -> snd (lnk_init (FromBytes b2) cp allow) = Ok l2 ->
         lnk_command l1 = lnk_command l2
         /\ forall d1 d2, snd (get_json l1 true) = Ok d1 -> snd (get_json l2 true) = Ok d2 ->
              dget "target" d1 = None /\ dget "target" d2 <> None
              /\ same_entries ["link_info"; "data"; "extra"] d1 d2 /\ sizes_follow d1 d2 [] x.
  Proof.
    intros Hcp. destruct HA as (HH1 & HH2 & EL & F1 & F2 & FO).
    assert (T1 : list_part h1 []) by (unfold list_part, has_id_list; now rewrite F1).
    assert (T2 : list_part h2 x) by (unfold list_part, has_id_list; now rewrite F2).
    pose proof (list_part_end h1 [] back HH1 T1) as E1. pose proof (list_part_end h2 x back HH2 T2) as E2.
    pose proof (list_part_info h1 [] back HH1 T1) as I1. pose proof (list_part_info h2 x back HH2 T2) as I2.
    cbn [app] in E1, I1. fold b1 in E1, I1. fold b2 in E2, I2. change (lenN (@nil byte)) with 0 in E1.
    pose proof HH1 as [N1 _]. pose proof HH2 as [N2 _].
    assert (HF : same_flags b1 b2) by (intros i Hi; unfold b1, b2; rewrite !front_bit by assumption; apply FO; lia).
    destruct (behind_list b1 b2 HF) as [EP (k & K1 & K2 & KD)]; [congruence|].
    destruct (behind_info b1 b2 (same_strings _ _ HF) KD) as (j & J1 & J2 & ES & EX).
    assert (M1 : header_len b1 = lenN h1) by (now apply front_len). assert (M2 : header_len b2 = lenN h2) by (now apply front_len).
    assert (L1 : lenN b1 = lenN h1 + lenN back) by apply lenN_app. assert (L2 : lenN b2 = lenN h2 + (lenN x + lenN back)) by (unfold b2; now rewrite !lenN_app).
    assert (G1 : has_id_list b1 = false) by (unfold b1; rewrite front_list; assumption).
    assert (G2 : has_id_list b2 = true) by (unfold b2; rewrite front_list; assumption).
    unfold is_id_list in HX. split.
    - apply inits_alike; [assumption|apply alike_nonempty; lia|apply alike_nonempty; lia|].
      split; (apply constructible_follows; [lia|lia|intros; (lia || congruence)|congruence]).
    - intros l1 l2 R1 R2. split; [apply (command_part b1 b2 cp allow allow l1 l2 Hcp R1 R2 (same_strings _ _ HF) ES)|].
      intros d1 d2 D1 D2. destruct (whole_of b1 cp allow l1 d1 Hcp R1 D1) as [w1 W1]. destruct (whole_of b2 cp allow l2 d2 Hcp R2 D2) as [w2 W2].
      destruct (init_constructed b1 cp allow l1 Hcp R1) as [C1 _]. split; [|split; [|split]].
      + apply whole_parts in W1 as (? & ? & ? & ? & ? & ? & ? & ? & ? & ? & ? & ? & ? & ? & _ & _ & _ & _ & _ & _ & _ & _ & -> & _). now rewrite G1.
      + apply whole_parts in W2 as (? & ? & ? & ? & ? & ? & ? & ? & ? & ? & ? & ? & ? & ? & _ & _ & _ & _ & _ & _ & _ & _ & -> & _). now rewrite G2.
      + intros key Hk. cbn [In] in Hk. destruct Hk as [<-|[<-|[<-|[]]]].
        * apply (info_part b1 b2 cp cp allow allow d1 d2 w1 w2 W1 W2 eq_refl EP). congruence.
        * apply (strings_part b1 b2 cp cp allow allow d1 d2 w1 w2 W1 W2 eq_refl (same_strings _ _ HF) ES).
        * apply (blocks_part b1 b2 cp cp allow allow d1 d2 w1 w2 W1 W2 Hcp C1 eq_refl eq_refl EX).
      + apply (sizes_of b1 b2 cp allow d1 d2 w1 w2 [] x W1 W2 EX); change (lenN (@nil byte)) with 0; lia.
  Qed.
End List.

(** ** A LinkInfo is added *)
Section Infos.
  Variables h1 h2 t x back : bytes.
  Let b1 := h1 ++ t ++ back.
  Let b2 := h2 ++ t ++ x ++ back.
  Hypothesis HA : announces 1 h1 h2.
  Hypothesis HT : list_part h1 t.
  Hypothesis HX : info_end b2 = lenN (h2 ++ t ++ x).
  Lemma info_added cp allow : usable cp ->
    end_alike (snd (lnk_init (FromBytes b1) cp allow)) (snd (lnk_init (FromBytes b2) cp allow))
    /\ forall l1 l2, snd (lnk_init (FromBytes b1) cp allow) = Ok l1 -> snd (lnk_init (FromBytes b2) cp allow) = Ok l2 ->
         lnk_command l1 = lnk_command l2
         /\ forall d1 d2, snd (get_json l1 true) = Ok d1 -> snd (get_json l2 true) = Ok d2 ->
              dget "link_info" d1 = Some (PDict [])
              /\ same_entries ["target"; "data"; "extra"] d1 d2 /\ sizes_follow d1 d2 [] x.
  Proof.
    intros Hcp. destruct HA as (HH1 & HH2 & EL & F1 & F2 & FO).
    assert (EH : has_id_list h1 = has_id_list h2) by (apply FO; discriminate).
    assert (T2 : list_part h2 t) by (unfold list_part in *; now rewrite <- EH).
    pose proof (list_part_end h1 t back HH1 HT) as E1. fold b1 in E1.
    pose proof HH1 as [N1 _]. pose proof HH2 as [N2 _].
    assert (HF : same_string_flags b1 b2).
    { intros i Hi. unfold b1, b2. rewrite !front_bit by assumption. apply FO. intros ->. cbn in Hi. intuition discriminate. }
    assert (P1 : info_processed b1 = false) by (unfold info_processed, b1; rewrite (front_bit h1 _ 1), F1 by assumption; reflexivity).
    assert (Q1 : info_end b1 = lenN h1 + lenN t) by (unfold info_end; now rewrite P1).
    rewrite !lenN_app in HX.
    assert (KD : dropN (info_end b1) b1 = dropN (info_end b2) b2).
    { rewrite Q1, HX. unfold b1, b2. rewrite dropN_two. rewrite N.add_assoc, <- dropN_dropN, dropN_two. now rewrite dropN_app_exact. }
    destruct (behind_info b1 b2 HF KD) as (j & J1 & J2 & ES & EX).
    assert (M1 : header_len b1 = lenN h1) by (now apply front_len). assert (M2 : header_len b2 = lenN h2) by (now apply front_len).
    assert (L1 : lenN b1 = lenN h1 + (lenN t + lenN back)) by (unfold b1; now rewrite !lenN_app).
    assert (L2 : lenN b2 = lenN h2 + (lenN t + (lenN x + lenN back))) by (unfold b2; now rewrite !lenN_app).
    assert (G1 : has_id_list b1 = has_id_list h1) by (apply front_list; assumption).
    assert (G2 : has_id_list b2 = has_id_list h1) by (rewrite EH; apply front_list; assumption).
    assert (HL : has_id_list h1 = true -> 2 <= lenN t) by (intros E; unfold list_part in HT; rewrite E in HT; unfold is_id_list in HT; lia).
    split.
    - apply inits_alike; [assumption|apply alike_nonempty; lia|apply alike_nonempty; lia|].
      split; (apply constructible_follows; [lia|lia| |congruence]); rewrite ?G1, ?G2; intros E; specialize (HL E); lia.
    - intros l1 l2 R1 R2. split; [apply (command_part b1 b2 cp allow allow l1 l2 Hcp R1 R2 HF ES)|].
      intros d1 d2 D1 D2. destruct (whole_of b1 cp allow l1 d1 Hcp R1 D1) as [w1 W1]. destruct (whole_of b2 cp allow l2 d2 Hcp R2 D2) as [w2 W2].
      destruct (init_constructed b1 cp allow l1 Hcp R1) as [C1 _]. split; [|split].
      + apply whole_parts in W1 as (? & ? & ? & ? & ? & ? & ? & ? & ? & ? & ? & ? & ? & ? & _ & _ & _ & _ & _ & _ & _ & _ & _ & -> & _). now rewrite P1.
      + intros key Hk. cbn [In] in Hk. destruct Hk as [<-|[<-|[<-|[]]]].
        * apply (target_alike h1 h2 t back (x ++ back) cp allow d1 d2 w1 w2 Hcp HH1 HH2 EL EH HT W1 W2).
        * apply (strings_part b1 b2 cp cp allow allow d1 d2 w1 w2 W1 W2 eq_refl HF ES).
        * apply (blocks_part b1 b2 cp cp allow allow d1 d2 w1 w2 W1 W2 Hcp C1 eq_refl eq_refl EX).
      + apply (sizes_of b1 b2 cp allow d1 d2 w1 w2 [] x W1 W2 EX); change (lenN (@nil byte)) with 0; lia.
  Qed.
End Infos.

(** ** A string is added *)
Lemma are_app h a c s t f g : strings_are h a s f -> strings_are h c t g -> strings_are h (a ++ c) (s ++ t) (f ++ g).
Proof.
  intros H1 H2. induction H1; cbn [app]; [assumption|now constructor|]. rewrite <- app_assoc. now constructor.
Qed.
Lemma are_flags h h' fields s f : bit_set 7 h = bit_set 7 h' ->
  (forall i name lim, In (i, name, lim) fields -> bit_set i h = bit_set i h') -> strings_are h fields s f -> strings_are h' fields s f.
Proof.
  intros H7 HF H. induction H as [|i name lim fields s found HB H IH|i name lim fields x s found HB HX H IH].
  - constructor.
  - constructor; [now rewrite <- (HF i name lim (or_introl eq_refl))|]. apply IH. intros. eapply HF. right. eassumption.
  - constructor; [now rewrite <- (HF i name lim (or_introl eq_refl))|unfold is_string in *; now rewrite <- H7|]. apply IH. intros. eapply HF. right. eassumption.
Qed.
Lemma are_rel h fields s f rest : strings_are h fields s f ->
  rel_found (flag_of h) fields (s ++ rest) = f /\ rel_end (flag_of h) fields (s ++ rest) = lenN s.
Proof.
  intros H. induction H as [|i name lim fields s found HB H [IH1 IH2]|i name lim fields x s found HB HX H [IH1 IH2]].
  - now split.
  - cbn [rel_found rel_end]. change (flag_of h i) with (bit_set i h). rewrite HB. now split.
  - cbn [rel_found rel_end]. change (flag_of h i) with (bit_set i h). rewrite HB. destruct HX as [X2 XL].
    assert (ES : rel_size (flag_of h) lim ((x ++ s) ++ rest) = lenN x).
    { unfold rel_size, flag_of. rewrite <- app_assoc, num_inside by lia. now rewrite <- XL. }
    rewrite ES. replace (2 <=? lenN ((x ++ s) ++ rest)) with true by (rewrite !lenN_app; lia).
    rewrite <- app_assoc, dropN_app_exact by reflexivity. rewrite IH1, IH2, lenN_app. split; [|reflexivity].
    f_equal. f_equal. unfold slice. rewrite dropN_app_le by lia. apply takeN_app_exact. rewrite lenN_dropN. lia.
Qed.
(** A file whose strings are in one piece. *)
Lemma strings_there h rest b s back f : b = h ++ rest -> 24 <= lenN h -> dropN (info_end b) b = s ++ back -> strings_are h string_fields s f ->
  string_data_end b = info_end b + lenN s /\ extra_bytes b = back
  /\ forall cp allow d w, whole_report b cp allow d w -> dget "data" d = Some (texts h cp f).
Proof.
  intros EB H24 HD HS. assert (HF : same_string_flags b h) by (intros i _; rewrite EB; now apply front_bit).
  destruct (are_rel h string_fields s f back HS) as [HR HE]. destruct (flags_rel b h (s ++ back) HF) as [FR FE].
  assert (EE : string_data_end b = info_end b + lenN s) by (rewrite data_end_rel, HD, FE, HE; reflexivity).
  split; [assumption|]. split; [unfold extra_bytes; rewrite EE, <- dropN_dropN, HD; now apply dropN_app_exact|].
  intros cp allow d w W.
  apply whole_parts in W as (? & ? & ? & ? & ? & ? & ? & found & ? & ? & ? & ? & ? & ? & _ & _ & _ & _ & SW & _ & _ & _ & _ & _ & -> & _).
  apply walk_rel in SW as [-> _]. change (fun i => bit_set i b) with (flag_of b). rewrite HD, FR, HR. unfold texts. now rewrite (HF 7) by (cbn; tauto).
Qed.
Section Middle.
  Variables h1 h2 t m r1 r2 : bytes.
  Let b1 := h1 ++ t ++ m ++ r1.
  Let b2 := h2 ++ t ++ m ++ r2.
  Hypothesis HH1 : is_header h1.
  Hypothesis HH2 : is_header h2.
  Hypothesis EL : lenN h1 = lenN h2.
  Hypothesis EF : has_id_list h1 = has_id_list h2.
  Hypothesis F1 : bit_set 1 h1 = bit_set 1 h2.
  Hypothesis F8 : bit_set 8 h1 = bit_set 8 h2.
  Hypothesis HT : list_part h1 t.
  Hypothesis HI : info_inside (lenN (h1 ++ t ++ m)) b1.
  Lemma middle_ends : id_list_end b1 = lenN h1 + lenN t /\ id_list_end b2 = lenN h1 + lenN t.
  Proof.
    unfold b1, b2. rewrite (list_part_end h1 t) by assumption. rewrite (list_part_end h2 t); [now rewrite EL|assumption|].
    unfold list_part in *. now rewrite <- EF.
  Qed.
  Lemma middle_front : dropN (lenN h1 + lenN t) (takeN (lenN (h1 ++ t ++ m)) b1) = m.
  Proof.
    unfold b1. replace (h1 ++ t ++ m ++ r1) with ((h1 ++ t ++ m) ++ r1) by now rewrite <- !app_assoc. rewrite takeN_app_exact by reflexivity. apply dropN_two.
  Qed.
  Lemma middle_room : bit_set 1 h1 = true -> bit_set 8 h1 = false -> 12 <= lenN m.
  Proof.
    intros G1 G8. destruct HH1 as [N1 _]. destruct HI as [H12 _]; [unfold b1; now rewrite front_bit|unfold b1; now rewrite front_bit|].
    destruct middle_ends as [E1 _]. rewrite E1, !lenN_app in H12. lia.
  Qed.
  Lemma middle_num i r : i + 4 <= lenN m -> forall h, lenN h = lenN h1 -> num 4 (lenN h1 + lenN t + i) (h ++ t ++ m ++ r) = num 4 i m.
  Proof. intros Hi h <-. rewrite <- num_dropN, dropN_two. now apply num_inside. Qed.
  Lemma middle_processed : info_processed b1 = info_processed b2.
  Proof.
    destruct HH1 as [N1 _]. destruct HH2 as [N2 _]. destruct middle_ends as [E1 E2]. unfold info_processed. rewrite E1, E2.
    unfold b1, b2. rewrite !front_bit by assumption. rewrite <- F1, <- F8.
    destruct (bit_set 1 h1) eqn:G1; [|reflexivity]. destruct (bit_set 8 h1) eqn:G8; [reflexivity|]. cbn [negb andb].
    pose proof (middle_room G1 G8) as H12. rewrite !middle_num by (lia || congruence).
    assert (L1 : lenN h1 + lenN t + 12 <=? lenN (h1 ++ t ++ m ++ r1) = true) by (rewrite !lenN_app; lia).
    assert (L2 : lenN h1 + lenN t + 12 <=? lenN (h2 ++ t ++ m ++ r2) = true) by (rewrite !lenN_app; lia). now rewrite L1, L2.
  Qed.
  Lemma middle_complete : info_processed b1 = true -> 12 <= lenN m
    /\ num 4 (id_list_end b1 + 8) b1 = num 4 8 m /\ num 4 (id_list_end b2 + 8) b2 = num 4 8 m
    /\ info_complete (negb (N.testbit (num 4 8 m) 0)) m.
  Proof.
    intros HP. assert (HP' := HP). unfold info_processed in HP'. apply andb_true_iff in HP' as [HP' _]. apply andb_true_iff in HP' as [HP' _].
    apply andb_true_iff in HP' as [G1 G8]. apply negb_true_iff in G8. destruct (HI G1 G8) as [_ HC]. specialize (HC HP).
    destruct HH1 as [N1 _]. unfold b1 in G1, G8. rewrite front_bit in G1, G8 by assumption. pose proof (middle_room G1 G8) as H12.
    destruct middle_ends as [E1 E2]. rewrite E1, E2 in *. rewrite middle_front in HC.
    assert (M1 : num 4 (lenN h1 + lenN t + 8) b1 = num 4 8 m) by (apply middle_num; [lia|reflexivity]).
    assert (M2 : num 4 (lenN h1 + lenN t + 8) b2 = num 4 8 m) by (apply middle_num; [lia|congruence]).
    rewrite M1 in HC. auto.
  Qed.
  Lemma middle_bytes : info_bytes b1 = m ++ r1 /\ info_bytes b2 = m ++ r2.
  Proof.
    unfold info_bytes. destruct middle_ends as [E1 E2]. rewrite E1, E2. unfold b1, b2. rewrite dropN_two. split; [reflexivity|].
    rewrite EL. apply dropN_two.
  Qed.
  Lemma middle_info_end : info_end b1 = info_end b2.
  Proof.
    unfold info_end. rewrite <- middle_processed. destruct middle_ends as [E1 E2]. rewrite E1, E2. destruct (info_processed b1) eqn:EP; [|reflexivity].
    destruct (middle_complete EP) as (H12 & _). f_equal.
    rewrite <- (N.add_0_r (lenN h1 + lenN t)). unfold b1, b2. now rewrite !middle_num by (lia || congruence).
  Qed.
  Lemma middle_whole : info_whole b1 /\ info_whole b2.
  Proof.
    destruct middle_bytes as [B1 B2]. unfold info_bytes in B1, B2. unfold info_whole. rewrite <- middle_processed, B1, B2.
    split; intros EP; destruct (middle_complete EP) as (_ & M1 & M2 & HC); rewrite ?M1, ?M2; now apply readable_inside.
  Qed.
  Lemma middle_info cp allow d1 d2 w1 w2 : whole_report b1 cp allow d1 w1 -> whole_report b2 cp allow d2 w2 ->
    dget "link_info" d1 = dget "link_info" d2.
  Proof.
    intros W1 W2.
    apply whole_parts in W1 as (_ & _ & _ & _ & _ & _ & _ & _ & _ & _ & _ & _ & _ & _ & _ & _ & _ & _ & _ & _ & _ & _ & _ & -> & _).
    apply whole_parts in W2 as (_ & _ & _ & _ & _ & _ & _ & _ & _ & _ & _ & _ & _ & _ & _ & _ & _ & _ & _ & _ & _ & _ & _ & -> & _).
    destruct middle_bytes as [B1 B2]. unfold info_bytes in B1, B2. rewrite <- middle_processed, B1, B2.
    destruct (info_processed b1) eqn:EP; [|reflexivity]. destruct (middle_complete EP) as (_ & M1 & M2 & HC). rewrite M1, M2.
    destruct (info_inside_same cp m r1 _ HC) as [-> _]. now destruct (info_inside_same cp m r2 _ HC) as [-> _].
  Qed.
End Middle.

Section String.
  Variables (h1 h2 t m pre s post back : bytes) (i : N) (name : string) (lim : bool).
  Variables (before after : list (N * string * bool)) (f g : list (string * bytes)).
  Let b1 := h1 ++ t ++ m ++ (pre ++ post) ++ back.
  Let b2 := h2 ++ t ++ m ++ (pre ++ s ++ post) ++ back.
  Hypothesis HA : announces i h1 h2.
  Hypothesis HT : list_part h1 t.
  Hypothesis HB : before_strings (h1 ++ t ++ m) b1.
  Hypothesis HF : string_fields = before ++ (i, name, lim) :: after.
  Hypothesis HP : strings_are h1 before pre f.
  Hypothesis HQ : strings_are h1 after post g.
  Hypothesis HS : is_string h1 lim s.
  Lemma field_small j nm l : In (j, nm, l) string_fields -> 2 <= j <= 6.
  Proof. unfold string_fields. cbn [In]. intuition (match goal with H : _ = _ |- _ => injection H as <- _ _ end; lia). Qed.
  Lemma other_fields j nm l : In (j, nm, l) before \/ In (j, nm, l) after -> j <> i.
  Proof.
    intros HJ. assert (ND : NoDup (map (fun x => fst (fst x)) string_fields)) by (vm_compute; repeat constructor; cbn; intuition discriminate).
    rewrite HF, map_app in ND. cbn [map fst] in ND. apply NoDup_remove_2 in ND. intros ->. apply ND. apply in_or_app.
    destruct HJ as [HJ|HJ]; [left|right]; now apply (in_map (fun x => fst (fst x))) in HJ.
  Qed.
  Lemma string_small : 2 <= i <= 6.
  Proof. apply (field_small i name lim). rewrite HF. apply in_or_app. right. now left. Qed.
  Lemma pieces : strings_are h1 string_fields (pre ++ post) (f ++ g)
    /\ strings_are h2 string_fields (pre ++ s ++ post) (f ++ (name, dropN 2 s) :: g).
  Proof.
    pose proof string_small as Hi. destruct HA as (_ & _ & _ & F1 & F2 & FO). rewrite HF.
    assert (H7 : bit_set 7 h1 = bit_set 7 h2) by (apply FO; lia). split.
    - apply are_app; [assumption|]. now constructor.
    - apply are_app.
      + apply (are_flags h1); [assumption| |assumption]. intros j nm l Hj. apply FO. eapply other_fields. left. eassumption.
      + constructor; [assumption|unfold is_string in *; now rewrite <- H7|].
        apply (are_flags h1); [assumption| |assumption]. intros j nm l Hj. apply FO. eapply other_fields. right. eassumption.
  Qed.
  Lemma string_added cp allow : usable cp ->
    end_alike (snd (lnk_init (FromBytes b1) cp allow)) (snd (lnk_init (FromBytes b2) cp allow))
    /\ forall l1 l2, snd (lnk_init (FromBytes b1) cp allow) = Ok l1 -> snd (lnk_init (FromBytes b2) cp allow) = Ok l2 ->
         (forall all, end_alike (snd (get_json l1 all)) (snd (get_json l2 all)))
         /\ forall d1 d2, snd (get_json l1 true) = Ok d1 -> snd (get_json l2 true) = Ok d2 ->
              dget "data" d1 = Some (texts h1 cp (f ++ g)) /\ dget "data" d2 = Some (texts h1 cp (f ++ (name, dropN 2 s) :: g))
              /\ same_entries ["target"; "link_info"; "extra"] d1 d2 /\ sizes_follow d1 d2 [] s.
  Proof.
    intros Hcp. pose proof HA as (HH1 & HH2 & EL & F1 & F2 & FO). pose proof HB as (_ & HI & HE). pose proof string_small as Hi.
    assert (G1 : bit_set 1 h1 = bit_set 1 h2) by (apply FO; lia). assert (G8 : bit_set 8 h1 = bit_set 8 h2) by (apply FO; lia).
    assert (G0 : has_id_list h1 = has_id_list h2) by (apply FO; lia). assert (G7 : bit_set 7 h1 = bit_set 7 h2) by (apply FO; lia).
    assert (T2 : list_part h2 t) by (unfold list_part in *; now rewrite <- G0).
    pose proof HH1 as [N1 _]. pose proof HH2 as [N2 _].
    pose proof (middle_info_end h1 h2 t m ((pre ++ post) ++ back) ((pre ++ s ++ post) ++ back) HH1 HH2 EL G0 G1 G8 HT HI) as EE. fold b1 b2 in EE.
    destruct pieces as [P1 P2].
    assert (D1 : dropN (info_end b1) b1 = (pre ++ post) ++ back).
    { rewrite HE. unfold b1. replace (h1 ++ t ++ m ++ (pre ++ post) ++ back) with ((h1 ++ t ++ m) ++ (pre ++ post) ++ back) by now rewrite <- !app_assoc. now apply dropN_app_exact. }
    assert (D2 : dropN (info_end b2) b2 = (pre ++ s ++ post) ++ back).
    { rewrite <- EE, HE. unfold b2. replace (h2 ++ t ++ m ++ (pre ++ s ++ post) ++ back) with ((h2 ++ t ++ m) ++ (pre ++ s ++ post) ++ back) by now rewrite <- !app_assoc.
      apply dropN_app_exact. rewrite !lenN_app. lia. }
    destruct (strings_there h1 _ b1 _ back _ eq_refl N1 D1 P1) as (S1 & X1 & V1).
    destruct (strings_there h2 _ b2 _ back _ eq_refl N2 D2 P2) as (S2 & X2 & V2).
    assert (M1 : header_len b1 = lenN h1) by (now apply front_len). assert (M2 : header_len b2 = lenN h2) by (now apply front_len).
    assert (Q1 : has_id_list b1 = has_id_list h1) by (apply front_list; assumption).
    assert (Q2 : has_id_list b2 = has_id_list h1) by (rewrite G0; apply front_list; assumption).
    assert (HL : has_id_list h1 = true -> 2 <= lenN t) by (intros E; unfold list_part in HT; rewrite E in HT; unfold is_id_list in HT; lia).
    assert (L1 : lenN b1 = lenN h1 + (lenN t + (lenN m + (lenN pre + lenN post + lenN back)))) by (unfold b1; rewrite !lenN_app; lia).
    assert (L2 : lenN b2 = lenN b1 + lenN s) by (unfold b1, b2; rewrite !lenN_app; lia).
    rewrite !lenN_app in S1, S2.
    assert (EX : extra_bytes b1 = extra_bytes b2) by congruence. split.
    - apply inits_alike; [assumption|apply alike_nonempty; lia|apply alike_nonempty; lia|].
      split; (apply constructible_follows; [lia|lia| |congruence]); rewrite ?Q1, ?Q2; intros E; specialize (HL E); lia.
    - intros l1 l2 R1 R2. split.
      + intros all. apply (ends_of b1 b2 cp cp allow allow l1 l2 all all Hcp Hcp R1 R2). intros o.
        destruct (middle_whole h1 h2 t m ((pre ++ post) ++ back) ((pre ++ s ++ post) ++ back) HH1 HH2 EL G0 G1 G8 HT HI) as [I1 I2]. fold b1 in I1. fold b2 in I2.
        apply outcome_follows; [unfold header_whole; rewrite M1, M2; lia|congruence| |tauto|assumption].
        rewrite Q1. intros E. unfold b1, b2. rewrite !list_part_list by congruence. reflexivity.
      + intros d1 d2 J1 J2. destruct (whole_of b1 cp allow l1 d1 Hcp R1 J1) as [w1 W1]. destruct (whole_of b2 cp allow l2 d2 Hcp R2 J2) as [w2 W2].
        destruct (init_constructed b1 cp allow l1 Hcp R1) as [C1 _]. split; [exact (V1 _ _ _ _ W1)|].
        split; [rewrite (V2 _ _ _ _ W2); unfold texts; now rewrite G7|]. split.
        * intros key Hk. cbn [In] in Hk. destruct Hk as [<-|[<-|[<-|[]]]].
          -- apply (target_alike h1 h2 t (m ++ (pre ++ post) ++ back) (m ++ (pre ++ s ++ post) ++ back) cp allow d1 d2 w1 w2 Hcp HH1 HH2 EL G0 HT W1 W2).
          -- apply (middle_info h1 h2 t m ((pre ++ post) ++ back) ((pre ++ s ++ post) ++ back) HH1 HH2 EL G0 G1 G8 HT HI cp allow d1 d2 w1 w2 W1 W2).
          -- apply (blocks_part b1 b2 cp cp allow allow d1 d2 w1 w2 W1 W2 Hcp C1 eq_refl eq_refl EX).
        * apply (sizes_of b1 b2 cp allow d1 d2 w1 w2 [] s W1 W2 EX); change (lenN (@nil byte)) with 0; [rewrite S1, S2, EE, !lenN_app|rewrite L2]; lia.
  Qed.
End String.

(** ** Blocks are added, or exchanged *)
Definition named (k : string) (l : list (string * dict)) : list (string * dict) := filter (fun e => String.eqb k (fst e)) l.
Lemma named_app k a c : named k (a ++ c) = named k a ++ named k c.
Proof. apply filter_app. Qed.
Lemma last_of_named k l : last_of k l = last_of k (named k l).
Proof.
  induction l as [|[a d] l IH]; [reflexivity|]. cbn [last_of named filter fst]. fold (named k l). rewrite IH.
  destruct (String.eqb k a) eqn:E; cbn [last_of]; [now rewrite E|]. now destruct (last_of k (named k l)).
Qed.
Lemma all_of_named k l : all_of k l = all_of k (named k l).
Proof.
  unfold all_of. f_equal. induction l as [|[a d] l IH]; [reflexivity|]. cbn [named filter fst]. fold (named k l).
  destruct (String.eqb k a) eqn:E; cbn [filter fst]; [rewrite E; now f_equal|assumption].
Qed.
Lemma in_named k l : In k (map fst l) <-> named k l <> [].
Proof.
  induction l as [|[a d] l IH]; [split; [intros []|intros H; now apply H]|]. cbn [named filter map fst In]. fold (named k l).
  destruct (String.eqb_spec k a) as [->|E]; [split; [discriminate|now left]|]. rewrite <- IH. split; [intros [->|]; tauto|tauto].
Qed.
Lemma collect_named k l1 l2 : named k l1 = named k l2 -> dget k (collect l1) = dget k (collect l2).
Proof.
  intros E. destruct (in_dec string_dec k (map fst l1)) as [H|H].
  - assert (H2 : In k (map fst l2)) by (apply in_named; rewrite <- E; now apply in_named). rewrite !collect_get by assumption. unfold entry_for.
    now rewrite (last_of_named k l1), (last_of_named k l2), (all_of_named k l1), (all_of_named k l2), E.
  - assert (H2 : ~ In k (map fst l2)) by (intros H2; apply H, in_named; rewrite E; now apply in_named). now rewrite !collect_get_none.
Qed.
Definition stored (blk : N * bytes) : N * bytes := (fst blk, encode_block blk).
Lemma stored_named cp blocks entries said k : blocks_read cp (map stored blocks) entries said -> unnamed k blocks -> named k entries = [].
Proof.
  intros HR HU. destruct (named k entries) as [|e l] eqn:E; [reflexivity|]. exfalso.
  assert (HI : In k (map fst entries)) by (apply in_named; now rewrite E). apply in_map_iff in HI as ([k' d] & EK & HI). cbn [fst] in EK. subst k'.
  destruct (read_named cp _ _ _ _ _ HR HI) as (sig & raw & w & HB & HN & _). apply in_map_iff in HB as (blk & [= <- <-] & HB). now apply (HU blk HB).
Qed.
Lemma stored_readable blocks : sizes_readable (map stored blocks).
Proof. apply Forall_map, Forall_forall. intros blk _. cbn [snd stored]. rewrite lenN_block. lia. Qed.

Section Blocks.
  Variables (front x1 x2 back : bytes) (list1 list2 : list (N * bytes)).
  Let b1 := front ++ x1 ++ back.
  Let b2 := front ++ x2 ++ back.
  Let n := lenN front.
  Hypothesis HB : before_blocks front b1.
  Hypothesis E2 : string_data_end b2 = lenN front.
  Hypothesis F1 : Forall block_fits list1.
  Hypothesis F2 : Forall block_fits list2.
  Hypothesis X1 : x1 = encode_blocks list1.
  Hypothesis X2 : x2 = encode_blocks list2.
  Lemma blocks_agree : agree n b1 b2.
  Proof.
    unfold b1, b2, n. split; [rewrite lenN_app; lia|]. split; [rewrite lenN_app; lia|]. now rewrite !takeN_app_exact by reflexivity.
  Qed.
  Lemma blocks_extra : extra_bytes b1 = encode_blocks list1 ++ back /\ extra_bytes b2 = encode_blocks list2 ++ back.
  Proof.
    destruct HB as (_ & _ & E1). unfold extra_bytes. rewrite E1, E2. unfold b1, b2. rewrite X1, X2.
    split; now rewrite dropN_app_exact.
  Qed.
  Lemma blocks_walks : exists rest tail, block_walk back rest tail
    /\ block_walk (extra_bytes b1) (map stored list1 ++ rest) tail /\ block_walk (extra_bytes b2) (map stored list2 ++ rest) tail.
  Proof.
    destruct (block_walk_total back) as (rest & tail & HW). exists rest, tail. destruct blocks_extra as [-> ->].
    split; [assumption|]. split; now apply walk_encoded.
  Qed.
  Lemma blocks_constructible : constructible b1 <-> constructible b2.
  Proof.
    destruct blocks_walks as (rest & tail & _ & W1 & W2). pose proof HB as (HL & _). pose proof blocks_agree as HA.
    pose proof (same_header_len n b1 b2 HA HL) as EH. pose proof (same_has_list n b1 b2 HA HL) as EL.
    destruct HL as (H24 & HD & HN). assert (L1 : lenN front <= lenN b1) by apply HA. assert (L2 : lenN front <= lenN b2) by apply HA.
    assert (HI : has_id_list b1 = true -> header_len b1 + 2 <= lenN front) by (intros H; unfold id_list_end in HD; rewrite H in HD; lia).
    assert (HS : forall list, sizes_readable (map stored list ++ rest) <-> sizes_readable rest).
    { intros list. unfold sizes_readable. rewrite Forall_app. pose proof (stored_readable list). unfold sizes_readable in *. tauto. }
    unfold extra_bytes in W1, W2.
    split; intros (C1 & C2 & C3 & C4); (split; [lia|]); (split; [lia|]).
    - split; [rewrite <- EL, <- EH; intros H; specialize (HI H); lia|]. intros bl r HW. destruct (block_walk_det _ _ _ _ _ HW W2) as [-> _].
      apply HS. apply (HS list1). exact (C4 _ _ W1).
    - split; [intros H; specialize (HI H); lia|]. intros bl r HW. destruct (block_walk_det _ _ _ _ _ HW W1) as [-> _].
      apply HS. apply (HS list2). exact (C4 _ _ W2).
  Qed.
  Lemma blocks_strings : same_string_flags b1 b2 /\ string_bytes b1 = string_bytes b2.
  Proof.
    pose proof HB as (HL & HI & E1). pose proof blocks_agree as HA. split.
    - intros i _. apply (PrefixProofs.same_bits n b1 b2 HA HL).
    - unfold string_bytes. rewrite <- (same_info_end n b1 b2 HA HL HI), E1, E2. fold n.
      assert (HT : forall b : bytes, slice (info_end b1) n b = slice (info_end b1) n (takeN n b)) by (intros b; symmetry; apply slice_takeN_le; lia).
      rewrite (HT b1), (HT b2). destruct HA as (_ & _ & ->). reflexivity.
  Qed.
  Lemma blocks_changed cp allow : usable cp ->
    end_alike (snd (lnk_init (FromBytes b1) cp allow)) (snd (lnk_init (FromBytes b2) cp allow))
    /\ forall l1 l2, snd (lnk_init (FromBytes b1) cp allow) = Ok l1 -> snd (lnk_init (FromBytes b2) cp allow) = Ok l2 ->
         lnk_command l1 = lnk_command l2
         /\ forall d1 d2, snd (get_json l1 true) = Ok d1 -> snd (get_json l2 true) = Ok d2 ->
              same_entries ["header"; "target"; "link_info"; "data"] d1 d2 /\ sizes_follow d1 d2 x1 x2
              /\ exists entries1 said1 entries2 said2 more said tail,
                   blocks_read cp (map stored list1) entries1 said1 /\ blocks_read cp (map stored list2) entries2 said2
                   /\ (exists rest, blocks_read cp rest more said)
                   /\ reported_extra d1 = Some (collect ((entries1 ++ more) ++ behind_blocks allow tail))
                   /\ reported_extra d2 = Some (collect ((entries2 ++ more) ++ behind_blocks allow tail)).
  Proof.
    intros Hcp. pose proof HB as (HL & HI & E1). pose proof blocks_agree as HA. destruct blocks_strings as [HF ES].
    assert (H24 : 24 <= lenN front) by apply HL. assert (L1 : lenN front <= lenN b1) by apply HA. assert (L2 : lenN front <= lenN b2) by apply HA. split.
    - apply inits_alike; [assumption|apply alike_nonempty; lia|apply alike_nonempty; lia|exact blocks_constructible].
    - intros l1 l2 R1 R2. split; [apply (command_part b1 b2 cp allow allow l1 l2 Hcp R1 R2 HF ES)|].
      intros d1 d2 D1 D2. destruct (whole_of b1 cp allow l1 d1 Hcp R1 D1) as [w1 W1]. destruct (whole_of b2 cp allow l2 d2 Hcp R2 D2) as [w2 W2].
      assert (H76 : 76 <= lenN front).
      { assert (HO : report_outcome b1 None) by (apply (report_exact_iff b1 cp allow l1 true Hcp R1); now exists d1).
        inversion HO as [|? | |? ? ? HW]. unfold header_whole in HW. destruct HL as (_ & HD & _). unfold id_list_end in HD. destruct (has_id_list b1); lia. }
      split; [|split].
      + intros k Hk. cbn [In] in Hk. destruct Hk as [<-|[<-|[<-|[<-|[]]]]].
        * apply (header_inside n b1 b2 cp allow allow l1 l2 d1 d2 HA Hcp R1 R2 D1 D2 H76).
        * apply (target_inside n b1 b2 cp allow allow l1 l2 d1 d2 HA Hcp R1 R2 D1 D2 HL).
        * apply (link_info_inside n b1 b2 cp allow allow l1 l2 d1 d2 HA Hcp R1 R2 D1 D2 HL HI).
        * apply (strings_part b1 b2 cp cp allow allow d1 d2 w1 w2 W1 W2 eq_refl HF ES).
      + apply size_of in W1 as (bl1 & t1 & B1 & S1). apply size_of in W2 as (bl2 & t2 & B2 & S2).
        destruct blocks_walks as (rest & tail & _ & V1 & V2). destruct (block_walk_det _ _ _ _ _ B1 V1) as [-> ->]. destruct (block_walk_det _ _ _ _ _ B2 V2) as [-> ->].
        cbv zeta in S1, S2. rewrite E1 in S1. rewrite E2 in S2.
        assert (HD : forall list, Forall block_fits list -> sumN (map declared (map stored list ++ rest)) = lenN (encode_blocks list) + sumN (map declared rest)).
        { intros list Hf. induction Hf as [|blk list Hb Hf IH]; [reflexivity|]. cbn [map app sumN fold_right]. fold (sumN (map declared (map stored list ++ rest))).
          rewrite IH. unfold encode_blocks. cbn [flat_map]. rewrite lenN_app. unfold declared at 1, stored. cbn [snd].
          destruct (encode_block_num blk [] Hb) as [EN _]. rewrite app_nil_r in EN. rewrite EN, lenN_block. lia. }
        rewrite HD in S1, S2 by assumption. rewrite <- X1 in S1. rewrite <- X2 in S2.
        do 2 eexists. split; [exact S1|]. split; [exact S2|].
        assert (M1 : lenN b1 = lenN front + (lenN x1 + lenN back)) by (unfold b1; now rewrite !lenN_app).
        assert (M2 : lenN b2 = lenN front + (lenN x2 + lenN back)) by (unfold b2; now rewrite !lenN_app). rewrite M1, M2. lia.
      + destruct blocks_walks as (rest & tail & _ & V1 & V2). unfold extra_bytes in V1, V2.
        destruct (extra_here b1 cp allow true l1 d1 Hcp R1 D1 _ _ V1) as (en1 & sa1 & Y1 & Z1).
        destruct (extra_here b2 cp allow true l2 d2 Hcp R2 D2 _ _ V2) as (en2 & sa2 & Y2 & Z2).
        destruct (read_app _ _ _ _ _ Y1) as (a1 & p1 & m1 & q1 & A1 & M1 & -> & ->).
        destruct (read_app _ _ _ _ _ Y2) as (a2 & p2 & m2 & q2 & A2 & M2 & -> & ->).
        destruct (init_constructed b1 cp allow l1 Hcp R1) as [(_ & _ & _ & C1) _]. specialize (C1 _ _ V1). unfold sizes_readable in C1. apply Forall_app in C1 as [_ C1].
        destruct (blocks_read_det cp rest _ _ _ _ Hcp C1 M1 M2) as [<- _].
        exists a1, p1, a2, p2, m1, q1, tail. split; [assumption|]. split; [assumption|]. split; [now exists rest|]. now split.
  Qed.
End Blocks.
Lemma encode_blocks_app a c : encode_blocks (a ++ c) = encode_blocks a ++ encode_blocks c.
Proof. apply flat_map_app. Qed.
Lemma blocks_added front kept added back :
  let b1 := front ++ encode_blocks kept ++ back in
  let b2 := front ++ encode_blocks kept ++ encode_blocks added ++ back in
  before_blocks front b1 -> string_data_end b2 = lenN front -> Forall block_fits kept -> Forall block_fits added ->
  forall cp allow, usable cp ->
  let start b := lnk_init (FromBytes b) cp allow in
  end_alike (snd (start b1)) (snd (start b2))
  /\ forall l1 l2, snd (start b1) = Ok l1 -> snd (start b2) = Ok l2 ->
       lnk_command l1 = lnk_command l2
       /\ forall d1 d2, snd (get_json l1 true) = Ok d1 -> snd (get_json l2 true) = Ok d2 ->
            same_entries ["header"; "target"; "link_info"; "data"] d1 d2 /\ sizes_follow d1 d2 [] (encode_blocks added)
            /\ forall k, unnamed k added -> same_block k d1 d2.
Proof.
  cbv zeta. intros HB E2 FK FA cp allow Hcp.
  assert (EB : encode_blocks kept ++ encode_blocks added ++ back = encode_blocks (kept ++ added) ++ back) by now rewrite encode_blocks_app, <- app_assoc.
  rewrite EB in *.
  destruct (blocks_changed front (encode_blocks kept) (encode_blocks (kept ++ added)) back kept (kept ++ added) HB E2 FK (proj2 (Forall_app _ _ _) (conj FK FA)) eq_refl eq_refl cp allow Hcp) as [HA HC].
  split; [exact HA|]. intros l1 l2 R1 R2. destruct (HC l1 l2 R1 R2) as [HM HD]. split; [exact HM|]. intros d1 d2 D1 D2.
  destruct (HD d1 d2 D1 D2) as (HS & (n1 & n2 & S1 & S2 & SE) & en1 & sa1 & en2 & sa2 & more & said & tail & Y1 & Y2 & _ & Z1 & Z2).
  split; [exact HS|]. split.
  - exists n1, n2. split; [exact S1|]. split; [exact S2|]. rewrite encode_blocks_app, lenN_app in SE. change (lenN (@nil byte)) with 0. lia.
  - intros k HU. exists (collect ((en1 ++ more) ++ behind_blocks allow tail)), (collect ((en2 ++ more) ++ behind_blocks allow tail)).
    split; [exact Z1|]. split; [exact Z2|]. apply collect_named. rewrite map_app in Y2.
    destruct (read_app _ _ _ _ _ Y2) as (a1 & p1 & a2 & p2 & A1 & A2 & -> & ->).
    destruct (blocks_read_det cp _ _ _ _ _ Hcp (stored_readable kept) Y1 A1) as [<- _].
    rewrite !named_app, (stored_named cp added a2 p2 k A2 HU), app_nil_r. reflexivity.
Qed.
Lemma blocks_swapped front kept one other back :
  let b1 := front ++ encode_blocks kept ++ encode_blocks one ++ encode_blocks other ++ back in
  let b2 := front ++ encode_blocks kept ++ encode_blocks other ++ encode_blocks one ++ back in
  before_blocks front b1 -> string_data_end b2 = lenN front -> Forall block_fits kept -> Forall block_fits one -> Forall block_fits other ->
  (forall k, unnamed k one \/ unnamed k other) ->
  forall cp allow, usable cp ->
  let start b := lnk_init (FromBytes b) cp allow in
  end_alike (snd (start b1)) (snd (start b2))
  /\ forall l1 l2, snd (start b1) = Ok l1 -> snd (start b2) = Ok l2 ->
       lnk_command l1 = lnk_command l2
       /\ forall d1 d2, snd (get_json l1 true) = Ok d1 -> snd (get_json l2 true) = Ok d2 ->
            same_entries ["header"; "target"; "link_info"; "data"; "size"] d1 d2 /\ forall k, same_block k d1 d2.
Proof.
  cbv zeta. intros HB E2 FK FO FT HU cp allow Hcp.
  assert (EB1 : encode_blocks kept ++ encode_blocks one ++ encode_blocks other ++ back = encode_blocks (kept ++ one ++ other) ++ back) by now rewrite !encode_blocks_app, <- !app_assoc.
  assert (EB2 : encode_blocks kept ++ encode_blocks other ++ encode_blocks one ++ back = encode_blocks (kept ++ other ++ one) ++ back) by now rewrite !encode_blocks_app, <- !app_assoc.
  rewrite EB1, EB2 in *.
  assert (F1 : Forall block_fits (kept ++ one ++ other)) by now repeat (apply Forall_app; split).
  assert (F2 : Forall block_fits (kept ++ other ++ one)) by now repeat (apply Forall_app; split).
  destruct (blocks_changed front _ _ back _ _ HB E2 F1 F2 eq_refl eq_refl cp allow Hcp) as [HA HC].
  split; [exact HA|]. intros l1 l2 R1 R2. destruct (HC l1 l2 R1 R2) as [HM HD]. split; [exact HM|]. intros d1 d2 D1 D2.
  destruct (HD d1 d2 D1 D2) as (HS & (n1 & n2 & S1 & S2 & SE) & en1 & sa1 & en2 & sa2 & more & said & tail & Y1 & Y2 & _ & Z1 & Z2).
  split.
  - intros k Hk. cbn [In] in Hk. destruct (string_dec k "size") as [->|NE]; [|apply HS; cbn [In]; intuition congruence].
    rewrite S1, S2. rewrite !encode_blocks_app, !lenN_app in SE. do 2 f_equal. lia.
  - intros k. exists (collect ((en1 ++ more) ++ behind_blocks allow tail)), (collect ((en2 ++ more) ++ behind_blocks allow tail)).
    split; [exact Z1|]. split; [exact Z2|]. apply collect_named. rewrite !map_app in Y1, Y2.
    destruct (read_app _ _ _ _ _ Y1) as (a1 & p1 & a2 & p2 & A1 & A2 & -> & ->). destruct (read_app _ _ _ _ _ A2) as (a3 & p3 & a4 & p4 & A3 & A4 & -> & ->).
    destruct (read_app _ _ _ _ _ Y2) as (c1 & q1 & c2 & q2 & C1 & C2 & -> & ->). destruct (read_app _ _ _ _ _ C2) as (c3 & q3 & c4 & q4 & C3 & C4 & -> & ->).
    destruct (blocks_read_det cp _ _ _ _ _ Hcp (stored_readable kept) A1 C1) as [<- _].
    destruct (blocks_read_det cp _ _ _ _ _ Hcp (stored_readable one) A3 C4) as [<- _].
    destruct (blocks_read_det cp _ _ _ _ _ Hcp (stored_readable other) A4 C3) as [<- _].
    rewrite !named_app. destruct (HU k) as [H|H].
    + rewrite (stored_named cp one a3 p3 k A3 H). now rewrite app_nil_r.
    + rewrite (stored_named cp other a4 p4 k A4 H). now rewrite app_nil_r.
Qed.
