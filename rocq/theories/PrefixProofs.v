(** * What of a file a report depends on (C67) *)
From Verif Require Import ReportProofs CommandProofs.
From Verif Require Import Lemmas PyTime Codec Utils Sha256 Header StringData Targets Info Extra LnkFile Report.
From Verif Require Import Spec SpecText SpecHeader SpecTime SpecDouble SpecItems SpecInfo SpecExtra SpecOutcome SpecEntries SpecBlocks SpecWhole SpecFailure SpecUnknown SpecPrefix.
From Verif Require Import OutcomeProofs LayoutProofs CoreProofs ApiProofs TextProofs ConstructProofs InfoProofs UnknownProofs TriedProofs LinkProofs WholeProofs FailureProofs.

(** ** Numbers and slices *)
Section Agree.
  Variables (n : N) (b1 b2 : bytes).
  Hypothesis HA : agree n b1 b2.

  Lemma agree_slice i j : j <= n -> slice i j b1 = slice i j b2.
  Proof. intros H. destruct HA as (_ & _ & E). now rewrite <- (slice_takeN_le i j n b1), E, slice_takeN_le. Qed.
  Lemma agree_num w i : i + w <= n -> num w i b1 = num w i b2.
  Proof. intros H. destruct HA as (_ & _ & E). now rewrite <- (num_takeN w i n b1), E, num_takeN. Qed.
  Lemma agree_take m : m <= n -> takeN m b1 = takeN m b2.
  Proof. intros H. rewrite <- !slice_0. now apply agree_slice. Qed.
  Lemma agree_drop m : m <= n -> agree (n - m) (dropN m b1) (dropN m b2).
  Proof.
    intros H. destruct HA as (L1 & L2 & E). repeat split; [rewrite lenN_dropN; lia|rewrite lenN_dropN; lia|].
    rewrite <- !slice_0, !slice_dropN. apply agree_slice. lia.
  Qed.
  Lemma agree_less m : m <= n -> agree m b1 b2.
  Proof. intros H. destruct HA as (L1 & L2 & E). repeat split; [lia|lia|now apply agree_take]. Qed.
End Agree.
Lemma agree_sym n b1 b2 : agree n b1 b2 -> agree n b2 b1.
Proof. intros (H1 & H2 & H3). repeat split; auto. Qed.

(** ** Strings that end in the common part *)
Lemma before_nul_app p q : In x00 p -> before_nul (p ++ q) = before_nul p.
Proof.
  induction p as [|c p IH]; [intros []|]. cbn [app before_nul In]. intros H.
  destruct (Byte.eqb c x00) eqn:E; [reflexivity|]. f_equal. apply IH. destruct H as [->|H]; [discriminate|assumption].
Qed.
Lemma before_nul_unit_app : forall k p q, 2 * k + 2 <= lenN p -> num 2 (2 * k) p = 0 -> before_nul_unit (p ++ q) = before_nul_unit p.
Proof.
  intros k p q. revert p. induction k as [|k IH] using N.peano_ind; intros p HL HZ.
  - destruct p as [|c [|d p]]; [cbn in HL; lia|cbn in HL; lia|]. cbn [app before_nul_unit].
    assert (Byte.eqb c x00 && Byte.eqb d x00 = true); [|now rewrite H].
    unfold num in HZ. change (2 * 0) with 0 in HZ. rewrite dropN_0 in HZ.
    replace (takeN 2 (c :: d :: p)) with [c; d] in HZ by (destruct p; reflexivity). cbn [le_val] in HZ.
    assert (b2n c = 0 /\ b2n d = 0) as [H1 H2] by lia.
    apply andb_true_iff. split; apply Byte.byte_dec_lb; apply b2n_inj; assumption.
  - destruct p as [|c [|d p]]; [cbn in HL; lia|cbn in HL; lia|]. cbn [app before_nul_unit].
    destruct (Byte.eqb c x00 && Byte.eqb d x00); [reflexivity|]. do 2 f_equal. apply IH.
    + rewrite !lenN_cons in HL. lia.
    + rewrite <- HZ. replace (2 * N.succ k) with (2 + 2 * k) by lia. rewrite <- (num_dropN 2 (2 * k) 2).
      now replace (dropN 2 (c :: d :: p)) with p by (destruct p; reflexivity).
Qed.

Lemma num_inside w i (p q : bytes) : i + w <= lenN p -> num w i (p ++ q) = num w i p.
Proof. intros H. unfold num. rewrite dropN_app_le by lia. rewrite takeN_app_le by (rewrite lenN_dropN; lia). reflexivity. Qed.
Lemma closed_below p off : closed p off -> off <= lenN p.
Proof. unfold closed. intros H. apply N.nlt_ge. intros HL. rewrite dropN_all in H by lia. destruct H. Qed.

Ltac pieces := repeat match goal with |- _ ++ _ = _ ++ _ => apply (f_equal2 (@app _)) end.

Section Info.
  Variables (cp : cp_arg) (p q : bytes).
  Lemma page_inside off : closed p off -> before_nul (dropN off (p ++ q)) = before_nul (dropN off p).
  Proof. intros H. rewrite dropN_app_le by now apply closed_below. now apply before_nul_app. Qed.
  Lemma text_inside off : closed p off -> field_text cp (dropN off (p ++ q)) = field_text cp (dropN off p).
  Proof. intros H. unfold field_text. now rewrite page_inside. Qed.
  Lemma warning_inside off : closed p off -> field_warning cp (dropN off (p ++ q)) = field_warning cp (dropN off p).
  Proof. intros H. unfold field_warning. now rewrite page_inside. Qed.
  Lemma unit_inside off : closed_wide p off -> before_nul_unit (dropN off (p ++ q)) = before_nul_unit (dropN off p).
  Proof.
    intros (k & HL & HZ). rewrite dropN_app_le by lia. apply before_nul_unit_app with k; [rewrite lenN_dropN; lia|]. now rewrite num_dropN.
  Qed.
  Lemma wide_inside off : closed_wide p off -> wide_text (dropN off (p ++ q)) = wide_text (dropN off p).
  Proof. intros H. unfold wide_text. now rewrite unit_inside. Qed.
  Lemma wide_warning_inside off : closed_wide p off -> wide_warning (dropN off (p ++ q)) = wide_warning (dropN off p).
  Proof. intros H. unfold wide_warning. now rewrite unit_inside. Qed.

  Lemma wide_offset_inside off : off = 28 \/ off = 32 -> info_readable true p = true \/ info_readable false p = true -> wide_offset off (p ++ q) = wide_offset off p.
  Proof.
    intros HO HR. unfold wide_offset.
    assert (HB : 28 <= lenN p /\ (0x24 <= num 4 4 p -> 36 <= lenN p)).
    { destruct HR as [HR|HR]; unfold info_readable in HR; apply andb_true_iff in HR as [HR _]; apply andb_true_iff in HR as [H1 H2];
        (split; [lia|]; intros H; replace (0x24 <=? num 4 4 p) with true in H2 by lia; lia). }
    destruct HB as [H1 H2]. rewrite num_inside by lia. destruct (0x24 <=? num 4 4 p) eqn:E; [|reflexivity].
    apply num_inside. assert (36 <= lenN p) by (apply H2; lia). destruct HO; subst; lia.
  Qed.
  Lemma entry_if_same c d1 d2 : (c = true -> d1 = d2) -> entry_if c d1 = entry_if c d2.
  Proof. destruct c; [intros H; now rewrite H|reflexivity]. Qed.
  Lemma warn_if_same c w1 w2 : (c = true -> w1 = w2) -> warn_if c w1 = warn_if c w2.
  Proof. destruct c; [intros H; now rewrite H|reflexivity]. Qed.

  Lemma common_inside network : info_complete network p ->
    common_entries cp (p ++ q) = common_entries cp p /\ common_warnings cp (p ++ q) = common_warnings cp p.
  Proof.
    intros (HR & HB & HS & HWB & HWS & _).
    assert (HR' : info_readable true p = true \/ info_readable false p = true) by (destruct network; auto).
    assert (L : 28 <= lenN p).
    { unfold info_readable in HR. apply andb_true_iff in HR as [HR _]. apply andb_true_iff in HR as [H1 H2]. lia. }
    unfold common_entries, common_warnings. cbv zeta.
    rewrite !wide_offset_inside by auto. rewrite !num_inside by lia.
    split; pieces; try reflexivity; (first [apply entry_if_same|apply warn_if_same]; intros E; apply negb_true_iff, N.eqb_neq in E).
    all: first [rewrite text_inside by auto|rewrite wide_inside by auto|rewrite warning_inside by auto|rewrite wide_warning_inside by auto]; reflexivity.
  Qed.
  Lemma local_inside : info_complete false p ->
    local_entries cp (p ++ q) = local_entries cp p /\ local_warnings cp (p ++ q) = local_warnings cp p.
  Proof.
    intros (HR & _ & _ & _ & _ & HL). cbv zeta in HL. unfold info_readable in HR. apply andb_true_iff in HR as [HR1 HR].
    apply andb_true_iff in HR1 as [L _]. apply andb_true_iff in HR as [HR1 HR2].
    unfold local_entries, local_warnings. cbv zeta. rewrite (num_inside 4 12) by lia.
    set (o := num 4 12 p) in *. rewrite !(num_inside 4 (o + _)), (num_inside 4 o) by lia.
    destruct (num 4 (o + 12) p =? 0x14) eqn:E; cbn [negb warn_if].
    - rewrite (num_inside 4 (o + 16)) by lia. split; pieces; try reflexivity;
        (first [apply entry_if_same|apply warn_if_same]; intros EW; apply negb_true_iff, N.eqb_neq in EW).
      + now rewrite wide_inside by auto.
      + now rewrite wide_warning_inside by auto.
    - rewrite text_inside, warning_inside by assumption. split; reflexivity.
  Qed.
  Lemma network_inside : info_complete true p ->
    network_entries cp (p ++ q) = network_entries cp p /\ network_warnings cp (p ++ q) = network_warnings cp p.
  Proof.
    intros (HR & _ & _ & _ & _ & HL). cbv zeta in HL. unfold info_readable in HR. apply andb_true_iff in HR as [HR1 HR].
    apply andb_true_iff in HR1 as [L _]. apply andb_true_iff in HR as [HR1 HR2].
    unfold network_entries, network_warnings. cbv zeta. rewrite (num_inside 4 20) by lia.
    set (o := num 4 20 p) in *.
    rewrite (num_inside 4 (o + 4)), (num_inside 4 (o + 8)), (num_inside 4 (o + 12)), (num_inside 4 (o + 16)), (num_inside 4 o) by lia.
    destruct (20 <? num 4 (o + 8) p) eqn:E.
    - replace (num 4 (o + 8) p <=? 20) with false by lia. cbn [andb warn_if entry_if].
      rewrite (num_inside 4 (o + 20)), (num_inside 4 (o + 24)) by lia. destruct HL as [HN HD].
      split; pieces; try reflexivity;
        (first [apply entry_if_same|apply warn_if_same]; intros EW; apply negb_true_iff, N.eqb_neq in EW);
        first [rewrite wide_inside by auto|rewrite wide_warning_inside by auto]; reflexivity.
    - replace (num 4 (o + 8) p <=? 20) with true by lia. cbn [andb warn_if entry_if]. destruct HL as [HN HD].
      unfold name_warnings. rewrite !text_inside, !warning_inside by assumption. split; reflexivity.
  Qed.
  Lemma readable_inside network : info_complete network p -> info_readable network (p ++ q) = true.
  Proof.
    intros (HR & _). unfold info_readable in *. apply andb_true_iff in HR as [HR1 HR].
    apply andb_true_iff in HR1 as [L HW]. rewrite lenN_app. rewrite (num_inside 4 4) by lia.
    replace (28 <=? lenN p + lenN q) with true by lia.
    assert (EW : (if 0x24 <=? num 4 4 p then 36 <=? lenN p + lenN q else true) = true) by (destruct (0x24 <=? num 4 4 p); lia).
    rewrite EW. cbn [andb]. destruct network; cbv zeta in *; apply andb_true_iff in HR as [HR1 HR2].
    - rewrite (num_inside 4 20) by lia. set (o := num 4 20 p) in *. rewrite (num_inside 4 (o + 8)) by lia.
      destruct (20 <? num 4 (o + 8) p); lia.
    - rewrite (num_inside 4 12) by lia. set (o := num 4 12 p) in *. rewrite (num_inside 4 (o + 12)) by lia.
      destruct (num 4 (o + 12) p =? 20); lia.
  Qed.
  Lemma info_inside_same network : info_complete network p ->
    info_entries cp network (p ++ q) = info_entries cp network p /\ info_warnings cp network (p ++ q) = info_warnings cp network p.
  Proof.
    intros H. destruct (common_inside network H) as [E1 E2]. unfold info_entries, info_warnings. rewrite E1, E2.
    destruct network; [destruct (network_inside H) as [-> ->]|destruct (local_inside H) as [-> ->]]; split; reflexivity.
  Qed.
End Info.

(** ** Walks inside the common part *)
Lemma string_walk_forward b fs p found e cut : string_walk b fs p found e cut -> p <= e.
Proof. induction 1; lia. Qed.
Lemma string_walk_inside n b1 b2 fs p found e :
  agree n b1 b2 -> 24 <= n -> string_walk b1 fs p found e false -> e <= n -> string_walk b2 fs p found e false.
Proof.
  intros HA H24 HW. assert (HB : forall i, bit_set i b1 = bit_set i b2).
  { intros i. unfold bit_set. rewrite (agree_num n b1 b2 HA) by lia. reflexivity. }
  remember false as cut eqn:EC.
  induction HW as [p|i name lim fs p found e cut HB1 HW IH|i name lim fs p HB1 HL|i name lim fs p m found e cut HB1 HL HM HW IH]; intros HE.
  - subst. constructor.
  - apply string_absent; [now rewrite <- HB|]. now apply IH.
  - discriminate.
  - assert (HF := string_walk_forward _ _ _ _ _ _ HW). rewrite (agree_slice n b1 b2 HA) by lia. apply string_found.
    + now rewrite <- HB.
    + destruct HA as (_ & HA2 & _). lia.
    + rewrite HM. unfold char_width. now rewrite HB, (agree_num n b1 b2 HA) by lia.
    + now apply IH.
Qed.
Lemma string_walk_split b fs1 fs2 p found e cut found1 e1 :
  string_walk b (fs1 ++ fs2) p found e cut -> string_walk b fs1 p found1 e1 false ->
  exists more, found = found1 ++ more /\ string_walk b fs2 e1 more e cut.
Proof.
  intros HW H1. revert found e cut HW. remember false as c eqn:EC.
  induction H1 as [p|i name lim fs p f1 e1 c HB HW1 IH|i name lim fs p HB HL|i name lim fs p m f1 e1 c HB HL HM HW1 IH];
    intros found e cut HW; cbn [app] in HW.
  - exists found. now split.
  - inversion HW; subst; try congruence. now apply IH.
  - discriminate.
  - inversion HW; subst; try congruence; [lia|].
    match goal with H : string_walk b (fs ++ fs2) _ _ _ _ |- _ => apply IH in H as (more & -> & HX); [|reflexivity] end.
    exists more. now split.
Qed.

Lemma short_no_blocks r blocks t : block_walk r blocks t -> lenN r < 8 -> blocks = [].
Proof. induction 1; intros HL; [reflexivity| |lia]. apply IHblock_walk. rewrite lenN_dropN. lia. Qed.
Lemma le_val_front a b : le_val a <= le_val (a ++ b).
Proof. induction a as [|x a IH]; cbn [app le_val]; lia. Qed.
Lemma declared_size k sig r : 4 <= k -> k <= declared (sig, takeN (num 4 0 r) r) ->
  k <= num 4 0 r /\ declared (sig, takeN (num 4 0 r) r) = num 4 0 r.
Proof.
  intros H4 H. unfold declared in *. cbn [snd] in *.
  assert (HL : num 4 0 (takeN (num 4 0 r) r) <= num 4 0 r).
  { unfold num at 1 3. rewrite !dropN_0, takeN_takeN.
    rewrite <- (take_drop (N.min 4 (num 4 0 r)) (takeN 4 r)), takeN_takeN.
    replace (N.min (N.min 4 (num 4 0 r)) 4) with (N.min 4 (num 4 0 r)) by lia. apply le_val_front. }
  split; [lia|]. apply num_takeN. lia.
Qed.

(** Blocks that start eight bytes in front of position [m], or more. *)
Lemma block_walk_inside k blocks more : 4 <= k -> k <= 8 -> forall m r1 r2 t1,
  agree m r1 r2 -> block_walk r1 (blocks ++ more) t1 -> Forall (fun blk => k <= declared blk) blocks ->
  (blocks = [] \/ sumN (map declared blocks) + (8 - k) <= m) ->
  block_walk (dropN (sumN (map declared blocks)) r1) more t1
  /\ forall more2 t2, block_walk (dropN (sumN (map declared blocks)) r2) more2 t2 -> block_walk r2 (blocks ++ more2) t2.
Proof.
  intros H4 HK. induction blocks as [|blk blocks IH]; intros m r1 r2 t1 HA HW HF HM; cbn [map sumN fold_right app] in *.
  - rewrite !dropN_0. now split.
  - destruct HM as [HM|HM]; [discriminate|]. inversion HF as [|? ? H8 HF']; subst. fold (sumN (map declared blocks)) in *.
    inversion HW as [|? ? ? HL HN HW'|r bs t HL HN HW']; subst.
    { exfalso. apply short_no_blocks in HW'; [discriminate|]. rewrite lenN_dropN. lia. }
    destruct (declared_size k _ _ H4 H8) as [H8' ED]. rewrite ED in *.
    assert (E1 : num 4 0 r1 = num 4 0 r2) by (apply (agree_num m r1 r2 HA); lia).
    assert (HA' : agree (m - num 4 0 r1) (dropN (num 4 0 r1) r1) (dropN (num 4 0 r1) r2)) by (apply agree_drop; [assumption|lia]).
    destruct (IH _ _ _ _ HA' HW' HF') as [I1 I2]; [right; lia|].
    rewrite dropN_dropN in I1. split; [exact I1|]. intros more2 t2 H2. rewrite <- dropN_dropN in H2. apply I2 in H2.
    rewrite (agree_take m r1 r2 HA), (agree_num m r1 r2 HA 4 4) by lia. rewrite E1 in H2 |- *.
    destruct HA as (_ & HL2 & _). apply walk_block; [lia|lia|assumption].
Qed.

(** ** Files *)
Section Files.
  Variables (n : N) (b1 b2 : bytes).
  Hypothesis HA : agree n b1 b2.

  Section Front.
    Hypothesis HL : lists_inside n b1.
    Lemma same_header_len : header_len b1 = header_len b2.
    Proof. destruct HL as (_ & _ & H). apply (agree_num n b1 b2 HA). lia. Qed.
    Lemma same_bits i : bit_set i b1 = bit_set i b2.
    Proof. destruct HL as (_ & _ & H). unfold bit_set. now rewrite (agree_num n b1 b2 HA) by lia. Qed.
    Lemma header_fits : header_len b1 <= id_list_end b1 /\ (has_id_list b1 = true -> header_len b1 + 2 + num 2 (header_len b1) b1 = id_list_end b1).
    Proof. unfold id_list_end. destruct (has_id_list b1); split; try lia; discriminate. Qed.
    Lemma same_id_list_size : has_id_list b1 = true -> num 2 (header_len b1) b1 = num 2 (header_len b1) b2.
    Proof. intros H. destruct HL as (_ & H1 & _). pose proof header_fits as [_ HF]. specialize (HF H). apply (agree_num n b1 b2 HA). lia. Qed.
    Lemma same_has_list : has_id_list b1 = has_id_list b2.
    Proof. apply same_bits. Qed.
    Lemma same_id_list_end : id_list_end b1 = id_list_end b2.
    Proof.
      unfold id_list_end. rewrite <- same_has_list, <- same_header_len. destruct (has_id_list b1) eqn:E; [|reflexivity].
      now rewrite same_id_list_size.
    Qed.
    Lemma same_id_list : has_id_list b1 = true -> id_list b1 = id_list b2.
    Proof.
      intros H. unfold id_list. rewrite <- same_header_len, <- same_id_list_size by assumption. apply (agree_slice n b1 b2 HA).
      destruct HL as (_ & H1 & _). pose proof header_fits as [_ HF]. specialize (HF H). lia.
    Qed.

    Hypothesis HI : info_inside n b1.
    Lemma same_processed : info_processed b1 = info_processed b2.
    Proof.
      unfold info_processed. rewrite <- same_id_list_end, <- !same_bits.
      destruct (bit_set 1 b1) eqn:E1; [|reflexivity]. destruct (bit_set 8 b1) eqn:E8; [reflexivity|]. cbn [negb andb].
      destruct (HI E1 E8) as [H12 _]. pose proof HA as (L1 & L2 & _).
      replace (id_list_end b1 + 12 <=? lenN b1) with true by lia. replace (id_list_end b1 + 12 <=? lenN b2) with true by lia.
      cbn [andb]. now rewrite (agree_num n b1 b2 HA) by lia.
    Qed.
    Lemma processed_fits : info_processed b1 = true ->
      id_list_end b1 + 12 <= n
      /\ info_complete (negb (N.testbit (num 4 (id_list_end b1 + 8) b1) 0)) (dropN (id_list_end b1) (takeN n b1)).
    Proof.
      intros H. assert (H' := H). unfold info_processed in H'. apply andb_true_iff in H' as [H' _]. apply andb_true_iff in H' as [H' _].
      apply andb_true_iff in H' as [E1 E8]. apply negb_true_iff in E8. destruct (HI E1 E8) as [H12 HC]. auto.
    Qed.
    Lemma same_network : info_processed b1 = true ->
      num 4 (id_list_end b1 + 8) b1 = num 4 (id_list_end b1 + 8) b2.
    Proof. intros H. apply processed_fits in H as [H _]. apply (agree_num n b1 b2 HA). lia. Qed.
    Lemma same_info_end : info_end b1 = info_end b2.
    Proof.
      unfold info_end. rewrite <- same_processed, <- same_id_list_end. destruct (info_processed b1) eqn:E; [|reflexivity].
      apply processed_fits in E as [E _]. now rewrite (agree_num n b1 b2 HA) by lia.
    Qed.
    Lemma raw_split b : agree n b1 b -> dropN (id_list_end b1) b = dropN (id_list_end b1) (takeN n b1) ++ dropN n b.
    Proof.
      intros (L1 & L2 & E). rewrite <- (take_drop n b) at 1. rewrite <- E. apply dropN_app_le. rewrite lenN_takeN.
      destruct HL as (_ & H & _). lia.
    Qed.
    Lemma agree_self : agree n b1 b1.
    Proof. pose proof HA as (L1 & L2 & _). now repeat split. Qed.
    Lemma same_info cp : info_processed b1 = true ->
      let network := negb (N.testbit (num 4 (id_list_end b1 + 8) b1) 0) in
      info_readable network (dropN (id_list_end b1) b1) = true
      /\ info_readable network (dropN (id_list_end b2) b2) = true
      /\ info_entries cp network (dropN (id_list_end b1) b1) = info_entries cp network (dropN (id_list_end b2) b2)
      /\ info_warnings cp network (dropN (id_list_end b1) b1) = info_warnings cp network (dropN (id_list_end b2) b2).
    Proof.
      intros H network. apply processed_fits in H as [_ HC]. fold network in HC. rewrite <- same_id_list_end.
      rewrite (raw_split b1 agree_self), (raw_split b2 HA).
      destruct (info_inside_same cp _ (dropN n b1) network HC) as [-> ->].
      destruct (info_inside_same cp _ (dropN n b2) network HC) as [-> ->].
      rewrite !readable_inside by assumption. auto.
    Qed.
  End Front.
End Files.

(** ** Reports *)
Lemma whole_parts b cp allow d w : whole_report b cp allow d w ->
  exists h rest created accessed written items said found data_end cut blocks tail entries bsaid,
    wf_header h /\ b = encode_header h ++ rest
    /\ (time_read (h_ctime h) created /\ time_read (h_atime h) accessed /\ time_read (h_wtime h) written)
    /\ (if has_id_list b then entries_listed cp (id_list b) items said else items = [] /\ said = [])
    /\ string_walk b string_fields (info_end b) found data_end cut
    /\ block_walk (dropN data_end b) blocks tail
    /\ blocks_read cp blocks entries bsaid
    /\ dget "header" d = Some (PDict (header_report h created accessed written))
    /\ dget "target" d = (if has_id_list b
                          then Some (PDict [("size", PN (num 2 (h_size h) b)); ("items", PList (map PDict items)); ("index", PN (h_size h + 2))])
                          else None)%string
    /\ dget "link_info" d = Some (PDict (if info_processed b
                                         then info_entries cp (negb (N.testbit (num 4 (id_list_end b + 8) b) 0)) (dropN (id_list_end b) b)
                                         else []))
    /\ dget "data" d = Some (PDict (map (fun f => (fst f, PStr (stored_text (bit_set 7 b) cp (snd f)))) found))
    /\ dget "extra" d = Some (PDict (collect (entries ++ behind_blocks allow tail))).
Proof.
  intros [h rest c a w0 items said found e cut blocks tail entries bsaid raw network terminal sections].
  exists h, rest, c, a, w0, items, said, found, e, cut, blocks, tail, entries, bsaid.
  assert (EN : negb (N.testbit (num 4 (id_list_end b + 8) b) 0) = network) by (subst network raw; now rewrite num_dropN).
  rewrite EN. replace (dropN (id_list_end b) b) with raw.
  repeat (split; [assumption|]). split; [repeat split; assumption|]. repeat (split; [assumption|]).
  destruct (has_id_list b); repeat split.
Qed.

Lemma blocks_read_split cp a b l w : blocks_read cp (a ++ b) l w ->
  exists la wa lb wb, l = la ++ lb /\ w = wa ++ wb /\ blocks_read cp a la wa /\ blocks_read cp b lb wb.
Proof.
  revert l w. induction a as [|blk a IH]; intros l w H; cbn [app] in H.
  - exists [], [], l, w. repeat split; [constructor|assumption].
  - inversion H as [|sig raw rest d v l' ws HR HB|sig raw rest v l' ws HR HB]; subst; apply IH in HB as (la & wa & lb & wb & -> & -> & HA & HB).
    + exists ((block_name sig, d) :: la), (v ++ wa), lb, wb. rewrite app_assoc. repeat split; [now constructor|assumption].
    + exists la, (v ++ WExtraBlock (block_name sig) :: wa), lb, wb. rewrite <- app_assoc. repeat split; [now constructor|assumption].
Qed.
Lemma walk_readable r blocks more t : block_walk r (blocks ++ more) t -> Forall (fun blk => 8 <= declared blk) blocks -> sizes_readable blocks.
Proof.
  intros HW. remember (blocks ++ more) as all eqn:EA. revert blocks more EA.
  induction HW as [r HS|r bs t HL HN HW IH|r bs t HL HN HW IH]; intros blocks more EA HF.
  - destruct blocks; [constructor|discriminate].
  - eapply IH; eassumption.
  - destruct blocks as [|blk blocks]; [constructor|]. injection EA as <- EA. inversion HF as [|? ? H8 HF']; subst.
    constructor; [|eapply IH; [reflexivity|assumption]]. cbn [snd].
    destruct (declared_size 8 _ _ ltac:(lia) H8) as [H8' _]. rewrite lenN_takeN. lia.
Qed.

Section Reports.
  Variables (n : N) (b1 b2 : bytes) (cp : cp_arg) (allow1 allow2 : bool) (l1 l2 : lnk) (d1 d2 : dict).
  Hypothesis HA : agree n b1 b2.
  Hypothesis Hcp : usable cp.
  Hypothesis HL1 : snd (lnk_init (FromBytes b1) cp allow1) = Ok l1.
  Hypothesis HL2 : snd (lnk_init (FromBytes b2) cp allow2) = Ok l2.
  Hypothesis HD1 : snd (get_json l1 true) = Ok d1.
  Hypothesis HD2 : snd (get_json l2 true) = Ok d2.

  Lemma both_whole : exists w1 w2, whole_report b1 cp allow1 d1 w1 /\ whole_report b2 cp allow2 d2 w2.
  Proof.
    exists (fst (get_json l1 true)), (fst (get_json l2 true)).
    split; [apply whole_reported with l1|apply whole_reported with l2]; try assumption;
      rewrite <- ?HD1, <- ?HD2; apply surjective_pairing.
  Qed.

  Lemma header_inside : 76 <= n -> dget "header" d1 = dget "header" d2.
  Proof.
    intros H. destruct both_whole as (w1 & w2 & W1 & W2).
    apply whole_parts in W1 as (h & rest & c & a & w & _ & _ & _ & _ & _ & _ & _ & _ & _ & WF & EB & (T1 & T2 & T3) & _ & _ & _ & _ & -> & _).
    apply whole_parts in W2 as (h' & rest' & c' & a' & w' & _ & _ & _ & _ & _ & _ & _ & _ & _ & WF' & EB' & (T1' & T2' & T3') & _ & _ & _ & _ & -> & _).
    assert (EH : h = h').
    { apply header_inj with [] []; try assumption. rewrite !app_nil_r.
      assert (ET := agree_take n b1 b2 HA 76 H). rewrite EB, EB' in ET.
      rewrite !takeN_app_exact in ET by now apply lenN_encode_header. assumption. }
    subst h'. destruct WF as (_ & _ & _ & _ & _ & F1 & F2 & F3 & _).
    rewrite (time_read_det (h_ctime h) c c'), (time_read_det (h_atime h) a a'), (time_read_det (h_wtime h) w w') by assumption. reflexivity.
  Qed.
  Lemma h_size_of b h rest : wf_header h -> b = encode_header h ++ rest -> h_size h = header_len b.
  Proof. intros WF ->. symmetry. now apply header_len_encode. Qed.
  Lemma target_inside : lists_inside n b1 -> dget "target" d1 = dget "target" d2.
  Proof.
    intros HI. destruct both_whole as (w1 & w2 & W1 & W2).
    apply whole_parts in W1 as (h & rest & _ & _ & _ & items & said & _ & _ & _ & _ & _ & _ & _ & WF & EB & _ & EL & _ & _ & _ & _ & -> & _).
    apply whole_parts in W2 as (h' & rest' & _ & _ & _ & items' & said' & _ & _ & _ & _ & _ & _ & _ & WF' & EB' & _ & EL' & _ & _ & _ & _ & -> & _).
    rewrite (h_size_of _ _ _ WF EB), (h_size_of _ _ _ WF' EB'). rewrite <- (same_header_len n b1 b2 HA HI).
    rewrite <- (same_has_list n b1 b2 HA HI) in *. destruct (has_id_list b1) eqn:E; [|reflexivity].
    rewrite <- (same_id_list n b1 b2 HA HI E) in EL'. destruct (entries_listed_det _ _ _ _ _ _ Hcp EL EL') as [<- _].
    now rewrite (same_id_list_size n b1 b2 HA HI E).
  Qed.
  Lemma link_info_inside : lists_inside n b1 -> info_inside n b1 -> dget "link_info" d1 = dget "link_info" d2.
  Proof.
    intros HI HF. destruct both_whole as (w1 & w2 & W1 & W2).
    apply whole_parts in W1 as (_ & _ & _ & _ & _ & _ & _ & _ & _ & _ & _ & _ & _ & _ & _ & _ & _ & _ & _ & _ & _ & _ & _ & -> & _).
    apply whole_parts in W2 as (_ & _ & _ & _ & _ & _ & _ & _ & _ & _ & _ & _ & _ & _ & _ & _ & _ & _ & _ & _ & _ & _ & _ & -> & _).
    rewrite <- (same_processed n b1 b2 HA HI HF). destruct (info_processed b1) eqn:E; [|reflexivity].
    destruct (same_info n b1 b2 HA HI HF cp E) as (_ & _ & EI & _). rewrite EI.
    now rewrite <- (same_id_list_end n b1 b2 HA HI), <- (same_network n b1 b2 HA HF E).
  Qed.
  Definition shown (b : bytes) (f : string * bytes) : string * pyval := (fst f, PStr (stored_text (bit_set 7 b) cp (snd f))).
  Lemma strings_inside j found e : lists_inside n b1 -> info_inside n b1 ->
    string_walk b1 (firstn j string_fields) (info_end b1) found e false -> e <= n ->
    exists more1 more2, dget "data" d1 = Some (PDict (map (shown b1) found ++ more1))
      /\ dget "data" d2 = Some (PDict (map (shown b1) found ++ more2)).
  Proof.
    intros HI HF HW HE. destruct both_whole as (w1 & w2 & W1 & W2).
    apply whole_parts in W1 as (_ & _ & _ & _ & _ & _ & _ & f1 & e1 & c1 & _ & _ & _ & _ & _ & _ & _ & _ & S1 & _ & _ & _ & _ & _ & D1 & _).
    apply whole_parts in W2 as (_ & _ & _ & _ & _ & _ & _ & f2 & e2 & c2 & _ & _ & _ & _ & _ & _ & _ & _ & S2 & _ & _ & _ & _ & _ & D2 & _).
    assert (H24 : 24 <= n) by apply HI.
    assert (HW2 := string_walk_inside n b1 b2 _ _ _ _ HA H24 HW HE). rewrite <- (same_info_end n b1 b2 HA HI HF) in S2.
    rewrite <- (firstn_skipn j string_fields) in S1, S2.
    destruct (string_walk_split _ _ _ _ _ _ _ _ _ S1 HW) as (m1 & -> & _).
    destruct (string_walk_split _ _ _ _ _ _ _ _ _ S2 HW2) as (m2 & -> & _).
    exists (map (shown b1) m1), (map (shown b1) m2). rewrite D1, D2, <- !map_app. unfold shown.
    split; [reflexivity|]. now rewrite (same_bits n b1 b2 HA HI).
  Qed.
  Lemma blocks_inside found e blocks more tail : lists_inside n b1 -> info_inside n b1 ->
    string_walk b1 string_fields (info_end b1) found e false -> e <= n ->
    block_walk (dropN e b1) (blocks ++ more) tail -> Forall (fun blk => 8 <= declared blk) blocks ->
    e + sumN (map declared blocks) <= n ->
    exists entries said more1 more2, blocks_read cp blocks entries said
      /\ dget "extra" d1 = Some (PDict (collect (entries ++ more1)))
      /\ dget "extra" d2 = Some (PDict (collect (entries ++ more2))).
  Proof.
    intros HI HF HW HE HB H8 HS. destruct both_whole as (w1 & w2 & W1 & W2).
    apply whole_parts in W1 as (_ & _ & _ & _ & _ & _ & _ & f1 & e1 & c1 & bl1 & t1 & en1 & sa1 & _ & _ & _ & _ & S1 & B1 & R1 & _ & _ & _ & _ & D1).
    apply whole_parts in W2 as (_ & _ & _ & _ & _ & _ & _ & f2 & e2 & c2 & bl2 & t2 & en2 & sa2 & _ & _ & _ & _ & S2 & B2 & R2 & _ & _ & _ & _ & D2).
    assert (H24 : 24 <= n) by apply HI.
    assert (HW2 := string_walk_inside n b1 b2 _ _ _ _ HA H24 HW HE). rewrite <- (same_info_end n b1 b2 HA HI HF) in S2.
    destruct (string_walk_det _ _ _ _ _ _ _ _ _ S1 HW) as (-> & -> & ->).
    destruct (string_walk_det _ _ _ _ _ _ _ _ _ S2 HW2) as (-> & -> & ->).
    destruct (block_walk_det _ _ _ _ _ B1 HB) as [-> ->].
    assert (HA' : agree (n - e) (dropN e b1) (dropN e b2)) by now apply agree_drop.
    destruct (block_walk_inside 8 blocks more ltac:(lia) ltac:(lia) _ _ _ _ HA' HB H8) as [_ HB2]; [right; lia|].
    destruct (block_walk_total (dropN (sumN (map declared blocks)) (dropN e b2))) as (more2 & tail2 & HM2).
    destruct (block_walk_det _ _ _ _ _ B2 (HB2 _ _ HM2)) as [-> ->].
    apply blocks_read_split in R1 as (x1 & v1 & y1 & u1 & -> & -> & R1 & _).
    apply blocks_read_split in R2 as (x2 & v2 & y2 & u2 & -> & -> & R2 & _).
    destruct (blocks_read_det cp blocks x1 v1 x2 v2 Hcp) as [<- <-]; try assumption.
    { eapply walk_readable; eassumption. }
    exists x1, v1, (y1 ++ behind_blocks allow1 tail), (y2 ++ behind_blocks allow2 tail2).
    rewrite D1, D2, <- !app_assoc. auto.
  Qed.
End Reports.

(** ** Whole links *)
Lemma strings_end_found b : forall fs p found e cut, string_walk b fs p found e cut ->
  strings_end (map (fun f => (fst (fst f), snd f)) fs) b p = e.
Proof.
  induction 1 as [p|i name lim fs p found e cut HB HW IH|i name lim fs p HB HL|i name lim fs p n found e cut HB HL -> HW IH]; cbn [map strings_end fst snd];
    try rewrite HB; [reflexivity|exact IH|now replace (p + 2 <=? lenN b) with false by lia|].
  replace (p + 2 <=? lenN b) with true by lia. exact IH.
Qed.
Lemma data_end_found b found e cut : string_walk b string_fields (info_end b) found e cut -> string_data_end b = e.
Proof. intros H. apply strings_end_found in H. exact H. Qed.

Lemma readable_sizes r blocks t : block_walk r blocks t -> Forall (fun blk => 4 <= declared blk) blocks -> sizes_readable blocks.
Proof.
  induction 1 as [r HS|r bs t HL HN HW IH|r bs t HL HN HW IH]; intros HF; [constructor|now apply IH|].
  inversion HF as [|? ? H4 HF']; subst. constructor; [|now apply IH]. cbn [snd].
  destruct (declared_size 4 _ _ ltac:(lia) H4) as [H4' _]. rewrite lenN_takeN. lia.
Qed.
Lemma no_walk_warnings r blocks t : block_walk r blocks t -> Forall (fun blk => 4 <= declared blk) blocks ->
  sumN (map declared blocks) + 4 <= lenN r -> num 4 (sumN (map declared blocks)) r = 0 -> walk_warnings r [].
Proof.
  induction 1 as [r HS|r bs t HL HN HW IH|r bs t HL HN HW IH]; intros HF HS4 H0.
  - apply quiet_end. right. cbn [map sumN fold_right] in *. split; [lia|assumption].
  - exfalso. apply short_no_blocks in HW; [|rewrite lenN_dropN; lia]. subst bs. cbn [map sumN fold_right] in H0. contradiction.
  - inversion HF as [|? ? H4 HF']; subst. cbn [map sumN fold_right] in *. fold (sumN (map declared bs)) in *.
    destruct (declared_size 4 _ _ ltac:(lia) H4) as [H4' ED]. rewrite ED in *.
    apply whole_block; try assumption. apply IH; [assumption|rewrite lenN_dropN; lia|]. now rewrite num_dropN.
Qed.

Section Link.
  Variables (n : N) (b1 b2 : bytes) (found : list (string * bytes)) (e : N) (blocks : list (N * bytes)) (tail : bytes).
  Hypothesis HA : agree n b1 b2.
  Hypothesis HL : lists_inside n b1.
  Hypothesis HI : info_inside n b1.
  Hypothesis HS : string_walk b1 string_fields (info_end b1) found e false.
  Hypothesis HB : block_walk (dropN e b1) blocks tail.
  Hypothesis H4 : Forall (fun blk => 4 <= declared blk) blocks.
  Hypothesis HN : e + sumN (map declared blocks) + 4 <= n.
  Hypothesis H0 : num 4 (e + sumN (map declared blocks)) b1 = 0.

  Lemma end_same : num 4 (e + sumN (map declared blocks)) b2 = 0.
  Proof. rewrite <- H0. symmetry. apply (agree_num n b1 b2 HA). lia. Qed.
  Lemma strings_same : string_walk b2 string_fields (info_end b2) found e false.
  Proof.
    rewrite <- (same_info_end n b1 b2 HA HL HI). apply string_walk_inside with n b1; [assumption|apply HL|assumption|lia].
  Qed.
  Lemma blocks_same : block_walk (dropN e b2) blocks (dropN (sumN (map declared blocks)) (dropN e b2)).
  Proof.
    assert (HA' : agree (n - e) (dropN e b1) (dropN e b2)) by (apply agree_drop; [assumption|lia]).
    assert (HB' : block_walk (dropN e b1) (blocks ++ []) tail) by now rewrite app_nil_r.
    destruct (block_walk_inside 4 blocks [] ltac:(lia) ltac:(lia) _ _ _ _ HA' HB' H4) as [_ HW]; [right; lia|].
    rewrite <- (app_nil_r blocks) at 1. apply HW. apply walk_stop. right. rewrite dropN_dropN, num_dropN, N.add_0_r. exact end_same.
  Qed.
  Lemma info_same : info_inside n b2.
  Proof.
    intros E1 E8. rewrite <- (same_bits n b1 b2 HA HL) in E1, E8. destruct (HI E1 E8) as [H12 HC].
    rewrite <- (same_id_list_end n b1 b2 HA HL). split; [exact H12|]. rewrite <- (same_processed n b1 b2 HA HL HI).
    intros EP. rewrite <- (same_network n b1 b2 HA HI EP). destruct HA as (_ & _ & <-). now apply HC.
  Qed.
  Lemma lists_same : lists_inside n b2.
  Proof. destruct HL as (L1 & L2 & L3). unfold lists_inside. now rewrite <- (same_header_len n b1 b2 HA HL), <- (same_id_list_end n b1 b2 HA HL). Qed.
  Lemma header_part : takeN (header_len b1) b1 = takeN (header_len b2) b2.
  Proof. rewrite <- (same_header_len n b1 b2 HA HL). apply (agree_take n b1 b2 HA). destruct HL as (_ & H & _). pose proof (header_fits b1) as [HF _]. lia. Qed.

  Lemma fails_same cp x said : report_fails b1 cp x said -> report_fails b2 cp x said.
  Proof.
    intros [h c a w Eh L Rc Ra Rw|h c a w x' said' Eh L Rc Ra Rw HF]; rewrite header_part in Eh.
    { now apply header_stops. }
    apply sections_stop; try assumption.
    assert (EI : forall s, items_said_by b1 cp s -> items_said_by b2 cp s).
    { unfold items_said_by. intros s. rewrite <- (same_has_list n b1 b2 HA HL). destruct (has_id_list b1) eqn:E; [|trivial].
      now rewrite (same_id_list n b1 b2 HA HL E). }
    destruct HF as [x' s EL HT|s raw network Hs EP -> -> ER|s raw network bl t x' bs Hs -> -> ER HW HT].
    - apply items_stop; [now rewrite <- (same_has_list n b1 b2 HA HL)|]. now rewrite <- (same_id_list n b1 b2 HA HL EL).
    - exfalso. destruct (same_info n b1 b2 HA HL HI cp EP) as (ER' & _). rewrite num_dropN in ER. congruence.
    - rewrite (data_end_found _ _ _ _ HS) in HW. destruct (block_walk_det _ _ _ _ _ HW HB) as [-> ->].
      assert (EM : warn_if (info_processed b1) (info_warnings cp (negb (N.testbit (num 4 8 (dropN (id_list_end b1) b1)) 0)) (dropN (id_list_end b1) b1))
        = warn_if (info_processed b2) (info_warnings cp (negb (N.testbit (num 4 8 (dropN (id_list_end b2) b2)) 0)) (dropN (id_list_end b2) b2))).
      { rewrite <- (same_processed n b1 b2 HA HL HI). apply warn_if_same. intros EP. rewrite !num_dropN, <- (same_id_list_end n b1 b2 HA HL), <- (same_network n b1 b2 HA HI EP).
        destruct (same_info n b1 b2 HA HL HI cp EP) as (_ & _ & _ & ->). now rewrite (same_id_list_end n b1 b2 HA HL). }
      rewrite EM. eapply extra_stops; [now apply EI|reflexivity|reflexivity| |rewrite (data_end_found _ _ _ _ strings_same); exact blocks_same|exact HT].
      rewrite <- (same_processed n b1 b2 HA HL HI). intros EP. rewrite num_dropN, <- (same_id_list_end n b1 b2 HA HL), <- (same_network n b1 b2 HA HI EP).
      destruct (same_info n b1 b2 HA HL HI cp EP) as (_ & ER2 & _). now rewrite <- (same_id_list_end n b1 b2 HA HL) in ER2.
  Qed.

  Lemma whole_same cp d said : whole_report b1 cp false d said -> whole_report b2 cp false d said.
  Proof.
    assert (E24 : 24 <= n) by apply HL. assert (ES := end_same).
    intros [h rest c a w items isaid f' e' cut bl t en bsaid raw network terminal sections WF EB Rc Ra Rw HT -> -> HS' HB' HR -> ->].
    destruct (string_walk_det _ _ _ _ _ _ _ _ _ HS' HS) as (-> & -> & ->).
    destruct (block_walk_det _ _ _ _ _ HB' HB) as [-> ->].
    assert (Eh := h_size_of _ _ _ WF EB).
    assert (H76 : 76 <= n). { destruct HL as (_ & H & _). pose proof (header_fits b1) as [HF _]. assert (76 <= h_size h) by apply WF. lia. }
    assert (EB2 : b2 = encode_header h ++ dropN 76 b2).
    { rewrite <- (take_drop 76 b2) at 1. f_equal. rewrite <- (agree_take n b1 b2 HA 76 H76), EB. now rewrite takeN_app_exact by now apply lenN_encode_header. }
    pose proof HA as (L1 & L2 & _).
    replace (N.min 4 (lenN b1 - _)) with 4 by (cbn [andb]; lia).
    assert (W2 := whole b2 cp false h (dropN 76 b2) c a w items isaid found e false blocks (dropN (sumN (map declared blocks)) (dropN e b2)) en bsaid
      (dropN (id_list_end b2) b2) (negb (N.testbit (num 4 8 (dropN (id_list_end b2) b2)) 0)) 0 (e + sumN (map declared blocks) + 0) WF EB2 Rc Ra Rw).
    specialize (W2 ltac:(rewrite <- (same_has_list n b1 b2 HA HL); destruct (has_id_list b1) eqn:E; [rewrite <- (same_id_list n b1 b2 HA HL E)|]; exact HT)
      eq_refl eq_refl strings_same blocks_same HR eq_refl eq_refl).
    replace (N.min 4 (lenN b2 - _)) with 4 in W2 by (cbn [andb]; lia).
    cbn [andb] in W2 |- *. cbn [behind_blocks] in *.
    rewrite Eh in *. rewrite <- (same_has_list n b1 b2 HA HL), <- (same_processed n b1 b2 HA HL HI), <- (same_bits n b1 b2 HA HL), !num_dropN in W2. rewrite !num_dropN.
    replace (if has_id_list b1 then _ else _) with (if has_id_list b1
      then [("target", PDict [("size", PN (num 2 (header_len b1) b1)); ("items", PList (map PDict items)); ("index", PN (header_len b1 + 2))])]
      else [])%string in W2 by (destruct (has_id_list b1) eqn:E; [now rewrite (same_id_list_size n b1 b2 HA HL E)|reflexivity]).
    destruct (info_processed b1) eqn:EP; [|exact W2].
    destruct (same_info n b1 b2 HA HL HI cp EP) as (_ & _ & E1 & E2).
    rewrite <- (same_id_list_end n b1 b2 HA HL) in *. rewrite <- (same_network n b1 b2 HA HI EP) in W2. rewrite <- E1, <- E2 in W2. exact W2.
  Qed.

  Lemma construction_same cp said x : construction b1 cp said x -> construction b2 cp said x.
  Proof.
    assert (HR : forall b, agree n b1 b -> room b).
    { intros b HAb. pose proof HL as (L1 & L2 & L3). destruct HAb as (M1 & M2 & M3). assert (HAb : agree n b1 b) by (repeat split; assumption). unfold room.
      rewrite <- (same_header_len n b1 b HAb HL), <- (same_has_list n b1 b HAb HL). pose proof (header_fits b1) as [_ HF].
      split; [lia|]. split; [lia|]. intros E. specialize (HF E). lia. }
    assert (R1 := HR b1 (agree_self n b1 b2 HA)). assert (R2 := HR b2 HA).
    assert (EW : size_warning_of b1 = size_warning_of b2) by (unfold size_warning_of; now rewrite (same_header_len n b1 b2 HA HL)).
    assert (EI : info_warning b1 = info_warning b2).
    { unfold info_warning. rewrite <- !(same_bits n b1 b2 HA HL), <- (same_id_list_end n b1 b2 HA HL).
      destruct (bit_set 1 b1) eqn:E1; [|reflexivity]. destruct (bit_set 8 b1) eqn:E8; [reflexivity|]. destruct (HI E1 E8) as [H12 _].
      pose proof HA as (L1 & L2 & _). cbn [andb negb]. now replace (lenN b1 <? _) with false by lia; replace (lenN b2 <? _) with false by lia. }
    assert (EN : forall f, page_needed b2 f <-> page_needed b1 f) by (intros f; unfold page_needed; now rewrite (same_bits n b1 b2 HA HL)).
    destruct R1 as (Q1 & Q2 & Q3).
    intros [H|H|H H'|H H' HNR|f e' cut _ Ec HS' HP|f e' cut s bl t failed _ HS' HP HW HB' HF]; try lia.
    - destruct HNR. repeat split; assumption.
    - destruct (string_walk_det _ _ _ _ _ _ _ _ _ HS' HS) as (-> & -> & ->). rewrite EW, EI.
      apply no_page with found e false; [assumption|assumption|exact strings_same|now apply EN].
    - destruct (string_walk_det _ _ _ _ _ _ _ _ _ HS' HS) as (-> & -> & ->).
      destruct (block_walk_det _ _ _ _ _ HB' HB) as [-> ->]. rewrite EW, EI, (same_bits n b1 b2 HA HL).
      apply (walked b2 cp found e false s blocks (dropN (sumN (map declared blocks)) (dropN e b2)) failed); try assumption; [exact strings_same|intros E; now rewrite EN; apply HP| |exact blocks_same].
      pose proof HA as (L1 & L2 & _).
      assert (s = []) as ->.
      { apply walk_warnings_det with (dropN e b1); [assumption|]. apply no_walk_warnings with blocks tail; try assumption; [rewrite lenN_dropN; lia|now rewrite num_dropN]. }
      eapply no_walk_warnings; [exact blocks_same|assumption|rewrite lenN_dropN; lia|]. rewrite num_dropN. exact end_same.
  Qed.
End Link.

Lemma link_inside_same n b1 b2 : agree n b1 b2 -> link_inside n b1 -> link_inside n b2.
Proof.
  intros HA (HL & HI & found & e & blocks & tail & HS & HB & H4 & HN & H0).
  split; [now apply lists_same with b1|]. split; [now apply info_same with b1|].
  exists found, e, blocks, (dropN (sumN (map declared blocks)) (dropN e b2)).
  split; [now apply strings_same with n b1 blocks|]. split; [now apply blocks_same with n b1 tail|].
  repeat split; try assumption. now apply end_same with n b1.
Qed.
Lemma link_constructed n b1 b2 cp : agree n b1 b2 -> link_inside n b1 ->
  fst (lnk_init (FromBytes b1) cp false) = fst (lnk_init (FromBytes b2) cp false)
  /\ failure (lnk_init (FromBytes b1) cp false) = failure (lnk_init (FromBytes b2) cp false).
Proof.
  intros HA (HL & HI & found & e & blocks & tail & HS & HB & H4 & HN & H0).
  destruct (construction_iff b1 cp false (fst (lnk_init (FromBytes b1) cp false)) (failure (lnk_init (FromBytes b1) cp false))) as [HC _].
  specialize (HC (conj eq_refl eq_refl)).
  eapply construction_same in HC; try eassumption. apply (construction_iff b2 cp false) in HC as [-> ->]. now split.
Qed.
Lemma link_opened n b1 cp : usable cp -> n <= lenN b1 -> link_inside n b1 -> exists l, snd (lnk_init (FromBytes b1) cp false) = Ok l.
Proof.
  intros Hcp Hn (HL & HI & found & e & blocks & tail & HS & HB & H4 & HN & H0).
  assert (HA : agree n b1 b1) by now repeat split.
  assert (HC : exists w, construction b1 cp w None).
  { eexists. apply (walked b1 cp found e false [] blocks tail None); try assumption.
    - destruct HL as (L1 & L2 & L3). pose proof (header_fits b1) as [_ HF]. repeat split; lia.
    - intros E. now destruct Hcp.
    - apply no_walk_warnings with blocks tail; try assumption; [rewrite lenN_dropN; lia|now rewrite num_dropN].
    - left. split; [|reflexivity]. now apply readable_sizes with (dropN e b1) tail. }
  destruct HC as [w HC]. apply (construction_iff b1 cp false) in HC as [_ HF]. unfold failure in HF.
  destruct (snd (lnk_init (FromBytes b1) cp false)) as [l|x]; [now exists l|discriminate].
Qed.
Lemma link_reported n b1 b2 cp l1 l2 all : usable cp -> agree n b1 b2 -> link_inside n b1 ->
  snd (lnk_init (FromBytes b1) cp false) = Ok l1 -> snd (lnk_init (FromBytes b2) cp false) = Ok l2 ->
  get_json l1 all = get_json l2 all.
Proof.
  intros Hcp HA HK E1 E2.
  assert (HT : get_json l1 true = get_json l2 true).
  { destruct (get_json l1 true) as [said1 r1] eqn:G1, (get_json l2 true) as [said2 r2] eqn:G2.
    assert (F : forall c1 c2 m1 m2 x s, agree n c1 c2 -> link_inside n c1 -> snd (lnk_init (FromBytes c1) cp false) = Ok m1 -> snd (lnk_init (FromBytes c2) cp false) = Ok m2 ->
      get_json m1 true = (s, Err x) -> get_json m2 true = (s, Err x)).
    { intros c1 c2 m1 m2 x s HA' (HL & HI & found & e & blocks & tail & HS & HB & H4 & HN & H0) M1 M2 HG.
      apply (complete_iff c2 cp false m2 Hcp M2 s (Err x)). apply (complete_iff c1 cp false m1 Hcp M1 s (Err x)) in HG.
      eapply fails_same; eassumption. }
    destruct r1 as [d1|x1]; [|rewrite (F _ _ _ _ _ _ HA HK E1 E2 G1) in G2; congruence].
    destruct r2 as [d2|x2]; [|rewrite (F _ _ _ _ _ _ (agree_sym _ _ _ HA) (link_inside_same _ _ _ HA HK) E2 E1 G2) in G1; congruence].
    apply (complete_iff b1 cp false l1 Hcp E1) in G1 as [_ G1]. apply (complete_iff b2 cp false l2 Hcp E2) in G2 as [_ G2].
    destruct HK as (HL & HI & found & e & blocks & tail & HS & HB & H4 & HN & H0).
    eapply whole_same in G1; try eassumption.
    destruct (whole_det b2 cp false _ _ _ _ Hcp (proj1 (init_constructed b2 cp false l2 Hcp E2)) G1 G2) as [-> ->]. reflexivity. }
  destruct all; [exact HT|].
  destruct (report_abridged l1) as [F1 S1], (report_abridged l2) as [F2 S2]. rewrite HT in F1, S1. rewrite <- F1 in F2.
  rewrite (surjective_pairing (get_json l1 false)), (surjective_pairing (get_json l2 false)), F2.
  destruct (snd (get_json l2 true)), (snd (get_json l1 false)), (snd (get_json l2 false)); try contradiction; [|congruence].
  rewrite <- S1 in S2. now injection S2 as ->.
Qed.

(** The command a link runs. *)
Lemma command_same n b1 b2 cp allow1 allow2 l1 l2 found e : usable cp -> agree n b1 b2 ->
  lists_inside n b1 -> info_inside n b1 -> string_walk b1 string_fields (info_end b1) found e false -> e <= n ->
  snd (lnk_init (FromBytes b1) cp allow1) = Ok l1 -> snd (lnk_init (FromBytes b2) cp allow2) = Ok l2 ->
  lnk_command l1 = lnk_command l2.
Proof.
  intros Hcp HA HL HI HS HE E1 E2.
  assert (HS2 : string_walk b2 string_fields (info_end b2) found e false).
  { rewrite <- (same_info_end n b1 b2 HA HL HI). apply string_walk_inside with n b1; [assumption|apply HL|assumption|assumption]. }
  rewrite (command_outcome b1 cp allow1 l1 found e false Hcp E1 HS), (command_outcome b2 cp allow2 l2 found e false Hcp E2 HS2).
  unfold SpecCommand.missing, SpecCommand.text_of. now rewrite !(same_bits n b1 b2 HA HL).
Qed.

(** A link and the same link cut off behind its end, or continued. *)
Lemma cut_off n b cp : usable cp -> n <= lenN b -> link_inside n b ->
  exists l l', snd (lnk_init (FromBytes b) cp false) = Ok l
    /\ lnk_init (FromBytes (takeN n b)) cp false = (fst (lnk_init (FromBytes b) cp false), Ok l')
    /\ forall all, get_json l' all = get_json l all.
Proof.
  intros Hcp Hn HK.
  assert (HA : agree n b (takeN n b)) by (repeat split; [assumption|rewrite lenN_takeN; lia|rewrite takeN_takeN; f_equal; lia]).
  destruct (link_opened n b cp Hcp Hn HK) as [l E1].
  destruct (link_opened n (takeN n b) cp Hcp ltac:(apply HA) (link_inside_same _ _ _ HA HK)) as [l' E2].
  exists l, l'. split; [assumption|]. split.
  - rewrite (surjective_pairing (lnk_init (FromBytes (takeN n b)) cp false)), E2.
    now destruct (link_constructed n b _ cp HA HK) as [-> _].
  - intros all. symmetry. now apply link_reported with n b (takeN n b) cp.
Qed.
Lemma continued b more cp : usable cp -> link_inside (lenN b) b ->
  exists l l', snd (lnk_init (FromBytes b) cp false) = Ok l
    /\ lnk_init (FromBytes (b ++ more)) cp false = (fst (lnk_init (FromBytes b) cp false), Ok l')
    /\ forall all, get_json l' all = get_json l all.
Proof.
  intros Hcp HK.
  assert (HA : agree (lenN b) b (b ++ more)).
  { split; [lia|]. split; [rewrite lenN_app; lia|]. now rewrite takeN_app_exact, takeN_all by reflexivity. }
  destruct (link_opened (lenN b) b cp Hcp ltac:(lia) HK) as [l E1].
  destruct (link_opened (lenN b) (b ++ more) cp Hcp ltac:(apply HA) (link_inside_same _ _ _ HA HK)) as [l' E2].
  exists l, l'. split; [assumption|]. split.
  - rewrite (surjective_pairing (lnk_init (FromBytes (b ++ more)) cp false)), E2.
    now destruct (link_constructed (lenN b) b _ cp HA HK) as [-> _].
  - intros all. symmetry. now apply link_reported with (lenN b) b (b ++ more) cp.
Qed.
Lemma link_both n b1 b2 cp : usable cp -> agree n b1 b2 -> link_inside n b1 ->
  exists l1 l2, snd (lnk_init (FromBytes b1) cp false) = Ok l1 /\ snd (lnk_init (FromBytes b2) cp false) = Ok l2
    /\ fst (lnk_init (FromBytes b1) cp false) = fst (lnk_init (FromBytes b2) cp false)
    /\ forall all, get_json l1 all = get_json l2 all.
Proof.
  intros Hcp HA HK.
  destruct (link_opened n b1 cp Hcp ltac:(apply HA) HK) as [l E1].
  destruct (link_opened n b2 cp Hcp ltac:(apply HA) (link_inside_same _ _ _ HA HK)) as [l' E2].
  exists l, l'. repeat split; [assumption..| |].
  - now destruct (link_constructed n b1 _ cp HA HK) as [-> _].
  - intros all. now apply link_reported with n b1 b2 cp.
Qed.
