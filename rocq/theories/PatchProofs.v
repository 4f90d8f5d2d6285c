(** * Parts of a file and parts of its report (C81) *)
From Verif Require Import ReportProofs CommandProofs.
From Verif Require Import Lemmas PyTime Codec Utils Sha256 Header StringData Targets Info Extra LnkFile Report.
From Verif Require Import OutcomeProofs LayoutProofs CoreProofs ApiProofs TextProofs ConstructProofs InfoProofs UnknownProofs TriedProofs LinkProofs WholeProofs FailureProofs ExactProofs PrefixProofs.
From Verif Require Import Spec SpecText SpecHeader SpecTime SpecDouble SpecItems SpecInfo SpecExtra SpecOutcome SpecEntries SpecBlocks SpecWhole SpecFailure SpecUnknown SpecPrefix SpecPatch.

(** ** Strings, relative to where they start *)
Section Rel.
  Variable flag : N -> bool.
  Definition rel_size (lim : bool) (s : bytes) : N := 2 + chars_read lim (num 2 0 s) * (if flag 7 then 2 else 1).
  Fixpoint rel_end (slots : list (N * string * bool)) (s : bytes) : N :=
    match slots with
    | [] => 0
    | (i, _, lim) :: r =>
      if flag i then if 2 <=? lenN s then rel_size lim s + rel_end r (dropN (rel_size lim s) s) else 0 else rel_end r s
    end.
  Fixpoint rel_found (slots : list (N * string * bool)) (s : bytes) : list (string * bytes) :=
    match slots with
    | [] => []
    | (i, name, lim) :: r =>
      if flag i then
        if 2 <=? lenN s then (name, slice 2 (rel_size lim s) s) :: rel_found r (dropN (rel_size lim s) s) else []
      else rel_found r s
    end.
  Lemma rel_found_take slots : forall s, rel_found slots (takeN (rel_end slots s) s) = rel_found slots s.
  Proof.
    induction slots as [|[[i name] lim] r IH]; intros s; [reflexivity|]. cbn [rel_found rel_end]. destruct (flag i); [|apply IH].
    destruct (2 <=? lenN s) eqn:E; [|now rewrite takeN_0].
    assert (H2 : 2 <= rel_size lim s) by (unfold rel_size; lia).
    set (e := rel_end r (dropN (rel_size lim s) s)).
    assert (ES : rel_size lim (takeN (rel_size lim s + e) s) = rel_size lim s).
    { unfold rel_size at 1. rewrite num_takeN by lia. reflexivity. }
    rewrite ES. replace (2 <=? lenN (takeN (rel_size lim s + e) s)) with true by (rewrite lenN_takeN; lia).
    rewrite slice_takeN_le by lia. f_equal.
    rewrite dropN_takeN. replace (rel_size lim s + e - rel_size lim s) with e by lia. apply IH.
  Qed.
End Rel.
Lemma rel_found_ext f g slots s : f 7 = g 7 -> (forall i name lim, In (i, name, lim) slots -> f i = g i) ->
  rel_found f slots s = rel_found g slots s /\ rel_end f slots s = rel_end g slots s.
Proof.
  intros H7. revert s. induction slots as [|[[i name] lim] r IH]; intros s H; [now split|]. cbn [rel_found rel_end].
  assert (ES : rel_size f lim s = rel_size g lim s) by (unfold rel_size; now rewrite H7).
  rewrite <- (H i name lim) by now left. rewrite ES.
  destruct (IH (dropN (rel_size g lim s) s)) as [-> ->]; [intros; eapply H; right; eassumption|].
  destruct (IH s) as [-> ->]; [intros; eapply H; right; eassumption|]. now split.
Qed.

Lemma walk_rel b fs p found e cut : string_walk b fs p found e cut ->
  found = rel_found (fun i => bit_set i b) fs (dropN p b) /\ e = p + rel_end (fun i => bit_set i b) fs (dropN p b).
Proof.
  induction 1 as [p|i name lim fs p found e cut HB HW [IH1 IH2]|i name lim fs p HB HL|i name lim fs p n found e cut HB HL -> HW [IH1 IH2]];
    cbn [rel_found rel_end]; try rewrite HB.
  - split; [reflexivity|lia].
  - now split.
  - replace (2 <=? lenN (dropN p b)) with false by (rewrite lenN_dropN; lia). split; [reflexivity|lia].
  - replace (2 <=? lenN (dropN p b)) with true by (rewrite lenN_dropN; lia).
    assert (ES : rel_size (fun i => bit_set i b) lim (dropN p b) = 2 + chars_read lim (num 2 p b) * char_width b).
    { unfold rel_size, char_width. now rewrite num_dropN, N.add_0_r. }
    rewrite ES, dropN_dropN. rewrite N.add_assoc. rewrite <- IH1. split; [|rewrite IH2 at 1; lia].
    f_equal. f_equal. now rewrite slice_dropN, N.add_assoc.
Qed.
Lemma walk_total b fs : forall p, exists found e cut, string_walk b fs p found e cut.
Proof.
  induction fs as [|[[i name] lim] fs IH]; intros p; [do 3 eexists; constructor|].
  destruct (bit_set i b) eqn:EB.
  - destruct (N.le_gt_cases (p + 2) (lenN b)) as [HL|HL].
    + destruct (IH (p + 2 + chars_read lim (num 2 p b) * char_width b)) as (f & e & c & HW). do 3 eexists. eapply string_found; eauto.
    + do 3 eexists. apply string_cut; [assumption|lia].
  - destruct (IH p) as (f & e & c & HW). do 3 eexists. apply string_absent; eassumption.
Qed.
Definition flag_of (b : bytes) (i : N) : bool := bit_set i b.
Lemma data_end_rel b : string_data_end b = info_end b + rel_end (flag_of b) string_fields (dropN (info_end b) b).
Proof.
  destruct (walk_total b string_fields (info_end b)) as (found & e & cut & HW). rewrite (data_end_found _ _ _ _ HW).
  now apply walk_rel in HW as [_ HW].
Qed.
Lemma found_rel b found e cut : string_walk b string_fields (info_end b) found e cut ->
  found = rel_found (flag_of b) string_fields (string_bytes b).
Proof.
  intros HW. pose proof (data_end_found _ _ _ _ HW) as HE. apply walk_rel in HW as [-> _]. unfold string_bytes, slice.
  rewrite data_end_rel. replace (info_end b + _ - info_end b) with (rel_end (flag_of b) string_fields (dropN (info_end b) b)) by lia.
  symmetry. apply rel_found_take.
Qed.
Lemma flags_rel b1 b2 s : same_string_flags b1 b2 ->
  rel_found (flag_of b1) string_fields s = rel_found (flag_of b2) string_fields s
  /\ rel_end (flag_of b1) string_fields s = rel_end (flag_of b2) string_fields s.
Proof.
  intros H. apply rel_found_ext; [apply H; cbn; tauto|]. unfold string_fields. cbn [In]. intros i name lim HI. apply H.
  repeat (destruct HI as [[= <- <- <-]|HI]; [cbn; tauto|]). destruct HI.
Qed.

(** ** Equal parts are reported alike *)
Lemma whole_of b cp allow l d : usable cp -> snd (lnk_init (FromBytes b) cp allow) = Ok l -> snd (get_json l true) = Ok d ->
  exists w, whole_report b cp allow d w.
Proof.
  intros Hcp Hl Hd. exists (fst (get_json l true)). apply whole_reported with l; [assumption..|]. rewrite <- Hd. apply surjective_pairing.
Qed.
Section Parts.
  Variables (b1 b2 : bytes) (cp1 cp2 : cp_arg) (allow1 allow2 : bool) (d1 d2 : dict) (w1 w2 : list warning).
  Hypothesis W1 : whole_report b1 cp1 allow1 d1 w1.
  Hypothesis W2 : whole_report b2 cp2 allow2 d2 w2.
  Lemma header_part : header_bytes b1 = header_bytes b2 -> dget "header" d1 = dget "header" d2.
  Proof.
    intros ET. apply whole_parts in W1 as (h & rest & c & a & w & _ & _ & _ & _ & _ & _ & _ & _ & _ & WF & EB & (T1 & T2 & T3) & _ & _ & _ & _ & -> & _).
    apply whole_parts in W2 as (h' & rest' & c' & a' & w' & _ & _ & _ & _ & _ & _ & _ & _ & _ & WF' & EB' & (T1' & T2' & T3') & _ & _ & _ & _ & -> & _).
    assert (EH : h = h').
    { apply header_inj with [] []; try assumption. rewrite !app_nil_r. unfold header_bytes in ET. rewrite EB, EB' in ET.
      rewrite !takeN_app_exact in ET by now apply lenN_encode_header. assumption. }
    subst h'. destruct WF as (_ & _ & _ & _ & _ & F1 & F2 & F3 & _).
    rewrite (time_read_det (h_ctime h) c c'), (time_read_det (h_atime h) a a'), (time_read_det (h_wtime h) w w') by assumption. reflexivity.
  Qed.
  Lemma info_part : cp1 = cp2 -> info_processed b1 = info_processed b2 -> info_bytes b1 = info_bytes b2 ->
    dget "link_info" d1 = dget "link_info" d2.
  Proof.
    intros EC EP EI.
    apply whole_parts in W1 as (_ & _ & _ & _ & _ & _ & _ & _ & _ & _ & _ & _ & _ & _ & _ & _ & _ & _ & _ & _ & _ & _ & _ & -> & _).
    apply whole_parts in W2 as (_ & _ & _ & _ & _ & _ & _ & _ & _ & _ & _ & _ & _ & _ & _ & _ & _ & _ & _ & _ & _ & _ & _ & -> & _).
    rewrite <- (num_dropN 4 8 (id_list_end b1)), <- (num_dropN 4 8 (id_list_end b2)). unfold info_bytes in EI. now rewrite EC, EP, EI.
  Qed.
  Lemma strings_part : cp1 = cp2 -> same_string_flags b1 b2 -> string_bytes b1 = string_bytes b2 ->
    dget "data" d1 = dget "data" d2.
  Proof.
    intros EC HF ES.
    apply whole_parts in W1 as (_ & _ & _ & _ & _ & _ & _ & f1 & e1 & c1 & _ & _ & _ & _ & _ & _ & _ & _ & S1 & _ & _ & _ & _ & _ & -> & _).
    apply whole_parts in W2 as (_ & _ & _ & _ & _ & _ & _ & f2 & e2 & c2 & _ & _ & _ & _ & _ & _ & _ & _ & S2 & _ & _ & _ & _ & _ & -> & _).
    apply found_rel in S1 as ->. apply found_rel in S2 as ->. rewrite EC, ES, (HF 7) by (cbn; tauto).
    now destruct (flags_rel b1 b2 (string_bytes b2) HF) as [-> _].
  Qed.
  Hypothesis Hcp : usable cp1.
  Lemma items_part : cp1 = cp2 -> has_id_list b1 = true -> has_id_list b2 = true -> id_list b1 = id_list b2 ->
    reported_items d1 = reported_items d2.
  Proof.
    intros EC H1 H2 EI. unfold reported_items, reported_target.
    apply whole_parts in W1 as (h & rest & _ & _ & _ & items & said & _ & _ & _ & _ & _ & _ & _ & _ & _ & _ & EL & _ & _ & _ & _ & -> & _).
    apply whole_parts in W2 as (h' & rest' & _ & _ & _ & items' & said' & _ & _ & _ & _ & _ & _ & _ & _ & _ & _ & EL' & _ & _ & _ & _ & -> & _).
    rewrite H1, H2 in *. rewrite <- EC, <- EI in EL'. now destruct (entries_listed_det _ _ _ _ _ _ Hcp EL EL') as [<- _].
  Qed.
  Hypothesis HC1 : constructible b1.
  Lemma blocks_part : cp1 = cp2 -> allow1 = allow2 -> extra_bytes b1 = extra_bytes b2 -> dget "extra" d1 = dget "extra" d2.
  Proof.
    intros EC EA EX.
    apply whole_parts in W1 as (_ & _ & _ & _ & _ & _ & _ & f1 & e1 & c1 & bl1 & t1 & en1 & sa1 & _ & _ & _ & _ & S1 & B1 & R1 & _ & _ & _ & _ & ->).
    apply whole_parts in W2 as (_ & _ & _ & _ & _ & _ & _ & f2 & e2 & c2 & bl2 & t2 & en2 & sa2 & _ & _ & _ & _ & S2 & B2 & R2 & _ & _ & _ & _ & ->).
    apply data_end_found in S1 as <-. apply data_end_found in S2 as <-. unfold extra_bytes in EX. rewrite <- EX in B2.
    destruct (block_walk_det _ _ _ _ _ B1 B2) as [<- <-]. rewrite <- EC in R2. destruct HC1 as (_ & _ & _ & HC).
    destruct (blocks_read_det cp1 bl1 _ _ _ _ Hcp (HC _ _ B1) R1 R2) as [-> _]. now rewrite EA.
  Qed.
End Parts.
Lemma command_part b1 b2 cp allow1 allow2 l1 l2 : usable cp ->
  snd (lnk_init (FromBytes b1) cp allow1) = Ok l1 -> snd (lnk_init (FromBytes b2) cp allow2) = Ok l2 ->
  same_string_flags b1 b2 -> string_bytes b1 = string_bytes b2 -> lnk_command l1 = lnk_command l2.
Proof.
  intros Hcp H1 H2 HF ES.
  destruct (walk_total b1 string_fields (info_end b1)) as (f1 & e1 & c1 & S1). destruct (walk_total b2 string_fields (info_end b2)) as (f2 & e2 & c2 & S2).
  rewrite (command_outcome b1 cp allow1 l1 f1 e1 c1 Hcp H1 S1), (command_outcome b2 cp allow2 l2 f2 e2 c2 Hcp H2 S2).
  apply found_rel in S1 as ->. apply found_rel in S2 as ->. rewrite ES. destruct (flags_rel b1 b2 (string_bytes b2) HF) as [-> _].
  unfold SpecCommand.missing, SpecCommand.text_of. now rewrite (HF 3), (HF 5), (HF 7) by (cbn; tauto).
Qed.

(** ** How files end whose parts are alike *)
Lemma outcome_follows b1 b2 o :
  (header_whole b1 <-> header_whole b2) -> has_id_list b1 = has_id_list b2 -> (has_id_list b1 = true -> id_list b1 = id_list b2) ->
  (info_whole b1 <-> info_whole b2) -> extra_bytes b1 = extra_bytes b2 ->
  report_outcome b1 o -> report_outcome b2 o.
Proof.
  intros HH HL EL HI EX H. assert (HW : items_whole b1 -> items_whole b2).
  { unfold items_whole. rewrite <- HL. intros H1 H2. rewrite <- EL by assumption. now apply H1. }
  destruct H as [H|e H1 H2 H3|H1 H2 H3|bl r o H1 H2 H3 H4 H5].
  - apply header_fails. tauto.
  - apply items_fail; [tauto|congruence|now rewrite <- EL].
  - apply info_fails; tauto.
  - apply blocks_decide with bl r; try tauto. unfold extra_bytes in EX. now rewrite <- EX.
Qed.
Lemma ends_of b1 b2 cp1 cp2 allow1 allow2 l1 l2 all1 all2 : usable cp1 -> usable cp2 ->
  snd (lnk_init (FromBytes b1) cp1 allow1) = Ok l1 -> snd (lnk_init (FromBytes b2) cp2 allow2) = Ok l2 ->
  (forall o, report_outcome b1 o -> report_outcome b2 o) -> end_alike (snd (get_json l1 all1)) (snd (get_json l2 all2)).
Proof.
  intros U1 U2 H1 H2 HO. destruct (report_exact_iff b1 cp1 allow1 l1 all1 U1 H1) as [A1 A2].
  destruct (report_exact_iff b2 cp2 allow2 l2 all2 U2 H2) as [B1 B2]. unfold end_alike.
  destruct (snd (get_json l1 all1)) as [d|e].
  - assert (HX : report_outcome b2 None) by (apply HO, A1; now exists d). apply B1 in HX as [d' ->]. exact I.
  - assert (HX : report_outcome b2 (Some e)) by (apply HO, A2; reflexivity). apply B2 in HX as ->. reflexivity.
Qed.
Lemma constructible_follows b1 b2 :
  (24 <= header_len b1 -> 24 <= header_len b2) -> (24 <= lenN b1 -> 24 <= lenN b2) ->
  (has_id_list b2 = true -> header_len b2 + 2 <= lenN b2) -> extra_bytes b1 = extra_bytes b2 ->
  constructible b1 -> constructible b2.
Proof.
  intros HH HL HI EX (C1 & C2 & C3 & C4). split; [auto|]. split; [auto|]. split; [auto|]. unfold extra_bytes in EX. now rewrite <- EX.
Qed.

(** The warnings of two reports. *)
Lemma warnings_part b1 b2 cp allow1 allow2 d1 d2 w1 w2 : usable cp -> constructible b1 ->
  whole_report b1 cp allow1 d1 w1 -> whole_report b2 cp allow2 d2 w2 ->
  header_bytes b1 = header_bytes b2 -> has_id_list b1 = has_id_list b2 -> (has_id_list b1 = true -> id_list b1 = id_list b2) ->
  info_processed b1 = info_processed b2 ->
  (info_processed b1 = true ->
   info_warnings cp (negb (N.testbit (num 4 8 (info_bytes b1)) 0)) (info_bytes b1)
   = info_warnings cp (negb (N.testbit (num 4 8 (info_bytes b2)) 0)) (info_bytes b2)) ->
  extra_bytes b1 = extra_bytes b2 -> w1 = w2.
Proof.
  intros Hcp (_ & _ & _ & HC) W1 W2 EB EL EI EP EW EX.
  destruct W1 as [h rest c a w items isaid found e cut blocks tail entries bsaid raw network terminal sections
    HW HB RC RA RW HI -> -> HS HBW HBR -> ->].
  destruct W2 as [h2 rest2 c2 a2 m2 items2 isaid2 found2 e2 cut2 blocks2 tail2 entries2 bsaid2 raw2 network2 terminal2 sections2
    HW2 HB2 RC2 RA2 RW2 HI2 -> -> HS2 HBW2 HBR2 -> ->].
  assert (h = h2) as <-.
  { apply header_inj with [] []; try assumption. rewrite !app_nil_r. unfold header_bytes in EB. rewrite HB, HB2 in EB.
    rewrite !takeN_app_exact in EB by now apply lenN_encode_header. assumption. }
  apply data_end_found in HS as <-. apply data_end_found in HS2 as <-. unfold extra_bytes in EX. rewrite <- EX in HBW2.
  destruct (block_walk_det _ _ _ _ _ HBW HBW2) as [<- <-].
  destruct (blocks_read_det cp blocks _ _ _ _ Hcp (HC _ _ HBW) HBR HBR2) as [_ <-].
  assert (isaid2 = isaid) as ->.
  { rewrite <- EL in HI2. destruct (has_id_list b1); [|destruct HI as [_ ->], HI2 as [_ ->]; reflexivity].
    rewrite <- EI in HI2 by reflexivity. now destruct (entries_listed_det cp _ _ _ _ _ Hcp HI HI2) as [_ ->]. }
  assert (FC : fits_i64 (h_ctime h)) by apply HW. assert (FA : fits_i64 (h_atime h)) by apply HW. assert (FW : fits_i64 (h_wtime h)) by apply HW.
  rewrite (time_read_det _ _ _ FC RC RC2), (time_read_det _ _ _ FA RA RA2), (time_read_det _ _ _ FW RW RW2).
  rewrite <- EP. destruct (info_processed b1); [|reflexivity]. unfold info_bytes in EW. now rewrite EW.
Qed.

(** The reported size, from where the strings end. *)
Lemma size_of b cp allow d w : whole_report b cp allow d w ->
  exists blocks tail, block_walk (extra_bytes b) blocks tail
    /\ let s := sumN (map declared blocks) + (if allow && (4 <? lenN tail) && (num 4 0 tail =? 0) then lenN tail else 0) in
       dget "size" d = Some (PN (string_data_end b + s + N.min 4 (lenN b - (string_data_end b + s)))).
Proof.
  intros [h rest c a w0 items said found e cut blocks tail entries bsaid raw network terminal sections ? ? ? ? ? ? ? ? SW BW ? -> ->].
  apply data_end_found in SW as <-. exists blocks, tail. split; [exact BW|]. cbv zeta. cbn [app dget String.eqb Ascii.eqb Bool.eqb]. do 2 f_equal. rewrite <- !N.add_assoc. reflexivity.
Qed.
Lemma sizes_of b1 b2 cp allow d1 d2 w1 w2 x1 x2 : whole_report b1 cp allow d1 w1 -> whole_report b2 cp allow d2 w2 ->
  extra_bytes b1 = extra_bytes b2 -> string_data_end b1 + lenN x2 = string_data_end b2 + lenN x1 ->
  lenN b1 + lenN x2 = lenN b2 + lenN x1 -> sizes_follow d1 d2 x1 x2.
Proof.
  intros W1 W2 EX EE EL. apply size_of in W1 as (bl1 & t1 & B1 & S1). apply size_of in W2 as (bl2 & t2 & B2 & S2).
  rewrite <- EX in B2. destruct (block_walk_det _ _ _ _ _ B1 B2) as [<- <-]. cbv zeta in S1, S2.
  set (s := sumN (map declared bl1) + _) in *. clearbody s.
  do 2 eexists. split; [exact S1|]. split; [exact S2|]. lia.
Qed.

(** ** Other strings *)
Section Strings.
  Variables front s1 s2 back : bytes.
  Let b1 := front ++ s1 ++ back.
  Let b2 := front ++ s2 ++ back.
  Let n := lenN front.
  Hypothesis HB : before_strings front b1.
  Hypothesis E1 : string_data_end b1 = lenN front + lenN s1.
  Hypothesis E2 : string_data_end b2 = lenN front + lenN s2.
  Lemma fronts_agree : agree n b1 b2.
  Proof.
    unfold b1, b2, n. split; [rewrite lenN_app; lia|]. split; [rewrite lenN_app; lia|]. now rewrite !takeN_app_exact by reflexivity.
  Qed.
  Lemma extras_left : extra_bytes b1 = back /\ extra_bytes b2 = back.
  Proof.
    unfold extra_bytes. rewrite E1, E2. unfold b1, b2. rewrite !app_assoc. split; apply dropN_app_exact; now rewrite lenN_app.
  Qed.
  Lemma inside_list : has_id_list b1 = true -> header_len b1 + 2 <= lenN front.
  Proof. intros H. destruct HB as ((_ & HL & _) & _). unfold id_list_end in HL. rewrite H in HL. lia. Qed.
  Lemma inside_header : header_len b1 <= lenN front.
  Proof. destruct HB as ((_ & HL & _) & _). unfold id_list_end in HL. destruct (has_id_list b1); lia. Qed.
  Lemma longer1 : lenN front <= lenN b1. Proof. unfold b1. rewrite lenN_app. lia. Qed.
  Lemma longer2 : lenN front <= lenN b2. Proof. unfold b2. rewrite lenN_app. lia. Qed.
  Lemma both_constructible : constructible b1 <-> constructible b2.
  Proof.
    destruct HB as (HL & _). destruct extras_left as [X1 X2]. pose proof longer1. pose proof longer2. pose proof inside_list as HI.
    assert (H24 : 24 <= lenN front) by apply HL. pose proof (same_header_len n b1 b2 fronts_agree HL) as EH.
    pose proof (same_has_list n b1 b2 fronts_agree HL) as EL.
    assert (X12 : extra_bytes b1 = extra_bytes b2) by congruence. clear X1 X2.
    split; (apply constructible_follows; [lia|lia| |congruence]).
    - rewrite <- EL, <- EH. intros H'. specialize (HI H'). lia.
    - intros H'. specialize (HI H'). lia.
  Qed.
  Lemma outcomes : forall o, report_outcome b1 o <-> report_outcome b2 o.
  Proof.
    pose proof HB as (HL & HI & _). destruct extras_left as [X1 X2]. pose proof longer1. pose proof longer2. pose proof inside_header as HH.
    pose proof (same_header_len n b1 b2 fronts_agree HL) as EH. pose proof (same_has_list n b1 b2 fronts_agree HL) as EL.
    assert (HW : header_whole b1 <-> header_whole b2) by (unfold header_whole; rewrite <- EH; lia).
    assert (HF : info_whole b1 <-> info_whole b2).
    { unfold info_whole. rewrite <- (same_processed n b1 b2 fronts_agree HL HI). destruct (info_processed b1) eqn:EP; [|split; discriminate].
      destruct (same_info n b1 b2 fronts_agree HL HI CpNone EP) as (R1 & R2 & _). cbv zeta in R1, R2. rewrite R1.
      rewrite <- (same_id_list_end n b1 b2 fronts_agree HL) in *. rewrite <- (same_network n b1 b2 fronts_agree HI EP). rewrite R2. tauto. }
    intros o. split; apply outcome_follows; try tauto; try congruence.
    - apply (same_id_list n b1 b2 fronts_agree HL).
    - rewrite <- EL. intros H'. symmetry. now apply (same_id_list n b1 b2 fronts_agree HL).
  Qed.
  Lemma strings_patched cp allow : usable cp ->
    end_alike (snd (lnk_init (FromBytes b1) cp allow)) (snd (lnk_init (FromBytes b2) cp allow))
    /\ forall l1 l2, snd (lnk_init (FromBytes b1) cp allow) = Ok l1 -> snd (lnk_init (FromBytes b2) cp allow) = Ok l2 ->
         (forall all, end_alike (snd (get_json l1 all)) (snd (get_json l2 all)))
         /\ forall w1 w2 d1 d2, get_json l1 true = (w1, Ok d1) -> get_json l2 true = (w2, Ok d2) ->
              w1 = w2 /\ same_entries ["header"; "target"; "link_info"; "extra"] d1 d2 /\ sizes_follow d1 d2 s1 s2.
  Proof.
    intros Hcp. pose proof HB as (HL & HI & _). pose proof longer1 as L1. pose proof longer2 as L2. assert (H24 : 24 <= lenN front) by apply HL. split.
    - assert (N1 : b1 <> []) by (intros E; rewrite E in L1; cbn in L1; lia).
      assert (N2 : b2 <> []) by (intros E; rewrite E in L2; cbn in L2; lia).
      destruct (lnk_init_outcome (FromBytes b1) b1 cp allow ltac:(now left) N1 Hcp) as [O1 F1].
      destruct (lnk_init_outcome (FromBytes b2) b2 cp allow ltac:(now left) N2 Hcp) as [O2 F2]. pose proof both_constructible as HC.
      unfold end_alike. destruct (snd (lnk_init (FromBytes b1) cp allow)) as [l1|x1] eqn:R1.
      + assert (C2 : constructible b2) by (apply HC, O1; now exists l1). apply O2 in C2 as [l2 ->]. exact I.
      + assert (C1 : ~ constructible b1) by (intros C; apply O1 in C as [l C]; discriminate C). rewrite F2 by tauto.
        specialize (F1 C1). now injection F1 as ->.
    - intros l1 l2 R1 R2. split; [intros all; apply (ends_of b1 b2 cp cp allow allow l1 l2 all all Hcp Hcp R1 R2), outcomes|].
      intros w1 w2 d1 d2 G1 G2.
      assert (W1 : whole_report b1 cp allow d1 w1) by now apply whole_reported with l1.
      assert (W2 : whole_report b2 cp allow d2 w2) by now apply whole_reported with l2.
      assert (D1 : snd (get_json l1 true) = Ok d1) by now rewrite G1. assert (D2 : snd (get_json l2 true) = Ok d2) by now rewrite G2.
      destruct extras_left as [X1 X2]. destruct (init_constructed b1 cp allow l1 Hcp R1) as [C1 _].
      pose proof inside_header as HH.
      assert (H76 : 76 <= lenN front).
      { assert (HO : report_outcome b1 None) by (apply (report_exact_iff b1 cp allow l1 true Hcp R1); now exists d1).
        inversion HO as [|? | |? ? ? HW]. unfold header_whole in HW. lia. }
      split; [|split].
      + apply (warnings_part b1 b2 cp allow allow d1 d2 w1 w2 Hcp C1 W1 W2).
        * apply (agree_take n b1 b2 fronts_agree). assumption.
        * apply (same_has_list n b1 b2 fronts_agree HL).
        * apply (same_id_list n b1 b2 fronts_agree HL).
        * apply (same_processed n b1 b2 fronts_agree HL HI).
        * intros EP. unfold info_bytes. destruct (same_info n b1 b2 fronts_agree HL HI cp EP) as (_ & _ & _ & EW). cbv zeta in EW.
          rewrite !num_dropN. rewrite EW. rewrite <- (same_id_list_end n b1 b2 fronts_agree HL). now rewrite (same_network n b1 b2 fronts_agree HI EP).
        * congruence.
      + intros k Hk. cbn [In] in Hk. destruct Hk as [<-|[<-|[<-|[<-|[]]]]].
        * apply (header_inside n b1 b2 cp allow allow l1 l2 d1 d2 fronts_agree Hcp R1 R2 D1 D2 H76).
        * apply (target_inside n b1 b2 cp allow allow l1 l2 d1 d2 fronts_agree Hcp R1 R2 D1 D2 HL).
        * apply (link_info_inside n b1 b2 cp allow allow l1 l2 d1 d2 fronts_agree Hcp R1 R2 D1 D2 HL HI).
        * apply (blocks_part b1 b2 cp cp allow allow d1 d2 w1 w2 W1 W2 Hcp C1 eq_refl eq_refl). congruence.
      + apply (sizes_of b1 b2 cp allow d1 d2 w1 w2 s1 s2 W1 W2); [congruence|lia|]. unfold b1, b2. rewrite !lenN_app. lia.
  Qed.
End Strings.

(** ** What comes behind a part does not depend on where it is *)
Definition same_flags (b1 b2 : bytes) : Prop := forall i, 1 <= i <= 8 -> bit_set i b1 = bit_set i b2.
Lemma all_flags b1 b2 : num 4 20 b1 = num 4 20 b2 -> same_flags b1 b2.
Proof. intros H i _. unfold bit_set. now rewrite H. Qed.
Lemma same_strings b1 b2 : same_flags b1 b2 -> same_string_flags b1 b2.
Proof. intros H i Hi. apply H. cbn [In] in Hi. lia. Qed.
Lemma behind_info b1 b2 : same_string_flags b1 b2 -> dropN (info_end b1) b1 = dropN (info_end b2) b2 ->
  exists k, string_data_end b1 = info_end b1 + k /\ string_data_end b2 = info_end b2 + k
    /\ string_bytes b1 = string_bytes b2 /\ extra_bytes b1 = extra_bytes b2.
Proof.
  intros HF HD. destruct (flags_rel b1 b2 (dropN (info_end b2) b2) HF) as [_ HE].
  pose proof (data_end_rel b1) as E1. pose proof (data_end_rel b2) as E2. rewrite HD, HE in E1. clear HE.
  set (k := rel_end _ _ _) in *. clearbody k. exists k. split; [assumption|]. split; [assumption|].
  unfold string_bytes, extra_bytes, slice. rewrite E1, E2. replace (info_end b1 + k - info_end b1) with k by lia.
  replace (info_end b2 + k - info_end b2) with k by lia. rewrite HD. rewrite <- !dropN_dropN, HD. now split.
Qed.
Lemma behind_list b1 b2 : same_flags b1 b2 -> info_bytes b1 = info_bytes b2 ->
  info_processed b1 = info_processed b2
  /\ exists k, info_end b1 = id_list_end b1 + k /\ info_end b2 = id_list_end b2 + k /\ dropN (info_end b1) b1 = dropN (info_end b2) b2.
Proof.
  unfold info_bytes. intros HF HD.
  assert (EN : forall i, num 4 (id_list_end b1 + i) b1 = num 4 (id_list_end b2 + i) b2) by (intros i; rewrite <- !num_dropN; now rewrite HD).
  assert (EL : (id_list_end b1 + 12 <=? lenN b1) = (id_list_end b2 + 12 <=? lenN b2)).
  { apply (f_equal lenN) in HD. rewrite !lenN_dropN in HD. lia. }
  assert (EP : info_processed b1 = info_processed b2).
  { unfold info_processed. rewrite (HF 1), (HF 8), EL, EN by lia. reflexivity. }
  split; [assumption|]. unfold info_end. rewrite <- EP. pose proof (EN 0) as E0. rewrite !N.add_0_r in E0. rewrite E0.
  destruct (info_processed b1); [exists (num 4 (id_list_end b2) b2)|exists 0]; (split; [lia|]); (split; [lia|]); [|assumption].
  now rewrite <- !dropN_dropN, HD.
Qed.
Lemma inits_alike b1 b2 cp allow : usable cp -> b1 <> [] -> b2 <> [] -> (constructible b1 <-> constructible b2) ->
  end_alike (snd (lnk_init (FromBytes b1) cp allow)) (snd (lnk_init (FromBytes b2) cp allow)).
Proof.
  intros Hcp N1 N2 HC. destruct (lnk_init_outcome (FromBytes b1) b1 cp allow ltac:(now left) N1 Hcp) as [O1 F1].
  destruct (lnk_init_outcome (FromBytes b2) b2 cp allow ltac:(now left) N2 Hcp) as [O2 F2].
  unfold end_alike. destruct (snd (lnk_init (FromBytes b1) cp allow)) as [l1|x1] eqn:R1.
  - assert (C2 : constructible b2) by (apply HC, O1; now exists l1). apply O2 in C2 as [l2 ->]. exact I.
  - assert (C1 : ~ constructible b1) by (intros C; apply O1 in C as [l C]; discriminate C). rewrite F2 by tauto.
    specialize (F1 C1). now injection F1 as ->.
Qed.

(** ** Another ID list *)
Section Items.
  Variables front x1 x2 back : bytes.
  Let b1 := front ++ x1 ++ back.
  Let b2 := front ++ x2 ++ back.
  Hypothesis HN : 24 <= lenN front.
  Hypothesis HH : header_len front = lenN front.
  Hypothesis HF : has_id_list front = true.
  Hypothesis L1 : is_id_list x1.
  Hypothesis L2 : is_id_list x2.
  Lemma in_front x : header_len (front ++ x) = lenN front /\ num 4 20 (front ++ x) = num 4 20 front.
  Proof. rewrite <- HH. unfold header_len. rewrite !num_inside by lia. now split. Qed.
  Lemma items_flags : same_flags b1 b2.
  Proof. apply all_flags. unfold b1, b2. destruct (in_front (x1 ++ back)) as [_ ->]. now destruct (in_front (x2 ++ back)) as [_ ->]. Qed.
  Lemma list_ends x : is_id_list x -> id_list_end (front ++ x ++ back) = lenN front + lenN x.
  Proof.
    intros H. destruct (in_front (x ++ back)) as [E1 E2]. unfold id_list_end, has_id_list, bit_set. rewrite E1, E2.
    change (N.testbit (num 4 20 front) 0) with (has_id_list front). rewrite HF.
    rewrite <- (N.add_0_r (lenN front)) at 2. rewrite <- num_dropN, dropN_app_exact by reflexivity. rewrite num_inside by (unfold is_id_list in H; lia). unfold is_id_list in H. lia.
  Qed.
  Lemma items_info : info_bytes b1 = back /\ info_bytes b2 = back.
  Proof.
    unfold info_bytes. unfold b1, b2. rewrite (list_ends x1 L1), (list_ends x2 L2). rewrite !app_assoc.
    split; apply dropN_app_exact; now rewrite lenN_app.
  Qed.
  Lemma items_behind : info_processed b1 = info_processed b2 /\ string_bytes b1 = string_bytes b2 /\ extra_bytes b1 = extra_bytes b2
    /\ string_data_end b1 + lenN x2 = string_data_end b2 + lenN x1.
  Proof.
    destruct items_info as [I1 I2]. destruct (behind_list b1 b2 items_flags) as [EP (k & K1 & K2 & KD)]; [congruence|].
    destruct (behind_info b1 b2 (same_strings _ _ items_flags) KD) as (j & J1 & J2 & JS & JX). repeat (split; [assumption|]).
    pose proof (list_ends x1 L1) as E1. pose proof (list_ends x2 L2) as E2. fold b1 in E1. fold b2 in E2. lia.
  Qed.
  Lemma items_lengths : 24 <= lenN b1 /\ 24 <= lenN b2 /\ header_len b1 = lenN front /\ header_len b2 = lenN front
    /\ lenN front + 2 <= lenN b1 /\ lenN front + 2 <= lenN b2.
  Proof.
    destruct (in_front (x1 ++ back)) as [E1 _]. destruct (in_front (x2 ++ back)) as [E2 _]. unfold b1, b2. rewrite E1, E2, !lenN_app.
    unfold is_id_list in L1, L2. lia.
  Qed.
  Lemma list_patched cp allow : usable cp ->
    end_alike (snd (lnk_init (FromBytes b1) cp allow)) (snd (lnk_init (FromBytes b2) cp allow))
    /\ forall l1 l2, snd (lnk_init (FromBytes b1) cp allow) = Ok l1 -> snd (lnk_init (FromBytes b2) cp allow) = Ok l2 ->
         lnk_command l1 = lnk_command l2
         /\ forall d1 d2, snd (get_json l1 true) = Ok d1 -> snd (get_json l2 true) = Ok d2 ->
              same_entries ["header"; "link_info"; "data"; "extra"] d1 d2 /\ sizes_follow d1 d2 x1 x2.
  Proof.
    intros Hcp. destruct items_lengths as (N1 & N2 & H1 & H2 & M1 & M2). destruct items_behind as (EP & ES & EX & EE). destruct items_info as [I1 I2]. split.
    - apply inits_alike; [assumption| | |].
      + intros E. rewrite E in N1. cbn in N1. lia.
      + intros E. rewrite E in N2. cbn in N2. lia.
      + split; (apply constructible_follows; [lia|lia|intros; lia|congruence]).
    - intros l1 l2 R1 R2. split; [apply (command_part b1 b2 cp allow allow l1 l2 Hcp R1 R2 (same_strings _ _ items_flags) ES)|].
      intros d1 d2 D1 D2. destruct (whole_of b1 cp allow l1 d1 Hcp R1 D1) as [w1 W1]. destruct (whole_of b2 cp allow l2 d2 Hcp R2 D2) as [w2 W2].
      destruct (init_constructed b1 cp allow l1 Hcp R1) as [C1 _].
      assert (H76 : 76 <= lenN front).
      { assert (HO : report_outcome b1 None) by (apply (report_exact_iff b1 cp allow l1 true Hcp R1); now exists d1).
        inversion HO as [|? | |? ? ? HW]. unfold header_whole in HW. lia. }
      split.
      + intros k Hk. cbn [In] in Hk. destruct Hk as [<-|[<-|[<-|[<-|[]]]]].
        * apply (header_part b1 b2 cp cp allow allow d1 d2 w1 w2 W1 W2). unfold header_bytes, b1, b2. now rewrite !takeN_app_le by assumption.
        * apply (info_part b1 b2 cp cp allow allow d1 d2 w1 w2 W1 W2 eq_refl EP). congruence.
        * apply (strings_part b1 b2 cp cp allow allow d1 d2 w1 w2 W1 W2 eq_refl (same_strings _ _ items_flags) ES).
        * apply (blocks_part b1 b2 cp cp allow allow d1 d2 w1 w2 W1 W2 Hcp C1 eq_refl eq_refl EX).
      + apply (sizes_of b1 b2 cp allow d1 d2 w1 w2 x1 x2 W1 W2 EX EE). unfold b1, b2. rewrite !lenN_app. lia.
  Qed.
End Items.

(** ** Another LinkInfo *)
Section Infos.
  Variables front x1 x2 back : bytes.
  Let b1 := front ++ x1 ++ back.
  Let b2 := front ++ x2 ++ back.
  Let n := lenN front.
  Hypothesis HL : lists_inside (lenN front) b1.
  Hypothesis E1 : info_end b1 = lenN front + lenN x1.
  Hypothesis E2 : info_end b2 = lenN front + lenN x2.
  Lemma infos_agree : agree n b1 b2.
  Proof.
    unfold b1, b2, n. split; [rewrite lenN_app; lia|]. split; [rewrite lenN_app; lia|]. now rewrite !takeN_app_exact by reflexivity.
  Qed.
  Lemma infos_flags : same_flags b1 b2.
  Proof. apply all_flags. unfold b1, b2. destruct HL as (_ & _ & HN). now rewrite !num_inside by lia. Qed.
  Lemma infos_behind : string_bytes b1 = string_bytes b2 /\ extra_bytes b1 = extra_bytes b2
    /\ string_data_end b1 + lenN x2 = string_data_end b2 + lenN x1.
  Proof.
    destruct (behind_info b1 b2 (same_strings _ _ infos_flags)) as (j & J1 & J2 & JS & JX).
    - rewrite E1, E2. unfold b1, b2. rewrite !app_assoc, !dropN_app_exact by now rewrite lenN_app. reflexivity.
    - repeat (split; [assumption|]). lia.
  Qed.
  Lemma info_patched cp allow : usable cp ->
    end_alike (snd (lnk_init (FromBytes b1) cp allow)) (snd (lnk_init (FromBytes b2) cp allow))
    /\ forall l1 l2, snd (lnk_init (FromBytes b1) cp allow) = Ok l1 -> snd (lnk_init (FromBytes b2) cp allow) = Ok l2 ->
         lnk_command l1 = lnk_command l2
         /\ forall d1 d2, snd (get_json l1 true) = Ok d1 -> snd (get_json l2 true) = Ok d2 ->
              same_entries ["header"; "target"; "data"; "extra"] d1 d2 /\ sizes_follow d1 d2 x1 x2.
  Proof.
    intros Hcp. destruct infos_behind as (ES & EX & EE). assert (H24 : 24 <= lenN front) by apply HL.
    assert (HD : id_list_end b1 <= lenN front) by apply HL.
    assert (N1 : lenN front <= lenN b1) by (unfold b1; rewrite lenN_app; lia). assert (N2 : lenN front <= lenN b2) by (unfold b2; rewrite lenN_app; lia).
    pose proof (same_header_len n b1 b2 infos_agree HL) as EH. pose proof (same_has_list n b1 b2 infos_agree HL) as EL.
    assert (HI : has_id_list b1 = true -> header_len b1 + 2 <= lenN front) by (intros H; unfold id_list_end in HD; rewrite H in HD; lia).
    assert (HI0 : header_len b1 <= lenN front) by (unfold id_list_end in HD; destruct (has_id_list b1); lia). split.
    - apply inits_alike; [assumption| | |].
      + intros E. rewrite E in N1. cbn in N1. lia.
      + intros E. rewrite E in N2. cbn in N2. lia.
      + split; (apply constructible_follows; [lia|lia| |congruence]).
        * rewrite <- EL, <- EH. intros H'. specialize (HI H'). lia.
        * intros H'. specialize (HI H'). lia.
    - intros l1 l2 R1 R2. split; [apply (command_part b1 b2 cp allow allow l1 l2 Hcp R1 R2 (same_strings _ _ infos_flags) ES)|].
      intros d1 d2 D1 D2. destruct (whole_of b1 cp allow l1 d1 Hcp R1 D1) as [w1 W1]. destruct (whole_of b2 cp allow l2 d2 Hcp R2 D2) as [w2 W2].
      destruct (init_constructed b1 cp allow l1 Hcp R1) as [C1 _].
      assert (H76 : 76 <= lenN front).
      { assert (HO : report_outcome b1 None) by (apply (report_exact_iff b1 cp allow l1 true Hcp R1); now exists d1).
        inversion HO as [|? | |? ? ? HW]. unfold header_whole in HW. lia. }
      split.
      + intros k Hk. cbn [In] in Hk. destruct Hk as [<-|[<-|[<-|[<-|[]]]]].
        * apply (header_inside n b1 b2 cp allow allow l1 l2 d1 d2 infos_agree Hcp R1 R2 D1 D2 H76).
        * apply (target_inside n b1 b2 cp allow allow l1 l2 d1 d2 infos_agree Hcp R1 R2 D1 D2 HL).
        * apply (strings_part b1 b2 cp cp allow allow d1 d2 w1 w2 W1 W2 eq_refl (same_strings _ _ infos_flags) ES).
        * apply (blocks_part b1 b2 cp cp allow allow d1 d2 w1 w2 W1 W2 Hcp C1 eq_refl eq_refl EX).
      + apply (sizes_of b1 b2 cp allow d1 d2 w1 w2 x1 x2 W1 W2 EX EE). unfold b1, b2. rewrite !lenN_app. lia.
  Qed.
End Infos.

(** ** Another header *)
Section Headers.
  Variables h1 h2 back : bytes.
  Let b1 := h1 ++ back.
  Let b2 := h2 ++ back.
  Hypothesis HN : 24 <= lenN h1.
  Hypothesis H1 : header_len h1 = lenN h1.
  Hypothesis H2 : header_len h2 = lenN h1.
  Hypothesis HE : lenN h2 = lenN h1.
  Hypothesis HF : num 4 20 h1 = num 4 20 h2.
  Lemma headers_flags : same_flags b1 b2.
  Proof. apply all_flags. unfold b1, b2. now rewrite !num_inside by lia. Qed.
  Lemma headers_len : header_len b1 = lenN h1 /\ header_len b2 = lenN h1.
  Proof. unfold b1, b2. unfold header_len in *. rewrite !num_inside by lia. now split. Qed.
  Lemma headers_drop i : dropN (lenN h1 + i) b1 = dropN (lenN h1 + i) b2.
  Proof. unfold b1, b2. rewrite <- !dropN_dropN, dropN_app_exact by reflexivity. now rewrite dropN_app_exact. Qed.
  Lemma headers_num k i : num k (lenN h1 + i) b1 = num k (lenN h1 + i) b2.
  Proof. rewrite <- (N.add_0_r (lenN h1 + i)), <- !num_dropN. now rewrite headers_drop. Qed.
  Lemma headers_list : has_id_list b1 = has_id_list b2 /\ id_list_end b1 = id_list_end b2 /\ id_list b1 = id_list b2 /\ info_bytes b1 = info_bytes b2.
  Proof.
    assert (EL : has_id_list b1 = has_id_list b2) by (unfold has_id_list, bit_set, b1, b2; now rewrite !num_inside, HF by lia). destruct headers_len as [L1 L2].
    pose proof (headers_num 2 0) as EN. rewrite N.add_0_r in EN.
    assert (EE : id_list_end b1 = id_list_end b2) by (unfold id_list_end; rewrite <- EL, L1, L2, EN; reflexivity).
    split; [assumption|]. split; [assumption|]. split.
    - unfold id_list, slice. rewrite L1, L2, EN. now rewrite headers_drop.
    - unfold info_bytes. rewrite <- EE. unfold id_list_end. rewrite L1. destruct (has_id_list b1); [apply headers_drop|].
      rewrite <- (N.add_0_r (lenN h1)). apply headers_drop.
  Qed.
  Lemma header_patched cp allow : usable cp ->
    end_alike (snd (lnk_init (FromBytes b1) cp allow)) (snd (lnk_init (FromBytes b2) cp allow))
    /\ forall l1 l2, snd (lnk_init (FromBytes b1) cp allow) = Ok l1 -> snd (lnk_init (FromBytes b2) cp allow) = Ok l2 ->
         lnk_command l1 = lnk_command l2
         /\ (forall all, end_alike (snd (get_json l1 all)) (snd (get_json l2 all)))
         /\ forall d1 d2, snd (get_json l1 true) = Ok d1 -> snd (get_json l2 true) = Ok d2 ->
              same_entries ["target"; "link_info"; "data"; "extra"; "size"] d1 d2.
  Proof.
    intros Hcp. destruct headers_len as [L1 L2]. destruct headers_list as (EL & EE & EI & EB).
    destruct (behind_list b1 b2 headers_flags EB) as [EP (k & K1 & K2 & KD)].
    destruct (behind_info b1 b2 (same_strings _ _ headers_flags) KD) as (j & J1 & J2 & ES & EX).
    assert (EN : lenN b1 = lenN b2) by (unfold b1, b2; rewrite !lenN_app; lia). assert (N1 : 24 <= lenN b1) by (unfold b1; rewrite lenN_app; lia).
    split.
    - apply inits_alike; [assumption| | |].
      + intros E. rewrite E in N1. cbn in N1. lia.
      + intros E. rewrite EN, E in N1. cbn in N1. lia.
      + split; intros (C1 & C2 & C3 & C4); (split; [lia|]); (split; [lia|]).
        * rewrite <- EL, L2, <- EN, <- L1. split; [exact C3|]. unfold extra_bytes in EX. now rewrite <- EX.
        * rewrite EL, L1, EN, <- L2. split; [exact C3|]. unfold extra_bytes in EX. now rewrite EX.
    - intros l1 l2 R1 R2. split; [apply (command_part b1 b2 cp allow allow l1 l2 Hcp R1 R2 (same_strings _ _ headers_flags) ES)|]. split.
      + intros all. apply (ends_of b1 b2 cp cp allow allow l1 l2 all all Hcp Hcp R1 R2). intros o.
        apply outcome_follows; [unfold header_whole; rewrite L1, L2, EN; tauto|assumption|now intros _| |assumption].
        unfold info_whole. rewrite <- EP. rewrite <- !num_dropN. unfold info_bytes in EB. rewrite EB. tauto.
      + intros d1 d2 D1 D2. destruct (whole_of b1 cp allow l1 d1 Hcp R1 D1) as [w1 W1]. destruct (whole_of b2 cp allow l2 d2 Hcp R2 D2) as [w2 W2].
        destruct (init_constructed b1 cp allow l1 Hcp R1) as [C1 _].
        intros key Hk. cbn [In] in Hk. destruct Hk as [<-|[<-|[<-|[<-|[<-|[]]]]]].
        * apply whole_parts in W1 as (a1 & r1 & ? & ? & ? & i1 & m1 & ? & ? & ? & ? & ? & ? & ? & F1 & B1 & _ & I1 & _ & _ & _ & _ & -> & _).
          apply whole_parts in W2 as (a2 & r2 & ? & ? & ? & i2 & m2 & ? & ? & ? & ? & ? & ? & ? & F2 & B2 & _ & I2 & _ & _ & _ & _ & -> & _).
          rewrite <- EL in *. destruct (has_id_list b1); [|reflexivity]. rewrite <- EI in I2.
          destruct (entries_listed_det cp _ _ _ _ _ Hcp I1 I2) as [<- _].
          assert (Z1 : h_size a1 = lenN h1) by (rewrite <- L1, B1; symmetry; apply header_len_encode; assumption).
          assert (Z2 : h_size a2 = lenN h1) by (rewrite <- L2, B2; symmetry; apply header_len_encode; assumption).
          rewrite Z1, Z2. pose proof (headers_num 2 0) as EM. rewrite N.add_0_r in EM. now rewrite EM.
        * apply (info_part b1 b2 cp cp allow allow d1 d2 w1 w2 W1 W2 eq_refl EP EB).
        * apply (strings_part b1 b2 cp cp allow allow d1 d2 w1 w2 W1 W2 eq_refl (same_strings _ _ headers_flags) ES).
        * apply (blocks_part b1 b2 cp cp allow allow d1 d2 w1 w2 W1 W2 Hcp C1 eq_refl eq_refl EX).
        * destruct (sizes_of b1 b2 cp allow d1 d2 w1 w2 [] [] W1 W2 EX) as (n1 & n2 & -> & -> & E0); [lia|rewrite EN; lia|].
          rewrite !N.add_0_r in E0. now rewrite E0.
  Qed.
End Headers.
