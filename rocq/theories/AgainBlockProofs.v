(** * Calling process again: the blocks, of any size and with any code page (C75) *)
From Verif Require Import ApiProofs ShapeProofs ReportProofs CommandProofs.
From Verif Require Import Lemmas PyTime Codec Utils Sha256 Header StringData Targets Info Extra LnkFile Json Report.
From Verif Require Import OutcomeProofs LayoutProofs CoreProofs FormatProofs EncProofs TextProofs TimeProofs HeaderProofs StringProofs.
From Verif Require Import ConstructProofs ItemProofs ExtraProofs ExtraListProofs InfoProofs InfoFileProofs HeaderFileProofs ExactProofs EntryProofs AnyBlockProofs TriedProofs DoubleProofs OrderProofs WholeProofs FailureProofs UnknownProofs.
From Verif Require Import Spec SpecText SpecHeader SpecTime SpecDouble SpecItems SpecInfo SpecExtra SpecOutcome SpecEntries SpecBlocks.
From Verif Require Import SpecWhole SpecFailure SpecTrace SpecUnknown SpecReport SpecCommand SpecReadable SpecJsonText.
From Verif Require Import TraceProofs SpecRun Fields SpecFields Again SpecAgain.

(** ** The entries *)
Lemma collect_told_eq l : collect_told l = map (fun k => (k, entry_for (decoded_ones l) k)) (first_seen (map fst l)).
Proof. reflexivity. Qed.
Lemma decoded_app l l' : decoded_ones (l ++ l') = decoded_ones l ++ decoded_ones l'.
Proof. apply flat_map_app. Qed.
Lemma decoded_absent k l : ~ In k (map fst l) -> ~ In k (map fst (decoded_ones l)).
Proof.
  intros H HI. apply H. clear H. induction l as [|[k' [d|]] l IH]; cbn [decoded_ones flat_map snd fst app map] in *; [contradiction| |].
  - destruct HI as [HI|HI]; [now left|right; now apply IH].
  - right. now apply IH.
Qed.
Lemma told_known l k d : k <> unknown_name -> collect_told (l ++ [(k, Some d)]) = dset k (PDict d) (collect_told l).
Proof.
  intros Hk. rewrite !collect_told_eq, map_app, decoded_app. cbn [map fst decoded_ones flat_map snd app]. rewrite first_seen_snoc.
  set (p := decoded_ones l).
  assert (HV : entry_for (p ++ [(k, d)]) k = PDict d).
  { unfold entry_for. rewrite (eqb_sym_neq _ _ Hk), last_of_snoc, String.eqb_refl. reflexivity. }
  assert (HO : forall k', k' <> k -> entry_for (p ++ [(k, d)]) k' = entry_for p k').
  { intros k' Hk'. unfold entry_for. rewrite all_of_snoc, last_of_snoc, (eqb_sym_neq _ _ Hk'), app_nil_r. reflexivity. }
  destruct (in_dec string_dec k (map fst l)) as [H|H].
  - symmetry. apply dset_map; [now apply first_seen_in|apply first_seen_nodup|assumption|assumption].
  - rewrite dset_new.
    + rewrite map_app. cbn [map]. rewrite HV. f_equal. apply map_ext_in. intros k' Hi. rewrite HO; [reflexivity|].
      intros ->. apply H. now apply first_seen_in.
    + rewrite dget_map. destruct (in_dec string_dec k _) as [H'|H']; [|reflexivity]. exfalso. apply H. exact (proj1 (first_seen_in _ _) H').
Qed.
(** The list of the unknown blocks is begun. *)
Lemma told_begun l : collect_told (l ++ [(unknown_name, None)])
  = (if dmem unknown_name (collect_told l) then collect_told l else dset unknown_name (PList []) (collect_told l)).
Proof.
  rewrite !collect_told_eq, map_app, decoded_app. cbn [map fst decoded_ones flat_map snd app]. rewrite app_nil_r, first_seen_snoc.
  unfold dmem. rewrite dget_map.
  destruct (in_dec string_dec unknown_name (map fst l)) as [H|H];
    destruct (in_dec string_dec unknown_name (first_seen (map fst l))) as [H'|H'].
  - reflexivity.
  - exfalso. apply H'. now apply first_seen_in.
  - exfalso. apply H. apply first_seen_in. assumption.
  - rewrite dset_new.
    + rewrite map_app. cbn [map]. do 3 f_equal. unfold entry_for. change (String.eqb unknown_name "UNKNOWN_BLOCK") with true. cbv iota.
      now rewrite all_of_absent by now apply decoded_absent.
    + rewrite dget_map. destruct (in_dec string_dec unknown_name _) as [H''|H'']; [contradiction|reflexivity].
Qed.
Lemma told_more l d : In unknown_name (map fst l) -> collect_told (l ++ [(unknown_name, Some d)])
  = dupd unknown_name (fun v => match v with PList x => PList (x ++ [PDict d]) | v => v end) (collect_told l).
Proof.
  intros H. rewrite !collect_told_eq, map_app, decoded_app. cbn [map fst decoded_ones flat_map snd app]. rewrite first_seen_snoc.
  destruct (in_dec string_dec unknown_name (map fst l)) as [_|H']; [|contradiction].
  symmetry. apply dupd_map; [apply first_seen_nodup| |].
  - unfold entry_for. change (String.eqb unknown_name "UNKNOWN_BLOCK") with true. cbv iota. now rewrite all_of_snoc, String.eqb_refl, map_app.
  - intros k' Hk'. unfold entry_for. now rewrite last_of_snoc, (eqb_sym_neq _ _ Hk').
Qed.
Lemma told_unknown l d : collect_told (l ++ [(unknown_name, Some d)])
  = dupd unknown_name (fun v => match v with PList x => PList (x ++ [PDict d]) | v => v end)
      (if dmem unknown_name (collect_told l) then collect_told l else dset unknown_name (PList []) (collect_told l)).
Proof.
  rewrite <- told_begun, <- told_more by (rewrite map_app; apply in_or_app; right; now left).
  rewrite !collect_told_eq, !map_app, !decoded_app. cbn [map fst decoded_ones flat_map snd app]. rewrite app_nil_r, !first_seen_snoc.
  destruct (in_dec string_dec unknown_name (map fst l ++ [unknown_name])) as [H'|H'];
    [|exfalso; apply H', in_or_app; right; now left].
  now destruct (in_dec string_dec unknown_name (map fst l)).
Qed.

(** ** One block *)
Lemma cut_block cp c raw : c <> Terminal -> lenN raw < 4 -> extra_as_dict cp (Extra c raw) = raise StructError.
Proof.
  intros Hc L.
  assert (HB : base_size raw = raise StructError)
    by (unfold base_size; rewrite unpack_u32_0; now replace (4 <=? lenN raw) with false by (unfold bytes in *; lia)).
  assert (HF : forall rows, fields (base_fields raw ++ rows) = raise StructError)
    by (intros rows; unfold base_fields; cbn [app fields]; now rewrite HB).
  destruct c; try contradiction; unfold extra_as_dict; cbn [ex_class ex_raw]; try apply HF.
Qed.
Lemma unknown_block sig : String.eqb (block_name sig) "UNKNOWN_BLOCK" = match class_of_sig sig with UnknownExtra => true | _ => false end.
Proof. rewrite <- block_name_class, sig_class_num. now destruct (class_of_sig sig). Qed.
Lemma not_terminal sig : class_of_sig sig <> Terminal.
Proof. rewrite <- sig_class_num. apply sig_class_not_terminal. Qed.

(** What a block does to the entries. *)
Lemma add_kept cp l sig raw d w : extra_as_dict cp (Extra (class_of_sig sig) raw) = (w, Ok d) ->
  add_block cp (collect_told l) (Extra (class_of_sig sig) raw) = (w, Ok (collect_told (l ++ [(block_name sig, Some d)]))).
Proof.
  intros H. unfold add_block. cbn [ex_class]. rewrite H. rewrite <- (block_name_class sig), sig_class_num.
  destruct (class_of_sig sig); cbn [bind try_except ret app]; rewrite ?app_nil_r; try (now rewrite told_known by discriminate).
  now rewrite told_unknown.
Qed.
Lemma add_failed cp l sig raw x w : is_struct_or_value_error x = true -> extra_as_dict cp (Extra (class_of_sig sig) raw) = (w, Err x) ->
  add_block cp (collect_told l) (Extra (class_of_sig sig) raw)
  = (w ++ [WExtraBlock (block_name sig)],
     Ok (collect_told (l ++ if String.eqb (block_name sig) "UNKNOWN_BLOCK" then [(block_name sig, None)] else []))).
Proof.
  intros Hx H. unfold add_block. cbn [ex_class]. rewrite H, unknown_block. rewrite <- (block_name_class sig), sig_class_num.
  destruct (class_of_sig sig); cbn [bind try_except ret app]; rewrite Hx; cbn [bind warn ret app]; rewrite ?app_nil_r; try reflexivity.
  now rewrite told_begun.
Qed.

Section Page.
  Variable cp : cp_arg.
  Hypothesis Hcp : usable cp.

  Lemma known_tried sig raw w : 4 <= lenN raw -> block_tried cp sig raw w -> String.eqb (block_name sig) "UNKNOWN_BLOCK" = false.
  Proof.
    intros L H. rewrite unknown_block. apply (proj1 (block_tries cp sig raw Hcp L)) in H as (x & _ & H).
    destruct (class_of_sig sig); try reflexivity. destruct (unknown_decodes cp raw L) as [d E]. rewrite E in H. discriminate.
  Qed.
  Lemma blocks_told_here blocks entries said o : blocks_told cp blocks entries said o -> forall l tail,
    extras_loop cp (collect_told l) (map mk_block blocks ++ tail)
    = match o with
      | None => let m := extras_loop cp (collect_told (l ++ entries)) tail in (said ++ fst m, snd m)
      | Some e => (said, Err e)
      end.
  Proof.
    induction 1 as [|sig raw rest d w l' ws o L HB _ IH|sig raw rest w l' ws o L HB _ IH|sig raw rest e w L HB|sig raw rest l' ws o L _ IH]; intros l tail.
    { cbn [map app]. rewrite app_nil_r. apply surjective_pairing. }
    all: cbn [map app extras_loop]; rewrite block_of.
    - apply (proj1 (block_settles cp sig raw Hcp L)) in HB. rewrite (add_kept _ _ _ _ _ _ HB). cbn [bind]. rewrite IH, <- app_assoc. cbn [app].
      destruct o as [e|]; [reflexivity|]. cbv zeta. cbn [fst snd]. now rewrite app_assoc.
    - pose proof (known_tried _ _ _ L HB) as HU. apply (proj1 (block_tries cp sig raw Hcp L)) in HB as (x & Hx & HB).
      rewrite (add_failed _ _ _ _ _ _ Hx HB), HU, app_nil_r. cbn [bind]. rewrite IH. destruct o as [e|]; cbv zeta; cbn [fst snd];
        now rewrite <- !app_assoc.
    - destruct (block_stops_here cp Hcp _ _ _ _ L HB) as [He E]. unfold add_block. cbn [ex_class]. rewrite E. cbn [bind try_except].
      rewrite He. destruct (class_of_sig sig); reflexivity.
    - rewrite (add_failed cp l sig raw StructError [] eq_refl (cut_block cp _ raw (not_terminal sig) L)). cbn [bind app]. rewrite IH, <- app_assoc.
      destruct o as [e|]; reflexivity.
  Qed.
  Lemma blocks_told_total blocks : exists entries said o, blocks_told cp blocks entries said o.
  Proof.
    induction blocks as [|[sig raw] rest (l & ws & o & IH)]; [do 3 eexists; apply told_none|].
    destruct (N.lt_ge_cases (lenN raw) 4) as [L|L]; [do 3 eexists; exact (told_cut cp sig raw rest l ws o L IH)|].
    destruct (block_settles cp sig raw Hcp L) as [_ H1]. destruct (block_tries cp sig raw Hcp L) as [_ H2].
    destruct (block_outcome cp sig raw Hcp L) as [(x & HX & _)|[_ HC]].
    - destruct (block_stops_total cp _ _ _ L HX) as [w Hw]. do 3 eexists. exact (told_stops cp sig raw rest x w L Hw).
    - rewrite block_of in HC. destruct (snd (extra_as_dict cp (Extra (class_of_sig sig) raw))) as [d|x] eqn:ED.
      + destruct (H1 d eq_refl) as (d' & w & H). do 3 eexists. exact (told_kept cp sig raw rest d' w l ws o L H IH).
      + destruct (H2 x eq_refl (HC x ED)) as (w & H). do 3 eexists. exact (told_left_out cp sig raw rest w l ws o L H IH).
  Qed.
  Lemma tail_told allow r l : extras_loop cp (collect_told l) (tail_blocks allow r)
    = ret (collect_told (l ++ map (fun x => (fst x, Some (snd x))) (behind_blocks allow r))).
  Proof.
    unfold tail_blocks, behind_blocks. destruct (allow && (4 <? lenN r) && (num 4 0 r =? 0)) eqn:E; [|cbn [map]; now rewrite app_nil_r].
    assert (HL : 4 < lenN r). { apply andb_true_iff in E as [E _]. apply andb_true_iff in E as [_ E]. lia. }
    cbn [extras_loop map fst snd]. rewrite told_known by discriminate.
    unfold add_block, extra_as_dict, terminal_dict, terminal_size. cbn [ex_class ex_raw fields].
    rewrite !bind_ret_l. rewrite lenN_dropN. replace (4 + (lenN r - 4)) with (lenN r) by lia. reflexivity.
  Qed.
End Page.

(** ** With any page *)
Lemma blocks_traced_do cp blocks o trace tail : blocks_traced blocks o trace ->
  (o = None -> forall res, does cp [] None (extras_loop cp res tail)) ->
  forall res, does cp trace o (extras_loop cp res (map mk_block blocks ++ tail)).
Proof.
  intros H HT. revert HT. induction H as [|sig raw rest e w L HB|sig raw rest w o more L HB _ IH|sig raw rest w o more L HB _ IH|sig raw rest o more L _ IH];
    intros HT res; cbn [map app].
  { now apply HT. }
  all: cbn [extras_loop]; rewrite block_of.
  - apply block_does with (cp := cp) in HB; [|assumption]. apply does_stop. unfold add_block. cbn [ex_class].
    destruct (class_of_sig sig); apply (add_does cp _ _ _ _ (Stops e)), HB.
  - apply block_does with (cp := cp) in HB; [|assumption].
    assert (HA : does cp w None (add_block cp res (Extra (class_of_sig sig) raw))).
    { unfold add_block. cbn [ex_class]. destruct (class_of_sig sig); apply (add_does cp _ _ _ _ Shown), HB. }
    apply does_bind; auto.
  - apply block_does with (cp := cp) in HB; [|assumption].
    assert (HA : does cp (w ++ [Says [WExtraBlock (block_name sig)]]) None (add_block cp res (Extra (class_of_sig sig) raw))).
    { rewrite <- block_name_class, sig_class_num. unfold add_block. cbn [ex_class].
      destruct (class_of_sig sig); apply (add_does cp _ _ _ _ LeftOut), HB. }
    change (Says [WExtraBlock (block_name sig)] :: more) with ([Says [WExtraBlock (block_name sig)]] ++ more).
    rewrite app_assoc. apply does_bind; auto.
  - assert (HA : does cp ([] ++ [Says [WExtraBlock (block_name sig)]]) None (add_block cp res (Extra (class_of_sig sig) raw))).
    { rewrite <- block_name_class, sig_class_num. unfold add_block. cbn [ex_class].
      assert (HC : ends_block cp LeftOut [] (extra_as_dict cp (Extra (class_of_sig sig) raw))).
      { cbn [ends_block]. exists StructError. split; [reflexivity|]. rewrite (cut_block cp _ raw (not_terminal sig) L). apply does_raise. }
      destruct (class_of_sig sig); apply (add_does cp _ _ _ _ LeftOut), HC. }
    apply (does_bind cp ([] ++ [Says [WExtraBlock (block_name sig)]]) more); auto.
Qed.
Lemma blocks_traced_total blocks : exists o trace, blocks_traced blocks o trace.
Proof.
  induction blocks as [|[sig raw] rest (o & more & IH)]; [do 2 eexists; apply traced_none|].
  destruct (N.lt_ge_cases (lenN raw) 4) as [L|L]; [do 2 eexists; exact (traced_cut sig raw rest o more L IH)|].
  destruct (block_trace_total sig raw L) as ([| |e] & tr & Ht); do 2 eexists.
  - exact (traced_shown sig raw rest tr o more L Ht IH).
  - exact (traced_left_out sig raw rest tr o more L Ht IH).
  - exact (traced_stopped sig raw rest e tr L Ht).
Qed.
Lemma blocks_traced_lookup blocks o trace : blocks_traced blocks o trace -> o <> Some LookupError.
Proof.
  induction 1 as [|sig raw rest e w L HB| | |]; try assumption; [discriminate|].
  inversion HB; try discriminate; subst. destruct (_ <=? _) in *; discriminate.
Qed.

(** A section [m]: as specified with a page that is known, and traced with one that is not. *)
Section Any.
  Variables (known : cp_arg -> list warning -> result dict -> Prop) (traced : list event -> Prop) (m : cp_arg -> M dict).
  Hypotheses (HK : forall cp w r, usable cp -> known cp w r -> m cp = (w, r)) (HKT : forall cp, usable cp -> exists w r, known cp w r).
  Hypotheses (HT : forall trace, traced trace -> exists o, o <> Some LookupError /\ does CpUnknown trace o (m CpUnknown)) (HTT : exists trace, traced trace).
  Hypothesis (HS : stops_at_most (m CpUnknown) (m CpNone)).

  Lemma any_here cp w r : with_any_page known traced cp w r -> m cp = (w, r).
  Proof.
    intros [cp' said r' Hcp H|trace before H HP|trace said r' H HP HN].
    - now apply HK.
    - destruct (HT _ H) as (o & _ & r' & _ & ->). now apply run_stops.
    - destruct HS as [E|(w1 & w2 & r2 & E & _)]; [rewrite E; apply HK; [apply none_usable|assumption]|]. exfalso.
      destruct (HT _ H) as (o & Ho & r3 & Hr & E3). rewrite run_unneeded in E3 by assumption. rewrite E in E3.
      apply (f_equal snd) in E3. cbn [snd] in E3. destruct o as [e|]; [cbn [ending] in Hr; subst r3|destruct Hr as [v ->]; discriminate].
      cbn [raise snd] in E3. apply Ho. congruence.
  Qed.
  Lemma any_total cp : exists w r, with_any_page known traced cp w r.
  Proof.
    assert (HD : usable cp \/ cp = CpUnknown) by (destruct cp; [left; discriminate|left; discriminate|now right]).
    destruct HD as [Hcp| ->].
    - destruct (HKT cp Hcp) as (w & r & H). do 2 eexists. exact (page_known known traced cp w r Hcp H).
    - destruct HTT as [trace H]. destruct (page_or_not trace) as [[before HP]|HP].
      + do 2 eexists. exact (page_missed known traced trace before H HP).
      + destruct (HKT CpNone none_usable) as (w & r & HN). do 2 eexists. exact (page_not_missed known traced trace w r H HP HN).
  Qed.
End Any.
