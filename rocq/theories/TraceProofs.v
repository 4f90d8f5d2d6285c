(** * The code-page strings a report reads (C76) *)
From Verif Require Import Lemmas PyTime Codec Utils Sha256 Header StringData Targets Info Extra LnkFile Json Report.
From Verif Require Import Spec SpecText SpecHeader SpecTime SpecDouble SpecItems SpecInfo SpecExtra SpecOutcome SpecEntries SpecBlocks SpecWhole SpecFailure SpecUnknown SpecTrace.
From Verif Require Import OutcomeProofs LayoutProofs CoreProofs FormatProofs EncProofs TextProofs TimeProofs HeaderProofs StringProofs ApiProofs.
From Verif Require Import ConstructProofs ItemProofs ExtraProofs ExtraListProofs InfoProofs InfoFileProofs HeaderFileProofs ExactProofs EntryProofs AnyBlockProofs TriedProofs DoubleProofs OrderProofs WholeProofs FailureProofs UnknownProofs ClassProofs.

Definition nothing (b : bytes) : bool := match b with [] => true | _ => false end.
Definition blocked (cp : cp_arg) (e : event) : bool :=
  match cp with
  | CpUnknown => match e with Says _ => false | Reads f | ReadsName f => negb (nothing (before_nul f)) end
  | _ => false
  end.
(** Doing [trace] and then [m]. *)
Fixpoint run {A} (cp : cp_arg) (trace : list event) (m : M A) : M A :=
  match trace with
  | [] => m
  | e :: trace => if blocked cp e then raise LookupError else (heard_at cp e ++ fst (run cp trace m), snd (run cp trace m))
  end.
Definition ending {A} (o : option exn) (m : M A) : Prop := match o with None => exists v, m = ret v | Some e => m = raise e end.
Definition does {A} (cp : cp_arg) (trace : list event) (o : option exn) (m : M A) : Prop :=
  exists r, ending o r /\ m = run cp trace r.

Lemma run_app {A} cp t1 t2 (m : M A) : run cp (t1 ++ t2) m = run cp t1 (run cp t2 m).
Proof. induction t1 as [|e t1 IH]; [reflexivity|]. cbn [app run]. rewrite IH. reflexivity. Qed.
Lemma run_bind {A B} cp t (m : M A) (f : A -> M B) : bind (run cp t m) f = run cp t (bind m f).
Proof.
  induction t as [|e t IH]; [reflexivity|]. cbn [run]. destruct (blocked cp e); [reflexivity|]. rewrite <- IH.
  destruct (run cp t m) as [w [a|x]]; cbn [fst snd bind]; [|reflexivity]. destruct (f a) as [w' r]. cbn [fst snd]. now rewrite <- app_assoc.
Qed.
Lemma run_try {A} cp t (m : M A) sel h : sel LookupError = false -> try_except (run cp t m) sel h = run cp t (try_except m sel h).
Proof.
  intros HS. induction t as [|e t IH]; [reflexivity|]. cbn [run]. destruct (blocked cp e); [cbn; now rewrite HS|]. rewrite <- IH.
  destruct (run cp t m) as [w [a|x]]; cbn [fst snd try_except]; [reflexivity|]. destruct (sel x); [|reflexivity].
  destruct h as [v r]. cbn [fst snd]. now rewrite <- app_assoc.
Qed.
Lemma run_generator {A} cp t (m : M A) : in_generator (run cp t m) = run cp t (in_generator m).
Proof.
  induction t as [|e t IH]; [reflexivity|]. cbn [run]. destruct (blocked cp e); [reflexivity|]. rewrite <- IH.
  destruct (run cp t m) as [w [a|[]]]; reflexivity.
Qed.
Lemma blocked_usable cp e : usable cp -> blocked cp e = false.
Proof. destruct cp; [reflexivity..|]. intros H. now destruct H. Qed.
Lemma run_usable {A} cp t (m : M A) : usable cp -> run cp t m = (heard cp t ++ fst m, snd m).
Proof.
  intros Hcp. induction t as [|e t IH]; [now destruct m|]. cbn [run]. rewrite blocked_usable by assumption. rewrite IH.
  unfold heard. cbn [fst snd flat_map]. now rewrite app_assoc.
Qed.

Section Does.
  Variable cp : cp_arg.

  Lemma does_ret {A} (v : A) : does cp [] None (ret v).
  Proof. exists (ret v). split; [now exists v|reflexivity]. Qed.
  Lemma does_raise {A} e : @does A cp [] (Some e) (raise e).
  Proof. exists (raise e). now split. Qed.
  Lemma does_says {A} w (v : A) : does cp [Says w] None (w, Ok v).
  Proof. exists (ret v). split; [now exists v|]. destruct cp; cbn; now rewrite app_nil_r. Qed.
  Lemma does_says_raise {A} w e : @does A cp [Says w] (Some e) (w, Err e).
  Proof. exists (raise e). split; [reflexivity|]. destruct cp; cbn; now rewrite app_nil_r. Qed.
  Lemma does_bind {A B} t1 t2 o (m : M A) (f : A -> M B) :
    does cp t1 None m -> (forall a, does cp t2 o (f a)) -> does cp (t1 ++ t2) o (bind m f).
  Proof.
    intros (r & [v ->] & ->) HF. destruct (HF v) as (r & Hr & E). exists r. split; [assumption|].
    now rewrite run_app, run_bind, bind_ret_l, E.
  Qed.
  Lemma does_stop {A B} t e (m : M A) (f : A -> M B) : does cp t (Some e) m -> does cp t (Some e) (bind m f).
  Proof. intros (r & Hr & ->). cbn [ending] in Hr. subst r. exists (raise e). split; [reflexivity|]. now rewrite run_bind. Qed.
  Lemma does_eq {A} t1 t2 o (m : M A) : does cp t1 o m -> t1 = t2 -> does cp t2 o m.
  Proof. now intros H <-. Qed.
  (** A reading whose text matters *)
  Lemma reads_field f : read_string cp f = run cp [Reads f] (ret (field_text cp f)).
  Proof.
    cbn [run heard_at ret fst snd]. rewrite app_nil_r. unfold blocked. destruct cp.
    - now rewrite read_string_field.
    - now rewrite read_string_field.
    - rewrite read_unknown. unfold field_text, field_warning. destruct (before_nul f); reflexivity.
  Qed.
  Lemma does_reads f : does cp [Reads f] None (read_string cp f).
  Proof. exists (ret (field_text cp f)). split; [now eexists|]. apply reads_field. Qed.
  Lemma does_wide f : does cp [Says (wide_warning f)] None (read_unicode_string f).
  Proof. rewrite read_unicode_field. apply does_says. Qed.
  Lemma does_stored (u : bool) f : does cp [stored_event u f] None (if u then read_unicode_string f else read_string cp f).
  Proof. destruct u; [apply does_wide|apply does_reads]. Qed.
  Lemma does_run {A} t1 t2 o (m : M A) : does cp t2 o m -> does cp (t1 ++ t2) o (run cp t1 m).
  Proof. intros (r & Hr & ->). exists r. split; [assumption|]. now rewrite run_app. Qed.
  Lemma does_map {A B} t (m : M A) (f : A -> B) : does cp t None m -> does cp t None (x <- m ;; ret (f x)).
  Proof. intros H. rewrite <- (app_nil_r t). apply does_bind; [assumption|]. intros a. apply does_ret. Qed.
  Lemma does_row k t1 t2 o m rows : does cp t1 None m -> does cp t2 o (fields rows) -> does cp (t1 ++ t2) o (fields ((k, m) :: rows)).
  Proof.
    intros H1 H2. cbn [fields]. apply does_bind; [assumption|]. intros a. destruct o as [e|]; [now apply does_stop|].
    now apply (does_map t2 (fields rows)).
  Qed.
  Lemma does_row0 k t o m rows : does cp [] None m -> does cp t o (fields rows) -> does cp t o (fields ((k, m) :: rows)).
  Proof. intros H1 H2. now apply (does_row _ [] t). Qed.
  Lemma does_row_stop k t e m rows : does cp t (Some e) m -> does cp t (Some e) (fields ((k, m) :: rows)).
  Proof. intros H. cbn [fields]. now apply does_stop. Qed.
  Lemma does_fields : does cp [] None (fields []).
  Proof. apply does_ret. Qed.

  (** ** Items *)
  Ltac rd := rewrite ?bind_ret_l; unfold unpack_u8, unpack_u16, unpack_u32;
    repeat (rewrite read_at by lia; rewrite ?bind_ret_l).
  Ltac cut := unfold unpack_u8, unpack_u16, unpack_u32; rewrite cut_at by lia; apply does_raise.

  Lemma fs_does rt : 12 <= lenN rt -> does cp (file_entry_trace rt) None (fs_as_item cp rt).
  Proof.
    intros L. unfold fs_as_item, fs_flags, fs_file_size, fs_modification_time, fs_file_attribute_flags, fs_primary_name,
      has_unicode_strings, class_type_indicator, file_entry_trace. cbv zeta. rd.
    rewrite fs_folder by apply num1_lt. rewrite dostime_at by lia. rewrite (testbit_mask _ 2) by reflexivity.
    eapply does_eq.
    { eapply does_bind; [apply does_says|intros ?]. rewrite ?bind_ret_l. eapply does_bind; [apply does_says|intros ?]. rewrite ?bind_ret_l.
      eapply does_bind; [apply does_stored|intros ?]. apply does_ret. }
    reflexivity.
  Qed.
  Lemma fs_does_not rt : lenN rt < 12 -> does cp [Says (file_entry_tried rt)] (Some StructError) (fs_as_item cp rt).
  Proof.
    intros L. assert (E : fs_as_item cp rt = (file_entry_tried rt, Err StructError)).
    { clear -L. unfold fs_as_item, fs_flags, fs_file_size, fs_modification_time, fs_file_attribute_flags, class_type_indicator, file_entry_tried.
    Ltac cut' := unfold unpack_u8, unpack_u16, unpack_u32; rewrite cut_at by lia; reflexivity.
    destruct (N.leb_spec 1 (lenN rt)) as [L1|L1]; [|replace (10 <=? lenN rt) with false by lia; cut']. rd.
    rewrite fs_folder by apply num1_lt. apply (says_fail _ _ _ (flags_text (num 1 0 rt))); [reflexivity|].
    destruct (N.leb_spec 6 (lenN rt)) as [L6|L6]; [rd|replace (10 <=? lenN rt) with false by lia; cut'].
    destruct (N.leb_spec 10 (lenN rt)) as [L10|L10]; [|now rewrite dostime_cut by lia].
    rewrite dostime_at by lia. eapply then_fail; [reflexivity|]. cut'. }
    rewrite E. apply does_says_raise.
  Qed.
  Lemma mc_does rt : 1 <= lenN rt -> (N.testbit (num 1 0 rt) 0 = false -> 18 <= lenN rt) ->
    does cp (if N.testbit (num 1 0 rt) 0 then [Reads (slice 1 21 rt)] else []) None (mc_as_item cp rt).
  Proof.
    intros L HG. destruct (volume_flags (num 1 0 rt) (num1_lt 0 rt)) as [EF EB].
    unfold mc_as_item, mc_has_name, mc_flags, class_type_indicator. rd. rewrite EB.
    destruct (N.testbit (num 1 0 rt) 0).
    - apply (does_map [Reads (slice 1 21 rt)]). apply does_reads.
    - rewrite guid_at by (specialize (HG eq_refl); lia). rewrite bind_ret_l. apply does_ret.
  Qed.
  Lemma mc_does_not rt : 1 <= lenN rt -> N.testbit (num 1 0 rt) 0 = false -> lenN rt < 18 ->
    does cp [] (Some StructError) (mc_as_item cp rt).
  Proof.
    intros L Hty HG. destruct (volume_flags (num 1 0 rt) (num1_lt 0 rt)) as [EF EB].
    unfold mc_as_item, mc_has_name, mc_flags, class_type_indicator. rd. rewrite EB, Hty. rewrite guid_cut by lia. apply does_raise.
  Qed.
  Lemma cpl_does rt : 10 <= lenN rt ->
    does cp ([stored_event (cpl_wide rt) (cpl_string rt 0);
       stored_event (cpl_wide rt) (cpl_string rt (cpl_name_offset_of rt))]
      ++ (if cpl_comments_offset_of rt =? 0 then []
          else [stored_event (cpl_wide rt) (cpl_string rt (cpl_comments_offset_of rt))])) None (cpl_as_item cp rt).
  Proof.
    intros L. unfold cpl_as_item, cpl_signature, cpl_file_path, cpl_name_string, cpl_comments, cpl_name_offset, cpl_comments_offset,
      cpl_strings_start, cpl_name_offset_of, cpl_comments_offset_of, cpl_string. rewrite !cpl_wide_code. rd.
    assert (H22 : cpl_wide rt = true -> 22 <= lenN rt).
    { unfold cpl_wide. destruct (N.leb_spec 22 (lenN rt)); [trivial|discriminate]. }
    cbv zeta. destruct (cpl_wide rt); [specialize (H22 eq_refl)|]; rd.
    - rewrite !(N.mul_comm 2). rewrite N.mul_0_l, N.add_0_r. eapply does_eq.
      { eapply does_bind; [apply does_wide|intros ?]. eapply does_bind; [apply does_wide|intros ?].
        eapply (does_map (if num 2 20 rt =? 0 then [] else [_])). destruct (num 2 20 rt =? 0); [apply does_ret|apply does_wide]. }
      reflexivity.
    - rewrite N.add_0_r. eapply does_eq.
      { eapply does_bind; [apply does_reads|intros ?]. eapply does_bind; [apply does_reads|intros ?].
        eapply (does_map (if num 2 8 rt =? 0 then [] else [_])). destruct (num 2 8 rt =? 0); [apply does_ret|apply does_reads]. }
      reflexivity.
  Qed.
  Lemma nothing_reads : does cp [] None (read_string cp []).
  Proof. rewrite reads_field. cbn [run]. replace (blocked cp (Reads [])) with false by (now destruct cp). cbn. eexists. split; [|reflexivity]. now eexists. Qed.
  Lemma cpl_does_not rt : lenN rt < 10 -> does cp [] (Some StructError) (cpl_as_item cp rt).
  Proof.
    intros L. unfold cpl_as_item, cpl_signature, cpl_file_path, cpl_name_string, cpl_comments, cpl_name_offset, cpl_comments_offset, cpl_strings_start.
    rewrite cpl_wide_code. unfold cpl_wide. replace (22 <=? lenN rt) with false by lia. cbn [andb].
    assert (ED : forall n, 10 <= n -> dropN n rt = []) by (intros n Hn; apply dropN_all; lia).
    destruct (N.leb_spec 6 (lenN rt)) as [L6|L6]; [rd|cut]. rewrite ED by lia.
    apply (does_bind [] []); [apply nothing_reads|intros ?].
    destruct (N.leb_spec 8 (lenN rt)) as [L8|L8]; [rd|cut]. rewrite ED by lia.
    apply (does_bind [] []); [apply nothing_reads|intros ?].
    cut.
  Qed.
  Lemma cat_does rt : 10 <= lenN rt ->
    does cp [Says (unless_known (category_name (num 4 6 rt)) (WCategory (num 4 6 rt)))] None (cat_as_item rt).
  Proof.
    intros L. unfold cat_as_item, cat_category, cat_id. rd. rewrite category_spec. apply does_map, does_says.
  Qed.
  Lemma cat_does_not rt : lenN rt < 10 -> does cp [] (Some StructError) (cat_as_item rt).
  Proof. intros L. unfold cat_as_item, cat_id. cut. Qed.
  Lemma rf_does rt : 18 <= lenN rt ->
    does cp [Says (unless_known (sort_name (num 1 1 rt)) (WSortIndex (num 1 1 rt)))] None (rf_as_item rt).
  Proof.
    intros L. unfold rf_as_item, rf_sort_index_value. rd. rewrite sort_index_spec by apply num1_lt.
    eapply (does_bind [_] []); [apply does_says|intros ?]. rd. rewrite guid_at by lia. rewrite bind_ret_l. apply does_ret.
  Qed.
  Lemma rf_does_not rt : lenN rt < 18 ->
    does cp [Says (if 2 <=? lenN rt then unless_known (sort_name (num 1 1 rt)) (WSortIndex (num 1 1 rt)) else [])] (Some StructError) (rf_as_item rt).
  Proof. intros L. rewrite rf_tried by assumption. apply does_says_raise. Qed.
  Lemma cpanel_does rt : 30 <= lenN rt -> does cp [] None (cpanel_as_item rt).
  Proof. intros L. unfold cpanel_as_item. rewrite guid_at by lia. rewrite bind_ret_l. apply does_ret. Qed.
  Lemma cpanel_does_not rt : lenN rt < 30 -> does cp [] (Some StructError) (cpanel_as_item rt).
  Proof. intros L. rewrite cpanel_tried by assumption. apply does_raise. Qed.
  Lemma uf_does rt : 10 <= lenN rt -> 12 <= lenN (slice 10 (10 + num 2 8 rt) rt) -> 36 + num 2 2 rt <= lenN rt ->
    does cp (file_entry_trace (slice 10 (10 + num 2 8 rt) rt)) None (uf_as_item cp rt).
  Proof.
    intros L LI LG. unfold uf_as_item, uf_delegate_offset, uf_inner_data_size, target_base_init, target_size. cbv zeta. unfold unpack_u16.
    rewrite (read_at 2 0 2 (dropN 8 rt)); [|lia|reflexivity|rewrite lenN_dropN; unfold bytes in *; lia].
    rewrite bind_ret_l, bind_ret_l. rewrite num_dropN, slice_dropN. change (8 + 0) with 8.
    replace (8 + 2) with 10 by reflexivity. replace (8 + (2 + num 2 8 rt)) with (10 + num 2 8 rt) by lia.
    rewrite <- (app_nil_r (file_entry_trace _)). apply does_bind; [now apply fs_does|intros ?]. rd. rewrite !guid_at by lia. rewrite !bind_ret_l.
    replace (20 + num 2 2 rt + 16) with (36 + num 2 2 rt) by lia.
    rewrite guid_at by lia. rewrite bind_ret_l. apply does_ret.
  Qed.
  Lemma uf_does_not rt : after_all (needs 10 rt) (after_all (needs 12 (slice 10 (10 + num 2 8 rt) rt)) (needs (36 + num 2 2 rt) rt)) <> None ->
    does cp (let inner := slice 10 (10 + num 2 8 rt) rt in
       if lenN rt <? 10 then [] else if lenN inner <? 12 then [Says (file_entry_tried inner)] else file_entry_trace inner)
      (Some StructError) (uf_as_item cp rt).
  Proof.
    intros H. unfold uf_as_item, uf_delegate_offset, uf_inner_data_size, target_base_init, target_size. cbv zeta. unfold unpack_u16.
    unfold needs in H. destruct (N.ltb_spec (lenN rt) 10) as [L|L].
    - rewrite (cut_at 2 0 2 (dropN 8 rt)); [apply does_raise|lia|reflexivity|rewrite lenN_dropN; unfold bytes in *; lia].
    - cbn [after_all] in H. rewrite (read_at 2 0 2 (dropN 8 rt)); [|lia|reflexivity|rewrite lenN_dropN; unfold bytes in *; lia].
      rewrite bind_ret_l, bind_ret_l. rewrite num_dropN, slice_dropN. change (8 + 0) with 8.
      replace (8 + 2) with 10 by reflexivity. replace (8 + (2 + num 2 8 rt)) with (10 + num 2 8 rt) by lia.
      set (inner := slice 10 (10 + num 2 8 rt) rt) in *.
      destruct (N.ltb_spec (lenN inner) 12) as [LI|LI]; [now apply does_stop, fs_does_not|]. cbn [after_all] in H.
      destruct (N.ltb_spec (lenN rt) (36 + num 2 2 rt)) as [LG|LG]; [|now destruct H].
      rewrite <- (app_nil_r (file_entry_trace _)). apply does_bind; [now apply fs_does|intros ?]. rd.
      destruct (N.le_gt_cases (20 + num 2 2 rt) (lenN rt)) as [L1|L1].
      + rewrite guid_at by lia. rewrite bind_ret_l. rd. rewrite guid_cut by lia. apply does_raise.
      + rewrite guid_cut by lia. apply does_raise.
  Qed.

  (** The strings of a network location. *)
  Lemma next_does b : next_string (read_strings cp b)
    = run cp [Reads b] (ret (field_text cp b, if 0 <? nuls b then read_strings cp (after_nul b) else [])).
  Proof.
    unfold read_strings. pose proof (split_after b []) as H. destruct (split_nul [] b) as [|s r] eqn:ES; [destruct H|].
    destruct H as [-> HR]. cbn [map next_string app].
    assert (E : chars_to_string cp (before_nul b) = run cp [Reads b] (ret (field_text cp b))).
    { rewrite <- reads_field. unfold read_string, read_strings. rewrite ES. cbn [map next_string app].
      destruct (chars_to_string cp (before_nul b)) as [w [t|e]]; [cbn; now rewrite !app_nil_r|reflexivity]. }
    rewrite E, run_bind, bind_ret_l. f_equal. f_equal. f_equal. destruct (0 <? nuls b); now rewrite HR.
  Qed.
  Lemma network_does rt : 3 <= lenN rt -> nuls (dropN 3 rt) <? extra_strings (num 1 2 rt) = false ->
    does cp (Reads (network_location_at rt) :: optional_string (network_description rt) ++ optional_string (network_comments rt)) None
      (nl_init_strings cp rt).
  Proof.
    intros L HN. apply N.ltb_ge in HN. unfold extra_strings in HN.
    unfold nl_init_strings, network_comments, network_description, network_location_at, nl_has_description, nl_has_comments, nl_content_flags.
    unfold unpack_u8. rewrite !read_at by lia. rewrite !bind_ret_l.
    rewrite !(testbit_mask _ 7), !(testbit_mask _ 6) by reflexivity.
    set (s0 := dropN 3 rt) in *.
    pose proof (fun H => nuls_after s0 H) as HA.
    assert (HS : forall A B (f : text * list (M text) -> M B) (g : B -> M A) b t o,
      does cp t o (bind (f (field_text cp b, if 0 <? nuls b then read_strings cp (after_nul b) else [])) g) ->
      does cp (Reads b :: t) o (bind (bind (next_string (read_strings cp b)) f) g)).
    { intros A B f g b t o H. rewrite next_does, !run_bind, bind_ret_l. now apply (does_run [_]). }
    assert (HS' : forall A (f : text * list (M text) -> M A) b t o,
      does cp t o (f (field_text cp b, if 0 <? nuls b then read_strings cp (after_nul b) else [])) ->
      does cp (Reads b :: t) o (bind (next_string (read_strings cp b)) f)).
    { intros A f b t o H. rewrite next_does, !run_bind, bind_ret_l. now apply (does_run [_]). }
    destruct (N.testbit (num 1 2 rt) 7) eqn:E7, (N.testbit (num 1 2 rt) 6) eqn:E6; cbn [optional_string app];
      try (replace (0 <? nuls s0) with true by lia); apply HS'; cbv beta iota; try (replace (0 <? nuls s0) with true by lia); rewrite ?bind_ret_l.
    - apply HS. cbv beta iota. rewrite !bind_ret_l. cbv beta iota. cbn [fst snd].
      replace (0 <? nuls (after_nul s0)) with true by (specialize (HA ltac:(lia)); lia).
      apply HS. cbv beta iota. rewrite bind_ret_l. apply does_ret.
    - apply HS. cbv beta iota. rewrite !bind_ret_l. apply does_ret.
    - apply HS. cbv beta iota. rewrite bind_ret_l. apply does_ret.
    - apply does_ret.
  Qed.
  Lemma network_does_not rt :
    after_all (needs 3 rt) (if nuls (dropN 3 rt) <? extra_strings (num 1 2 rt) then Some RuntimeError else None) <> None ->
    does cp (Reads (network_location_at rt) :: (if nuls (network_location_at rt) =? 0 then [] else optional_string (network_description rt)))
      (Some (if lenN rt <? 3 then StructError else StopIteration)) (nl_init_strings cp rt).
  Proof.
    intros H. unfold nl_init_strings, network_description, network_location_at, nl_has_description, nl_has_comments, nl_content_flags.
    assert (HS : forall A B (f : text * list (M text) -> M B) (g : B -> M A) b t o,
      does cp t o (bind (f (field_text cp b, if 0 <? nuls b then read_strings cp (after_nul b) else [])) g) ->
      does cp (Reads b :: t) o (bind (bind (next_string (read_strings cp b)) f) g)).
    { intros A B f g b t o HD. rewrite next_does, !run_bind, bind_ret_l. now apply (does_run [_]). }
    assert (HS' : forall A (f : text * list (M text) -> M A) b t o,
      does cp t o (f (field_text cp b, if 0 <? nuls b then read_strings cp (after_nul b) else [])) ->
      does cp (Reads b :: t) o (bind (next_string (read_strings cp b)) f)).
    { intros A f b t o HD. rewrite next_does, !run_bind, bind_ret_l. now apply (does_run [_]). }
    unfold needs in H. apply HS'. destruct (N.ltb_spec (lenN rt) 3) as [L|L].
    - rewrite dropN_all by lia. cbv beta iota. cut.
    - cbn [after_all] in H. destruct (N.ltb_spec (nuls (dropN 3 rt)) (extra_strings (num 1 2 rt))) as [HN|HN]; [|now destruct H]. clear H.
      unfold extra_strings in HN. unfold unpack_u8. rewrite !read_at by lia. cbv beta iota. rewrite !bind_ret_l.
      rewrite !(testbit_mask _ 7), !(testbit_mask _ 6) by reflexivity.
      set (s0 := dropN 3 rt) in *. pose proof (fun H => nuls_after s0 H) as HA.
      destruct (N.testbit (num 1 2 rt) 7) eqn:E7, (N.testbit (num 1 2 rt) 6) eqn:E6; cbn [optional_string]; try lia.
      + destruct (N.eq_dec (nuls s0) 0) as [E0|E0].
        * rewrite E0. apply does_raise.
        * replace (0 <? nuls s0) with true by lia. replace (nuls s0 =? 0) with false by lia. apply HS. cbv beta iota. rewrite !bind_ret_l. cbn [fst snd].
          specialize (HA ltac:(lia)). replace (0 <? nuls (after_nul s0)) with false by lia. apply does_raise.
      + assert (E0 : nuls s0 = 0) by lia. rewrite E0. apply does_raise.
      + assert (E0 : nuls s0 = 0) by lia. rewrite E0. rewrite !bind_ret_l. cbn [snd]. apply does_raise.
  Qed.

  (** One item *)
  Lemma entry_unknown_trace ty rt : ty < 256 -> num 1 0 rt = ty -> class_for ty = UnknownTarget -> entry_trace rt = [Says [WItemType ty]].
  Proof.
    intros Hlt E Hc. unfold entry_trace. cbv zeta. rewrite E.
    etransitivity; [refine (choice_class (A := list event) ty _ _ _ _ _ _ _ _ _ _ _ _ _ Hlt)|now rewrite Hc].
  Qed.
  Lemma entry_tried_trace_class ty rt : ty < 256 -> num 1 0 rt = ty ->
    entry_tried_trace rt
    = match class_for ty with
      | ShellFSFolder => [Says (file_entry_tried rt)]
      | NetworkLocation =>
        Reads (network_location_at rt) :: (if nuls (network_location_at rt) =? 0 then [] else optional_string (network_description rt))
      | RootFolder => [Says (if 2 <=? lenN rt then unless_known (sort_name (num 1 1 rt)) (WSortIndex (num 1 1 rt)) else [])]
      | UsersFilesFolder =>
        let inner := slice 10 (10 + num 2 8 rt) rt in
        if lenN rt <? 10 then [] else if lenN inner <? 12 then [Says (file_entry_tried inner)] else file_entry_trace inner
      | _ => []
      end.
  Proof.
    intros Hlt Hty. unfold entry_tried_trace. cbv zeta. rewrite Hty.
    exact (few_class ty [] _ _ _ _ Hlt).
  Qed.
  Lemma next_class rest : 3 <= lenN rest -> num 2 0 rest <> 0 ->
    next_target cp rest
    = in_generator (c <- class_step (num 1 2 rest) ;; t <- target_init c cp rest ;; ret (Some (t, dropN (num 2 0 rest) rest))).
  Proof.
    intros L Hn.
    assert (E2 : unpack_le 2 (slice 0 2 rest) = ret (num 2 0 rest)) by (apply read_at; lia).
    assert (E4 : unpack_le 1 (slice 2 3 rest) = ret (num 1 2 rest)) by (apply read_at; lia).
    unfold next_target, tf_target_class, tf_item_size, tf_item_type, unpack_u16, unpack_u8.
    destruct rest as [|x r] eqn:ER; [cbn in L; lia|]. rewrite <- ER in *.
    rewrite E2, !bind_ret_l, E4, !bind_ret_l. apply N.eqb_neq in Hn. rewrite Hn. cbv zeta. rewrite bind_assoc.
    f_equal. fold (class_step (num 1 2 rest)). destruct (class_step (num 1 2 rest)) as [w [c|e]]; [|reflexivity].
    cbn [bind]. rewrite bind_ret_l. destruct (target_init c cp rest) as [w' [t|e]]; reflexivity.
  Qed.
  Lemma item_does rest o : 3 <= lenN rest -> num 2 0 rest <> 0 ->
    let fields := slice 2 (2 + num 2 0 rest) rest in
    item_error (num 1 2 rest) fields = o ->
    exists t1 t2,
      match o with None => t1 ++ t2 = entry_trace fields | Some _ => t1 ++ t2 = entry_tried_trace fields end
      /\ ((exists e, o = Some e /\ t2 = [] /\ does cp t1 (Some e) (next_target cp rest))
          \/ exists t, next_target cp rest = run cp t1 (ret (Some (t, dropN (num 2 0 rest) rest))) /\ does cp t2 o (as_item cp t)).
  Proof.
    intros L Hn rt He.
    assert (E2 : unpack_le 2 (slice 0 2 rest) = ret (num 2 0 rest)) by (apply read_at; lia).
    assert (Lrt : 1 <= lenN rt) by (unfold rt; rewrite lenN_slice; lia).
    assert (Hty : num 1 0 rt = num 1 2 rest).
    { unfold rt. revert Hn. generalize (num 2 0 rest). intros n Hn. unfold num, slice. rewrite dropN_0, takeN_takeN. f_equal. f_equal. lia. }
    pose proof (next_class rest L Hn) as HT.
    set (ty := num 1 2 rest) in *. assert (Hlt : ty < 256) by apply num1_lt.
    assert (HB : target_base_init rest = ret rt).
    { unfold target_base_init, target_size, unpack_u16. now rewrite E2, bind_ret_l. }
    assert (HI : forall c, c <> NetworkLocation -> target_init c cp rest = ret (Target c rest rt [] None None)).
    { intros c H. unfold target_init. rewrite HB, bind_ret_l. destruct c; try reflexivity. now destruct H. }
    assert (HF : error_for (class_for ty) ty rt = o).
    { rewrite <- He. clear -Hlt. revert rt. pattern ty. apply by_bytes; [|assumption]. intros b rt. symmetry. apply item_error_byte. }
    pose proof (class_says ty Hlt) as HC. pose proof (class_kinds ty Hlt) as HK.
    assert (HG : forall c t2, class_step ty = ([], Ok c) -> c <> NetworkLocation ->
      match o with None => t2 = entry_trace rt | Some _ => t2 = entry_tried_trace rt end ->
      does cp t2 o (as_item cp (Target c rest rt [] None None)) ->
      exists t1 t2,
        match o with None => t1 ++ t2 = entry_trace rt | Some _ => t1 ++ t2 = entry_tried_trace rt end
        /\ ((exists e, o = Some e /\ t2 = [] /\ does cp t1 (Some e) (next_target cp rest))
            \/ exists t, next_target cp rest = run cp t1 (ret (Some (t, dropN (num 2 0 rest) rest))) /\ does cp t2 o (as_item cp t))).
    { intros c t2 Hc Hc2 Ht Ha. exists [], t2. split; [exact Ht|]. right. exists (Target c rest rt [] None None). split; [|exact Ha].
      rewrite HT, Hc, bind_Ok, HI by assumption. rewrite bind_ret_l. reflexivity. }
    destruct o as [e|].
    - rewrite (entry_tried_trace_class ty rt Hlt Hty) in *.
      assert (HN : forall n, needs n rt = Some e -> lenN rt < n /\ e = StructError).
      { intros n. unfold needs. destruct (N.ltb_spec (lenN rt) n); [|discriminate]. intros [= <-]. now split. }
      destruct (class_for ty) eqn:EC; cbn [error_for] in HF; try discriminate HF.
      + apply HN in HF as [HL ->]. eapply HG; [exact HC|discriminate|reflexivity|]. now apply cpl_does_not.
      + apply HN in HF as [HL ->]. eapply HG; [exact HC|discriminate|reflexivity|]. now apply cat_does_not.
      + apply HN in HF as [HL ->]. eapply HG; [exact HC|discriminate|reflexivity|]. now apply rf_does_not.
      + destruct (N.testbit ty 0) eqn:E0; [discriminate HF|]. apply HN in HF as [HL ->]. eapply HG; [exact HC|discriminate|reflexivity|].
        exact (mc_does_not rt Lrt (eq_trans (f_equal (fun x => N.testbit x 0) Hty) E0) HL).
      + apply HN in HF as [HL ->]. eapply HG; [exact HC|discriminate|reflexivity|]. now apply fs_does_not.
      + pose proof (network_does_not rt ltac:(congruence)) as HNS.
        eexists _, []. split; [apply app_nil_r|]. left. exists e. split; [reflexivity|]. split; [reflexivity|].
        destruct HNS as (r & Hr & ENS). cbn [ending] in Hr. subst r.
        rewrite HT, HC, bind_Ok. unfold target_init. rewrite HB, bind_ret_l, ENS, !run_bind. cbn [fst snd app].
        exists (raise e). split; [reflexivity|].
        unfold needs in HF. destruct (lenN rt <? 3); cbn [after_all] in HF.
        * injection HF as <-. rewrite <- surjective_pairing, run_generator. reflexivity.
        * destruct (_ <? _) in HF; [|discriminate HF]. injection HF as <-. rewrite <- surjective_pairing, run_generator. reflexivity.
      + apply HN in HF as [HL ->]. eapply HG; [exact HC|discriminate|reflexivity|]. now apply cpanel_does_not.
      + assert (e = StructError) as ->.
        { unfold after_all, needs in HF. destruct (_ <? 10) in HF; [congruence|]. destruct (_ <? 12) in HF; [congruence|].
          destruct (_ <? 36 + _) in HF; congruence. }
        eapply HG; [exact HC|discriminate|reflexivity|]. apply uf_does_not. congruence.
    - assert (HN : forall n, needs n rt = None -> n <= lenN rt) by (intros n; unfold needs; destruct (N.ltb_spec (lenN rt) n); [discriminate|auto]).
      pose proof (entry_unknown_trace ty rt Hlt Hty) as HU.
      destruct (class_for ty) eqn:EC; cbn [error_for] in HF; rewrite <- ?Hty in HK.
      + eapply HG; [exact HC|discriminate| |apply cpl_does; auto]. unfold entry_trace. cbv zeta. rewrite HK. reflexivity.
      + eapply HG; [exact HC|discriminate| |apply cat_does; auto]. unfold entry_trace. cbv zeta. rewrite HK. reflexivity.
      + eapply HG; [exact HC|discriminate| |apply rf_does; auto]. unfold entry_trace. cbv zeta. destruct HK as [-> | ->]; reflexivity.
      + eapply HG; [exact HC|discriminate| |apply mc_does; [assumption|]].
        * unfold entry_trace. cbv zeta. rewrite HK. reflexivity.
        * cbn [t_raw_target]. rewrite Hty. intros E. rewrite E in HF. auto.
      + eapply HG; [exact HC|discriminate| |apply fs_does; auto]. unfold entry_trace. cbv zeta. rewrite HK. reflexivity.
      + destruct (needs 3 rt) eqn:E3; [discriminate HF|]. apply HN in E3. cbn [after_all] in HF.
        destruct (_ <? _) eqn:EX in HF; [discriminate HF|].
        destruct (network_does rt E3 EX) as (r & [[[v1 v2] v3] ->] & ENS).
        eexists _, [Says _]. split; [|right; eexists (Target NetworkLocation rest rt _ _ _); split].
        2:{ rewrite HT, HC, bind_Ok. unfold target_init. rewrite HB, bind_ret_l, ENS, !run_bind, !bind_ret_l. cbn [fst snd app]. rewrite <- surjective_pairing, run_generator. reflexivity. }
        2:{ unfold as_item, nl_as_item, nl_flags, nl_content_flags. cbn [t_class t_raw_target t_location t_description t_comments]. rd.
            rewrite fs_folder by apply num1_lt. eapply (does_bind [_] []); [apply does_says|intros ?]. apply does_ret. }
        unfold entry_trace. cbv zeta. rewrite HK. cbn [app]. now rewrite <- app_assoc.
      + eapply HG; [exact HC|discriminate| |apply does_ret]. unfold entry_trace. cbv zeta. rewrite HK. reflexivity.
      + eapply HG; [exact HC|discriminate| |apply does_ret]. unfold entry_trace. cbv zeta. rewrite HK. reflexivity.
      + eapply HG; [exact HC|discriminate| |apply cpanel_does; auto]. unfold entry_trace. cbv zeta. destruct HK as [-> | ->]; reflexivity.
      + eapply HG; [exact HC|discriminate| |apply does_ret]. unfold entry_trace. cbv zeta. rewrite HK. reflexivity.
      + eapply HG; [exact HC|discriminate| |apply does_ret]. unfold entry_trace. cbv zeta. rewrite HK. reflexivity.
      + destruct (needs 10 rt) eqn:E1; [discriminate HF|]. destruct (needs 12 _) eqn:E5 in HF; [discriminate HF|]. cbn [after_all] in HF.
        eapply HG; [exact HC|discriminate| |apply uf_does; auto].
        * unfold entry_trace. cbv zeta. rewrite HK. reflexivity.
        * unfold needs in E5. destruct (N.ltb_spec (lenN (slice 10 (10 + num 2 8 rt) rt)) 12); [discriminate E5|assumption].
      + exists [Says [WItemType ty]], []. split; [now rewrite HU|]. right. exists (Target UnknownTarget rest rt [] None None). split.
        * rewrite HT, HC, bind_Ok, HI by discriminate. rewrite bind_ret_l. destruct cp; reflexivity.
        * unfold as_item. cbn [t_class t_raw]. unfold unknown_as_item, target_size, unpack_u16. rewrite E2, bind_ret_l. apply does_ret.
  Qed.
  Lemma entries_loop_does rest o trace : entries_trace rest o trace ->
    forall fuel, (length rest < fuel)%nat -> does cp trace o (items_loop fuel cp rest).
  Proof.
    induction 1 as [rest H|rest H|rest e L Hn rt He|rest o trace L Hn rt He _ IH]; intros fuel Hf; (destruct fuel as [|fuel]; [lia|]); cbn [items_loop].
    - assert (E : next_target cp rest = ret None).
      { destruct H as [-> |[L H]]; [reflexivity|]. destruct rest as [|x r]; [reflexivity|].
        unfold next_target, tf_target_class, tf_item_size, unpack_u16. rewrite read_at by lia. rewrite H. reflexivity. }
      rewrite E, bind_ret_l. apply does_ret.
    - apply does_stop. unfold next_target, tf_target_class, tf_item_size, tf_item_type, unpack_u16, unpack_u8.
      destruct rest as [|x r]; [cbn in H; lia|]. destruct H as [H|[H Hn]].
      + rewrite cut_at by lia. apply does_raise.
      + rewrite !read_at by lia. rewrite !bind_ret_l. apply N.eqb_neq in Hn. rewrite Hn. rewrite cut_at by lia. apply does_raise.
    - fold rt. destruct (item_does rest (Some e) L Hn He) as (t1 & t2 & HT & HD). fold rt in HT. rewrite <- HT. destruct HD as [(e' & [= <-] & -> & HD)|(t & -> & HA)].
      + rewrite app_nil_r. now apply does_stop.
      + rewrite run_bind, bind_ret_l. apply does_run. apply does_stop.
        assert (HK : is_key_error e = false) by (apply item_error_kinds in He; [destruct He; now subst|apply num1_lt]).
        destruct HA as (r & Hr & ->). cbn [ending] in Hr. subst r. exists (raise e). split; [reflexivity|].
        rewrite run_bind, run_try by reflexivity. cbn [bind raise try_except]. rewrite HK. reflexivity.
    - destruct (item_does rest None L Hn He) as (t1 & t2 & HT & HD). fold rt in HT |- *. rewrite <- HT, <- app_assoc.
      destruct HD as [(e' & [=] & _)|(t & -> & HA)]. rewrite run_bind, bind_ret_l. apply does_run. apply does_bind.
      + destruct HA as (r & [v ->] & ->). rewrite run_bind, run_try by reflexivity. eexists. split; [|reflexivity]. now eexists.
      + intros item.
        assert (HF : (length (dropN (num 2 0 rest) rest) < fuel)%nat).
        { assert (Hne : rest <> []) by (intros ->; cbn in L; lia). pose proof (dropN_shorter _ rest Hn Hne). lia. }
        specialize (IH fuel HF). destruct o as [e|]; [now apply does_stop|now apply does_map].
  Qed.
  Lemma entries_do rest o trace : entries_trace rest o trace -> does cp trace o (items_of cp rest).
  Proof. intros H. apply (entries_loop_does _ _ _ H). lia. Qed.

  (** ** The link info *)
  Lemma does_when_true {A} (f : A -> bool) (x : A) t o m : f x = true -> does cp t o m -> does cp t o (when (y <- ret x ;; ret (f y)) m).
  Proof. intros E H. unfold when. now rewrite bind_ret_l, bind_ret_l, E. Qed.
  Lemma does_opt f : does cp [Reads f] None (t <- read_string cp f ;; ret (Some t)).
  Proof. apply does_map, does_reads. Qed.

  Section InfoPart.
    Variable raw : bytes.
    Lemma base_does : 28 <= lenN raw ->
      does cp (event_if (negb (num 4 16 raw =? 0)) (Reads (dropN (num 4 16 raw) raw))) None
        (when (o <- local_base_path_offset raw ;; ret (negb (o =? 0)))
          (fields [("local_base_path"%string, t <- local_base_path cp raw ;; ret (POpt PStr t))])).
    Proof.
      intros L. unfold when, local_base_path, local_base_path_offset. rewrite u32_ok by lia. rewrite !bind_ret_l.
      destruct (num 4 16 raw =? 0); cbn [negb event_if]; [apply does_ret|].
      apply (does_row _ [_] []); [|apply does_fields]. apply does_map, does_opt.
    Qed.
    Lemma suffix_does : 28 <= lenN raw ->
      does cp (event_if (negb (num 4 24 raw =? 0)) (Reads (dropN (num 4 24 raw) raw))) None
        (when (o <- common_path_suffix_offset raw ;; ret (negb (o =? 0)))
          (fields [("common_path_suffix"%string, t <- common_path_suffix cp raw ;; ret (POpt PStr t))])).
    Proof.
      intros L. unfold when, common_path_suffix, common_path_suffix_offset. rewrite u32_ok by lia. rewrite !bind_ret_l.
      destruct (num 4 24 raw =? 0); cbn [negb event_if]; [apply does_ret|].
      apply (does_row _ [_] []); [|apply does_fields]. apply does_map, does_opt.
    Qed.
    Lemma does_warn_if {A} (c : bool) w (v : A) m : m = (warn_if c w, Ok v) -> does cp (event_if c (Says w)) None m.
    Proof. intros ->. destruct c; [apply does_says|apply does_ret]. Qed.
    Lemma does_warn_if_raise {A} (c : bool) w e (m : M A) : m = (warn_if c w, Err e) -> does cp (event_if c (Says w)) (Some e) m.
    Proof. intros ->. destruct c; [apply does_says_raise|apply does_raise]. Qed.
    Lemma wide_base_does : 28 <= lenN raw -> (0x24 <= num 4 4 raw -> 32 <= lenN raw) ->
      does cp (event_if (negb (wide_offset 28 raw =? 0)) (Says (wide_warning (dropN (wide_offset 28 raw) raw)))) None
        (when (o <- local_base_path_offset_unicode raw ;; ret (truthyN o))
        (fields
          [("local_base_path_offset_unicode", o <- local_base_path_offset_unicode raw ;; ret (POpt PN o));
           ("local_base_path_unicode", t <- local_base_path_unicode raw ;; ret (POpt PStr t))]%string)).
    Proof. intros L L2. destruct (wide_base_here raw L L2) as [d E]. now apply does_warn_if with d. Qed.
    Lemma wide_suffix_does : 28 <= lenN raw -> (0x24 <= num 4 4 raw -> 36 <= lenN raw) ->
      does cp (event_if (negb (wide_offset 32 raw =? 0)) (Says (wide_warning (dropN (wide_offset 32 raw + 4) raw)))) None
        (when (o <- common_path_suffix_offset_unicode raw ;; ret (truthyN o))
        (fields
          [("common_path_suffix_offset_unicode", o <- common_path_suffix_offset_unicode raw ;; ret (POpt PN o));
           ("common_path_suffix_unicode", t <- common_path_suffix_unicode raw ;; ret (POpt PStr t))]%string)).
    Proof. intros L L2. pose proof (when_wide_suffix raw L L2) as E. cbv zeta in E. eapply does_warn_if. exact E. Qed.
    Lemma local_does : 28 <= lenN raw -> num 4 12 raw + 16 <= lenN raw ->
      (num 4 (num 4 12 raw + 12) raw = 0x14 -> num 4 12 raw + 20 <= lenN raw) ->
      does cp (let o := num 4 12 raw in
        let label := num 4 (o + 12) raw in
        let wide := if label =? 0x14 then num 4 (o + 16) raw else 0 in
        event_if (negb (label =? 0x14)) (Reads (dropN (o + label) raw))
        ++ event_if (negb (wide =? 0)) (Says (wide_warning (dropN (o + wide) raw)))) None (local_info_dict cp raw).
    Proof.
      intros L28 H16 H20. unfold local_info_dict. cbv zeta.
      pose proof (vol_off raw L28) as VO. pose proof (label_off raw L28 H16) as LO. pose proof (label_wide raw L28 H16 H20) as LW.
      set (o := num 4 12 raw) in *. rewrite LW, bind_ret_l.
      assert (HD : forall X : option string, (if num 4 (o + 4) raw <? lenN DRIVE_TYPES then ret X else ret None)
                     = (ret (if num 4 (o + 4) raw <? lenN DRIVE_TYPES then X else None) : M (option string)))
        by (intros; now destruct (_ <? _)).
      eapply does_eq.
      { eapply does_bind; [|intros fs; eapply does_bind; [|intros gs; apply does_ret]].
        - do 5 (apply does_row0; [unfold volume_id_size, r_drive_type, drive_serial_number, drive_type, r_drive_type;
            rewrite ?VO, ?LO, ?bind_ret_l; rewrite ?u32_ok by lia; rewrite ?bind_ret_l, ?HD, ?bind_ret_l; apply does_ret|]).
          apply (does_row _ (event_if (negb (num 4 (o + 12) raw =? 0x14)) (Reads (dropN (o + num 4 (o + 12) raw) raw))) []); [|apply does_fields].
          unfold volume_label, has_volume_label_offset_unicode. rewrite LO, VO, !bind_ret_l.
          destruct (num 4 (o + 12) raw =? 0x14); [rewrite bind_ret_l; apply does_ret|]. apply does_map, does_opt.
        - instantiate (1 := event_if (negb ((if num 4 (o + 12) raw =? 0x14 then num 4 (o + 16) raw else 0) =? 0))
            (Says (wide_warning (dropN (o + (if num 4 (o + 12) raw =? 0x14 then num 4 (o + 16) raw else 0)) raw)))).
          unfold when, volume_label_unicode. rewrite ?LW, !bind_ret_l.
          destruct (num 4 (o + 12) raw =? 0x14); [|apply does_ret].
          cbn [truthyN]. destruct (num 4 (o + 16) raw =? 0); cbn [negb event_if]; [apply does_ret|].
          rewrite VO, !bind_ret_l. cbn [valN]. apply does_row0; [apply does_ret|]. apply (does_row _ [_] []); [|apply does_fields].
          apply does_map, (does_map [_]). apply does_wide. }
      now rewrite !app_nil_r.
    Qed.
    Lemma name_does key (m : M (option text)) (b : bool) field :
      m = (if b then t <- read_string cp field ;; ret (Some t) else ret None) ->
      does cp (event_if b (ReadsName field)) None (when (t <- m ;; ret (truthy_text t)) (fields [(key, t <- m ;; ret (POpt PStr t))])).
    Proof.
      intros ->. destruct b; [|apply does_ret]. cbn [event_if].
      assert (HU : usable cp -> does cp [ReadsName field] None
        (when (t <- (t <- read_string cp field ;; ret (Some t)) ;; ret (truthy_text t))
          (fields [(key, t <- (t <- read_string cp field ;; ret (Some t)) ;; ret (POpt PStr t))]))).
      { intros Hcp. rewrite read_string_field by assumption. unfold when. cbn [bind ret fst snd truthy_text fields].
        exists (ret (match field_text cp field with [] => [] | x => [(key, PStr x)] end)). split; [now eexists|].
        cbn [run]. rewrite blocked_usable by assumption. cbn [heard_at ret fst snd]. unfold name_warnings.
        destruct (field_text cp field) as [|c t] eqn:E; cbn [nonempty warn_if ret bind fst snd]; now rewrite !app_nil_r. }
      destruct cp as [| |] eqn:EC; [apply HU; intros H; discriminate H..|]. clear HU.
      rewrite read_unknown. exists (ret []). split; [now eexists|]. cbn [run blocked heard_at]. unfold name_warnings, field_warning, field_text.
      destruct (before_nul field) as [|x r]; reflexivity.
    Qed.
    Lemma network_part_does : 28 <= lenN raw -> num 4 20 raw + 20 <= lenN raw ->
      (20 < num 4 (num 4 20 raw + 8) raw -> num 4 20 raw + 28 <= lenN raw) ->
      does cp (let o := num 4 20 raw in
        let name := num 4 (o + 8) raw in
        let device := num 4 (o + 12) raw in
        let wname := if 20 <? name then num 4 (o + 20) raw else 0 in
        let wdevice := if 20 <? name then num 4 (o + 24) raw else 0 in
        event_if (negb (wname =? 0)) (Says (wide_warning (dropN (o + wname) raw)))
        ++ event_if (negb (wdevice =? 0)) (Says (wide_warning (dropN (o + wdevice) raw)))
        ++ event_if (name <=? 20) (ReadsName (dropN (o + name) raw))
        ++ event_if (name <=? 20) (ReadsName (dropN (o + device) raw))) None (network_info_dict cp raw).
    Proof.
      intros L28 H20 HW. unfold network_info_dict. cbv zeta.
      pose proof (net_off raw L28) as NO. pose proof (name_off raw L28 H20) as NA. pose proof (provider_ok raw L28 H20 HW) as PO.
      pose proof (wname_off raw L28 H20 HW) as WN. pose proof (wdevice_off raw L28 H20 HW) as WD.
      set (o := num 4 20 raw) in *.
      assert (HWU : forall k1 k2 (mo : M (option N)) (mt : M (option text)) (b : bool) off,
        mo = ret (if b then Some off else None) ->
        (b = true -> mt = (wide_warning (dropN (o + off) raw), Ok (Some (wide_text (dropN (o + off) raw))))) ->
        does cp (event_if (negb ((if b then off else 0) =? 0)) (Says (wide_warning (dropN (o + (if b then off else 0)) raw)))) None
          (when (x <- mo ;; ret (truthyN x)) (fields [(k1, x <- mo ;; ret (POpt PN x)); (k2, t <- mt ;; ret (POpt PStr t))]))).
      { intros. eapply does_warn_if. unfold o. now apply when_wide. }
      eapply does_eq.
      { eapply (does_bind []).
        { do 5 (apply does_row0; [unfold cnrl_size, cnrl_flags, net_name_offset, device_name_offset, r_network_provider_type;
            rewrite NO, !bind_ret_l; rewrite !u32_ok by lia; rewrite !bind_ret_l; apply does_ret|]). apply does_fields. }
        intros x1. eapply (does_bind []).
        { rewrite PO. unfold when. rewrite !bind_ret_l. destruct (N.testbit _ 1); [|apply does_ret]. destruct (known_provider _); apply does_ret. }
        intros x2. eapply does_bind.
        { apply (HWU _ _ _ (net_name_unicode raw) _ _ WN).
          intros E. unfold net_name_unicode. rewrite NA, bind_ret_l. replace (num 4 (o + 8) raw <=? 20) with false by lia.
          rewrite NO, bind_ret_l, WN, E, bind_ret_l. cbn [valN]. rewrite read_unicode_field, bind_Ok. cbn. now rewrite app_nil_r. }
        intros x3. eapply does_bind.
        { apply (HWU _ _ _ (device_name_unicode raw) _ _ WD).
          intros E. unfold device_name_unicode. rewrite NA, bind_ret_l. replace (num 4 (o + 8) raw <=? 20) with false by lia.
          rewrite NO, bind_ret_l, WD, E, bind_ret_l. cbn [valN]. rewrite read_unicode_field, bind_Ok. cbn. now rewrite app_nil_r. }
        intros x4. eapply does_bind.
        { apply (name_does _ _ (num 4 (o + 8) raw <=? 20) (dropN (o + num 4 (o + 8) raw) raw)).
          unfold net_name. rewrite NA, bind_ret_l. rewrite (N.leb_antisym 20).
          destruct (20 <? num 4 (o + 8) raw) eqn:E; cbn [negb]; [reflexivity|]. rewrite NO, !bind_ret_l. reflexivity. }
        intros x5. eapply does_bind.
        { apply (name_does _ _ (num 4 (o + 8) raw <=? 20) (dropN (o + num 4 (o + 12) raw) raw)).
          unfold device_name, device_name_offset. rewrite NA, bind_ret_l. rewrite (N.leb_antisym 20).
          destruct (20 <? num 4 (o + 8) raw) eqn:E; cbn [negb]; [reflexivity|]. rewrite NO, !bind_ret_l. rewrite u32_ok by lia. rewrite bind_ret_l. reflexivity. }
        intros x6. apply does_ret. }
      cbn [app]. now rewrite !app_nil_r.
    Qed.
    Lemma info_does k : info_readable (is_network k) raw = true -> does cp (info_trace (is_network k) raw) None (info_dict cp k raw).
    Proof.
      intros HR. apply readable_parts in HR as (H28 & H36 & HP). unfold info_dict. fold (common_rows raw).
      destruct (common_there raw H28) as [d ->]. rewrite bind_ret_l.
      eapply does_eq.
      { eapply does_bind; [now apply base_does|intros x1]. eapply does_bind; [now apply suffix_does|intros x2].
        eapply does_bind; [apply wide_base_does; [assumption|intros HX; specialize (H36 HX); lia]|intros x3]. eapply does_bind; [now apply wide_suffix_does|intros x4].
        eapply does_bind; [|intros x5; apply does_ret]. instantiate (1 := if is_network k then _ else _).
        destruct k; cbn [is_network] in *; destruct HP as [HP1 HP2]; [now apply local_does|now apply network_part_does]. }
      unfold info_trace. cbv zeta. rewrite app_nil_r. reflexivity.
    Qed.
    Lemma info_does_not k : info_readable (is_network k) raw = false ->
      does cp (info_tried_trace (is_network k) raw) (Some StructError) (info_dict cp k raw).
    Proof.
      intros HR. unfold info_dict, info_tried_trace. cbv zeta. fold (common_rows raw).
      destruct (N.ltb_spec (lenN raw) 28) as [L|L].
      { rewrite common_cut by assumption. apply does_raise. }
      destruct (common_there raw L) as [d ->]. rewrite bind_ret_l.
      unfold info_readable in HR. replace (28 <=? lenN raw) with true in HR by lia. cbn [andb] in HR.
      apply does_bind; [now apply base_does|intros x1]. apply does_bind; [now apply suffix_does|intros x2].
      assert (HK : (let o := num 4 20 raw in let o' := num 4 12 raw in
        (if is_network k then (o + 20 <=? lenN raw) && (if 20 <? num 4 (o + 8) raw then o + 28 <=? lenN raw else true)
         else (o' + 16 <=? lenN raw) && (if num 4 (o' + 12) raw =? 0x14 then o' + 20 <=? lenN raw else true)) = false) ->
        does cp (event_if (is_network k && (num 4 20 raw + 24 <=? lenN raw) && (20 <? num 4 (num 4 20 raw + 8) raw)
              && negb (num 4 (num 4 20 raw + 20) raw =? 0))
             (Says (wide_warning (dropN (num 4 20 raw + num 4 (num 4 20 raw + 20) raw) raw)))) (Some StructError)
          (match k with Local => local_info_dict cp raw | Network => network_info_dict cp raw end)).
      { cbv zeta. intros HX. destruct k; cbn [is_network andb] in *.
        - rewrite local_cut by assumption. apply does_raise.
        - eapply does_warn_if_raise. now apply network_cut. }
      destruct (0x24 <=? num 4 4 raw) eqn:EH; cbn [andb] in *.
      - destruct (N.ltb_spec (lenN raw) 32) as [L1|L1].
        { rewrite wide_base_cut by lia. apply does_raise. }
        apply does_bind; [now apply wide_base_does|intros x3].
        destruct (N.ltb_spec (lenN raw) 36) as [L2|L2].
        { rewrite wide_suffix_cut by lia. apply does_raise. }
        apply does_bind; [now apply wide_suffix_does|intros x4]. replace (36 <=? lenN raw) with true in HR by lia. cbn [andb] in HR.
        apply does_stop. now apply HK.
      - apply does_bind; [apply wide_base_does; [assumption|lia]|intros x3].
        apply does_bind; [apply wide_suffix_does; [assumption|lia]|intros x4].
        apply does_stop. now apply HK.
    Qed.
  End InfoPart.

  (** ** The extra data blocks *)
  Definition caught {A} (trace : list event) (m : M A) : Prop := exists e, is_struct_or_value_error e = true /\ does cp trace (Some e) m.
  Definition ends_block {A} (o : block_end) (trace : list event) (m : M A) : Prop :=
    match o with
    | Shown => does cp trace None m
    | LeftOut => caught trace m
    | Stops e => is_struct_or_value_error e = false /\ does cp trace (Some e) m
    end.
  Lemma caught_fails {A} (m : M A) : fails m [] -> caught [] m.
  Proof. intros (e & He & ->). exists e. split; [assumption|]. apply does_raise. Qed.
  Lemma caught_stop k t m rows : caught t m -> caught t (fields ((k, m) :: rows)).
  Proof. intros (e & He & H). exists e. split; [assumption|]. now apply does_row_stop. Qed.
  Lemma caught_row k t1 t2 m rows : does cp t1 None m -> caught t2 (fields rows) -> caught (t1 ++ t2) (fields ((k, m) :: rows)).
  Proof. intros H1 (e & He & H). exists e. split; [assumption|]. now apply does_row. Qed.
  Lemma caught_row0 k t m rows v : m = ([], Ok v) -> caught t (fields rows) -> caught t (fields ((k, m) :: rows)).
  Proof. intros -> H. apply (caught_row _ [] t); [apply does_ret|assumption]. Qed.
  Lemma does_quiet k t o m v rows : m = ([], Ok v) -> does cp t o (fields rows) -> does cp t o (fields ((k, m) :: rows)).
  Proof. intros -> H. apply does_row0; [apply does_ret|assumption]. Qed.
  Lemma does_said {A} w (v : A) m : m = (w, Ok v) -> does cp [Says w] None m.
  Proof. intros ->. apply does_says. Qed.
  Lemma str_does i j raw : does cp [Reads (slice i j raw)] None (str_field cp i j raw).
  Proof. apply does_map, does_reads. Qed.

  Ltac rows_do := lazymatch goal with
    | |- does _ _ _ (fields ((_, u16_field _ _) :: _)) => eapply does_quiet; [apply u16_row; lia|]; rows_do
    | |- does _ _ _ (fields ((_, i16_field _ _) :: _)) => eapply does_quiet; [apply i16_row; lia|]; rows_do
    | |- does _ _ _ (fields ((_, u32_field _ _) :: _)) => eapply does_quiet; [apply u32_row; lia|]; rows_do
    | |- does _ _ _ (fields ((_, uuid_field _ _) :: _)) => eapply does_quiet; [apply uuid_row; lia|]; rows_do
    | |- does _ _ _ (fields []) => apply does_fields
    | _ => idtac
    end.
  Ltac rows_until := lazymatch goal with
    | |- caught _ (fields ((_, u16_field ?i ?raw) :: _)) =>
      destruct (N.lt_ge_cases (lenN raw) (i + 2)); [first [exfalso; lia | apply caught_stop, caught_fails, u16_cut; assumption]|eapply caught_row0; [apply u16_row; assumption|]; rows_until]
    | |- caught _ (fields ((_, i16_field ?i ?raw) :: _)) =>
      destruct (N.lt_ge_cases (lenN raw) (i + 2)); [first [exfalso; lia | apply caught_stop, caught_fails, i16_cut; assumption]|eapply caught_row0; [apply i16_row; assumption|]; rows_until]
    | |- caught _ (fields ((_, u32_field ?i ?raw) :: _)) =>
      destruct (N.lt_ge_cases (lenN raw) (i + 4)); [first [exfalso; lia | apply caught_stop, caught_fails, u32_cut; assumption]|eapply caught_row0; [apply u32_row; assumption|]; rows_until]
    | |- caught _ (fields ((_, uuid_field ?i ?raw) :: _)) =>
      destruct (N.lt_ge_cases (lenN raw) (i + 16)); [first [exfalso; lia | apply caught_stop, caught_fails, uuid_cut; assumption]|eapply caught_row0; [apply uuid_row; assumption|]; rows_until]
    | |- caught _ (fields []) => exfalso; lia
    | _ => idtac
    end.

  Lemma fixed_unknown sig raw : class_of_sig sig = UnknownExtra -> fixed_bytes sig = 0 /\ fixed_trace sig raw = [].
  Proof.
    intros EC. unfold fixed_trace, fixed_bytes. split; revert EC; unfold class_of_sig;
      repeat match goal with |- context [match ?p with _ => _ end] =>
        is_var p; destruct p; try reflexivity; try (intros EC; discriminate EC) end.
  Qed.
  Lemma fixed_does sig raw : 4 <= lenN raw -> sig <> 0xA0000006 -> sig <> 0xA0000009 -> sig <> 0xA000000C ->
    ends_block (if fixed_bytes sig <=? lenN raw then Shown else LeftOut) (fixed_trace sig raw) (extra_as_dict cp (Extra (class_of_sig sig) raw)).
  Proof.
    intros L4 N6 N9 NC. pose proof (class_sig sig) as HC. unfold extra_as_dict. cbn [ex_class ex_raw].
    destruct (class_of_sig sig) eqn:EC; try subst sig; try (now destruct N6); try (now destruct N9); try (now destruct NC); try contradiction;
      cbn [fixed_bytes fixed_trace];
      unfold console_dict, tracker_dict, code_page_dict, special_folder_dict, known_folder_dict, environment_dict, shim_dict, unknown_extra_dict, base_fields; cbn [app].
    1,6: replace (0 <=? lenN raw) with true by lia; cbn [ends_block]; (eapply does_quiet; [now apply size_row|]);
      apply (does_row _ [_] [_]); [apply str_does|]; apply (does_row _ [_] []); [eapply does_said, ustr_row|apply does_fields].
    - (* console *)
      destruct (N.leb_spec 144 (lenN raw)) as [HL|HL]; cbn [ends_block]; [(eapply does_quiet; [now apply size_row|])|(eapply caught_row0; [now apply size_row|])].
      + replace (44 <=? lenN raw) with true by lia. cbn [event_if]. rows_do.
        apply (does_row _ [_] []); [eapply does_said, ustr_row|]. rows_do.
      + destruct (N.leb_spec 44 (lenN raw)) as [HL2|HL2]; cbn [event_if].
        * rows_until. apply (caught_row _ [_] []); [eapply does_said, ustr_row|]. rows_until.
        * rows_until; exfalso; lia.
    - (* tracker *)
      destruct (N.leb_spec 96 (lenN raw)) as [HL|HL]; cbn [ends_block]; [(eapply does_quiet; [now apply size_row|])|(eapply caught_row0; [now apply size_row|])].
      + replace (12 <=? lenN raw) with true by lia. replace (16 <=? lenN raw) with true by lia. cbn [event_if].
        apply (does_row _ [_]); [eapply does_said, must_row; lia|]. apply (does_row _ [_]); [eapply does_said, must_row; lia|].
        apply (does_row _ [_] []); [apply str_does|]. rows_do.
      + destruct (N.leb_spec 12 (lenN raw)) as [HL2|HL2].
        * apply (caught_row _ [_]); [eapply does_said, must_row; lia|]. destruct (N.leb_spec 16 (lenN raw)) as [HL3|HL3].
          -- apply (caught_row _ [_]); [eapply does_said, must_row; lia|]. apply (caught_row _ [_] []); [apply str_does|]. rows_until.
          -- apply caught_stop, caught_fails, must_cut; lia.
        * replace (16 <=? lenN raw) with false by lia. apply caught_stop, caught_fails, must_cut; lia.
    - destruct (N.leb_spec 12 (lenN raw)) as [HL|HL]; cbn [ends_block]; [(eapply does_quiet; [now apply size_row|])|(eapply caught_row0; [now apply size_row|])].
      + rows_do.
      + rows_until.
    - destruct (N.leb_spec 16 (lenN raw)) as [HL|HL]; cbn [ends_block]; [(eapply does_quiet; [now apply size_row|])|(eapply caught_row0; [now apply size_row|])].
      + rows_do.
      + rows_until.
    - (* shim *)
      replace (0 <=? lenN raw) with true by lia; cbn [ends_block]. eapply does_quiet; [now apply size_row|].
      apply (does_row _ [_] []); [apply does_map, does_reads|apply does_fields].
    - destruct (N.leb_spec 28 (lenN raw)) as [HL|HL]; cbn [ends_block]; [(eapply does_quiet; [now apply size_row|])|(eapply caught_row0; [now apply size_row|])].
      + rows_do.
      + rows_until.
    - destruct (fixed_unknown sig raw EC) as [-> ->]. replace (0 <=? lenN raw) with true by lia; cbn [ends_block].
      eapply does_quiet; [now apply size_row|]. eapply does_quiet; [reflexivity|]. apply does_fields.
  Qed.
  Lemma later_rows k m rows w v w' r : m = (w, Ok v) -> fields ((k, m) :: rows) = (w ++ w', r) ->
    fst (fields rows) = w' /\ match r with Ok _ => exists d, snd (fields rows) = Ok d | Err e => snd (fields rows) = Err e end.
  Proof.
    intros ->. cbn [fields]. rewrite bind_Ok. destruct (fields rows) as [w2 [d|e]]; cbn [bind ret fst snd]; intros H.
    - rewrite app_nil_r in H. assert (E := f_equal fst H). assert (E2 := f_equal snd H). cbn [fst snd] in E, E2. apply app_inv_head in E. subst w2 r. eauto.
    - assert (E := f_equal fst H). assert (E2 := f_equal snd H). cbn [fst snd] in E, E2. apply app_inv_head in E. subst w2 r. auto.
  Qed.
  Definition darwin_rows (raw : bytes) : list (string * M pyval) :=
    [("darwin_data_unicode", t <- darwin_data_unicode raw ;; ret (PStr t));
     ("product_code_id", t <- product_code_id raw ;; ret (PStr t));
     ("feature_name", t <- feature_name raw ;; ret (POpt PStr t));
     ("component_id", t <- component_id raw ;; ret (POpt PStr t))]%string.
  Lemma darwin_does_any raw o w : 4 <= lenN raw ->
    darwin_dict CpNone raw = (field_warning CpNone (slice 8 268 raw) ++ w, o) ->
    does cp [Reads (slice 8 268 raw); Says w] (match o with Ok _ => None | Err e => Some e end) (darwin_dict cp raw).
  Proof.
    intros L H. unfold darwin_dict, base_fields in *. cbn [app] in *. fold (darwin_rows raw) in *.
    apply (later_rows _ _ _ [] (number_at 4 0 raw)) in H; [|now apply size_row]. destruct H as [H1 H2].
    eapply does_quiet; [now apply size_row|]. apply (does_row _ [_] [_]); [apply str_does|].
    assert (HN : usable CpNone) by discriminate.
    pose proof (str_row CpNone 8 268 raw HN) as HS.
    assert (HR : exists r, fields (("darwin_data_ansi"%string, str_field CpNone 8 268 raw) :: darwin_rows raw)
                 = (field_warning CpNone (slice 8 268 raw) ++ w, r) /\ match o with Ok _ => exists d, r = Ok d | Err e => r = Err e end).
    { exists (snd (fields (("darwin_data_ansi"%string, str_field CpNone 8 268 raw) :: darwin_rows raw))). split; [|exact H2].
      rewrite <- H1. apply surjective_pairing. }
    destruct HR as (r & HE & Hr). apply (later_rows _ _ _ _ _ _ _ HS) in HE as [E1 E2].
    rewrite (surjective_pairing (fields (darwin_rows raw))), E1. destruct o as [d|e].
    - destruct Hr as [d' ->]. destruct E2 as [d2 ->]. apply does_says.
    - subst r. rewrite E2. apply does_says_raise.
  Qed.
  Lemma block_does sig raw o trace : 4 <= lenN raw -> block_trace sig raw o trace ->
    ends_block o trace (extra_as_dict cp (Extra (class_of_sig sig) raw)).
  Proof.
    assert (HN : usable CpNone) by discriminate.
    intros L [N6 N9 NC|said -> Es HD|text said -> Et Es HD|d said -> HR|said -> HT|tr -> HE|tr -> HE|tr -> HE].
    - now apply fixed_does.
    - cbn [ends_block]. unfold extra_as_dict. cbn [class_of_sig ex_class ex_raw].
      pose proof (darwin_sound CpNone HN raw L HD) as H. unfold darwin_says in H. cbv zeta in H. rewrite <- Es in H.
      now apply darwin_does_any in H.
    - cbn [ends_block]. split; [reflexivity|]. unfold extra_as_dict. cbn [class_of_sig ex_class ex_raw].
      pose proof (darwin_fails CpNone HN raw text said L Et Es HD) as H. now apply darwin_does_any in H.
    - cbn [ends_block]. apply (proj1 (block_settles CpNone _ raw HN L)) in HR.
      change (extra_as_dict cp (Extra (class_of_sig 0xA0000009) raw)) with (extra_as_dict CpNone (Extra (class_of_sig 0xA0000009) raw)).
      now apply does_said with d.
    - cbn [ends_block]. apply (proj1 (block_tries CpNone _ raw HN L)) in HT as (x & Hx & HT).
      change (extra_as_dict cp (Extra (class_of_sig 0xA0000009) raw)) with (extra_as_dict CpNone (Extra (class_of_sig 0xA0000009) raw)).
      rewrite HT. exists x. split; [assumption|]. apply does_says_raise.
    - cbn [ends_block]. unfold extra_as_dict. cbn [class_of_sig ex_class ex_raw]. unfold shell_item_dict, base_fields. cbn [app].
      eapply does_quiet; [now apply size_row|]. rewrite <- (app_nil_r tr). apply does_row; [|apply does_fields].
      rewrite base_size_num, bind_ret_l by assumption. apply does_map. now apply entries_do.
    - cbn [ends_block]. exists StructError. split; [reflexivity|].
      unfold extra_as_dict. cbn [class_of_sig ex_class ex_raw]. unfold shell_item_dict, base_fields. cbn [app].
      eapply does_quiet; [now apply size_row|]. apply does_row_stop.
      rewrite base_size_num, bind_ret_l by assumption. apply does_stop. now apply entries_do.
    - cbn [ends_block]. split; [reflexivity|].
      unfold extra_as_dict. cbn [class_of_sig ex_class ex_raw]. unfold shell_item_dict, base_fields. cbn [app].
      eapply does_quiet; [now apply size_row|]. apply does_row_stop.
      rewrite base_size_num, bind_ret_l by assumption. apply does_stop. now apply entries_do.
  Qed.
  (** One turn of the loop over the blocks. *)
  Lemma add_does (f : dict -> dict) (m : M dict) name (res : dict) o trace : ends_block o trace m ->
    match o with
    | Shown => does cp trace None (try_except (d <- m ;; ret (f d)) is_struct_or_value_error (warn (WExtraBlock name) ;;; ret res))
    | LeftOut => does cp (trace ++ [Says [WExtraBlock name]]) None (try_except (d <- m ;; ret (f d)) is_struct_or_value_error (warn (WExtraBlock name) ;;; ret res))
    | Stops e => does cp trace (Some e) (try_except (d <- m ;; ret (f d)) is_struct_or_value_error (warn (WExtraBlock name) ;;; ret res))
    end.
  Proof.
    destruct o as [| |e]; cbn [ends_block].
    - intros (r & [v ->] & ->). rewrite run_bind, run_try by reflexivity. eexists. split; [|reflexivity]. now eexists.
    - intros (e & He & r & Hr & ->). cbn [ending] in Hr. subst r. rewrite run_bind, run_try by reflexivity. cbn [bind raise try_except]. rewrite He.
      apply does_run. apply does_said with res. reflexivity.
    - intros (He & r & Hr & ->). cbn [ending] in Hr. subst r. rewrite run_bind, run_try by reflexivity. cbn [bind raise try_except]. rewrite He.
      eexists. split; [|reflexivity]. reflexivity.
  Qed.
  Lemma blocks_do blocks o trace o2 trace2 tail : sizes_readable blocks -> blocks_trace blocks o trace ->
    (o = None -> forall res, does cp trace2 o2 (extras_loop cp res tail)) ->
    forall res, does cp (match o with None => trace ++ trace2 | Some _ => trace end) (match o with None => o2 | Some e => Some e end)
      (extras_loop cp res (map mk_block blocks ++ tail)).
  Proof.
    intros HS H HT. revert HS HT. induction H as [|sig raw rest e w HB|sig raw rest w o more HB _ IH|sig raw rest w o more HB _ IH];
      intros HS HT res; cbn [map app].
    { now apply HT. }
    all: inversion_clear HS as [|? ? L HS']; cbn [snd] in L; cbn [extras_loop]; rewrite block_of; apply block_does in HB; [|assumption].
    - apply does_stop. unfold add_block. cbn [ex_class].
      destruct (class_of_sig sig); apply (add_does _ _ _ _ (Stops e)), HB.
    - assert (HA : does cp w None (add_block cp res (Extra (class_of_sig sig) raw))).
      { unfold add_block. cbn [ex_class]. destruct (class_of_sig sig); apply (add_does _ _ _ _ Shown), HB. }
      specialize (IH HS' HT). destruct o as [e|]; [|rewrite <- app_assoc]; apply does_bind; auto.
    - assert (HA : does cp (w ++ [Says [WExtraBlock (block_name sig)]]) None (add_block cp res (Extra (class_of_sig sig) raw))).
      { rewrite <- block_name_class, sig_class_num. unfold add_block. cbn [ex_class].
        destruct (class_of_sig sig); apply (add_does _ _ _ _ LeftOut), HB. }
      specialize (IH HS' HT). change (Says [WExtraBlock (block_name sig)] :: more) with ([Says [WExtraBlock (block_name sig)]] ++ more).
      rewrite app_assoc. destruct o as [e|]; [|rewrite <- app_assoc]; apply does_bind; auto.
  Qed.
End Does.

(** ** Opened links, whatever the page *)
Lemma none_usable : usable CpNone.
Proof. discriminate. Qed.
(** What a link consists of, the strings aside. *)
Definition parts_of (b : bytes) (cp : cp_arg) (allow : bool) (l : lnk) : Prop :=
  l_cp l = cp /\ l_header l = takeN (header_len b) b
  /\ l_targets l = (if has_id_list b
                    then Some (Targets (dropN (header_len b) b) (slice 2 (num 2 (header_len b) b + 2) (dropN (header_len b) b)))
                    else None)
  /\ l_info l = (if info_processed b
                 then Some (if N.testbit (num 4 (id_list_end b + 8) b) 0 then Local else Network, dropN (id_list_end b) b)
                 else None)
  /\ exists blocks r, block_walk (dropN (string_data_end b) b) blocks r /\ l_extras l = map mk_block blocks ++ tail_blocks allow r.
Lemma opened_any b cp allow l : snd (lnk_init (FromBytes b) cp allow) = Ok l -> constructible b /\ parts_of b cp allow l.
Proof.
  assert (HK : usable cp -> snd (lnk_init (FromBytes b) cp allow) = Ok l -> constructible b /\ parts_of b cp allow l).
  { intros Hcp Hl. destruct (init_constructed b cp allow l Hcp Hl) as [HC (Lc & Lh & _ & Lt & Lf & _ & blocks & r & HW & HE & _)].
    split; [assumption|]. repeat (split; [assumption|]). eauto. }
  destruct cp as [|c|]; [apply HK; discriminate..|]. clear HK. intros Hl.
  assert (Hc := init_page _ _ _ _ Hl).
  pose proof (sm_init CpNone (FromBytes b) allow (fun l => ret (with_page CpNone l)) (fun l => ret (with_page CpNone l)) ltac:(intros; apply sm_same)) as HS.
  rewrite (surjective_pairing (lnk_init (FromBytes b) CpUnknown allow)), Hl, bind_Ok in HS. cbn [ret fst snd] in HS. rewrite app_nil_r in HS.
  destruct HS as [HS|(w & w' & r & HS & _)]; [|discriminate].
  destruct (lnk_init (FromBytes b) CpNone allow) as [w [l'|e]] eqn:E; [|discriminate]. rewrite bind_Ok in HS. cbn [ret fst snd] in HS. rewrite app_nil_r in HS.
  injection HS as _ H1 H2 H3 H4 H5 H6 H7.
  assert (Hl' : snd (lnk_init (FromBytes b) CpNone allow) = Ok l') by (now rewrite E).
  destruct (init_constructed b CpNone allow l' none_usable Hl') as [HC (Lc & Lh & _ & Lt & Lf & _ & blocks & r & HW & HE & _)].
  split; [assumption|]. unfold parts_of. rewrite H1, H3, H4, H6. repeat (split; [assumption|]). eauto.
Qed.

Section Report.
  Variables (b : bytes) (cp : cp_arg) (allow : bool) (l : lnk).
  Hypotheses (Hl : snd (lnk_init (FromBytes b) cp allow) = Ok l).

  Lemma size_of_list : has_id_list b = true -> id_list_size (dropN (header_len b) b) = ret (num 2 (header_len b) b).
  Proof.
    intros Hid. pose proof (opened_any b cp allow l Hl) as [(_ & _ & H2 & _) _]. specialize (H2 Hid).
    unfold id_list_size, unpack_u16. rewrite read_at by (rewrite ?lenN_dropN; lia). unfold num. now rewrite dropN_0.
  Qed.
  Lemma items_do o trace : items_trace b o trace ->
    does cp trace o (match l_targets l with Some t => d <- target_dict l t ;; ret [("target"%string, PDict d)] | None => ret [] end).
  Proof.
    unfold items_trace. pose proof (opened_any b cp allow l Hl) as [_ (Lc & _ & Lt & _)]. rewrite Lt.
    destruct (has_id_list b) eqn:EI; [|intros [-> ->]; apply does_ret]. intros HE.
    unfold target_dict, targets_as_list. cbn [tg_raw tg_raw_targets]. rewrite size_of_list, id_list_slice, Lc by assumption.
    apply (entries_do cp) in HE. destruct o as [e|].
    - apply does_stop. apply does_row0; [rewrite ?bind_ret_l; apply does_ret|]. apply does_row_stop. now apply does_stop.
    - apply does_map. rewrite <- (app_nil_r trace). apply does_row0; [rewrite ?bind_ret_l; apply does_ret|].
      apply does_row; [now apply does_map|]. apply does_row0; [apply does_ret|apply does_fields].
  Qed.
  Lemma info_of raw network : raw = dropN (id_list_end b) b -> network = negb (N.testbit (num 4 8 raw) 0) ->
    exists k, is_network k = network
      /\ (match l_info l with Some (k, raw) => info_dict (l_cp l) k raw | None => ret [] end)
         = if info_processed b then info_dict cp k raw else ret [].
  Proof.
    intros -> ->. pose proof (opened_any b cp allow l Hl) as [_ (Lc & _ & _ & Lf & _)]. rewrite Lf, Lc.
    exists (if N.testbit (num 4 (id_list_end b + 8) b) 0 then Local else Network). split; [|now destruct (info_processed b)].
    unfold num. rewrite dropN_dropN. now destruct (N.testbit _ 0).
  Qed.
  Lemma tail_does r res : does cp [] None (extras_loop cp res (tail_blocks allow r)).
  Proof.
    unfold tail_blocks. destruct (allow && (4 <? lenN r) && (num 4 0 r =? 0)); [|apply does_ret].
    cbn [extras_loop]. apply (does_bind cp [] []); [|intros ?; apply does_ret].
    unfold add_block. cbn [ex_class]. apply (add_does cp _ _ _ _ Shown). cbn [ends_block]. unfold extra_as_dict. cbn [ex_class ex_raw].
    unfold terminal_dict, terminal_size. do 2 (apply does_row0; [rewrite ?bind_ret_l; apply does_ret|]). apply does_fields.
  Qed.
  Lemma json_does all o trace : report_trace b o trace -> does cp trace o (get_json l all).
  Proof.
    pose proof (opened_any b cp allow l Hl) as [(C1 & C2 & _ & HS) (Lc & Lh & _ & _ & blocks & r & HW & HE)].
    assert (H24 : 24 <= lenN (takeN (header_len b) b)) by (rewrite lenN_takeN; unfold bytes in *; lia).
    rewrite get_json_middle. unfold middle_json.
    intros [h c a w -> L Rc Ra Rw|h c a w x tr -> L Rc Ra Rw HT].
    { apply does_stop, does_stop. rewrite Lh. rewrite (header_fails_here _ _ _ _ H24 Rc Ra Rw L). apply does_says_raise. }
    destruct (header_read_here _ _ _ _ L Rc Ra Rw) as [d Hd]. rewrite Lh, Hd. rewrite bind_assoc.
    change (Says ?s :: ?t) with ([Says s] ++ t). apply (does_bind cp [_]); [apply does_says|intros d']. rewrite bind_assoc.
    destruct HT as [e t1 HI|t1 raw network HI EP Er En ER|t1 raw network blocks' tail o2 t2 HI Er En HR HW' HB].
    - apply does_stop. now apply items_do.
    - apply does_bind; [now apply items_do|intros t]. rewrite bind_assoc. apply does_stop.
      destruct (info_of _ _ Er En) as (k & Ek & ->). rewrite EP, <- Ek. rewrite <- Ek in ER. now apply info_does_not.
    - apply does_bind; [now apply items_do|intros t]. rewrite bind_assoc. apply does_bind.
      + destruct (info_of _ _ Er En) as (k & Ek & ->). destruct (info_processed b); [|apply does_ret].
        specialize (HR eq_refl). rewrite <- Ek in *. now apply info_does.
      + intros i. rewrite bind_ret_l. destruct (block_walk_det _ _ _ _ _ HW HW') as [<- <-]. rewrite HE, Lc. unfold extras_as_dict.
        pose proof (blocks_do cp blocks o2 t2 None [] (tail_blocks allow r) (HS _ _ HW) HB (fun _ => tail_does r) []) as HD.
        destruct o2 as [e|]; [now apply does_stop|]. rewrite app_nil_r in HD. now apply does_map.
  Qed.
End Report.

(** ** There is always one trace *)
Lemma entries_trace_total rest o : items_outcome rest o -> exists trace, entries_trace rest o trace.
Proof.
  induction 1 as [rest H|rest H|rest e L Hn He|rest o L Hn He _ [tr IH]]; eexists.
  - now apply entries_all.
  - now apply entries_short.
  - now apply entry_unread.
  - now apply entry_then; [..|exact IH].
Qed.
Lemma entries_trace_outcome rest o trace : entries_trace rest o trace -> items_outcome rest o.
Proof.
  induction 1 as [rest H|rest H|rest e L Hn rt He|rest o tr L Hn rt He _ IH].
  - now apply items_end.
  - now apply items_cut.
  - now apply items_bad.
  - now apply items_next.
Qed.
Lemma entries_trace_one rest o trace : entries_trace rest o trace -> forall o' trace', entries_trace rest o' trace' -> o = o' /\ trace = trace'.
Proof.
  induction 1 as [rest H|rest H|rest e L Hn rt He|rest o tr L Hn rt He HX IH]; intros o' tr' H'; inversion H' as [? G|? G|? ? G1 G2 ? G3|? ? ? G1 G2 ? G3 G4]; subst; try (split; reflexivity).
  - exfalso. destruct H as [-> |[H1 H2]]; [cbn in G|]; lia.
  - exfalso. destruct H as [-> |[H1 H2]]; [cbn in G1|]; lia.
  - exfalso. destruct H as [-> |[H1 H2]]; [cbn in G1|]; lia.
  - exfalso. destruct G as [-> |[H1 H2]]; [cbn in H|]; lia.
  - exfalso. lia.
  - exfalso. lia.
  - exfalso. destruct G as [-> |[H1 H2]]; [cbn in L|]; lia.
  - exfalso. lia.
  - unfold fields, rt in *. rewrite He in G3. injection G3 as <-. now split.
  - exfalso. unfold fields, rt in *. congruence.
  - exfalso. destruct G as [-> |[H1 H2]]; [cbn in L|]; lia.
  - exfalso. lia.
  - exfalso. unfold fields, rt in *. congruence.
  - destruct (IH _ _ G4) as [<- <-]. now split.
Qed.

Lemma block_trace_total sig raw : 4 <= lenN raw -> exists o trace, block_trace sig raw o trace.
Proof.
  intros L. assert (HN : usable CpNone) by discriminate.
  destruct (N.eq_dec sig 0xA0000006) as [E6|N6].
  { destruct (short_first (wide_text (slice 268 788 raw))) as [H|[H|H]].
    - do 2 eexists. apply darwin_short; [assumption|reflexivity|reflexivity|now left].
    - do 2 eexists. now apply darwin_whole; [| |].
    - do 2 eexists. apply darwin_short; [assumption|reflexivity|reflexivity|now right]. }
  destruct (N.eq_dec sig 0xA0000009) as [E9|N9].
  { pose proof (block_settles CpNone sig raw HN L) as [_ HS]. pose proof (block_tries CpNone sig raw HN L) as [_ HT].
    destruct (block_outcome CpNone sig raw HN L) as [(e & HE & _)|[_ HC]].
    { exfalso. inversion HE; subst sig; discriminate. }
    unfold mk_block in HC. cbn [fst snd] in HC.
    subst sig. destruct (snd (extra_as_dict CpNone (Extra (class_of_sig 0xA0000009) raw))) as [d|e] eqn:Em.
    - destruct (HS d eq_refl) as (d' & w & H). do 2 eexists. now apply (store_shown _ _ d' w).
    - destruct (HT e eq_refl (HC e Em)) as (w & H). do 2 eexists. now apply (store_left_out _ _ w). }
  destruct (N.eq_dec sig 0xA000000C) as [EC|NC].
  { destruct (items_outcome_total (slice 8 (num 4 0 raw) raw)) as [o Ho].
    destruct (entries_trace_total _ _ Ho) as [tr Ht].
    destruct (items_outcome_kinds _ _ Ho) as [-> |[-> | ->]]; do 2 eexists.
    - now apply id_list_shown; [|exact Ht].
    - now apply id_list_left_out; [|exact Ht].
    - now apply id_list_stopped; [|exact Ht]. }
  do 2 eexists. now apply fixed_traced.
Qed.
Lemma block_trace_one sig raw o trace o' trace' : 4 <= lenN raw ->
  block_trace sig raw o trace -> block_trace sig raw o' trace' -> o = o' /\ trace = trace'.
Proof.
  intros L H H'. assert (HN : usable CpNone) by discriminate.
  pose proof (block_settles CpNone sig raw HN L) as [HS _]. pose proof (block_tries CpNone sig raw HN L) as [HT _].
  destruct H as [N6 N9 NC|said Es Ew HD|text said Es Et Ew HD|d said Es HR|said Es HR|tr Es HE|tr Es HE|tr Es HE];
    destruct H' as [N6' N9' NC'|said' Es' Ew' HD'|text' said' Es' Et' Ew' HD'|d' said' Es' HR'|said' Es' HR'|tr' Es' HE'|tr' Es' HE'|tr' Es' HE'];
    try contradiction; try (exfalso; congruence); subst;
    try contradiction; try (split; reflexivity); try (exfalso; discriminate);
    try (destruct (entries_trace_one _ _ _ HE _ _ HE') as [E1 ->]; discriminate E1 || now split).
  - apply HS in HR. apply HS in HR'. rewrite HR in HR'. injection HR' as -> _. now split.
  - exfalso. apply HS in HR. apply HT in HR' as (e & _ & HR'). rewrite HR in HR'. discriminate HR'.
  - exfalso. apply HS in HR'. apply HT in HR as (e & _ & HR). rewrite HR in HR'. discriminate HR'.
  - apply HT in HR as (e & _ & HR). apply HT in HR' as (e' & _ & HR'). rewrite HR in HR'. injection HR' as -> _. now split.
Qed.
Lemma blocks_trace_total blocks : sizes_readable blocks -> exists o trace, blocks_trace blocks o trace.
Proof.
  unfold sizes_readable. induction blocks as [|[sig raw] blocks IH]; intros H; [do 2 eexists; apply no_block|].
  inversion H as [|? ? L HB]; subst. cbn [snd] in L. destruct (block_trace_total sig raw L) as (oe & tr & Ht).
  destruct (IH HB) as (o & more & Hm). destruct oe as [| |e]; do 2 eexists.
  - eapply block_shown; eassumption.
  - eapply block_not_shown; eassumption.
  - eapply block_stopped; eassumption.
Qed.
Lemma blocks_trace_one blocks o trace : sizes_readable blocks -> blocks_trace blocks o trace ->
  forall o' trace', blocks_trace blocks o' trace' -> o = o' /\ trace = trace'.
Proof.
  unfold sizes_readable.
  intros L. induction 1 as [|sig raw rest e tr HB|sig raw rest tr o more HB HM IH|sig raw rest tr o more HB HM IH]; intros o' tr' H';
    inversion H' as [|? ? ? ? ? HB'|? ? ? ? ? ? HB' HM'|? ? ? ? ? ? HB' HM']; subst; try (split; reflexivity);
    inversion L as [|? ? L1 L2]; subst; cbn [snd] in L1;
    destruct (block_trace_one _ _ _ _ _ _ L1 HB HB') as [E ->]; try discriminate E.
  - injection E as ->. now split.
  - destruct (IH L2 _ _ HM') as [-> ->]. now split.
  - destruct (IH L2 _ _ HM') as [-> ->]. now split.
Qed.

Lemma items_trace_total b : exists o trace, items_trace b o trace.
Proof.
  unfold items_trace. destruct (has_id_list b); [|now exists None, []].
  destruct (items_outcome_total (id_list b)) as [o Ho]. destruct (entries_trace_total _ _ Ho) as [tr Ht]. now exists o, tr.
Qed.
Lemma items_trace_one b o trace o' trace' : items_trace b o trace -> items_trace b o' trace' -> o = o' /\ trace = trace'.
Proof.
  unfold items_trace. destruct (has_id_list b); [intros H H'; exact (entries_trace_one _ _ _ H _ _ H')|].
  now intros [-> ->] [-> ->].
Qed.
Lemma sections_trace_total b : constructible b -> exists o trace, sections_trace b o trace.
Proof.
  intros (_ & _ & _ & HS). destruct (items_trace_total b) as (o & tr & HI).
  destruct o as [e|]; [exists (Some e), tr; now apply items_stopped|].
  set (raw := dropN (id_list_end b) b). set (network := negb (N.testbit (num 4 8 raw) 0)).
  assert (HC : (info_processed b = true /\ info_readable network raw = false) \/ (info_processed b = true -> info_readable network raw = true)).
  { destruct (info_processed b), (info_readable network raw); auto; right; discriminate. }
  destruct HC as [[H1 H2]|H].
  - do 2 eexists. now apply (info_stopped b tr raw network).
  - destruct (extra_loop_walk (S (length (dropN (string_data_end b) b))) (dropN (string_data_end b) b)) as (blocks & r & HW & _); [lia|].
    destruct (blocks_trace_total blocks (HS _ _ HW)) as (o & more & HM). do 2 eexists.
    now apply (all_sections b tr raw network blocks r o more).
Qed.
Lemma sections_trace_one b o trace o' trace' : constructible b ->
  sections_trace b o trace -> sections_trace b o' trace' -> o = o' /\ trace = trace'.
Proof.
  intros (_ & _ & _ & HS).
  intros [e t1 HI|t1 raw network HI EP Er En ER|t1 raw network blocks tail o2 t2 HI Er En HR HW HB];
  intros [e' t1' HI'|t1' raw' network' HI' EP' Er' En' ER'|t1' raw' network' blocks' tail' o2' t2' HI' Er' En' HR' HW' HB'];
    destruct (items_trace_one _ _ _ _ _ HI HI') as [E ->]; try discriminate E; subst.
  - injection E as ->. now split.
  - now split.
  - exfalso. rewrite (HR' EP) in ER. discriminate ER.
  - exfalso. rewrite (HR EP') in ER'. discriminate ER'.
  - destruct (block_walk_det _ _ _ _ _ HW HW') as [-> ->].
    destruct (blocks_trace_one _ _ _ (HS _ _ HW') HB _ _ HB') as [-> ->]. now split.
Qed.
Lemma report_trace_total b : constructible b -> exists o trace, report_trace b o trace.
Proof.
  intros HC. set (h := takeN (header_len b) b).
  destruct (proj1 (time_read_total _ (signed64_fits 28 h))) as [c Rc].
  destruct (proj1 (time_read_total _ (signed64_fits 36 h))) as [a Ra].
  destruct (proj1 (time_read_total _ (signed64_fits 44 h))) as [w Rw].
  destruct (N.lt_ge_cases (lenN h) 76) as [L|L].
  - do 2 eexists. now apply (header_cut b h c a w).
  - destruct (sections_trace_total b HC) as (o & tr & HT). do 2 eexists. now apply (header_read b h c a w o tr).
Qed.
Lemma report_trace_one b o trace o' trace' : constructible b ->
  report_trace b o trace -> report_trace b o' trace' -> o = o' /\ trace = trace'.
Proof.
  intros HC [h c a w -> L Rc Ra Rw|h c a w x tr -> L Rc Ra Rw HT] [h' c' a' w' -> L' Rc' Ra' Rw'|h' c' a' w' x' tr' -> L' Rc' Ra' Rw' HT'];
    try (exfalso; lia);
    rewrite (time_read_det _ _ _ (signed64_fits _ _) Rc Rc'), (time_read_det _ _ _ (signed64_fits _ _) Ra Ra'), (time_read_det _ _ _ (signed64_fits _ _) Rw Rw').
  - now split.
  - destruct (sections_trace_one _ _ _ _ _ HC HT HT') as [-> ->]. now split.
Qed.

(** ** What follows from it *)
Lemma outcome_no_lookup b : ~ report_outcome b (Some LookupError).
Proof.
  intros H. inversion H as [|e W T HI|W I F|blocks r o W I F HW HB]; subst.
  - destruct (items_outcome_kinds _ _ HI) as [E|[E|E]]; discriminate E.
  - clear - HB. remember (Some LookupError) as o eqn:Eo. induction HB as [|? ? ? ? HE|? ? ? ? ? ? IH]; [discriminate Eo| |now apply IH].
    injection Eo as ->. inversion HE.
Qed.
Lemma unneeded_heard cp e : ~ needs_page e -> heard_at cp e = heard_at CpNone e.
Proof.
  destruct e as [w|f|f]; [reflexivity|..]; cbn [needs_page heard_at]; unfold name_warnings, field_warning, field_text;
    (destruct (before_nul f); [reflexivity|]); intros H; exfalso; apply H; discriminate.
Qed.
Lemma unneeded_all cp trace : no_page_needed trace -> heard cp trace = heard CpNone trace.
Proof.
  induction trace as [|e trace IH]; intros H; [reflexivity|]. unfold heard in *. cbn [flat_map].
  rewrite (unneeded_heard cp e) by (apply H; now left). f_equal. apply IH. intros x Hx. apply H. now right.
Qed.
Lemma blocked_iff e : blocked CpUnknown e = true <-> needs_page e.
Proof. destruct e as [w|f|f]; cbn; [easy|..]; destruct (before_nul f); cbn; split; try easy; now intros []. Qed.
Lemma run_unneeded {A} trace (m : M A) : no_page_needed trace -> run CpUnknown trace m = (heard CpNone trace ++ fst m, snd m).
Proof.
  induction trace as [|e trace IH]; intros H; [now destruct m|]. cbn [run].
  assert (He : ~ needs_page e) by (apply H; now left).
  destruct (blocked CpUnknown e) eqn:Eb; [now apply blocked_iff in Eb|].
  rewrite IH by (intros x Hx; apply H; now right). cbn [fst snd]. unfold heard. cbn [flat_map].
  rewrite (unneeded_heard CpUnknown e He). now rewrite app_assoc.
Qed.
Lemma run_stops {A} trace before (m : M A) : page_stops trace before -> run CpUnknown trace m = (heard CpNone before, Err LookupError).
Proof.
  intros (e & after & -> & He & Hb). rewrite run_app, run_unneeded by exact Hb. cbn [run].
  apply blocked_iff in He. rewrite He. cbn [raise fst snd]. now rewrite app_nil_r.
Qed.
Lemma page_or_not trace : (exists before, page_stops trace before) \/ no_page_needed trace.
Proof.
  induction trace as [|e trace IH]; [right; intros x []|].
  destruct (blocked CpUnknown e) eqn:Eb.
  - left. exists [], e, trace. split; [reflexivity|]. split; [now apply blocked_iff|intros x []].
  - assert (He : ~ needs_page e) by (intros H; apply blocked_iff in H; congruence).
    destruct IH as [(before & x & after & -> & Hx & Hb)|IH].
    + left. exists (e :: before), x, after. split; [reflexivity|]. split; [assumption|]. intros y [<-|Hy]; [assumption|now apply Hb].
    + right. intros y [<-|Hy]; [assumption|now apply IH].
Qed.
Lemma page_not_both trace before : page_stops trace before -> no_page_needed trace -> False.
Proof. intros (e & after & -> & He & _) H. apply (H e); [apply in_or_app; right; now left|assumption]. Qed.
Lemma page_stops_one trace before before' : page_stops trace before -> page_stops trace before' -> before = before'.
Proof.
  intros (e & after & -> & He & Hb) (e' & after' & E & He' & Hb'). revert before' E Hb'.
  induction before as [|x before IH]; intros [|x' before'] E Hb'; cbn [app] in E; injection E as E1 E2.
  - reflexivity.
  - exfalso. subst. now apply (Hb' x'); [left|].
  - exfalso. subst. now apply (Hb e'); [left|].
  - subst. f_equal. apply IH; [|assumption|].
    + intros y Hy. apply Hb. now right.
    + intros y Hy. apply Hb'. now right.
Qed.

Section Outcome.
  Variables (b : bytes) (cp : cp_arg) (allow : bool) (l : lnk).
  Hypothesis Hl : snd (lnk_init (FromBytes b) cp allow) = Ok l.

  Lemma trace_determined : exists o trace, report_trace b o trace
    /\ forall o' trace', report_trace b o' trace' -> o' = o /\ trace' = trace.
  Proof.
    pose proof (opened_any b cp allow l Hl) as [HC _]. destruct (report_trace_total b HC) as (o & tr & H). exists o, tr.
    split; [assumption|]. intros o' tr' H'. exact (report_trace_one _ _ _ _ _ HC H' H).
  Qed.
  Lemma trace_heard all o trace : usable cp -> report_trace b o trace ->
    fst (get_json l all) = heard cp trace
    /\ match o with None => exists d, snd (get_json l all) = Ok d | Some e => snd (get_json l all) = Err e end.
  Proof.
    intros Hcp HT. destruct (json_does b cp allow l Hl all o trace HT) as (r & Hr & ->). rewrite run_usable by assumption.
    destruct o as [e|]; [cbn [ending] in Hr; subst r|destruct Hr as [v ->]]; cbn [raise ret fst snd]; rewrite app_nil_r; split; try reflexivity.
    now exists v.
  Qed.
End Outcome.
Lemma other_page b cp allow l : snd (lnk_init (FromBytes b) CpUnknown allow) = Ok l -> exists l', snd (lnk_init (FromBytes b) cp allow) = Ok l'.
Proof. intros Hl. destruct (unknown_report _ cp _ _ true Hl) as (l' & H & _). exists l'. now rewrite H. Qed.
Lemma trace_outcome b cp allow l o trace : snd (lnk_init (FromBytes b) cp allow) = Ok l -> report_trace b o trace -> report_outcome b o.
Proof.
  intros Hl HT.
  assert (HU : exists l', snd (lnk_init (FromBytes b) CpNone allow) = Ok l').
  { destruct cp as [|c|]; [now exists l| |now apply (other_page b CpNone allow l)].
    destruct (opened_any b (CpCodec c) allow l Hl) as [HC _]. assert (Hb : b <> []) by (intros ->; discriminate Hl).
    apply (lnk_init_outcome (FromBytes b) b CpNone allow (or_introl eq_refl) Hb ltac:(discriminate)). exact HC. }
  destruct HU as [l' Hl']. assert (HN : usable CpNone) by discriminate.
  destruct (trace_heard b CpNone allow l' Hl' true o trace HN HT) as [_ H].
  destruct (report_exact_iff b CpNone allow l' true HN Hl') as [H1 H2]. destruct o as [e|]; [now apply H2|now apply H1].
Qed.

Section Unknown.
  Variables (b : bytes) (allow : bool) (l : lnk).
  Hypothesis Hl : snd (lnk_init (FromBytes b) CpUnknown allow) = Ok l.

  Lemma unknown_stops all o trace before : report_trace b o trace -> page_stops trace before ->
    get_json l all = (heard CpNone before, Err LookupError).
  Proof. intros HT HP. destruct (json_does b CpUnknown allow l Hl all o trace HT) as (r & Hr & ->). now apply run_stops. Qed.
  Lemma unknown_not_lookup all o trace : report_trace b o trace -> no_page_needed trace -> snd (get_json l all) <> Err LookupError.
  Proof.
    intros HT HP. destruct (json_does b CpUnknown allow l Hl all o trace HT) as (r & Hr & ->). rewrite run_unneeded by assumption. cbn [snd].
    pose proof (trace_outcome b CpUnknown allow l o trace Hl HT) as HO.
    destruct o as [e|]; [cbn [ending] in Hr; subst r|destruct Hr as [v ->]; discriminate].
    cbn [raise snd]. intros E. injection E as ->. now apply (outcome_no_lookup b).
  Qed.
  Lemma unknown_goes_on all o trace cp : report_trace b o trace -> no_page_needed trace ->
    exists l', snd (lnk_init (FromBytes b) cp allow) = Ok l' /\ get_json l all = get_json l' all.
  Proof.
    intros HT HP. destruct (unknown_report _ cp _ _ all Hl) as (l' & H & _ & [E|(said & more & E & _)]).
    - exists l'. now rewrite H.
    - exfalso. apply (unknown_not_lookup all o trace HT HP). now rewrite E.
  Qed.
  Lemma unknown_iff all o trace : report_trace b o trace ->
    (snd (get_json l all) = Err LookupError <-> exists before, page_stops trace before).
  Proof.
    intros HT. split.
    - intros E. destruct (page_or_not trace) as [H|H]; [assumption|]. exfalso. exact (unknown_not_lookup all o trace HT H E).
    - intros [before H]. now rewrite (unknown_stops all o trace before HT H).
  Qed.
End Unknown.

(** ** The command line *)
Section Main.
  Variables (b : bytes) (l : lnk).
  Hypothesis Hl : snd (lnk_init (FromBytes b) CpUnknown true) = Ok l.

  Lemma not_empty : b <> [].
  Proof. intros ->. discriminate Hl. Qed.
  Lemma main_opened a : a_cp a = CpUnknown ->
    main b a = bind (fst (lnk_init (FromBytes b) CpUnknown true), Ok l) (fun l =>
      if a_target a then
        out <- lnk_command l ;; ret (if a_json a then OutCommandJson (command_json out) else OutCommand out)
      else if a_json a then res <- get_json l (a_all a) ;; ret (OutJson (print_json_text res))
      else tree <- yaml_tree l (a_all a) ;; ret (OutYaml tree)).
  Proof.
    intros Ha. unfold main. rewrite Ha, (handle_bytes b CpUnknown true not_empty).
    now rewrite (surjective_pairing (lnk_init (FromBytes b) CpUnknown true)), Hl.
  Qed.
  Lemma main_stops json all o trace before : report_trace b o trace -> page_stops trace before ->
    main b (Args false json CpUnknown all) = (fst (lnk_init (FromBytes b) CpUnknown true) ++ heard CpNone before, Err LookupError).
  Proof.
    intros HT HP. rewrite main_opened by reflexivity. cbn [a_target a_json a_all]. rewrite bind_Ok.
    destruct json; [|unfold yaml_tree]; rewrite (unknown_stops b true l Hl all o trace before HT HP); reflexivity.
  Qed.
  Lemma main_goes_on target json all cp o trace : report_trace b o trace -> target = true \/ no_page_needed trace ->
    main b (Args target json CpUnknown all) = main b (Args target json cp all).
  Proof.
    intros HT HP. destruct (unknown_main b target json cp all) as [E|(said & more & E & _)]; [assumption|exfalso].
    assert (H : snd (main b (Args target json CpUnknown all)) = Err LookupError) by now rewrite E. clear E.
    rewrite main_opened in H by reflexivity. cbn [a_target a_json a_all] in H. rewrite bind_Ok in H. cbn [snd] in H.
    assert (HF : forall f, raises (fun e => e = StructError) (has_flag f (l_header l))) by (intros f; now apply r_has_flag).
    assert (HG : target = false -> snd (get_json l all) <> Err LookupError).
    { intros ->. destruct HP as [HP|HP]; [discriminate HP|]. exact (unknown_not_lookup b true l Hl all o trace HT HP). }
    destruct target; [|specialize (HG eq_refl); destruct json].
    - apply snd_bind_Err in H as [H|(? & _ & H)]; [|destruct json; discriminate].
      unfold lnk_command in H. apply snd_bind_Err in H as [H|(p & _ & H)]; [now apply HF in H|].
      apply snd_bind_Err in H as [H|(q & _ & H)].
      { destruct p; [|discriminate]. destruct (sd_get _ _); discriminate. }
      apply snd_bind_Err in H as [H|(q' & _ & H)]; [now apply HF in H|].
      destruct (all_some _); discriminate.
    - apply snd_bind_Err in H as [H|(? & _ & H)]; [contradiction|discriminate].
    - apply snd_bind_Err in H as [H|(? & _ & H)]; [|discriminate].
      unfold yaml_tree in H. apply snd_bind_Err in H as [H|(res & _ & H)]; [contradiction|].
      assert (H1 : raises (fun e => e = StructError) (format_linkFlags (l_header l)))
        by (apply raises_bind; [now apply r_r_link_flags|intros ?; apply raises_bind; [now apply r_link_flags_|intros ?; apply raises_ret]]).
      assert (H2 : raises (fun e => e = StructError) (format_fileFlags (l_header l)))
        by (apply raises_bind; [now apply raises_unpack_le|intros ?; apply raises_bind; [now apply r_file_flags_|intros ?; apply raises_ret]]).
      apply snd_bind_Err in H as [H|(f1 & _ & H)]; [now apply H1 in H|].
      apply snd_bind_Err in H as [H|(f2 & _ & H)]; [now apply H2 in H|].
      destruct (make_keys_nice _ _); try discriminate.
      destruct (dget _ _) as [[]|]; discriminate.
  Qed.
End Main.
