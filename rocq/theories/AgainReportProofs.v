(** * Calling process again: the sections of a report (C75) *)
From Verif Require Import ApiProofs ShapeProofs ReportProofs CommandProofs.
From Verif Require Import Lemmas PyTime Codec Utils Sha256 Header StringData Targets Info Extra LnkFile Json Report.
From Verif Require Import OutcomeProofs LayoutProofs CoreProofs FormatProofs EncProofs TextProofs TimeProofs HeaderProofs StringProofs.
From Verif Require Import ConstructProofs ItemProofs ExtraProofs ExtraListProofs InfoProofs InfoFileProofs HeaderFileProofs ExactProofs EntryProofs AnyBlockProofs TriedProofs DoubleProofs OrderProofs WholeProofs FailureProofs UnknownProofs.
From Verif Require Import Spec SpecText SpecHeader SpecTime SpecDouble SpecItems SpecInfo SpecExtra SpecOutcome SpecEntries SpecBlocks.
From Verif Require Import SpecWhole SpecFailure SpecTrace SpecUnknown SpecReport SpecCommand SpecReadable SpecJsonText.
From Verif Require Import ClassProofs TraceProofs AgainProofs AgainBlockProofs SpecRun Fields SpecFields Again SpecAgain.

(** ** The header *)
Lemma clsid_cut h : lenN h < 20 -> link_cls_id h = raise StructError.
Proof.
  intros L. unfold link_cls_id, must_be_text, parse_uuid. cbv zeta.
  assert (HS : lenN (slice 4 20 h) < 16) by (rewrite lenN_slice; lia).
  destruct (lenN (slice 0 8 (slice 4 20 h)) =? 8) eqn:E1; [|reflexivity]. rewrite bind_ret_l.
  rewrite (lenN_slice 8 16). replace (N.min (16 - 8) (lenN (slice 4 20 h) - 8) =? 8) with false by lia. reflexivity.
Qed.
Lemma header_section_here b w r : header_section b w r -> header_dict (takeN (header_len b) b) = (w, r).
Proof.
  intros [L|h c a m -> L Rc Ra Rm|h rest c a m HW HB Rc Ra Rm].
  - unfold header_dict. cbn [fields]. rewrite clsid_cut by (rewrite lenN_takeN; unfold bytes in *; lia). reflexivity.
  - set (h := takeN (header_len b) b) in *. destruct (N.lt_ge_cases (lenN h) 24) as [L24|L24].
    + unfold header_dict, header_tried. unfold bytes in *. replace (36 <=? lenN h) with false by lia. replace (44 <=? lenN h) with false by lia.
      replace (52 <=? lenN h) with false by lia. replace (66 <=? lenN h) with false by lia. replace (68 <=? lenN h) with false by lia.
      replace (72 <=? lenN h) with false by lia. replace (76 <=? lenN h) with false by lia. cbn [warn_if]. rewrite !app_nil_r.
      cbn [fields]. assert (EC : link_cls_id h = (must_be "link_cls_id" (text_eqb (guid_text (slice 4 20 h)) link_clsid_text), Ok (guid_text (slice 4 20 h)))).
      { unfold link_cls_id. rewrite guid_at by lia. apply must_be_text_ret. }
      rewrite EC. unfold r_link_flags, unpack_u32. rewrite cut_at by lia. cbn [bind ret raise fst snd app]. now rewrite !app_nil_r.
    + apply header_fails_here; [exact L24|exact Rc|exact Ra|exact Rm|apply L].
  - assert (FC : fits_i64 (h_ctime h)) by apply HW. assert (FA : fits_i64 (h_atime h)) by apply HW. assert (FW : fits_i64 (h_wtime h)) by apply HW.
    pose proof (proj2 (filetime_read _ _ _ FC) (conj Rc eq_refl)) as Ec. pose proof (proj2 (filetime_read _ _ _ FA) (conj Ra eq_refl)) as Ea.
    pose proof (proj2 (filetime_read _ _ _ FW) (conj Rm eq_refl)) as Em.
    assert (HLen : header_len b = h_size h) by (rewrite HB; now apply header_len_encode).
    rewrite HLen, HB. now apply hp_dict.
Qed.
Lemma header_section_total b : exists w r, header_section b w r.
Proof.
  set (h := takeN (header_len b) b). assert (EL : lenN h = N.min (header_len b) (lenN b)) by apply lenN_takeN.
  destruct (N.lt_ge_cases (lenN h) 20) as [L|L].
  { do 2 eexists. apply header_no_class. now rewrite <- EL. }
  destruct (N.lt_ge_cases (lenN h) 76) as [L76|L76].
  { destruct (read_time _ (signed64_fits 28 h)) as (c & _ & Rc). destruct (read_time _ (signed64_fits 36 h)) as (a & _ & Ra).
    destruct (read_time _ (signed64_fits 44 h)) as (m & _ & Rm). do 2 eexists.
    apply (header_cut b h c a m); [reflexivity|now split|assumption..]. }
  destruct (header_whole_encoded b ltac:(lia) ltac:(lia)) as [HW HB].
  destruct (read_time (h_ctime (header_of b)) ltac:(apply HW)) as (c & _ & Rc). destruct (read_time (h_atime (header_of b)) ltac:(apply HW)) as (a & _ & Ra).
  destruct (read_time (h_wtime (header_of b)) ltac:(apply HW)) as (m & _ & Rm). do 2 eexists.
  exact (header_whole_there b _ _ c a m HW HB Rc Ra Rm).
Qed.

(** ** The ID list *)
Definition list_rows (index : N) (t : option (targets * cp_arg)) : M dict :=
  match t with
  | Some (t, cp) =>
    d <- fields
      [("size"%string, n <- id_list_size (tg_raw t) ;; ret (PN n));
       ("items"%string, items <- targets_as_list cp t ;; ret (PList items));
       ("index"%string, ret (PN index))] ;;
    ret [("target"%string, PDict d)]
  | None => ret []
  end.
Lemma list_size_here b : header_len b + 2 <= lenN b -> id_list_size (dropN (header_len b) b) = ret (num 2 (header_len b) b).
Proof.
  intros HL. unfold id_list_size. rewrite unpack_u16_0, lenN_dropN, num_dropN, N.add_0_r.
  now replace (2 <=? lenN b - header_len b) with true by (unfold bytes in *; lia).
Qed.
Lemma list_known_here b cp w r : (has_id_list b = true -> header_len b + 2 <= lenN b) -> usable cp -> list_known b cp w r ->
  list_rows (header_len b + 2) (list_part b cp) = (w, r).
Proof.
  intros HL HU [E|items said E HE|e said E HE]; unfold list_part; rewrite E; [reflexivity|..]; specialize (HL E); cbn [list_rows];
    unfold targets_as_list; cbn [tg_raw tg_raw_targets]; rewrite id_list_slice, list_size_here by exact HL.
  - rewrite (entries_of cp HU _ _ _ HE). cbn [fields bind ret fst snd app]. now rewrite !app_nil_r.
  - rewrite (tried_of cp HU _ _ _ HE). reflexivity.
Qed.
Lemma list_known_total b cp : exists w r, list_known b cp w r.
Proof.
  destruct (has_id_list b) eqn:E; [|do 2 eexists; now apply list_absent].
  destruct (items_outcome_total (id_list b)) as [[e|] H].
  - destruct (tried_total cp _ _ _ H eq_refl) as [said HT]. do 2 eexists. exact (list_bad _ _ _ _ E HT).
  - destruct (entries_total cp _ _ H eq_refl) as (items & said & HE). do 2 eexists. exact (list_there _ _ _ _ E HE).
Qed.
Lemma list_does b cp o trace : (has_id_list b = true -> header_len b + 2 <= lenN b) -> items_trace b o trace ->
  does cp trace o (list_rows (header_len b + 2) (list_part b cp)).
Proof.
  intros HL. unfold items_trace, list_part. destruct (has_id_list b); [|intros [-> ->]; apply does_ret]. intros HE. specialize (HL eq_refl).
  cbn [list_rows]. unfold targets_as_list. cbn [tg_raw tg_raw_targets]. rewrite id_list_slice, list_size_here by exact HL.
  apply (entries_do cp) in HE. destruct o as [e|].
  - apply does_stop. apply does_row0; [rewrite ?bind_ret_l; apply does_ret|]. apply does_row_stop. now apply does_stop.
  - apply does_map. rewrite <- (app_nil_r trace). apply does_row0; [rewrite ?bind_ret_l; apply does_ret|].
    apply does_row; [now apply does_map|]. apply does_row0; [apply does_ret|apply does_fields].
Qed.
Lemma items_trace_lookup b o trace : items_trace b o trace -> o <> Some LookupError.
Proof.
  unfold items_trace. destruct (has_id_list b); [|intros [-> _]; discriminate]. intros H. apply entries_trace_outcome in H.
  destruct (items_outcome_kinds _ _ H) as [-> |[-> | ->]]; discriminate.
Qed.
Lemma list_stops b : stops_at_most (list_rows (header_len b + 2) (list_part b CpUnknown)) (list_rows (header_len b + 2) (list_part b CpNone)).
Proof.
  unfold list_part. destruct (has_id_list b); [|apply sm_same]. cbn [list_rows].
  apply sm_bind; [|intros d; apply sm_same].
  exact (sm_target_dict CpNone (Lnk CpNone [] (header_len b + 2) None None (SD [] 0) [] 0) _).
Qed.
Section AnyList.
  Variable b : bytes.
  Hypothesis HL : has_id_list b = true -> header_len b + 2 <= lenN b.
  Lemma list_kept_here cp w r : with_any_page (list_known b) (fun trace => exists o, items_trace b o trace) cp w r ->
    list_rows (header_len b + 2) (list_part b cp) = (w, r).
  Proof.
    apply (any_here (list_known b) _ (fun cp => list_rows (header_len b + 2) (list_part b cp))).
    - intros cp' w' r' H. now apply list_known_here.
    - intros trace [o H]. exists o. split; [exact (items_trace_lookup _ _ _ H)|now apply list_does].
    - apply list_stops.
  Qed.
  Lemma list_kept_total cp : exists w r, with_any_page (list_known b) (fun trace => exists o, items_trace b o trace) cp w r.
  Proof.
    apply any_total; [intros; apply list_known_total|]. destruct (items_trace_total b) as (o & trace & H). exists trace, o. exact H.
  Qed.
End AnyList.
Lemma list_section_here from index t w r : list_made from index t -> list_section from w r -> list_rows index t = (w, r).
Proof.
  intros HM H. destruct H as [|b cp said r H]; cbn [list_made] in HM.
  - rewrite HM. reflexivity.
  - destruct HM as (HL & -> & ->). now apply list_kept_here.
Qed.
Lemma list_section_total from : exists w r, list_section from w r.
Proof.
  destruct from as [[b cp]|]; [|do 2 eexists; apply list_gone].
  destruct (list_kept_total b cp) as (w & r & H). do 2 eexists. exact (list_kept b cp w r H).
Qed.

(** ** The link info *)
Definition info_rows (i : option (info_kind * bytes * cp_arg)) : M dict :=
  match i with Some (k, raw, cp) => info_dict cp k raw | None => ret [] end.
Definition kind_of (b : bytes) : info_kind := if N.testbit (num 4 (id_list_end b + 8) b) 0 then Local else Network.
Lemma kind_network b : is_network (kind_of b) = negb (N.testbit (num 4 8 (dropN (id_list_end b) b)) 0).
Proof. unfold kind_of. rewrite num_dropN. now destruct (N.testbit _ 0). Qed.
Lemma info_known_here b cp w r : usable cp -> info_known b cp w r -> info_rows (info_part b cp) = (w, r).
Proof.
  intros Hcp H. unfold info_part. fold (kind_of b). pose proof (kind_network b) as EN.
  destruct H as [E|raw network E -> -> HR|raw network E -> -> HR]; rewrite E; cbn [info_rows]; [reflexivity|..]; rewrite <- EN in *.
  - now rewrite info_dict_ok.
  - now rewrite info_fails_here.
Qed.
Lemma info_known_total b cp : exists w r, info_known b cp w r.
Proof.
  destruct (info_processed b) eqn:E; [|do 2 eexists; now apply info_absent].
  destruct (info_readable (negb (N.testbit (num 4 8 (dropN (id_list_end b) b)) 0)) (dropN (id_list_end b) b)) eqn:ER.
  - do 2 eexists. exact (info_there b cp _ _ E eq_refl eq_refl ER).
  - do 2 eexists. exact (info_bad b cp _ _ E eq_refl eq_refl ER).
Qed.
Lemma info_traced_does b cp trace : info_traced b trace -> exists o, o <> Some LookupError /\ does cp trace o (info_rows (info_part b cp)).
Proof.
  intros H. unfold info_part. fold (kind_of b). pose proof (kind_network b) as EN.
  destruct H as [E|raw network E -> ->]; rewrite E; cbn [info_rows].
  - exists None. split; [discriminate|apply does_ret].
  - rewrite <- EN. destruct (info_readable _ _) eqn:ER.
    + exists None. split; [discriminate|now apply info_does].
    + exists (Some StructError). split; [discriminate|now apply info_does_not].
Qed.
Lemma info_stops b : stops_at_most (info_rows (info_part b CpUnknown)) (info_rows (info_part b CpNone)).
Proof. unfold info_part. destruct (info_processed b); [apply sm_info|apply sm_same]. Qed.
Lemma info_section_here b cp w r : info_section b cp w r -> info_rows (info_part b cp) = (w, r).
Proof.
  apply (any_here (info_known b) _ (fun cp => info_rows (info_part b cp))).
  - intros cp' w' r' H. now apply info_known_here.
  - intros trace H. now apply info_traced_does.
  - apply info_stops.
Qed.
Lemma info_section_total b cp : exists w r, info_section b cp w r.
Proof.
  apply any_total; [intros; apply info_known_total|]. destruct (info_processed b) eqn:E.
  - eexists. exact (info_is_traced b _ _ E eq_refl eq_refl).
  - eexists. exact (info_not_traced b E).
Qed.

(** ** The strings *)
Lemma data_section_here from sd d : strings_made from sd -> data_section (fst from) (snd from) d <-> string_data_as_dict sd = d.
Proof.
  intros (found & cut & HW & HD). unfold string_data_as_dict. rewrite HD. split.
  - intros [found' e' cut' HW']. destruct (string_walk_det _ _ _ _ _ _ _ _ _ HW HW') as (<- & _ & _). reflexivity.
  - intros <-. exact (data_there _ _ _ _ _ HW).
Qed.

(** ** The blocks *)
Section AnyBlocks.
  Variables (b : bytes) (allow : bool) (found : list (string * bytes)) (cut : bool) (blocks : list (N * bytes)) (tail : bytes).
  Hypotheses (HW : string_walk b string_fields (info_end b) found (string_data_end b) cut)
    (HB : block_walk (dropN (string_data_end b) b) blocks tail).
  Lemma extra_known_here cp w r : usable cp -> extra_known b allow cp w r ->
    extras_as_dict cp (map mk_block blocks ++ tail_blocks allow tail) = (w, r).
  Proof.
    intros Hcp [found' e' cut' blocks' tail' entries said HW' HB' HR|found' e' cut' blocks' tail' entries x said HW' HB' HR];
      destruct (string_walk_det _ _ _ _ _ _ _ _ _ HW HW') as (<- & <- & <-); destruct (block_walk_det _ _ _ _ _ HB HB') as [<- <-];
      unfold extras_as_dict; change (@nil (string * pyval)) with (collect_told []); rewrite (blocks_told_here cp Hcp _ _ _ _ HR); [|reflexivity].
    rewrite tail_told. cbv zeta. cbn [fst snd ret app]. now rewrite app_nil_r.
  Qed.
  Lemma extra_known_total cp : usable cp -> exists w r, extra_known b allow cp w r.
  Proof.
    intros Hcp. destruct (blocks_told_total cp Hcp blocks) as (entries & said & [x|] & H); do 2 eexists.
    - exact (extra_bad b allow cp _ _ _ _ _ _ _ _ HW HB H).
    - exact (extra_there b allow cp _ _ _ _ _ _ _ HW HB H).
  Qed.
  Lemma extra_section_here cp w r : extra_section b allow cp w r -> extras_as_dict cp (map mk_block blocks ++ tail_blocks allow tail) = (w, r).
  Proof.
    apply (any_here (extra_known b allow) _ (fun cp => extras_as_dict cp (map mk_block blocks ++ tail_blocks allow tail))).
    - exact extra_known_here.
    - intros trace [found' e' cut' blocks' tail' o tr HW' HB' HT].
      destruct (string_walk_det _ _ _ _ _ _ _ _ _ HW HW') as (<- & <- & <-). destruct (block_walk_det _ _ _ _ _ HB HB') as [<- <-].
      exists o. split; [exact (blocks_traced_lookup _ _ _ HT)|]. unfold extras_as_dict. apply blocks_traced_do; [exact HT|].
      intros _ res. apply tail_does.
    - unfold extras_as_dict. apply sm_extras.
  Qed.
  Lemma extra_section_total cp : exists w r, extra_section b allow cp w r.
  Proof.
    apply any_total; [exact extra_known_total|]. destruct (blocks_traced_total blocks) as (o & trace & H).
    exists trace. exact (extra_is_traced b _ _ _ _ _ _ _ HW HB H).
  Qed.
End AnyBlocks.

(** ** The report *)
Lemma object_json_eq o : object_json o =
  (h <- header_dict (o_header o) ;; t <- list_rows (o_index o) (o_targets o) ;; i <- info_rows (o_info o) ;;
   e <- extras_as_dict (snd (o_extras o)) (fst (o_extras o)) ;;
   ret ([("size", PN (o_size o)); ("header", PDict h)]%string ++ t
        ++ [("link_info", PDict i); ("data", PDict (string_data_as_dict (o_strings o))); ("extra", PDict e)]%string)).
Proof. reflexivity. Qed.
Lemma size_section_det b allow n1 n2 : size_section b allow n1 -> size_section b allow n2 -> n1 = n2.
Proof.
  intros [f1 e1 c1 bl1 t1 s1 W1 B1 ->] [f2 e2 c2 bl2 t2 s2 W2 B2 ->].
  destruct (string_walk_det _ _ _ _ _ _ _ _ _ W1 W2) as (<- & <- & <-). destruct (block_walk_det _ _ _ _ _ B1 B2) as [<- <-]. reflexivity.
Qed.

Section Made.
  Variables (o : object) (g : origin).
  Hypothesis HM : made o g.

  Lemma report_here w r : report_from g w r -> object_json o = (w, r).
  Proof.
    destruct HM as [G [LH H] T I S X Z]. rewrite object_json_eq, H, I.
    intros HR.
    assert (EH : forall w r, header_section (header_from g) w r -> header_dict (takeN (header_len (header_from g)) (header_from g)) = (w, r))
      by (intros; now apply header_section_here).
    assert (EL : forall w r, list_section (list_from g) w r -> list_rows (o_index o) (o_targets o) = (w, r))
      by (intros; now apply (list_section_here (list_from g))).
    assert (EI : forall w r, info_section (fst (info_from g)) (snd (info_from g)) w r -> info_rows (info_part (fst (info_from g)) (snd (info_from g))) = (w, r))
      by (intros; now apply info_section_here).
    assert (EX : forall b cp allow w r, extras_from g = (b, cp, allow) -> extra_section b allow cp w r ->
                   extras_as_dict (snd (o_extras o)) (fst (o_extras o)) = (w, r)).
    { intros b cp allow w' r' E HX. destruct X as (found & cut & blocks & tail & HW & HB & ->). rewrite E in HW, HB |- *. cbn [fst snd] in *.
      exact (extra_section_here b allow found cut blocks tail HW HB cp w' r' HX). }
    destruct HR as [w e HH|w h w2 e HH HL|w h w2 l w3 e HH HL HI|w h w2 l w3 i w4 e b cp allow HH HL HI E HX
                   |w h w2 l w3 i d w4 x b cp allow n HH HL HI HD E HX HZ]; rewrite (EH _ _ HH); [reflexivity|..];
      rewrite (EL _ _ HL); [reflexivity|..]; rewrite (EI _ _ HI); [cbn [bind]; now rewrite <- ?app_assoc|..]; rewrite (EX _ _ _ _ _ E HX).
    - cbn [bind]. now rewrite <- ?app_assoc.
    - apply (data_section_here _ _ _ S) in HD. rewrite HD, (size_section_det _ _ _ _ Z HZ). cbn [bind ret]. now rewrite <- ?app_assoc, ?app_nil_r.
  Qed.
  Lemma report_total : exists w r, report_from g w r.
  Proof.
    destruct HM as [G [LH H] T I S X Z].
    destruct (header_section_total (header_from g)) as (w & [h|e] & HH); [|do 2 eexists; exact (fails_in_header g _ _ HH)].
    destruct (list_section_total (list_from g)) as (w2 & [l|e] & HL); [|do 2 eexists; exact (fails_in_list g _ _ _ _ HH HL)].
    destruct (info_section_total (fst (info_from g)) (snd (info_from g))) as (w3 & [i|e] & HI);
      [|do 2 eexists; exact (fails_in_info g _ _ _ _ _ _ HH HL HI)].
    assert (E : extras_from g = (fst (fst (extras_from g)), snd (fst (extras_from g)), snd (extras_from g)))
      by (now destruct (extras_from g) as [[? ?] ?]).
    destruct X as (found & cut & blocks & tail & HW & HB & _).
    destruct (extra_section_total _ (snd (extras_from g)) found cut blocks tail HW HB (snd (fst (extras_from g)))) as (w4 & [x|e] & HX);
      [|do 2 eexists; exact (fails_in_extra g _ _ _ _ _ _ _ _ _ _ _ HH HL HI E HX)].
    pose proof (proj2 (data_section_here _ _ _ S) eq_refl) as HD.
    do 2 eexists. exact (succeeds g _ _ _ _ _ _ _ _ _ _ _ _ _ HH HL HI HD E HX Z).
  Qed.

  (** *** Abridged *)
  Lemma object_pruned d : snd (object_json o) = Ok d -> PDict (prune d) = abridged left_out [] (PDict d).
  Proof.
    rewrite object_json_eq. intros H. apply snd_bind_Ok in H as (h & Hh & H).
    apply snd_bind_Ok in H as (t & Ht & H). apply snd_bind_Ok in H as (i & Hi & H).
    apply snd_bind_Ok in H as (e & He & E). injection E as <-.
    assert (EH : PDict (pop_all header_out h) = abridged left_out [Key "header"] (PDict h)).
    { apply header_entries, dict_distinct.
      exact (g_header anything any_keys (fun _ _ => Logic.I) (fun _ _ => Logic.I) (o_header o) h Hh). }
    assert (EI : PDict (prune_info i) = abridged left_out [Key "link_info"] (PDict i)).
    { destruct (o_info o) as [[[k raw] cp]|]; [exact (info_pruned _ _ _ _ Hi)|]. injection Hi as <-. reflexivity. }
    assert (ED : abridged left_out [Key "data"] (PDict (string_data_as_dict (o_strings o)))
                 = PDict (string_data_as_dict (o_strings o)))
      by (apply quiet_same, quiet_section; discriminate).
    assert (EE : abridged left_out [Key "extra"] (PDict e) = PDict e)
      by (apply quiet_same, quiet_section; discriminate).
    rewrite abridged_dict. f_equal.
    destruct (o_targets o) as [[tg cp]|].
    - cbn [list_rows] in Ht. apply snd_bind_Ok in Ht as (td & Htd & [= <-]).
      apply (target_pruned (Lnk cp [] (o_index o) None None (o_strings o) [] 0) tg) in Htd.
      cbn [app entries]. change (left_out ([] ++ [Key _])) with false. cbv iota. cbn [app].
      rewrite ED, EE, <- EI, <- EH, <- Htd. reflexivity.
    - injection Ht as <-. cbn [app entries]. change (left_out ([] ++ [Key _])) with false. cbv iota. cbn [app].
      rewrite ED, EE, <- EI, <- EH. reflexivity.
  Qed.

  (** *** The flags and the command *)
  Lemma flags_dec : flags_there (header_from g) \/ ~ flags_there (header_from g).
  Proof. unfold flags_there. unfold bytes in *. lia. Qed.
  Lemma flag_there p : flags_there (header_from g) -> has_flag (flag_of p) (o_header o) = ret (bit_set (predicate_bit p) (header_from g)).
  Proof. intros [H1 H2]. rewrite (proj2 (m_header _ _ HM)). apply has_flag_bit; [destruct p; cbn; auto 12|exact H1|exact H2]. Qed.
  Lemma flag_not_there name : ~ flags_there (header_from g) -> has_flag name (o_header o) = raise StructError.
  Proof. intros H. rewrite (proj2 (m_header _ _ HM)). apply has_flag_short. rewrite lenN_takeN. unfold flags_there in H. unfold bytes in *. lia. Qed.

  Lemma command_here found e cut : flags_there (header_from g) ->
    string_walk (fst (strings_from g)) string_fields (info_end (fst (strings_from g))) found e cut ->
    object_command o =
      match string_asked g found 3 "relative_path", string_asked g found 5 "command_line_arguments" with
      | Some None, _ | _, Some None => raise TypeError
      | p, a => ret (join (s2t " ") (match p with Some (Some p) => [list2cmdline1 p] | _ => [] end ++ match a with Some (Some a) => [a] | _ => [] end))
      end.
  Proof.
    intros HF HW. unfold object_command. change "HasRelativePath"%string with (flag_of HasRelativePath). change "HasArguments"%string with (flag_of HasArguments).
    rewrite !flag_there by exact HF. rewrite !bind_ret_l. cbn [predicate_bit].
    destruct (m_strings _ _ HM) as (found' & cut' & HW' & HD). destruct (string_walk_det _ _ _ _ _ _ _ _ _ HW HW') as (<- & _ & _).
    rewrite !(sd_get_found (fst (strings_from g)) (snd (strings_from g)) found) by exact HD. unfold string_asked.
    destruct (bit_set 3 (header_from g)), (bit_set 5 (header_from g)); cbn [app];
      destruct (text_of (fst (strings_from g)) (snd (strings_from g)) found "relative_path") as [p|],
        (text_of (fst (strings_from g)) (snd (strings_from g)) found "command_line_arguments") as [a|]; reflexivity.
  Qed.

  (** *** Every answer *)
  Definition prefixed (a : act) : M reply := fst (do_act o a).
  Lemma process_reply_det b cp w1 e1 w2 e2 : process_reply b cp w1 e1 -> process_reply b cp w2 e2 -> w1 = w2 /\ e1 = e2.
  Proof.
    intros [(E1 & -> & ->)|[N1 C1]] [(E2 & -> & ->)|[N2 C2]]; try contradiction; [now split|]. exact (construction_det _ _ _ _ _ _ C1 C2).
  Qed.
  Lemma process_answers said e : process_reply (o_indata o) (o_cp o) said e ->
    prefixed Process = (said, match e with None => Ok Nothing | Some x => Err x end).
  Proof.
    intros HR. destruct (processed_to o g HM) as (s & said' & e' & _ & HR' & HF & _). destruct (process_reply_det _ _ _ _ _ _ HR HR') as [<- <-].
    unfold prefixed. cbn [do_act]. destruct (process_again o) as [m o']. cbn [fst] in *. rewrite HF.
    destruct e; unfold fmap; cbn [bind ret]; now rewrite ?app_nil_r.
  Qed.
  Lemma answers_here a said r : answers g a said r -> prefixed a = (said, r).
  Proof.
    intros HA. pose proof (m_given _ _ HM) as G.
    destruct HA as [b|cp|allow|cp allow EG|b cp allow said EG HC|b cp allow said e EG Hb HC|all said full chosen HR HS|all said e HR|n HZ|p HF|p HF|d HD|HF
      |found e cut HF HW HN|found e cut path args c HF HW HP HA HC]; try reflexivity.
    - rewrite G in EG. injection EG as E1 E2 E3. rewrite (process_answers [] (Some LnkParserError)); [reflexivity|]. left. auto.
    - rewrite G in EG. injection EG as E1 E2 E3. rewrite (process_answers said None); [reflexivity|]. right. rewrite E1, E2.
      split; [|exact HC]. intros ->. inversion HC as [| | | | |? ? ? ? ? ? ? (_ & HR & _)]; subst. vm_compute in HR. now apply HR.
    - rewrite G in EG. injection EG as E1 E2 E3. rewrite (process_answers said (Some e)); [reflexivity|]. right. rewrite E1, E2. now split.
    - apply report_here in HR. unfold prefixed. cbn [do_act fst]. unfold fmap, object_report.
      pose proof (object_pruned full) as HD. rewrite HR in *. cbn [snd] in HD. specialize (HD eq_refl). cbn [bind ret]. rewrite !app_nil_r. do 3 f_equal.
      unfold selected in HS. destruct all; [congruence|]. rewrite <- HD in HS. congruence.
    - apply report_here in HR. unfold prefixed. cbn [do_act fst]. unfold fmap, object_report. rewrite HR. reflexivity.
    - unfold prefixed. cbn [do_act fst]. now rewrite (size_section_det _ _ _ _ HZ (m_size _ _ HM)).
    - unfold prefixed. cbn [do_act fst]. rewrite flag_there by exact HF. reflexivity.
    - unfold prefixed. cbn [do_act fst]. rewrite flag_not_there by exact HF. reflexivity.
    - unfold prefixed. cbn [do_act fst]. apply (data_section_here _ _ _ (m_strings _ _ HM)) in HD. now rewrite HD.
    - unfold prefixed. cbn [do_act fst]. unfold object_command. rewrite flag_not_there by exact HF. reflexivity.
    - unfold prefixed. cbn [do_act fst]. rewrite (command_here _ _ _ HF HW). destruct HN as [-> | ->]; [reflexivity|].
      destruct (string_asked g found 3 _) as [[p|]|]; reflexivity.
    - unfold prefixed. cbn [do_act fst]. rewrite (command_here _ _ _ HF HW), HP, HA. apply command_of_iff in HC as ->.
      destruct path, args; reflexivity.
  Qed.
  Lemma answers_total a : exists said r, answers g a said r.
  Proof.
    pose proof (m_given _ _ HM) as G. destruct a as [b|cp|allow| |all| |p| |].
    - do 2 eexists. apply answers_assign.
    - do 2 eexists. apply answers_page.
    - do 2 eexists. apply answers_allow.
    - destruct (processed_to o g HM) as (s & said & e & _ & [(E & -> & ->)|[Hb HC]] & _).
      + do 2 eexists. apply (answers_empty g (o_cp o) (o_allow o)). now rewrite G, E.
      + destruct e as [e|]; do 2 eexists; [exact (answers_process_fails g _ _ _ _ _ G Hb HC)|exact (answers_process g _ _ _ _ G HC)].
    - destruct report_total as (w & [full|e] & HR).
      + do 2 eexists. apply (answers_report g all w full (if all then full else prune full) HR). unfold selected.
        destruct all; [reflexivity|]. apply report_here in HR. apply object_pruned. now rewrite HR.
      + do 2 eexists. exact (answers_report_fails g all _ _ HR).
    - do 2 eexists. exact (answers_size g _ (m_size _ _ HM)).
    - destruct flags_dec as [H|H]; do 2 eexists; [now apply answers_flag|now apply answers_no_flag].
    - do 2 eexists. apply answers_strings. exact (proj2 (data_section_here _ _ _ (m_strings _ _ HM)) eq_refl).
    - destruct flags_dec as [H|H]; [|do 2 eexists; now apply answers_no_flags].
      destruct (m_strings _ _ HM) as (found & cut & HW & HD).
      destruct (string_asked g found 3 "relative_path") as [[p|]|] eqn:EP.
      + destruct (string_asked g found 5 "command_line_arguments") as [[a|]|] eqn:EA.
        * do 2 eexists. exact (answers_command g _ _ _ (Some p) (Some a) _ H HW EP EA (proj2 (command_of_iff _ _ _) eq_refl)).
        * do 2 eexists. apply (answers_no_string g _ _ _ H HW). now right.
        * do 2 eexists. exact (answers_command g _ _ _ (Some p) None _ H HW EP EA (proj2 (command_of_iff _ _ _) eq_refl)).
      + do 2 eexists. apply (answers_no_string g _ _ _ H HW). now left.
      + destruct (string_asked g found 5 "command_line_arguments") as [[a|]|] eqn:EA.
        * do 2 eexists. exact (answers_command g _ _ _ None (Some a) _ H HW EP EA (proj2 (command_of_iff _ _ _) eq_refl)).
        * do 2 eexists. apply (answers_no_string g _ _ _ H HW). now right.
        * do 2 eexists. exact (answers_command g _ _ _ None None _ H HW EP EA (proj2 (command_of_iff _ _ _) eq_refl)).
  Qed.
  Lemma answers_iff a said r : answers g a said r <-> fst (do_act o a) = (said, r).
  Proof.
    split; [now apply answers_here|]. intros H. destruct (answers_total a) as (said' & r' & HA).
    pose proof (answers_here a said' r' HA) as H'. unfold prefixed in H'. rewrite H in H'. injection H' as <- <-. exact HA.
  Qed.
End Made.
