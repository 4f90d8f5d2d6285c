(** * Whole reports (C61-C63) *)
From Verif Require Import Lemmas PyTime Codec Utils Sha256 Header StringData Targets Info Extra LnkFile.
From Verif Require Import Spec SpecText SpecHeader SpecTime SpecDouble SpecItems SpecInfo SpecExtra SpecOutcome SpecEntries SpecBlocks SpecWhole.
From Verif Require Import OutcomeProofs LayoutProofs CoreProofs FormatProofs EncProofs TextProofs TimeProofs HeaderProofs StringProofs ApiProofs.
From Verif Require Import ConstructProofs ItemProofs ExtraProofs ExtraListProofs InfoProofs InfoFileProofs HeaderFileProofs ExactProofs EntryProofs AnyBlockProofs TriedProofs DoubleProofs OrderProofs.

(** ** C61: the items *)
Lemma entries_listed_det cp rest e1 s1 e2 s2 : usable cp ->
  entries_listed cp rest e1 s1 -> entries_listed cp rest e2 s2 -> e1 = e2 /\ s1 = s2.
Proof.
  intros Hcp H1 H2. apply entries_of in H1; [|assumption]. apply entries_of in H2; [|assumption]. rewrite H1 in H2.
  injection H2 as -> H2. split; [|reflexivity]. clear H1. revert e2 H2. induction e1 as [|a e1 IH]; intros [|a2 e2] H; try discriminate H; [reflexivity|].
  injection H as <- H. f_equal. now apply IH.
Qed.

Lemma target_says b cp allow l : usable cp -> snd (lnk_init (FromBytes b) cp allow) = Ok l -> has_id_list b = true ->
  (exists td, snd (match l_targets l with Some t => target_dict l t | None => ret [] end) = Ok td) ->
  exists items said, entries_listed cp (id_list b) items said
  /\ match l_targets l with Some t => target_dict l t | None => ret [] end
     = (said, Ok [("size"%string, PN (num 2 (header_len b) b)); ("items"%string, PList (map PDict items));
                  ("index"%string, PN (header_len b + 2))]).
Proof.
  intros Hcp Hl Hid [td Htd]. apply init_constructed in Hl as [HC HL]; [|assumption].
  destruct HC as (_ & _ & H2 & _). specialize (H2 Hid).
  destruct HL as (Hc & _ & Hi & Ht & _). rewrite Hid in Ht. rewrite Ht in *. unfold target_dict in *. unfold targets_as_list in *.
  cbn [tg_raw tg_raw_targets] in *. rewrite id_list_slice, Hc, Hi in *.
  destruct (items_outcome_total (id_list b)) as [o Ho].
  apply fields_rest in Htd as (d1 & Htd). apply fields_head in Htd as (v & Htd). apply snd_bind_Ok in Htd as (its & Htd & _).
  pose proof (items_of_outcome cp Hcp _ _ Ho) as HI. destruct o as [e|]; cbn [outcome_is] in HI; [rewrite HI in Htd; discriminate Htd|].
  destruct (entries_total cp _ _ Ho eq_refl) as (items & said & HE). exists items, said. split; [assumption|].
  apply (entries_of cp) in HE; [|assumption].
  assert (HS : id_list_size (dropN (header_len b) b) = ret (num 2 (header_len b) b)).
  { unfold id_list_size, unpack_u16. rewrite read_at by (rewrite ?lenN_dropN; lia). unfold num. now rewrite dropN_0. }
  rewrite HS, HE. cbn [fields bind ret fst snd app]. rewrite !app_nil_r. reflexivity.
Qed.

Lemma items_of_file b cp allow l d : usable cp -> snd (lnk_init (FromBytes b) cp allow) = Ok l -> snd (get_json l true) = Ok d ->
  has_id_list b = true ->
  exists items said, entries_listed cp (id_list b) items said /\ reported_items d = Some (map PDict items).
Proof.
  intros Hcp Hl Hd Hid. pose proof (init_constructed b cp allow l Hcp Hl) as [HC HL].
  destruct HL as (_ & _ & _ & Ht & _). rewrite Hid in Ht.
  apply report_sections in Hd as (h & i & e & _ & _ & HT & _). rewrite Ht in HT. destruct HT as (td & HT & HG).
  destruct (target_says b cp allow l Hcp Hl Hid) as (items & said & HE & HX); [exists td; now rewrite Ht|].
  rewrite Ht, HT in HX || (rewrite Ht in HX; rewrite HX in HT). exists items, said. split; [assumption|].
  injection HT as <-. unfold reported_items, reported_target. rewrite HG. reflexivity.
Qed.

(** ** C63: everything *)
Lemma read_time t : fits_i64 t -> exists o, parse_filetime (enci64 t) = (time_said t o, Ok o) /\ time_read t o.
Proof.
  intros HF. destruct (parse_filetime_total t HF) as (w & o & E). exists o. pose proof E as E'.
  apply filetime_read in E' as [H ->]; [|assumption]. now split.
Qed.
Lemma time_read_det t o1 o2 : fits_i64 t -> time_read t o1 -> time_read t o2 -> o1 = o2.
Proof.
  intros HF H1 H2. pose proof (proj2 (filetime_read t o1 _ HF) (conj H1 eq_refl)) as E1.
  pose proof (proj2 (filetime_read t o2 _ HF) (conj H2 eq_refl)) as E2. rewrite E1 in E2. now injection E2.
Qed.
Lemma whole_reported b cp allow l d said : usable cp -> snd (lnk_init (FromBytes b) cp allow) = Ok l -> get_json l true = (said, Ok d) ->
  whole_report b cp allow d said.
Proof.
  intros Hcp Hl Hg. assert (Hd : snd (get_json l true) = Ok d) by (now rewrite Hg).
  (* header *)
  destruct (reported_whole _ _ _ _ _ _ Hl Hd) as [L1 L2]. destruct (header_whole_encoded b L1 L2) as [HW HB].
  set (h := header_of b) in *. set (rest := dropN 76 b) in *. clearbody h rest.
  destruct (read_time (h_ctime h) ltac:(apply HW)) as (c & Hc & Rc).
  destruct (read_time (h_atime h) ltac:(apply HW)) as (a & Ha & Ra).
  destruct (read_time (h_wtime h) ltac:(apply HW)) as (w & Hw & Rw).
  pose proof (init_constructed b cp allow l Hcp Hl) as [HC HL].
  destruct HL as (Lc & Lh & Li & Lt & Lf & Ls & blocks & r & HBW & HE & HSZ).
  assert (HLen : header_len b = h_size h) by (rewrite HB; now apply header_len_encode).
  assert (HH : header_dict (l_header l) = (clsid_warning h ++ time_said (h_ctime h) c ++ time_said (h_atime h) a ++ time_said (h_wtime h) w ++ size_warning h ++ reserved_warnings h, Ok (header_report h c a w))).
  { rewrite Lh, HLen, HB. now apply hp_dict. }
  (* strings *)
  destruct (construct_full b cp allow Hcp HC) as (l' & found & cut & wx & HI & HSW & HSD & _).
  rewrite HI in Hl. injection Hl as ->. assert (Hl : snd (lnk_init (FromBytes b) cp allow) = Ok l) by (now rewrite HI).
  (* the parts *)
  assert (HM := Hd). rewrite get_json_middle in HM. apply snd_bind_Ok in HM as (m & HM & HX).
  unfold middle_json in HM. apply snd_bind_Ok in HM as (h' & _ & HM). apply snd_bind_Ok in HM as (t & HT & HM).
  apply snd_bind_Ok in HM as (i & HI' & _).
  set (mt := match l_targets l with Some t => d <- target_dict l t ;; ret [("target"%string, PDict d)] | None => ret [] end) in *.
  set (mi := match l_info l with Some (k, raw) => info_dict (l_cp l) k raw | None => ret [] end) in *.
  assert (TS : exists items items_said,
    (if has_id_list b then entries_listed cp (id_list b) items items_said else items = [] /\ items_said = [])
    /\ mt = (items_said, Ok (if has_id_list b
           then [("target"%string, PDict [("size"%string, PN (num 2 (h_size h) b)); ("items"%string, PList (map PDict items));
                                   ("index"%string, PN (h_size h + 2))])]
           else []))).
  { unfold mt in *. destruct (has_id_list b) eqn:EI.
    - pose proof (target_says b cp allow l Hcp Hl EI) as HTS. rewrite Lt in *. cbv iota in HTS.
      destruct HTS as (items & isaid & HEL & HTD).
      { apply snd_bind_Ok in HT as (td & HT & _). now exists td. }
      exists items, isaid. split; [assumption|]. rewrite HTD, HLen. apply (says_ret _ (fun d => [("target"%string, PDict d)])). reflexivity.
    - rewrite Lt. exists [], []. now split. }
  destruct TS as (items & isaid & TE & TS).
  set (raw := dropN (id_list_end b) b). set (network := negb (N.testbit (num 4 8 raw) 0)).
  assert (EK : num 4 8 raw = num 4 (id_list_end b + 8) b).
  { unfold num, raw. now rewrite dropN_dropN. }
  assert (IS : mi = (if info_processed b then info_warnings cp network raw else [],
                     Ok (if info_processed b then info_entries cp network raw else []))).
  { unfold mi in *. rewrite Lf in *. destruct (info_processed b) eqn:EP; [|reflexivity]. rewrite Lc in *. fold raw in HI' |- *.
    assert (EN : is_network (if N.testbit (num 4 (id_list_end b + 8) b) 0 then Local else Network) = network).
    { unfold network. rewrite EK. now destruct (N.testbit _ 0). }
    apply info_dict_readable in HI'. rewrite (info_dict_ok cp _ raw Hcp HI'), EN. reflexivity. }
  (* blocks *)
  apply snd_bind_Ok in HX as (ed & HX & _). rewrite Lc in HX.
  pose proof (extras_of_file b cp allow l ed Hcp Hl HX) as ES. rewrite HE, !flat_map_app in ES.
  destruct (tail_settles cp allow r) as [E1 E2]. rewrite E1, E2, app_nil_r in ES. clear E1 E2.
  assert (HR : sizes_readable blocks) by (destruct HC as (_ & _ & _ & HC); now apply (HC blocks r)).
  assert (HD : Forall (decodable cp) (map mk_block blocks)).
  { apply extras_decodable in HX. rewrite HE in HX. now apply Forall_app in HX as [HX _]. }
  pose proof (blocks_settle cp blocks Hcp HR HD) as HBS.
  set (entries := flat_map (decoded cp) (map mk_block blocks)) in *. set (bsaid := flat_map (decode_warnings cp) (map mk_block blocks)) in *.
  clearbody entries bsaid.
  (* together *)
  rewrite get_json_middle in Hg. unfold middle_json in Hg. fold mt mi in Hg. rewrite HH, TS, IS, Lc in Hg. rewrite HE, ES, HSD, HSZ in Hg.
  cbn [bind ret fst snd app] in Hg. injection Hg as <- <-.
  assert (HF : whole_report b cp allow
      ([("size"%string, PN (string_data_end b + sumN (map declared blocks) + tail_size allow r + N.min 4 (lenN b - (string_data_end b + sumN (map declared blocks) + tail_size allow r))));
        ("header"%string, PDict (header_report h c a w))]
       ++ (if has_id_list b
           then [("target"%string, PDict [("size"%string, PN (num 2 (h_size h) b)); ("items"%string, PList (map PDict items));
                                   ("index"%string, PN (h_size h + 2))])]
           else [])
       ++ [("link_info"%string, PDict (if info_processed b then info_entries cp network raw else []));
           ("data"%string, PDict (map (fun f => (fst f, PStr (stored_text (bit_set 7 b) cp (snd f)))) found));
           ("extra"%string, PDict (collect (entries ++ behind_blocks allow r)))])
      (clsid_warning h ++ time_said (h_ctime h) c ++ time_said (h_atime h) a ++ time_said (h_wtime h) w ++ size_warning h ++ reserved_warnings h
       ++ isaid
       ++ (if info_processed b then info_warnings cp network raw else [])
       ++ bsaid)).
  { eapply whole with (blocks := blocks) (network := network) (info_raw := raw) (cut := cut) (terminal := tail_size allow r);
      [exact HW|exact HB|..|exact HSW|exact HBW|exact HBS| |]; try assumption; try reflexivity. }
  match goal with |- whole_report _ _ _ ?dx ?wx => match type of HF with whole_report _ _ _ ?dy ?wy =>
    replace dx with dy; [replace wx with wy; [exact HF|]|] end end.
  - rewrite <- ?app_assoc, ?app_nil_r. repeat (f_equal; []). now rewrite <- ?app_assoc, ?app_nil_r.
  - rewrite <- ?app_assoc. reflexivity.
Qed.

(** ** The specification leaves nothing open *)
Lemma app_split {A} (a1 a2 b1 b2 : list A) : lenN a1 = lenN a2 -> a1 ++ b1 = a2 ++ b2 -> a1 = a2 /\ b1 = b2.
Proof.
  revert a2; induction a1 as [|x a1 IH]; intros [|y a2] HL H; rewrite ?lenN_cons in HL; try (cbn in HL; lia); [now split|].
  injection H as <- H. destruct (IH a2 ltac:(lia) H) as [-> ->]. now split.
Qed.
Lemma ret_inj {A} (x y : A) (m : M A) : m = ret x -> m = ret y -> x = y.
Proof. intros -> H. now injection H. Qed.
Lemma header_inj h1 h2 r1 r2 : wf_header h1 -> wf_header h2 -> encode_header h1 ++ r1 = encode_header h2 ++ r2 -> h1 = h2.
Proof.
  intros (_ & A1 & A2 & A3 & A4 & A5 & A6 & A7 & A8 & A9 & A10 & A11 & A12 & A13) (_ & B1 & B2 & B3 & B4 & B5 & B6 & B7 & B8 & B9 & B10 & B11 & B12 & B13) H.
  destruct h1 as [s1 g1 f1 t1 c1 a1 w1 z1 i1 sh1 k1 m1 x1 y1 v1], h2 as [s2 g2 f2 t2 c2 a2 w2 z2 i2 sh2 k2 m2 x2 y2 v2]. unfold encode_header in H.
  cbn [h_size h_clsid h_flags h_attrs h_ctime h_atime h_wtime h_fsize h_icon h_show h_key h_mods h_res1 h_res2 h_res3] in *.
  rewrite <- !app_assoc in H.
  Ltac piece H := let E := fresh "E" in apply app_split in H as [E H]; [|reflexivity].
  piece H. apply app_split in H as [EG H]; [|congruence]. piece H. piece H. piece H. piece H. piece H. piece H. piece H. piece H.
  piece H. injection E8 as -> ->. piece H. piece H. piece H.
  repeat match goal with
  | E : enc32 ?x = enc32 ?y |- _ => assert (x = y) by (apply (ret_inj _ _ (unpack_u32 (enc32 y))); [rewrite <- E|]; now apply unpack_enc32); clear E
  | E : enc16 ?x = enc16 ?y |- _ => assert (x = y) by (apply (ret_inj _ _ (unpack_u16 (enc16 y))); [rewrite <- E|]; now apply unpack_enc16); clear E
  | E : enci64 ?x = enci64 ?y |- _ => assert (x = y) by (apply (ret_inj _ _ (unpack_i64 (enci64 y))); [rewrite <- E|]; now apply unpack_enci64); clear E
  | E : enci32 ?x = enci32 ?y |- _ => assert (x = y) by (apply (ret_inj _ _ (unpack_i32 (enci32 y))); [rewrite <- E|]; now apply unpack_enci32); clear E
  end. subst. reflexivity.
Qed.

Lemma whole_det b cp allow d1 w1 d2 w2 : usable cp -> constructible b ->
  whole_report b cp allow d1 w1 -> whole_report b cp allow d2 w2 ->
  d1 = d2 /\ w1 = w2.
Proof.
  intros Hcp HCon H1 H2. pose proof HCon as (_ & _ & _ & HC).
  destruct H1 as [h rest c a w items isaid found e cut blocks tail entries bsaid raw network terminal sections
    HW HB RC RA RW HI -> -> HS HBW HBR -> ->].
  destruct H2 as [h2 rest2 c2 a2 m2 items2 isaid2 found2 e2 cut2 blocks2 tail2 entries2 bsaid2 raw2 network2 terminal2 sections2
    HW2 HB2 RC2 RA2 RW2 HI2 -> -> HS2 HBW2 HBR2 -> ->].
  assert (h = h2) as <-. { rewrite HB in HB2. now apply (header_inj _ _ rest rest2). }
  destruct (string_walk_det _ _ _ _ _ _ _ _ _ HS HS2) as (<- & <- & <-).
  destruct (block_walk_det _ _ _ _ _ HBW HBW2) as [<- <-].
  assert (HEnd : e = string_data_end b). { destruct (construct_full b cp allow Hcp HCon) as (l' & f' & k' & wx & _ & HS' & _).
    now destruct (string_walk_det _ _ _ _ _ _ _ _ _ HS HS') as (_ & -> & _). }
  assert (entries2 = entries /\ bsaid2 = bsaid) as [-> ->]. { rewrite HEnd in HBW. apply (blocks_read_det cp blocks _ bsaid2 _ bsaid Hcp (HC _ _ HBW)); assumption. }
  assert (items2 = items /\ isaid2 = isaid) as [-> ->].
  { destruct (has_id_list b); [now apply (entries_listed_det cp (id_list b))|]. destruct HI as [-> ->], HI2 as [-> ->]. now split. }
  assert (FC : fits_i64 (h_ctime h)) by apply HW. assert (FA : fits_i64 (h_atime h)) by apply HW. assert (FW : fits_i64 (h_wtime h)) by apply HW.
  rewrite (time_read_det _ _ _ FC RC RC2), (time_read_det _ _ _ FA RA RA2), (time_read_det _ _ _ FW RW RW2).
  now split.
Qed.

(** ** C64: times *)
Lemma time_read_total t : fits_i64 t ->
  (exists shown, time_read t shown) /\ forall shown1 shown2, time_read t shown1 -> time_read t shown2 -> shown1 = shown2.
Proof. intros F. split; [destruct (read_time t F) as (o & _ & H); now exists o|]. intros s1 s2. now apply time_read_det. Qed.
Lemma filetime_order t1 t2 dt1 dt2 w1 w2 : fits_i64 t1 -> fits_i64 t2 -> (t1 <= t2)%Z ->
  parse_filetime (enci64 t1) = (w1, Ok (Some dt1)) -> parse_filetime (enci64 t2) = (w2, Ok (Some dt2)) ->
  (microseconds dt1 <= microseconds dt2)%Z.
Proof.
  intros F1 F2 H E1 E2. apply filetime_read in E1 as [E1 _]; [|assumption]. apply filetime_read in E2 as [E2 _]; [|assumption].
  exact (time_read_mono _ _ _ _ H E1 E2).
Qed.
Lemma filetime_no_gaps t1 t t2 dt1 dt2 w1 w2 : fits_i64 t1 -> fits_i64 t2 -> (t1 <= t <= t2)%Z -> t <> 0%Z ->
  parse_filetime (enci64 t1) = (w1, Ok (Some dt1)) -> parse_filetime (enci64 t2) = (w2, Ok (Some dt2)) ->
  exists dt, parse_filetime (enci64 t) = ([], Ok (Some dt)).
Proof.
  intros F1 F2 H H0 E1 E2. apply filetime_read in E1 as [E1 _]; [|assumption]. apply filetime_read in E2 as [E2 _]; [|assumption].
  assert (F : fits_i64 t) by (unfold fits_i64 in *; lia). destruct (read_time t F) as (o & E & HR).
  pose proof (time_read_between _ _ _ _ _ _ H H0 E1 E2 HR) as HN. destruct o as [dt|]; [|now destruct HN]. now exists dt.
Qed.
Lemma header_times b cp allow l d : usable cp -> snd (lnk_init (FromBytes b) cp allow) = Ok l -> snd (get_json l true) = Ok d ->
  exists h rest created accessed written,
    wf_header h /\ b = encode_header h ++ rest
    /\ time_read (h_ctime h) created /\ time_read (h_atime h) accessed /\ time_read (h_wtime h) written
    /\ dget "header" d = Some (PDict (header_report h created accessed written))
    /\ forall c w, created = Some c -> written = Some w ->
         ((h_ctime h <= h_wtime h)%Z -> (microseconds c <= microseconds w)%Z)
         /\ ((h_wtime h <= h_ctime h)%Z -> (microseconds w <= microseconds c)%Z).
Proof.
  intros Hcp Hl Hd. destruct (get_json l true) as [said r] eqn:Hg. cbn [snd] in Hd. subst r.
  apply (whole_reported b cp allow) in Hg; [|assumption..].
  destruct Hg as [h rest c a w items isaid found e cut blocks tail entries bsaid raw network terminal sections HW HB RC RA RW _ _ _ _ _ _ _ _].
  exists h, rest, c, a, w. repeat (split; [assumption|]). split; [reflexivity|].
  intros c' w' -> ->. split; intros H; [exact (time_read_mono _ _ _ _ H RC RW)|exact (time_read_mono _ _ _ _ H RW RC)].
Qed.
