(** * The LinkInfo section of a file *)
From Verif Require Import Lemmas PyTime Codec Utils Sha256 Header StringData Targets Info Extra LnkFile.
From Verif Require Import Spec SpecHeader SpecTime SpecText SpecItems SpecExtra SpecInfo.
From Verif Require Import OutcomeProofs LayoutProofs CoreProofs FormatProofs EncProofs HeaderProofs ApiProofs WarnProofs.
From Verif Require Import TextProofs ConstructProofs StringProofs ItemProofs ExtraProofs ExtraListProofs InfoProofs.

Lemma info_of_file b cp allow l d :
  usable cp -> snd (lnk_init (FromBytes b) cp allow) = Ok l -> snd (get_json l true) = Ok d ->
  let raw := dropN (id_list_end b) b in
  let network := negb (N.testbit (num 4 8 raw) 0) in
  reported_info d = Some (if info_processed b then info_entries cp network raw else [])
  /\ (info_processed b = true -> info_readable network raw = true).
Proof.
  intros Hcp Hl Hd raw network. apply init_constructed in Hl as (_ & HC); [|assumption].
  destruct HC as (EC & _ & _ & _ & EI & _). apply report_sections in Hd as (h & i & e & _ & _ & _ & HI & HL & _).
  unfold reported_info. rewrite HL. rewrite EI, EC in HI. destruct (info_processed b); [|now subst i].
  assert (EN : is_network (if N.testbit (num 4 (id_list_end b + 8) b) 0 then Local else Network) = network).
  { unfold network, raw. rewrite num_dropN. now destruct (N.testbit _ 0). }
  fold raw in HI. rewrite info_dict_snd, EN in HI by assumption.
  destruct (info_readable network raw) eqn:E; [|discriminate]. injection HI as <-. split; [reflexivity|reflexivity].
Qed.

Lemma dget_location cp network raw :
  dget "location" (info_entries cp network raw) = Some (PS (if network then "Network" else "Local"))
  /\ dget "location_info" (info_entries cp network raw) = Some (PDict (if network then network_entries cp raw else local_entries cp raw)).
Proof.
  assert (HN : forall k, k = "location"%string \/ k = "location_info"%string -> dget k (common_entries cp raw) = None).
  { intros k Hk. unfold common_entries. cbv zeta. rewrite !dget_app. unfold entry_if.
    destruct Hk as [-> | ->]; repeat destruct (negb _); reflexivity. }
  unfold info_entries. rewrite !dget_app, !HN by auto. destruct network; split; reflexivity.
Qed.

Lemma variant b cp allow l d :
  usable cp -> snd (lnk_init (FromBytes b) cp allow) = Ok l -> snd (get_json l true) = Ok d ->
  (info_processed b = false -> reported_info d = Some [])
  /\ (info_processed b = true ->
      exists i, reported_info d = Some i
      /\ dget "location" i = Some (PS (if N.testbit (num 4 (id_list_end b + 8) b) 0 then "Local" else "Network"))).
Proof.
  intros Hcp Hl Hd. destruct (info_of_file b cp allow l d Hcp Hl Hd) as [HI _]. rewrite HI.
  split; intros ->; [reflexivity|]. eexists. split; [reflexivity|]. rewrite (proj1 (dget_location _ _ _)), num_dropN.
  destruct (N.testbit (num 4 (id_list_end b + 8) b) 0); reflexivity.
Qed.

Lemma located_processed b s i loc :
  holds b (id_list_end b) s -> located s i loc -> bit_set 1 b = true -> bit_set 8 b = false ->
  info_processed b = true /\ info_end b = id_list_end b + i_size i
  /\ located (dropN (id_list_end b) b) i loc
  /\ negb (N.testbit (num 4 8 (dropN (id_list_end b) b)) 0) = is_network (kind_of loc).
Proof.
  intros HH HL B1 B8. apply holds_drop in HH as HD. destruct HD as [after HD].
  assert (HL' : located (dropN (id_list_end b) b) i loc) by (rewrite HD; now apply located_suffix).
  destruct (info_numbers _ _ (proj1 HL')) as (L28 & _ & N0 & _ & N2 & _).
  rewrite lenN_dropN in L28. rewrite num_dropN in N0, N2. rewrite N.add_0_r in N0.
  assert (HP : info_processed b = true).
  { unfold info_processed. cbv zeta. rewrite B1, B8, N2. cbn [negb andb]. replace (id_list_end b + 12 <=? lenN b) with true by lia.
    cbn [andb]. destruct HL' as [_ HL']. destruct loc; destruct HL' as [-> HL']; [reflexivity|]. destruct HL' as [-> _]. reflexivity. }
  split; [exact HP|]. split; [unfold info_end; now rewrite HP, N0|]. split; [exact HL'|].
  rewrite num_dropN, N2. destruct HL' as [_ HL']. destruct loc; destruct HL' as [-> HL']; reflexivity.
Qed.
Lemma located_reported b cp allow l d s i loc :
  usable cp -> snd (lnk_init (FromBytes b) cp allow) = Ok l -> snd (get_json l true) = Ok d ->
  bit_set 1 b = true -> bit_set 8 b = false -> holds b (id_list_end b) s -> located s i loc ->
  reported_info d = Some (location_report cp (dropN (id_list_end b) b) i loc)
  /\ info_end b = id_list_end b + i_size i.
Proof.
  intros Hcp Hl Hd B1 B8 HH HL. destruct (located_processed b s i loc HH HL B1 B8) as (HP & HE & HL' & HN).
  destruct (info_of_file b cp allow l d Hcp Hl Hd) as [HI _]. rewrite HI, HP, HN. split; [|exact HE].
  f_equal. now apply located_report.
Qed.

(** ** Provider names *)
Lemma dget_provider cp n :
  dget "network_provider_type" (network_report cp n)
  = if N.testbit (n_flags n) 1 then option_map PS (known_provider (n_provider n)) else None.
Proof.
  unfold network_report. rewrite dget_app.
  change (dget "network_provider_type" [("common_network_relative_link_size"%string, PN (n_size n)); _; _; _; _]) with (@None pyval).
  cbv iota. rewrite dget_app. destruct (n_names n) as [? name ? device|? ? wn wd]; rewrite dget_app.
  - unfold name_entry, entry_if. destruct (nonempty (field_text cp name)), (nonempty (field_text cp device));
      destruct (N.testbit (n_flags n) 1); try reflexivity; destruct (known_provider (n_provider n)); reflexivity.
  - destruct wn as [[? ?]|], wd as [[? ?]|];
      destruct (N.testbit (n_flags n) 1); try reflexivity; destruct (known_provider (n_provider n)); reflexivity.
Qed.
Lemma location_info_of cp raw i loc d : reported_info d = Some (location_report cp raw i loc) -> info_in raw i ->
  reported_location_info d = Some (match loc with LocalAt v => volume_report cp v | NetworkAt n => network_report cp n end).
Proof.
  intros H HI. unfold reported_location_info. rewrite H. unfold location_report. rewrite dget_app.
  assert (E : dget "location_info" (info_report cp raw i) = None).
  { rewrite <- (common_located cp raw i HI). unfold common_entries. cbv zeta. rewrite !dget_app. unfold entry_if.
    repeat destruct (negb _); reflexivity. }
  rewrite E. destruct loc; reflexivity.
Qed.
Lemma named_in p name : In (p, name) provider_table -> named p provider_table = Some name.
Proof.
  unfold provider_table. cbn [In]. intros H.
  repeat (destruct H as [[= <- <-]|H]; [reflexivity|]). destruct H.
Qed.
Lemma named_not_in p t : ~ In p (map fst t) -> named p t = None.
Proof.
  induction t as [|[k s] t IH]; [reflexivity|]. cbn. intros H. destruct (N.eqb_spec p k) as [->|]; [now destruct H; left|].
  apply IH. tauto.
Qed.

Lemma provider_reported b cp allow l d s i n li :
  usable cp -> snd (lnk_init (FromBytes b) cp allow) = Ok l -> snd (get_json l true) = Ok d ->
  bit_set 1 b = true -> bit_set 8 b = false -> holds b (id_list_end b) s -> located s i (NetworkAt n) ->
  reported_location_info d = Some li ->
  (N.testbit (n_flags n) 1 = false -> dget "network_provider_type" li = None)
  /\ (N.testbit (n_flags n) 1 = true ->
      (forall name, In (n_provider n, name) provider_table ->
         dget "network_provider_type" li = if letter_type (n_provider n) then None else Some (PS name))
      /\ (~ In (n_provider n) (map fst provider_table) -> dget "network_provider_type" li = None)).
Proof.
  intros Hcp Hl Hd B1 B8 HH HL HI. destruct (located_reported b cp allow l d s i _ Hcp Hl Hd B1 B8 HH HL) as [HR _].
  destruct (located_processed b s i _ HH HL B1 B8) as (_ & _ & HL' & _).
  rewrite (location_info_of _ _ _ _ _ HR (proj1 HL')) in HI. injection HI as <-.
  rewrite dget_provider. split; intros ->; [reflexivity|]. unfold known_provider. split.
  - intros name Hin. rewrite (named_in _ _ Hin). now destruct (letter_type _).
  - intros Hn. rewrite (named_not_in _ _ Hn). now destruct (letter_type _).
Qed.

(** ** The Unicode suffix *)
Lemma dget_wide_suffix cp raw i loc off body base : i_wide i = Some (base, Some (off, body)) -> info_in raw i ->
  dget "common_path_suffix_unicode" (location_report cp raw i loc) = Some (PStr (wide_text (dropN (off + 4) raw))).
Proof.
  intros HW HI. unfold location_report, info_report. rewrite HW. cbn [wide_suffix_entries].
  rewrite !dget_app.
  change (dget "common_path_suffix_unicode" [("link_info_size"%string, PN (i_size i)); _; _; _; _; _; _]) with (@None pyval).
  destruct (i_base i) as [[? ?]|], (i_suffix i) as [[? ?]|], base as [[? ?]|]; reflexivity.
Qed.
Lemma wide_text_drop4 body after : N.even (lenN body) = true -> 4 <= lenN body ->
  wide_text (dropN 4 (zstring true body ++ after)) = wide_text (dropN 4 body).
Proof.
  intros He HL. unfold zstring. rewrite <- app_assoc. rewrite dropN_app_le by assumption. cbn [app].
  unfold wide_text. rewrite before_nul_unit_cut; [reflexivity|]. rewrite lenN_dropN. apply N.even_spec in He as [k Hk].
  apply N.even_spec. exists (k - 2). lia.
Qed.
Lemma wide_suffix_reported b cp allow l d s i loc base off body li :
  usable cp -> snd (lnk_init (FromBytes b) cp allow) = Ok l -> snd (get_json l true) = Ok d ->
  bit_set 1 b = true -> bit_set 8 b = false -> holds b (id_list_end b) s -> located s i loc ->
  i_wide i = Some (base, Some (off, body)) -> 4 <= lenN body -> reported_info d = Some li ->
  dget "common_path_suffix_unicode" li = Some (PStr (wide_text (dropN 4 body))).
Proof.
  intros Hcp Hl Hd B1 B8 HH HL HW H4 HI. destruct (located_reported b cp allow l d s i _ Hcp Hl Hd B1 B8 HH HL) as [HR _].
  destruct (located_processed b s i _ HH HL B1 B8) as (_ & _ & HL' & _).
  rewrite HR in HI. injection HI as <-. rewrite (dget_wide_suffix cp _ i loc off body base HW (proj1 HL')).
  destruct (proj1 HL') as (_ & _ & _ & _ & _ & _ & _ & _ & _ & HS). rewrite HW in HS. destruct HS as [_ (_ & _ & HZ & HS)].
  rewrite N.add_0_l in HS. apply holds_drop in HS as [after HS].
  replace (dropN (off + 4) (dropN (id_list_end b) b)) with (dropN 4 (zstring true body ++ after)) by (rewrite <- HS; apply dropN_dropN).
  now rewrite wide_text_drop4 by (try assumption; apply HZ).
Qed.
Lemma utf16_bmp c t : c < 0x10000 -> utf16 (c :: t) = enc16 c ++ utf16 t.
Proof. intros H. cbn [utf16 flat_map]. unfold utf16_char. now replace (c <? 0x10000) with true by lia. Qed.
Lemma wide_suffix_loses_two b cp allow l d s i loc base off c1 c2 t li :
  usable cp -> snd (lnk_init (FromBytes b) cp allow) = Ok l -> snd (get_json l true) = Ok d ->
  bit_set 1 b = true -> bit_set 8 b = false -> holds b (id_list_end b) s -> located s i loc ->
  Forall scalar (c1 :: c2 :: t) -> no_nul (c1 :: c2 :: t) -> c1 < 0x10000 -> c2 < 0x10000 ->
  i_wide i = Some (base, Some (off, utf16 (c1 :: c2 :: t))) -> reported_info d = Some li ->
  dget "common_path_suffix_unicode" li = Some (PStr t).
Proof.
  intros Hcp Hl Hd B1 B8 HH HL HS HN H1 H2 HW HI.
  assert (E : utf16 (c1 :: c2 :: t) = (enc16 c1 ++ enc16 c2) ++ utf16 t) by (rewrite !utf16_bmp by assumption; now rewrite <- app_assoc).
  rewrite (wide_suffix_reported b cp allow l d s i loc base off (utf16 (c1 :: c2 :: t)) li); try assumption.
  - rewrite E, dropN_app_exact by reflexivity. do 2 f_equal.
    inversion HS as [|? ? _ HS1]; subst. inversion HS1 as [|? ? _ HS2]; subst.
    inversion HN as [|? ? _ HN1]; subst. inversion HN1 as [|? ? _ HN2]; subst.
    pose proof (wide_text_all t HS2 HN2) as HT. rewrite read_unicode_field in HT. now injection HT.
  - rewrite E, lenN_app. change (lenN (enc16 c1 ++ enc16 c2)) with 4. lia.
Qed.

(** ** A device name that is not there *)
Lemma holds_at_start raw at_ size rest : holds raw at_ (enc32 size ++ rest) -> size < 256 -> holds raw at_ (zstring false [n2b size]).
Proof.
  intros H Hs. unfold enc32 in H. rewrite <- app_assoc in H. apply holds_app in H as [H _]. unfold enc16 in H.
  rewrite N.div_small in H by assumption. exact H.
Qed.
Lemma absent_device b cp allow l d s i n na name li :
  usable cp -> snd (lnk_init (FromBytes b) cp allow) = Ok l -> snd (get_json l true) = Ok d ->
  bit_set 1 b = true -> bit_set 8 b = false -> holds b (id_list_end b) s -> located s i (NetworkAt n) ->
  (exists device, n_names n = PageNames na name 0 device) -> 0 < n_size n < 256 -> reported_location_info d = Some li ->
  field_text cp [n2b (n_size n)] <> [] ->
  dget "device_name" li = Some (PStr (field_text cp [n2b (n_size n)])).
Proof.
  intros Hcp Hl Hd B1 B8 HH HL [device HD] HS HI HF.
  destruct (located_reported b cp allow l d s i _ Hcp Hl Hd B1 B8 HH HL) as [HR _].
  destruct (located_processed b s i _ HH HL B1 B8) as (_ & _ & HL' & _).
  rewrite (location_info_of _ _ _ _ _ HR (proj1 HL')) in HI. injection HI as <-.
  destruct HL' as (_ & _ & _ & (_ & _ & _ & HE & HP)). unfold encode_network in HE. rewrite HD in HP.
  destruct HP as (_ & _ & _ & HZ & _ & HP). rewrite N.add_0_r in HP.
  apply holds_at_start in HE; [|lia]. apply holds_drop in HE as [a1 E1]. apply holds_drop in HP as [a2 E2].
  assert (ET : field_text cp device = field_text cp [n2b (n_size n)]).
  { assert (HZ2 : zbody false [n2b (n_size n)]).
    { cbn. intros [HX|[]]. apply (f_equal b2n) in HX. rewrite b2n_n2b, N.mod_small in HX by lia. cbn in HX. lia. }
    destruct (stored_nul false cp device a2 HZ) as [X1 _]. destruct (stored_nul false cp _ a1 HZ2) as [X2 _].
    cbn [stored_text] in X1, X2. rewrite <- X1, <- X2. congruence. }
  unfold network_report. rewrite HD. rewrite ET. unfold name_entry, entry_if.
  destruct (field_text cp [n2b (n_size n)]) as [|c t] eqn:EC; [congruence|].
  destruct (nonempty (field_text cp name)); destruct (N.testbit (n_flags n) 1); try reflexivity;
    destruct (known_provider (n_provider n)); reflexivity.
Qed.

(** ** A LinkInfo that is not processed *)
Lemma unprocessed_strings b cp allow l d found e cut :
  usable cp -> snd (lnk_init (FromBytes b) cp allow) = Ok l -> snd (get_json l true) = Ok d ->
  bit_set 8 b = true \/ N.land (num 4 (id_list_end b + 8) b) 3 = 0 ->
  string_walk b string_fields (id_list_end b) found e cut ->
  dget "data" d = Some (PDict (map (fun f => (fst f, PStr (stored_text (bit_set 7 b) cp (snd f)))) found)).
Proof.
  intros Hcp Hl Hd HB HW. assert (HE : info_end b = id_list_end b).
  { unfold info_end. replace (info_processed b) with false; [reflexivity|]. symmetry. unfold info_processed. cbv zeta.
    destruct HB as [->|HB]; [cbn [negb]; now rewrite andb_false_r|].
    assert (H0 : forall k, k < 2 -> N.testbit (num 4 (id_list_end b + 8) b) k = false).
    { intros k Hk. pose proof (f_equal (fun x => N.testbit x k) HB) as HX. cbv beta in HX. rewrite N.land_spec, N.bits_0 in HX.
      assert (N.testbit 3 k = true) by (assert (k = 0 \/ k = 1) as [-> | ->] by lia; reflexivity). rewrite H in HX. now rewrite andb_true_r in HX. }
    rewrite !H0 by lia. now rewrite !andb_false_r. }
  rewrite <- HE in HW. exact (proj1 (strings_of_file b cp allow l d found e cut Hcp Hl Hd HW)).
Qed.

(** For examples. *)
Lemma holds_by raw off piece : takeN (lenN piece) (dropN off raw) = piece -> off <= lenN raw -> holds raw off piece.
Proof.
  intros H HO. exists (takeN off raw), (dropN (lenN piece) (dropN off raw)). split.
  - rewrite <- H at 1. now rewrite !take_drop.
  - rewrite lenN_takeN. lia.
Qed.

Lemma report_independent cp raw1 raw2 i loc : (forall base s, i_wide i = Some (base, s) -> s = None) ->
  location_report cp raw1 i loc = location_report cp raw2 i loc.
Proof.
  intros H. unfold location_report, info_report. destruct (i_wide i) as [[base s]|]; [|reflexivity].
  now rewrite (H base s eq_refl).
Qed.
Lemma closed_strings b1 b2 cp allow l1 l2 d1 d2 section i loc :
  usable cp ->
  snd (lnk_init (FromBytes b1) cp allow) = Ok l1 -> snd (get_json l1 true) = Ok d1 ->
  snd (lnk_init (FromBytes b2) cp allow) = Ok l2 -> snd (get_json l2 true) = Ok d2 ->
  bit_set 1 b1 = true -> bit_set 8 b1 = false -> bit_set 1 b2 = true -> bit_set 8 b2 = false ->
  holds b1 (id_list_end b1) section -> holds b2 (id_list_end b2) section -> located section i loc ->
  (forall base s, i_wide i = Some (base, s) -> s = None) ->
  reported_info d1 = reported_info d2.
Proof.
  intros Hcp HL1 HD1 HL2 HD2 A1 A8 B1 B8 H1 H2 HL HW.
  rewrite (proj1 (located_reported b1 cp allow l1 d1 section i loc Hcp HL1 HD1 A1 A8 H1 HL)).
  rewrite (proj1 (located_reported b2 cp allow l2 d2 section i loc Hcp HL2 HD2 B1 B8 H2 HL)).
  f_equal. now apply report_independent.
Qed.
