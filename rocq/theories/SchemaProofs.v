(** * Every report follows the schema (property C85) *)
From Verif Require Import ApiProofs ShapeProofs ReportProofs CommandProofs ReadableProofs MainProofs ClassProofs.
From Verif Require Import Lemmas Codec Utils Sha256 Header StringData Targets Info Extra LnkFile Json Report.
From Verif Require Import Spec SpecText SpecTime SpecReport SpecDouble SpecItems SpecInfo SpecHeader SpecExtra SpecOutcome SpecEntries SpecBlocks SpecWhole.
From Verif Require Import FormatProofs LayoutProofs ExtraFileProofs ExtraListProofs AnyBlockProofs WholeProofs PrintedProofs ExtraProofs SpecSchema.

(** ** Rows *)
Lemma r_always key k rows v d : conforms k v -> rows_conform rows d -> rows_conform (always key k :: rows) ((key, v) :: d).
Proof. intros H1 H2. change ((key, v) :: d) with ([(key, v)] ++ d). apply row_there; [discriminate| |exact H2]. constructor; [exact H1|constructor]. Qed.
Lemma r_full key k rows v d : conforms k v -> rows_conform rows d -> rows_conform (only_if true key k :: rows) ((key, v) :: d).
Proof. exact (r_always key k rows v d). Qed.
Lemma r_row row rows b d1 d2 : (b = true -> row_conforms row d1) -> rows_conform rows d2 ->
  rows_conform ((Sometimes, row) :: rows) (entry_if b d1 ++ d2).
Proof.
  intros H1 H2. destruct b; cbn [entry_if app].
  - apply row_there; [discriminate|now apply H1|exact H2].
  - apply row_not_there; [discriminate|exact H2].
Qed.
Lemma r_last row rows b d1 : (b = true -> row_conforms row d1) -> rows_conform rows [] ->
  rows_conform ((Sometimes, row) :: rows) (entry_if b d1).
Proof. intros H1 H2. rewrite <- (app_nil_r (entry_if b d1)). now apply r_row. Qed.
Lemma r_nothing p row rows d : p <> Always -> rows_conform rows d -> rows_conform ((p, row) :: rows) d.
Proof. apply row_not_there. Qed.
Lemma all_dicts k l : Forall (fun d => conforms k (PDict d)) l -> all_conform k (map PDict l).
Proof. induction 1; cbn [map]; constructor; assumption. Qed.
Lemma all_forall k l : all_conform k l <-> Forall (conforms k) l.
Proof.
  split; [induction l as [|v l IH]; intros H; inversion H; subst; constructor; [assumption|now apply IH]|induction 1; constructor; assumption].
Qed.

(** ** Leaves *)
Lemma c_num low high n : (low <= Z.of_N n < high)%Z -> conforms (Number low high) (PN n).
Proof. apply is_number. Qed.
Lemma c_byte i b : conforms byte_ (PN (num 1 i b)).
Proof. apply c_num. pose proof (LayoutProofs.num_lt 1 i b). change (256 ^ 1) with 256 in *. lia. Qed.
Lemma c_word i b : conforms word (PN (num 2 i b)).
Proof. apply c_num. pose proof (LayoutProofs.num_lt 2 i b). change (256 ^ 2) with 65536 in *. lia. Qed.
Lemma num4 i b : num 4 i b < 4294967296.
Proof. exact (LayoutProofs.num_lt 4 i b). Qed.
Lemma c_dword i b : conforms dword (PN (num 4 i b)).
Proof. apply c_num. pose proof (num4 i b). lia. Qed.
Lemma c_offset n : negb (n =? 0) = true -> n < 4294967296 -> conforms offset (PN n).
Proof. intros H1 H2. apply c_num. apply Bool.negb_true_iff, N.eqb_neq in H1. lia. Qed.
Lemma c_dword_of n : n < 4294967296 -> conforms dword (PN n).
Proof. intros H. apply c_num. lia. Qed.
Lemma c_short i b : conforms SpecSchema.short (integer_at i b).
Proof.
  apply is_number. unfold signed. change (2 ^ (16 - 1)) with 32768. change (2 ^ 16) with 65536.
  pose proof (LayoutProofs.num_lt 2 i b). change (256 ^ 2) with 65536 in *. destruct (_ <? _) eqn:E; lia.
Qed.
Lemma c_any t : conforms any (PStr t).
Proof. now apply is_text. Qed.
Lemma c_named names s : In s names -> conforms (SpecSchema.named names) (PS s).
Proof. intros H. apply is_text. now apply in_map. Qed.
Lemma c_maybe {A} k (f : A -> pyval) o : (forall a, o = Some a -> conforms k (f a)) -> conforms (maybe k) (POpt f o).
Proof.
  intros H. destruct o as [a|]; cbn [POpt].
  - apply (is_one_of _ k); [right; now left|now apply H].
  - apply (is_one_of _ Null); [now left|constructor].
Qed.
Lemma c_null k : conforms (maybe k) PNone.
Proof. apply (is_one_of _ Null); [now left|constructor]. Qed.
Lemma c_some k v : conforms k v -> conforms (maybe k) v.
Proof. intros H. apply (is_one_of _ k); [right; now left|exact H]. Qed.

Lemma hex_upper b : Forall (fun c => In c upper) (hex_of_byte b).
Proof.
  unfold hex_of_byte. assert (H : forall n, n < 16 -> In (nth (N.to_nat n) hex_table 0) upper).
  { intros n Hn. apply nth_In. change (length upper) with 16%nat. lia. }
  pose proof (b2n_lt b). constructor; [apply H, N.div_lt_upper_bound; lia|]. constructor; [apply H, N.mod_lt; discriminate|constructor].
Qed.
Lemma hexes_upper l : of_length (2 * lenN l) upper (flat_map hex_of_byte l).
Proof.
  induction l as [|b l [I1 I2]]; [split; [reflexivity|constructor]|]. cbn [flat_map]. split.
  - rewrite lenN_app, I1. change (lenN (hex_of_byte b)) with 2. rewrite lenN_cons. lia.
  - apply Forall_app. split; [apply hex_upper|exact I2].
Qed.
Lemma guid_dashed g : lenN g = 16 -> dashed upper (guid_text g).
Proof.
  intros H. apply sixteen in H as (b0 & b1 & b2 & b3 & b4 & b5 & b6 & b7 & b8 & b9 & b10 & b11 & b12 & b13 & b14 & b15 & ->).
  cbn [guid_text].
  exists (flat_map hex_of_byte [b3; b2; b1; b0]), (flat_map hex_of_byte [b5; b4]), (flat_map hex_of_byte [b7; b6]),
    (flat_map hex_of_byte [b8; b9]), (flat_map hex_of_byte [b10; b11; b12; b13; b14; b15]).
  split; [reflexivity|]. split; [exact (hexes_upper [b3; b2; b1; b0])|]. split; [exact (hexes_upper [b5; b4])|].
  split; [exact (hexes_upper [b7; b6])|]. split; [exact (hexes_upper [b8; b9])|exact (hexes_upper [b10; b11; b12; b13; b14; b15])].
Qed.
Lemma c_guid g : lenN g = 16 -> conforms guid (PStr (guid_text g)).
Proof. intros H. apply is_text. now apply guid_dashed. Qed.
Lemma lower_digit c : lower_hex_digit c -> In c lower.
Proof.
  intros H. assert (G : In (N.to_nat c) (map N.to_nat lower)).
  { assert (E : c = 48 \/ c = 49 \/ c = 50 \/ c = 51 \/ c = 52 \/ c = 53 \/ c = 54 \/ c = 55 \/ c = 56 \/ c = 57
                \/ c = 97 \/ c = 98 \/ c = 99 \/ c = 100 \/ c = 101 \/ c = 102) by (unfold lower_hex_digit in H; lia).
    repeat (destruct E as [->|E]; [vm_compute; tauto|]). subst. vm_compute. tauto. }
  apply in_map_iff in G as (x & E & G). apply N2Nat.inj in E as <-. exact G.
Qed.
Lemma c_digest m : conforms SpecSchema.digest (PStr (sha256_hex m)).
Proof.
  apply is_text. destruct (sha_hex_form m) as [H1 H2]. split; [unfold lenN; now rewrite H1|].
  eapply Forall_impl; [|exact H2]. exact lower_digit.
Qed.
Lemma hexx1_form n : n < 4294967296 -> 1 <= lenN (hexx 1 n) <= 8 /\ Forall (fun c => In c lower) (hexx 1 n).
Proof.
  intros H. unfold hexx, pad0.
  assert (D : Forall (fun d => d < 16) (digits 16 n)) by (apply digits_aux_lt; [reflexivity|constructor]).
  assert (L : (1 <= length (digits 16 n) <= 8)%nat).
  { unfold digits.
    assert (G : forall fuel m acc k, m < 16 ^ N.of_nat k -> (0 < k)%nat -> (length (digits_aux 16 fuel m acc) <= length acc + k)%nat).
    { induction fuel as [|fuel IH]; intros m acc k Hm Hk; cbn [digits_aux]; [lia|].
      destruct (m <? 16) eqn:E16; [cbn [length]; lia|].
      destruct k as [|k]; [lia|]. destruct k as [|k].
      - change (16 ^ N.of_nat 1) with 16 in Hm. lia.
      - rewrite IH with (k := S k); [cbn [length]; lia| |lia].
        apply N.div_lt_upper_bound; [discriminate|]. rewrite Nnat.Nat2N.inj_succ, N.pow_succ_r' in Hm. exact Hm. }
    assert (M : forall fuel m acc, (length acc <= length (digits_aux 16 fuel m acc))%nat).
    { induction fuel as [|fuel IH]; intros m acc; cbn [digits_aux]; [lia|]. destruct (m <? 16); [cbn [length]; lia|].
      specialize (IH (m / 16) (m mod 16 :: acc)). cbn [length] in IH. lia. }
    split; [|exact (G _ n [] 8%nat H ltac:(lia))].
    cbn [digits_aux]. destruct (n <? 16); [cbn [length]; lia|]. specialize (M (N.size_nat n) (n / 16) [n mod 16]). exact M. }
  rewrite map_length. replace (1 - length (digits 16 n))%nat with 0%nat by lia. cbn [repeat app].
  split; [unfold lenN; rewrite map_length; lia|]. rewrite Forall_map. eapply Forall_impl; [|exact D].
  intros d Hd. cbn beta in Hd. apply lower_digit. unfold digit_char, lower_hex_digit. destruct (d <? 10) eqn:E; lia.
Qed.
Lemma c_hex n : n < 4294967296 -> conforms (hex_number lower 1 8) (PStr (hex_text n)).
Proof.
  intros H. destruct (hexx1_form n H) as [H1 H2]. apply is_text. exists (lenN (hexx 1 n)), (hexx 1 n).
  split; [reflexivity|]. split; [exact H1|]. now split.
Qed.
Lemma c_hex32 n : conforms (hex_number upper 8 8) (PStr (hex32 n)).
Proof. apply is_text. exists 8, (flat_map hex_of_byte (rev (enc32 n))). split; [reflexivity|]. split; [lia|]. exact (hexes_upper (rev (enc32 n))). Qed.
Lemma c_hex_digit n : n < 16 -> conforms (hex_number lower 1 1) (PStr (hex_digit_of n)).
Proof.
  intros H. apply is_text. exists 1, [nth (N.to_nat n) hex_lower 0]. split; [reflexivity|]. split; [lia|].
  split; [reflexivity|]. constructor; [|constructor]. apply nth_In. change (length lower) with 16%nat. lia.
Qed.

(** ** The header *)
Lemma c_time t o : time_read t o -> conforms (maybe Time) (POpt PDate o).
Proof. intros H. apply c_maybe. intros a ->. apply is_time. apply H. Qed.
Lemma some_bits names : forall i n, some_of names (set_bits i names n).
Proof.
  induction names as [|s names IH]; intros i n; cbn [set_bits]; [constructor|].
  destruct (N.testbit n i); cbn [app]; constructor; apply IH.
Qed.
Lemma low_hex_form b : of_length 2 lower (low_hex b).
Proof.
  pose proof (b2n_lt b). assert (H1 : forall n, n < 16 -> In (nth (N.to_nat n) low_hex_table 0) lower).
  { intros n Hn. apply nth_In. change (length lower) with 16%nat. lia. }
  split; [reflexivity|]. unfold low_hex. constructor; [apply H1, N.div_lt_upper_bound; lia|]. constructor; [apply H1, N.mod_lt; discriminate|constructor].
Qed.
Lemma key_named k t : k < 256 -> key_text k = Some t -> exists s, In s keys /\ t = s2t s.
Proof.
  intros Hk H.
  assert (G : forall n, (n < 256)%nat -> match key_text (N.of_nat n) with
                                         | Some u => existsb (fun s => text_eqb u (s2t s)) keys = true | None => True end).
  { assert (A : forallb (fun n => match key_text (N.of_nat n) with
                                  | Some u => existsb (fun s => text_eqb u (s2t s)) keys | None => true end) (seq 0 256) = true)
      by (vm_compute; reflexivity).
    intros n Hn. rewrite forallb_forall in A. specialize (A n). destruct (key_text (N.of_nat n)); [|exact Logic.I].
    apply A. apply in_seq. lia. }
  specialize (G (N.to_nat k) ltac:(lia)). rewrite N2Nat.id, H in G. apply existsb_exists in G as (s & Hs & E).
  exists s. split; [exact Hs|]. now apply text_eqb_eq.
Qed.
Lemma modifier_named m t : modifier_text m = Some t -> exists s, In s ["UNSET"; "SHIFT"; "CONTROL"; "ALT"]%string /\ t = s2t s.
Proof.
  unfold modifier_text. repeat match goal with |- (if ?x then _ else _) = _ -> _ => destruct x end; intros [= <-].
  - exists "UNSET"%string. split; [cbn; tauto|reflexivity].
  - exists "SHIFT"%string. split; [cbn; tauto|reflexivity].
  - exists "CONTROL"%string. split; [cbn; tauto|reflexivity].
  - exists "ALT"%string. split; [cbn; tauto|reflexivity].
Qed.
Lemma c_hot_key k m : conforms hot_key (PStr (hot_key_text k m)).
Proof.
  apply is_text. exists (low_hex k ++ low_hex m).
  assert (HH : of_length 4 lower (low_hex k ++ low_hex m)).
  { destruct (low_hex_form k) as [_ H1], (low_hex_form m) as [_ H2]. split; [reflexivity|]. now apply Forall_app. }
  split; [exact HH|]. unfold hot_key_text. destruct (modifier_text (b2n m)) as [tm|] eqn:EM; [|now left].
  destruct (key_text (b2n k)) as [tk|] eqn:EK; [|now left]. right.
  apply modifier_named in EM as (sm & Hm & ->). apply key_named in EK as (sk & Hk & ->); [|apply b2n_lt].
  exists sm, sk. split; [exact Hm|]. split; [exact Hk|reflexivity].
Qed.
Lemma c_show n : conforms (SpecSchema.named ["SW_SHOWNORMAL"; "SW_SHOWMAXIMIZED"; "SW_SHOWMINNOACTIVE"]) (PS (show_text n)).
Proof. apply c_named. unfold show_text. destruct (n =? 3); [cbn; tauto|]. destruct (n =? 7); cbn; tauto. Qed.
Lemma header_conforms h c a w : wf_header h -> time_read (h_ctime h) c -> time_read (h_atime h) a -> time_read (h_wtime h) w ->
  conforms (header_kind true) (PDict (header_report h c a w)).
Proof.
  intros (H1 & H2 & H3 & H4 & H5 & _ & _ & _ & H6 & H7 & _ & H8 & H9 & H10) Hc Ha Hw.
  unfold fits32, fits16, fits_i32 in *.
  apply is_record. unfold header_report.
  repeat (first [apply r_always|apply r_full]); try apply rows_end.
  - now apply c_guid.
  - now apply c_dword_of.
  - now apply c_dword_of.
  - exact (c_time _ _ Hc).
  - exact (c_time _ _ Ha).
  - exact (c_time _ _ Hw).
  - now apply c_dword_of.
  - apply is_number. lia.
  - apply c_show.
  - apply c_hot_key.
  - apply c_num. pose proof (b2n_lt (h_key h)). pose proof (b2n_lt (h_mods h)). lia.
  - apply is_chosen, some_bits.
  - apply is_chosen, some_bits.
  - apply c_num. lia.
  - apply c_num. lia.
  - now apply c_dword_of.
  - now apply c_dword_of.
Qed.

(** ** Items *)
Lemma fat_valid n t : fat_shown n = Some t -> valid_datetime t.
Proof.
  unfold fat_shown. destruct (n =? 0); [discriminate|]. destruct (fat_exists n) eqn:E; [|discriminate]. intros [= <-].
  unfold fat_exists in E. rewrite !Bool.andb_true_iff in E. destruct E as ((((((E1 & E2) & E3) & E4) & E5) & E6) & E7).
  apply Z.leb_le in E1, E2, E3, E4, E5, E6, E7.
  assert (Y : (1980 <= dt_year (fat_datetime n) <= 2107)%Z).
  { cbn [fat_datetime dt_year]. pose proof (N.mod_lt (n / 512) 128 ltac:(discriminate)). lia. }
  unfold valid_datetime, valid_date. change (dt_us (fat_datetime n)) with 0%Z.
  assert (P : (0 <= dt_hour (fat_datetime n) /\ 0 <= dt_min (fat_datetime n) /\ 0 <= dt_sec (fat_datetime n))%Z)
    by (cbn [fat_datetime dt_hour dt_min dt_sec]; lia).
  lia.
Qed.
Lemma c_flags ty : conforms item_flags (PS (flags_text ty)).
Proof.
  apply c_named. unfold flags_text, flags_name. set (m := ty mod 8). clearbody m.
  destruct m as [|p]; [cbn; tauto|]. repeat (destruct p as [p|p|]; try (cbn; tauto)).
Qed.
Lemma file_entry_conforms cp f : conforms (file_entry_kind true) (PDict (file_entry_of cp f)).
Proof.
  apply is_record. unfold file_entry_of. repeat (first [apply r_always|apply r_full]); try apply rows_end.
  - apply c_named. now left.
  - apply c_flags.
  - apply c_dword.
  - apply c_maybe. intros t H. apply is_time. exact (fat_valid _ _ H).
  - apply c_word.
  - apply c_any.
Qed.
Ltac rows := apply is_record; repeat (first [apply r_always|apply r_full]); try apply rows_end.
Ltac leaf := first
  [ apply c_any | apply c_byte | apply c_word | apply c_dword | (apply c_named; cbn; tauto) | apply c_flags
  | apply file_entry_conforms | (apply c_maybe; intros; apply c_any) | apply c_null | (apply c_some; apply c_any) | apply c_hex32
  | apply c_short | apply c_digest ].
Lemma c_sort o : conforms (SpecSchema.named ["Internet Explorer"; "Libraries"; "Users"; "Public Folder"; "My Documents"; "My Computer";
                     "UsersLibraries"; "My Networs Places/Network"; "Recycle Bin"; "My Games"; "Unknown"]%string) (PS (or_unknown (sort_name o))).
Proof.
  apply c_named. unfold sort_name, or_unknown.
  destruct o as [|p]; [cbn; tauto|]. repeat (destruct p as [p|p|]; try (cbn; tauto)).
Qed.
Lemma c_category o : conforms (SpecSchema.named ["All Control Panel Items"; "Appearance and Personalization"; "Hardware and Sound";
                     "Network and Internet"; "Sounds, Speech, and Audio Devices"; "System and Security";
                     "Clock, Language, and Region"; "Ease of Access"; "Programs"; "User Accounts"; "Security Center";
                     "Mobile PC"; "Unknown"]%string) (PS (or_unknown (category_name o))).
Proof.
  apply c_named. unfold category_name, or_unknown.
  destruct o as [|p]; [cbn; tauto|]. repeat (destruct p as [p|p|]; try (cbn; tauto)).
Qed.
Lemma needs_len n f : needs n f = None -> n <= lenN f.
Proof. unfold needs. destruct (lenN f <? n) eqn:E; [discriminate|]. intros _. lia. Qed.
Lemma after_both a b : after_all a b = None -> a = None /\ b = None.
Proof. destruct a; [discriminate|]. now split. Qed.
Lemma c_guid_at i j f : j <= lenN f -> j - i = 16 -> i <= j -> conforms guid (PStr (guid_text (slice i j f))).
Proof. intros H1 H2 H3. apply c_guid. rewrite lenN_slice. unfold bytes in *. lia. Qed.
Lemma unknown_conforms size : 1 <= size < 65536 -> conforms (item_kind true) (PDict [("class", PS "Unknown"); ("size", PN (2 + size))]%string).
Proof.
  intros HS. eapply is_one_of; [do 10 right; left; reflexivity|]. rows; [leaf|]. apply c_num. lia.
Qed.
Lemma entry_conforms cp size f : 1 <= size < 65536 -> item_error (num 1 0 f) f = None -> conforms (item_kind true) (PDict (entry_of cp size f)).
Proof.
  intros HS HE. unfold entry_of. unfold item_error in HE. pose proof (unknown_conforms size HS) as HU.
  remember (num 1 0 f) as ty eqn:Ety.
  assert (M16 : ty mod 16 < 16) by (apply N.mod_lt; discriminate).
  remember (ty / 16 mod 8) as t eqn:Et. clear Et.
  assert (D : t = 2 \/ t = 3 \/ t = 4 \/ (t <> 2 /\ t <> 3 /\ t <> 4)) by lia.
  destruct D as [->|[->|[->|(N2 & N3 & N4)]]].
  - destruct (N.testbit ty 0).
    + eapply is_one_of; [do 1 right; left; reflexivity|]. rows; try leaf. now apply c_hex_digit.
    + apply needs_len in HE. eapply is_one_of; [do 2 right; left; reflexivity|]. rows; try leaf; [now apply c_hex_digit|].
      apply c_guid_at; lia.
  - eapply is_one_of; [do 3 right; left; reflexivity|]. apply file_entry_conforms.
  - eapply is_one_of; [do 4 right; left; reflexivity|]. rows; leaf.
  - assert (HE' : match ty with
                  | 0x00 | 0x01 => needs 10 f
                  | 0x1E | 0x1F => needs 18 f
                  | 0x70 | 0x71 => needs 30 f
                  | 0x74 => after_all (needs 10 f)
                              (after_all (needs 12 (slice 10 (10 + num 2 8 f) f)) (needs (36 + num 2 2 f) f))
                  | _ => None
                  end = None)
      by (destruct t as [|p]; [exact HE|]; do 3 (try (destruct p as [p|p|]; try exact HE; try (exfalso; lia)))).
    set (R := match ty with 0x00 => _ | _ => _ end).
    assert (G : conforms (item_kind true) (PDict R));
      [|destruct t as [|p]; [exact G|]; do 3 (try (destruct p as [p|p|]; try exact G; try (exfalso; lia)))].
    subst R. clear HE N2 N3 N4 Ety t.
    assert (D : ty = 0 \/ ty = 1 \/ ty = 0x1E \/ ty = 0x1F \/ ty = 0x52 \/ ty = 0x61 \/ ty = 0x70 \/ ty = 0x71 \/ ty = 0x72 \/ ty = 0x73
                \/ ty = 0x74 \/ ~ In ty [0; 1; 0x1E; 0x1F; 0x52; 0x61; 0x70; 0x71; 0x72; 0x73; 0x74]).
    { cbn [In]. lia. }
    destruct D as [->|[->|[->|[->|[->|[->|[->|[->|[->|[->|[->|D]]]]]]]]]]]; cbv iota beta in *.
    + eapply is_one_of; [do 5 right; left; reflexivity|]. rows; leaf.
    + eapply is_one_of; [do 6 right; left; reflexivity|]. rows; try leaf. apply c_category.
    + apply needs_len in HE'. eapply is_one_of; [left; reflexivity|]. rows; try leaf; [apply c_sort|apply c_guid_at; lia].
    + apply needs_len in HE'. eapply is_one_of; [left; reflexivity|]. rows; try leaf; [apply c_sort|apply c_guid_at; lia].
    + eapply is_one_of; [do 7 right; left; reflexivity|]. rows; leaf.
    + eapply is_one_of; [do 7 right; left; reflexivity|]. rows; leaf.
    + apply needs_len in HE'. eapply is_one_of; [do 8 right; left; reflexivity|]. rows; try leaf. apply c_guid_at; lia.
    + apply needs_len in HE'. eapply is_one_of; [do 8 right; left; reflexivity|]. rows; try leaf. apply c_guid_at; lia.
    + eapply is_one_of; [do 7 right; left; reflexivity|]. rows; leaf.
    + eapply is_one_of; [do 7 right; left; reflexivity|]. rows; leaf.
    + apply after_both in HE' as [L1 HE']. apply after_both in HE' as [L2 L3]. apply needs_len in L1, L2, L3.
      eapply is_one_of; [do 9 right; left; reflexivity|]. rows; try leaf; try (apply c_guid_at; lia).
      apply is_text. unfold ascii_or_replacement. split.
      * unfold lenN. rewrite map_length. fold (lenN (slice 4 8 f)). rewrite lenN_slice. unfold bytes in *. lia.
      * rewrite Forall_map. apply Forall_forall. intros c _. destruct (b2n c <? 128) eqn:E; [left; lia|now right].
    + revert HU D. clear. intros HU D.
      destruct ty as [|p]; [exfalso; apply D; now left|].
      do 7 (try (destruct p as [p|p|]; try exact HU; try (exfalso; apply D; cbn [In]; tauto))).
Qed.
Lemma entries_conform_items cp r es w : entries_listed cp r es w -> all_conform (item_kind true) (map PDict es).
Proof.
  intros H. apply all_dicts. induction H as [|rest es said L Z fields HE _ IH]; constructor; [|exact IH].
  pose proof (LayoutProofs.num_lt 2 0 rest) as B. change (256 ^ 2) with 65536 in B.
  apply entry_conforms; [lia|].
  assert (E : num 1 0 fields = num 1 2 rest); [|now rewrite E].
  subst fields. clear - Z. remember (num 2 0 rest) as n. clear Heqn. unfold num. f_equal. unfold slice.
  rewrite dropN_0, takeN_takeN. f_equal. lia.
Qed.

(** ** Link info *)
Lemma row1 key k v : conforms k v -> row_conforms [(key, k)] [(key, v)].
Proof. intros H. constructor; [exact H|constructor]. Qed.
Lemma row2 key1 k1 v1 key2 k2 v2 : conforms k1 v1 -> conforms k2 v2 -> row_conforms [(key1, k1); (key2, k2)] [(key1, v1); (key2, v2)].
Proof. intros H1 H2. constructor; [exact H1|]. now apply row1. Qed.
Lemma wide_lt off raw : wide_offset off raw < 4294967296.
Proof. unfold wide_offset. destruct (_ <=? _); [apply num4|lia]. Qed.
Lemma local_conforms cp raw : conforms (local_kind true) (PDict (local_entries cp raw)).
Proof.
  apply is_record. unfold local_entries. cbn [app]. repeat (first [apply r_always|apply r_full]); try leaf.
  - apply c_hex, num4.
  - apply c_maybe. intros s H. apply c_named. unfold drive_name in H.
    destruct (num 4 (num 4 12 raw + 4) raw) as [|p]; [injection H as <-; cbn; tauto|].
    do 3 (try (destruct p as [p|p|]; try discriminate H; try (injection H as <-; cbn; tauto))).
  - destruct (_ =? _); leaf.
  - apply r_last; [|apply rows_end]. intros H. apply row2; [|leaf]. apply c_offset; [exact H|].
    clear H. destruct (_ =? _); [apply num4|lia].
Qed.
Lemma named_in n l s : SpecInfo.named n l = Some s -> In s (map snd l).
Proof.
  induction l as [|[k v] l IH]; cbn [SpecInfo.named map snd]; [discriminate|]. destruct (_ =? _); [intros [= <-]; now left|]. intros H. right. now apply IH.
Qed.
Lemma network_conforms cp raw : conforms (network_kind true) (PDict (network_entries cp raw)).
Proof.
  apply is_record. unfold network_entries. cbn [app]. repeat (first [apply r_always|apply r_full]); try leaf.
  - apply c_hex, num4.
  - match goal with |- rows_conform (sometimes _ _ :: ?rows) (?a ++ ?b) => assert (HB : rows_conform rows b) end.
    { apply r_row; [intros H; apply row2; [|leaf]; apply c_offset; [exact H|]; clear H; destruct (_ <? _); [apply num4|lia]|].
      apply r_row; [intros H; apply row2; [|leaf]; apply c_offset; [exact H|]; clear H; destruct (_ <? _); [apply num4|lia]|].
      apply r_row; [intros H|apply r_last; [intros H|apply rows_end]].
      all: apply row1; apply is_text; intros E; rewrite E in H; destruct (_ <=? _); discriminate H. }
    destruct (N.testbit _ 1); [|apply r_nothing; [discriminate|exact HB]].
    destruct (known_provider _) as [s|] eqn:E; [|apply r_nothing; [discriminate|exact HB]].
    apply row_there; [discriminate| |exact HB]. apply row1, c_named. unfold known_provider in E.
    destruct (letter_type _); [discriminate E|]. exact (named_in _ _ _ E).
Qed.
Lemma info_conforms cp network raw : conforms (info_kind true) (PDict (info_entries cp network raw)).
Proof.
  assert (G : forall s k v, conforms k (PDict v) ->
            conforms (located_kind true s k) (PDict (common_entries cp raw ++ [("location_info", PDict v); ("location", PS s)]%string))).
  { intros s k v H. apply is_record. unfold common_entries. rewrite <- !app_assoc. cbn [app].
    repeat (first [apply r_always|apply r_full]); try leaf.
    apply r_row; [intros _; apply row1; leaf|]. apply r_row; [intros _; apply row1; leaf|].
    apply r_row; [intros E; apply row2; [|leaf]; apply c_offset; [exact E|apply wide_lt]|].
    apply r_row; [intros E; apply row2; [|leaf]; apply c_offset; [exact E|apply wide_lt]|].
    apply r_always; [exact H|]. apply r_always; [apply c_named; now left|apply rows_end]. }
  unfold info_entries. destruct network.
  - eapply is_one_of; [do 2 right; left; reflexivity|]. apply G, network_conforms.
  - eapply is_one_of; [do 1 right; left; reflexivity|]. apply G, local_conforms.
Qed.

(** ** Strings *)
Lemma strings_conform (f : bytes -> text) b fs p found e cut : string_walk b fs p found e cut ->
  rows_conform (map (fun x => sometimes (snd (fst x)) any) fs) (map (fun x => (fst x, PStr (f (snd x)))) found).
Proof.
  intros H. induction H as [p|i name limited fs p found e cut _ _ IH|i name limited fs p _ _
                            |i name limited fs p n found e cut _ _ _ _ IH]; cbn [map fst snd].
  - apply rows_end.
  - apply r_nothing; [discriminate|exact IH].
  - apply r_nothing; [discriminate|]. induction fs as [|x fs IH]; cbn [map]; [apply rows_end|]. apply r_nothing; [discriminate|exact IH].
  - apply (row_there Sometimes _ _ [_]); [discriminate|apply row1, c_any|exact IH].
Qed.

(** ** Blocks *)
Definition signed_upper : text := s2t "-" ++ upper.
Lemma hexX_form w n : (w <= length (hexX w n))%nat /\ Forall (fun c => In c signed_upper) (hexX w n).
Proof.
  unfold hexX, pad0. split; [rewrite app_length, repeat_length; unfold text; lia|].
  apply Forall_app. split.
  - apply Forall_forall. intros c Hc. apply repeat_spec in Hc as ->. vm_compute. tauto.
  - rewrite Forall_map. assert (D : Forall (fun d => d < 16) (digits 16 n)) by (apply digits_aux_lt; [reflexivity|constructor]).
    eapply Forall_impl; [|exact D]. intros d Hd. cbn beta in Hd.
    assert (E : digit_char true d = nth (N.to_nat d) upper 0).
    { assert (A : forall k, (k < 16)%nat -> digit_char true (N.of_nat k) = nth k upper 0).
      { intros k Hk. do 16 (destruct k as [|k]; [reflexivity|]). lia. }
      rewrite <- (N2Nat.id d) at 1. apply A. lia. }
    rewrite E. assert (I : In (nth (N.to_nat d) upper 0) upper) by (apply nth_In; change (length upper) with 16%nat; lia).
    unfold signed_upper. apply in_or_app. now right.
Qed.
Lemma hexX_Z_form z : (8 <= length (hexX_Z 8 z))%nat /\ Forall (fun c => In c signed_upper) (hexX_Z 8 z).
Proof.
  unfold hexX_Z. destruct (z <? 0)%Z.
  - destruct (hexX_form (8 - 1) (Z.abs_N z)) as [H1 H2]. split; [cbn [length]; lia|]. constructor; [now left|exact H2].
  - apply hexX_form.
Qed.
Lemma slice_form i j (q : text) : i <= j -> j <= lenN q -> Forall (fun c => In c signed_upper) q ->
  lenN (slice i j q) = j - i /\ Forall (fun c => In c signed_upper) (slice i j q).
Proof.
  intros H1 H2 H3. split; [rewrite lenN_slice; lia|]. unfold slice.
  rewrite <- (take_drop i q) in H3. apply Forall_app in H3 as [_ H3].
  rewrite <- (take_drop (j - i) (dropN i q)) in H3. now apply Forall_app in H3 as [H3 _].
Qed.
Lemma unpacked_form t : dashed signed_upper (unpacked_guid t).
Proof.
  unfold unpacked_guid. cbv zeta.
  set (q := flat_map _ [0; 5; 10; 15]).
  assert (HQ : 32 <= lenN q /\ Forall (fun c => In c signed_upper) q).
  { subst q. cbn [flat_map]. rewrite app_nil_r.
    destruct (hexX_Z_form (base85_value (slice 0 (0 + 5) t))) as [L1 F1].
    destruct (hexX_Z_form (base85_value (slice 5 (5 + 5) t))) as [L2 F2].
    destruct (hexX_Z_form (base85_value (slice 10 (10 + 5) t))) as [L3 F3].
    destruct (hexX_Z_form (base85_value (slice 15 (15 + 5) t))) as [L4 F4].
    split; [unfold lenN; rewrite !app_length; lia|]. apply Forall_app. split; [exact F1|]. apply Forall_app. split; [exact F2|].
    apply Forall_app. now split. }
  clearbody q. destruct HQ as [L F].
  assert (S : forall i j, i <= j -> j <= 32 -> of_length (j - i) signed_upper (slice i j q)).
  { intros i j H1 H2. apply slice_form; [exact H1|lia|exact F]. }
  exists (slice 0 8 q), (slice 12 16 q), (slice 8 12 q), (slice 22 24 q ++ slice 20 22 q),
    (flat_map (fun i => slice i (i + 2) q) [18; 16; 30; 28; 26; 24]).
  split; [now rewrite <- !app_assoc|]. split; [apply (S 0 8); lia|]. split; [apply (S 12 16); lia|]. split; [apply (S 8 12); lia|].
  split.
  - destruct (S 22 24 ltac:(lia) ltac:(lia)) as [A1 A2], (S 20 22 ltac:(lia) ltac:(lia)) as [B1 B2].
    split; [rewrite lenN_app, A1, B1; reflexivity|]. now apply Forall_app.
  - cbn [flat_map]. rewrite app_nil_r.
    destruct (S 18 (18 + 2) ltac:(lia) ltac:(lia)) as [A1 A2], (S 16 (16 + 2) ltac:(lia) ltac:(lia)) as [B1 B2].
    destruct (S 30 (30 + 2) ltac:(lia) ltac:(lia)) as [C1 C2], (S 28 (28 + 2) ltac:(lia) ltac:(lia)) as [D1 D2].
    destruct (S 26 (26 + 2) ltac:(lia) ltac:(lia)) as [E1 E2], (S 24 (24 + 2) ltac:(lia) ltac:(lia)) as [G1 G2].
    split; [rewrite !lenN_app, A1, B1, C1, D1, E1, G1; reflexivity|].
    apply Forall_app; split; [exact A2|]. apply Forall_app; split; [exact B2|]. apply Forall_app; split; [exact C2|].
    apply Forall_app; split; [exact D2|]. apply Forall_app; split; [exact E2|exact G2].
Qed.
Lemma darwin_conforms cp raw v : conforms dword v -> conforms
  (block [always "darwin_data_ansi" any; always "darwin_data_unicode" any; always "product_code_id" packed_guid;
          always "feature_name" (maybe any); always "component_id" (maybe packed_guid)]%string)
  (PDict (("size", v) :: darwin_report cp raw)%string).
Proof.
  intros HV. unfold darwin_report. rows; try leaf; [exact HV|..].
  - apply is_text, unpacked_form.
  - destruct (feature_end _) as [n|]; [|leaf]. destruct n as [|p]; [leaf|]. do 5 (try (destruct p as [p|p|]; try leaf)).
  - destruct (position 62 _); [|leaf]. apply c_some, is_text, unpacked_form.
Qed.
Lemma value_conforms v d w : value_at v d w ->
  (exists t, d = [("value", PStr t); ("value_type", PS "VT_LPWSTR")]%string)
  \/ exists s, In s (map snd type_table) /\ d = [("value", PNone); ("value_type", PS s)]%string.
Proof.
  intros [name _ _ _ ->|name _ _ H]; [left; now eexists|]. right. exists name. split; [|reflexivity].
  apply in_map_iff. now exists (num 2 0 v, name).
Qed.
Lemma property_conforms (named : bool) p d w : property_at named p d w ->
  conforms (property_kind (if named then [always "name_size" dword; always "name" any] else [always "id" dword])%string) (PDict d).
Proof.
  intros [d' w' -> _ H|d' w' -> _ H]; apply value_conforms in H as [(t & ->)|(s & Hs & ->)]; unfold number_at.
  - eapply is_one_of; [left; reflexivity|]. cbn [app]. rows; leaf.
  - eapply is_one_of; [right; left; reflexivity|]. cbn [app]. rows; try leaf; constructor.
  - eapply is_one_of; [left; reflexivity|]. cbn [app]. rows; leaf.
  - eapply is_one_of; [right; left; reflexivity|]. cbn [app]. rows; try leaf; constructor.
Qed.
Lemma each_conforms {A} (P : A -> dict -> list warning -> Prop) k l ds w : (forall a d w, P a d w -> conforms k (PDict d)) ->
  each P l ds w -> all_conform k (map PDict ds).
Proof. intros HP. induction 1 as [|a l d ds w ws H _ IH]; cbn [map]; constructor; [exact (HP _ _ _ H)|exact IH]. Qed.
Lemma storages_conform ss ds w : each storage_at ss ds w -> conforms storages_kind (PList (map PDict ds)).
Proof.
  intros H. apply is_list. revert H. apply each_conforms. clear. intros s d w [named ps ds w' L HN _ HE].
  assert (G : lenN (slice 8 24 s) = 16) by (rewrite lenN_slice; unfold bytes in *; lia).
  apply (each_conforms _ _ _ _ _ (property_conforms named)) in HE. unfold number_at, guid_field. change (8 + 16) with 24.
  destruct named.
  - eapply is_one_of; [left; reflexivity|]. rows; try leaf; [apply c_hex, num4| |apply is_list, HE].
    apply is_text. rewrite (proj1 HN eq_refl). exact ExtraProofs.named_format_text.
  - eapply is_one_of; [right; left; reflexivity|]. rows; try leaf; [apply c_hex, num4| |apply is_list, HE].
    apply is_text. split; [now apply guid_dashed|]. intros E. unfold named_properties in E. rewrite <- ExtraProofs.named_format_text in E.
    apply guid_text_inj in E; [|exact G|reflexivity]. apply HN in E. discriminate E.
Qed.
(** The schema of the block with a signature; of an unknown block, the element of the list. *)
Definition kind_of (signature : N) (k : kind) : Prop :=
  if String.eqb (block_name signature) "UNKNOWN_BLOCK"
  then k = block [always "extra_data_sha256" SpecSchema.digest]%string else In (block_name signature, k) block_kinds.
Lemma other_signature cp sig raw :
  ~ In sig [0xA0000001; 0xA0000002; 0xA0000003; 0xA0000004; 0xA0000005; 0xA0000006; 0xA0000007; 0xA0000008; 0xA0000009; 0xA000000B; 0xA000000C] ->
  block_name sig = "UNKNOWN_BLOCK"%string /\ fixed_report cp sig raw = Some [("extra_data_sha256", PStr (sha256_hex (dropN 4 raw)))]%string.
Proof.
  intros D. pose proof (class_sig sig) as HC.
  destruct (class_of_sig sig) eqn:EC; try (exfalso; subst sig; apply D; cbn [In]; tauto); [|destruct HC].
  split.
  - unfold block_name. etransitivity; [refine (sig_choice_class (A := string) sig _ _ _ _ _ _ _ _ _ _ _ _)|now rewrite EC].
  - unfold fixed_report. etransitivity; [refine (sig_choice_class (A := option dict) sig _ _ _ _ _ _ _ _ _ _ _ _)|now rewrite EC].
Qed.
Lemma block_conforms cp sig raw d w : block_read cp sig raw d w -> exists k, kind_of sig k /\ conforms k (PDict d).
Proof.
  assert (HS : conforms dword (number_at 4 0 raw)) by apply c_dword.
  intros [d' HF HL|ES _|ss ds w' ES _ H|es w' ES H]; [|subst sig..].
  - assert (D : sig = 0xA0000001 \/ sig = 0xA0000002 \/ sig = 0xA0000003 \/ sig = 0xA0000004 \/ sig = 0xA0000005 \/ sig = 0xA0000007
                \/ sig = 0xA0000008 \/ sig = 0xA000000B \/ (sig = 0xA0000006 \/ sig = 0xA0000009 \/ sig = 0xA000000C)
                \/ ~ In sig [0xA0000001; 0xA0000002; 0xA0000003; 0xA0000004; 0xA0000005; 0xA0000006; 0xA0000007; 0xA0000008; 0xA0000009; 0xA000000B; 0xA000000C])
      by (cbn [In]; lia).
    destruct D as [->|[->|[->|[->|[->|[->|[->|[->|[D|D]]]]]]]]].
    all: try (cbv [fixed_report fixed_bytes] in HF, HL; injection HF as <-).
    + exists (block located_target). split; [cbn; tauto|]. rows; leaf.
    + eexists. split; [do 2 right; left; reflexivity|]. unfold number_at in *. rows; leaf.
    + eexists. split; [do 3 right; left; reflexivity|]. unfold number_at in *. unfold guid_field. rows; try leaf; apply c_guid_at; lia.
    + eexists. split; [do 4 right; left; reflexivity|]. unfold number_at in *. rows; leaf.
    + eexists. split; [do 5 right; left; reflexivity|]. unfold number_at in *. rows; leaf.
    + exists (block located_target). split; [cbn; tauto|]. rows; leaf.
    + eexists. split; [do 7 right; left; reflexivity|]. unfold number_at in *. rows; leaf.
    + eexists. split; [do 6 right; left; reflexivity|]. unfold number_at in *. unfold guid_field. rows; try leaf; apply c_guid_at; lia.
    + destruct D as [->|[->| ->]]; discriminate HF.
    + destruct (other_signature cp sig raw D) as [E1 E2]. rewrite E2 in HF. injection HF as <-.
      eexists. split; [unfold kind_of; rewrite E1; reflexivity|]. rows; leaf.
  - eexists. split; [do 8 right; left; reflexivity|]. now apply darwin_conforms.
  - eexists. split; [do 9 right; left; reflexivity|]. rows; [exact HS|]. exact (storages_conform _ _ _ H).
  - eexists. split; [do 10 right; left; reflexivity|]. rows; [exact HS|]. apply is_list. exact (entries_conform_items _ _ _ _ H).
Qed.
Lemma blocks_conform cp bs l w : blocks_read cp bs l w ->
  Forall (fun e => exists sig k, fst e = block_name sig /\ kind_of sig k /\ conforms k (PDict (snd e))) l.
Proof.
  induction 1 as [|g raw rest d w l ws H _ IH|]; [constructor| |assumption]. constructor; [|exact IH].
  apply block_conforms in H as (k & H1 & H2). now exists g, k.
Qed.
Lemma entries_of columns l : Forall (fun e => exists k, In (fst e, k) columns /\ conforms k (snd e)) l -> entries_conform columns l.
Proof. induction 1 as [|[key v] l (k & H1 & H2) _ IH]; [constructor|]. exact (entries_more _ _ _ _ _ H1 H2 IH). Qed.
Lemma extra_conforms cp bs l w allow tail : blocks_read cp bs l w ->
  conforms (extra_kind allow) (PDict (collect (l ++ behind_blocks allow tail))).
Proof.
  intros H. apply blocks_conform in H. apply is_table; [unfold collect; rewrite map_map, map_id; apply first_seen_nodup|].
  apply entries_of. unfold collect. rewrite Forall_map. apply Forall_forall. intros key Hk. cbn [fst snd].
  apply first_seen_incl in Hk.
  assert (T : forall x, In x (behind_blocks allow tail) ->
    allow = true /\ x = ("TERMINAL_BLOCK", [("size", PN (lenN tail)); ("appended_data_sha256", PStr (sha256_hex (dropN 4 tail)))])%string).
  { intros x Hx. unfold behind_blocks in Hx. destruct allow; [|destruct Hx]. destruct (_ && _); [|destruct Hx]. destruct Hx as [<-|[]]. now split. }
  rewrite Forall_forall in H.
  destruct (String.eqb key "UNKNOWN_BLOCK") eqn:EK.
  - apply String.eqb_eq in EK as ->. eexists. split; [apply in_or_app; left; do 11 right; left; reflexivity|].
    apply is_list, all_dicts, Forall_forall. intros d Hd. unfold all_of in Hd. apply in_map_iff in Hd as (e & <- & He).
    apply filter_In in He as [He EN]. apply String.eqb_eq in EN. apply in_app_or in He as [He|He].
    + apply H in He as (sig & k & E1 & E2 & E3). pose proof (eq_trans EN E1) as E4. unfold kind_of in E2. rewrite <- E4 in E2. cbn in E2. now subst k.
    + apply T in He as [_ ->]. discriminate EN.
  - assert (HL : exists d, last_of key (l ++ behind_blocks allow tail) = Some d).
    { destruct (last_of key _) as [d|] eqn:E; [now exists d|]. exfalso. revert Hk E. generalize (l ++ behind_blocks allow tail)%list. clear.
      induction l as [|[k d] l IH]; cbn [map fst last_of In]; [tauto|]. intros [->|Hk].
      - destruct (last_of key l); [discriminate|]. rewrite String.eqb_refl. discriminate.
      - specialize (IH Hk). destruct (last_of key l); [discriminate|tauto]. }
    destruct HL as [d HL]. rewrite HL. apply last_of_in in HL. apply in_app_or in HL as [HL|HL].
    + apply H in HL as (sig & k & E1 & E2 & E3). cbn [fst snd] in *. subst key. unfold kind_of in E2. rewrite EK in E2.
      exists k. split; [apply in_or_app; now left|exact E3].
    + apply T in HL as [-> E]. injection E as -> ->.
      eexists. split; [apply in_or_app; right; left; reflexivity|]. rows; [apply is_count|leaf].
Qed.

(** ** The whole report *)
Lemma whole_conforms b cp allow d w : whole_report b cp allow d w -> conforms (report_kind allow true) (PDict d).
Proof.
  intros [h rest created accessed written items items_said found data_end cut blocks tail entries blocks_said info_raw network terminal sections
    HH HB HC HA HW HI _ _ HS _ HX _ _].
  apply is_record. cbn [app]. apply r_always; [apply is_count|]. apply r_always; [now apply header_conforms|].
  match goal with |- rows_conform (_ :: ?rows) (?x ++ ?y) => assert (R : rows_conform rows y) end.
  { apply r_always; [|apply r_always; [|apply r_always; [|apply rows_end]]].
    - destruct (info_processed b); [apply info_conforms|]. eapply is_one_of; [left; reflexivity|]. apply is_record, rows_end.
    - apply is_record. exact (strings_conform _ _ _ _ _ _ _ HS).
    - exact (extra_conforms _ _ _ _ _ _ HX). }
  destruct (has_id_list b); [|apply r_nothing; [discriminate|exact R]].
  apply row_there; [discriminate| |exact R]. apply row1. rows.
  - apply c_word.
  - apply is_list. exact (entries_conform_items _ _ _ _ HI).
  - apply c_num. destruct HH as (H1 & H2 & _). unfold fits32 in H2. lia.
Qed.

(** ** The abridged report *)
(** What becomes of the entries of a row. *)
Inductive row_kept (p : path) : list (string * kind) -> list (string * kind) -> Prop :=
| kept_end : row_kept p [] []
| kept_next key k k' row row' :
    left_out (p ++ [Key key]) = false ->
    (forall v, conforms k v -> conforms k' (abridged left_out (p ++ [Key key]) v)) ->
    row_kept p row row' -> row_kept p ((key, k) :: row) ((key, k') :: row').
Inductive rows_kept (p : path) : list (presence * list (string * kind)) -> list (presence * list (string * kind)) -> Prop :=
| rows_kept_end : rows_kept p [] []
| rows_kept_row pr row row' rows rows' : row_kept p row row' -> rows_kept p rows rows' ->
    rows_kept p ((pr, row) :: rows) ((pr, row') :: rows')
| rows_kept_out key k k' rows rows' : left_out (p ++ [Key key]) = true -> rows_kept p rows rows' ->
    rows_kept p (only_if true key k :: rows) (only_if false key k' :: rows').
Lemma row_shown p row row' d : row_kept p row row' -> row_conforms row d -> row_conforms row' (entries left_out p d).
Proof.
  intros H. revert d. induction H as [|key k k' row row' HO HK _ IH]; intros d HR; inversion HR; subst; cbn [entries]; [constructor|].
  rewrite HO. constructor; [now apply HK|now apply IH].
Qed.
Lemma rows_shown p rows rows' d : rows_kept p rows rows' -> rows_conform rows d -> rows_conform rows' (entries left_out p d).
Proof.
  intros H. revert d. induction H as [|pr row row' rows rows' HK _ IH|key k k' rows rows' HO _ IH]; intros d HR.
  - inversion HR; subst. constructor.
  - inversion HR as [|? ? ? d1 d2 HP H1 H2|? ? ? ? HP H2]; subst.
    + rewrite entries_app. apply row_there; [exact HP|exact (row_shown _ _ _ _ HK H1)|now apply IH].
    + apply row_not_there; [exact HP|now apply IH].
  - inversion HR as [|? ? ? d1 d2 HP H1 H2|? ? ? ? HP H2]; subst; [|now destruct HP].
    inversion H1 as [|? ? ? ? ? _ H3]; subst. inversion H3; subst. cbn [app entries]. rewrite HO.
    apply row_not_there; [discriminate|now apply IH].
Qed.
Lemma record_shown p rows rows' v : rows_kept p rows rows' -> conforms (Record rows) v -> conforms (Record rows') (abridged left_out p v).
Proof. intros H HC. inversion HC; subst. rewrite abridged_dict. apply is_record. now apply (rows_shown p rows). Qed.
Lemma quiet_kept p k v : quiet left_out p -> conforms k v -> conforms k (abridged left_out p v).
Proof. intros H1 H2. now rewrite (quiet_same left_out v p H1). Qed.
(** Nothing below an entry of the header is left out, and so on. *)
Lemma quiet_header key : quiet left_out [Key "header"; Key key].
Proof. intros q Hq. destruct q as [|[a|i] [|[b|j] [|[c|n] q]]]; try reflexivity; now destruct Hq. Qed.
Lemma quiet_info key : key <> "location_info"%string -> quiet left_out [Key "link_info"; Key key].
Proof.
  intros Hn q Hq. apply String.eqb_neq in Hn.
  destruct q as [|[a|i] [|[b|j] [|[c|n] q]]]; try reflexivity; try (now destruct Hq); cbn [app left_out]; rewrite Hn; reflexivity.
Qed.
Lemma quiet_location key : quiet left_out [Key "link_info"; Key "location_info"; Key key].
Proof. intros q Hq. destruct q as [|[a|i] [|[b|j] [|[c|n] q]]]; try reflexivity; now destruct Hq. Qed.
Lemma quiet_item i key : quiet left_out [Key "target"; Key "items"; Element i; Key key].
Proof. intros q Hq. destruct q as [|[a|j] [|[b|k] [|[c|n] q]]]; try reflexivity; now destruct Hq. Qed.
Ltac kept tac := repeat first
  [ apply rows_kept_end
  | (apply rows_kept_out; [reflexivity|])
  | (apply rows_kept_row; [repeat first [apply kept_end|(apply kept_next; [reflexivity|tac|])]|]) ].
Lemma header_short v : conforms (header_kind true) v -> conforms (header_kind false) (abridged left_out [Key "header"] v).
Proof. apply record_shown. kept ltac:(intros ?; apply quiet_kept, quiet_header). Qed.
Lemma file_entry_short i v : conforms (file_entry_kind true) v ->
  conforms (file_entry_kind false) (abridged left_out [Key "target"; Key "items"; Element i] v).
Proof. apply record_shown. kept ltac:(intros ?; apply quiet_kept, quiet_item). Qed.
Lemma item_short i v : conforms (item_kind true) v -> conforms (item_kind false) (abridged left_out [Key "target"; Key "items"; Element i] v).
Proof.
  intros H. inversion H as [| | | | | |kinds k v' HI HC| | |]; subst. cbn [In] in HI.
  do 3 (destruct HI as [<-|HI]; [eapply is_one_of; [|refine (record_shown _ _ _ _ _ HC); kept ltac:(intros ?; apply quiet_kept, quiet_item)];
    first [now left|right; now left|right; right; now left]|]).
  destruct HI as [<-|HI]; [apply (is_one_of _ (file_entry_kind false)); [cbn [In]; tauto|now apply file_entry_short]|].
  destruct HI as [<-|HI]; [eapply is_one_of; [do 4 right; left; reflexivity|]; refine (record_shown _ _ _ _ _ HC); kept ltac:(intros ?; apply quiet_kept, quiet_item)|].
  destruct HI as [<-|HI]; [eapply is_one_of; [do 5 right; left; reflexivity|]; refine (record_shown _ _ _ _ _ HC); kept ltac:(intros ?; apply quiet_kept, quiet_item)|].
  destruct HI as [<-|HI]; [eapply is_one_of; [do 6 right; left; reflexivity|]; refine (record_shown _ _ _ _ _ HC); kept ltac:(intros ?; apply quiet_kept, quiet_item)|].
  destruct HI as [<-|HI]; [eapply is_one_of; [do 7 right; left; reflexivity|]; refine (record_shown _ _ _ _ _ HC); kept ltac:(intros ?; apply quiet_kept, quiet_item)|].
  destruct HI as [<-|HI]; [eapply is_one_of; [do 8 right; left; reflexivity|]; refine (record_shown _ _ _ _ _ HC); kept ltac:(intros ?; apply quiet_kept, quiet_item)|].
  destruct HI as [<-|HI]; [eapply is_one_of; [do 9 right; left; reflexivity|]; refine (record_shown _ _ _ _ _ HC); kept ltac:(intros ?; apply quiet_kept, quiet_item)|].
  destruct HI as [<-|[]]. eapply is_one_of; [do 10 right; left; reflexivity|]. refine (record_shown _ _ _ _ _ HC). kept ltac:(intros ?; apply quiet_kept, quiet_item).
Qed.
Lemma items_short v : conforms (ListOf (item_kind true)) v -> conforms (ListOf (item_kind false)) (abridged left_out [Key "target"; Key "items"] v).
Proof.
  intros H. inversion H as [| | | | | | |k l HA| |]; subst. rewrite abridged_list. apply is_list. apply all_forall in HA. clear H. generalize 0.
  induction HA as [|v l Hv _ IH]; intros i; cbn [elements_from app]; constructor; [now apply item_short|apply IH].
Qed.
Lemma target_short v : conforms (target_kind true) v -> conforms (target_kind false) (abridged left_out [Key "target"] v).
Proof. apply record_shown. kept ltac:(apply items_short). Qed.
Lemma local_short v : conforms (local_kind true) v -> conforms (local_kind false) (abridged left_out [Key "link_info"; Key "location_info"] v).
Proof. apply record_shown. kept ltac:(intros ?; apply quiet_kept, quiet_location). Qed.
Lemma network_short v : conforms (network_kind true) v -> conforms (network_kind false) (abridged left_out [Key "link_info"; Key "location_info"] v).
Proof. apply record_shown. kept ltac:(intros ?; apply quiet_kept, quiet_location). Qed.
Lemma located_short s k k' v : (forall v, conforms k v -> conforms k' (abridged left_out [Key "link_info"; Key "location_info"] v)) ->
  conforms (located_kind true s k) v -> conforms (located_kind false s k') (abridged left_out [Key "link_info"] v).
Proof. intros HL. apply record_shown. kept ltac:(first [exact HL|intros ?; apply quiet_kept, quiet_info; discriminate]). Qed.
Lemma info_short v : conforms (info_kind true) v -> conforms (info_kind false) (abridged left_out [Key "link_info"] v).
Proof.
  intros H. inversion H as [| | | | | |kinds k v' HI HC| | |]; subst. destruct HI as [<-|[<-|[<-|[]]]].
  - eapply is_one_of; [left; reflexivity|]. refine (record_shown _ _ _ _ _ HC). apply rows_kept_end.
  - eapply is_one_of; [right; left; reflexivity|]. exact (located_short _ _ _ _ local_short HC).
  - eapply is_one_of; [right; right; left; reflexivity|]. exact (located_short _ _ _ _ network_short HC).
Qed.
Lemma report_short allow v : conforms (report_kind allow true) v -> conforms (report_kind allow false) (abridged left_out [] v).
Proof.
  apply record_shown.
  kept ltac:(first [exact header_short|exact target_short|exact info_short|intros ?; apply quiet_kept, quiet_section; discriminate]).
Qed.

Lemma report_conforms src cp allow l all d :
  usable cp -> snd (lnk_init src cp allow) = Ok l -> snd (get_json l all) = Ok d -> conforms (report_kind allow all) (PDict d).
Proof.
  intros HU Hl Hd. apply any_source in Hl as (b & Hl).
  assert (Full : forall d, snd (get_json l true) = Ok d -> conforms (report_kind allow true) (PDict d)).
  { intros d' H. destruct (get_json l true) as [w r] eqn:E. cbn [snd] in H. subst r.
    exact (whole_conforms _ _ _ _ _ (whole_reported _ _ _ _ _ _ HU Hl E)). }
  destruct all; [now apply Full|]. destruct (report_abridged l) as [_ H]. rewrite Hd in H.
  destruct (snd (get_json l true)) as [full|e]; [|destruct H]. rewrite H. apply report_short. now apply Full.
Qed.

(** ** What conforming means for the keys of a record *)
Lemma row_keys row d : row_conforms row d -> map fst d = map fst row.
Proof. revert d. induction row as [|[key k] row IH]; intros d H; inversion H; subst; cbn [map fst]; [reflexivity|]. f_equal. now apply IH. Qed.
Lemma some_of_app a b c d : some_of a b -> some_of c d -> some_of (a ++ c) (b ++ d).
Proof. intros H1 H2. induction H1; cbn [app]; [exact H2|..]; constructor; assumption. Qed.
Lemma some_of_refl a : some_of a a.
Proof. induction a; constructor; assumption. Qed.
Lemma some_of_nothing a b : some_of b [] -> some_of (a ++ b) [].
Proof. intros H. induction a; cbn [app]; [exact H|]. now constructor. Qed.
Lemma some_of_skip a b c : some_of b c -> some_of (a ++ b) c.
Proof. intros H. induction a; cbn [app]; [exact H|]. now constructor. Qed.
Lemma rows_keys rows d : rows_conform rows d -> some_of (keys_of rows) (map fst d) /\ incl (sure_keys rows) (map fst d).
Proof.
  revert d. induction rows as [|[p row] rows IH]; intros d H; inversion H as [|? ? ? d1 d2 HP H1 H2|? ? ? ? HP H2]; subst.
  - split; [constructor|intros x []].
  - apply IH in H2 as [I1 I2]. apply row_keys in H1. unfold keys_of, sure_keys. cbn [flat_map fst snd]. rewrite map_app, H1. split.
    + apply some_of_app; [apply some_of_refl|exact I1].
    + apply incl_app; [|now apply incl_appr]. destruct p; [now apply incl_appl, incl_refl|intros x []|intros x []].
  - apply IH in H2 as [I1 I2]. unfold keys_of, sure_keys. cbn [flat_map fst snd]. split; [now apply some_of_skip|].
    destruct p; [now destruct HP|exact I2|exact I2].
Qed.
