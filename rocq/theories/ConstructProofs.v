(** * The constructor: strings and warnings (C14-C16, C52) *)
From Verif Require Import Lemmas Codec Utils Header StringData Targets Info Extra LnkFile Spec SpecText.
From Verif Require Import EncProofs OutcomeProofs LayoutProofs CoreProofs ApiProofs TextProofs.

Lemma fst_bind {A B} (m : M A) (f : A -> M B) :
  fst (bind m f) = fst m ++ match snd m with Ok a => fst (f a) | Err _ => [] end.
Proof. destruct m as [w [a|e]]; cbn; [now destruct (f a)|now rewrite app_nil_r]. Qed.

(** ** StringData *)

Lemma sd_read_full header cp raw limit u :
  usable cp -> has_flag "IsUnicode" header = ret u -> 2 <= lenN raw ->
  sd_read header cp raw limit
  = let n := chars_read limit (num 2 0 raw) * (if u then 2 else 1) in
    let field := slice 2 (2 + n) raw in
    (stored_warning u cp field, Ok (stored_text u cp field, 2 + n)).
Proof.
  intros Hcp Hu HL. unfold sd_read. rewrite unpack_u16_0. replace (2 <=? lenN raw) with true by lia.
  rewrite bind_ret_l, Hu, bind_ret_l. cbn zeta.
  match goal with |- context [slice 2 (2 + ?l) raw] => set (len := l) end.
  replace (chars_read limit (num 2 0 raw) * (if u then 2 else 1)) with len.
  2:{ unfold len, chars_read. destruct limit; cbn [andb]; [|destruct u; lia].
      destruct (260 <? num 2 0 raw) eqn:E; destruct u; lia. }
  unfold stored_warning, stored_text. destruct u.
  - rewrite read_unicode_field, bind_Ok. cbn. now rewrite app_nil_r.
  - rewrite read_string_field by assumption. rewrite bind_Ok. cbn. now rewrite app_nil_r.
Qed.

Lemma dset_new k v d : dget k d = None -> dset k v d = d ++ [(k, v)].
Proof.
  induction d as [|[k' v'] d IH]; cbn [dget dset app]; [reflexivity|].
  destruct (String.eqb k k'); [discriminate|]. intros H. now rewrite IH.
Qed.

Definition entry (u : bool) (cp : cp_arg) (f : string * bytes) : string * pyval := (fst f, PStr (stored_text u cp (snd f))).
Definition entry_warning (u : bool) (cp : cp_arg) (f : string * bytes) : list warning := stored_warning u cp (snd f).

Lemma sd_loop_full header cp b ie fs slots st :
  usable cp -> has_flag "IsUnicode" header = ret (bit_set 7 b) ->
  Forall2 (fun f s => has_flag (fst (fst f)) header = ret (bit_set (fst (fst s)) b)
                      /\ snd (fst f) = snd (fst s) /\ snd f = snd s) fs slots ->
  NoDup (map (fun s : N * string * bool => snd (fst s)) slots) ->
  Forall (fun s : N * string * bool => dget (snd (fst s)) (sd_data st) = None) slots ->
  exists found e cut,
    string_walk b slots (ie + sd_size st) found e cut
    /\ exists sd, sd_loop fs header cp (dropN ie b) st
        = (flat_map (entry_warning (bit_set 7 b) cp) found ++ (if cut then [WStringData] else []), Ok sd)
       /\ sd_data sd = sd_data st ++ map (entry (bit_set 7 b) cp) found /\ ie + sd_size sd = e.
Proof.
  intros Hcp Hu HF. revert st.
  induction HF as [|[[fl name] lim] [[i name'] lim'] fs slots (H1 & H2 & H3) HF IH]; intros st ND HN.
  - exists [], (ie + sd_size st), false. split; [constructor|]. exists st. split; [reflexivity|].
    split; [now rewrite app_nil_r|reflexivity].
  - cbn [fst snd] in H1, H2, H3. subst lim' name'. cbn [sd_loop]. rewrite H1. unfold ret.
    cbn [map fst snd] in ND. inversion ND as [|? ? ND1 ND2]; subst. inversion HN as [|? ? HN1 HN2]; subst.
    cbn [fst snd] in HN1.
    destruct (bit_set i b) eqn:EB.
    2:{ destruct (IH st ND2 HN2) as (found & e & cut & HW & HR). exists found, e, cut. split; [|exact HR].
        now apply string_absent. }
    destruct (N.lt_ge_cases (lenN b) (ie + sd_size st + 2)) as [L|L].
    + pose proof (sd_read_snd header cp (dropN (sd_size st) (dropN ie b)) lim _ Hcp Hu) as HR.
      rewrite lenN_dropN, lenN_dropN in HR. replace (2 <=? lenN b - ie - sd_size st) with false in HR by lia.
      rewrite HR. cbn. exists [], (ie + sd_size st), true. split; [now apply string_cut|].
      exists st. split; [reflexivity|]. split; [now rewrite app_nil_r|reflexivity].
    + rewrite (sd_read_full header cp _ lim _ Hcp Hu) by (rewrite !lenN_dropN; lia). cbn zeta.
      rewrite !num_dropN, !N.add_0_r, !slice_dropN. fold (char_width b).
      set (n := chars_read lim (num 2 (ie + sd_size st) b) * char_width b).
      set (field := slice (ie + (sd_size st + 2)) (ie + (sd_size st + (2 + n))) b).
      edestruct (IH (SD (dset name (PStr (stored_text (bit_set 7 b) cp field)) (sd_data st)) (sd_size st + (2 + n))))
        as (found & e & cut & HW & sd & HS & HD & HE).
      * exact ND2.
      * cbn [sd_data]. apply Forall_forall. intros s Hin. rewrite dget_dset_other.
        -- rewrite Forall_forall in HN2. now apply HN2.
        -- intros E. apply ND1. rewrite <- E. apply in_map_iff. now exists s.
      * cbn [sd_size sd_data] in *. rewrite HS. exists ((name, field) :: found), e, cut. split.
        { assert (EF : field = slice (ie + sd_size st + 2) (ie + sd_size st + 2 + n) b) by (unfold field; f_equal; lia).
          rewrite EF. apply string_found; [assumption|lia|reflexivity|].
          replace (ie + sd_size st + 2 + n) with (ie + (sd_size st + (2 + n))) by lia. exact HW. }
        exists sd. split; [|split; [|assumption]].
        { f_equal. cbn [flat_map]. unfold entry_warning at 2. cbn [snd]. now rewrite app_assoc. }
        rewrite HD. rewrite dset_new by assumption. rewrite <- app_assoc. reflexivity.
Qed.

Lemma string_data_full b cp :
  usable cp -> 24 <= header_len b -> 24 <= lenN b ->
  exists found cut, string_walk b string_fields (info_end b) found (string_data_end b) cut
    /\ exists sd, string_data_init (takeN (header_len b) b) cp (dropN (info_end b) b)
        = (flat_map (entry_warning (bit_set 7 b) cp) found ++ (if cut then [WStringData] else []), Ok sd)
       /\ sd_data sd = map (entry (bit_set 7 b) cp) found /\ info_end b + sd_size sd = string_data_end b.
Proof.
  intros Hcp H1 H2. unfold string_data_init.
  assert (HF : forall name i, In (name, i) used_flags ->
                 has_flag name (takeN (header_len b) b) = ret (bit_set i b)).
  { intros name i Hin. now apply has_flag_bit. }
  destruct (string_data_init_size b cp Hcp H1 H2) as (sd0 & Hsd0 & Hsz0).
  destruct (sd_loop_full (takeN (header_len b) b) cp b (info_end b) sd_fields string_fields (SD [] 0) Hcp)
    as (found & e & cut & HW & sd & HS & HD & HE).
  - apply HF. cbn. auto 10.
  - unfold sd_fields, string_fields. repeat constructor; cbn [fst snd]; apply HF; cbn; auto 10.
  - cbn. repeat constructor; cbn; intuition discriminate.
  - repeat constructor.
  - cbn [sd_size sd_data app] in *. rewrite N.add_0_r in HW.
    unfold string_data_init in Hsd0. rewrite HS in Hsd0. injection Hsd0 as ->.
    rewrite Hsz0 in HE. subst e. exists found, cut. split; [assumption|]. exists sd0. auto.
Qed.

Lemma string_walk_det b fs p f1 e1 c1 f2 e2 c2 :
  string_walk b fs p f1 e1 c1 -> string_walk b fs p f2 e2 c2 -> f1 = f2 /\ e1 = e2 /\ c1 = c2.
Proof.
  intros H1. revert f2 e2 c2. induction H1; intros f2 e2 c2 HX; inversion HX; subst; try congruence; try (exfalso; lia); auto.
  match goal with H : string_walk b fs _ _ e2 c2 |- _ => apply IHstring_walk in H as (-> & -> & ->) end. auto.
Qed.

(** ** Extra data *)

Lemma ef_extra_class_full r :
  ef_extra_class r = if 8 <=? lenN r then ret (Some (sig_class (num 4 4 r))) else ([WExtraSig], Ok None).
Proof.
  unfold ef_extra_class, ef_rsig. change (slice 4 8 r) with (slice 4 (4 + 4) r). rewrite unpack_u32_at.
  change (4 + 4) with 8. destruct (8 <=? lenN r); reflexivity.
Qed.
Lemma extra_loop_fst fuel r : (length r < fuel)%nat -> walk_warnings r (fst (extra_loop fuel r)).
Proof.
  revert r; induction fuel as [|fuel IH]; intros r Hf; [lia|]. cbn [extra_loop].
  destruct r as [|x r0]; [apply quiet_end; now left|].
  set (r := x :: r0) in *. unfold ef_item_size. rewrite unpack_u32_0.
  destruct (4 <=? lenN r) eqn:E4; [unfold ret at 1|].
  - destruct (num 4 0 r =? 0) eqn:E0.
    + apply N.eqb_eq in E0. apply quiet_end. right. split; [lia|assumption].
    + apply N.eqb_neq in E0.
      assert (HI : walk_warnings (dropN (num 4 0 r) r) (fst (extra_loop fuel (dropN (num 4 0 r) r)))).
      { apply IH. assert (r <> []) by discriminate. pose proof (dropN_shorter (num 4 0 r) r E0 H). lia. }
      rewrite ef_extra_class_full. destruct (8 <=? lenN r) eqn:E8.
      * rewrite bind_ret_l, fst_bind. destruct (extra_loop fuel _) as [w [[bl r']|e]] eqn:EL; cbn [fst snd] in *.
        -- cbn. rewrite app_nil_r. apply whole_block; [lia|assumption|assumption].
        -- rewrite app_nil_r. apply whole_block; [lia|assumption|assumption].
      * rewrite bind_Ok. cbn [fst]. rewrite fst_bind. destruct (extra_loop fuel _) as [w [[bl r']|e]] eqn:EL; cbn [fst snd] in *.
        -- cbn. rewrite app_nil_r. apply no_signature; [lia|assumption|assumption].
        -- cbn [app]. rewrite app_nil_r. apply no_signature; [lia|assumption|assumption].
  - cbn. apply cut_size. unfold r. rewrite lenN_cons. fold r in E4. unfold r in E4. rewrite lenN_cons in E4. lia.
Qed.
Lemma unpack_le_fst n b : fst (unpack_le n b) = [].
Proof. unfold unpack_le. destruct (_ =? _); reflexivity. Qed.
Lemma extra_init_fst allow r : walk_warnings r (fst (extra_init allow r)).
Proof.
  unfold extra_init. rewrite fst_bind.
  destruct (extra_loop_walk (S (length r)) r) as (blocks & r' & HW & HL); [lia|]. rewrite HL.
  match goal with |- walk_warnings r (_ ++ ?w) => assert (E : w = []) end.
  { cbn zeta. destruct (allow && _); [|reflexivity]. rewrite fst_bind. unfold unpack_u32. rewrite unpack_le_fst.
    destruct (snd (unpack_le 4 _)); reflexivity. }
  rewrite E, app_nil_r. apply extra_loop_fst. lia.
Qed.
Lemma extras_size_fst l : fst (extras_size l) = [].
Proof.
  induction l as [|e l IH]; [reflexivity|]. cbn [extras_size]. rewrite fst_bind.
  assert (E : fst (extra_size e) = []).
  { unfold extra_size. destruct (ex_class e); try apply unpack_le_fst. reflexivity. }
  rewrite E. destruct (snd (extra_size e)); [|reflexivity]. rewrite fst_bind, IH. destruct (snd (extras_size l)); reflexivity.
Qed.
Lemma walk_warnings_det r w1 w2 : walk_warnings r w1 -> walk_warnings r w2 -> w1 = w2.
Proof.
  intros H. revert w2. induction H; intros w2 HX; inversion HX; subst; try reflexivity; try (exfalso; intuition lia); try f_equal; auto.
Qed.

(** ** The constructor's warnings *)

Lemma header_size_fst raw : 4 <= lenN raw -> fst (header_size raw) = if num 4 0 raw =? 76 then [] else [WMustBe "size"].
Proof.
  intros H. unfold header_size. change (slice 0 4 raw) with (slice 0 (0 + 4) raw). rewrite unpack_u32_at.
  replace (0 + 4 <=? lenN raw) with true by lia. unfold must_be_N. rewrite bind_ret_l. rewrite fst_bind.
  destruct (num 4 0 raw =? 76); reflexivity.
Qed.
Lemma info_class_fst raw : fst (info_class raw) = if 12 <=? lenN raw then [] else [WInfoClass].
Proof.
  unfold info_class, volume_id_and_local_base_path, common_network_relative_link_and_path_suffix, info_flags, u32_at.
  rewrite !unpack_u32_at. change (8 + 4) with 12. destruct (12 <=? lenN raw); [|reflexivity].
  rewrite !bind_ret_l. destruct (negb _); [reflexivity|]. destruct (negb _); reflexivity.
Qed.

Lemma id_list_step b : has_id_list b = false \/ header_len b + 2 <= lenN b ->
  ((if has_id_list b then
      t <- targets_init (dropN (header_len b) b);;
      size <- targets_size (tg_raw t);; ret (Some t, header_len b + size)
    else ret (None, header_len b)) : M (option targets * N))
  = ret (if has_id_list b
         then Some (Targets (dropN (header_len b) b) (slice 2 (num 2 (header_len b) b + 2) (dropN (header_len b) b)))
         else None, id_list_end b).
Proof.
  intros H. unfold id_list_end. destruct (has_id_list b); [|reflexivity]. destruct H as [H|H]; [discriminate|].
  unfold targets_init, targets_size, id_list_size. rewrite unpack_u16_0, lenN_dropN, num_dropN, N.add_0_r.
  replace (2 <=? lenN b - header_len b) with true by lia. rewrite !bind_ret_l. cbn [tg_raw].
  rewrite unpack_u16_0, lenN_dropN, num_dropN, N.add_0_r.
  replace (2 <=? lenN b - header_len b) with true by lia. rewrite !bind_ret_l. do 3 f_equal. lia.
Qed.
Lemma info_step b :
  ((if bit_set 1 b && negb (bit_set 8 b) then
      c <- info_class (dropN (id_list_end b) b) ;;
      match c with
      | Some k => size <- info_size (dropN (id_list_end b) b) ;; ret (Some (k, dropN (id_list_end b) b), id_list_end b + size)
      | None => ret (None, id_list_end b)
      end
    else ret (None, id_list_end b)) : M (option (info_kind * bytes) * N))
  = (info_warning b,
     Ok (if info_processed b
         then Some (if N.testbit (num 4 (id_list_end b + 8) b) 0 then Local else Network, dropN (id_list_end b) b)
         else None, info_end b)).
Proof.
  unfold info_end, info_processed, info_warning. destruct (bit_set 1 b && negb (bit_set 8 b)); cbn [andb]; [|reflexivity].
  pose proof (info_class_spec (dropN (id_list_end b) b)) as HS. pose proof (info_class_fst (dropN (id_list_end b) b)) as HF.
  destruct (info_class _) as [w r]. cbn [fst snd] in HS, HF. subst w r. rewrite bind_Ok. rewrite lenN_dropN, !num_dropN.
  destruct (id_list_end b + 12 <=? lenN b) eqn:E12; cbn [andb].
  - replace (12 <=? lenN b - id_list_end b) with true by lia. replace (lenN b <? id_list_end b + 12) with false by lia.
    destruct (N.testbit (num 4 (id_list_end b + 8) b) 0); cbn [orb app].
    + unfold info_size, u32_at. rewrite unpack_u32_at, lenN_dropN, num_dropN, N.add_0_r.
      replace (0 + 4 <=? lenN b - id_list_end b) with true by lia. reflexivity.
    + destruct (N.testbit (num 4 (id_list_end b + 8) b) 1); [|reflexivity].
      unfold info_size, u32_at. rewrite unpack_u32_at, lenN_dropN, num_dropN, N.add_0_r.
      replace (0 + 4 <=? lenN b - id_list_end b) with true by lia. reflexivity.
  - replace (12 <=? lenN b - id_list_end b) with false by lia. replace (lenN b <? id_list_end b + 12) with true by lia. reflexivity.
Qed.

Lemma construct_full b cp allow :
  usable cp -> constructible b ->
  exists l found (cut : bool) wx,
    lnk_init (FromBytes b) cp allow
    = (size_warning_of b ++ size_warning_of b ++ info_warning b
       ++ flat_map (entry_warning (bit_set 7 b) cp) found ++ (if cut then [WStringData] else []) ++ wx, Ok l)
    /\ string_walk b string_fields (info_end b) found (string_data_end b) cut
    /\ sd_data (l_string_data l) = map (entry (bit_set 7 b) cp) found
    /\ walk_warnings (dropN (string_data_end b) b) wx.
Proof.
  intros Hcp HC. assert (HC' := HC). destruct HC' as (H24 & HL24 & HI & _).
  assert (Hb : b <> []) by (intros ->; cbn in HL24; lia).
  destruct (process_outcome b cp allow Hb Hcp) as [[_ (l & Hl & HCl)]|[HN _]]; [|contradiction].
  destruct (string_data_full b cp Hcp H24 HL24) as (found & cut & HW & sd & HS & HD & HE).
  exists l, found, cut, (fst (extra_init allow (dropN (string_data_end b) b))).
  split; [|split; [assumption|split; [|apply extra_init_fst]]].
  2:{ destruct HCl as (_ & HH & _ & _ & _ & HSD & _). rewrite HH in HSD. rewrite HS in HSD. injection HSD as ->. assumption. }
  assert (EP : lnk_init (FromBytes b) cp allow = process b cp allow) by (destruct b; [contradiction|reflexivity]).
  rewrite EP. rewrite (surjective_pairing (process b cp allow)), Hl. f_equal.
  unfold process. destruct b as [|x0 b0]; [contradiction|]. set (b := x0 :: b0) in *.
  change (header_init b) with (size <- header_size b ;; ret (takeN size b)).
  rewrite bind_assoc, fst_bind, header_size_snd, header_size_fst by lia.
  replace (4 <=? lenN b) with true by lia. rewrite bind_ret_l. fold (header_len b). fold (size_warning_of b). f_equal.
  rewrite fst_bind, header_size_snd, header_size_fst by (rewrite lenN_takeN; lia).
  rewrite lenN_takeN, num_takeN by lia. fold (header_len b). fold (size_warning_of b).
  replace (4 <=? N.min (header_len b) (lenN b)) with true by lia. f_equal.
  assert (HF : forall name i, In (name, i) used_flags ->
                 has_flag name (takeN (header_len b) b) = ret (bit_set i b)).
  { intros name i Hin. apply has_flag_bit; [assumption|lia|lia]. }
  rewrite (HF _ 0) by (cbn; auto 12). rewrite bind_ret_l. fold (has_id_list b).
  rewrite id_list_step.
  2:{ destruct (has_id_list b) eqn:E; [right; auto|now left]. }
  rewrite bind_ret_l.
  rewrite (HF _ 1) by (cbn; auto 12). rewrite bind_ret_l.
  assert (EF : (if bit_set 1 b then f <- has_flag "ForceNoLinkInfo" (takeN (header_len b) b);; ret (negb f)
                else ret false) = ret (bit_set 1 b && negb (bit_set 8 b))).
  { destruct (bit_set 1 b); [|reflexivity]. rewrite (HF _ 8) by (cbn; auto 12). reflexivity. }
  rewrite EF, bind_ret_l. clear EF.
  cbv zeta. rewrite info_step. rewrite bind_Ok. cbn [fst]. f_equal.
  rewrite HS, bind_Ok. cbn [fst]. rewrite <- app_assoc. do 2 f_equal.
  rewrite HE, fst_bind. destruct (extra_init_spec allow (dropN (string_data_end b) b)) as (blocks & r & HW' & HE'). rewrite HE'.
  rewrite fst_bind, extras_size_fst. destruct (snd (extras_size _)); apply app_nil_r.
Qed.
