(** * The exact outcome of a report (C60) *)
From Verif Require Import Lemmas PyTime Codec Utils Sha256 Header StringData Targets Info Extra LnkFile.
From Verif Require Import Spec SpecText SpecItems SpecInfo SpecExtra SpecOutcome.
From Verif Require Import OutcomeProofs LayoutProofs CoreProofs FormatProofs EncProofs TextProofs ApiProofs.
From Verif Require Import ItemProofs ExtraProofs ExtraListProofs InfoProofs.

Definition works {A} (m : M A) : Prop := exists a, snd m = Ok a.
Definition outcome_is {A} (o : option exn) (m : M A) : Prop :=
  match o with None => works m | Some e => snd m = Err e end.
Notation structs := (raises (fun e => e = StructError)).

Lemma works_ret {A} (a : A) : works (ret a). Proof. now exists a. Qed.
Lemma works_warn w : works (warn w). Proof. now exists tt. Qed.
Lemma works_bind {A B} (m : M A) (f : A -> M B) : works m -> (forall a, snd m = Ok a -> works (f a)) -> works (bind m f).
Proof. intros [a Ha] H. destruct (H a Ha) as [b Hb]. exists b. now rewrite snd_bind, Ha. Qed.
Lemma works_bind_any {A B} (m : M A) (f : A -> M B) : works m -> (forall a, works (f a)) -> works (bind m f).
Proof. intros H1 H2. apply works_bind; auto. Qed.
Lemma works_unpack n i j b : j = i + n -> j <= lenN b -> works (unpack_le n (slice i j b)).
Proof. intros -> H. rewrite unpack_le_ok; [apply works_ret|]. rewrite lenN_slice. lia. Qed.
Lemma unpack_room n i j b a : 0 < n -> j = i + n -> snd (unpack_le n (slice i j b)) = Ok a -> j <= lenN b.
Proof.
  intros Hn -> H. destruct (N.eq_dec (lenN (slice i (i + n) b)) n) as [E|E].
  - rewrite lenN_slice in E. lia.
  - rewrite unpack_le_bad in H by assumption. discriminate H.
Qed.
Lemma works_string cp b : usable cp -> works (read_string cp b).
Proof. intros H. rewrite read_string_field by assumption. now eexists. Qed.
Lemma works_wide b : works (read_unicode_string b).
Proof. rewrite read_unicode_field. now eexists. Qed.
Lemma works_uuid i j b : j = i + 16 -> j <= lenN b -> works (parse_uuid (slice i j b)).
Proof. intros -> H. rewrite parse_uuid_guid by (rewrite lenN_slice; lia). apply works_ret. Qed.
Lemma uuid_room i j b a : j = i + 16 -> snd (parse_uuid (slice i j b)) = Ok a -> j <= lenN b.
Proof.
  intros -> H. destruct (N.lt_ge_cases (lenN (slice i (i + 16) b)) 16) as [L|L].
  - rewrite parse_uuid_short in H by assumption. discriminate H.
  - rewrite lenN_slice in L. lia.
Qed.
Lemma works_dostime i j b : j = i + 4 -> j <= lenN b -> works (parse_dostime (slice i j b)).
Proof.
  intros H1 H2. unfold parse_dostime. apply works_bind_any; [now apply works_unpack|]. intros n.
  destruct (n =? 0); [apply works_ret|]. destruct (make_datetime _ _ _ _ _ _ _); [apply works_ret|].
  apply works_bind_any; [apply works_warn|]. intros. apply works_ret.
Qed.

Lemma needs_outcome {A} n rt (m : M A) : structs m -> (n <= lenN rt -> works m) ->
  (forall a, snd m = Ok a -> n <= lenN rt) -> outcome_is (needs n rt) m.
Proof.
  intros HS HW HO. unfold needs. destruct (N.ltb_spec (lenN rt) n) as [L|L]; [|now apply HW].
  cbn. destruct (snd m) as [a|e] eqn:E; [specialize (HO a eq_refl); lia|]. now rewrite (HS e E).
Qed.

Ltac wk := repeat first
  [ apply works_ret | apply works_warn | assumption
  | match goal with |- works (bind _ _) => apply works_bind_any; [|intros ?] end
  | match goal with |- works (unpack_le _ _) => apply works_unpack; lia end
  | apply works_string; assumption | apply works_wide
  | apply works_uuid; lia | apply works_dostime; lia
  | match goal with |- works (if ?b then _ else _) => destruct b end
  | match goal with |- works (match ?x with _ => _ end) => destruct x end ].

Section Items.
  Variable cp : cp_arg.
  Hypothesis Hcp : usable cp.

  Lemma structs_as_item t : structs (as_item cp t).
  Proof. apply r_as_item; [reflexivity|]. intros E. now destruct Hcp. Qed.

  Lemma fs_outcome rt : outcome_is (needs 12 rt) (fs_as_item cp rt).
  Proof.
    apply needs_outcome.
    - apply r_fs_as_item; [reflexivity|]. intros E. now destruct Hcp.
    - intros L. unfold fs_as_item, fs_flags, fs_file_size, fs_modification_time, fs_file_attribute_flags,
        fs_primary_name, has_unicode_strings, class_type_indicator, get_item_shell_fs_folder, unpack_u8, unpack_u16, unpack_u32. wk.
    - intros d H. unfold fs_as_item in H.
      apply snd_bind_Ok in H as (? & _ & H). apply snd_bind_Ok in H as (? & _ & H). apply snd_bind_Ok in H as (? & _ & H).
      apply snd_bind_Ok in H as (? & H1 & H). unfold fs_file_attribute_flags, unpack_u16 in H1.
      now apply unpack_room in H1.
  Qed.

  Ltac ok_bind H := let a := fresh "a" in let H1 := fresh "H" in apply snd_bind_Ok in H as (a & H1 & H).

  Lemma cpl_outcome rt : outcome_is (needs 10 rt) (cpl_as_item cp rt).
  Proof.
    apply needs_outcome.
    - apply (structs_as_item (Target ControlPanelCPL [] rt [] None None)).
    - intros L. unfold cpl_as_item, cpl_signature, cpl_file_path, cpl_name_string, cpl_comments, cpl_name_offset,
        cpl_comments_offset, cpl_strings_start, unpack_u8, unpack_u16, unpack_u32.
      assert (HU : cpl_is_unicode rt = true -> 22 <= lenN rt).
      { unfold cpl_is_unicode. destruct (N.ltb_spec (lenN rt) 22); [discriminate|auto]. }
      destruct (cpl_is_unicode rt); [specialize (HU eq_refl)|]; wk.
    - intros d H. unfold cpl_as_item in H. do 4 ok_bind H. unfold cpl_comments in H3. ok_bind H3.
      unfold cpl_comments_offset, unpack_u16 in H4. destruct (cpl_is_unicode rt) eqn:E.
      + apply unpack_room in H4; lia.
      + apply unpack_room in H4; lia.
  Qed.
  Lemma cat_outcome rt : outcome_is (needs 10 rt) (cat_as_item rt).
  Proof.
    apply needs_outcome.
    - apply (structs_as_item (Target ControlPanelCategory [] rt [] None None)).
    - intros L. unfold cat_as_item, cat_category, cat_id, unpack_u32. wk.
    - intros d H. unfold cat_as_item in H. ok_bind H. unfold cat_id, unpack_u32 in H0. apply unpack_room in H0; lia.
  Qed.
  Lemma rf_outcome rt : outcome_is (needs 18 rt) (rf_as_item rt).
  Proof.
    apply needs_outcome.
    - apply (structs_as_item (Target RootFolder [] rt [] None None)).
    - intros L. unfold rf_as_item, rf_sort_index_value, get_sort_index, unpack_u8. wk.
    - intros d H. unfold rf_as_item in H. do 3 ok_bind H. apply uuid_room in H2; lia.
  Qed.
  Lemma cpanel_outcome rt : outcome_is (needs 30 rt) (cpanel_as_item rt).
  Proof.
    apply needs_outcome.
    - apply (structs_as_item (Target ControlPanel [] rt [] None None)).
    - intros L. unfold cpanel_as_item. wk.
    - intros d H. unfold cpanel_as_item in H. ok_bind H. apply uuid_room in H0; lia.
  Qed.
  Lemma mc_outcome ty rt : 1 <= lenN rt -> num 1 0 rt = ty -> ty < 256 ->
    outcome_is (if N.testbit ty 0 then None else needs 18 rt) (mc_as_item cp rt).
  Proof.
    intros L1 Hty Hlt. pose proof (unpack_at 1 0 rt ltac:(lia)) as E. change (0 + 1) with 1 in E.
    replace (1 <=? lenN rt) with true in E by lia. rewrite Hty in E.
    destruct (volume_flags ty Hlt) as [_ EB].
    assert (EM : mc_as_item cp rt = if N.testbit ty 0
      then name <- read_string cp (slice 1 21 rt) ;;
           ret (base_item MyComputer ++ [("flags"%string, PStr (hex_text (N.land ty 0x0F))); ("volume_name"%string, PStr name)])
      else id <- parse_uuid (slice 2 18 rt) ;;
           ret (base_item MyComputer ++ [("flags"%string, PStr (hex_text (N.land ty 0x0F))); ("volume_identifier"%string, PStr id)])).
    { unfold mc_as_item, mc_has_name, mc_flags, class_type_indicator, unpack_u8. rewrite E, !bind_ret_l.
      rewrite EB. reflexivity. }
    rewrite EM. destruct (N.testbit ty 0); [unfold outcome_is; wk|]. apply needs_outcome.
    - apply raises_bind; [now apply r_parse_uuid|]. intros. apply raises_ret.
    - intros L. wk.
    - intros d H. ok_bind H. apply uuid_room in H0; lia.
  Qed.
  Lemma uf_outcome rt :
    outcome_is (after_all (needs 10 rt)
      (after_all (needs 12 (slice 10 (10 + num 2 8 rt) rt)) (needs (36 + num 2 2 rt) rt))) (uf_as_item cp rt).
  Proof.
    pose proof (structs_as_item (Target UsersFilesFolder [] rt [] None None)) as HS.
    unfold as_item in HS. cbn [t_class t_raw_target] in HS.
    assert (HE : ~ works (uf_as_item cp rt) -> snd (uf_as_item cp rt) = Err StructError).
    { intros H. destruct (snd (uf_as_item cp rt)) as [d|e] eqn:E; [destruct H; now exists d|]. now rewrite (HS e E). }
    pose proof (unpack_at 2 0 (dropN 8 rt) ltac:(lia)) as E8. change (0 + 2) with 2 in E8.
    rewrite lenN_dropN, num_dropN in E8. change (8 + 0) with 8 in E8.
    pose proof (unpack_at 2 2 rt ltac:(lia)) as E2. change (2 + 2) with 4 in E2.
    unfold needs at 1. destruct (N.ltb_spec (lenN rt) 10) as [L|L]; cbn [after_all].
    - apply HE. intros [d H]. unfold uf_as_item in H. ok_bind H. unfold target_base_init, target_size, unpack_u16 in H0.
      ok_bind H0. rewrite E8 in H1. replace (2 <=? lenN rt - 8) with false in H1 by lia. discriminate H1.
    - replace (2 <=? lenN rt - 8) with true in E8 by lia. replace (4 <=? lenN rt) with true in E2 by lia.
      assert (EI : target_base_init (dropN 8 rt) = ret (slice 10 (10 + num 2 8 rt) rt)).
      { unfold target_base_init, target_size, unpack_u16. rewrite E8, bind_ret_l. f_equal. rewrite slice_dropN. f_equal; lia. }
      pose proof (fs_outcome (slice 10 (10 + num 2 8 rt) rt)) as HF. unfold needs in *.
      destruct (_ <? 12); cbn [after_all outcome_is] in *.
      + apply HE. intros [d H]. unfold uf_as_item in H. ok_bind H. rewrite EI in H0. injection H0 as <-.
        ok_bind H. congruence.
      + assert (EO : uf_delegate_offset rt = ret (4 + num 2 2 rt)).
        { unfold uf_delegate_offset, uf_inner_data_size, unpack_u16. now rewrite E2, bind_ret_l. }
        destruct (N.ltb_spec (lenN rt) (36 + num 2 2 rt)) as [L2|L2].
        * apply HE. intros [d H]. unfold uf_as_item in H. do 6 ok_bind H. rewrite EO in H4. injection H4 as <-.
          apply uuid_room in H5; lia.
        * cbn. unfold uf_as_item. rewrite EI, EO, bind_ret_l. destruct HF as [e HF].
          apply works_bind; [now exists e|]. intros e' _. rewrite bind_ret_l.
          apply works_bind_any; [wk|]. intros c. rewrite bind_ret_l. wk.
  Qed.

  (** The class the code takes for each type. *)
  Definition class_for (ty : N) : target_class :=
    match ty / 16 mod 8 with
    | 2 => MyComputer | 3 => ShellFSFolder | 4 => NetworkLocation
    | _ =>
      match ty with
      | 0x00 => ControlPanelCPL | 0x01 => ControlPanelCategory | 0x1E | 0x1F => RootFolder | 0x52 => CompressedFolder
      | 0x61 => Internet | 0x70 | 0x71 => ControlPanel | 0x72 => Printers | 0x73 => CommonPlacesFolder
      | 0x74 => UsersFilesFolder | _ => UnknownTarget
      end
    end.
  Lemma class_for_byte b : snd (class_step (b2n b)) = Ok (class_for (b2n b)).
  Proof. destruct b; vm_compute; reflexivity. Qed.

  Definition error_for (c : target_class) (ty : N) (rt : bytes) : option exn :=
    match c with
    | MyComputer => if N.testbit ty 0 then None else needs 18 rt
    | ShellFSFolder => needs 12 rt
    | NetworkLocation =>
      after_all (needs 3 rt) (if nuls (dropN 3 rt) <? extra_strings (num 1 2 rt) then Some RuntimeError else None)
    | ControlPanelCPL | ControlPanelCategory => needs 10 rt
    | RootFolder => needs 18 rt
    | ControlPanel => needs 30 rt
    | UsersFilesFolder =>
      after_all (needs 10 rt) (after_all (needs 12 (slice 10 (10 + num 2 8 rt) rt)) (needs (36 + num 2 2 rt) rt))
    | _ => None
    end.
  Lemma item_error_byte b rt : item_error (b2n b) rt = error_for (class_for (b2n b)) (b2n b) rt.
  Proof. destruct b; reflexivity. Qed.

  (** The fields of an item for which the constructor of the class has succeeded. *)
  Lemma as_item_outcome c ty raw rt s1 s2 s3 : 1 <= lenN rt -> num 1 0 rt = ty -> ty < 256 -> 2 <= lenN raw ->
    (c = NetworkLocation -> 3 <= lenN rt) ->
    outcome_is (match c with NetworkLocation => None | _ => error_for c ty rt end) (as_item cp (Target c raw rt s1 s2 s3)).
  Proof.
    intros L1 Hty Hlt L2 HN. unfold as_item. cbn [t_class t_raw_target t_raw]. destruct c; cbn [error_for].
    - apply cpl_outcome.
    - apply cat_outcome.
    - apply rf_outcome.
    - now apply mc_outcome.
    - apply fs_outcome.
    - exact (network_as_item cp (Target NetworkLocation raw rt s1 s2 s3) eq_refl (HN eq_refl)).
    - apply works_ret.
    - apply works_ret.
    - apply cpanel_outcome.
    - apply works_ret.
    - apply works_ret.
    - apply uf_outcome.
    - unfold outcome_is, unknown_as_item, target_size, unpack_u16. wk.
  Qed.

  Lemma num1_nth i l (b : byte) r : lenN l = i -> num 1 i (l ++ b :: r) = b2n b.
  Proof.
    intros H. unfold num. rewrite dropN_app_exact by assumption. cbn [takeN]. change (N.pred 1) with 0.
    rewrite takeN_0. change (1 =? 0) with false. cbn [le_val]. now rewrite N.mul_0_r, N.add_0_r.
  Qed.
  (** One item: [next_target], then [as_item]. *)
  Lemma item_outcome rest : 3 <= lenN rest -> num 2 0 rest <> 0 ->
    match item_error (num 1 2 rest) (slice 2 (2 + num 2 0 rest) rest) with
    | None => exists t, snd (next_target cp rest) = Ok (Some (t, dropN (num 2 0 rest) rest)) /\ works (as_item cp t)
    | Some e =>
      (e = StructError \/ e = RuntimeError)
      /\ (snd (next_target cp rest) = Err e
          \/ exists t r, snd (next_target cp rest) = Ok (Some (t, r)) /\ snd (as_item cp t) = Err e)
    end.
  Proof.
    intros L Hn. destruct rest as [|x0 [|x1 [|b r]]]; [cbn in L; lia..|].
    assert (E2 : unpack_le 2 (slice 0 2 (x0 :: x1 :: b :: r)) = ret (num 2 0 (x0 :: x1 :: b :: r))).
    { pose proof (unpack_at 2 0 (x0 :: x1 :: b :: r) ltac:(lia)) as H. change (0 + 2) with 2 in H.
      replace (2 <=? lenN (x0 :: x1 :: b :: r)) with true in H by lia. exact H. }
    assert (E3 : num 1 2 (x0 :: x1 :: b :: r) = b2n b).
    { apply num1_nth with (l := [x0; x1]). reflexivity. }
    assert (E4 : unpack_le 1 (slice 2 3 (x0 :: x1 :: b :: r)) = ret (b2n b)).
    { pose proof (unpack_at 1 2 (x0 :: x1 :: b :: r) ltac:(lia)) as H. change (2 + 1) with 3 in H.
      replace (3 <=? lenN (x0 :: x1 :: b :: r)) with true in H by lia. now rewrite E3 in H. }
    rewrite E3. set (n := num 2 0 (x0 :: x1 :: b :: r)) in *.
    set (rest := x0 :: x1 :: b :: r) in *. set (rt := slice 2 (2 + n) rest).
    assert (Lrt : 1 <= lenN rt) by (unfold rt; rewrite lenN_slice; lia).
    assert (Hty : num 1 0 rt = b2n b).
    { unfold rt, slice. replace (dropN 2 rest) with (b :: r) by (vm_compute; destruct r; reflexivity).
      cbn [takeN]. replace (2 + n - 2 =? 0) with false by lia. now apply num1_nth with (l := []). }
    rewrite item_error_byte.
    assert (HT : next_target cp rest
      = in_generator (c <- (class_step (b2n b)) ;; t <- target_init c cp rest ;; ret (Some (t, dropN n rest)))).
    { unfold next_target, tf_target_class, tf_item_size, tf_item_type, unpack_u16, unpack_u8. unfold rest at 1.
      rewrite E2, !bind_ret_l, E4, !bind_ret_l. apply N.eqb_neq in Hn. rewrite Hn. cbv zeta. rewrite bind_assoc.
      f_equal. fold (class_step (b2n b)). destruct (class_step (b2n b)) as [w [c|e]]; [|reflexivity].
      cbn [bind]. rewrite bind_ret_l. destruct (target_init c cp rest) as [w' [t|e]]; [|reflexivity].
      reflexivity. }
    pose proof (class_for_byte b) as HC.
    assert (HB : target_base_init rest = ret rt).
    { unfold target_base_init, target_size, unpack_u16. now rewrite E2, bind_ret_l. }
    rewrite HT. clear HT. destruct (class_step (b2n b)) as [w [c|e]]; [|discriminate HC]. cbn [snd] in HC. injection HC as ->.
    set (c := class_for (b2n b)) in *.
    assert (HG : forall x, snd (target_init c cp rest) = Ok x ->
      snd (in_generator (bind (w, Ok c) (fun c => t <- target_init c cp rest ;; ret (Some (t, dropN n rest))))) = Ok (Some (x, dropN n rest))).
    { intros x Hx. destruct (target_init c cp rest) as [w' r'] eqn:E. cbn [snd] in Hx. subst r'. cbn [bind]. rewrite E. reflexivity. }
    assert (HR : forall e, snd (target_init c cp rest) = Err e ->
      snd (in_generator (bind (w, Ok c) (fun c => t <- target_init c cp rest ;; ret (Some (t, dropN n rest)))))
      = Err (match e with StopIteration => RuntimeError | _ => e end)).
    { intros e He. destruct (target_init c cp rest) as [w' r'] eqn:E. cbn [snd] in He. subst r'. cbn [bind]. rewrite E. destruct e; reflexivity. }
    assert (HI : c <> NetworkLocation -> target_init c cp rest = ret (Target c rest rt [] None None)).
    { intros H. unfold target_init. rewrite HB, bind_ret_l. destruct c; try reflexivity. now destruct H. }
    assert (L2 : 2 <= lenN rest) by lia.
    assert (HD : c = NetworkLocation \/ c <> NetworkLocation) by (destruct c; (now left) || (now right)).
    destruct HD as [HD|HD].
    - rewrite HD. cbn [error_for]. unfold needs. destruct (N.ltb_spec (lenN rt) 3) as [L3|L3]; cbn [after_all].
      + split; [now left|]. left. rewrite <- HD. apply (HR StructError).
        unfold target_init. rewrite HB, bind_ret_l, HD. unfold nl_init_strings.
        pose proof (split_nul_count (dropN 3 rt) []) as HCN. unfold read_strings.
        destruct (split_nul [] (dropN 3 rt)) as [|s1 l1] eqn:E1; [cbn in HCN; lia|].
        destruct (proj2 (next_strings cp _ Hcp) s1 l1 eq_refl) as (w1 & t1 & ->).
        unfold nl_has_description, nl_content_flags, unpack_u8. rewrite unpack_le_bad by (rewrite lenN_slice; lia). reflexivity.
      + pose proof (network_strings cp rt Hcp L3) as HNS. cbv zeta in HNS.
        assert (EN : b2n (nth 2 rt x00) = num 1 2 rt).
        { destruct rt as [|y0 [|y1 [|y2 rt']]]; [cbn in L3; lia..|]. cbn [nth]. symmetry. apply (num1_nth 2 [y0; y1]). reflexivity. }
        rewrite EN in HNS. destruct (_ <? _).
        * split; [now right|]. left. rewrite <- HD. apply (HR StopIteration). unfold target_init. rewrite HB, bind_ret_l, HD.
          rewrite snd_bind, HNS. reflexivity.
        * destruct HNS as [[[s1 s2] s3] HNS]. exists (Target c rest rt s1 s2 s3). split.
          -- rewrite <- HD. apply HG. unfold target_init. rewrite HB, bind_ret_l, HD. rewrite snd_bind, HNS. reflexivity.
          -- pose proof (as_item_outcome c (b2n b) rest rt s1 s2 s3 Lrt Hty (b2n_lt b) L2 (fun _ => L3)) as HO.
             rewrite HD in *. exact HO.
    - specialize (HI HD). pose proof (HG _ (f_equal snd HI)) as HN.
      pose proof (as_item_outcome c (b2n b) rest rt [] None None Lrt Hty (b2n_lt b) L2 (fun E => False_ind _ (HD E))) as HO.
      replace (match c with NetworkLocation => None | _ => error_for c (b2n b) rt end) with (error_for c (b2n b) rt) in HO
        by (destruct c; reflexivity || now destruct HD).
      destruct (error_for c (b2n b) rt) as [e|] eqn:EE.
      + cbn [outcome_is] in HO. split; [|right; eexists _, _; split; [exact HN|exact HO]].
        left. apply (structs_as_item _ _ HO).
      + eexists. split; [exact HN|exact HO].
  Qed.

  Lemma items_loop_outcome rest o : items_outcome rest o ->
    forall fuel, (length rest < fuel)%nat -> outcome_is o (items_loop fuel cp rest).
  Proof.
    induction 1 as [rest H|rest H|rest e L Hn He|rest o L Hn He _ IH]; intros fuel Hf; (destruct fuel as [|fuel]; [lia|]); cbn [items_loop].
    - assert (E : next_target cp rest = ret None).
      { destruct H as [-> |[L H]]; [reflexivity|]. destruct rest as [|x r]; [reflexivity|].
        unfold next_target, tf_target_class, tf_item_size, unpack_u16.
        pose proof (unpack_at 2 0 (x :: r) ltac:(lia)) as E. change (0 + 2) with 2 in E.
        replace (2 <=? lenN (x :: r)) with true in E by lia. rewrite E, H. reflexivity. }
      rewrite E, bind_ret_l. apply works_ret.
    - assert (E : snd (next_target cp rest) = Err StructError).
      { unfold next_target, tf_target_class, tf_item_size, tf_item_type, unpack_u16, unpack_u8.
        pose proof (unpack_at 2 0 rest ltac:(lia)) as E. change (0 + 2) with 2 in E. rewrite E.
        destruct rest as [|x r]; [cbn in H; lia|]. destruct H as [H|[H Hn]].
        - replace (2 <=? lenN (x :: r)) with false by lia. reflexivity.
        - replace (2 <=? lenN (x :: r)) with true by lia. rewrite !bind_ret_l. apply N.eqb_neq in Hn. rewrite Hn.
          rewrite unpack_le_bad by (rewrite lenN_slice; lia). reflexivity. }
      cbn [outcome_is]. rewrite snd_bind, E. reflexivity.
    - pose proof (item_outcome rest L Hn) as HI. rewrite He in HI. destruct HI as [He2 HI].
      assert (HK : is_key_error e = false) by (destruct He2; now subst e).
      cbn [outcome_is]. rewrite snd_bind. destruct HI as [-> |(t & r & -> & HA)]; [reflexivity|].
      rewrite snd_bind. unfold try_except. destruct (as_item cp t) as [w [d|e']]; cbn [snd] in HA; [discriminate HA|].
      injection HA as ->. cbn [bind]. rewrite HK. reflexivity.
    - pose proof (item_outcome rest L Hn) as HI. rewrite He in HI. destruct HI as (t & HN & d & HA).
      assert (HF : (length (dropN (num 2 0 rest) rest) < fuel)%nat).
      { assert (Hne : rest <> []) by (intros ->; cbn in L; lia). pose proof (dropN_shorter _ rest Hn Hne). lia. }
      specialize (IH fuel HF). unfold try_except. destruct (as_item cp t) as [w [d'|e']] eqn:EA; cbn [snd] in HA; [|discriminate HA].
      assert (HB : exists k, snd (r <- next_target cp rest ;;
         match r with
         | Some (t0, rest') =>
           item <- (match d0 <- as_item cp t0 ;; ret [PDict d0] with
                    | (w0, Err e) => if is_key_error e then let (w', r0) := warn (WTarget (target_name (t_class t0))) ;;; ret [] in (w0 ++ w', r0) else (w0, Err e)
                    | (w0, Ok _) => d0 <- as_item cp t0 ;; ret [PDict d0]
                    end) ;; items <- items_loop fuel cp rest' ;; ret (item ++ items)
         | None => ret []
         end) = match snd (items_loop fuel cp (dropN (num 2 0 rest) rest)) with Ok l => Ok (k :: l) | Err e => Err e end).
      { exists (PDict d'). rewrite snd_bind, HN, snd_bind, EA. cbn [bind ret snd]. rewrite snd_bind.
        destruct (snd (items_loop fuel cp _)); reflexivity. }
      destruct HB as [k HB]. destruct o as [e|]; cbn [outcome_is] in *.
      + rewrite HB, IH. reflexivity.
      + destruct IH as [l IH]. exists (k :: l). rewrite HB, IH. reflexivity.
  Qed.
  Lemma items_of_outcome rest o : items_outcome rest o -> outcome_is o (items_of cp rest).
  Proof. intros H. apply items_loop_outcome; [assumption|lia]. Qed.
End Items.

Lemma items_outcome_total rest : exists o, items_outcome rest o.
Proof.
  remember (length rest) as n eqn:E. revert rest E. induction n as [n IH] using lt_wf_ind. intros rest ->.
  destruct rest as [|x r]; [exists None; apply items_end; now left|]. set (rest := x :: r) in *.
  assert (L1 : 1 <= lenN rest) by (unfold rest; rewrite lenN_cons; lia).
  destruct (N.eq_dec (lenN rest) 1) as [E1|E1]; [eexists; apply items_cut; now left|].
  destruct (N.eq_dec (num 2 0 rest) 0) as [E2|E2]; [eexists; apply items_end; right; split; [lia|exact E2]|].
  destruct (N.eq_dec (lenN rest) 2) as [E3|E3]; [eexists; apply items_cut; now right|].
  destruct (item_error (num 1 2 rest) (slice 2 (2 + num 2 0 rest) rest)) as [e|] eqn:E4.
  - eexists. apply items_bad; [lia|exact E2|exact E4].
  - assert (Hne : rest <> []) by discriminate.
    destruct (IH _ (dropN_shorter _ rest E2 Hne) _ eq_refl) as [o Ho]. exists o. apply items_next; [lia|assumption..].
Qed.

Lemma item_error_kinds ty rt e : ty < 256 -> item_error ty rt = Some e -> e = StructError \/ e = RuntimeError.
Proof.
  intros Hlt. pattern ty. apply by_bytes; [|assumption]. clear ty Hlt. intros b. rewrite item_error_byte.
  assert (HN : forall n r, needs n r = Some e -> e = StructError) by (intros n r; unfold needs; destruct (_ <? _); congruence).
  destruct (class_for (b2n b)); cbn [error_for]; intros H; try discriminate H; eauto.
  - destruct (N.testbit _ 0); [discriminate H|eauto].
  - unfold after_all in H. destruct (needs 3 rt) eqn:E; [left; eapply HN; rewrite E; exact H|].
    destruct (_ <? _); [right; congruence|discriminate H].
  - unfold after_all in H. destruct (needs 10 rt) eqn:E1; [left; eapply HN; rewrite E1; exact H|].
    destruct (needs 12 _) eqn:E2; [left; eapply HN; rewrite E2; exact H|eauto].
Qed.
Lemma items_outcome_kinds rest o : items_outcome rest o -> o = None \/ o = Some StructError \/ o = Some RuntimeError.
Proof.
  induction 1 as [| |rest e L Hn He|]; auto.
  assert (Hlt : num 1 2 rest < 256).
  { unfold num. destruct (takeN 1 (dropN 2 rest)) as [|x [|y r]] eqn:E; cbn [le_val]; [lia| |].
    - pose proof (b2n_lt x). lia.
    - apply (f_equal lenN) in E. rewrite lenN_takeN, !lenN_cons in E. lia. }
  destruct (item_error_kinds _ _ _ Hlt He); subst; auto.
Qed.

(** ** Extra blocks *)

Notation caught := (raises (fun e => is_struct_or_value_error e = true)).

Ltac rfields := apply r_fields; let k := fresh "key" in let m := fresh "m" in intros k m Hin; cbn [In app base_fields] in Hin;
  repeat (destruct Hin as [[= <- <-]|Hin]); [..|contradiction].

Lemma others_caught cp c raw : usable cp -> c <> Darwin -> c <> ShellItem -> caught (extra_as_dict cp (Extra c raw)).
Proof.
  intros Hcp H1 H2. assert (PS : is_struct_or_value_error StructError = true) by reflexivity.
  assert (PL : cp = CpUnknown -> is_struct_or_value_error LookupError = true) by (intros E; now destruct Hcp).
  unfold extra_as_dict. cbn [ex_class ex_raw]. destruct c; try (now destruct H1); try (now destruct H2);
    try (apply r_metadata_dict; reflexivity);
    unfold environment_dict, console_dict, tracker_dict, code_page_dict, special_folder_dict,
        known_folder_dict, shim_dict, unknown_extra_dict, terminal_dict;
      rfields;
      unfold base_size, terminal_size,
        str_field, ustr_field, u16_field, i16_field, u32_field, uuid_field; rsolve.
Qed.

Lemma base_size_num raw : 4 <= lenN raw -> base_size raw = ret (num 4 0 raw).
Proof.
  intros L. unfold base_size. pose proof (unpack_u32_at 0 raw) as E. change (0 + 4) with 4 in E. rewrite E.
  now replace (4 <=? lenN raw) with true by lia.
Qed.

Lemma err_bind {A B} e (m : M A) (f : A -> M B) : snd m = Err e -> snd (bind m f) = Err e.
Proof. intros H. now rewrite snd_bind, H. Qed.
Lemma works_then {A B} o (m : M A) (f : A -> M B) : works m -> (forall a, snd m = Ok a -> outcome_is o (f a)) -> outcome_is o (bind m f).
Proof.
  intros Hm Hf. destruct o; cbn [outcome_is] in *; [|now apply works_bind].
  destruct Hm as [a Ha]. rewrite snd_bind, Ha. now apply Hf.
Qed.
Lemma outcome_ret {A B} o (m : M A) (f : A -> B) : outcome_is o m -> outcome_is o (a <- m ;; ret (f a)).
Proof. destruct o; cbn [outcome_is]; intros H; [now apply err_bind|]. apply works_bind_any; [assumption|]. intros. apply works_ret. Qed.

Lemma quad_works q : 5 <= lenN q -> works (quad_to_hex q).
Proof.
  intros L. destruct q as [|a [|b [|c [|d [|e q]]]]];
    try (exfalso; rewrite ?lenN_cons in L; cbn in L; lia). now eexists.
Qed.
Lemma quad_short q : lenN q < 5 -> snd (quad_to_hex q) = Err IndexError.
Proof.
  intros L. destruct q as [|a [|b [|c [|d [|e q]]]]]; try reflexivity.
  rewrite !lenN_cons in L. lia.
Qed.
Lemma packed_outcome t : outcome_is (if lenN t <? 20 then Some IndexError else None) (parse_packed_uuid t).
Proof.
  unfold parse_packed_uuid. destruct (N.ltb_spec (lenN t) 20) as [L|L]; cbn [outcome_is].
  - destruct (N.lt_ge_cases (lenN (slice 0 5 t)) 5) as [H0|H0]; [now apply err_bind, quad_short|].
    apply (works_then (Some IndexError)); [now apply quad_works|]. intros ? _. cbn [outcome_is].
    destruct (N.lt_ge_cases (lenN (slice 5 10 t)) 5) as [H1|H1]; [now apply err_bind, quad_short|].
    apply (works_then (Some IndexError)); [now apply quad_works|]. intros ? _. cbn [outcome_is].
    destruct (N.lt_ge_cases (lenN (slice 10 15 t)) 5) as [H2|H2]; [now apply err_bind, quad_short|].
    apply (works_then (Some IndexError)); [now apply quad_works|]. intros ? _. cbn [outcome_is].
    apply err_bind, quad_short. rewrite lenN_slice. lia.
  - cbv zeta. repeat (apply works_bind_any; [apply quad_works; rewrite lenN_slice; lia|intros ?]). apply works_ret.
Qed.

Lemma short_first t : lenN t < 20 \/ ~ short_descriptor t \/
  exists before component, t = before ++ 62 :: component /\ ~ In 62 before /\ lenN component < 20.
Proof.
  destruct (N.lt_ge_cases (lenN t) 20) as [L|L]; [now left|right].
  destruct (in_dec N.eq_dec 62 t) as [Hi|Hi].
  - assert (HS : exists a c, t = a ++ 62 :: c /\ ~ In 62 a).
    { clear L. induction t as [|x t IH]; [destruct Hi|]. destruct (N.eq_dec x 62) as [->|Hx].
      - exists [], t. split; [reflexivity|intros []].
      - destruct IH as (a & c & -> & Ha); [destruct Hi; [contradiction|assumption]|].
        exists (x :: a), c. split; [reflexivity|]. intros [E|E]; [contradiction|now apply Ha]. }
    destruct HS as (a & c & -> & Ha). destruct (N.lt_ge_cases (lenN c) 20) as [Lc|Lc]; [right; eauto 6|left].
    intros [H|(a' & c' & E & Ha' & Lc')]; [lia|].
    assert (EZ : forall x y : text, find_char 62 (a ++ 62 :: c) 0 = find_char 62 (a' ++ 62 :: c') 0) by (intros; now rewrite E).
    specialize (EZ [] []). rewrite !find_char_skip, !find_char_here in EZ by assumption.
    apply (f_equal lenN) in E. rewrite !lenN_app, !lenN_cons in E. lia.
  - left. intros [H|(a & c & E & _ & _)]; [lia|]. apply Hi. rewrite E. apply in_app_iff. right. now left.
Qed.

Lemma fields_cons name m l : fields ((name, m) :: l) = (v <- m ;; d <- fields l ;; ret ((name, v) :: d)).
Proof. reflexivity. Qed.
Lemma fields_step o name m l : works m -> outcome_is o (fields l) -> outcome_is o (fields ((name, m) :: l)).
Proof. intros Hm Hl. rewrite fields_cons. apply works_then; [assumption|]. intros a _. now apply outcome_ret. Qed.
Lemma fields_err e name m l : snd m = Err e -> outcome_is (Some e) (fields ((name, m) :: l)).
Proof. intros H. rewrite fields_cons. now apply err_bind. Qed.

Lemma darwin_outcome cp raw : usable cp -> 4 <= lenN raw ->
  (short_descriptor (wide_text (slice 268 788 raw)) -> snd (darwin_dict cp raw) = Err IndexError)
  /\ (~ short_descriptor (wide_text (slice 268 788 raw)) -> works (darwin_dict cp raw)).
Proof.
  intros Hcp L. set (t := wide_text _).
  assert (HU : exists w, darwin_data_unicode raw = (w, Ok t)).
  { unfold darwin_data_unicode. rewrite read_unicode_field. now eexists. }
  destruct HU as [w HU].
  assert (HD : works (darwin_data_unicode raw)) by (rewrite HU; now eexists).
  assert (HV : forall a, snd (darwin_data_unicode raw) = Ok a -> a = t) by (rewrite HU; cbn; congruence).
  assert (HP : outcome_is (if lenN t <? 20 then Some IndexError else None) (product_code_id raw)).
  { unfold product_code_id. apply works_then; [assumption|]. intros a Ha. rewrite (HV a Ha).
    pose proof (packed_outcome (slice 0 20 t)) as HP. rewrite lenN_slice in HP.
    destruct (N.ltb_spec (lenN t) 20) as [Lt|Lt].
    - replace (N.min (20 - 0) (lenN t - 0) <? 20) with true in HP by lia. exact HP.
    - replace (N.min (20 - 0) (lenN t - 0) <? 20) with false in HP by lia. exact HP. }
  assert (HF : works (feature_name raw)).
  { unfold feature_name. apply works_bind_any; [assumption|]. intros a. cbv zeta.
    destruct (_ =? _)%Z; [apply works_ret|]. destruct (_ <? _)%Z; apply works_ret. }
  assert (HC : forall a c, t = a ++ 62 :: c -> ~ In 62 a ->
               outcome_is (if lenN c <? 20 then Some IndexError else None) (component_id raw)).
  { intros a c E Ha. unfold component_id. apply works_then; [assumption|]. intros a0 H0. rewrite (HV a0 H0). cbv zeta.
    rewrite E, find_char_skip, find_char_here by assumption.
    replace (0 + Z.of_N (lenN a) =? -1)%Z with false by lia.
    apply outcome_ret. replace (Z.to_N _) with (lenN (a ++ [62])) by (rewrite lenN_app; cbn; lia).
    change (62 :: c) with ([62] ++ c). rewrite app_assoc, dropN_app_exact by reflexivity. apply packed_outcome. }
  assert (HN : ~ In 62 t -> works (component_id raw)).
  { intros H. unfold component_id. apply works_bind; [assumption|]. intros a0 H0. rewrite (HV a0 H0). cbv zeta.
    rewrite find_char_none by assumption. apply works_ret. }
  assert (HA : works (str_field cp 8 268 raw)).
  { unfold str_field. wk. }
  assert (HB : works (base_size raw)) by (rewrite base_size_num by assumption; apply works_ret).
  unfold darwin_dict, base_fields. cbn [app].
  split.
  - intros HS. change (outcome_is (Some IndexError) (fields
      [("size"%string, n <- base_size raw ;; ret (PN n)); ("darwin_data_ansi"%string, str_field cp 8 268 raw);
       ("darwin_data_unicode"%string, t <- darwin_data_unicode raw ;; ret (PStr t));
       ("product_code_id"%string, t <- product_code_id raw ;; ret (PStr t));
       ("feature_name"%string, t <- feature_name raw ;; ret (POpt PStr t));
       ("component_id"%string, t <- component_id raw ;; ret (POpt PStr t))])).
    do 3 (apply fields_step; [wk|]).
    destruct (N.ltb_spec (lenN t) 20) as [Lt|Lt]; [now apply fields_err, err_bind|].
    do 2 (apply fields_step; [wk|]).
    destruct HS as [HS|(a & c & E & Ha & Lc)]; [lia|]. specialize (HC a c E Ha).
    replace (lenN c <? 20) with true in HC by lia. now apply fields_err, err_bind.
  - intros HS. destruct (N.ltb_spec (lenN t) 20) as [Lt|Lt]; [destruct HS; now left|].
    assert (HK : works (component_id raw)).
    { destruct (in_dec N.eq_dec 62 t) as [Hi|Hi]; [|now apply HN].
      assert (EX : exists a c, t = a ++ 62 :: c /\ ~ In 62 a).
      { clear -Hi. induction t as [|x t IH]; [destruct Hi|]. destruct (N.eq_dec x 62) as [->|Hx].
        - exists [], t. split; [reflexivity|intros []].
        - destruct IH as (a & c & -> & Ha); [destruct Hi; [contradiction|assumption]|].
          exists (x :: a), c. split; [reflexivity|]. intros [E|E]; [contradiction|now apply Ha]. }
      destruct EX as (a & c & E & Ha). specialize (HC a c E Ha).
      destruct (N.ltb_spec (lenN c) 20) as [Lc|Lc]; [|exact HC]. destruct HS. right. eauto 6. }
    repeat (rewrite fields_cons; apply works_bind_any; [wk|intros ?]; apply works_bind_any; [|intros ?; apply works_ret]).
    apply works_ret.
Qed.

Lemma shell_outcome cp raw o : usable cp -> 4 <= lenN raw -> items_outcome (slice 8 (num 4 0 raw) raw) o ->
  outcome_is o (shell_item_dict cp raw).
Proof.
  intros Hcp L HO. unfold shell_item_dict, base_fields. cbn [app]. rewrite base_size_num by assumption.
  rewrite fields_cons. apply works_then; [wk|intros ? _]. apply outcome_ret.
  rewrite fields_cons, bind_ret_l. cbn [fields].
  pose proof (items_of_outcome cp Hcp _ _ HO) as HI. destruct o; cbn [outcome_is] in *; [now apply err_bind, err_bind|]. wk.
Qed.

Lemma items_outcome_det rest o1 o2 : items_outcome rest o1 -> items_outcome rest o2 -> o1 = o2.
Proof.
  intros H1 H2. assert (Hcp : usable CpNone) by discriminate.
  apply (items_of_outcome _ Hcp) in H1, H2. destruct o1, o2; cbn [outcome_is] in *;
    [congruence|destruct H2; congruence|destruct H1; congruence|reflexivity].
Qed.

Lemma block_outcome cp sig raw : usable cp -> 4 <= lenN raw ->
  (exists e, block_escape sig raw e /\ is_struct_or_value_error e = false /\ snd (extra_as_dict cp (mk_block (sig, raw))) = Err e)
  \/ ((forall e, ~ block_escape sig raw e) /\ caught (extra_as_dict cp (mk_block (sig, raw)))).
Proof.
  intros Hcp L. unfold mk_block. cbn [fst snd]. rewrite sig_class_num.
  destruct (N.eq_dec sig 0xA0000006) as [->|H6].
  { unfold extra_as_dict. cbn [class_of_sig ex_class ex_raw].
    destruct (darwin_outcome cp raw Hcp L) as [D1 D2]. set (t := wide_text _) in *.
    assert (HD : short_descriptor t \/ ~ short_descriptor t).
    { destruct (short_first t) as [H|[H|H]]; [left; now left|now right|left; now right]. }
    destruct HD as [HD|HD].
    - left. exists IndexError. split; [now apply darwin_escape|]. split; [reflexivity|auto].
    - right. split; [intros e [_ HE|E _]; [now apply HD|discriminate E]|]. destruct (D2 HD) as [d Hd].
      intros e He. rewrite Hd in He. discriminate He. }
  destruct (N.eq_dec sig 0xA000000C) as [->|HC].
  { unfold extra_as_dict. cbn [class_of_sig ex_class ex_raw].
    destruct (items_outcome_total (slice 8 (num 4 0 raw) raw)) as [o Ho].
    pose proof (shell_outcome cp raw o Hcp L Ho) as HO.
    assert (HR : o = Some RuntimeError \/ o <> Some RuntimeError /\ caught (shell_item_dict cp raw)).
    { destruct (items_outcome_kinds _ _ Ho) as [->|[->| ->]]; [right|right|now left]; (split; [discriminate|]); cbn [outcome_is] in HO.
      - destruct HO as [d Hd]. intros e He. rewrite Hd in He. discriminate He.
      - intros e He. rewrite HO in He. now injection He as <-. }
    destruct HR as [->|[HR1 HR2]].
    - left. exists RuntimeError. split; [now apply id_list_escape|]. split; [reflexivity|exact HO].
    - right. split; [|assumption]. intros e [E _|_ HE]; [discriminate E|]. apply HR1. now apply (items_outcome_det _ _ _ Ho). }
  right. split; [intros e [E _|E _]; contradiction|].
  apply others_caught; [assumption|..]; revert H6 HC; pattern sig; apply by_sigs.
  all: try (repeat constructor; intros ? ? E; first [discriminate E | congruence]).
  all: intros n Hn _ _ E; apply Hn; unfold class_of_sig in E;
    repeat match type of E with context [match ?p with _ => _ end] => destruct p; try discriminate E end;
    cbn; tauto.
Qed.

Lemma try_outcome {A} (m : M A) p h e : snd m = Err e -> p e = false -> snd (try_except m p h) = Err e.
Proof. destruct m as [w [a|x]]; cbn; [discriminate|]. intros [= ->] Hp. now rewrite Hp. Qed.
Lemma try_works {A} (m : M A) p h : raises (fun e => p e = true) m -> works h -> works (try_except m p h).
Proof.
  destruct m as [w [a|x]]; cbn; intros Hm Hh; [now eexists|]. rewrite (Hm x eq_refl).
  destruct Hh as [a Ha]. destruct h as [wh rh]. cbn in *. subst. now eexists.
Qed.

Lemma add_outcome cp res sig raw : usable cp -> 4 <= lenN raw ->
  (exists e, block_escape sig raw e /\ snd (add_block cp res (mk_block (sig, raw))) = Err e)
  \/ ((forall e, ~ block_escape sig raw e) /\ works (add_block cp res (mk_block (sig, raw)))).
Proof.
  intros Hcp L. destruct (block_outcome cp sig raw Hcp L) as [(e & He & Hp & Hs)|[Hn Hc]].
  - left. exists e. split; [assumption|]. unfold add_block. cbv zeta.
    destruct (ex_class _); apply try_outcome; try assumption; now apply err_bind.
  - right. split; [assumption|]. unfold add_block. cbv zeta.
    destruct (ex_class _); (apply try_works; [apply raises_bind; [assumption|intros; apply raises_ret]|wk]).
Qed.

Lemma extras_outcome cp blocks res : usable cp -> sizes_readable blocks ->
  exists o, blocks_outcome blocks o /\ outcome_is o (extras_loop cp res (map mk_block blocks)).
Proof.
  intros Hcp HR. revert res. induction HR as [|[sig raw] blocks Hb HR IH]; intros res.
  - exists None. split; [constructor|apply works_ret].
  - cbn [map extras_loop]. cbn [snd] in Hb.
    destruct (add_outcome cp res sig raw Hcp) as [(e & He & Hs)|[Hn [d Hd]]]; [cbn in Hb; lia| |].
    + exists (Some e). split; [now apply block_fails|]. cbn [outcome_is]. now apply err_bind.
    + destruct (IH d) as (o & Ho & Hl). exists o. split; [now apply block_passes|].
      apply works_then; [now exists d|]. intros a Ha. replace a with d by congruence. exact Hl.
Qed.

Lemma block_escape_det sig raw e1 e2 : block_escape sig raw e1 -> block_escape sig raw e2 -> e1 = e2.
Proof. intros [E1 _|E1 _] [E2 _|E2 _]; try reflexivity; rewrite E1 in E2; discriminate E2. Qed.
Lemma blocks_outcome_det blocks o1 o2 : blocks_outcome blocks o1 -> blocks_outcome blocks o2 -> o1 = o2.
Proof.
  intros H1. revert o2. induction H1 as [|sig raw rest e He|sig raw rest o Hn _ IH]; intros o2 H2; inversion H2; subst.
  - reflexivity.
  - f_equal. eapply block_escape_det; eassumption.
  - exfalso. firstorder.
  - exfalso. firstorder.
  - now apply IH.
Qed.

(** ** Header, ID list and LinkInfo *)

Lemma works_filetime i j b : j = i + 8 -> j <= lenN b -> works (parse_filetime (slice i j b)).
Proof. intros H1 H2. unfold parse_filetime, unpack_i64. wk. Qed.
Lemma works_hot_key raw : 66 <= lenN raw -> works (hot_key raw).
Proof.
  intros L. unfold hot_key. cbv zeta. assert (E : lenN (slice 64 66 raw) = 2) by (rewrite lenN_slice; lia).
  destruct (slice 64 66 raw) as [|x [|y [|z r]]]; rewrite ?lenN_cons in E; try (exfalso; cbn in E; lia). wk.
Qed.
Lemma header_outcome raw : outcome_is (needs 76 raw) (header_dict raw).
Proof.
  apply needs_outcome.
  - now apply r_header_dict.
  - intros L. unfold header_dict.
    repeat match goal with |- works (fields (_ :: _)) => apply (fields_step None); [|cbn [outcome_is]] end;
      [..|apply works_ret];
      unfold link_cls_id, r_link_flags, r_file_flags, creation_time, access_time, write_time, file_size, icon_index,
        window_style, raw_hot_key, link_flags, file_flags, header_size, reserved0, reserved1, reserved2, must_be_N,
        must_be_text, r_link_flags, r_file_flags, unpack_i32, unpack_u32, unpack_u16;
      match goal with
      | |- works (bind (hot_key _) _) => apply works_bind_any; [now apply works_hot_key; lia|intros; apply works_ret]
      | |- works (bind (parse_filetime _) _) => apply works_bind_any; [apply works_filetime; lia|intros; apply works_ret]
      | _ => wk
      end.
  - intros d Hd. unfold header_dict in Hd. apply (fields_row _ _ "reserved2" (n <- reserved2 raw ;; ret (PN n))) in Hd as [v Hv].
    + apply snd_bind_Ok in Hv as (n & Hn & _). unfold reserved2, must_be_N in Hn. apply snd_bind_Ok in Hn as (m & Hm & _).
      now apply unpack_room in Hm.
    + cbn [In]. intuition reflexivity.
Qed.

Lemma target_outcome l raw o : usable (l_cp l) -> 2 <= lenN raw -> items_outcome (slice 2 (num 2 0 raw + 2) raw) o ->
  outcome_is o (target_dict l (Targets raw (slice 2 (num 2 0 raw + 2) raw))).
Proof.
  intros Hcp L HO. unfold target_dict. apply fields_step; [unfold id_list_size, unpack_u16; cbn [tg_raw]; wk|].
  pose proof (items_of_outcome _ Hcp _ _ HO) as HI.
  destruct o; cbn [outcome_is] in *.
  - apply fields_err. now apply err_bind.
  - apply (fields_step None); [unfold targets_as_list; cbn [tg_raw_targets]; wk|].
    apply (fields_step None); apply works_ret.
Qed.

Lemma header_whole_len b : header_whole b <-> 76 <= lenN (takeN (header_len b) b).
Proof. unfold header_whole. rewrite lenN_takeN. unfold bytes in *. lia. Qed.
Lemma id_list_slice b : slice 2 (num 2 (header_len b) b + 2) (dropN (header_len b) b) = id_list b.
Proof.
  unfold id_list, slice. rewrite dropN_dropN. f_equal. lia.
Qed.

Lemma err_then {A B} e (m : M A) (f : A -> M B) : outcome_is (Some e) m -> outcome_is (Some e) (bind m f).
Proof. apply err_bind. Qed.

Lemma report_decided b cp allow l all : usable cp -> snd (lnk_init (FromBytes b) cp allow) = Ok l ->
  exists o, report_outcome b o /\ outcome_is o (get_json l all).
Proof.
  intros Hcp H. apply init_constructed in H as [HC (H1 & H2 & _ & H4 & H5 & _ & blocks & r & HW & HE & _)]; [|assumption].
  destruct HC as (_ & _ & HL & HS). specialize (HS blocks r HW). rewrite get_json_middle. unfold middle_json.
  rewrite H1, H2, H4, H5, HE. clear H2 H4 H5 HE.
  pose proof (header_outcome (takeN (header_len b) b)) as HH. unfold needs in HH.
  destruct (N.ltb_spec (lenN (takeN (header_len b) b)) 76) as [L|L].
  { exists (Some StructError). split; [|now apply err_then, err_then].
    apply header_fails. rewrite header_whole_len. lia. }
  rewrite <- header_whole_len in L. cbn [outcome_is] in HH.
  assert (HT : exists o, (if has_id_list b then items_outcome (id_list b) o else o = None)
    /\ outcome_is o (match (if has_id_list b then Some (Targets (dropN (header_len b) b)
          (slice 2 (num 2 (header_len b) b + 2) (dropN (header_len b) b))) else None) with
        | Some t => d <- target_dict l t ;; ret [("target"%string, PDict d)]
        | None => ret []
        end)).
  { destruct (has_id_list b) eqn:EI.
    - destruct (items_outcome_total (id_list b)) as [o Ho]. exists o. split; [assumption|]. apply outcome_ret.
      specialize (HL eq_refl).
      replace (num 2 (header_len b) b) with (num 2 0 (dropN (header_len b) b)) by (unfold num; now rewrite dropN_0).
      apply target_outcome; [now rewrite H1|rewrite lenN_dropN; unfold bytes in *; lia|].
      replace (num 2 0 (dropN (header_len b) b)) with (num 2 (header_len b) b) by (unfold num; now rewrite dropN_0).
      now rewrite id_list_slice.
    - exists None. split; [reflexivity|apply works_ret]. }
  destruct HT as (ot & HO & HT). set (mt := match (if has_id_list b then _ else _) with Some _ => _ | None => _ end) in *.
  destruct ot as [e|].
  { exists (Some e). destruct (has_id_list b) eqn:EI; [|discriminate HO]. split; [now apply items_fail|].
    apply err_then. apply works_then; [assumption|]. intros h _. now apply err_then. }
  assert (HI : items_whole b) by (intros E; now rewrite E in HO).
  set (mi := match (if info_processed b then _ else _) with Some _ => _ | None => _ end).
  assert (HM : info_whole b /\ works mi \/ ~ info_whole b /\ snd mi = Err StructError).
  { unfold mi, info_whole. destruct (info_processed b); [|left; split; [discriminate|apply works_ret]].
    rewrite info_dict_snd by assumption. set (raw := dropN _ b).
    replace (is_network _) with (negb (N.testbit (num 4 (id_list_end b + 8) b) 0)) by (now destruct (N.testbit _ 0)).
    destruct (info_readable _ raw) eqn:ER; [left|right].
    - split; [reflexivity|]. unfold works. rewrite info_dict_snd by assumption.
      replace (is_network _) with (negb (N.testbit (num 4 (id_list_end b + 8) b) 0)) by (now destruct (N.testbit _ 0)).
      rewrite ER. now eexists.
    - split; [|reflexivity]. intros HI2. specialize (HI2 eq_refl). discriminate HI2. }
  destruct HM as [[HM1 HM2]|[HM1 HM2]].
  2: { exists (Some StructError). split; [now apply info_fails|]. apply err_then. apply works_then; [assumption|].
       intros h _. apply works_then; [assumption|]. intros t _. now apply err_then. }
  destruct (extras_outcome cp blocks [] Hcp HS) as (o & HB & HX).
  exists o. split; [now apply (blocks_decide b blocks r)|].
  apply works_then.
  - apply works_bind_any; [assumption|]. intros h. apply works_bind_any; [assumption|]. intros t.
    apply works_bind_any; [assumption|]. intros i. apply works_ret.
  - intros m _. apply outcome_ret. rewrite extras_tail. apply outcome_ret. exact HX.
Qed.

Lemma report_outcome_det b o1 o2 : report_outcome b o1 -> report_outcome b o2 -> o1 = o2.
Proof.
  assert (HI : forall e, has_id_list b = true -> items_outcome (id_list b) (Some e) -> items_whole b -> False).
  { intros e Hh He Hw. pose proof (items_outcome_det _ _ _ (Hw Hh) He). discriminate. }
  intros [N1|e1 W1 T1 O1|W1 I1 F1|bs1 r1 o1' W1 I1 F1 B1 O1] [N2|e2 W2 T2 O2|W2 I2 F2|bs2 r2 o2' W2 I2 F2 B2 O2];
    try reflexivity; try contradiction; try (exfalso; eauto; fail).
  - apply (items_outcome_det _ _ _ O1 O2).
  - destruct (block_walk_det _ _ _ _ _ B1 B2) as [-> _]. now apply (blocks_outcome_det _ _ _ O1).
Qed.

Lemma report_exact b cp allow l all o : usable cp -> snd (lnk_init (FromBytes b) cp allow) = Ok l -> report_outcome b o ->
  match o with
  | None => exists d, snd (get_json l all) = Ok d
  | Some e => snd (get_json l all) = Err e
  end.
Proof.
  intros Hcp Hl Ho. destruct (report_decided b cp allow l all Hcp Hl) as (o' & Ho' & HG).
  rewrite (report_outcome_det _ _ _ Ho Ho'). destruct o'; exact HG.
Qed.
Lemma report_outcome_exists b cp allow l : usable cp -> snd (lnk_init (FromBytes b) cp allow) = Ok l ->
  exists o, report_outcome b o /\ forall o', report_outcome b o' -> o' = o.
Proof.
  intros Hcp Hl. destruct (report_decided b cp allow l true Hcp Hl) as (o & Ho & _). exists o. split; [assumption|].
  intros o' Ho'. now apply (report_outcome_det b).
Qed.
Lemma report_exact_iff b cp allow l all : usable cp -> snd (lnk_init (FromBytes b) cp allow) = Ok l ->
  ((exists d, snd (get_json l all) = Ok d) <-> report_outcome b None)
  /\ forall e, snd (get_json l all) = Err e <-> report_outcome b (Some e).
Proof.
  intros Hcp Hl. destruct (report_decided b cp allow l all Hcp Hl) as (o & Ho & HG).
  split; [split|split].
  - intros [d Hd]. destruct o as [e|]; [cbn in HG; congruence|assumption].
  - intros H. now apply (report_exact b cp allow l all None).
  - intros He. destruct o as [e'|]; [cbn in HG; congruence|destruct HG; congruence].
  - intros H. now apply (report_exact b cp allow l all (Some e)).
Qed.
Lemma report_settings b cp1 cp2 allow1 allow2 l1 l2 all1 all2 : usable cp1 -> usable cp2 ->
  snd (lnk_init (FromBytes b) cp1 allow1) = Ok l1 -> snd (lnk_init (FromBytes b) cp2 allow2) = Ok l2 ->
  match snd (get_json l1 all1), snd (get_json l2 all2) with
  | Ok _, Ok _ => True
  | Err e1, Err e2 => e1 = e2
  | _, _ => False
  end.
Proof.
  intros H1 H2 L1 L2. destruct (report_decided b cp1 allow1 l1 all1 H1 L1) as (o & Ho & G1).
  pose proof (report_exact b cp2 allow2 l2 all2 o H2 L2 Ho) as G2.
  destruct o; cbn in G1.
  - now rewrite G1, G2.
  - destruct G1 as [? ->], G2 as [? ->]. exact I.
Qed.
