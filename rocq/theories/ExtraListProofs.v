(** * Lists of extra blocks and the extra section of a file *)
From Verif Require Import Lemmas PyTime Codec Utils Sha256 Header StringData Targets Info Extra LnkFile.
From Verif Require Import Spec SpecHeader SpecTime SpecText SpecItems SpecExtra.
From Verif Require Import OutcomeProofs LayoutProofs CoreProofs FormatProofs EncProofs HeaderProofs ApiProofs WarnProofs.
From Verif Require Import TextProofs ConstructProofs StringProofs ItemProofs ExtraProofs.

(** ** Lists of blocks: what is reported *)

Lemma eqb_sym_neq k k' : k <> k' -> String.eqb k k' = false.
Proof. apply String.eqb_neq. Qed.
Lemma in_filter_neq k k' l : In k' (filter (fun x => negb (String.eqb k x)) l) <-> In k' l /\ k' <> k.
Proof.
  rewrite filter_In. split; intros [H1 H2]; (split; [assumption|]).
  - intros ->. rewrite String.eqb_refl in H2. discriminate.
  - destruct (String.eqb_spec k k') as [->|]; [contradiction|reflexivity].
Qed.
Lemma first_seen_in k l : In k (first_seen l) <-> In k l.
Proof.
  induction l as [|a l IH]; [reflexivity|]. cbn [first_seen In]. rewrite in_filter_neq, IH.
  destruct (string_dec a k) as [->|]; [tauto|]. split; [tauto|]. intros [->|H]; [tauto|]. right. split; [assumption|congruence].
Qed.
Lemma NoDup_filter' {A} (f : A -> bool) l : NoDup l -> NoDup (filter f l).
Proof. apply NoDup_filter. Qed.
Lemma first_seen_nodup l : NoDup (first_seen l).
Proof.
  induction l as [|a l IH]; cbn [first_seen]; constructor; [|now apply NoDup_filter].
  rewrite in_filter_neq. tauto.
Qed.
Lemma filter_snoc {A} (f : A -> bool) l a : filter f (l ++ [a]) = filter f l ++ (if f a then [a] else []).
Proof. now rewrite filter_app. Qed.
Lemma filter_id {A} (f : A -> bool) l : (forall a, In a l -> f a = true) -> filter f l = l.
Proof.
  induction l as [|a l IH]; intros H; [reflexivity|]. cbn [filter]. rewrite H by now left. f_equal.
  apply IH. intros; apply H; now right.
Qed.
Lemma first_seen_snoc l k :
  first_seen (l ++ [k]) = if in_dec string_dec k l then first_seen l else first_seen l ++ [k].
Proof.
  induction l as [|a l IH]; [reflexivity|]. cbn [app first_seen]. rewrite IH.
  destruct (in_dec string_dec k l) as [H|H]; destruct (in_dec string_dec k (a :: l)) as [H'|H'].
  - reflexivity.
  - exfalso. apply H'. now right.
  - destruct H' as [->|H']; [|contradiction]. rewrite filter_snoc, String.eqb_refl. cbn [negb]. now rewrite app_nil_r.
  - rewrite filter_snoc. destruct (String.eqb_spec a k) as [->|]; [exfalso; apply H'; now left|]. reflexivity.
Qed.
Lemma last_of_snoc k l k' d : last_of k (l ++ [(k', d)]) = if String.eqb k k' then Some d else last_of k l.
Proof.
  induction l as [|[a x] l IH]; cbn [app last_of]; [reflexivity|]. rewrite IH.
  destruct (String.eqb k k'); reflexivity.
Qed.
Lemma all_of_snoc k l k' d : all_of k (l ++ [(k', d)]) = all_of k l ++ (if String.eqb k k' then [d] else []).
Proof. unfold all_of. rewrite filter_snoc, map_app. cbn [fst]. destruct (String.eqb k k'); reflexivity. Qed.

Lemma dget_map k (f : string -> pyval) ks : dget k (map (fun k => (k, f k)) ks) = if in_dec string_dec k ks then Some (f k) else None.
Proof.
  induction ks as [|a ks IH]; [reflexivity|]. cbn [map dget].
  destruct (in_dec string_dec k (a :: ks)) as [H|H]; destruct (String.eqb_spec k a) as [->|Hn]; try reflexivity.
  - rewrite IH. destruct (in_dec string_dec k ks) as [H'|H']; [reflexivity|]. destruct H as [H|H]; [congruence|contradiction].
  - exfalso. apply H. now left.
  - rewrite IH. destruct (in_dec string_dec k ks) as [H'|H']; [|reflexivity]. exfalso. apply H. now right.
Qed.
Lemma dset_map k v (f g : string -> pyval) ks : In k ks -> NoDup ks -> g k = v -> (forall k', k' <> k -> g k' = f k') ->
  dset k v (map (fun k => (k, f k)) ks) = map (fun k => (k, g k)) ks.
Proof.
  intros Hi HN Hv Ho. induction HN as [|a ks Ha HN IH]; [destruct Hi|]. cbn [map dset].
  destruct (String.eqb_spec k a) as [->|Hn].
  - rewrite Hv. f_equal. apply map_ext_in. intros b Hb. rewrite Ho by congruence. reflexivity.
  - destruct Hi as [->|Hi]; [contradiction|]. rewrite IH by assumption. rewrite (Ho a) by congruence. reflexivity.
Qed.
Lemma dupd_map k h (f g : string -> pyval) ks : NoDup ks -> g k = h (f k) -> (forall k', k' <> k -> g k' = f k') ->
  dupd k h (map (fun k => (k, f k)) ks) = map (fun k => (k, g k)) ks.
Proof.
  intros HN Hv Ho. induction HN as [|a ks Ha HN IH]; [reflexivity|]. cbn [map dupd].
  destruct (String.eqb_spec k a) as [->|Hn].
  - rewrite Hv. f_equal. apply map_ext_in. intros b Hb. rewrite Ho by congruence. reflexivity.
  - rewrite IH. rewrite (Ho a) by congruence. reflexivity.
Qed.

Definition entry_for (l : list (string * dict)) (k : string) : pyval :=
  if String.eqb k "UNKNOWN_BLOCK" then PList (map PDict (all_of k l))
  else match last_of k l with Some d => PDict d | None => PNone end.
Lemma collect_eq l : collect l = map (fun k => (k, entry_for l k)) (first_seen (map fst l)).
Proof. reflexivity. Qed.

Notation unknown_name := "UNKNOWN_BLOCK"%string.
Lemma all_of_absent k l : ~ In k (map fst l) -> all_of k l = [].
Proof.
  unfold all_of. induction l as [|[a d] l IH]; intros H; [reflexivity|]. cbn [filter fst].
  destruct (String.eqb_spec k a) as [->|]; [exfalso; apply H; now left|]. apply IH. intros Hi. apply H. now right.
Qed.
Lemma dmem_collect k l : dmem k (collect l) = if in_dec string_dec k (map fst l) then true else false.
Proof.
  unfold dmem. rewrite collect_eq, dget_map.
  destruct (in_dec string_dec k (first_seen (map fst l))) as [H|H], (in_dec string_dec k (map fst l)) as [H'|H']; try reflexivity.
  - exfalso. apply H'. now apply first_seen_in.
  - exfalso. apply H. apply first_seen_in. assumption.
Qed.

(** Adding a known block. *)
Lemma collect_known l k d : k <> unknown_name -> collect (l ++ [(k, d)]) = dset k (PDict d) (collect l).
Proof.
  intros Hk. rewrite !collect_eq. rewrite map_app. cbn [map fst]. rewrite first_seen_snoc.
  assert (HV : entry_for (l ++ [(k, d)]) k = PDict d).
  { unfold entry_for. rewrite (eqb_sym_neq _ _ Hk), last_of_snoc, String.eqb_refl. reflexivity. }
  assert (HO : forall k', k' <> k -> entry_for (l ++ [(k, d)]) k' = entry_for l k').
  { intros k' Hk'. unfold entry_for. rewrite all_of_snoc, last_of_snoc, (eqb_sym_neq _ _ Hk'), app_nil_r. reflexivity. }
  destruct (in_dec string_dec k (map fst l)) as [H|H].
  - symmetry. apply dset_map; [now apply first_seen_in|apply first_seen_nodup|assumption|assumption].
  - rewrite dset_new.
    + rewrite map_app. cbn [map]. rewrite HV. f_equal. apply map_ext_in. intros k' Hi. rewrite HO; [reflexivity|].
      intros ->. apply H. now apply first_seen_in.
    + rewrite dget_map. destruct (in_dec string_dec k _) as [H'|H']; [|reflexivity]. exfalso. apply H. exact (proj1 (first_seen_in _ _) H').
Qed.
(** Adding an unknown block. *)
Lemma collect_unknown l d :
  collect (l ++ [(unknown_name, d)])
  = dupd unknown_name (fun v => match v with PList x => PList (x ++ [PDict d]) | v => v end)
      (if dmem unknown_name (collect l) then collect l else dset unknown_name (PList []) (collect l)).
Proof.
  rewrite dmem_collect.
  assert (HO : forall k', k' <> unknown_name -> entry_for (l ++ [(unknown_name, d)]) k' = entry_for l k').
  { intros k' Hk'. unfold entry_for. now rewrite last_of_snoc, (eqb_sym_neq _ _ Hk'). }
  assert (HV : entry_for (l ++ [(unknown_name, d)]) unknown_name = PList (map PDict (all_of unknown_name l) ++ [PDict d])).
  { unfold entry_for. change (String.eqb unknown_name "UNKNOWN_BLOCK") with true. cbv iota.
    rewrite all_of_snoc, String.eqb_refl, map_app. reflexivity. }
  rewrite (collect_eq (l ++ _)), map_app. cbn [map fst]. rewrite first_seen_snoc.
  destruct (in_dec string_dec unknown_name (map fst l)) as [H|H].
  - rewrite collect_eq. symmetry. apply dupd_map; [apply first_seen_nodup| |assumption].
    rewrite HV. unfold entry_for. change (String.eqb unknown_name "UNKNOWN_BLOCK") with true. reflexivity.
  - rewrite dset_new.
    + rewrite collect_eq.
      set (f := fun k => if string_dec k unknown_name then PList [] else entry_for l k).
      assert (E : map (fun k => (k, entry_for l k)) (first_seen (map fst l)) ++ [(unknown_name, PList [])]
                  = map (fun k => (k, f k)) (first_seen (map fst l) ++ [unknown_name])).
      { rewrite map_app. cbn [map]. unfold f at 2. destruct (string_dec unknown_name unknown_name); [|contradiction]. f_equal.
        apply map_ext_in. intros k Hi. unfold f. destruct (string_dec k unknown_name) as [->|]; [|reflexivity].
        exfalso. apply H. apply first_seen_in. assumption. }
      rewrite E. symmetry. apply dupd_map.
      * assert (E2 : first_seen (map fst l) ++ [unknown_name] = first_seen (map fst l ++ [unknown_name])).
        { rewrite first_seen_snoc. destruct (in_dec string_dec unknown_name (map fst l)); [contradiction|reflexivity]. }
        rewrite E2. apply first_seen_nodup.
      * rewrite HV. unfold f. destruct (string_dec unknown_name unknown_name); [|contradiction].
        rewrite all_of_absent by assumption. reflexivity.
      * intros k Hk. rewrite HO by assumption. unfold f. destruct (string_dec k unknown_name); [contradiction|reflexivity].
    + rewrite collect_eq, dget_map. destruct (in_dec string_dec unknown_name _) as [H'|H']; [|reflexivity].
      exfalso. apply H. exact (proj1 (first_seen_in _ _) H').
Qed.

(** What one block contributes. *)
Definition decoded (cp : cp_arg) (e : extra) : list (string * dict) :=
  match snd (extra_as_dict cp e) with Ok d => [(extra_name (ex_class e), d)] | Err _ => [] end.
Definition decode_warnings (cp : cp_arg) (e : extra) : list warning :=
  fst (extra_as_dict cp e)
  ++ match snd (extra_as_dict cp e) with Ok _ => [] | Err _ => [WExtraBlock (extra_name (ex_class e))] end.
Definition decodable (cp : cp_arg) (e : extra) : Prop :=
  match snd (extra_as_dict cp e) with Ok _ => True | Err x => is_struct_or_value_error x = true end.

Lemma unknown_class c : extra_name c = unknown_name <-> c = UnknownExtra.
Proof. split; [|now intros ->]. destruct c; intros H; (reflexivity || discriminate H). Qed.

(** An unknown block decodes unless it has no room for its size. *)
Lemma unknown_decodes cp raw : 4 <= lenN raw -> exists d, extra_as_dict cp (Extra UnknownExtra raw) = ([], Ok d).
Proof.
  intros H. unfold extra_as_dict, unknown_extra_dict, base_fields, base_size. cbn [ex_class ex_raw app fields].
  rewrite unpack_u32_0. replace (4 <=? lenN raw) with true by lia. rewrite !bind_ret_l. eexists. reflexivity.
Qed.

Lemma add_block_collect cp l e : decodable cp e -> (ex_class e = UnknownExtra -> 4 <= lenN (ex_raw e)) ->
  add_block cp (collect l) e = (decode_warnings cp e, Ok (collect (l ++ decoded cp e))).
Proof.
  intros HD HU. unfold decodable in HD. unfold add_block, decode_warnings, decoded.
  destruct (ex_class e) eqn:EC;
    try (destruct (extra_as_dict cp e) as [w [d|x]] eqn:EX; cbn [fst snd] in *; cbn [bind ret try_except app];
         [rewrite ?app_nil_r, collect_known by discriminate; reflexivity
         |rewrite HD; rewrite !app_nil_r; reflexivity]).
  destruct e as [c raw]; cbn [ex_class ex_raw] in *. subst c. destruct (unknown_decodes cp raw (HU eq_refl)) as [d Hd].
  rewrite Hd. cbn [bind ret try_except app fst snd]. now rewrite <- collect_unknown.
Qed.

Lemma extras_collect cp l es : Forall (decodable cp) es ->
  Forall (fun e => ex_class e = UnknownExtra -> 4 <= lenN (ex_raw e)) es ->
  extras_loop cp (collect l) es = (flat_map (decode_warnings cp) es, Ok (collect (l ++ flat_map (decoded cp) es))).
Proof.
  revert l; induction es as [|e es IH]; intros l H1 H2; cbn [extras_loop flat_map]; [now rewrite app_nil_r|].
  inversion_clear H1. inversion_clear H2. rewrite add_block_collect by assumption.
  rewrite bind_Ok, IH by assumption. cbn [fst snd]. now rewrite app_assoc.
Qed.

Lemma add_block_decodable cp res e d : snd (add_block cp res e) = Ok d -> decodable cp e.
Proof.
  unfold add_block, decodable. intros H.
  destruct (ex_class e); (destruct (extra_as_dict cp e) as [w [x|x]]; [exact I|]); cbn [snd bind try_except] in *;
    (destruct (is_struct_or_value_error x); [reflexivity|discriminate]).
Qed.
Lemma extras_decodable cp res es d : snd (extras_loop cp res es) = Ok d -> Forall (decodable cp) es.
Proof.
  revert res; induction es as [|e es IH]; intros res H; cbn [extras_loop] in H; [constructor|].
  apply snd_bind_Ok in H as (r & H1 & H2). constructor; [now apply add_block_decodable in H1|now apply IH in H2].
Qed.

(** ** The blocks of a file *)

Lemma block_name_class n : extra_name (sig_class n) = block_name n.
Proof.
  rewrite sig_class_num. unfold block_name, class_of_sig.
  repeat match goal with |- context [match ?p with _ => _ end] => destruct p; try reflexivity end.
Qed.

Lemma encode_block_num blk r : block_fits blk ->
  num 4 0 (encode_block blk ++ r) = 8 + lenN (snd blk) /\ num 4 4 (encode_block blk ++ r) = fst blk
  /\ takeN (8 + lenN (snd blk)) (encode_block blk ++ r) = encode_block blk
  /\ dropN (8 + lenN (snd blk)) (encode_block blk ++ r) = r.
Proof.
  intros [H1 H2]. split; [|split; [|split]].
  - unfold encode_block, num. rewrite dropN_0, <- !app_assoc, takeN_app_exact by reflexivity. now apply le_val_enc32.
  - unfold encode_block, num. rewrite <- !app_assoc, dropN_app_exact, takeN_app_exact by reflexivity. now apply le_val_enc32.
  - apply takeN_app_exact. apply lenN_block.
  - apply dropN_app_exact. apply lenN_block.
Qed.

Lemma walk_encoded blocks r bs r' : Forall block_fits blocks -> block_walk r bs r' ->
  block_walk (encode_blocks blocks ++ r) (map (fun blk => (fst blk, encode_block blk)) blocks ++ bs) r'.
Proof.
  intros HF HW. induction HF as [|blk blocks Hb HF IH]; [exact HW|].
  unfold encode_blocks. cbn [flat_map map app]. fold (encode_blocks blocks). rewrite <- app_assoc.
  destruct (encode_block_num blk (encode_blocks blocks ++ r) Hb) as (E1 & E2 & E3 & E4).
  set (x := encode_block blk ++ encode_blocks blocks ++ r) in *.
  assert (HL : 8 <= lenN x) by (unfold x; rewrite lenN_app, lenN_block; lia).
  replace (fst blk, encode_block blk) with (num 4 4 x, takeN (num 4 0 x) x) by (rewrite E1, E2, E3; reflexivity).
  apply walk_block; [assumption|rewrite E1; lia|]. rewrite E1, E4. exact IH.
Qed.
Lemma walk_terminal rest : block_walk (enc32 0 ++ rest) [] (enc32 0 ++ rest).
Proof. apply walk_stop. right. unfold num. rewrite dropN_0, takeN_app_exact by reflexivity. now rewrite le_val_enc32. Qed.

Lemma file_extras b cp allow l : usable cp -> snd (lnk_init (FromBytes b) cp allow) = Ok l ->
  l_cp l = cp /\ exists blocks r, block_walk (dropN (string_data_end b) b) blocks r /\ sizes_readable blocks
    /\ l_extras l = map mk_block blocks ++ tail_blocks allow r.
Proof.
  intros Hcp H. apply init_constructed in H as [HC (H1 & _ & _ & _ & _ & _ & blocks & r & HW & HE & _)]; [|assumption].
  split; [assumption|]. exists blocks, r. split; [assumption|]. split; [|assumption].
  destruct HC as (_ & _ & _ & HC). now apply (HC blocks r).
Qed.
Lemma file_blocks b cp allow l blocks rest : usable cp -> snd (lnk_init (FromBytes b) cp allow) = Ok l ->
  Forall block_fits blocks -> dropN (string_data_end b) b = encode_blocks blocks ++ enc32 0 ++ rest ->
  l_extras l = map (fun blk => Extra (class_of_sig (fst blk)) (encode_block blk)) blocks
               ++ (if allow && (0 <? lenN rest) then [Extra Terminal (enc32 0 ++ rest)] else []).
Proof.
  intros Hcp H HF HB. apply file_extras in H as (_ & blocks' & r & HW & _ & HE); [|assumption].
  rewrite HB in HW. pose proof (walk_encoded blocks _ _ _ HF (walk_terminal rest)) as HW2.
  destruct (block_walk_det _ _ _ _ _ HW HW2) as [-> ->]. rewrite HE, app_nil_r. f_equal.
  - rewrite map_map. apply map_ext. intros blk. unfold mk_block. cbn [fst snd]. now rewrite sig_class_num.
  - unfold tail_blocks. rewrite lenN_app, lenN_enc32.
    replace (num 4 0 (enc32 0 ++ rest) =? 0) with true.
    + rewrite andb_true_r. replace (4 <? 4 + lenN rest) with (0 <? lenN rest) by lia. reflexivity.
    + unfold num. rewrite dropN_0, takeN_app_exact by reflexivity. now rewrite le_val_enc32.
Qed.
Definition named_block (e : extra) : string * bytes := (extra_name (ex_class e), ex_raw e).
Lemma file_blocks_named b cp allow l blocks rest : usable cp -> snd (lnk_init (FromBytes b) cp allow) = Ok l ->
  Forall block_fits blocks -> dropN (string_data_end b) b = encode_blocks blocks ++ enc32 0 ++ rest ->
  map (fun e => (extra_name (ex_class e), ex_raw e)) (l_extras l)
  = map (fun blk => (block_name (fst blk), encode_block blk)) blocks
    ++ (if allow && (0 <? lenN rest) then [("TERMINAL_BLOCK"%string, enc32 0 ++ rest)] else []).
Proof.
  intros Hcp H HF HB. rewrite (file_blocks _ _ _ _ _ _ Hcp H HF HB), map_app, map_map. f_equal.
  - apply map_ext. intros blk. cbn [ex_class ex_raw]. now rewrite <- sig_class_num, block_name_class.
  - destruct (allow && _); reflexivity.
Qed.
Lemma any_file_blocks b cp allow l : usable cp -> snd (lnk_init (FromBytes b) cp allow) = Ok l ->
  exists blocks r, block_walk (dropN (string_data_end b) b) blocks r
  /\ map (fun e => (extra_name (ex_class e), ex_raw e)) (l_extras l)
     = map (fun blk => (block_name (fst blk), snd blk)) blocks
       ++ (if allow && (4 <? lenN r) && (num 4 0 r =? 0) then [("TERMINAL_BLOCK"%string, r)] else []).
Proof.
  intros Hcp H. apply file_extras in H as (_ & blocks & r & HW & _ & HE); [|assumption].
  exists blocks, r. split; [assumption|]. rewrite HE, map_app, map_map. f_equal.
  - apply map_ext. intros blk. unfold mk_block. cbn [ex_class ex_raw]. now rewrite block_name_class.
  - unfold tail_blocks. destruct (allow && _ && _); reflexivity.
Qed.

Lemma file_unknown b cp allow l : usable cp -> snd (lnk_init (FromBytes b) cp allow) = Ok l ->
  Forall (fun e => ex_class e = UnknownExtra -> 4 <= lenN (ex_raw e)) (l_extras l).
Proof.
  intros Hcp H. apply file_extras in H as (_ & blocks & r & _ & HS & ->); [|assumption]. apply Forall_app. split.
  - apply Forall_map. eapply Forall_impl; [|exact HS]. intros blk Hb _. exact Hb.
  - unfold tail_blocks. destruct (allow && _ && _); constructor; [discriminate|constructor].
Qed.

(** The extra section of any report. *)
Lemma middle_no_extra l m : snd (middle_json l) = Ok m -> dget "extra" m = None /\ dget "extra" (prune_middle m) = None.
Proof.
  unfold middle_json. intros H. apply snd_bind_Ok in H as (h & _ & H). apply snd_bind_Ok in H as (t & Ht & H).
  apply snd_bind_Ok in H as (i & _ & H). injection H as <-.
  assert (E : dget "extra" ([("header"%string, PDict h)] ++ t ++ [("link_info"%string, PDict i); ("data"%string, PDict (sd_data (l_string_data l)))]) = None).
  { destruct (l_targets l) as [tg|]; [apply snd_bind_Ok in Ht as (td & _ & Ht)|]; injection Ht as <-; reflexivity. }
  split; [exact E|]. unfold prune_middle. cbv zeta.
  assert (HO : forall f k d, k <> "extra"%string -> dget "extra" (dupd k f d) = dget "extra" d)
    by (intros; apply dget_dupd_other; congruence).
  destruct (dmem "target" _); rewrite !HO by discriminate; exact E.
Qed.
Lemma extra_of_report l all d : snd (get_json l all) = Ok d ->
  exists e, snd (extras_as_dict (l_cp l) (l_extras l)) = Ok e /\ reported_extra d = Some e.
Proof.
  rewrite get_json_middle. intros H. apply snd_bind_Ok in H as (m & Hm & H). apply snd_bind_Ok in H as (e & He & H).
  exists e. split; [assumption|]. injection H as <-. unfold reported_extra.
  destruct (middle_no_extra l m Hm) as [H1 H2].
  assert (E : dget "extra" (("size"%string, PN (l_size l)) :: (if all then m else prune_middle m) ++ [("extra"%string, PDict e)])
              = Some (PDict e)).
  { cbn [dget]. rewrite dget_app. destruct all; [rewrite H1|rewrite H2]; reflexivity. }
  now rewrite E.
Qed.

Lemma extras_of_file b cp allow l e : usable cp -> snd (lnk_init (FromBytes b) cp allow) = Ok l ->
  snd (extras_as_dict cp (l_extras l)) = Ok e ->
  extras_as_dict cp (l_extras l)
  = (flat_map (decode_warnings cp) (l_extras l), Ok (collect (flat_map (decoded cp) (l_extras l)))).
Proof.
  intros Hcp Hl He. apply (extras_collect cp []); [now apply extras_decodable in He|now apply (file_unknown b cp allow)].
Qed.
Lemma extra_reported b cp allow l all d : usable cp -> snd (lnk_init (FromBytes b) cp allow) = Ok l ->
  snd (get_json l all) = Ok d ->
  reported_extra d = Some (collect (flat_map (decoded cp) (l_extras l))).
Proof.
  intros Hcp Hl Hd. apply extra_of_report in Hd as (e & He & Hr).
  assert (Hc : l_cp l = cp) by (now apply file_extras in Hl as (? & _)). rewrite Hc in He.
  rewrite Hr. rewrite (extras_of_file b cp allow l e Hcp Hl He) in He. now injection He as <-.
Qed.

(** Well-formed blocks are reported. *)
Lemma wf_block_fits b : wf_block b -> block_fits (as_block b).
Proof.
  intros [H HW]. split; [|exact H]. unfold as_block. cbn [fst]. destruct b; cbn [block_signature]; unfold fits32; try lia.
  apply HW.
Qed.
Lemma blocks_decoded cp blocks : usable cp -> Forall wf_block blocks ->
  flat_map (decoded cp) (map (fun blk => Extra (class_of_sig (fst blk)) (encode_block blk)) (map as_block blocks))
  = map (fun b => (block_name (block_signature b), block_report cp b)) blocks
  /\ flat_map (decode_warnings cp) (map (fun blk => Extra (class_of_sig (fst blk)) (encode_block blk)) (map as_block blocks))
  = flat_map (block_warnings cp) blocks.
Proof.
  intros Hcp HF. induction HF as [|b blocks Hb HF [IH1 IH2]]; [now split|]. cbn [map flat_map].
  rewrite IH1, IH2. unfold decoded, decode_warnings. change (fst (as_block b)) with (block_signature b).
  rewrite block_spec by assumption. cbn [fst snd ex_class]. rewrite <- sig_class_num, block_name_class, app_nil_r. now split.
Qed.
Definition appended_entry (allow : bool) (rest : bytes) : list (string * dict) :=
  if allow && (0 <? lenN rest)
  then [("TERMINAL_BLOCK", [("size", PN (4 + lenN rest)); ("appended_data_sha256", PStr (sha256_hex rest))])]%string
  else [].
Lemma appended_decoded cp allow rest :
  let es := if allow && (0 <? lenN rest) then [Extra Terminal (enc32 0 ++ rest)] else [] in
  flat_map (decoded cp) es = appended_entry allow rest /\ flat_map (decode_warnings cp) es = [].
Proof.
  cbv zeta. unfold appended_entry. destruct (allow && (0 <? lenN rest)); [|now split].
  cbn [flat_map]. unfold decoded, decode_warnings, extra_as_dict, terminal_dict, terminal_size. cbn [ex_class ex_raw fields].
  rewrite dropN_app_exact by reflexivity. rewrite !bind_ret_l. now split.
Qed.
Lemma blocks_reported b cp allow l all d blocks rest :
  usable cp -> snd (lnk_init (FromBytes b) cp allow) = Ok l -> snd (get_json l all) = Ok d -> Forall wf_block blocks ->
  dropN (string_data_end b) b = encode_blocks (map as_block blocks) ++ enc32 0 ++ rest ->
  reported_extra d = Some (collect (map (fun x => (block_name (block_signature x), block_report cp x)) blocks
                                    ++ appended_entry allow rest)).
Proof.
  intros Hcp Hl Hd HW HB. rewrite (extra_reported b cp allow l all d Hcp Hl Hd).
  rewrite (file_blocks b cp allow l (map as_block blocks) rest Hcp Hl); [|apply Forall_map; eapply Forall_impl; [apply wf_block_fits|assumption]|assumption].
  rewrite flat_map_app. rewrite (proj1 (blocks_decoded cp blocks Hcp HW)), (proj1 (appended_decoded cp allow rest)). reflexivity.
Qed.
Lemma extras_ok cp l : Forall (decodable cp) l -> Forall (fun e => ex_class e = UnknownExtra -> 4 <= lenN (ex_raw e)) l ->
  extras_as_dict cp l = (flat_map (decode_warnings cp) l, Ok (collect (flat_map (decoded cp) l))).
Proof. apply (extras_collect cp []). Qed.
Lemma blocks_warned b cp allow l blocks rest :
  usable cp -> snd (lnk_init (FromBytes b) cp allow) = Ok l -> Forall wf_block blocks ->
  dropN (string_data_end b) b = encode_blocks (map as_block blocks) ++ enc32 0 ++ rest ->
  extras_as_dict cp (l_extras l)
  = (flat_map (block_warnings cp) blocks,
     Ok (collect (map (fun x => (block_name (block_signature x), block_report cp x)) blocks ++ appended_entry allow rest))).
Proof.
  intros Hcp Hl HW HB. rewrite extras_ok.
  - rewrite (file_blocks b cp allow l (map as_block blocks) rest Hcp Hl); [|apply Forall_map; eapply Forall_impl; [apply wf_block_fits|assumption]|assumption].
    rewrite !flat_map_app. destruct (blocks_decoded cp blocks Hcp HW) as [-> ->].
    destruct (appended_decoded cp allow rest) as [-> ->]. now rewrite app_nil_r.
  - rewrite (file_blocks b cp allow l (map as_block blocks) rest Hcp Hl); [|apply Forall_map; eapply Forall_impl; [apply wf_block_fits|assumption]|assumption].
    apply Forall_app. split.
    + rewrite map_map. apply Forall_map. eapply Forall_impl; [|exact HW]. intros x Hx. unfold decodable.
      change (fst (as_block x)) with (block_signature x). now rewrite block_spec.
    + destruct (allow && (0 <? lenN rest)); constructor; [|constructor].
      unfold decodable, extra_as_dict, terminal_dict. cbn [ex_class ex_raw fields]. unfold terminal_size. rewrite !bind_ret_l. exact I.
  - now apply (file_unknown b cp allow).
Qed.

(** ** A malformed block (C22) *)
Lemma bad_block cp before bad after e :
  ex_class bad <> UnknownExtra -> snd (extra_as_dict cp bad) = Err e -> e = StructError \/ e = ValueError ->
  snd (extras_as_dict cp (before ++ bad :: after)) = snd (extras_as_dict cp (before ++ after))
  /\ forall d, snd (extras_as_dict cp (before ++ after)) = Ok d ->
     exists w1 w2, fst (extras_as_dict cp (before ++ after)) = w1 ++ w2
       /\ fst (extras_as_dict cp (before ++ bad :: after))
          = w1 ++ fst (extra_as_dict cp bad) ++ [WExtraBlock (extra_name (ex_class bad))] ++ w2.
Proof.
  intros Hc He HE. unfold extras_as_dict. rewrite !extras_loop_app.
  destruct (extras_loop cp [] before) as [w1 [r|x]]; [|now split].
  cbn [bind extras_loop].
  assert (HA : add_block cp r bad = (fst (extra_as_dict cp bad) ++ [WExtraBlock (extra_name (ex_class bad))], Ok r)).
  { unfold add_block. assert (HS : is_struct_or_value_error e = true) by (destruct HE as [->| ->]; reflexivity).
    destruct (ex_class bad) eqn:EC; try contradiction;
      (destruct (extra_as_dict cp bad) as [w [d|x]]; cbn [snd] in He; [discriminate|]; injection He as ->;
       cbn [bind try_except fst]; rewrite HS; reflexivity). }
  rewrite HA, bind_Ok. destruct (extras_loop cp r after) as [w2 o]. cbn [fst snd]. split; [reflexivity|].
  intros d _. exists w1, w2. split; [reflexivity|]. rewrite <- !app_assoc. reflexivity.
Qed.
Lemma named_class c n : extra_name c = block_name n -> c = class_of_sig n.
Proof. rewrite <- block_name_class, sig_class_num. apply extra_name_inj. Qed.
Lemma bad_block_file b1 b2 cp allow all l1 l2 d1 d2 before bad after rest c e :
  usable cp -> Forall block_fits (before ++ bad :: after) ->
  dropN (string_data_end b1) b1 = encode_blocks (before ++ bad :: after) ++ enc32 0 ++ rest ->
  dropN (string_data_end b2) b2 = encode_blocks (before ++ after) ++ enc32 0 ++ rest ->
  extra_name c = block_name (fst bad) -> snd (extra_as_dict cp (Extra c (encode_block bad))) = Err e ->
  e = StructError \/ e = ValueError ->
  snd (lnk_init (FromBytes b1) cp allow) = Ok l1 -> snd (lnk_init (FromBytes b2) cp allow) = Ok l2 ->
  snd (get_json l1 all) = Ok d1 -> snd (get_json l2 all) = Ok d2 ->
  reported_extra d1 = reported_extra d2
  /\ exists w1 w2,
       fst (extras_as_dict cp (l_extras l2)) = w1 ++ w2
       /\ fst (extras_as_dict cp (l_extras l1))
          = w1 ++ fst (extra_as_dict cp (Extra c (encode_block bad))) ++ [WExtraBlock (block_name (fst bad))] ++ w2.
Proof.
  intros Hcp HF H1 H2 Hc He HE I1 I2 J1 J2.
  assert (HF2 : Forall block_fits (before ++ after)).
  { apply Forall_app in HF as [Ha Hb]. inversion_clear Hb. apply Forall_app. now split. }
  assert (C1 : l_cp l1 = cp) by (now apply file_extras in I1 as (? & _)).
  assert (C2 : l_cp l2 = cp) by (now apply file_extras in I2 as (? & _)).
  pose proof (file_blocks _ _ _ _ _ _ Hcp I1 HF H1) as X1. pose proof (file_blocks _ _ _ _ _ _ Hcp I2 HF2 H2) as X2.
  rewrite map_app in X1, X2. cbn [map] in X1. rewrite <- app_assoc in X1, X2. cbn [app] in X1.
  rewrite <- (named_class _ _ Hc) in X1.
  set (mk := fun blk : N * bytes => Extra (class_of_sig (fst blk)) (encode_block blk)) in *.
  set (bad' := Extra c (encode_block bad)) in *.
  set (tl := map mk after ++ _) in *.
  assert (HU : ex_class bad' <> UnknownExtra).
  { unfold bad'. cbn [ex_class]. intros EU. unfold bad' in He. rewrite EU in He.
    destruct (unknown_decodes cp (encode_block bad)) as [d Hd]; [rewrite lenN_block; lia|]. rewrite Hd in He. discriminate. }
  destruct (bad_block cp (map mk before) bad' tl e HU He HE) as [HS HW].
  rewrite <- X1, <- X2 in HS. rewrite <- X1, <- X2 in HW.
  apply extra_of_report in J1 as (e1 & E1 & ->). apply extra_of_report in J2 as (e2 & E2 & ->).
  rewrite C1 in E1. rewrite C2 in E2. split; [congruence|].
  destruct (HW e2 E2) as (w1 & w2 & W1 & W2). exists w1, w2. split; [assumption|]. rewrite W2. unfold bad' at 2. cbn [ex_class]. now rewrite Hc.
Qed.
