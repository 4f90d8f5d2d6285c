(** * Reports whose size grows with the cube of the file (C59) *)
From Verif Require Import Lemmas PyTime Codec Utils Sha256 Header StringData Targets Info Extra LnkFile.
From Verif Require Import Spec SpecText SpecExtra SpecSize SpecBlocks SpecCube EncProofs TextProofs FormatProofs OutcomeProofs LayoutProofs.
From Verif Require Import CoreProofs ApiProofs HeaderProofs ConstructProofs ExtraProofs ExtraFileProofs ExtraListProofs ShapeProofs SizeProofs.
From Verif Require Import AnyBlockProofs GrowthProofs.

(** ** A file that is a property store *)

Section StoreFile.
  Variables (body : bytes) (cp : cp_arg) (m : dict) (w : list warning).
  Hypotheses (Hcp : usable cp) (L : 8 + lenN body < 4294967296)
    (Hm : extra_as_dict cp (Extra Metadata (encode_block (0xA0000009, body))) = (w, Ok m)).
  Definition one_store : bytes := encode_header (plain_header 0) ++ encode_blocks [(0xA0000009, body)] ++ enc32 0 ++ [].
  Lemma one_store_len : lenN one_store = 88 + lenN body.
  Proof.
    clear Hcp L Hm.
    unfold one_store, encode_blocks. cbn [flat_map]. rewrite !lenN_app, lenN_block, lenN_enc32. cbn [snd].
    change (lenN (encode_header (plain_header 0))) with 76. change (lenN (@nil byte)) with 0. lia.
  Qed.
  Lemma one_store_report allow all :
    exists l d, snd (lnk_init (FromBytes one_store) cp allow) = Ok l /\ snd (get_json l all) = Ok d
    /\ wdict m <= store_weight d.
  Proof.
    assert (HF : Forall block_fits [(0xA0000009, body)]).
    { constructor; [|constructor]. split; [unfold fits32; cbn; lia|]. exact L. }
    pose proof (header_len_encode (plain_header 0) (encode_blocks [(0xA0000009, body)] ++ enc32 0 ++ []) plain_wf) as E76.
    pose proof (plain_string_end (encode_blocks [(0xA0000009, body)] ++ enc32 0 ++ [])) as ES.
    pose proof (fun i => plain_bits i (encode_blocks [(0xA0000009, body)] ++ enc32 0 ++ [])) as EB.
    destruct (plain_header_dict (encode_blocks [(0xA0000009, body)] ++ enc32 0 ++ [])) as (h & Hh).
    pose proof one_store_len as EL.
    fold one_store in *. set (b := one_store) in *. change (h_size (plain_header 0)) with 76 in E76.
    assert (ED : dropN (string_data_end b) b = encode_blocks [(0xA0000009, body)] ++ enc32 0 ++ []).
    { rewrite ES. unfold b, one_store. now apply dropN_app_exact. }
    assert (E0 : has_id_list b = false) by apply EB.
    destruct (terminal_zero_init b cp allow _ [] Hcp HF ltac:(lia) ltac:(lia) ltac:(congruence) ED) as (l & Hl).
    pose proof (file_blocks b cp allow l _ [] Hcp Hl HF ED) as HX.
    pose proof (init_constructed b cp allow l Hcp Hl) as (_ & Hc & Hhd & _ & Ht & Hi & _).
    rewrite E76 in Hhd. rewrite E0 in Ht.
    assert (EI : info_processed b = false) by (unfold info_processed; now rewrite EB). rewrite EI in Hi.
    assert (HE : snd (extras_as_dict (l_cp l) (l_extras l)) = Ok [("METADATA_PROPERTIES_BLOCK"%string, PDict m)]).
    { rewrite HX. change (0 <? lenN (@nil byte)) with false. rewrite andb_false_r. cbn [map app fst].
      change (class_of_sig 0xA0000009) with Metadata. unfold extras_as_dict. cbn [extras_loop].
      rewrite Hc. unfold add_block. cbn [ex_class extra_name]. rewrite Hm. reflexivity. }
    assert (HM : exists mid, snd (middle_json l) = Ok mid).
    { unfold middle_json. rewrite Hhd, Ht, Hi.
      destruct (header_dict (takeN 76 b)) as [w' r]. cbn [snd] in Hh. subst r. eexists. cbn [bind ret snd]. reflexivity. }
    destruct HM as (mid & HM). exists l. eexists. split; [exact Hl|]. split.
    - rewrite get_json_middle, snd_bind, HM, snd_bind, HE. reflexivity.
    - unfold store_weight. cbn [dget String.eqb Ascii.eqb Bool.eqb].
      pose proof (middle_keys l mid all HM) as HK. rewrite dget_app. destruct all; rewrite HK; cbn [dget String.eqb Ascii.eqb Bool.eqb]; rewrite weight_dict; lia.
  Qed.
End StoreFile.

(** ** The store *)

Lemma lenN_repeat {A} (x : A) k : lenN (repeat x k) = N.of_nat k.
Proof. unfold lenN. now rewrite repeat_length. Qed.
Lemma dropN_repeat {A} (x : A) i k : dropN i (repeat x k) = repeat x (k - N.to_nat i)%nat.
Proof.
  destruct (N.le_gt_cases i (N.of_nat k)) as [H|H].
  - replace k with (N.to_nat i + (k - N.to_nat i))%nat at 1 by lia. rewrite repeat_app. apply dropN_app_exact. rewrite lenN_repeat. lia.
  - rewrite dropN_all by (rewrite lenN_repeat; lia). replace (k - N.to_nat i)%nat with O by lia. reflexivity.
Qed.
Lemma num_zeros w i k : num w i (repeat x00 k) = 0.
Proof.
  unfold num. rewrite dropN_repeat. generalize (k - N.to_nat i)%nat. clear k i. intros k. revert w.
  induction k as [|k IH]; intros w; [reflexivity|]. cbn [repeat takeN]. destruct (w =? 0); [reflexivity|]. cbn [le_val]. rewrite IH. reflexivity.
Qed.

Section Store.
  Variables (q : N) (z : nat).
  Hypotheses (Hq : 0 < q < 256) (Hz : N.of_nat z = name_length q).
  Notation blk := (cube_block q).
  Definition rest_of (k : nat) : bytes := concat (repeat blk k) ++ repeat x00 z.
  Lemma rest_S k : rest_of (S k) = blk ++ rest_of k.
  Proof. unfold rest_of. cbn [repeat concat]. now rewrite app_assoc. Qed.
  Lemma blk_len : lenN blk = 256.
  Proof. reflexivity. Qed.
  Lemma rest_len k : lenN (rest_of k) = 256 * N.of_nat k + name_length q.
  Proof. clear Hq. induction k as [|k IH]; [unfold rest_of; cbn [repeat concat app]; rewrite lenN_repeat; lia|]. rewrite rest_S, lenN_app, IH, blk_len. lia. Qed.
  Fixpoint rests (k : nat) : list bytes := match k with O => [] | S m => rest_of k :: rests m end.
  Fixpoint props (k : nat) : list bytes := match k with O => [] | S m => dropN 24 (rest_of k) :: props m end.
  Lemma long : 65793 <= name_length q.
  Proof. clear Hq. unfold name_length. lia. Qed.
  Lemma rests_listed k : elements (rest_of k) (rests k).
  Proof.
    clear Hq. pose proof long. induction k as [|k IH].
    - apply no_more; [rewrite rest_len; lia|]. unfold rest_of. cbn [repeat concat app]. apply num_zeros.
    - cbn [rests]. assert (E : num 4 0 (rest_of (S k)) = 256) by (rewrite rest_S; reflexivity).
      apply one_more; [rewrite rest_len; lia|rewrite E; discriminate|]. rewrite E, rest_S, dropN_app_exact by apply blk_len. exact IH.
  Qed.
  Lemma props_listed k : elements (dropN 24 (rest_of k)) (props k).
  Proof.
    clear Hq. pose proof long. induction k as [|k IH].
    - apply no_more; [rewrite lenN_dropN, rest_len; lia|]. unfold rest_of. cbn [repeat concat app]. rewrite dropN_repeat. apply num_zeros.
    - cbn [props]. assert (E : num 4 0 (dropN 24 (rest_of (S k))) = 256) by (rewrite rest_S; reflexivity).
      apply one_more; [rewrite lenN_dropN, rest_len; lia|rewrite E; discriminate|].
      rewrite E, dropN_dropN. replace (24 + 256) with (256 + 24) by lia. rewrite <- dropN_dropN, rest_S, dropN_app_exact by apply blk_len. exact IH.
  Qed.

  (** ** The names *)

  Definition name_front : text := repeat 0x0101 111 ++ [1].
  Definition name_middle : text :=
    [0x0001; 0x0100; 0x0101; 0x0501; 0xCDD5; 0x9CD5; 0x1B2E; 0x9310; 0x0897; 0x2B00; 0xF92C; 0x00AE; 0x0001; 0x0100; 0x0101; 0x0100 + q].
  Fixpoint name_from (k : nat) : text := match k with O => name_front | S m => name_front ++ name_middle ++ name_from m end.
  Lemma last_char : utf16_char (0x0100 + q) = [n2b q; x01].
  Proof.
    unfold utf16_char. destruct (N.ltb_spec (0x0100 + q) 0x10000); [|lia]. unfold enc16.
    replace ((0x0100 + q) / 256) with 1 by lia. change (n2b 1) with x01.
    replace (n2b (0x0100 + q)) with (n2b q); [reflexivity|]. apply b2n_inj. rewrite !b2n_n2b. lia.
  Qed.
  Lemma name_there k : exists junk, repeat x01 223 ++ rest_of k = utf16 (name_from k) ++ x00 :: x00 :: junk.
  Proof.
    pose proof long. induction k as [|k [junk IH]].
    - exists (repeat x00 (z - 3)). unfold rest_of. cbn [repeat concat app]. assert (EZ : repeat x00 z = x00 :: x00 :: x00 :: repeat x00 (z - 3)).
      { pose proof (repeat_app x00 3 (z - 3)) as E. replace (3 + (z - 3))%nat with z in E by lia. exact E. }
      rewrite EZ. reflexivity.
    - exists junk. rewrite rest_S. cbn [name_from]. unfold utf16. rewrite !flat_map_app. fold (utf16 (name_from k)). rewrite <- !app_assoc, <- IH.
      unfold name_middle. cbn [flat_map]. rewrite last_char. reflexivity.
  Qed.
  Lemma name_len k : lenN (name_from k) = 112 + 128 * N.of_nat k.
  Proof. induction k as [|k IH]; [reflexivity|]. cbn [name_from]. rewrite !lenN_app, IH. change (lenN name_front) with 112. change (lenN name_middle) with 16. lia. Qed.
  Lemma name_bytes k : lenN (utf16 (name_from k)) = 224 + 256 * N.of_nat k.
  Proof.
    induction k as [|k IH]; [reflexivity|]. cbn [name_from]. unfold utf16. rewrite !flat_map_app. fold (utf16 (name_from k)).
    rewrite !lenN_app, IH. change (lenN (flat_map utf16_char name_front)) with 224. unfold name_middle. cbn [flat_map]. rewrite last_char.
    change (lenN _) with 32 at 1. lia.
  Qed.
  Lemma name_plain k : Forall scalar (name_from k) /\ no_nul (name_from k).
  Proof.
    assert (F : Forall scalar name_front /\ no_nul name_front).
    { split; apply Forall_app; (split; [apply Forall_forall; intros x Hx; apply repeat_spec in Hx; subst x; unfold scalar; lia|repeat constructor; unfold scalar; lia]). }
    assert (M : Forall scalar name_middle /\ no_nul name_middle) by (split; repeat constructor; unfold scalar; lia).
    destruct F, M. induction k as [|k [I1 I2]]; [easy|]. cbn [name_from]. split; (apply Forall_app; split; [assumption|apply Forall_app; split; assumption]).
  Qed.
  Lemma name_shown k : 256 * N.of_nat (S k) <= name_length q ->
    wide_text (slice 9 (9 + name_length q) (dropN 24 (rest_of (S k)))) = name_from k.
  Proof.
    intros HL. destruct (name_there k) as (junk & E). destruct (name_plain k) as [P1 P2].
    unfold slice. replace (9 + name_length q - 9) with (name_length q) by lia. rewrite dropN_dropN, rest_S.
    replace (dropN (24 + 9) (blk ++ rest_of k)) with (repeat x01 223 ++ rest_of k) by reflexivity. rewrite E.
    rewrite takeN_app_ge by (rewrite name_bytes; lia). rewrite name_bytes.
    set (r := name_length q - _). assert (2 <= r) by (unfold r; lia). cbn [takeN].
    destruct (N.eqb_spec r 0); [lia|]. destruct (N.eqb_spec (N.pred r) 0); [lia|].
    pose proof (wide_text_nul (name_from k) (takeN (N.pred (N.pred r)) junk) P1 P2) as HT. rewrite read_unicode_field in HT. now injection HT.
  Qed.

  (** ** Properties and storages *)

  Lemma prop_read k : 256 * N.of_nat (S k) <= name_length q ->
    exists d w, property_at true (dropN 24 (rest_of (S k))) d w /\ 113 + 128 * N.of_nat k <= weight (PDict d).
  Proof.
    intros HL. pose proof long. pose proof (rest_len (S k)) as EL. set (p := dropN 24 (rest_of (S k))).
    assert (EN : num 4 4 p = name_length q).
    { unfold p. rewrite rest_S. replace (num 4 4 (dropN 24 (blk ++ rest_of k))) with (le_val [x01; x01; x01; n2b q]) by reflexivity.
      cbn [le_val]. rewrite b2n_n2b. change (b2n x01) with 1. unfold name_length. lia. }
    assert (EV : exists m, dropN (9 + num 4 4 p) p = repeat x00 m /\ (4 <= m)%nat).
    { rewrite EN. unfold p. rewrite dropN_dropN. unfold rest_of.
      assert (E : lenN (concat (repeat blk (S k))) = 256 * N.of_nat (S k)).
      { pose proof EL as E. unfold rest_of in E. rewrite lenN_app, lenN_repeat in E. lia. }
      rewrite dropN_app_ge by (rewrite E; lia). rewrite dropN_repeat, E. eexists. split; [reflexivity|]. lia. }
    destruct EV as (m & EV & Hm).
    eexists _, _. split.
    - apply named_property; [reflexivity|unfold p; rewrite lenN_dropN, EL; lia|]. rewrite EV. apply (value_none _ "VT_EMPTY").
      + rewrite lenN_repeat. lia.
      + right. rewrite num_zeros. split; discriminate.
      + rewrite num_zeros. now left.
    - rewrite weight_dict, !wdict_cons. rewrite EN. unfold p. rewrite (name_shown k HL). cbn [weight]. rewrite name_len. lia.
  Qed.
  Lemma props_read k : 256 * N.of_nat k <= name_length q ->
    exists ds w, each (property_at true) (props k) ds w /\ 64 * N.of_nat k * N.of_nat k <= wlist (map PDict ds).
  Proof.
    induction k as [|k IH]; intros HL; [exists [], []; split; [constructor|cbn; lia]|].
    destruct IH as (ds & w & H & W); [lia|]. destruct (prop_read k HL) as (d & w' & H' & W').
    exists (d :: ds), (w' ++ w). split; [now constructor|]. unfold wlist in *. cbn [map sumN fold_right]. fold sumN. unfold sumN in W. nia.
  Qed.
  Lemma storage_there k : 256 * N.of_nat (S k) <= name_length q ->
    exists d w, storage_at (rest_of (S k)) d w /\ 64 * N.of_nat (S k) * N.of_nat (S k) <= weight (PDict d).
  Proof.
    intros HL. destruct (props_read (S k) HL) as (ds & w & H & W). pose proof long. eexists _, _. split.
    - apply (storage_read _ true (props (S k)) ds); [rewrite rest_len; lia| |apply props_listed|exact H].
      split; [intros _|reflexivity]. rewrite rest_S. reflexivity.
    - rewrite weight_dict, !wdict_cons, weight_list. lia.
  Qed.
  Lemma storages_read k : 256 * N.of_nat k <= name_length q ->
    exists ds w, each storage_at (rests k) ds w /\ 21 * N.of_nat k * N.of_nat k * N.of_nat k <= wlist (map PDict ds).
  Proof.
    induction k as [|k IH]; intros HL; [exists [], []; split; [constructor|cbn; lia]|].
    destruct IH as (ds & w & H & W); [lia|]. destruct (storage_there k HL) as (d & w' & H' & W').
    exists (d :: ds), (w' ++ w). split; [now constructor|]. unfold wlist in *. cbn [map sumN fold_right]. fold sumN. unfold sumN in W.
    replace (N.of_nat (S k)) with (N.of_nat k + 1) in * by lia. set (x := N.of_nat k) in *. nia.
  Qed.
End Store.

Lemma cube_store_rest n : cube_store n = rest_of (uppermost n) (N.to_nat (name_length (uppermost n))) n.
Proof. reflexivity. Qed.
Lemma cube_store_len n : lenN (cube_store n) = 256 * N.of_nat n + name_length (uppermost n).
Proof. rewrite cube_store_rest. apply rest_len. apply N2Nat.id. Qed.
Lemma uppermost_bounds n : 512 * N.of_nat n + 2 ^ 25 < 2 ^ 32 ->
  0 < uppermost n < 256 /\ 256 * N.of_nat n <= name_length (uppermost n) <= 256 * N.of_nat n + 2 ^ 24 + 65793.
Proof.
  unfold uppermost, name_length. change (2 ^ 25) with 33554432. change (2 ^ 32) with 4294967296. change (2 ^ 24) with 16777216. change (2 ^ 16) with 65536.
  intros H. lia.
Qed.
Lemma cube_file_parts n : cube_file n = one_store (cube_store n).
Proof. unfold cube_file, one_store, encode_blocks, encode_block. cbn [flat_map fst snd]. now rewrite !app_nil_r, <- !app_assoc. Qed.
Lemma cube_file_len n : lenN (cube_file n) = 88 + 256 * N.of_nat n + name_length (uppermost n).
Proof. rewrite cube_file_parts, one_store_len, cube_store_len. lia. Qed.

Lemma cube_report n cp allow all : usable cp -> 512 * N.of_nat n + 2 ^ 25 < 2 ^ 32 ->
  lenN (cube_file n) <= 512 * N.of_nat n + 2 ^ 25
  /\ exists l d, snd (lnk_init (FromBytes (cube_file n)) cp allow) = Ok l /\ snd (get_json l all) = Ok d
     /\ 21 * N.of_nat n ^ 3 <= weight (PDict d).
Proof.
  intros Hcp L. destruct (uppermost_bounds n L) as (Hq & H1 & H2).
  pose proof (cube_store_len n) as EL. pose proof (cube_file_len n) as EF.
  change (2 ^ 25) with 33554432 in *. change (2 ^ 32) with 4294967296 in *. change (2 ^ 24) with 16777216 in *.
  split; [lia|].
  set (z := N.to_nat (name_length (uppermost n))).
  assert (Hz : N.of_nat z = name_length (uppermost n)) by apply N2Nat.id.
  destruct (storages_read (uppermost n) z Hq Hz n H1) as (ds & w & HS & HW).
  pose proof (rests_listed (uppermost n) z Hz n) as HR. fold z in EL.
  rewrite cube_file_parts. pose proof (cube_store_rest n) as ES. fold z in ES. rewrite <- ES in HR.
  set (body := cube_store n) in *. clearbody body. 
  assert (HB : block_read cp 0xA0000009 (encode_block (0xA0000009, body))
                 [("size", number_at 4 0 (encode_block (0xA0000009, body))); ("property_store", PList (map PDict ds))]%string w).
  { apply (store_read _ _ _ (rests (uppermost n) z n)); [reflexivity| |exact HS].
    unfold encode_block. rewrite app_assoc. cbn [fst snd]. rewrite dropN_app_exact; [exact HR|]. now rewrite lenN_app, !lenN_enc32. }
  apply (block_read_iff cp 0xA0000009 (Extra Metadata (encode_block (0xA0000009, body))) Hcp eq_refl) in HB;
    [|cbn [ex_raw]; rewrite lenN_block; lia].
  destruct (one_store_report body cp _ w Hcp ltac:(lia) HB allow all) as (l & d & I1 & I2 & I3).
  exists l, d. split; [exact I1|]. split; [exact I2|]. pose proof (store_part d).
  rewrite !wdict_cons, weight_list in I3. replace (N.of_nat n ^ 3) with (N.of_nat n * N.of_nat n * N.of_nat n); [lia|].
  change 3 with (1 + 1 + 1). rewrite !N.pow_add_r, !N.pow_1_r. reflexivity.
Qed.

Lemma quadratic_refuted cp allow all k : usable cp -> k <= 2 ^ 8 ->
  exists b l d, snd (lnk_init (FromBytes b) cp allow) = Ok l /\ snd (get_json l all) = Ok d
  /\ k * lenN b ^ 2 < weight (PDict d).
Proof.
  intros Hcp HK. assert (HN : exists n, N.of_nat n = 4194304) by (exists (N.to_nat 4194304); apply N2Nat.id). destruct HN as (n & En).
  destruct (cube_report n cp allow all Hcp) as (HL & l & d & H1 & H2 & H3); [rewrite En; reflexivity|].
  exists (cube_file n), l, d. split; [exact H1|]. split; [exact H2|]. rewrite En in *.
  set (x := lenN (cube_file n)) in *. clearbody x.
  change (512 * 4194304 + 2 ^ 25) with 2181038080 in HL. change (21 * 4194304 ^ 3) with 1549526502191602335744 in H3. change (2 ^ 8) with 256 in HK.
  rewrite N.pow_2_r. assert (x * x <= 2181038080 * 2181038080) by (apply N.mul_le_mono; exact HL).
  assert (k * (x * x) <= 256 * (2181038080 * 2181038080)) by (apply N.mul_le_mono; assumption). lia.
Qed.
