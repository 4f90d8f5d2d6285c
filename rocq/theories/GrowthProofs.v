(** * Reports whose size grows with the square of the file (C59) *)
From Verif Require Import Lemmas PyTime Codec Utils Sha256 Header StringData Targets Info Extra LnkFile.
From Verif Require Import Spec SpecText SpecExtra SpecSize EncProofs TextProofs FormatProofs OutcomeProofs LayoutProofs.
From Verif Require Import CoreProofs ApiProofs HeaderProofs ConstructProofs ExtraProofs ExtraFileProofs ExtraListProofs ShapeProofs SizeProofs.

Definition body (n : nat) : bytes := words n ++ repeat x00 40.
Lemma body_S n : body (S n) = enc32 4 ++ body n.
Proof. unfold body, words. cbn [repeat concat]. now rewrite app_assoc. Qed.
Lemma body_len n : lenN (body n) = 4 * N.of_nat n + 40.
Proof.
  induction n as [|n IH]; [reflexivity|]. rewrite body_S, lenN_app, IH, lenN_enc32. lia.
Qed.
Lemma body_cons n : exists x t, body n = x :: t.
Proof. destruct n as [|n]; [|rewrite body_S]; repeat eexists. Qed.

Fixpoint bodies (n : nat) : list bytes := match n with O => [] | S m => body n :: bodies m end.
Lemma body_suffixes n : forall fuel, (n < fuel)%nat -> sized_suffixes fuel (body n) = ret (bodies n).
Proof.
  induction n as [|n IH]; intros fuel L; (destruct fuel as [|fuel]; [lia|]).
  - vm_compute. reflexivity.
  - cbn [sized_suffixes bodies]. rewrite body_S. pose proof (IH fuel ltac:(lia)) as Ht.
    destruct (body_cons n) as (x & t & E). rewrite E in *.
    replace (slice 0 4 (enc32 4 ++ x :: t)) with (enc32 4) by (vm_compute; reflexivity). rewrite unpack_enc32 by (unfold fits32; lia). rewrite bind_ret_l.
    change (4 =? 0) with false. cbv iota. replace (dropN 4 (enc32 4 ++ x :: t)) with (x :: t) by (vm_compute; reflexivity). rewrite Ht, bind_ret_l. reflexivity.
Qed.

Lemma value_ok n : exists d, snd (integer_name_dict (body (S n))) = Ok d /\ 16 <= wdict d.
Proof.
  destruct n as [|[|[|n]]].
  1-3: eexists; split; [vm_compute; reflexivity|vm_compute; discriminate].
  rewrite !body_S. destruct (body_cons n) as (x & t & ->). eexists. split; [vm_compute; reflexivity|vm_compute; discriminate].
Qed.
Lemma values_ok n : exists ds, snd (mapM integer_name_dict (bodies n)) = Ok ds /\ 17 * N.of_nat n <= wlist (map PDict ds).
Proof.
  induction n as [|n IH].
  - exists []. split; [reflexivity|]. cbn. lia.
  - destruct (value_ok n) as (d & Hd & Wd). destruct IH as (ds & Hds & Wds). exists (d :: ds). split.
    + cbn [bodies mapM]. rewrite snd_bind, Hd, snd_bind, Hds. reflexivity.
    + unfold wlist in *. cbn [map sumN fold_right]. fold sumN. rewrite weight_dict. unfold sumN in Wds. lia.
Qed.

Lemma storage_ok n : exists d, snd (storage_dict (body (S n))) = Ok d /\ 8 + 17 * (N.of_nat (S n) - 6) <= wdict d.
Proof.
  destruct n as [|[|[|[|[|n]]]]].
  1-5: eexists; split; [vm_compute; reflexivity|vm_compute; discriminate].
  destruct (values_ok n) as (ds & Hds & Wds).
  assert (EL : (n < S (length (body (S (S (S (S (S (S n)))))))))%nat)
    by (pose proof (body_len (S (S (S (S (S (S n))))))) as H; unfold lenN in H; unfold bytes in *; lia).
  pose proof (body_suffixes n _ EL) as HS. unfold storage_dict, serialized_property_values.
  generalize dependent (length (body (S (S (S (S (S (S n)))))))). intros L _ HS.
  rewrite !body_S in *. destruct (body_cons n) as (x & t & E). rewrite E in *.
  match goal with |- context [sized_suffixes (S ?k) ?r] => replace r with (x :: t) by (vm_compute; reflexivity) end.
  eexists. split.
  - match goal with |- context [ps_format_id ?r] => set (raw := r) end.
    assert (E1 : u32_field 0 raw = ret (PN 4)) by (vm_compute; reflexivity).
    assert (E2 : unpack_u32 (slice 4 8 raw) = ret 4) by (vm_compute; reflexivity).
    assert (E3 : ps_format_id raw = ret (s2t "00000004-0004-0000-0400-000004000000")) by (vm_compute; reflexivity).
    rewrite E1, E2, E3, !bind_ret_l. cbv zeta.
    change (text_eqb _ _) with false. 
    cbn [fields]. rewrite !bind_ret_l.
    rewrite HS, !bind_ret_l. cbv iota. rewrite !snd_bind, Hds. cbn [snd ret]. reflexivity.
  - rewrite !wdict_cons, weight_list, wdict_nil. pose proof (weight_pos (PN 4)).
    pose proof (weight_pos (PStr (hex_text 4))). pose proof (weight_pos (PStr (s2t "00000004-0004-0000-0400-000004000000"))).
    lia.
Qed.

Fixpoint triangle (n : nat) : N := match n with O => 0 | S m => 9 + 17 * (N.of_nat n - 6) + triangle m end.
Lemma triangle_square n : N.of_nat n * N.of_nat n <= triangle n.
Proof.
  assert (H : forall m, 2 * triangle m >= 18 * N.of_nat m /\
    ((6 <= m)%nat -> 2 * triangle m = 17 * (N.of_nat m - 6) * (N.of_nat m - 5) + 18 * N.of_nat m)).
  { induction m as [|m IH]; [split; [cbn; lia|lia]|]. cbn [triangle]. destruct IH as [H1 H2]. split; [lia|]. intros L.
    destruct (Nat.eq_dec m 5) as [->|]; [reflexivity|]. specialize (H2 ltac:(lia)).
    replace (N.of_nat (S m) - 6) with (N.of_nat m - 6 + 1) by lia.
    replace (N.of_nat (S m) - 5) with (N.of_nat m - 6 + 2) by lia.
    replace (N.of_nat m - 5) with (N.of_nat m - 6 + 1) in H2 by lia.
    replace (N.of_nat (S m)) with (N.of_nat m - 6 + 7) by lia.
    set (k := N.of_nat m - 6) in *. replace (N.of_nat m) with (k + 6) in H2 by lia. nia. }
  destruct (H n) as [H1 H2]. destruct (Nat.le_gt_cases n 9) as [L|L].
  - nia.
  - specialize (H2 ltac:(lia)). set (k := N.of_nat n - 9) in *.
    replace (N.of_nat n - 6) with (k + 3) in H2 by lia. replace (N.of_nat n - 5) with (k + 4) in H2 by lia.
    replace (N.of_nat n) with (k + 9) in * by lia. nia.
Qed.
Lemma storages_ok n : exists ds, snd (mapM storage_dict (bodies n)) = Ok ds /\ triangle n <= wlist (map PDict ds).
Proof.
  induction n as [|n IH].
  - exists []. split; [reflexivity|]. cbn. lia.
  - destruct (storage_ok n) as (d & Hd & Wd). destruct IH as (ds & Hds & Wds). exists (d :: ds). split.
    + cbn [bodies mapM]. rewrite snd_bind, Hd, snd_bind, Hds. reflexivity.
    + unfold wlist in *. cbn [map sumN fold_right triangle]. fold sumN. rewrite weight_dict. unfold sumN in Wds. lia.
Qed.

Lemma store_ok n : 4 * N.of_nat n + 48 < 4294967296 ->
  exists d, snd (metadata_dict (encode_block (0xA0000009, body n))) = Ok d /\ N.of_nat n * N.of_nat n <= wdict d.
Proof.
  intros L. destruct (storages_ok n) as (ds & Hds & Wds). pose proof (triangle_square n).
  unfold metadata_dict, base_fields, encode_block. cbn [fst snd]. rewrite body_len.
  replace (8 + (4 * N.of_nat n + 40)) with (4 * N.of_nat n + 48) by lia.
  match goal with |- context [length ?r] => set (raw := r) end.
  assert (EL : (n < S (length raw))%nat).
  { pose proof (body_len n) as H1. assert (H2 : lenN raw = 8 + lenN (body n)) by (unfold raw; autorewrite with lens; lia).
    unfold lenN in *. unfold bytes in *. lia. }
  assert (ED : dropN 8 raw = body n) by (unfold raw; rewrite app_assoc; now apply dropN_app_exact).
  rewrite ED, (body_suffixes n _ EL).
  eexists. split.
  - cbn [fields app]. rewrite !bind_ret_l.
    unfold base_size, slice, raw. rewrite dropN_0, takeN_app_exact by reflexivity. rewrite unpack_enc32 by (unfold fits32; lia).
    rewrite !bind_ret_l, !snd_bind, Hds. cbn [snd ret]. reflexivity.
  - rewrite !wdict_cons, weight_list, wdict_nil. lia.
Qed.

(** ** The file *)

Lemma store_file_parts n : store_file n = encode_header (plain_header 0) ++ encode_blocks [(0xA0000009, body n)] ++ enc32 0 ++ [].
Proof.
  unfold store_file, encode_blocks, encode_block. cbn [flat_map fst snd]. rewrite body_len, !app_nil_r.
  replace (8 + (4 * N.of_nat n + 40)) with (4 * N.of_nat n + 48) by lia. unfold body. now rewrite <- !app_assoc.
Qed.
Lemma store_file_len n : lenN (store_file n) = 4 * N.of_nat n + 128.
Proof.
  rewrite store_file_parts. unfold encode_blocks. cbn [flat_map]. rewrite !lenN_app, lenN_block, lenN_enc32. cbn [snd].
  rewrite body_len. change (lenN (encode_header (plain_header 0))) with 76. change (lenN (@nil byte)) with 0. lia.
Qed.
Lemma plain_wf : wf_header (plain_header 0).
Proof. unfold wf_header, plain_header, fits16, fits32, fits_i32, fits_i64. cbn. repeat split; try reflexivity; lia. Qed.
Lemma plain_bits i rest : bit_set i (encode_header (plain_header 0) ++ rest) = false.
Proof.
  unfold bit_set. replace (num 4 20 _) with 0 by (vm_compute; reflexivity). now rewrite N.bits_0.
Qed.
Lemma plain_string_end rest : string_data_end (encode_header (plain_header 0) ++ rest) = 76.
Proof.
  unfold string_data_end, info_end, info_processed, id_list_end, has_id_list, string_slots. cbn [strings_end].
  rewrite !plain_bits. cbn [andb]. now rewrite (header_len_encode _ _ plain_wf).
Qed.
Lemma plain_header_dict rest : exists h, snd (header_dict (takeN 76 (encode_header (plain_header 0) ++ rest))) = Ok h.
Proof. rewrite takeN_app_exact by reflexivity. eexists. vm_compute. reflexivity. Qed.

Lemma store_file_report n cp allow all : usable cp -> 4 * N.of_nat n + 48 < 4294967296 ->
  exists l d, snd (lnk_init (FromBytes (store_file n)) cp allow) = Ok l /\ snd (get_json l all) = Ok d
  /\ N.of_nat n * N.of_nat n <= store_weight d.
Proof.
  intros Hcp L. destruct (store_ok n L) as (m & Hm & Wm).
  assert (HF : Forall block_fits [(0xA0000009, body n)]).
  { constructor; [|constructor]. split; [unfold fits32; cbn; lia|]. cbn [snd]. rewrite body_len. lia. }
  pose proof (header_len_encode (plain_header 0) (encode_blocks [(0xA0000009, body n)] ++ enc32 0 ++ []) plain_wf) as E76.
  pose proof (plain_string_end (encode_blocks [(0xA0000009, body n)] ++ enc32 0 ++ [])) as ES.
  pose proof (fun i => plain_bits i (encode_blocks [(0xA0000009, body n)] ++ enc32 0 ++ [])) as EB.
  destruct (plain_header_dict (encode_blocks [(0xA0000009, body n)] ++ enc32 0 ++ [])) as (h & Hh).
  pose proof (store_file_len n) as EL.
  rewrite <- store_file_parts in *. set (b := store_file n) in *. change (h_size (plain_header 0)) with 76 in E76.
  assert (ED : dropN (string_data_end b) b = encode_blocks [(0xA0000009, body n)] ++ enc32 0 ++ []).
  { rewrite ES. unfold b. rewrite store_file_parts. now apply dropN_app_exact. }
  assert (E0 : has_id_list b = false) by apply EB.
  destruct (terminal_zero_init b cp allow _ [] Hcp HF ltac:(lia) ltac:(lia) ltac:(congruence) ED) as (l & Hl).
  pose proof (file_blocks b cp allow l _ [] Hcp Hl HF ED) as HX.
  pose proof (init_constructed b cp allow l Hcp Hl) as (_ & Hc & Hhd & _ & Ht & Hi & _).
  rewrite E76 in Hhd. rewrite E0 in Ht.
  assert (EI : info_processed b = false) by (unfold info_processed; now rewrite EB). rewrite EI in Hi.
  assert (HE : snd (extras_as_dict (l_cp l) (l_extras l)) = Ok [("METADATA_PROPERTIES_BLOCK"%string, PDict m)]).
  { rewrite HX. change (0 <? lenN (@nil byte)) with false. rewrite andb_false_r. cbn [map app fst].
    change (class_of_sig 0xA0000009) with Metadata. unfold extras_as_dict. cbn [extras_loop].
    unfold add_block. cbn [ex_class extra_name extra_as_dict ex_raw].
    destruct (metadata_dict (encode_block (0xA0000009, body n))) as [w r]. cbn [snd] in Hm. subst r. reflexivity. }
  assert (HM : exists mid, snd (middle_json l) = Ok mid).
  { unfold middle_json. rewrite Hhd, Ht, Hi.
    destruct (header_dict (takeN 76 b)) as [w r]. cbn [snd] in Hh. subst r. eexists. cbn [bind ret snd]. reflexivity. }
  destruct HM as (mid & HM). exists l. eexists. split; [exact Hl|]. split.
  - rewrite get_json_middle, snd_bind, HM, snd_bind, HE. reflexivity.
  - unfold store_weight. cbn [dget String.eqb Ascii.eqb Bool.eqb].
    pose proof (middle_keys l mid all HM) as HK. rewrite dget_app. destruct all; rewrite HK; cbn [dget String.eqb Ascii.eqb Bool.eqb]; rewrite weight_dict; lia.
Qed.

Lemma dget_weight k d v : dget k d = Some v -> weight v <= wdict d.
Proof.
  induction d as [|[k' v'] d IH]; cbn [dget]; [discriminate|]. rewrite wdict_cons.
  destruct (String.eqb k k'); intros H; [injection H as ->; lia|]. specialize (IH H). lia.
Qed.
Lemma store_part d : store_weight d <= weight (PDict d).
Proof.
  unfold store_weight. rewrite weight_dict. destruct (dget "extra" d) as [[| | | | |e]|] eqn:E1; try lia.
  destruct (dget "METADATA_PROPERTIES_BLOCK" e) as [v|] eqn:E2; [|lia].
  apply dget_weight in E1. apply dget_weight in E2. rewrite weight_dict in E1. lia.
Qed.

Lemma no_linear_bound cp allow all k : usable cp -> k <= 2 ^ 27 ->
  exists b l d, snd (lnk_init (FromBytes b) cp allow) = Ok l /\ snd (get_json l all) = Ok d /\ k * lenN b < weight (PDict d).
Proof.
  intros Hcp L. set (n := N.to_nat (4 * k + 100)).
  assert (E : N.of_nat n = 4 * k + 100) by (unfold n; lia).
  destruct (store_file_report n cp allow all Hcp) as (l & d & H1 & H2 & H3).
  { rewrite E. change (2 ^ 27) with 134217728 in L. lia. }
  exists (store_file n), l, d. split; [exact H1|]. split; [exact H2|].
  rewrite store_file_len. pose proof (store_part d). rewrite E in *. nia.
Qed.

Lemma store_square n cp allow all : usable cp -> 4 * N.of_nat n + 48 < 2 ^ 32 ->
  lenN (store_file n) = 4 * N.of_nat n + 128
  /\ exists l d, snd (lnk_init (FromBytes (store_file n)) cp allow) = Ok l /\ snd (get_json l all) = Ok d
     /\ N.of_nat n ^ 2 <= weight (PDict d).
Proof.
  intros Hcp L. split; [apply store_file_len|].
  destruct (store_file_report n cp allow all Hcp L) as (l & d & H1 & H2 & H3).
  exists l, d. split; [exact H1|]. split; [exact H2|]. pose proof (store_part d). rewrite N.pow_2_r. lia.
Qed.
Lemma size_cubic src b cp allow l all d : (src = FromBytes b \/ src = FromHandle b) -> narrow_page (page_of cp) ->
  snd (lnk_init src cp allow) = Ok l -> snd (get_json l all) = Ok d ->
  weight (PDict d) <= 1505 + 581 * lenN b + 31 * lenN b ^ 2 + 2 * lenN b ^ 3.
Proof.
  intros Hs Hp Hl Hd. destruct (size_parts src b cp allow l all d Hs Hp Hl Hd) as [H1 H2].
  replace (lenN b ^ 3) with (lenN b * lenN b * lenN b) by (change 3 with (N.succ (N.succ 1)); rewrite !N.pow_succ_r', N.pow_1_r; lia).
  rewrite N.pow_2_r. unfold bytes in *. set (n := lenN b) in *. clearbody n.
  replace (5 + (81 + (31 + 2 * n) * n) * n) with (5 + 81 * n + 31 * (n * n) + 2 * (n * n * n)) in H2 by ring. lia.
Qed.
