(** * Section boundaries, sizes and the constructor's outcome (C02, C17, C18, C20) *)
From Verif Require Import Lemmas PyTime Codec Utils Sha256 Header StringData Targets Info Extra LnkFile.
From Verif Require Import Spec OutcomeProofs.

(** ** Reading numbers *)

Lemma slice_num {A} i w (l : list A) : slice i (i + w) l = takeN w (dropN i l).
Proof. unfold slice. f_equal. lia. Qed.

Lemma unpack_at w i b : 0 < w ->
  unpack_le w (slice i (i + w) b) = if i + w <=? lenN b then ret (num w i b) else raise StructError.
Proof.
  intros Hw. unfold unpack_le. rewrite lenN_slice, slice_num. unfold num.
  destruct (i + w <=? lenN b) eqn:E.
  - replace (N.min (i + w - i) (lenN b - i) =? w) with true by lia. reflexivity.
  - replace (N.min (i + w - i) (lenN b - i) =? w) with false by lia. reflexivity.
Qed.
Lemma unpack_u16_at i b :
  unpack_u16 (slice i (i + 2) b) = if i + 2 <=? lenN b then ret (num 2 i b) else raise StructError.
Proof. now apply unpack_at. Qed.
Lemma unpack_u32_at i b :
  unpack_u32 (slice i (i + 4) b) = if i + 4 <=? lenN b then ret (num 4 i b) else raise StructError.
Proof. now apply unpack_at. Qed.
Lemma unpack_u32_0 b :
  unpack_u32 (slice 0 4 b) = if 4 <=? lenN b then ret (num 4 0 b) else raise StructError.
Proof. apply (unpack_u32_at 0 b). Qed.
Lemma unpack_u16_0 b :
  unpack_u16 (slice 0 2 b) = if 2 <=? lenN b then ret (num 2 0 b) else raise StructError.
Proof. apply (unpack_u16_at 0 b). Qed.

Lemma num_dropN w i n b : num w i (dropN n b) = num w (n + i) b.
Proof. unfold num. now rewrite dropN_dropN. Qed.
Lemma num_takeN w i n b : i + w <= n -> num w i (takeN n b) = num w i b.
Proof.
  intros H. unfold num. rewrite dropN_takeN, takeN_takeN. do 2 f_equal. lia.
Qed.
Lemma num_lt w i b : num w i b < 256 ^ w.
Proof.
  unfold num. eapply N.lt_le_trans; [apply le_val_lt|]. apply N.pow_le_mono_r; [lia|].
  rewrite lenN_takeN. lia.
Qed.

(** ** Link flags *)

Lemma land_pow2_eq0 a i : (N.land a (2 ^ i) =? 0) = negb (N.testbit a i).
Proof.
  destruct (N.testbit a i) eqn:E; cbn [negb].
  - apply N.eqb_neq. intros H. assert (N.testbit (N.land a (2 ^ i)) i = false) by (rewrite H; apply N.bits_0).
    rewrite N.land_spec, N.pow2_bits_true, E in H0. discriminate.
  - apply N.eqb_eq, N.bits_inj. intros j. rewrite N.land_spec, N.bits_0.
    destruct (N.eq_dec i j) as [->|Hj]; [now rewrite E|]. rewrite N.pow2_bits_false by congruence.
    apply andb_false_r.
Qed.

Lemma existsb_flag_names name table flag :
  existsb (String.eqb name) (flag_names table flag)
  = existsb (fun e => String.eqb name (snd e) && negb (N.land flag (fst e) =? 0)) table.
Proof.
  unfold flag_names. induction table as [|[m n] table IH]; [reflexivity|]. cbn [filter existsb].
  destruct (negb (N.land flag (fst (m, n)) =? 0)) eqn:E; cbn [map existsb snd]; rewrite IH, ?andb_true_r;
    [reflexivity|]. now rewrite andb_false_r.
Qed.

(** The flags the parser looks at, with their bit numbers. *)
Definition used_flags : list (string * N) :=
  [("HasTargetIDList", 0); ("HasLinkInfo", 1); ("HasName", 2); ("HasRelativePath", 3); ("HasWorkingDir", 4);
   ("HasArguments", 5); ("HasIconLocation", 6); ("IsUnicode", 7); ("ForceNoLinkInfo", 8)]%string.

Lemma mask_bit flag m i : m = 2 ^ i -> negb (N.land flag m =? 0) = N.testbit flag i.
Proof. intros ->. now rewrite land_pow2_eq0, negb_involutive. Qed.

Lemma has_flag_raw name i raw :
  In (name, i) used_flags -> 24 <= lenN raw ->
  has_flag name raw = ret (N.testbit (num 4 20 raw) i).
Proof.
  intros Hin Hl. unfold has_flag, link_flags, r_link_flags.
  change (slice 20 24 raw) with (slice 20 (20 + 4) raw). rewrite unpack_u32_at.
  replace (20 + 4 <=? lenN raw) with true by lia. rewrite !bind_ret_l.
  f_equal. rewrite existsb_flag_names.
  cbn [used_flags In] in Hin.
  repeat (destruct Hin as [[= <- <-]|Hin];
    [cbn [existsb LINK_FLAG_MASK String.eqb Ascii.eqb Bool.eqb fst snd andb orb]; rewrite ?orb_false_r; now apply mask_bit|]).
  contradiction.
Qed.

Lemma has_flag_bit name i b :
  In (name, i) used_flags -> 24 <= header_len b -> 24 <= lenN b ->
  has_flag name (takeN (header_len b) b) = ret (bit_set i b).
Proof.
  intros Hin H1 H2. rewrite (has_flag_raw _ i) by (trivial; rewrite lenN_takeN; lia).
  unfold bit_set. now rewrite num_takeN by lia.
Qed.

Lemma has_flag_short name raw : lenN raw < 24 -> has_flag name raw = raise StructError.
Proof.
  intros H. unfold has_flag, link_flags, r_link_flags.
  change (slice 20 24 raw) with (slice 20 (20 + 4) raw). rewrite unpack_u32_at.
  replace (20 + 4 <=? lenN raw) with false by lia. reflexivity.
Qed.

(** ** Header *)

Lemma header_size_snd raw :
  snd (header_size raw) = if 4 <=? lenN raw then Ok (num 4 0 raw) else Err StructError.
Proof.
  unfold header_size, must_be_N. rewrite unpack_u32_0. destruct (4 <=? lenN raw); [|reflexivity].
  rewrite bind_ret_l. destruct (_ =? _); reflexivity.
Qed.

(** ** LinkInfo *)

Lemma info_class_spec raw :
  snd (info_class raw) =
  Ok (if 12 <=? lenN raw then
        if N.testbit (num 4 8 raw) 0 then Some Local
        else if N.testbit (num 4 8 raw) 1 then Some Network else None
      else None).
Proof.
  unfold info_class, volume_id_and_local_base_path, common_network_relative_link_and_path_suffix, info_flags, u32_at.
  rewrite unpack_u32_at. change (8 + 4) with 12. destruct (12 <=? lenN raw); [|reflexivity].
  rewrite !bind_ret_l. rewrite (mask_bit _ 1 0), (mask_bit _ 2 1) by reflexivity.
  destruct (N.testbit _ 0); [reflexivity|]. destruct (N.testbit _ 1); reflexivity.
Qed.

(** ** StringData *)

Lemma total_ok {A} (m : M A) : raises (fun _ => False) m -> exists a, snd m = Ok a.
Proof. intros H. destruct m as [w [a|e]]; [now exists a|]. destruct (H e eq_refl). Qed.

Lemma read_string_total cp b : usable cp -> exists t, snd (read_string cp b) = Ok t.
Proof. intros H. apply total_ok, r_read_string. assumption. Qed.
Lemma read_unicode_string_total b : exists t, snd (read_unicode_string b) = Ok t.
Proof. apply total_ok, r_read_unicode_string. Qed.

Lemma sd_read_snd header cp raw limit u :
  usable cp -> has_flag "IsUnicode" header = ret u ->
  if 2 <=? lenN raw then
    exists t, snd (sd_read header cp raw limit)
              = Ok (t, 2 + chars_read limit (num 2 0 raw) * (if u then 2 else 1))
  else sd_read header cp raw limit = raise StructError.
Proof.
  intros Hcp Hu. unfold sd_read. rewrite unpack_u16_0. destruct (2 <=? lenN raw); [|reflexivity].
  rewrite bind_ret_l, Hu, bind_ret_l.
  match goal with |- context [slice 2 (2 + ?l) raw] => set (len := l) end.
  assert (E : len = chars_read limit (num 2 0 raw) * (if u then 2 else 1)).
  { unfold len, chars_read. destruct limit; cbn [andb]; [|destruct u; lia].
    destruct (260 <? num 2 0 raw) eqn:E; destruct u; lia. }
  assert (Ht : exists t, snd (if u then read_unicode_string (slice 2 (2 + len) raw)
                              else read_string cp (slice 2 (2 + len) raw)) = Ok t).
  { destruct u; [apply read_unicode_string_total|now apply read_string_total]. }
  destruct Ht as [t Ht]. exists t. rewrite <- E.
  destruct u; rewrite snd_bind, Ht; reflexivity.
Qed.

Lemma sd_loop_size header cp b ie fs slots st :
  usable cp -> has_flag "IsUnicode" header = ret (bit_set 7 b) ->
  Forall2 (fun f s => has_flag (fst (fst f)) header = ret (bit_set (fst s) b) /\ snd f = snd s) fs slots ->
  exists sd, snd (sd_loop fs header cp (dropN ie b) st) = Ok sd
             /\ ie + sd_size sd = strings_end slots b (ie + sd_size st).
Proof.
  intros Hcp Hu HF. revert st. induction HF as [|[[fl name] lim] [i lim'] fs slots [H1 H2] HF IH]; intros st.
  - exists st. split; reflexivity.
  - cbn [fst snd] in H1, H2. subst lim'. cbn [sd_loop strings_end]. rewrite H1. unfold ret.
    destruct (bit_set i b); [|apply IH].
    pose proof (sd_read_snd header cp (dropN (sd_size st) (dropN ie b)) lim _ Hcp Hu) as HR.
    rewrite lenN_dropN, lenN_dropN in HR.
    destruct (ie + sd_size st + 2 <=? lenN b) eqn:E.
    + replace (2 <=? lenN b - ie - sd_size st) with true in HR by lia.
      destruct HR as [t HR]. destruct (sd_read _ _ _ _) as [w r]. cbn in HR. subst r.
      destruct (IH (SD (dset name (PStr t) (sd_data st))
                     (sd_size st + (2 + chars_read lim (num 2 0 (dropN (sd_size st) (dropN ie b)))
                                    * (if bit_set 7 b then 2 else 1))))) as (sd & Hsd & Hsz).
      exists sd. split; [destruct (sd_loop _ _ _ _ _); assumption|].
      rewrite Hsz. cbn [sd_size]. rewrite !num_dropN, !N.add_0_r. f_equal. unfold char_width. lia.
    + replace (2 <=? lenN b - ie - sd_size st) with false in HR by lia. rewrite HR. cbn.
      exists st. split; [reflexivity|lia].
Qed.

Lemma string_data_init_size b cp :
  usable cp -> 24 <= header_len b -> 24 <= lenN b ->
  exists sd, snd (string_data_init (takeN (header_len b) b) cp (dropN (info_end b) b)) = Ok sd
             /\ info_end b + sd_size sd = string_data_end b.
Proof.
  intros Hcp H1 H2. unfold string_data_init.
  assert (HF : forall name i, In (name, i) used_flags ->
                 has_flag name (takeN (header_len b) b) = ret (bit_set i b)).
  { intros name i Hin. now apply has_flag_bit. }
  destruct (sd_loop_size (takeN (header_len b) b) cp b (info_end b) sd_fields string_slots (SD [] 0) Hcp)
    as (sd & Hsd & Hsz).
  - apply HF. cbn. auto 10.
  - unfold sd_fields, string_slots.
    repeat constructor; cbn [fst snd]; apply HF; cbn; auto 10.
  - exists sd. split; [assumption|]. rewrite Hsz. cbn [sd_size]. now rewrite N.add_0_r.
Qed.

(** ** Extra data *)

(** The class for a signature, as the code looks it up. *)
Definition sig_class (sig : N) : extra_class :=
  match assoc_sig (dropN 2 (hex_text sig)) EXTRA_SIGS with Some c => c | None => UnknownExtra end.
Definition mk_block (blk : N * bytes) : extra := Extra (sig_class (fst blk)) (snd blk).

Lemma ef_extra_class_spec r :
  snd (ef_extra_class r) = Ok (if 8 <=? lenN r then Some (sig_class (num 4 4 r)) else None).
Proof.
  unfold ef_extra_class, ef_rsig. change (slice 4 8 r) with (slice 4 (4 + 4) r). rewrite unpack_u32_at.
  change (4 + 4) with 8. destruct (8 <=? lenN r); reflexivity.
Qed.

Lemma extra_loop_walk fuel r : (length r < fuel)%nat ->
  exists blocks r', block_walk r blocks r' /\ snd (extra_loop fuel r) = Ok (map mk_block blocks, r').
Proof.
  revert r; induction fuel as [|fuel IH]; intros r Hf; [lia|]. cbn [extra_loop].
  destruct r as [|x r0].
  - exists [], []. split; [apply walk_stop; left; reflexivity|reflexivity].
  - set (r := x :: r0) in *. unfold ef_item_size. rewrite unpack_u32_0.
    destruct (4 <=? lenN r) eqn:E4; [unfold ret at 1|].
    + destruct (num 4 0 r =? 0) eqn:E0.
      * apply N.eqb_eq in E0. exists [], r. split; [apply walk_stop; now right|reflexivity].
      * apply N.eqb_neq in E0.
        destruct (IH (dropN (num 4 0 r) r)) as (blocks & r' & HW & HL).
        { assert (r <> []) by discriminate. pose proof (dropN_shorter (num 4 0 r) r E0 H). lia. }
        pose proof (ef_extra_class_spec r) as HC. destruct (ef_extra_class r) as [wc c]. cbn [snd] in HC. subst c.
        cbn [bind]. destruct (extra_loop fuel _) as [wl rl]. cbn [snd] in HL. subst rl. cbn [bind ret].
        destruct (8 <=? lenN r) eqn:E8.
        -- exists ((num 4 4 r, takeN (num 4 0 r) r) :: blocks), r'. split; [|reflexivity].
           apply walk_block; [lia|assumption|assumption].
        -- exists blocks, r'. split; [|reflexivity]. apply walk_short; [lia|assumption|assumption].
    + exists [], r. split; [apply walk_stop; left; lia|reflexivity].
Qed.

Lemma block_walk_det r bs1 r1 bs2 r2 : block_walk r bs1 r1 -> block_walk r bs2 r2 -> bs1 = bs2 /\ r1 = r2.
Proof.
  intros H1. revert bs2 r2. induction H1; intros bs2 r2 H2; inversion H2; subst; clear H2;
    try (exfalso; tauto || lia); try (split; reflexivity).
  - apply IHblock_walk. assumption.
  - destruct (IHblock_walk _ _ H5) as [-> ->]. split; reflexivity.
Qed.

Lemma block_walk_total r : exists bs r', block_walk r bs r'.
Proof. destruct (extra_loop_walk (S (length r)) r) as (bs & r' & H & _); [lia|]. eauto. Qed.

Lemma block_walk_suffix r bs r' : block_walk r bs r' -> exists n, r' = dropN n r.
Proof.
  induction 1 as [r _|r bs r' _ _ _ [n ->]|r bs r' _ _ _ [n ->]].
  - exists 0. now rewrite dropN_0.
  - exists (num 4 0 r + n). now rewrite dropN_dropN.
  - exists (num 4 0 r + n). now rewrite dropN_dropN.
Qed.

(** Bytes after the terminal block are kept as a block of their own. *)
Definition tail_blocks (allow : bool) (r' : bytes) : list extra :=
  if allow && (4 <? lenN r') && (num 4 0 r' =? 0) then [Extra Terminal r'] else [].

Lemma block_walk_stop r bs r' : block_walk r bs r' -> lenN r' < 4 \/ num 4 0 r' = 0.
Proof. induction 1; assumption. Qed.

Lemma extra_init_spec allow r :
  exists blocks r', block_walk r blocks r'
    /\ snd (extra_init allow r) = Ok (map mk_block blocks ++ tail_blocks allow r').
Proof.
  unfold extra_init. destruct (extra_loop_walk (S (length r)) r) as (blocks & r' & HW & HL); [lia|].
  exists blocks, r'. split; [assumption|]. destruct (extra_loop _ _) as [w rl]. cbn [snd] in HL. subst rl. cbn [bind].
  unfold tail_blocks. pose proof (block_walk_stop _ _ _ HW) as HS.
  destruct allow; cbn [andb]; [|rewrite app_nil_r; reflexivity].
  destruct (4 <? lenN r') eqn:E; cbn [andb]; [|rewrite app_nil_r; reflexivity].
  unfold unpack_u32. rewrite unpack_le_ok by (rewrite lenN_takeN; lia). rewrite bind_ret_l.
  destruct HS as [HS|HS]; [lia|].
  assert (E0 : le_val (takeN 4 r') = 0) by (unfold num in HS; now rewrite dropN_0 in HS).
  rewrite E0, HS. reflexivity.
Qed.

Lemma sig_class_not_terminal sig : sig_class sig <> Terminal.
Proof.
  unfold sig_class. generalize (dropN 2 (hex_text sig)). intros t.
  unfold EXTRA_SIGS. cbn [assoc_sig].
  repeat match goal with |- context [if ?c then _ else _] => destruct c; [discriminate|] end. discriminate.
Qed.

Lemma extras_size_blocks blocks :
  snd (extras_size (map mk_block blocks))
  = if forallb (fun blk => 4 <=? lenN (snd blk)) blocks then Ok (sumN (map declared blocks)) else Err StructError.
Proof.
  induction blocks as [|[sig b] blocks IH]; [reflexivity|]. cbn [map extras_size forallb].
  assert (E : extra_size (mk_block (sig, b)) = base_size b).
  { unfold extra_size, mk_block. cbn [ex_class ex_raw fst snd]. pose proof (sig_class_not_terminal sig).
    destruct (sig_class sig); congruence. }
  rewrite E. unfold base_size. rewrite unpack_u32_0. cbn [snd].
  destruct (4 <=? lenN b); cbn [andb]; [|reflexivity]. rewrite bind_ret_l.
  destruct (extras_size _) as [w r]. cbn [snd] in IH. subst r.
  destruct (forallb _ _); [|reflexivity]. cbn. reflexivity.
Qed.

Lemma extras_size_app l1 l2 n1 n2 :
  snd (extras_size l1) = Ok n1 -> snd (extras_size l2) = Ok n2 -> snd (extras_size (l1 ++ l2)) = Ok (n1 + n2).
Proof.
  revert n1; induction l1 as [|e l1 IH]; intros n1 H1 H2; cbn [app extras_size] in *.
  - injection H1 as <-. now rewrite N.add_0_l.
  - apply snd_bind_Ok in H1 as (n & Hn & H1). apply snd_bind_Ok in H1 as (m & Hm & [= <-]).
    specialize (IH m Hm H2). destruct (extra_size e) as [w r]. cbn in Hn. subst r.
    destruct (extras_size (l1 ++ l2)) as [w2 r2]. cbn in IH. subst r2. cbn. f_equal. lia.
Qed.
Lemma extras_size_app_err l1 l2 e : snd (extras_size l1) = Err e -> snd (extras_size (l1 ++ l2)) = Err e.
Proof.
  revert e; induction l1 as [|x l1 IH]; intros e H1; cbn [app extras_size] in *; [discriminate|].
  apply snd_bind_Err in H1 as [H1|(n & Hn & H1)].
  - destruct (extra_size x) as [w r]. cbn in H1. subst r. reflexivity.
  - destruct (extra_size x) as [w r]. cbn in Hn. subst r.
    apply snd_bind_Err in H1 as [H1|(m & _ & H1)]; [|discriminate].
    specialize (IH e H1). destruct (extras_size (l1 ++ l2)) as [w2 r2]. cbn in IH. subst r2. reflexivity.
Qed.

Lemma extras_size_tail allow r' :
  snd (extras_size (tail_blocks allow r'))
  = Ok (if allow && (4 <? lenN r') && (num 4 0 r' =? 0) then lenN r' else 0).
Proof.
  unfold tail_blocks. destruct (allow && (4 <? lenN r') && (num 4 0 r' =? 0)) eqn:E; [|reflexivity].
  cbn. f_equal. rewrite lenN_dropN. lia.
Qed.

(** ** The constructor *)

Definition tail_size (allow : bool) (r' : bytes) : N :=
  if allow && (4 <? lenN r') && (num 4 0 r' =? 0) then lenN r' else 0.

(** Everything the constructor computes, in terms of the section boundaries. *)
Definition constructed (b : bytes) (cp : cp_arg) (allow : bool) (l : lnk) : Prop :=
  l_cp l = cp
  /\ l_header l = takeN (header_len b) b
  /\ l_target_index l = header_len b + 2
  /\ l_targets l = (if has_id_list b
                    then Some (Targets (dropN (header_len b) b)
                                 (slice 2 (num 2 (header_len b) b + 2) (dropN (header_len b) b)))
                    else None)
  /\ l_info l = (if info_processed b
                 then Some (if N.testbit (num 4 (id_list_end b + 8) b) 0 then Local else Network,
                            dropN (id_list_end b) b)
                 else None)
  /\ snd (string_data_init (l_header l) cp (dropN (info_end b) b)) = Ok (l_string_data l)
  /\ exists blocks r,
       block_walk (dropN (string_data_end b) b) blocks r
       /\ l_extras l = map mk_block blocks ++ tail_blocks allow r
       /\ let e := string_data_end b + sumN (map declared blocks) + tail_size allow r in
          l_size l = e + N.min 4 (lenN b - e).

Lemma process_outcome b cp allow :
  b <> [] -> usable cp ->
  (constructible b /\ exists l, snd (process b cp allow) = Ok l /\ constructed b cp allow l)
  \/ (~ constructible b /\ snd (process b cp allow) = Err StructError).
Proof.
  intros Hb Hcp. unfold process.
  destruct b as [|x0 b0]; [contradiction|]. set (b := x0 :: b0) in *.
  rewrite snd_bind. change (header_init b) with (size <- header_size b ;; ret (takeN size b)).
  rewrite snd_bind, header_size_snd.
  destruct (4 <=? lenN b) eqn:E4; [|right; split; [|reflexivity]; intros (_ & H & _); lia].
  fold (header_len b). cbn [snd ret].
  rewrite snd_bind, header_size_snd, lenN_takeN.
  destruct (4 <=? N.min (header_len b) (lenN b)) eqn:E4';
    [|right; split; [|reflexivity]; intros (H & H' & _); lia].
  rewrite num_takeN by lia. fold (header_len b).
  destruct (24 <=? N.min (header_len b) (lenN b)) eqn:E24.
  2:{ right. rewrite has_flag_short by (rewrite lenN_takeN; lia). split; [|reflexivity]. intros (H & H' & _). lia. }
  assert (HF : forall name i, In (name, i) used_flags ->
                 has_flag name (takeN (header_len b) b) = ret (bit_set i b)).
  { intros name i Hin. apply has_flag_bit; [assumption|lia|lia]. }
  rewrite (HF _ 0) by (cbn; auto 12). rewrite bind_ret_l. fold (has_id_list b).
  rewrite snd_bind.
  (* ID list *)
  assert (HT : snd ((if has_id_list b then
                 t <- targets_init (dropN (header_len b) b);;
                 size <- targets_size (tg_raw t);; ret (Some t, header_len b + size)
               else ret (None, header_len b)) : M (option targets * N))
               = if has_id_list b && negb (header_len b + 2 <=? lenN b) then Err StructError
                 else Ok (if has_id_list b
                          then Some (Targets (dropN (header_len b) b)
                                     (slice 2 (num 2 (header_len b) b + 2) (dropN (header_len b) b)))
                          else None, id_list_end b)).
  { unfold id_list_end. destruct (has_id_list b); cbn [andb]; [|reflexivity].
    unfold targets_init, targets_size, id_list_size. rewrite unpack_u16_0, lenN_dropN, num_dropN, N.add_0_r.
    destruct (header_len b + 2 <=? lenN b) eqn:E; cbn [negb].
    - replace (2 <=? lenN b - header_len b) with true by lia. rewrite !bind_ret_l. cbn [tg_raw].
      rewrite unpack_u16_0, lenN_dropN, num_dropN, N.add_0_r.
      replace (2 <=? lenN b - header_len b) with true by lia. rewrite !bind_ret_l. cbn [snd ret].
      do 2 f_equal. lia.
    - replace (2 <=? lenN b - header_len b) with false by lia. reflexivity. }
  rewrite HT. clear HT.
  destruct (has_id_list b && negb (header_len b + 2 <=? lenN b)) eqn:EI.
  { right. split; [|reflexivity]. intros (_ & _ & H & _). destruct (has_id_list b); [|discriminate].
    specialize (H eq_refl). cbn [andb] in EI. lia. }
  assert (HI : has_id_list b = true -> header_len b + 2 <= lenN b).
  { intros HI. rewrite HI in EI. cbn [andb] in EI. lia. }
  clear EI.
  (* LinkInfo *)
  rewrite (HF _ 1) by (cbn; auto 12). rewrite bind_ret_l.
  assert (EF : (if bit_set 1 b then f <- has_flag "ForceNoLinkInfo" (takeN (header_len b) b);; ret (negb f)
                else ret false) = ret (bit_set 1 b && negb (bit_set 8 b))).
  { destruct (bit_set 1 b); [|reflexivity]. rewrite (HF _ 8) by (cbn; auto 12). reflexivity. }
  rewrite EF, bind_ret_l. clear EF. rewrite snd_bind.
  match goal with |- context [match snd ?X with Ok _ => _ | Err _ => _ end] =>
    assert (HL : snd X
     = Ok (if info_processed b
                 then Some (if N.testbit (num 4 (id_list_end b + 8) b) 0 then Local else Network,
                            dropN (id_list_end b) b)
                 else None, info_end b)) end.
  { unfold info_end, info_processed. destruct (bit_set 1 b && negb (bit_set 8 b)); cbn [andb]; [|reflexivity].
    rewrite snd_bind, info_class_spec, lenN_dropN, !num_dropN.
    destruct (id_list_end b + 12 <=? lenN b) eqn:E12; cbn [andb].
    - replace (12 <=? lenN b - id_list_end b) with true by lia.
      destruct (N.testbit (num 4 (id_list_end b + 8) b) 0); cbn [orb].
      + unfold info_size, u32_at. rewrite unpack_u32_at, lenN_dropN, num_dropN, N.add_0_r.
        replace (0 + 4 <=? lenN b - id_list_end b) with true by lia. reflexivity.
      + destruct (N.testbit (num 4 (id_list_end b + 8) b) 1); [|reflexivity].
        unfold info_size, u32_at. rewrite unpack_u32_at, lenN_dropN, num_dropN, N.add_0_r.
        replace (0 + 4 <=? lenN b - id_list_end b) with true by lia. reflexivity.
    - replace (12 <=? lenN b - id_list_end b) with false by lia. reflexivity. }
  rewrite HL. clear HL.
  (* StringData *)
  destruct (string_data_init_size b cp Hcp) as (sd & Hsd & Hsz); [lia|lia|].
  rewrite snd_bind, Hsd, Hsz.
  (* extra data *)
  destruct (extra_init_spec allow (dropN (string_data_end b) b)) as (blocks & r & HW & HE).
  rewrite snd_bind, HE. rewrite snd_bind.
  destruct (forallb (fun blk => 4 <=? lenN (snd blk)) blocks) eqn:ES.
  - left. assert (HZ : snd (extras_size (map mk_block blocks ++ tail_blocks allow r))
                       = Ok (sumN (map declared blocks) + tail_size allow r)).
    { apply extras_size_app; [now rewrite extras_size_blocks, ES|apply extras_size_tail]. }
    rewrite HZ. split.
    + split; [lia|]. split; [lia|]. split; [assumption|]. intros bs2 r2 HW2.
      destruct (block_walk_det _ _ _ _ _ HW HW2) as [<- <-].
      apply Forall_forall. intros blk Hin. rewrite forallb_forall in ES. specialize (ES blk Hin). lia.
    + eexists. split; [reflexivity|].
      unfold constructed. cbn [l_cp l_header l_target_index l_targets l_info l_string_data l_extras l_size].
      repeat split; [assumption|]. exists blocks, r. split; [assumption|]. split; [reflexivity|].
      cbn zeta. rewrite lenN_dropN.
      replace (string_data_end b + (sumN (map declared blocks) + tail_size allow r))
        with (string_data_end b + sumN (map declared blocks) + tail_size allow r) by lia.
      f_equal. lia.
  - right. assert (HZ : snd (extras_size (map mk_block blocks ++ tail_blocks allow r)) = Err StructError).
    { apply extras_size_app_err. now rewrite extras_size_blocks, ES. }
    rewrite HZ. split; [|reflexivity].
    intros (_ & _ & _ & H). specialize (H _ _ HW).
    assert (forallb (fun blk => 4 <=? lenN (snd blk)) blocks = true); [|congruence].
    apply forallb_forall. intros blk Hin. unfold sizes_readable in H. rewrite Forall_forall in H.
    specialize (H blk Hin). lia.
Qed.

Lemma process_constructed b cp allow l :
  b <> [] -> usable cp -> snd (process b cp allow) = Ok l -> constructible b /\ constructed b cp allow l.
Proof.
  intros Hb Hcp H. destruct (process_outcome b cp allow Hb Hcp) as [[HC (l' & Hl & Hl')]|[_ HE]]; [|congruence].
  rewrite H in Hl. injection Hl as ->. now split.
Qed.
