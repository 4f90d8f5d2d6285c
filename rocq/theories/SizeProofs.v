(** * How large a report is (property C59) *)
From Verif Require Import Lemmas PyTime Codec Utils Sha256 Header StringData Targets Info Extra LnkFile.
From Verif Require Import Spec SpecText SpecSize TextProofs FormatProofs ExtraFileProofs OutcomeProofs CoreProofs ApiProofs ShapeProofs.

(** ** Weights *)

Definition wlist (l : list pyval) : N := sumN (map weight l).
Definition wdict (d : dict) : N := sumN (map (fun e => 1 + weight (snd e)) d).
Lemma weight_list l : weight (PList l) = 1 + wlist l.
Proof. unfold wlist. cbn [weight]. f_equal. induction l as [|x l IH]; cbn; [reflexivity|]. now rewrite IH. Qed.
Lemma weight_dict d : weight (PDict d) = 1 + wdict d.
Proof. unfold wdict. cbn [weight]. f_equal. induction d as [|[k x] d IH]; cbn; [reflexivity|]. now rewrite IH. Qed.
Lemma weight_pos v : 1 <= weight v.
Proof. destruct v; rewrite ?weight_list, ?weight_dict; cbn [weight]; lia. Qed.
Lemma sumN_app a b : sumN (a ++ b) = sumN a + sumN b.
Proof. unfold sumN. induction a as [|x a IH]; cbn; [reflexivity|]. rewrite IH. lia. Qed.
Lemma wlist_app a b : wlist (a ++ b) = wlist a + wlist b.
Proof. unfold wlist. now rewrite map_app, sumN_app. Qed.
Lemma wdict_app a b : wdict (a ++ b) = wdict a + wdict b.
Proof. unfold wdict. now rewrite map_app, sumN_app. Qed.
Lemma wdict_cons k v d : wdict ((k, v) :: d) = 1 + weight v + wdict d.
Proof. reflexivity. Qed.
Lemma wdict_nil : wdict [] = 0.
Proof. reflexivity. Qed.

(** ** Lengths of texts *)

Lemma digits_aux_len base fuel : forall n acc,
  lenN (digits_aux base fuel n acc) <= N.of_nat fuel + lenN acc.
Proof.
  induction fuel as [|f IH]; intros n acc; cbn [digits_aux]; [lia|].
  destruct (n <? base); rewrite ?lenN_cons; [lia|]. specialize (IH (n / base) (n mod base :: acc)).
  rewrite lenN_cons in IH. lia.
Qed.
Lemma digits_len base n k : n < 2 ^ k -> lenN (digits base n) <= 1 + k.
Proof.
  intros H. unfold digits. pose proof (digits_aux_len base (S (N.size_nat n)) n []) as HD.
  rewrite lenN_nil in HD.
  assert (HS : N.of_nat (N.size_nat n) <= k); [|lia].
  destruct n as [|p]; [cbn; lia|].
  assert (HZ : N.of_nat (N.size_nat (N.pos p)) = N.size (N.pos p)).
  { clear. cbn [N.size_nat N.size]. induction p as [p IH|p IH|]; cbn [Pos.size_nat Pos.size]; try reflexivity;
      rewrite Nat2N.inj_succ, IH; reflexivity. }
  rewrite HZ, N.size_log2 by lia. apply N.log2_lt_pow2 in H; lia.
Qed.
Lemma pad0_len w t : lenN (pad0 w t) <= N.of_nat w + lenN t.
Proof. unfold pad0, lenN. rewrite app_length, repeat_length. lia. Qed.
Lemma hexx_len w n k : n < 2 ^ k -> lenN (hexx w n) <= N.of_nat w + 1 + k.
Proof.
  intros H. unfold hexx. pose proof (pad0_len w (map (digit_char false) (digits 16 n))) as HP.
  rewrite lenN_map in HP. pose proof (digits_len 16 n k H). lia.
Qed.
Lemma hexX_len w n k : n < 2 ^ k -> lenN (hexX w n) <= N.of_nat w + 1 + k.
Proof.
  intros H. unfold hexX. pose proof (pad0_len w (map (digit_char true) (digits 16 n))) as HP.
  rewrite lenN_map in HP. pose proof (digits_len 16 n k H). lia.
Qed.
Lemma hex_text_len n : n < 2 ^ 32 -> lenN (hex_text n) <= 36.
Proof. intros H. unfold hex_text. rewrite lenN_app. pose proof (hexx_len 1 n 32 H). cbn in *. lia. Qed.
Lemma sha_len b : lenN (sha256_hex b) = 64.
Proof. unfold lenN. now rewrite (proj1 (sha_hex_form b)). Qed.
Lemma all_some_len {A} (l : list (option A)) t : all_some l = Some t -> lenN t = lenN l.
Proof.
  revert t. induction l as [|[x|] l IH]; intros t H; cbn [all_some] in H; try discriminate H.
  - injection H as <-. reflexivity.
  - destruct (all_some l) as [t'|]; [|discriminate H]. injection H as <-. rewrite !lenN_cons, (IH t' eq_refl). reflexivity.
Qed.
Lemma replaced_len l : lenN (replaced l) = lenN l.
Proof. unfold replaced. apply lenN_map. Qed.
Lemma utf16_len b : lenN (utf16_events b) <= lenN b.
Proof.
  remember (length b) as n eqn:E. revert b E. induction n as [n IH] using lt_wf_ind. intros b ->.
  destruct b as [|a0 [|a1 r]]; cbn [utf16_events]; [reflexivity|reflexivity|].
  assert (H1 : lenN (utf16_events r) <= lenN r) by (apply (IH (length r)); [cbn; lia|reflexivity]).
  destruct (negb (is_surrogate _)); [rewrite !lenN_cons; lia|].
  destruct (negb (is_high _)); [rewrite !lenN_cons; lia|].
  destruct r as [|c0 [|c1 r']]; [rewrite !lenN_cons, !lenN_nil; lia|rewrite !lenN_cons, !lenN_nil; lia|].
  assert (H2 : lenN (utf16_events r') <= lenN r') by (apply (IH (length r')); [cbn; lia|reflexivity]).
  destruct (is_low _); rewrite !lenN_cons in *; lia.
Qed.
Lemma utf8_len b t : utf8_strict b = Some t -> lenN t <= lenN b.
Proof.
  revert t. remember (length b) as n eqn:E. revert b E. induction n as [n IH] using lt_wf_ind. intros b -> t H.
  assert (STEP : forall c r, (length r < length b)%nat -> ucons c (utf8_strict r) = Some t -> lenN t <= 1 + lenN r).
  { intros c r Hr HU. destruct (utf8_strict r) as [u|] eqn:EU; [|discriminate HU]. injection HU as <-.
    rewrite lenN_cons. specialize (IH _ Hr r eq_refl u EU). lia. }
  destruct b as [|a r]; cbn [utf8_strict] in H; [injection H as <-; reflexivity|].
  repeat match type of H with
  | (if ?c then _ else _) = _ => destruct c
  | match ?l with [] => _ | _ :: _ => _ end = _ => destruct l
  | None = _ => discriminate H
  | ucons _ _ = _ => apply STEP in H; [rewrite !lenN_cons; lia|cbn [length]; lia]
  end.
Qed.
Lemma cp1252_narrow : narrow_page cp1252.
Proof.
  split; cbn.
  - intros b t H. apply all_some_len in H. rewrite H, lenN_map. reflexivity.
  - intros b. rewrite replaced_len, lenN_map. reflexivity.
Qed.
Lemma before_nul_len b : lenN (before_nul b) <= lenN b.
Proof. induction b as [|x b IH]; cbn [before_nul]; [reflexivity|]. destruct (Byte.eqb x x00); rewrite ?lenN_cons, ?lenN_nil; lia. Qed.
Lemma before_nul_unit_len b : lenN (before_nul_unit b) <= lenN b.
Proof.
  induction b as [|a|a c r IH] using pair_ind; cbn [before_nul_unit]; try reflexivity.
  destruct (_ && _); rewrite ?lenN_cons, ?lenN_nil; lia.
Qed.
Lemma in_split_nul x b : forall c, In x (split_nul c b) -> lenN x <= lenN c + lenN b.
Proof.
  induction b as [|y b IH]; intros c; cbn [split_nul].
  - intros [<-|[]]. lia.
  - rewrite lenN_cons. destruct (Byte.eqb y x00).
    + intros [<-|H]; [lia|]. apply IH in H. rewrite lenN_nil in H. lia.
    + intros H. apply IH in H. rewrite lenN_app, lenN_cons, lenN_nil in H. lia.
Qed.

(** ** Rows *)

Definition at_most (n : N) (v : pyval) : Prop := weight v <= n.
Lemma fields_weight rows ws : Forall2 (fun r w => gives (at_most w) (snd r)) rows ws ->
  gives (fun d => wdict d <= lenN ws + sumN ws) (fields rows).
Proof.
  induction 1 as [|[k m] w rows ws H1 H2 IH]; cbn [fields].
  - apply gives_ret. reflexivity.
  - eapply gives_bind; [exact H1|]. intros v Hv. eapply gives_bind; [exact IH|]. intros d Hd. apply gives_ret.
    rewrite wdict_cons, lenN_cons. unfold at_most in Hv. cbn [sumN fold_right] in *. unfold sumN in Hd. lia.
Qed.
Lemma when_weight b n m : gives (fun d => wdict d <= n) m -> gives (fun d => wdict d <= n) (when b m).
Proof.
  intros H. unfold when. eapply gives_bind; [apply gives_any|]. intros [|] _; [exact H|].
  apply gives_ret. rewrite wdict_nil. lia.
Qed.

(** ** Readings *)

Lemma v_u8 b : gives (fun n => n < 256) (unpack_u8 b).
Proof. unfold unpack_u8, unpack_le. destruct (lenN b =? 1) eqn:E; [|apply gives_raise]. apply gives_ret.
  pose proof (le_val_lt b) as H. apply N.eqb_eq in E. rewrite E in H. exact H. Qed.
Lemma v_u32 b : gives (fun n => n < 2 ^ 32) (unpack_u32 b).
Proof. unfold unpack_u32, unpack_le. destruct (lenN b =? 4) eqn:E; [|apply gives_raise]. apply gives_ret.
  pose proof (le_val_lt b) as H. apply N.eqb_eq in E. rewrite E in H. exact H. Qed.
Lemma v_uuid b : gives (fun t => lenN t <= 36) (parse_uuid b).
Proof.
  intros t H. destruct (lenN b <? 16) eqn:E; [rewrite parse_uuid_short in H by lia; discriminate H|].
  assert (HT : lenN (takeN 16 b) = 16) by (rewrite lenN_takeN; lia).
  assert (HE : parse_uuid b = parse_uuid (takeN 16 b)) by (unfold parse_uuid; now rewrite !slice_takeN).
  rewrite HE, parse_uuid_guid in H by exact HT. injection H as <-.
  clear HE E. revert HT. generalize (takeN 16 b). intros g HT.
  do 16 (destruct g as [|? g]; [discriminate HT|]). destruct g; [|rewrite !lenN_cons in HT; lia].
  reflexivity.
Qed.
Lemma v_wide b : gives (fun t => lenN t <= lenN b) (read_unicode_string b).
Proof.
  intros t. rewrite read_unicode_string_eq. destruct (split_nul_units_first b []) as [r ->]. cbn [app].
  pose proof (before_nul_unit_len b) as HB. unfold uchars_to_string.
  pose proof (utf16_len (before_nul_unit b)) as HU.
  destruct (utf16_strict (before_nul_unit b)) as [s|] eqn:E.
  - intros [= <-]. unfold utf16_strict in E. apply all_some_len in E. lia.
  - cbn. rewrite ?app_nil_r. intros [= <-]. unfold utf16_replace. rewrite replaced_len. lia.
Qed.
Lemma slice_width {A} i j (l : list A) : lenN (slice i j l) <= j - i.
Proof. rewrite lenN_slice. lia. Qed.
Lemma v_packed t : gives (fun t => lenN t <= 36) (parse_packed_uuid t).
Proof.
  unfold parse_packed_uuid. do 4 (eapply gives_bind; [apply gives_any|]; intros ? _). apply gives_ret.
  rewrite !lenN_app. change (lenN (s2t "-")) with 1.
  repeat match goal with |- context [lenN (slice ?i ?j ?q)] =>
    let H := fresh in pose proof (slice_width i j q) as H; revert H; generalize (lenN (slice i j q)) end.
  intros. lia.
Qed.
Lemma v_must_be_text n e k m : gives (fun t => lenN t <= k) m -> gives (fun t => lenN t <= k) (must_be_text n e m).
Proof.
  intros H. unfold must_be_text. eapply gives_bind; [exact H|]. intros a Ha.
  eapply gives_bind; [apply gives_any|]. intros _ _. now apply gives_ret.
Qed.
Lemma bytes_hex_len b : lenN (bytes_hex b) <= 11 * lenN b.
Proof.
  unfold bytes_hex. induction b as [|x b IH]; cbn [flat_map]; [reflexivity|]. rewrite lenN_app, lenN_cons.
  pose proof (hexx_len 2 (b2n x) 8 (b2n_lt x)). lia.
Qed.

(** Names taken from the tables of the code. *)
Definition short (k : N) (table : list (N * string)) : bool := forallb (fun e => lenN (s2t (snd e)) <=? k) table.
Lemma assoc_short k table n s : short k table = true -> assocN n table = Some s -> lenN (s2t s) <= k.
Proof.
  intros H. induction table as [|[i x] table IH]; cbn [assocN]; [discriminate|].
  cbn [short forallb snd] in H. apply andb_prop in H as [H1 H2].
  destruct (n =? i); [intros [= <-]; lia|]. now apply IH.
Qed.
Lemma find_short k table f i s : short k table = true -> find f table = Some (i, s) -> lenN (s2t s) <= k.
Proof.
  intros H HF. apply find_some in HF as [HF _]. unfold short in H. rewrite forallb_forall in H.
  specialize (H _ HF). cbn [snd] in H. lia.
Qed.
Lemma flag_names_len table n : lenN (flag_names table n) <= lenN table
  /\ wlist (map PS (flag_names table n)) <= wlist (map (fun e => PS (snd e)) table).
Proof.
  unfold flag_names, wlist. induction table as [|[i s] table [IH1 IH2]]; cbn [filter map]; [split; reflexivity|].
  destruct (negb _); cbn [map fst snd] in *; rewrite ?lenN_cons; cbn [sumN fold_right] in *; unfold sumN in *; split; lia.
Qed.

(** ** The header *)

Lemma v_hot_key raw : gives (fun t => lenN t <= 80) (hot_key raw).
Proof.
  unfold hot_key. pose proof (bytes_hex_len (slice 64 66 raw)) as HB.
  assert (HL : lenN (slice 64 66 raw) <= 2) by (rewrite lenN_slice; lia).
  destruct (slice 64 66 raw) as [|a [|b [|c r]]]; try apply gives_raise.
  destruct (assocN (b2n b) HOTKEY_VALUES_HIGH) as [h|] eqn:E1, (assocN (b2n a) HOTKEY_VALUES_LOW) as [lo|] eqn:E2;
    apply gives_ret; try lia.
  apply (assoc_short 7) in E1; [|reflexivity]. apply (assoc_short 11) in E2; [|reflexivity].
  rewrite !lenN_app. change (lenN (s2t " - ")) with 3. change (lenN (s2t " {0x")) with 4.
  change (lenN (s2t "}")) with 1. lia.
Qed.
Lemma v_window raw : gives (fun s => lenN (s2t s) <= 18) (window_style raw).
Proof.
  unfold window_style. eapply gives_bind; [apply gives_any|]. intros z _.
  destruct (if (z <? 0)%Z then None else _) as [s|] eqn:E; apply gives_ret; [|cbv; discriminate].
  destruct (z <? 0)%Z; [discriminate E|]. apply (assoc_short 18) in E; [exact E|reflexivity].
Qed.
Lemma w_link_flags raw : gives (fun l => weight (PList (map PS l)) <= 500) (link_flags raw).
Proof.
  unfold link_flags. eapply gives_bind; [apply gives_any|]. intros n _. apply gives_ret.
  rewrite weight_list. destruct (flag_names_len LINK_FLAG_MASK n) as [_ H].
  eapply N.le_trans; [apply N.add_le_mono_l, H|]. vm_compute. discriminate.
Qed.
Lemma w_file_flags raw : gives (fun l => weight (PList (map PS l)) <= 550) (file_flags raw).
Proof.
  unfold file_flags. eapply gives_bind; [apply gives_any|]. intros n _. apply gives_ret.
  rewrite weight_list. destruct (flag_names_len FILE_FLAG_MASK n) as [_ H].
  eapply N.le_trans; [apply N.add_le_mono_l, H|]. vm_compute. discriminate.
Qed.
Lemma w_date (o : option datetime) : weight (POpt PDate o) = 1.
Proof. now destruct o. Qed.
Lemma w_optN (o : option N) : weight (POpt PN o) = 1.
Proof. now destruct o. Qed.
Ltac rows2 := repeat (apply Forall2_cons; [cbn [snd]|]); [..|apply Forall2_nil].
Lemma w_header h : gives (fun d => wdict d <= 1300) (header_dict h).
Proof.
  eapply gives_impl; [|apply (fields_weight _ [37; 1; 1; 1; 1; 1; 1; 1; 19; 81; 1; 500; 550; 1; 1; 1; 1]); rows2].
  { intros d H. eapply N.le_trans; [exact H|]. vm_compute. discriminate. }
  all: unfold at_most.
  1: eapply gives_bind; [apply v_must_be_text, v_uuid|intros a Ha; apply gives_ret; cbn beta in *; cbn [weight]; lia].
  8: eapply gives_bind; [apply v_window|intros a Ha; apply gives_ret; cbn beta in *; change (weight (PS a)) with (1 + lenN (s2t a)); lia].
  8: eapply gives_bind; [apply v_hot_key|intros a Ha; apply gives_ret; cbn [weight]; cbn beta in *; lia].
  9: eapply gives_bind; [apply w_link_flags|intros a Ha; apply gives_ret; exact Ha].
  9: eapply gives_bind; [apply w_file_flags|intros a Ha; apply gives_ret; exact Ha].
  all: eapply gives_bind; [apply gives_any|intros a _; apply gives_ret; rewrite ?w_date; apply N.le_refl].
Qed.

(** ** Sections that depend on the code page *)

Lemma le_takeN {A} k n (l : list A) : k <= lenN (takeN n l) -> k <= lenN l.
Proof. rewrite lenN_takeN. lia. Qed.
Lemma le_dropN {A} k n (l : list A) : k <= lenN (dropN n l) -> k <= lenN l.
Proof. rewrite lenN_dropN. lia. Qed.
Lemma le_slice {A} k i j (l : list A) : k <= lenN (slice i j l) -> k <= lenN l.
Proof. rewrite lenN_slice. lia. Qed.
Ltac whole H :=
  cbv beta in H;
  repeat first [apply le_slice in H | apply le_dropN in H | apply le_takeN in H].

Section Page.
  Variable cp : cp_arg.
  Hypothesis HP : forall c, tp_codec cp = Some c -> narrow_page c.

  Lemma v_chars b : gives (fun t => lenN t <= lenN b) (chars_to_string cp b).
  Proof.
    unfold chars_to_string. destruct b as [|x b]; [apply gives_ret; reflexivity|].
    destruct (tp_codec cp) as [c|]; [|apply gives_raise]. destruct (HP c eq_refl) as [H1 H2].
    destruct (strict c (x :: b)) as [t|] eqn:E; [apply gives_ret; eauto|].
    destruct (utf8_strict (x :: b)) as [t|] eqn:E8; [apply gives_ret; now apply utf8_len|].
    eapply gives_bind; [apply gives_any|]. intros _ _. apply gives_ret, H2.
  Qed.
  Lemma v_string b : gives (fun t => lenN t <= lenN b) (read_string cp b).
  Proof.
    rewrite read_string_eq. destruct (split_nul_first b []) as [r ->]. cbn [app].
    eapply gives_impl; [|apply v_chars]. cbv beta. intros t H. pose proof (before_nul_len b). lia.
  Qed.

  Ltac wstep :=
    lazymatch goal with
    | |- gives _ (ret _) => apply gives_ret
    | |- gives _ (raise _) => apply gives_raise
    | |- gives _ (bind (read_string _ _) _) =>
        let H := fresh "HW" in eapply gives_bind; [apply v_string|intros ? H; whole H]
    | |- gives _ (bind (read_unicode_string _) _) =>
        let H := fresh "HW" in eapply gives_bind; [apply v_wide|intros ? H; whole H]
    | |- gives _ (bind (parse_uuid _) _) =>
        let H := fresh "HW" in eapply gives_bind; [apply v_uuid|intros ? H; whole H]
    | |- gives _ (bind (unpack_u32 _) _) =>
        let H := fresh "HV" in eapply gives_bind; [apply v_u32|intros ? H]
    | |- gives _ (bind (bind _ _) _) => rewrite bind_assoc
    | |- gives _ (bind (ret _) _) => rewrite bind_ret_l
    | |- gives _ (bind (if ?b then _ else _) _) => destruct b
    | |- gives _ (bind _ _) => eapply gives_bind; [apply gives_any|intros ? _]
    | |- gives _ (if ?b then _ else _) => destruct b
    | |- gives _ (match ?x with _ => _ end) => destruct x
    end.
  Ltac wleaf := unfold at_most, PN; cbn [POpt weight]; rewrite ?w_date, ?w_optN, ?sha_len;
    try (rewrite (proj1 (N.le_0_r _)) by reflexivity); try apply N.le_refl; try lia.

  (** ** Items *)

  Lemma v_fs_name n : gives (fun s => lenN (s2t s) <= 20) (get_item_shell_fs_folder n).
  Proof.
    unfold get_item_shell_fs_folder. destruct (find _ _) as [[i s]|] eqn:E.
    - apply gives_ret. now apply (find_short 20) in E.
    - eapply gives_bind; [apply gives_any|]. intros _ _. apply gives_ret. cbv. discriminate.
  Qed.
  Lemma wPS s : weight (PS s) = 1 + lenN (s2t s).
  Proof. reflexivity. Qed.
  Lemma w_fs rt : gives (fun d => wdict d <= 50 + lenN rt) (fs_as_item cp rt).
  Proof.
    unfold fs_as_item, fs_flags. rewrite bind_assoc. wstep. eapply gives_bind; [apply v_fs_name|]. intros s Hs. cbv beta in Hs.
    wstep. wstep. wstep. apply (gives_bind (fun t => lenN t <= lenN rt)).
    { unfold fs_primary_name. wstep. destruct a3.
      - eapply gives_impl; [|apply v_wide]. intros t H. now whole H.
      - eapply gives_impl; [|apply v_string]. intros t H. now whole H. }
    intros t Ht. cbv beta in Ht. apply gives_ret. unfold base_item. cbn [app].
    rewrite !wdict_cons, wdict_nil, !wPS, w_date. change (lenN (s2t (target_name ShellFSFolder))) with 10.
    unfold PN. cbn [weight]. lia.
  Qed.

  Definition named (rt : bytes) (t : target) : Prop :=
    t_raw_target t = rt /\ lenN (t_location t) <= lenN rt
    /\ weight (POpt PStr (t_description t)) <= 1 + lenN rt /\ weight (POpt PStr (t_comments t)) <= 1 + lenN rt.

  Lemma v_either (c : bool) i j rt :
    gives (fun t => lenN t <= lenN rt) (if c then read_unicode_string (dropN i rt) else read_string cp (dropN j rt)).
  Proof.
    destruct c.
    - eapply gives_impl; [|apply v_wide]. intros t H. now whole H.
    - eapply gives_impl; [|apply v_string]. intros t H. now whole H.
  Qed.
  Lemma base_weight c : wdict (base_item c) <= 24.
  Proof. destruct c; vm_compute; discriminate. Qed.
  Lemma w_cpl rt : gives (fun d => wdict d <= 80 + 3 * lenN rt) (cpl_as_item cp rt).
  Proof.
    unfold cpl_as_item, cpl_signature. wstep. eapply gives_bind; [apply v_either|]. intros t1 H1.
    apply (gives_bind (fun t => lenN t <= lenN rt)).
    { unfold cpl_name_string. wstep. apply v_either. }
    intros t2 H2. apply (gives_bind (fun t => lenN t <= lenN rt)).
    { unfold cpl_comments. wstep. destruct (_ =? 0); [apply gives_ret; rewrite lenN_nil; lia|apply v_either]. }
    intros t3 H3. apply gives_ret. pose proof (base_weight ControlPanelCPL). pose proof (hexX_len 8 a 32 HV).
    rewrite wdict_app, !wdict_cons, wdict_nil. cbn [weight]. rewrite lenN_app. change (lenN (s2t "0x")) with 2. cbv beta in *. lia.
  Qed.
  Lemma v_category n : gives (fun s => lenN (s2t s) <= 33)
    (match assocN n CATEGORIES with Some s => ret s | None => warn (WCategory n) ;;; ret "Unknown"%string end).
  Proof.
    destruct (assocN n CATEGORIES) as [s|] eqn:E; [apply gives_ret; now apply (assoc_short 33) in E|].
    eapply gives_bind; [apply gives_any|]. intros _ _. apply gives_ret. cbv. discriminate.
  Qed.
  Lemma v_sort_index n : gives (fun s => lenN (s2t s) <= 25) (get_sort_index n).
  Proof.
    unfold get_sort_index. destruct (assocN n SORT_INDEX) as [s|] eqn:E; [apply gives_ret; now apply (assoc_short 25) in E|].
    eapply gives_bind; [apply gives_any|]. intros _ _. apply gives_ret. cbv. discriminate.
  Qed.
  Ltac count c := apply gives_ret; pose proof (base_weight c);
    rewrite ?wdict_app, ?wdict_cons, ?wdict_nil, ?wPS; unfold PN; cbn [weight]; cbv beta in *; try lia.
  Lemma w_cat rt : gives (fun d => wdict d <= 70) (cat_as_item rt).
  Proof.
    unfold cat_as_item, cat_category. wstep. rewrite bind_assoc. wstep.
    eapply gives_bind; [apply v_category|]. intros s Hs. count ControlPanelCategory.
  Qed.
  Lemma w_rf rt : gives (fun d => wdict d <= 100) (rf_as_item rt).
  Proof.
    unfold rf_as_item. rewrite bind_assoc. wstep.
    eapply gives_bind; [apply v_sort_index|]. intros s Hs. wstep. wstep. count RootFolder.
  Qed.
  Lemma w_mc rt : gives (fun d => wdict d <= 110 + lenN rt) (mc_as_item cp rt).
  Proof.
    unfold mc_as_item. apply (gives_bind (fun n => n < 2 ^ 32)).
    { unfold mc_flags, class_type_indicator. eapply gives_bind; [apply v_u8|]. intros n Hn. apply gives_ret.
      cbv beta in Hn. change 0x0F with (N.ones 4). rewrite N.land_ones.
      apply N.lt_trans with (2 ^ 4); [apply N.mod_lt; discriminate|reflexivity]. }
    intros f Hf. pose proof (hex_text_len f Hf). wstep. destruct a; wstep; count MyComputer.
  Qed.
  Lemma w_cpanel rt : gives (fun d => wdict d <= 70) (cpanel_as_item rt).
  Proof. unfold cpanel_as_item. wstep. count ControlPanel. Qed.
  Lemma w_nl rt t : named rt t -> gives (fun d => wdict d <= 80 + 3 * lenN rt) (nl_as_item t).
  Proof.
    intros (HR & H1 & H2 & H3). unfold nl_as_item, nl_flags. rewrite HR, bind_assoc. wstep.
    eapply gives_bind; [apply v_fs_name|]. intros s Hs. wstep. count NetworkLocation.
  Qed.
  Lemma w_uf rt : gives (fun d => wdict d <= 200 + lenN rt) (uf_as_item cp rt).
  Proof.
    unfold uf_as_item. apply (gives_bind (fun r => lenN r <= lenN rt)).
    { unfold target_base_init. wstep. apply gives_ret. rewrite lenN_slice, lenN_dropN. lia. }
    intros r Hr. eapply gives_bind; [apply w_fs|]. intros d Hd. wstep. wstep. wstep. wstep.
    apply gives_ret. pose proof (base_weight UsersFilesFolder). rewrite wdict_app, !wdict_cons, wdict_nil, weight_dict.
    cbn [weight]. cbv beta in *. unfold ascii_replace. rewrite replaced_len, lenN_map.
    pose proof (slice_width 4 8 rt). lia.
  Qed.
  Lemma w_unknown raw : gives (fun d => wdict d <= 30) (unknown_as_item raw).
  Proof. unfold unknown_as_item. wstep. count UnknownTarget. Qed.
  Lemma w_item rt t : named rt t -> gives (fun d => weight (PDict d) <= 201 + 3 * lenN rt) (as_item cp t).
  Proof.
    intros H. apply (gives_impl (fun d => wdict d <= 200 + 3 * lenN rt)).
    { intros d Hd. rewrite weight_dict. lia. }
    pose proof H as (HR & _). unfold as_item. rewrite HR.
    destruct (t_class t);
      try (apply gives_ret; match goal with |- wdict (base_item ?c) <= _ => pose proof (base_weight c); lia end);
      (eapply gives_impl; [|first [apply w_cpl|apply w_cat|apply w_rf|apply w_mc|apply w_fs|now apply (w_nl rt)
        |apply w_cpanel|apply w_uf|apply w_unknown]]); cbv beta; intros; lia.
  Qed.

  Lemma v_next it k : Forall (gives (fun t => lenN t <= k)) it ->
    gives (fun r => lenN (fst r) <= k /\ Forall (gives (fun t => lenN t <= k)) (snd r)) (next_string it).
  Proof.
    intros H. unfold next_string. destruct it as [|m it]; [apply gives_raise|]. inversion H; subst.
    eapply gives_bind; [eassumption|]. intros t Ht. now apply gives_ret.
  Qed.
  Lemma v_target c b : gives (fun t => exists rt, named rt t /\ lenN rt + 2 <= N.max 2 (lenN b) /\
    exists n, snd (tf_item_size b) = Ok n /\ lenN rt <= n) (target_init c cp b).
  Proof.
    unfold target_init. apply (gives_bind (fun rt => lenN rt + 2 <= N.max 2 (lenN b) /\
      exists n, snd (tf_item_size b) = Ok n /\ lenN rt <= n)).
    { unfold target_base_init. intros rt H. apply snd_bind_Ok in H as (n & Hn & H). injection H as <-.
      rewrite lenN_slice. split; [lia|]. exists n. split; [exact Hn|lia]. }
    intros rt (HL & n & Hn & Hrt).
    assert (H0 : named rt (Target c b rt [] None None)).
    { unfold named. cbn [t_raw_target t_location t_description t_comments POpt weight]. rewrite lenN_nil. repeat split; lia. }
    assert (HR : forall t, named rt t -> gives (fun t => exists rt, named rt t /\ lenN rt + 2 <= N.max 2 (lenN b) /\
      exists n, snd (tf_item_size b) = Ok n /\ lenN rt <= n) (ret t)).
    { intros t Ht. apply gives_ret. exists rt. split; [exact Ht|]. split; [exact HL|]. now exists n. }
    destruct c; try (apply HR; exact H0). clear H0.
    set (w := lenN rt) in *.
    unfold nl_init_strings. rewrite bind_assoc. eapply gives_bind.
    { apply (v_next _ w). unfold read_strings. rewrite Forall_map. apply Forall_forall. intros x Hx.
      apply in_split_nul in Hx. rewrite lenN_nil, lenN_dropN in Hx.
      eapply gives_impl; [|apply v_chars]. cbv beta. intros t Ht. unfold w. lia. }
    intros [t1 it1] [H1 Hit1]. cbn [fst snd] in *.
    rewrite bind_assoc. eapply gives_bind; [apply gives_any|]. intros hd _. rewrite bind_assoc.
    apply (gives_bind (fun r => weight (POpt PStr (fst r)) <= 1 + w /\ Forall (gives (fun t => lenN t <= w)) (snd r))).
    { destruct hd.
      - eapply gives_bind; [apply (v_next _ w); exact Hit1|]. intros [t it] [Ht Hit]. apply gives_ret.
        cbn [fst snd POpt weight] in *. split; [lia|exact Hit].
      - apply gives_ret. cbn [fst snd POpt weight]. split; [lia|exact Hit1]. }
    intros [t2 it2] [H2 Hit2]. cbn [fst snd] in *.
    rewrite bind_assoc. eapply gives_bind; [apply gives_any|]. intros hc _. rewrite bind_assoc.
    apply (gives_bind (fun r => weight (POpt PStr (fst r)) <= 1 + w)).
    { destruct hc.
      - eapply gives_bind; [apply (v_next _ w); exact Hit2|]. intros [t it] [Ht Hit]. apply gives_ret.
        cbn [fst snd POpt weight] in *. lia.
      - apply gives_ret. cbn [fst snd POpt weight]. lia. }
    intros [t3 it3] H3. rewrite bind_ret_l. apply HR. repeat split; assumption.
  Qed.
  Lemma w_next b : gives (fun r => match r with
      | Some (t, r) => exists rt, named rt t /\ lenN rt + lenN r <= lenN b /\ 1 + lenN r <= lenN b
      | None => True end) (next_target cp b).
  Proof.
    unfold next_target.
    assert (Hg : forall (P : option (target * bytes) -> Prop) m, gives P m -> gives P (in_generator m)).
    { intros P m H a. destruct m as [w [x|[]]]; cbn; try discriminate. exact (H a). }
    apply Hg. destruct b as [|x b]; [now apply gives_ret|].
    assert (HB : 1 <= lenN (x :: b)) by (rewrite lenN_cons; lia). revert HB. generalize (x :: b). intros b' HB.
    apply (gives_bind (fun c => match c with Some _ => forall n, snd (tf_item_size b') = Ok n -> n <> 0 | None => True end)).
    { unfold tf_target_class. intros c H. apply snd_bind_Ok in H as (n & Hn & H). destruct (n =? 0) eqn:E.
      - injection H as <-. exact I.
      - destruct c; [|exact I]. intros m Hm. pose proof (eq_trans (eq_sym Hm) Hn) as HM. injection HM as ->. lia. }
    intros [c|] Hc; [|now apply gives_ret].
    eapply gives_bind; [apply v_target|]. intros t (rt & Ht & HL & n & Hn & Hrt).
    intros r Hr. apply snd_bind_Ok in Hr as (m & Hm & Hr). injection Hr as <-.
    pose proof (eq_trans (eq_sym Hm) Hn) as HM. injection HM as ->. specialize (Hc n Hn).
    exists rt. split; [exact Ht|]. rewrite lenN_dropN. lia.
  Qed.
  Lemma w_items_loop fuel : forall b, gives (fun l => wlist l <= 204 * lenN b) (items_loop fuel cp b).
  Proof.
    induction fuel as [|fuel IH]; intros b; cbn [items_loop]; [apply gives_raise|].
    eapply gives_bind; [apply w_next|]. intros [[t r]|] Ht; [|apply gives_ret; cbn; lia].
    destruct Ht as (rt & Ht & HL1 & HL2).
    apply (gives_bind (fun l => wlist l <= 201 + 3 * lenN rt)).
    { apply gives_try.
      - eapply gives_bind; [now apply (w_item rt)|]. intros d Hd. apply gives_ret.
        unfold wlist. cbn [map sumN fold_right]. cbv beta in Hd. lia.
      - eapply gives_bind; [apply gives_any|]. intros _ _. apply gives_ret. cbn. lia. }
    intros item Hi. eapply gives_bind; [apply IH|]. intros items His. apply gives_ret. rewrite wlist_app. cbv beta in *. lia.
  Qed.
  Lemma w_items b : gives (fun l => wlist l <= 204 * lenN b) (items_of cp b).
  Proof. apply w_items_loop. Qed.

  (** ** LinkInfo *)

  Lemma w_optS (o : option string) k : (forall s, o = Some s -> lenN (s2t s) <= k) -> weight (POpt PS o) <= 1 + k.
  Proof. destruct o as [s|]; cbn [POpt]; intros H; [rewrite wPS; specialize (H s eq_refl); lia|cbn; lia]. Qed.
  Definition opt_le (k : N) (o : option text) : Prop := weight (POpt PStr o) <= 1 + k.
  Lemma o_some t k : lenN t <= k -> opt_le k (Some t).
  Proof. unfold opt_le. cbn [POpt weight]. lia. Qed.
  Lemma o_none k : opt_le k None.
  Proof. unfold opt_le. cbn [POpt weight]. lia. Qed.
  Ltac ostep := repeat wstep; first [apply o_none | apply o_some; assumption].
  Lemma v_volume_label raw : gives (opt_le (lenN raw)) (volume_label cp raw).
  Proof. unfold volume_label. ostep. Qed.
  Lemma v_volume_label_u raw : gives (opt_le (lenN raw)) (volume_label_unicode raw).
  Proof. unfold volume_label_unicode. ostep. Qed.
  Lemma v_net_name raw : gives (opt_le (lenN raw)) (net_name cp raw).
  Proof. unfold net_name. ostep. Qed.
  Lemma v_device_name raw : gives (opt_le (lenN raw)) (device_name cp raw).
  Proof. unfold device_name. ostep. Qed.
  Lemma v_net_name_u raw : gives (opt_le (lenN raw)) (net_name_unicode raw).
  Proof. unfold net_name_unicode. ostep. Qed.
  Lemma v_device_name_u raw : gives (opt_le (lenN raw)) (device_name_unicode raw).
  Proof. unfold device_name_unicode. ostep. Qed.
  Lemma v_base_path raw : gives (opt_le (lenN raw)) (local_base_path cp raw).
  Proof. unfold local_base_path. ostep. Qed.
  Lemma v_suffix raw : gives (opt_le (lenN raw)) (common_path_suffix cp raw).
  Proof. unfold common_path_suffix. ostep. Qed.
  Lemma v_base_path_u raw : gives (opt_le (lenN raw)) (local_base_path_unicode raw).
  Proof. unfold local_base_path_unicode. ostep. Qed.
  Lemma v_suffix_u raw : gives (opt_le (lenN raw)) (common_path_suffix_unicode raw).
  Proof. unfold common_path_suffix_unicode. ostep. Qed.

  Ltac num_row := unfold at_most; eapply gives_bind; [apply gives_any|intros ? _; apply gives_ret; rewrite ?w_optN; apply N.le_refl].
  Ltac str_row L := unfold at_most; eapply gives_bind; [apply L|intros ? ?; apply gives_ret; assumption].

  Lemma w_local raw : gives (fun d => wdict d <= 80 + 2 * lenN raw) (local_info_dict cp raw).
  Proof.
    unfold local_info_dict.
    apply (gives_bind (fun d => wdict d <= 66 + lenN raw)).
    { eapply gives_impl; [|apply (fields_weight _ [1; 1; 1; 37; 18; 1 + lenN raw]); rows2].
      { intros d H. cbv beta in H. unfold sumN in H. cbn [fold_right] in H. rewrite !lenN_cons, lenN_nil in H. lia. }
      1,2,3: num_row.
      - unfold drive_serial_number, u32_at. repeat wstep. pose proof (hex_text_len _ HV). wleaf.
      - unfold drive_type. rewrite bind_assoc. wstep. destruct (_ <? _) eqn:E; repeat wstep; [|wleaf].
        unfold at_most. apply (w_optS _ 17). intros s H. apply nth_error_In in H.
        assert (HA : forallb (fun s => lenN (s2t s) <=? 17) DRIVE_TYPES = true) by reflexivity.
        rewrite forallb_forall in HA. apply HA in H. lia.
      - str_row v_volume_label. }
    intros d Hd. apply (gives_bind (fun d => wdict d <= 4 + lenN raw)).
    { apply when_weight. eapply gives_impl; [|apply (fields_weight _ [1; 1 + lenN raw]); rows2].
      { intros d2 H. cbv beta in H. unfold sumN in H. cbn [fold_right] in H. rewrite !lenN_cons, lenN_nil in H. lia. }
      - num_row.
      - str_row v_volume_label_u. }
    intros d2 Hd2. apply gives_ret. rewrite wdict_app. lia.
  Qed.
  Lemma assoc_text_short k table t s : forallb (fun e => lenN (s2t (snd e)) <=? k) table = true ->
    assoc_text t table = Some s -> lenN (s2t s) <= k.
  Proof.
    intros H. induction table as [|[i x] table IH]; cbn [assoc_text]; [discriminate|].
    cbn [forallb snd] in H. apply andb_prop in H as [H1 H2].
    destruct (text_eqb t (s2t i)); [intros [= <-]; lia|]. now apply IH.
  Qed.
  Lemma w_network raw : gives (fun d => wdict d <= 110 + 4 * lenN raw) (network_info_dict cp raw).
  Proof.
    unfold network_info_dict.
    apply (gives_bind (fun d => wdict d <= 46)).
    { eapply gives_impl; [|apply (fields_weight _ [1; 1; 1; 1; 37]); rows2].
      { intros d H. eapply N.le_trans; [exact H|]. vm_compute. discriminate. }
      1,2,3,4: num_row.
      unfold r_network_provider_type, u32_at. repeat wstep. pose proof (hex_text_len _ HV). wleaf. }
    intros d Hd. apply (gives_bind (fun d => wdict d <= 23)).
    { apply when_weight. eapply gives_impl; [|apply (fields_weight _ [22]); rows2].
      { intros d2 H. eapply N.le_trans; [exact H|]. vm_compute. discriminate. }
      unfold network_provider_type. rewrite bind_assoc. wstep. destruct (_ =? 0); [repeat wstep; wleaf|].
      repeat wstep. unfold at_most. apply (w_optS _ 21). intros s H. now apply (assoc_text_short 21) in H. }
    intros d2 Hd2. apply (gives_bind (fun d => wdict d <= 4 + lenN raw)).
    { apply when_weight. eapply gives_impl; [|apply (fields_weight _ [1; 1 + lenN raw]); rows2].
      { intros d3 H. cbv beta in H. unfold sumN in H. cbn [fold_right] in H. rewrite !lenN_cons, lenN_nil in H. lia. }
      - num_row.
      - str_row v_net_name_u. }
    intros d3 Hd3. apply (gives_bind (fun d => wdict d <= 4 + lenN raw)).
    { apply when_weight. eapply gives_impl; [|apply (fields_weight _ [1; 1 + lenN raw]); rows2].
      { intros d4 H. cbv beta in H. unfold sumN in H. cbn [fold_right] in H. rewrite !lenN_cons, lenN_nil in H. lia. }
      - num_row.
      - str_row v_device_name_u. }
    intros d4 Hd4. apply (gives_bind (fun d => wdict d <= 2 + lenN raw)).
    { apply when_weight. eapply gives_impl; [|apply (fields_weight _ [1 + lenN raw]); rows2].
      { intros d5 H. cbv beta in H. unfold sumN in H. cbn [fold_right] in H. rewrite !lenN_cons, lenN_nil in H. lia. }
      str_row v_net_name. }
    intros d5 Hd5. apply (gives_bind (fun d => wdict d <= 2 + lenN raw)).
    { apply when_weight. eapply gives_impl; [|apply (fields_weight _ [1 + lenN raw]); rows2].
      { intros d6 H. cbv beta in H. unfold sumN in H. cbn [fold_right] in H. rewrite !lenN_cons, lenN_nil in H. lia. }
      str_row v_device_name. }
    intros d6 Hd6. apply gives_ret. rewrite !wdict_app. lia.
  Qed.
  Lemma w_info k raw : gives (fun d => wdict d <= 160 + 8 * lenN raw) (info_dict cp k raw).
  Proof.
    unfold info_dict.
    apply (gives_bind (fun d => wdict d <= 14)).
    { eapply gives_impl; [|apply (fields_weight _ [1; 1; 1; 1; 1; 1; 1]); rows2].
      { intros d H. eapply N.le_trans; [exact H|]. vm_compute. discriminate. }
      all: num_row. }
    intros d Hd. apply (gives_bind (fun d => wdict d <= 2 + lenN raw)).
    { apply when_weight. eapply gives_impl; [|apply (fields_weight _ [1 + lenN raw]); rows2].
      { intros d2 H. cbv beta in H. unfold sumN in H. cbn [fold_right] in H. rewrite !lenN_cons, lenN_nil in H. lia. }
      str_row v_base_path. }
    intros d2 Hd2. apply (gives_bind (fun d => wdict d <= 2 + lenN raw)).
    { apply when_weight. eapply gives_impl; [|apply (fields_weight _ [1 + lenN raw]); rows2].
      { intros d3 H. cbv beta in H. unfold sumN in H. cbn [fold_right] in H. rewrite !lenN_cons, lenN_nil in H. lia. }
      str_row v_suffix. }
    intros d3 Hd3. apply (gives_bind (fun d => wdict d <= 4 + lenN raw)).
    { apply when_weight. eapply gives_impl; [|apply (fields_weight _ [1; 1 + lenN raw]); rows2].
      { intros d4 H. cbv beta in H. unfold sumN in H. cbn [fold_right] in H. rewrite !lenN_cons, lenN_nil in H. lia. }
      - num_row.
      - str_row v_base_path_u. }
    intros d4 Hd4. apply (gives_bind (fun d => wdict d <= 4 + lenN raw)).
    { apply when_weight. eapply gives_impl; [|apply (fields_weight _ [1; 1 + lenN raw]); rows2].
      { intros d5 H. cbv beta in H. unfold sumN in H. cbn [fold_right] in H. rewrite !lenN_cons, lenN_nil in H. lia. }
      - num_row.
      - str_row v_suffix_u. }
    intros d5 Hd5. apply (gives_bind (fun d => wdict d <= 110 + 4 * lenN raw)).
    { destruct k; (eapply gives_impl; [|first [apply w_local|apply w_network]]); cbv beta; intros; lia. }
    intros li Hli. apply gives_ret. rewrite !wdict_app, !wdict_cons, wdict_nil, weight_dict, wPS.
    assert (HK : lenN (s2t (match k with Local => "Local" | Network => "Network" end)) <= 7) by (destruct k; cbv; discriminate).
    lia.
  Qed.

  (** ** Extra data other than the property store *)

  Lemma v_feature raw : gives (opt_le (lenN raw)) (feature_name raw).
  Proof.
    unfold feature_name, darwin_data_unicode. wstep. destruct (_ =? 20)%Z; [apply gives_ret, o_none|].
    assert (HS : forall i j, lenN (slice i j a) <= lenN raw) by (intros; rewrite lenN_slice; lia).
    destruct (_ <? 0)%Z; apply gives_ret, o_some, HS.
  Qed.
  Lemma v_component raw : gives (opt_le 36) (component_id raw).
  Proof.
    unfold component_id, darwin_data_unicode. wstep. destruct (_ =? -1)%Z; [apply gives_ret, o_none|].
    eapply gives_bind; [apply v_packed|]. intros t Ht. apply gives_ret, o_some, Ht.
  Qed.
  Lemma v_product raw : gives (fun t => lenN t <= 36) (product_code_id raw).
  Proof. unfold product_code_id, darwin_data_unicode. wstep. apply v_packed. Qed.

  Lemma base_row raw : gives (fun v => at_most 1 v /\ 4 <= lenN raw) (n <- base_size raw ;; ret (PN n)).
  Proof.
    intros v H. apply snd_bind_Ok in H as (n & Hn & H). injection H as <-. split; [apply N.le_refl|].
    unfold base_size, unpack_u32, unpack_le in Hn. destruct (lenN (slice 0 4 raw) =? 4) eqn:E; [|discriminate Hn].
    rewrite lenN_slice in E. lia.
  Qed.
  Lemma base_fields_weight raw rows ws : Forall2 (fun r w => gives (at_most w) (snd r)) rows ws ->
    gives (fun d => wdict d <= 2 + lenN ws + sumN ws /\ 4 <= lenN raw) (fields (base_fields raw ++ rows)).
  Proof.
    intros H. unfold base_fields. cbn [app fields]. eapply gives_bind; [apply base_row|]. intros v [H1 H2].
    eapply gives_bind; [exact (fields_weight _ _ H)|]. intros d Hd. apply gives_ret.
    rewrite wdict_cons. unfold at_most in H1. cbv beta in Hd. split; [lia|exact H2].
  Qed.
  Ltac fold_sums H := cbv beta in H; unfold sumN in H; cbn [fold_right] in H; rewrite ?lenN_cons, ?lenN_nil in H.
  Ltac frow := unfold u32_field, u16_field, i16_field, uuid_field, str_field, ustr_field, darwin_data_unicode;
    repeat wstep; wleaf.

  (** An entry for a block other than the property store. *)
  Definition light (raw : bytes) (d : dict) : Prop := 4 + weight (PDict d) <= 256 * lenN raw.
  Ltac lighten := let H := fresh in let H2 := fresh in
    intros ? [H H2]; unfold light; rewrite weight_dict; fold_sums H; lia.
  Ltac blk n ws := eapply gives_impl; [|eapply (base_fields_weight _ _ ws)]; [lighten|rows2].
  Lemma w_extra e : ex_class e <> Metadata -> (ex_class e = Terminal -> 4 < lenN (ex_raw e)) ->
    gives (light (ex_raw e)) (extra_as_dict cp e).
  Proof.
    intros HM HT. unfold extra_as_dict. destruct (ex_class e) eqn:EC; [..|].
    - blk 1 [1 + lenN (ex_raw e); 1 + lenN (ex_raw e)]; frow.
    - blk 1 [1; 1; 1; 1; 1; 1; 1; 1; 1; 1; 1; 1 + lenN (ex_raw e); 1; 1; 1; 1; 1; 1; 1; 1; 1]; frow.
    - blk 1 [1; 1; 1 + lenN (ex_raw e); 37; 37; 37; 37]; try solve [frow].
    - blk 1 [1]; frow.
    - blk 1 [1; 1]; frow.
    - blk 1 [1 + lenN (ex_raw e); 1 + lenN (ex_raw e); 37; 1 + lenN (ex_raw e); 37]; try solve [frow].
      + eapply gives_bind; [apply v_product|]. intros t Ht. apply gives_ret. cbv beta in Ht. wleaf.
      + eapply gives_bind; [apply v_feature|]. intros t Ht. apply gives_ret. exact Ht.
      + eapply gives_bind; [apply v_component|]. intros t Ht. apply gives_ret. exact Ht.
    - blk 1 [1 + lenN (ex_raw e); 1 + lenN (ex_raw e)]; frow.
    - blk 1 [1 + lenN (ex_raw e)]; frow.
    - now destruct HM.
    - blk 1 [37; 1]; frow.
    - blk 1 [1 + 204 * lenN (ex_raw e)].
      eapply gives_bind; [apply gives_any|]. intros n _. eapply gives_bind; [apply w_items|]. intros l Hl.
      apply gives_ret. unfold at_most. rewrite weight_list. cbv beta in Hl. rewrite lenN_slice in Hl. lia.
    - blk 1 [65]. frow.
    - specialize (HT eq_refl). eapply gives_impl; [|apply (fields_weight _ [1; 65]); rows2].
      + intros d H. unfold light. rewrite weight_dict. fold_sums H. lia.
      + unfold terminal_size. frow.
      + frow.
  Qed.

  (** ** The property store *)

  Lemma v_suffixes fuel : forall raw,
    gives (fun l => lenN l <= lenN raw /\ Forall (fun s => lenN s <= lenN raw) l) (sized_suffixes fuel raw).
  Proof.
    induction fuel as [|fuel IH]; intros raw; cbn [sized_suffixes]; [apply gives_raise|].
    intros l H. apply snd_bind_Ok in H as (n & Hn & H).
    assert (HL : 4 <= lenN raw).
    { unfold unpack_u32, unpack_le in Hn. destruct (lenN (slice 0 4 raw) =? 4) eqn:E; [|discriminate Hn].
      rewrite lenN_slice in E. lia. }
    destruct (n =? 0) eqn:E; [injection H as <-; split; [rewrite lenN_nil; lia|constructor]|].
    apply snd_bind_Ok in H as (r & Hr & H). injection H as <-. apply IH in Hr as [H1 H2].
    rewrite lenN_dropN in H1. rewrite lenN_cons. split; [lia|]. constructor; [lia|].
    eapply Forall_impl; [|exact H2]. cbv beta. intros x Hx. rewrite lenN_dropN in Hx. lia.
  Qed.
  Lemma w_tv raw n : lenN raw <= n -> gives (at_most (1 + n)) (tv_value raw).
  Proof. intros Hn. unfold tv_value. repeat wstep; wleaf. Qed.
  Lemma w_type n : gives (at_most 21) (property_type_name n).
  Proof.
    unfold property_type_name. destruct (assocN n PropertyType) as [s|] eqn:E; [|apply gives_raise].
    apply gives_ret. unfold at_most. rewrite wPS. apply (assoc_short 20) in E; [lia|reflexivity].
  Qed.
  Lemma w_value by_name raw n : lenN raw <= n ->
    gives (fun d => weight (PDict d) <= 31 + 2 * n) ((if by_name : bool then string_name_dict else integer_name_dict) raw).
  Proof.
    intros Hn. destruct by_name; eapply gives_impl.
    2: apply (fields_weight _ [1; 1; 1 + n; 1 + n; 21]); rows2.
    1: { intros d H. rewrite weight_dict. fold_sums H. lia. }
    7: apply (fields_weight _ [1; 1; 1 + n; 21]); rows2.
    6: { intros d H. rewrite weight_dict. fold_sums H. lia. }
    1,2,3: repeat wstep; wleaf.
    - eapply gives_bind; [apply gives_any|]. intros o _. apply w_tv. rewrite lenN_dropN. lia.
    - eapply gives_bind; [apply gives_any|]. intros o _. eapply gives_bind; [apply gives_any|]. intros m _. apply w_type.
    - repeat wstep; wleaf.
    - unfold u32_field. repeat wstep; wleaf.
    - apply w_tv. rewrite lenN_dropN. lia.
    - eapply gives_bind; [apply gives_any|]. intros m _. apply w_type.
  Qed.
  Lemma w_mapM {A} (f : A -> M dict) l k : Forall (fun a => gives (fun d => weight (PDict d) <= k) (f a)) l ->
    gives (fun ds => wlist (map PDict ds) <= k * lenN l) (mapM f l).
  Proof.
    induction 1 as [|x l H1 H2 IH]; cbn [mapM]; [apply gives_ret; apply N.le_0_l|].
    eapply gives_bind; [exact H1|]. intros y Hy. eapply gives_bind; [exact IH|]. intros ys Hys. apply gives_ret.
    rewrite lenN_cons. cbv beta in *. unfold wlist in *. cbn [map]. change (sumN (weight (PDict y) :: map weight (map PDict ys)))
      with (weight (PDict y) + sumN (map weight (map PDict ys))). lia.
  Qed.
  Lemma w_storage raw n : lenN raw <= n -> gives (fun d => weight (PDict d) <= 81 + (31 + 2 * n) * n) (storage_dict raw).
  Proof.
    intros Hn. eapply gives_impl; [|apply (fields_weight _ [1; 37; 37; 1 + (31 + 2 * n) * n]); rows2].
    - intros d H. rewrite weight_dict. fold_sums H. lia.
    - unfold u32_field. repeat wstep; wleaf.
    - wstep. pose proof (hex_text_len _ HV). wstep. wleaf.
    - unfold ps_format_id. repeat wstep; wleaf.
    - apply (gives_bind (fun r => lenN (snd r) <= n /\ Forall (fun s => lenN s <= n) (snd r))).
      { unfold serialized_property_values. eapply gives_bind; [apply gives_any|]. intros t _.
        eapply gives_bind; [apply v_suffixes|]. intros l [H1 H2]. apply gives_ret. cbn [snd]. rewrite lenN_dropN in H1.
        split; [lia|]. eapply Forall_impl; [|exact H2]. cbv beta. intros x Hx. rewrite lenN_dropN in Hx. lia. }
      intros [by_name vs] [H1 H2]. cbn [snd] in *.
      eapply gives_bind; [apply (w_mapM _ _ (31 + 2 * n)); eapply Forall_impl; [|exact H2]; intros x Hx; now apply w_value|].
      intros ds Hds. apply gives_ret. unfold at_most. rewrite weight_list. cbv beta in Hds.
      apply N.add_le_mono_l. eapply N.le_trans; [exact Hds|]. now apply N.mul_le_mono_l.
  Qed.
  Lemma w_metadata raw : gives (fun d => weight (PDict d) <= 5 + (81 + (31 + 2 * lenN raw) * lenN raw) * lenN raw)
    (metadata_dict raw).
  Proof.
    set (n := lenN raw).
    eapply gives_impl; [|apply (base_fields_weight _ _ [1 + (81 + (31 + 2 * n) * n) * n]); rows2].
    - intros d [H _]. rewrite weight_dict. fold_sums H. lia.
    - eapply gives_bind; [apply v_suffixes|]. intros l [H1 H2]. rewrite lenN_dropN in H1.
      eapply gives_bind.
      { apply (w_mapM _ _ (81 + (31 + 2 * n) * n)). eapply Forall_impl; [|exact H2]. cbv beta. intros x Hx.
        apply w_storage. rewrite lenN_dropN in Hx. unfold n. lia. }
      intros ds Hds. apply gives_ret. unfold at_most. rewrite weight_list. cbv beta in Hds.
      apply N.add_le_mono_l. eapply N.le_trans; [exact Hds|]. apply N.mul_le_mono_l. subst n. clear - H1. unfold bytes in *. lia.
  Qed.

  (** ** All blocks *)

  Definition meta : string := extra_name Metadata.
  (** The entries other than the property store. *)
  Definition others (d : dict) : N :=
    sumN (map (fun e => if String.eqb (fst e) meta then 0 else 1 + weight (snd e)) d).
  Lemma others_cons k v d : others ((k, v) :: d) = (if String.eqb k meta then 0 else 1 + weight v) + others d.
  Proof. reflexivity. Qed.
  Lemma others_dset k v d : others (dset k v d) <= (if String.eqb k meta then 0 else 1 + weight v) + others d.
  Proof.
    induction d as [|[k' v'] d IH]; cbn [dset]; [rewrite others_cons; apply N.le_refl|].
    destruct (String.eqb k k') eqn:E; rewrite !others_cons.
    - apply String.eqb_eq in E. subst k'. destruct (String.eqb k meta); lia.
    - lia.
  Qed.
  Lemma others_dupd k f c d : (forall v, weight (f v) <= weight v + c) -> others (dupd k f d) <= others d + c.
  Proof.
    intros H. induction d as [|[k' v'] d IH]; cbn [dupd]; [lia|].
    destruct (String.eqb k k'); rewrite !others_cons; [|lia]. specialize (H v'). destruct (String.eqb k' meta); lia.
  Qed.
  Definition good_block (e : extra) : Prop := 1 <= lenN (ex_raw e) /\ (ex_class e = Terminal -> 4 < lenN (ex_raw e)).
  Lemma w_add_block res e : good_block e ->
    gives (fun r => others r <= others res + 256 * lenN (ex_raw e)) (add_block cp res e).
  Proof.
    intros [H1 HT]. unfold add_block.
    assert (HX : gives (fun r => others r <= others res + 256 * lenN (ex_raw e))
      (try_except (d <- extra_as_dict cp e ;; ret (dset (extra_name (ex_class e)) (PDict d) res))
         is_struct_or_value_error (warn (WExtraBlock (extra_name (ex_class e))) ;;; ret res))).
    { apply gives_try.
      - apply (gives_bind (fun d => ex_class e = Metadata \/ light (ex_raw e) d)).
        { destruct (ex_class e) eqn:EC; try (eapply gives_impl; [|apply w_extra; [congruence|rewrite EC; exact HT]]; cbv beta; tauto).
          eapply gives_impl; [|apply gives_any]. intros d _. now left. }
        intros d Hd. apply gives_ret. pose proof (others_dset (extra_name (ex_class e)) (PDict d) res) as HO.
        destruct Hd as [Hd|Hd].
        + rewrite Hd in *. change (String.eqb (extra_name Metadata) meta) with true in HO. cbv iota in HO. lia.
        + unfold light in Hd. destruct (String.eqb _ meta); lia.
      - eapply gives_bind; [apply gives_any|]. intros _ _. apply gives_ret. lia. }
    destruct (ex_class e) eqn:EC; try exact HX. clear HX. cbv zeta.
    set (res' := if dmem (extra_name UnknownExtra) res then res else dset (extra_name UnknownExtra) (PList []) res).
    assert (HR : others res' <= others res + 2).
    { unfold res'. destruct (dmem _ _); [lia|]. pose proof (others_dset (extra_name UnknownExtra) (PList []) res) as HO.
      change (String.eqb (extra_name UnknownExtra) meta) with false in HO. cbv iota in HO.
      change (weight (PList [])) with 1 in HO. lia. }
    apply gives_try.
    - eapply gives_bind; [apply w_extra; congruence|]. intros d Hd. apply gives_ret. unfold light in Hd.
      eapply N.le_trans; [apply (others_dupd _ _ (weight (PDict d)))|lia].
      intros [| | | | |]; try lia. rewrite !weight_list, wlist_app. unfold wlist at 2. cbn [map sumN fold_right]. lia.
    - eapply gives_bind; [apply gives_any|]. intros _ _. apply gives_ret. lia.
  Qed.
  Definition raw_sum (l : list extra) : N := sumN (map (fun e => lenN (ex_raw e)) l).
  Lemma w_extras l : Forall good_block l -> forall res,
    gives (fun r => others r <= others res + 256 * raw_sum l) (extras_loop cp res l).
  Proof.
    induction 1 as [|e l H1 H2 IH]; intros res; cbn [extras_loop]; [apply gives_ret; lia|].
    eapply gives_bind; [now apply w_add_block|]. intros r Hr. cbv beta in Hr.
    eapply gives_impl; [|apply IH]. cbv beta. intros d Hd.
    change (raw_sum (e :: l)) with (lenN (ex_raw e) + raw_sum l). lia.
  Qed.
  (** The property store of the report, if there is one, comes from one block. *)
  Lemma w_store n l : (forall e, In e l -> lenN (ex_raw e) <= n) -> forall res,
    (forall v, dget meta res = Some v -> weight v <= 5 + (81 + (31 + 2 * n) * n) * n) ->
    gives (fun r => forall v, dget meta r = Some v -> weight v <= 5 + (81 + (31 + 2 * n) * n) * n) (extras_loop cp res l).
  Proof.
    induction l as [|e l IH]; intros Hl res Hres; cbn [extras_loop]; [now apply gives_ret|].
    eapply gives_bind; [|intros r Hr; apply IH; [intros x Hx; apply Hl; now right|exact Hr]].
    clear IH. specialize (Hl e (or_introl eq_refl)). revert Hl.
    assert (Hset : forall k v d, dget meta (dset k v d) = (if String.eqb meta k then Some v else dget meta d)).
    { intros k v d. induction d as [|[k' v'] d IH]; cbn [dset dget].
      - destruct (String.eqb meta k); reflexivity.
      - destruct (String.eqb k k') eqn:E; cbn [dget].
        + apply String.eqb_eq in E. subst k'. destruct (String.eqb meta k); reflexivity.
        + rewrite IH. destruct (String.eqb meta k') eqn:E2; [|reflexivity].
          destruct (String.eqb meta k) eqn:E3; [|reflexivity].
          apply String.eqb_eq in E2, E3. rewrite <- E2, <- E3, String.eqb_refl in E. discriminate E. }
    assert (Hupd : forall k f d, String.eqb meta k = false -> dget meta (dupd k f d) = dget meta d).
    { intros k f d HK. induction d as [|[k' v'] d IH]; cbn [dupd dget]; [reflexivity|].
      destruct (String.eqb k k') eqn:E; cbn [dget].
      - apply String.eqb_eq in E. subst k'. now rewrite HK.
      - now rewrite IH. }
    intros Hn. unfold add_block. cbv zeta.
    assert (HH : forall w, gives (fun r => forall v, dget meta r = Some v -> weight v <= 5 + (81 + (31 + 2 * n) * n) * n)
      (warn w ;;; ret res)).
    { intros w. eapply gives_bind; [apply gives_any|]. intros _ _. now apply gives_ret. }
    destruct (ex_class e) eqn:EC; (apply gives_try; [|try apply HH]);
      try (eapply gives_bind; [apply gives_any|]; intros d _; apply gives_ret; intros v; rewrite Hset; exact (Hres v)).
    - unfold extra_as_dict. rewrite EC. eapply gives_bind; [apply w_metadata|]. intros d Hd. cbv beta in Hd. apply gives_ret.
      intros v. rewrite Hset. change (String.eqb meta (extra_name Metadata)) with true. cbv iota. intros [= <-].
      eapply N.le_trans; [exact Hd|]. apply N.add_le_mono_l. apply N.mul_le_mono; [|exact Hn].
      apply N.add_le_mono_l. apply N.mul_le_mono; lia.
    - eapply gives_bind; [apply gives_any|]. intros d _. apply gives_ret. intros v. rewrite Hupd by reflexivity.
      destruct (dmem _ _); [apply Hres|]. rewrite Hset. exact (Hres v).
    - eapply gives_bind; [apply gives_any|]. intros _ _. apply gives_ret. intros v.
      destruct (dmem _ _); [apply Hres|]. rewrite Hset. exact (Hres v).
  Qed.

  (** ** Strings *)

  Lemma wdict_dset k v d : wdict (dset k v d) <= 1 + weight v + wdict d.
  Proof.
    induction d as [|[k' v'] d IH]; cbn [dset]; [rewrite wdict_cons; lia|].
    destruct (String.eqb k k'); rewrite !wdict_cons; lia.
  Qed.
  Lemma w_sd_read h b limit : gives (fun r => lenN (fst r) <= lenN b) (sd_read h cp b limit).
  Proof.
    unfold sd_read. wstep. wstep. apply (gives_bind (fun t => lenN t <= lenN b)).
    - destruct a0; (eapply gives_impl; [|first [apply v_wide|apply v_string]]); intros t H; now whole H.
    - intros t Ht. now apply gives_ret.
  Qed.
  Lemma w_sd_loop h raw fs : forall st,
    gives (fun r => wdict (sd_data r) <= wdict (sd_data st) + (2 + lenN raw) * lenN fs) (sd_loop fs h cp raw st).
  Proof.
    induction fs as [|[[f n] lim] fs IH]; intros st; cbn [sd_loop]; [apply gives_ret; lia|]. rewrite lenN_cons.
    assert (HS : wdict (sd_data st) <= wdict (sd_data st) + (2 + lenN raw) * (1 + lenN fs)) by lia.
    destruct (has_flag f h) as [w [[|]|e]].
    - pose proof (w_sd_read h (dropN (sd_size st) raw) lim) as Hr.
      destruct (sd_read _ _ _ _) as [w1 [[t len]|e]].
      + specialize (Hr _ eq_refl). cbn [fst] in Hr. rewrite lenN_dropN in Hr.
        specialize (IH (SD (dset n (PStr t) (sd_data st)) (sd_size st + len))).
        destruct (sd_loop _ _ _ _ _) as [w2 r]. intros a Ha. specialize (IH a Ha). cbn [sd_data] in IH.
        pose proof (wdict_dset n (PStr t) (sd_data st)) as HD. cbn [weight] in HD. lia.
      + destruct (is_struct_error e); intros a [= <-]. exact HS.
    - eapply gives_impl; [|apply IH]. cbv beta. intros a Ha. lia.
    - destruct (is_struct_error e); intros a [= <-]. exact HS.
  Qed.
  Lemma w_strings h b : gives (fun st => wdict (sd_data st) <= 10 + 5 * lenN b) (string_data_init h cp b).
  Proof. eapply gives_impl; [|apply w_sd_loop]. intros st H. cbn in H. change (lenN sd_fields) with 5 in H. lia. Qed.
End Page.

(** ** Whole files *)

Lemma v_extra_loop fuel : forall rest,
  gives (fun r => raw_sum (fst r) + lenN (snd r) <= lenN rest
                  /\ Forall (fun e => 1 <= lenN (ex_raw e) /\ ex_class e <> Terminal) (fst r)) (extra_loop fuel rest).
Proof.
  induction fuel as [|fuel IH]; intros rest; cbn [extra_loop]; [apply gives_raise|].
  destruct rest as [|x rest]; [apply gives_ret; split; [apply N.le_refl|constructor]|].
  assert (HB : 1 <= lenN (x :: rest)) by (rewrite lenN_cons; lia). revert HB. generalize (x :: rest). intros b HB.
  destruct (ef_item_size b) as [w [n|e]].
  - destruct (n =? 0) eqn:E; [apply gives_ret; split; [apply N.le_refl|constructor]|].
    apply (gives_bind (fun c => c <> Some Terminal)).
    { unfold ef_extra_class. apply gives_try.
      - eapply gives_bind; [apply gives_any|]. intros s _. apply gives_ret.
        generalize (dropN 2 (hex_text s)). intros t.
        assert (HA : forall table, forallb (fun e => match snd e with Terminal => false | _ => true end) table = true ->
          match assoc_sig t table with Some c => c | None => UnknownExtra end <> Terminal).
        { induction table as [|[k c] table IHt]; cbn [assoc_sig forallb snd]; [discriminate|].
          intros H. apply andb_prop in H as [H1 H2]. destruct (text_eqb t (s2t k)); [now destruct c|now apply IHt]. }
        specialize (HA EXTRA_SIGS eq_refl). congruence.
      - eapply gives_bind; [apply gives_any|]. intros _ _. apply gives_ret. discriminate. }
    intros c Hc. eapply gives_bind; [apply IH|]. intros [blocks r] [H1 H2]. cbn [fst snd] in *. apply gives_ret.
    rewrite lenN_dropN in H1. cbn [fst snd].
    destruct c as [c|]; [|split; [lia|exact H2]]. split.
    + change (raw_sum (Extra c (takeN n b) :: blocks)) with (lenN (takeN n b) + raw_sum blocks).
      rewrite lenN_takeN. lia.
    + constructor; [|exact H2]. cbn [ex_raw ex_class]. rewrite lenN_takeN. split; [lia|congruence].
  - destruct (is_struct_error e); intros a Ha; [|discriminate Ha]. injection Ha as <-.
    split; [apply N.le_refl|constructor].
Qed.
Lemma v_extra_init allow b : gives (fun l => raw_sum l <= lenN b /\ Forall good_block l) (extra_init allow b).
Proof.
  unfold extra_init. eapply gives_bind; [apply v_extra_loop|]. intros [blocks r] [H1 H2]. cbn [fst snd] in *.
  assert (HG : Forall good_block blocks).
  { eapply Forall_impl; [|exact H2]. intros e [He1 He2]. split; [exact He1|]. intros He. now destruct He2. }
  destruct (allow && (4 <? lenN r)) eqn:E; [|apply gives_ret; split; [lia|exact HG]].
  apply andb_prop in E as [_ E]. eapply gives_bind; [apply gives_any|]. intros n _. apply gives_ret.
  destruct (n <? 4); [|split; [lia|exact HG]]. split.
  - unfold raw_sum. rewrite map_app, sumN_app. unfold raw_sum in H1. cbn [map sumN fold_right ex_raw]. lia.
  - apply Forall_app. split; [exact HG|]. constructor; [|constructor]. split; cbn [ex_raw]; lia.
Qed.

Definition from_file (b : bytes) (cp : cp_arg) (l : lnk) : Prop :=
  l_cp l = cp
  /\ (forall t, l_targets l = Some t -> lenN (tg_raw_targets t) <= lenN b)
  /\ (forall k raw, l_info l = Some (k, raw) -> lenN raw <= lenN b)
  /\ (exists h r, lenN r <= lenN b /\ snd (string_data_init h cp r) = Ok (l_string_data l))
  /\ raw_sum (l_extras l) <= lenN b /\ Forall good_block (l_extras l).
Lemma process_from b cp allow : gives (from_file b cp) (process b cp allow).
Proof.
  unfold process. eapply gives_bind; [apply gives_any|]. intros h _. eapply gives_bind; [apply gives_any|]. intros i _.
  cbv zeta. eapply gives_bind; [apply gives_any|]. intros ht _.
  apply (gives_bind (fun r => forall t, fst r = Some t -> lenN (tg_raw_targets t) <= lenN b)).
  { destruct ht; [|apply gives_ret; discriminate].
    apply (gives_bind (fun t => lenN (tg_raw_targets t) <= lenN b)).
    - unfold targets_init. eapply gives_bind; [apply gives_any|]. intros n _. apply gives_ret. cbn [tg_raw_targets].
      rewrite lenN_slice, lenN_dropN. lia.
    - intros t Ht. eapply gives_bind; [apply gives_any|]. intros n _. apply gives_ret. cbn [fst]. intros t' [= <-]. exact Ht. }
  intros [tg i2] Htg. cbn [fst] in Htg. eapply gives_bind; [apply gives_any|]. intros hi _.
  apply (gives_bind (fun r => forall k raw, fst r = Some (k, raw) -> lenN raw <= lenN b)).
  { destruct hi; [|apply gives_ret; discriminate]. eapply gives_bind; [apply gives_any|]. intros [k|] _.
    - eapply gives_bind; [apply gives_any|]. intros n _. apply gives_ret. cbn [fst]. intros k' raw [= <- <-].
      rewrite lenN_dropN. lia.
    - apply gives_ret. discriminate. }
  intros [inf i3] Hinf. cbn [fst] in Hinf. intros l H. apply snd_bind_Ok in H as (sd & Hsd & H).
  cbv zeta in H. apply snd_bind_Ok in H as (ex & Hex & H). apply snd_bind_Ok in H as (n & _ & H). injection H as <-.
  apply v_extra_init in Hex as [HE1 HE2]. rewrite lenN_dropN in HE1.
  unfold from_file. cbn [l_cp l_targets l_info l_string_data l_extras]. split; [reflexivity|].
  split; [exact Htg|]. split; [exact Hinf|]. split; [|split; [lia|exact HE2]].
  exists h, (dropN i3 b). split; [rewrite lenN_dropN; lia|exact Hsd].
Qed.
Lemma init_from src cp allow l b : (src = FromBytes b \/ src = FromHandle b) ->
  snd (lnk_init src cp allow) = Ok l -> from_file b cp l.
Proof.
  intros [-> | ->] H.
  - destruct b; [discriminate H|]. now apply process_from in H.
  - now apply process_from in H.
Qed.

Lemma target_weight cp l t : (forall c, tp_codec cp = Some c -> narrow_page c) -> l_cp l = cp ->
  gives (fun d => wdict d <= 7 + 204 * lenN (tg_raw_targets t)) (target_dict l t).
Proof.
  intros HP Hcp. eapply gives_impl; [|apply (fields_weight _ [1; 1 + 204 * lenN (tg_raw_targets t); 1]); rows2].
  - intros d H. cbv beta in H. unfold sumN in H. cbn [fold_right] in H. rewrite !lenN_cons, lenN_nil in H. lia.
  - unfold at_most. eapply gives_bind; [apply gives_any|]. intros n _. apply gives_ret. apply N.le_refl.
  - unfold targets_as_list. rewrite Hcp. eapply gives_bind; [apply (w_items cp HP)|]. intros its H. apply gives_ret.
    unfold at_most. rewrite weight_list. cbv beta in H. lia.
  - apply gives_ret. apply N.le_refl.
Qed.
Lemma middle_weight b cp l : (forall c, tp_codec cp = Some c -> narrow_page c) -> from_file b cp l ->
  gives (fun m => wdict m <= 1490 + 217 * lenN b) (middle_json l).
Proof.
  intros HP (Hcp & Ht & Hi & (h & r & Hr & Hsd) & _). unfold middle_json.
  apply (w_strings cp HP) in Hsd. eapply gives_bind; [apply w_header|]. intros hd Hhd.
  apply (gives_bind (fun d => wdict d <= 9 + 204 * lenN b)).
  { destruct (l_targets l) as [t|]; [|apply gives_ret; rewrite wdict_nil; lia].
    eapply gives_bind; [apply (target_weight cp l t HP Hcp)|]. intros d Hd. apply gives_ret.
    rewrite wdict_cons, wdict_nil, weight_dict. specialize (Ht t eq_refl). cbv beta in Hd. lia. }
  intros t Htd. apply (gives_bind (fun d => wdict d <= 160 + 8 * lenN b)).
  { destruct (l_info l) as [[k raw]|]; [|apply gives_ret; rewrite wdict_nil; lia].
    rewrite Hcp. eapply gives_impl; [|apply (w_info cp HP)]. cbv beta. intros d Hd. specialize (Hi k raw eq_refl). lia. }
  intros i Hid. apply gives_ret. rewrite !wdict_app, !wdict_cons, wdict_nil, !weight_dict. cbv beta in *. lia.
Qed.

Lemma wdict_dpop k d : wdict (dpop k d) <= wdict d.
Proof. induction d as [|[k' v'] d IH]; cbn [dpop]; [lia|]. destruct (String.eqb k k'); rewrite !wdict_cons; lia. Qed.
Lemma wdict_pop_all ks : forall d, wdict (pop_all ks d) <= wdict d.
Proof.
  unfold pop_all. induction ks as [|k ks IH]; intros d; cbn [fold_left]; [lia|].
  specialize (IH (dpop k d)). pose proof (wdict_dpop k d). lia.
Qed.
Lemma wdict_dupd k f d : (forall v, weight (f v) <= weight v) -> wdict (dupd k f d) <= wdict d.
Proof.
  intros H. induction d as [|[k' v'] d IH]; cbn [dupd]; [lia|].
  destruct (String.eqb k k'); rewrite !wdict_cons; [specialize (H v')|]; lia.
Qed.
Lemma on_dict_weight f v : (forall d, wdict (f d) <= wdict d) -> weight (on_dict f v) <= weight v.
Proof. intros H. destruct v as [| | | | |d]; try apply N.le_refl. cbn [on_dict]. rewrite !weight_dict. specialize (H d). lia. Qed.
Lemma prune_info_weight d : wdict (prune_info d) <= wdict d.
Proof.
  unfold prune_info. cbv zeta.
  assert (HU : forall ks e, wdict (dupd "location_info" (on_dict (pop_all ks)) e) <= wdict e).
  { intros ks e. apply wdict_dupd. intros v. apply on_dict_weight, wdict_pop_all. }
  set (ks := ["link_info_size"%string; _; _; _; _; _]). pose proof (wdict_pop_all ks d) as H0.
  generalize dependent (pop_all ks d). intros d0 H0.
  destruct (location_is "Local" d0).
  - pose proof (HU ["volume_id_size"; "volume_label_offset"]%string d0) as H1.
    destruct (location_is "Network" _); [|lia].
    eapply N.le_trans; [apply HU|]. lia.
  - destruct (location_is "Network" _); [|lia]. eapply N.le_trans; [apply HU|]. lia.
Qed.
Lemma prune_target_weight d : wdict (prune_target d) <= wdict d.
Proof.
  unfold prune_target. eapply N.le_trans; [apply wdict_dupd|apply wdict_pop_all].
  intros [| | | |l|]; try apply N.le_refl. rewrite !weight_list. apply N.add_le_mono_l.
  unfold wlist. induction l as [|v l IH]; cbn [map sumN fold_right]; [lia|].
  apply N.add_le_mono; [|exact IH]. apply on_dict_weight. apply wdict_dpop.
Qed.
Lemma prune_middle_weight m : wdict (prune_middle m) <= wdict m.
Proof.
  unfold prune_middle. cbv zeta.
  assert (H1 : forall d, wdict (dupd "header" (on_dict (pop_all ["header_size"; "reserved0"; "reserved1"; "reserved2"]%string)) d) <= wdict d).
  { intros d. apply wdict_dupd. intros v. apply on_dict_weight, wdict_pop_all. }
  assert (H2 : forall d, wdict (dupd "link_info" (on_dict prune_info) d) <= wdict d).
  { intros d. apply wdict_dupd. intros v. apply on_dict_weight, prune_info_weight. }
  assert (H3 : forall d, wdict (dupd "target" (on_dict prune_target) d) <= wdict d).
  { intros d. apply wdict_dupd. intros v. apply on_dict_weight, prune_target_weight. }
  pose proof (H1 m) as HA. pose proof (H2 (dupd "header" (on_dict (pop_all ["header_size"; "reserved0"; "reserved1"; "reserved2"]%string)) m)) as HB.
  destruct (dmem "target" _); [eapply N.le_trans; [apply H3|]|]; lia.
Qed.
Lemma dget_dupd_other k k' f d : k <> k' -> dget k (dupd k' f d) = dget k d.
Proof.
  intros H. induction d as [|[k2 v2] d IH]; cbn [dupd]; [reflexivity|].
  destruct (String.eqb k' k2) eqn:E; cbn [dget].
  - apply String.eqb_eq in E. subst k2. apply String.eqb_neq in H. now rewrite H.
  - now rewrite IH.
Qed.
Lemma middle_keys l m (all : bool) : snd (middle_json l) = Ok m -> dget "extra" (if all then m else prune_middle m) = None.
Proof.
  intros H. assert (HM : dget "extra" m = None).
  { unfold middle_json in H. apply snd_bind_Ok in H as (h & _ & H). apply snd_bind_Ok in H as (t & Ht & H).
    apply snd_bind_Ok in H as (i & _ & H). injection H as <-.
    destruct (l_targets l); [apply snd_bind_Ok in Ht as (d & _ & Ht)|]; injection Ht as <-; reflexivity. }
  destruct all; [exact HM|]. unfold prune_middle. cbv zeta.
  destruct (dmem "target" _); rewrite ?dget_dupd_other by discriminate; exact HM.
Qed.
Lemma others_all d : NoDup (map fst d) ->
  wdict d = others d + match dget meta d with Some v => 1 + weight v | None => 0 end.
Proof.
  induction d as [|[k v] d IH]; cbn [map fst]; intros HN; [reflexivity|]. inversion HN; subst.
  rewrite wdict_cons, others_cons, IH by assumption. cbn [dget].
  destruct (String.eqb k meta) eqn:E.
  - apply String.eqb_eq in E. subst k. rewrite String.eqb_refl.
    destruct (dget meta d) as [v'|] eqn:ED; [|lia]. exfalso. apply H1.
    clear -ED. induction d as [|[k2 v2] d IH]; [discriminate ED|]. cbn [dget] in ED. cbn [map fst].
    destruct (String.eqb meta k2) eqn:E; [apply String.eqb_eq in E; now left|right; now apply IH].
  - replace (String.eqb meta k) with false by (rewrite String.eqb_sym; now symmetry). lia.
Qed.

Lemma tp_page cp : narrow_page (page_of cp) -> forall c, tp_codec cp = Some c -> narrow_page c.
Proof. destruct cp; cbn; intros H c' [= <-]; exact H. Qed.

Lemma size_parts src b cp allow l all d : (src = FromBytes b \/ src = FromHandle b) -> narrow_page (page_of cp) ->
  snd (lnk_init src cp allow) = Ok l -> snd (get_json l all) = Ok d ->
  weight (PDict d) <= 1500 + 500 * lenN b + store_weight d
  /\ store_weight d <= 5 + (81 + (31 + 2 * lenN b) * lenN b) * lenN b.
Proof.
  intros Hsrc HN Hl Hd. pose proof (tp_page cp HN) as HP. pose proof (init_from _ _ _ _ _ Hsrc Hl) as HF.
  rewrite get_json_middle in Hd. apply snd_bind_Ok in Hd as (m & Hm & Hd). apply snd_bind_Ok in Hd as (e & He & Hd).
  injection Hd as <-. pose proof (middle_keys _ _ all Hm) as HK.
  pose proof (middle_weight b cp l HP HF _ Hm) as HMW. cbv beta in HMW.
  assert (HMP : wdict (if all then m else prune_middle m) <= 1490 + 217 * lenN b).
  { destruct all; [exact HMW|]. pose proof (prune_middle_weight m). lia. }
  destruct HF as (Hcp & _ & _ & _ & HS & HG). rewrite Hcp in He.
  pose proof (w_extras cp HP _ HG [] e He) as HW. cbv beta in HW. change (others []) with 0 in HW.
  pose proof (g_extras (fun _ => True) (fun _ => True) (fun _ _ => I) (fun _ _ => I) cp
                (fun _ _ => conj (fun _ _ _ => I) (fun _ => I)) (l_extras l) [] (filled_nil _ _ _) e He) as (HND & _).
  pose proof (others_all e HND) as HA.
  assert (HST : store_weight (("size"%string, PN (l_size l)) :: (if all then m else prune_middle m) ++ [("extra"%string, PDict e)])
                = match dget meta e with Some v => weight v | None => 0 end).
  { unfold store_weight. cbn [dget]. change (String.eqb "extra" "size") with false. cbv iota.
    rewrite dget_app. destruct all; rewrite HK; reflexivity. }
  rewrite HST. split.
  - rewrite weight_dict, wdict_cons, wdict_app, wdict_cons, wdict_nil, weight_dict, HA. change (weight (PN (l_size l))) with 1.
    unfold bytes in *; destruct all, (dget meta e); lia.
  - assert (HB : forall x, In x (l_extras l) -> lenN (ex_raw x) <= lenN b).
    { intros x Hx. eapply N.le_trans; [|exact HS]. clear -Hx. unfold raw_sum.
      induction (l_extras l) as [|y r IH]; [destruct Hx|]. cbn [map sumN fold_right].
      destruct Hx as [->|Hx]; [lia|]. specialize (IH Hx). unfold sumN in IH. lia. }
    pose proof (w_store cp (lenN b) _ HB [] ltac:(discriminate) e He) as HX. cbv beta in HX.
    destruct (dget meta e) as [v|]; [now apply HX|]. lia.
Qed.
