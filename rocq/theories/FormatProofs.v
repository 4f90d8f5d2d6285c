(** * Number formatting and GUID text (C10) *)
From Verif Require Import Lemmas Utils Spec.

(** ** Fixed-width digits *)

Fixpoint fixd (base : N) (w : nat) (n : N) : list N :=
  match w with O => [] | S w => fixd base w (n / base) ++ [n mod base] end.

Lemma fixd_length base w n : length (fixd base w n) = w.
Proof. revert n; induction w as [|w IH]; intros n; cbn [fixd]; [reflexivity|]. rewrite app_length, IH. cbn. lia. Qed.

Lemma fixd_0 base w : 1 < base -> fixd base w 0 = repeat 0 w.
Proof.
  intros Hb. induction w as [|w IH]; [reflexivity|]. cbn [fixd].
  rewrite N.div_small, N.mod_small, IH by lia. symmetry. apply (repeat_cons w 0).
Qed.

Lemma fixd_small base w n : 1 < base -> n < base -> fixd base (S w) n = repeat 0 w ++ [n].
Proof. intros Hb Hn. cbn [fixd]. rewrite N.div_small, N.mod_small, fixd_0 by assumption. reflexivity. Qed.

Lemma fixd_lt base w n d : 0 < base -> In d (fixd base w n) -> d < base.
Proof.
  intros Hb. revert n; induction w as [|w IH]; intros n; cbn [fixd]; [intros []|].
  intros H. apply in_app_or in H as [H|[<-|[]]]; [eapply IH; eassumption|]. apply N.mod_lt. lia.
Qed.

Lemma digits_aux_fixd base fuel n w acc :
  1 < base -> n < base ^ N.of_nat fuel -> n < base ^ N.of_nat w -> (0 < w)%nat -> (0 < fuel)%nat ->
  exists D, digits_aux base fuel n acc = D ++ acc /\ (length D <= w)%nat
            /\ repeat 0 (w - length D) ++ D = fixd base w n.
Proof.
  intros Hb. revert n w acc; induction fuel as [|fuel IH]; intros n w acc Hf Hw Hw0 Hf0; [lia|].
  cbn [digits_aux]. destruct (n <? base) eqn:E.
  - exists [n]. split; [reflexivity|]. cbn [length]. split; [lia|].
    destruct w as [|w]; [lia|]. rewrite fixd_small by lia. do 2 f_equal. lia.
  - assert (Hn : base <= n) by lia.
    destruct w as [|w]; [lia|].
    rewrite Nnat.Nat2N.inj_succ, N.pow_succ_r' in Hf, Hw.
    assert (Hd : n / base < base ^ N.of_nat fuel) by (apply N.div_lt_upper_bound; lia).
    assert (Hd2 : n / base < base ^ N.of_nat w) by (apply N.div_lt_upper_bound; lia).
    assert (Hpos : 1 <= n / base) by (apply N.div_le_lower_bound; lia).
    assert (Hw1 : (0 < w)%nat). { destruct w; [|lia]. cbn in Hd2. rewrite N.pow_0_r in Hd2. lia. }
    assert (Hf1 : (0 < fuel)%nat). { destruct fuel; [|lia]. cbn in Hd. rewrite N.pow_0_r in Hd. lia. }
    destruct (IH (n / base) w (n mod base :: acc) Hd Hd2 Hw1 Hf1) as (D & HD & HL & HR).
    exists (D ++ [n mod base]). split; [rewrite HD, <- app_assoc; reflexivity|].
    rewrite app_length. cbn [length]. split; [lia|]. cbn [fixd]. rewrite <- HR, <- app_assoc.
    replace (S w - (length D + 1))%nat with (w - length D)%nat by lia. reflexivity.
Qed.

Lemma pos_size_nat_bound p : N.pos p < 2 ^ N.of_nat (Pos.size_nat p).
Proof. induction p as [p IH|p IH|]; cbn [Pos.size_nat]; rewrite ?Nnat.Nat2N.inj_succ, ?N.pow_succ_r'; cbn; lia. Qed.
Lemma size_nat_bound n : n < 2 ^ N.of_nat (S (N.size_nat n)).
Proof.
  destruct n as [|p]; [reflexivity|]. cbn [N.size_nat].
  eapply N.lt_trans; [apply pos_size_nat_bound|]. apply N.pow_lt_mono_r; lia.
Qed.

Lemma digits_fixd base n w :
  1 < base -> n < base ^ N.of_nat w -> (0 < w)%nat ->
  (length (digits base n) <= w)%nat /\ repeat 0 (w - length (digits base n)) ++ digits base n = fixd base w n.
Proof.
  intros Hb Hw Hw0. unfold digits.
  destruct (digits_aux_fixd base (S (N.size_nat n)) n w [] Hb) as (D & HD & HL & HR); try assumption; try lia.
  - eapply N.lt_le_trans; [apply size_nat_bound|]. apply N.pow_le_mono_l. lia.
  - rewrite HD, app_nil_r. split; assumption.
Qed.

Lemma map_repeat' {A B} (f : A -> B) x n : map f (repeat x n) = repeat (f x) n.
Proof. induction n as [|n IH]; cbn; [reflexivity|]. now rewrite IH. Qed.

Lemma digit_char_0 u : digit_char u 0 = 48.
Proof. reflexivity. Qed.

Lemma pad0_fixd u n w :
  n < 16 ^ N.of_nat w -> (0 < w)%nat ->
  pad0 w (map (digit_char u) (digits 16 n)) = map (digit_char u) (fixd 16 w n).
Proof.
  intros Hn Hw. destruct (digits_fixd 16 n w) as [HL HR]; [lia|assumption..|].
  unfold pad0. rewrite <- HR, map_app, map_length, map_repeat', digit_char_0. reflexivity.
Qed.
Lemma hexX_fixd n w : n < 16 ^ N.of_nat w -> (0 < w)%nat -> hexX w n = map (digit_char true) (fixd 16 w n).
Proof. apply pad0_fixd. Qed.
Lemma hexx_fixd n w : n < 16 ^ N.of_nat w -> (0 < w)%nat -> hexx w n = map (digit_char false) (fixd 16 w n).
Proof. apply pad0_fixd. Qed.

Lemma digit_char_table d : d < 16 -> digit_char true d = nth (N.to_nat d) hex_table 0.
Proof.
  intros H. assert (E : forallb (fun i => N.eqb (digit_char true i) (nth (N.to_nat i) hex_table 0))
    (map N.of_nat (seq 0 16)) = true) by reflexivity.
  rewrite forallb_forall in E. apply N.eqb_eq, E. apply in_map_iff. exists (N.to_nat d).
  split; [lia|]. apply in_seq. lia.
Qed.

Lemma hex_of_byte_fixd b : hex_of_byte b = map (digit_char true) (fixd 16 2 (b2n b)).
Proof.
  cbn [fixd app map]. pose proof (b2n_lt b). unfold hex_of_byte.
  assert (b2n b / 16 < 16) by (apply N.div_lt_upper_bound; lia).
  rewrite (N.mod_small (b2n b / 16)) by assumption.
  rewrite !digit_char_table by (assumption || apply N.mod_lt; lia). reflexivity.
Qed.

Lemma be_val_snoc l x : be_val (l ++ [x]) = b2n x + 256 * be_val l.
Proof. unfold be_val. rewrite rev_app_distr. reflexivity. Qed.
Lemma be_val_lt l : be_val l < 256 ^ lenN l.
Proof. unfold be_val. replace (lenN l) with (lenN (rev l)); [apply le_val_lt|]. unfold lenN. now rewrite rev_length. Qed.

Lemma fixd_be_val l u :
  map (digit_char u) (fixd 16 (2 * length l) (be_val l)) = flat_map (fun b => map (digit_char u) (fixd 16 2 (b2n b))) l.
Proof.
  induction l as [|x l IH] using rev_ind; [reflexivity|].
  rewrite app_length. cbn [length]. replace (2 * (length l + 1))%nat with (S (S (2 * length l))) by lia.
  rewrite be_val_snoc, flat_map_app. cbn [flat_map]. rewrite app_nil_r, <- IH.
  change (fixd 16 (S (S (2 * length l))) (b2n x + 256 * be_val l))
    with ((fixd 16 (2 * length l) ((b2n x + 256 * be_val l) / 16 / 16) ++ [((b2n x + 256 * be_val l) / 16) mod 16])
          ++ [(b2n x + 256 * be_val l) mod 16]).
  pose proof (b2n_lt x).
  replace ((b2n x + 256 * be_val l) / 16 / 16) with (be_val l) by (rewrite N.div_div by lia; lia).
  rewrite !map_app, <- app_assoc. f_equal. cbn [fixd map app].
  replace (((b2n x + 256 * be_val l) / 16) mod 16) with ((b2n x / 16) mod 16) by lia.
  replace ((b2n x + 256 * be_val l) mod 16) with (b2n x mod 16) by lia. reflexivity.
Qed.

Lemma hexX_be_val l : l <> [] -> hexX (2 * length l) (be_val l) = flat_map hex_of_byte l.
Proof.
  intros Hl. rewrite hexX_fixd.
  - rewrite fixd_be_val. apply flat_map_ext. intros. symmetry. apply hex_of_byte_fixd.
  - eapply N.lt_le_trans; [apply be_val_lt|]. unfold lenN.
    replace (N.of_nat (2 * length l)) with (2 * N.of_nat (length l)) by lia.
    rewrite N.pow_mul_r. reflexivity.
  - destruct l; [contradiction|]. cbn [length]. lia.
Qed.

Lemma le_be_val l : le_val l = be_val (rev l).
Proof. unfold be_val. now rewrite rev_involutive. Qed.

(** ** GUIDs *)

Lemma sixteen (g : bytes) : lenN g = 16 ->
  exists b0 b1 b2 b3 b4 b5 b6 b7 b8 b9 b10 b11 b12 b13 b14 b15,
    g = [b0; b1; b2; b3; b4; b5; b6; b7; b8; b9; b10; b11; b12; b13; b14; b15].
Proof.
  intros H. unfold lenN in H.
  do 16 (destruct g as [|? g]; [cbn in H; lia|]).
  destruct g; [|cbn [length] in H; lia]. repeat eexists.
Qed.

Lemma parse_uuid_guid g : lenN g = 16 -> parse_uuid g = ret (guid_text g).
Proof.
  intros H. apply sixteen in H as (b0 & b1 & b2 & b3 & b4 & b5 & b6 & b7 & b8 & b9 & b10 & b11 & b12 & b13 & b14 & b15 & ->).
  unfold parse_uuid.
  change (slice 0 8 [b0; b1; b2; b3; b4; b5; b6; b7; b8; b9; b10; b11; b12; b13; b14; b15])
    with [b0; b1; b2; b3; b4; b5; b6; b7].
  change (slice 8 16 [b0; b1; b2; b3; b4; b5; b6; b7; b8; b9; b10; b11; b12; b13; b14; b15])
    with [b8; b9; b10; b11; b12; b13; b14; b15].
  cbv zeta.
  change (lenN [b0; b1; b2; b3; b4; b5; b6; b7] =? 8) with true.
  change (lenN [b8; b9; b10; b11; b12; b13; b14; b15] =? 8) with true.
  cbv iota. rewrite !bind_ret_l. f_equal.
  change (slice 0 4 [b0; b1; b2; b3; b4; b5; b6; b7]) with [b0; b1; b2; b3].
  change (slice 4 6 [b0; b1; b2; b3; b4; b5; b6; b7]) with [b4; b5].
  change (slice 6 8 [b0; b1; b2; b3; b4; b5; b6; b7]) with [b6; b7].
  change (slice 0 2 [b8; b9; b10; b11; b12; b13; b14; b15]) with [b8; b9].
  change (slice 2 4 [b8; b9; b10; b11; b12; b13; b14; b15]) with [b10; b11].
  change (slice 4 8 [b8; b9; b10; b11; b12; b13; b14; b15]) with [b12; b13; b14; b15].
  rewrite !le_be_val. cbn [rev app].
  pose proof (hexX_be_val [b3; b2; b1; b0]) as E1. pose proof (hexX_be_val [b5; b4]) as E2.
  pose proof (hexX_be_val [b7; b6]) as E3. pose proof (hexX_be_val [b8; b9]) as E4.
  pose proof (hexX_be_val [b10; b11]) as E5. pose proof (hexX_be_val [b12; b13; b14; b15]) as E6.
  cbn [length Nat.mul Nat.add] in E1, E2, E3, E4, E5, E6.
  rewrite E1, E2, E3, E4, E5, E6 by discriminate. cbn [guid_text flat_map]. now rewrite ?app_nil_r, <- ?app_assoc.
Qed.

Lemma parse_uuid_short g : lenN g < 16 -> parse_uuid g = raise StructError.
Proof.
  intros H. unfold parse_uuid. rewrite !lenN_slice.
  destruct (N.min (8 - 0) (lenN g - 0) =? 8) eqn:E; [|reflexivity].
  rewrite bind_ret_l. replace (N.min (16 - 8) (lenN g - 8) =? 8) with false by lia. reflexivity.
Qed.

(** Only the first sixteen bytes matter. *)
Lemma parse_uuid_take g : parse_uuid g = parse_uuid (takeN 16 g).
Proof. unfold parse_uuid. rewrite !slice_takeN_le by lia. reflexivity. Qed.

Lemma hex_table_inj i j : i < 16 -> j < 16 -> nth (N.to_nat i) hex_table 0 = nth (N.to_nat j) hex_table 0 -> i = j.
Proof.
  intros Hi Hj H.
  assert (E : forallb (fun i => forallb (fun j => implb (N.eqb (nth (N.to_nat i) hex_table 0) (nth (N.to_nat j) hex_table 0))
                                             (N.eqb i j)) (map N.of_nat (seq 0 16))) (map N.of_nat (seq 0 16)) = true)
    by reflexivity.
  assert (HI : forall k, k < 16 -> In k (map N.of_nat (seq 0 16))).
  { intros k Hk. apply in_map_iff. exists (N.to_nat k). split; [lia|]. apply in_seq. lia. }
  rewrite forallb_forall in E. specialize (E i (HI i Hi)). rewrite forallb_forall in E.
  specialize (E j (HI j Hj)). rewrite H, N.eqb_refl in E. now apply N.eqb_eq.
Qed.

Lemma hex_of_byte_inj a b : hex_of_byte a = hex_of_byte b -> a = b.
Proof.
  unfold hex_of_byte. intros [= H1 H2]. pose proof (b2n_lt a). pose proof (b2n_lt b).
  apply hex_table_inj in H1; [|apply N.div_lt_upper_bound; lia..].
  apply hex_table_inj in H2; [|apply N.mod_lt; lia..].
  apply b2n_inj. lia.
Qed.

Lemma app_inj_length {A} (a b s t : list A) : length a = length b -> a ++ s = b ++ t -> a = b /\ s = t.
Proof.
  revert b; induction a as [|x a IH]; intros [|y b] HL H; cbn in HL; try lia; [now split|].
  cbn in H. injection H as -> H. apply IH in H as [-> ->]; [now split|lia].
Qed.
Lemma app_inj_length_r {A} (a b s t : list A) : length s = length t -> a ++ s = b ++ t -> a = b /\ s = t.
Proof.
  intros HL H. apply app_inj_length; [|assumption].
  apply (f_equal (@length A)) in H. rewrite !app_length in H. lia.
Qed.
Lemma hex_of_byte_cons a b s t : hex_of_byte a ++ s = hex_of_byte b ++ t -> a = b /\ s = t.
Proof.
  intros H. apply app_inj_length in H as [H ->]; [|reflexivity].
  split; [now apply hex_of_byte_inj|reflexivity].
Qed.

Lemma guid_text_inj g1 g2 : lenN g1 = 16 -> lenN g2 = 16 -> guid_text g1 = guid_text g2 -> g1 = g2.
Proof.
  intros H1 H2 H.
  apply sixteen in H1 as (a0 & a1 & a2 & a3 & a4 & a5 & a6 & a7 & a8 & a9 & a10 & a11 & a12 & a13 & a14 & a15 & ->).
  apply sixteen in H2 as (b0 & b1 & b2 & b3 & b4 & b5 & b6 & b7 & b8 & b9 & b10 & b11 & b12 & b13 & b14 & b15 & ->).
  cbn [guid_text flat_map] in H. rewrite ?app_nil_r, <- ?app_assoc in H.
  repeat first [ apply hex_of_byte_cons in H as [? H]
               | match type of H with s2t "-" ++ _ = s2t "-" ++ _ => apply app_inv_head in H end
               | apply hex_of_byte_inj in H ].
  subst. reflexivity.
Qed.

Lemma guid_text_length g : lenN g = 16 -> lenN (guid_text g) = 36.
Proof.
  intros H. apply sixteen in H as (b0 & b1 & b2 & b3 & b4 & b5 & b6 & b7 & b8 & b9 & b10 & b11 & b12 & b13 & b14 & b15 & ->).
  reflexivity.
Qed.
