(** * FILETIME and DOS time (C08, C09) *)
From Verif Require Import Lemmas PyTime Utils Spec SpecTime EncProofs.
#[local] Open Scope Z_scope.

(** ** Rounding *)

Lemma rhe_div_err a b : 0 < b -> 2 * Z.abs (b * rhe_div a b - a) <= b.
Proof.
  intros H. unfold rhe_div. cbv zeta.
  pose proof (Z.div_mod a b ltac:(lia)) as E. pose proof (Z.mod_pos_bound a b H) as B.
  set (q := a / b) in *. set (r := a mod b) in *. clearbody q r. subst a.
  destruct (2 * r <? b) eqn:E1; [lia|].
  destruct (b <? 2 * r) eqn:E2.
  - replace (b * (q + 1) - (b * q + r)) with (b - r) by ring. lia.
  - destruct (Z.even q).
    + replace (b * q - (b * q + r)) with (- r) by ring. lia.
    + replace (b * (q + 1) - (b * q + r)) with (b - r) by ring. lia.
Qed.
Lemma rhe_div_exact k b : 0 < b -> rhe_div (k * b) b = k.
Proof.
  intros H. unfold rhe_div. rewrite Z.div_mul, Z.mod_mul by lia. cbv zeta.
  replace (2 * 0 <? b) with true by lia. reflexivity.
Qed.
Lemma rhe_div_range a b k : 0 < b -> 0 <= a <= k * b -> 0 <= rhe_div a b <= k.
Proof. intros H Ha. pose proof (rhe_div_err a b H). nia. Qed.

Lemma to_double_spec a b m e :
  0 < a -> 0 < b -> to_double a b = (m, e) ->
  (e < 0 -> 2 ^ 52 * b <= a * 2 ^ (- e) /\ m = rhe_div (a * 2 ^ (- e)) b)
  /\ (0 <= e -> 2 ^ 52 * b * 2 ^ e <= a).
Proof.
  intros Ha Hb. unfold to_double. cbv zeta.
  pose proof (Z.log2_spec a Ha) as [La1 La2]. pose proof (Z.log2_spec b Hb) as [Lb1 Lb2].
  pose proof (Z.log2_nonneg a) as Na. pose proof (Z.log2_nonneg b) as Nb.
  set (la := Z.log2 a) in *. set (lb := Z.log2 b) in *. clearbody la lb.
  set (e0 := la - lb - 53).
  destruct (scaled_floor a b e0 <? 2 ^ 53) eqn:F; intros [= <- <-].
  - split; intros He.
    + split.
      * assert (P : 2 ^ 52 * b <= 2 ^ la * 2 ^ (- e0)).
        { rewrite <- Z.pow_add_r by lia. replace (la + - e0) with (52 + Z.succ lb) by (unfold e0; lia).
          rewrite Z.pow_add_r by lia. apply Z.mul_le_mono_nonneg_l; lia. }
        eapply Z.le_trans; [exact P|]. apply Z.mul_le_mono_nonneg_r; [apply Z.pow_nonneg; lia|lia].
      * unfold scaled_rhe. replace (e0 <? 0) with true by lia. reflexivity.
    + assert (P : 2 ^ 52 * 2 ^ Z.succ lb * 2 ^ e0 = 2 ^ la).
      { rewrite <- !Z.pow_add_r by lia. f_equal. unfold e0. lia. }
      assert (0 < 2 ^ e0) by (apply Z.pow_pos_nonneg; lia).
      eapply Z.le_trans; [|exact La1]. rewrite <- P.
      apply Z.mul_le_mono_nonneg_r; [lia|]. apply Z.mul_le_mono_nonneg_l; lia.
  - apply Z.ltb_ge in F. unfold scaled_floor in F. split; intros He.
    + replace (e0 <? 0) with true in F by lia. split.
      * assert (G : 2 ^ 53 * b <= a * 2 ^ (- e0)).
        { eapply Z.le_trans; [apply Z.mul_le_mono_nonneg_r; [lia|exact F]|]. rewrite Z.mul_comm. apply Z.mul_div_le. lia. }
        replace (- e0) with (Z.succ (- (e0 + 1))) in G by lia. rewrite Z.pow_succ_r in G by lia.
        change (2 ^ 53) with (2 * 2 ^ 52) in G. nia.
      * unfold scaled_rhe. replace (e0 + 1 <? 0) with true by lia. reflexivity.
    + destruct (e0 <? 0) eqn:E0.
      * assert (e0 = -1) by lia. rewrite H in *. change (2 ^ (- -1)) with 2 in F. change (2 ^ (-1 + 1)) with 1.
        assert (G : 2 ^ 53 * b <= a * 2).
        { eapply Z.le_trans; [apply Z.mul_le_mono_nonneg_r; [lia|exact F]|]. rewrite Z.mul_comm. apply Z.mul_div_le. lia. }
        change (2 ^ 53) with (2 * 2 ^ 52) in G. lia.
      * rewrite Z.pow_add_r by lia. change (2 ^ 1) with 2.
        assert (0 < 2 ^ e0) by (apply Z.pow_pos_nonneg; lia).
        assert (G : 2 ^ 53 * (b * 2 ^ e0) <= a).
        { eapply Z.le_trans; [apply Z.mul_le_mono_nonneg_r; [nia|exact F]|]. rewrite Z.mul_comm. apply Z.mul_div_le. nia. }
        change (2 ^ 53) with (2 * 2 ^ 52) in G. nia.
Qed.

(** Seconds and microseconds of the double nearest to [a / 10^7]. *)
Definition tick : Z := 10000000.

Lemma pow2_gt k n : 0 <= k -> 0 <= n -> 2 ^ k < 2 ^ n -> k < n.
Proof. intros Hk Hn H. apply Z.pow_lt_mono_r_iff in H; lia. Qed.

(** The microseconds [f] of a fraction [r / D] of a second. *)
Definition frac_us (r D : Z) : Z :=
  let (m2, e2) := true_div (r * 1000000) D in
  if 0 <=? e2 then m2 * 2 ^ e2 else rhe_div m2 (2 ^ (- e2)).
Lemma frac_us_spec r D :
  0 <= r < D -> 0 <= frac_us r D <= 1000000
  /\ 2 * 2 ^ 33 * Z.abs (frac_us r D * D - r * 1000000) <= D * (2 ^ 33 + 1)
  /\ (r = 0 -> frac_us r D = 0).
Proof.
  intros Hr. unfold frac_us, true_div. destruct (r * 1000000 =? 0) eqn:E0.
  - assert (r = 0) by lia. subst r. cbn. lia.
  - destruct (to_double (r * 1000000) D) as [m2 e2] eqn:ED.
    apply to_double_spec in ED as [EN EP]; [|lia|lia].
    assert (Hneg : e2 < 0).
    { destruct (Z.lt_ge_cases e2 0) as [|HG]; [assumption|]. specialize (EP HG).
      assert (0 < 2 ^ e2) by (apply Z.pow_pos_nonneg; lia). change (2 ^ 52) with 4503599627370496 in EP. nia. }
    destruct (EN Hneg) as [HB HM]. clear EN EP.
    replace (0 <=? e2) with false by lia.
    assert (H33 : 33 <= - e2).
    { assert (2 ^ 52 < 2 ^ (20 + - e2)); [|apply pow2_gt in H; lia].
      rewrite Z.pow_add_r by lia. assert (0 < 2 ^ (- e2)) by (apply Z.pow_pos_nonneg; lia).
      change (2 ^ 20) with 1048576. change (2 ^ 52) with 4503599627370496 in *. nia. }
    assert (HD2 : exists k, 0 < k /\ 2 ^ (- e2) = 2 ^ 33 * k).
    { exists (2 ^ (- e2 - 33)). split; [apply Z.pow_pos_nonneg; lia|]. rewrite <- Z.pow_add_r by lia. f_equal. lia. }
    assert (P2 : 0 < 2 ^ (- e2)) by (apply Z.pow_pos_nonneg; lia).
    pose proof (rhe_div_err (r * 1000000 * 2 ^ (- e2)) D ltac:(lia)) as R1. rewrite <- HM in R1.
    pose proof (rhe_div_err m2 (2 ^ (- e2)) P2) as R2.
    assert (HM2 : 0 <= m2 <= 1000000 * 2 ^ (- e2)).
    { rewrite HM. apply rhe_div_range; [lia|]. nia. }
    assert (HR : 0 <= rhe_div m2 (2 ^ (- e2)) <= 1000000) by (apply rhe_div_range; lia).
    split; [assumption|]. split; [|lia].
    destruct HD2 as (k & Hk & HD2).
    set (us := rhe_div m2 (2 ^ (- e2))) in *. clearbody us. set (D2 := 2 ^ (- e2)) in *. clearbody D2.
    clear HM HB HM2 HR. set (c := 2 ^ 33) in *. assert (0 < c) by reflexivity. clearbody c.
    (* 2 D2 |us D - r 10^6| <= D (D2 + 1) *)
    assert (T : 2 * D2 * Z.abs (us * D - r * 1000000) <= D * D2 + D).
    { replace (2 * D2 * Z.abs (us * D - r * 1000000)) with (2 * Z.abs (D * (D2 * us - m2) + (D * m2 - r * 1000000 * D2))).
      - pose proof (Z.abs_triangle (D * (D2 * us - m2)) (D * m2 - r * 1000000 * D2)) as AT.
        rewrite Z.abs_mul, (Z.abs_eq D) in AT by lia. nia.
      - replace (D * (D2 * us - m2) + (D * m2 - r * 1000000 * D2)) with (D2 * (us * D - r * 1000000)) by ring.
        rewrite Z.abs_mul, (Z.abs_eq D2) by lia. ring. }
    subst D2. set (X := Z.abs (us * D - r * 1000000)) in *. clearbody X. nia.
Qed.

Lemma double_to_sec_us_frac m e : e < 0 -> double_to_sec_us (m, e) = (m / 2 ^ (- e), frac_us (m mod 2 ^ (- e)) (2 ^ (- e))).
Proof.
  intros H. unfold double_to_sec_us, frac_us. replace (0 <=? e) with false by lia. cbv zeta.
  destruct (true_div _ _). reflexivity.
Qed.

(** [U]: the microseconds reported for [a] units of 100 ns, [a >= 0]. *)
Lemma seconds_spec a lim :
  0 <= a -> 0 <= lim <= 40 -> a < 2 ^ lim * tick ->
  exists i f, double_to_sec_us (true_div a tick) = (i, f) /\ 0 <= i /\ 0 <= f <= 1000000
    /\ 2 ^ (52 - lim) * Z.abs (10 * (i * 1000000 + f) - a) <= 6 * 2 ^ (52 - lim) + 2500000
    /\ (a mod tick = 0 -> i = a / tick /\ f = 0).
Proof.
  intros Ha Hl Hlim. unfold true_div. destruct (a =? 0) eqn:E0.
  { assert (a = 0) by lia. subst a. exists 0, 0. split; [reflexivity|].
    assert (0 < 2 ^ (52 - lim)) by (apply Z.pow_pos_nonneg; lia). cbn [Z.abs]. repeat split; try lia. }
  destruct (to_double a tick) as [m e] eqn:ED.
  apply to_double_spec in ED as [EN EP]; [|lia|unfold tick; lia].
  assert (PL : 0 < 2 ^ lim) by (apply Z.pow_pos_nonneg; lia).
  assert (HLim : 2 ^ lim * 2 ^ (52 - lim) = 2 ^ 52) by (rewrite <- Z.pow_add_r by lia; f_equal; lia).
  assert (PL2 : 0 < 2 ^ (52 - lim)) by (apply Z.pow_pos_nonneg; lia).
  assert (Hneg : e < 0).
  { destruct (Z.lt_ge_cases e 0) as [|HG]; [assumption|]. specialize (EP HG).
    assert (0 < 2 ^ e) by (apply Z.pow_pos_nonneg; lia). unfold tick in *. nia. }
  destruct (EN Hneg) as [HB HM]. clear EN EP.
  assert (He : 53 - lim <= - e).
  { assert (2 ^ 52 < 2 ^ (lim + - e)); [|apply pow2_gt in H; lia].
    rewrite Z.pow_add_r by lia. assert (0 < 2 ^ (- e)) by (apply Z.pow_pos_nonneg; lia). unfold tick in *. nia. }
  assert (HD : exists k, 0 < k /\ 2 ^ (- e) = 2 * 2 ^ (52 - lim) * k).
  { exists (2 ^ (- e - (53 - lim))). split; [apply Z.pow_pos_nonneg; lia|].
    replace (2 * 2 ^ (52 - lim)) with (2 ^ (53 - lim)) by (rewrite <- Z.pow_succ_r by lia; f_equal; lia).
    rewrite <- Z.pow_add_r by lia. f_equal. lia. }
  rewrite double_to_sec_us_frac by assumption.
  assert (PD : 0 < 2 ^ (- e)) by (apply Z.pow_pos_nonneg; lia).
  pose proof (Z.mod_pos_bound m (2 ^ (- e)) PD) as HR.
  pose proof (frac_us_spec _ _ HR) as (F1 & F2 & F3).
  pose proof (Z.div_mod m (2 ^ (- e)) ltac:(lia)) as DM.
  pose proof (rhe_div_err (a * 2 ^ (- e)) tick ltac:(unfold tick; lia)) as R1. rewrite <- HM in R1.
  assert (Hm0 : 0 <= m) by nia.
  assert (Hi : 0 <= m / 2 ^ (- e)) by (apply Z.div_pos; lia).
  exists (m / 2 ^ (- e)), (frac_us (m mod 2 ^ (- e)) (2 ^ (- e))).
  split; [reflexivity|]. split; [assumption|]. split; [assumption|]. split.
  - set (f := frac_us _ _) in *. clearbody f. set (i := m / 2 ^ (- e)) in *. clearbody i.
    set (r := m mod 2 ^ (- e)) in *. clearbody r. set (D := 2 ^ (- e)) in *. clearbody D.
    clear F3 HB HM HLim PL Hlim He Hneg E0.
    set (L := 2 ^ (52 - lim)) in *. clearbody L.
    destruct HD as (k & Hk & HD). change (2 ^ 33) with 8589934592 in F2.
    (* D |10 U - a| <= 5 D + small D + 5 10^6 *)
    assert (T : 2 * 8589934592 * (D * Z.abs (10 * (i * 1000000 + f) - a))
                <= 10 * D * (8589934592 + 1) + 2 * 8589934592 * 5000000).
    { assert (E1 : tick * (f * D - r * 1000000) + 1000000 * (tick * m - a * D)
                   = 1000000 * (D * (10 * (i * 1000000 + f) - a))).
      { subst m. unfold tick. ring. }
      pose proof (Z.abs_triangle (tick * (f * D - r * 1000000)) (1000000 * (tick * m - a * D))) as AT.
      rewrite E1 in AT. rewrite !Z.abs_mul in AT. rewrite (Z.abs_eq tick), (Z.abs_eq 1000000), (Z.abs_eq D) in AT
        by (unfold tick; lia).
      set (X := Z.abs (10 * (i * 1000000 + f) - a)) in *. set (Y := Z.abs (f * D - r * 1000000)) in *.
      set (W := Z.abs (tick * m - a * D)) in *. clearbody X Y W. unfold tick in *. nia. }
    set (X := Z.abs (10 * (i * 1000000 + f) - a)) in *. clearbody X. clear - T HD Hk PL2.
    assert (X0 : D * (2 * 8589934592 * X - 10 * 8589934593) <= 2 * 8589934592 * 5000000) by lia.
    subst D. remember (2 * 8589934592 * X - 10 * 8589934593) as V eqn:EV.
    assert (X1 : L * V <= 8589934592 * 5000000).
    { destruct (Z.le_gt_cases V 0) as [HN|HN]; [nia|].
      assert (L * V * 1 <= L * V * k) by (apply Z.mul_le_mono_nonneg_l; nia). lia. }
    subst V. nia.
  - intros Hmod. assert (Ea : a = a / tick * tick).
    { pose proof (Z.div_mod a tick ltac:(unfold tick; lia)). lia. }
    assert (Em : m = a / tick * 2 ^ (- e)).
    { rewrite HM. rewrite Ea at 1. replace (a / tick * tick * 2 ^ (- e)) with (a / tick * 2 ^ (- e) * tick) by ring.
      apply rhe_div_exact. unfold tick. lia. }
    rewrite Em. rewrite Z.div_mul, Z.mod_mul by lia. split; [reflexivity|].
    rewrite Em, Z.mod_mul in F3 by lia. now apply F3.
Qed.

(** Signed: [R] is the rounded number of microseconds since 1970. *)
Lemma timestamp_spec n lim :
  0 <= lim <= 40 -> Z.abs n < 2 ^ lim * tick ->
  exists s u, timestamp_to_sec_us n tick = (s, u) /\ 0 <= u <= 999999
    /\ 2 ^ (52 - lim) * Z.abs (10 * (s * 1000000 + u) - n) <= 6 * 2 ^ (52 - lim) + 2500000
    /\ (n mod tick = 0 -> s = n / tick /\ u = 0).
Proof.
  intros Hl Hn. unfold timestamp_to_sec_us.
  destruct (seconds_spec (Z.abs n) lim (Z.abs_nonneg n) Hl Hn) as (i & f & -> & Hi & Hf & HE & HX).
  destruct (0 <=? n) eqn:E0.
  - rewrite (Z.abs_eq n) in * by lia. destruct (1000000 <=? f) eqn:E1.
    + exists (i + 1), (f - 1000000). split; [reflexivity|]. split; [lia|]. split.
      * replace ((i + 1) * 1000000 + (f - 1000000)) with (i * 1000000 + f) by ring. assumption.
      * intros H. apply HX in H. lia.
    + exists i, f. split; [reflexivity|]. split; [lia|]. split; assumption.
  - rewrite (Z.abs_neq n) in * by lia.
    replace (10 * (i * 1000000 + f) - - n) with (- (10 * (- i * 1000000 + - f) - n)) in HE by ring.
    rewrite Z.abs_opp in HE. destruct (- f <? 0) eqn:E1.
    + exists (- i - 1), (- f + 1000000). split; [reflexivity|]. split; [lia|]. split.
      * replace ((- i - 1) * 1000000 + (- f + 1000000)) with (- i * 1000000 + - f) by ring. assumption.
      * intros H. assert (Hm : - n mod tick = 0) by (rewrite Z.mod_opp_l_z; unfold tick in *; lia). apply HX in Hm. lia.
    + exists (- i), (- f). split; [reflexivity|]. split; [lia|]. split; [assumption|].
      intros H. assert (Hm : - n mod tick = 0) by (rewrite Z.mod_opp_l_z; unfold tick in *; lia).
      apply HX in Hm as [Hq Hz]. rewrite Z.div_opp_l_z in Hq by (unfold tick in *; lia). lia.
Qed.

(** ** The calendar *)

Lemma leap_same y : is_leap y = leap_year y.
Proof. reflexivity. Qed.
Lemma month_range m : 1 <= m <= 12 ->
  m = 1 \/ m = 2 \/ m = 3 \/ m = 4 \/ m = 5 \/ m = 6 \/ m = 7 \/ m = 8 \/ m = 9 \/ m = 10 \/ m = 11 \/ m = 12.
Proof. lia. Qed.

Ltac month_cbn :=
  repeat match goal with
  | |- context [nth (Z.to_nat ?n) ?l 0] => let v := eval vm_compute in (nth (Z.to_nat n) l 0) in change (nth (Z.to_nat n) l 0) with v
  | H : context [nth (Z.to_nat ?n) ?l 0] |- _ => let v := eval vm_compute in (nth (Z.to_nat n) l 0) in change (nth (Z.to_nat n) l 0) with v in H
  end;
  cbn [Z.ltb Z.compare Pos.compare Pos.compare_cont andb Z.eqb Pos.eqb orb] in *.

Lemma days_in_month_same y m : 1 <= m <= 12 -> days_in_month y m = month_length y m.
Proof.
  intros Hm. unfold days_in_month, month_length. rewrite leap_same.
  destruct (month_range m Hm) as [->|[->|[->|[->|[->|[->|[->|[->|[->|[->|[->| ->]]]]]]]]]]]; reflexivity.
Qed.
Lemma month_next y k : 1 <= k <= 11 -> days_before_month y k + month_length y k = days_before_month y (k + 1).
Proof.
  intros Hk. unfold days_before_month, month_length.
  destruct (month_range k ltac:(lia)) as [->|[->|[->|[->|[->|[->|[->|[->|[->|[->|[->| ->]]]]]]]]]]];
  destruct (leap_year y); try reflexivity; lia.
Qed.

Lemma month_day_spec y f : forall k r m d,
  1 <= k -> k + Z.of_nat f = 12 ->
  0 <= r -> r + days_before_month y k < 365 + (if leap_year y then 1 else 0) -> month_day f y k r = (m, d) ->
  valid_date y m d /\ days_before_month y m + (d - 1) = r + days_before_month y k.
Proof.
  induction f as [|f IH]; intros k r m d Hk Hf Hr HR H; cbn [month_day] in H.
  - injection H as <- <-. assert (k = 12) as -> by lia. unfold valid_date, days_before_month, month_length in *.
    month_cbn.
    destruct (leap_year y); lia.
  - rewrite days_in_month_same in H by lia. destruct (r <? month_length y k) eqn:E.
    + injection H as <- <-. unfold valid_date. lia.
    + apply IH in H; [|lia|lia|lia|rewrite <- month_next by lia; lia].
      rewrite <- month_next in H by lia. destruct H as [V H]. split; [assumption|lia].
Qed.

Lemma year_parts a b c d :
  0 <= b <= 3 -> 0 <= c <= 24 -> 0 <= d <= 3 ->
  days_before_year (a * 400 + b * 100 + c * 4 + d + 1) = 146097 * a + 36524 * b + 1461 * c + 365 * d.
Proof.
  intros Hb Hc Hd. unfold days_before_year.
  replace (a * 400 + b * 100 + c * 4 + d + 1 - 1) with (a * 400 + b * 100 + c * 4 + d) by lia.
  replace ((a * 400 + b * 100 + c * 4 + d) / 4) with (a * 100 + b * 25 + c) by lia.
  replace ((a * 400 + b * 100 + c * 4 + d) / 100) with (a * 4 + b) by lia.
  replace ((a * 400 + b * 100 + c * 4 + d) / 400) with a by lia. lia.
Qed.

Lemma civil_spec n y m d :
  civil_of_days n = (y, m, d) -> valid_date y m d /\ day_number y m d = n.
Proof.
  unfold civil_of_days. cbv zeta.
  pose proof (Z.div_mod n 146097 ltac:(lia)) as E1. pose proof (Z.mod_pos_bound n 146097 ltac:(lia)) as B1.
  set (a := n / 146097) in *. set (ra := n mod 146097) in *. clearbody a ra.
  pose proof (Z.div_mod ra 36524 ltac:(lia)) as E2. pose proof (Z.mod_pos_bound ra 36524 ltac:(lia)) as B2.
  set (b := ra / 36524) in *. set (rb := ra mod 36524) in *. clearbody b rb.
  pose proof (Z.div_mod rb 1461 ltac:(lia)) as E3. pose proof (Z.mod_pos_bound rb 1461 ltac:(lia)) as B3.
  set (c := rb / 1461) in *. set (rc := rb mod 1461) in *. clearbody c rc.
  pose proof (Z.div_mod rc 365 ltac:(lia)) as E4. pose proof (Z.mod_pos_bound rc 365 ltac:(lia)) as B4.
  set (d1 := rc / 365) in *. set (r := rc mod 365) in *. clearbody d1 r.
  assert (0 <= b <= 4) by lia. assert (0 <= c <= 24) by lia. assert (0 <= d1 <= 4) by lia.
  destruct ((d1 =? 4) || (b =? 4)) eqn:E.
  - intros [= <- <- <-].
    assert (V : valid_date (a * 400 + b * 100 + c * 4 + d1 + 1 - 1) 12 31) by (unfold valid_date, month_length; cbn; lia).
    split; [exact V|]. unfold day_number.
    assert (L : leap_year (a * 400 + b * 100 + c * 4 + d1 + 1 - 1) = true).
    { unfold leap_year. destruct (b =? 4) eqn:Eb.
      - assert (b = 4 /\ c = 0 /\ d1 = 0) as (-> & -> & ->) by lia.
        replace (a * 400 + 4 * 100 + 0 * 4 + 0 + 1 - 1) with ((a + 1) * 400) by lia. rewrite Z.mod_mul by lia.
        replace ((a + 1) * 400 mod 4) with 0 by lia. rewrite orb_true_r. reflexivity.
      - assert (d1 = 4) as -> by lia. assert (c <= 23) by lia.
        replace ((a * 400 + b * 100 + c * 4 + 4 + 1 - 1) mod 4) with 0 by lia.
        replace ((a * 400 + b * 100 + c * 4 + 4 + 1 - 1) mod 100) with (c * 4 + 4) by lia.
        replace (c * 4 + 4 =? 0) with false by lia. reflexivity. }
    unfold days_before_month. rewrite L. month_cbn.
    destruct (b =? 4) eqn:Eb.
    + assert (b = 4 /\ c = 0 /\ d1 = 0) as (-> & -> & ->) by lia.
      replace (a * 400 + 4 * 100 + 0 * 4 + 0 + 1 - 1) with (a * 400 + 3 * 100 + 24 * 4 + 3 + 1) by lia.
      rewrite year_parts by lia. lia.
    + assert (d1 = 4) as -> by lia.
      replace (a * 400 + b * 100 + c * 4 + 4 + 1 - 1) with (a * 400 + b * 100 + c * 4 + 3 + 1) by lia.
      rewrite year_parts by lia. lia.
  - destruct (month_day 11 _ 1 r) as [m' d'] eqn:EM. intros [= <- <- <-].
    apply month_day_spec in EM as [V EM]; [|lia|reflexivity|lia|change (days_before_month _ 1) with 0; destruct (leap_year _); lia].
    change (r + days_before_month _ 1) with (r + 0) in EM.
    split; [exact V|]. unfold day_number. rewrite year_parts by lia. lia.
Qed.

Lemma year_step y : days_before_year (y + 1) = days_before_year y + 365 + (if leap_year y then 1 else 0).
Proof.
  unfold days_before_year, leap_year. replace (y + 1 - 1) with y by lia.
  destruct (y mod 4 =? 0) eqn:E4, (y mod 100 =? 0) eqn:E100, (y mod 400 =? 0) eqn:E400; cbn [andb orb negb]; lia.
Qed.
Lemma year_mono y y' : y <= y' -> days_before_year y <= days_before_year y'.
Proof. intros H. unfold days_before_year. lia. Qed.

Lemma month_step y m m' : 1 <= m -> m < m' -> m' <= 12 ->
  days_before_month y m + month_length y m <= days_before_month y m'.
Proof.
  intros H1 H2 H3.
  pose proof (month_next y) as E.
  assert (G : forall j : nat, m + 1 + Z.of_nat j <= 12 -> days_before_month y (m + 1) <= days_before_month y (m + 1 + Z.of_nat j)).
  { induction j as [|j IH]; intros Hj; [rewrite Z.add_0_r; lia|].
    eapply Z.le_trans; [apply IH; lia|]. replace (m + 1 + Z.of_nat (S j)) with (m + 1 + Z.of_nat j + 1) by lia.
    rewrite <- (E (m + 1 + Z.of_nat j)) by lia. unfold month_length. repeat match goal with |- context [if ?b then _ else _] => destruct b end; lia. }
  rewrite E by lia. replace m' with (m + 1 + Z.of_nat (Z.to_nat (m' - (m + 1)))) by lia. apply G. lia.
Qed.
Lemma day_of_year y m d : valid_date y m d ->
  0 <= days_before_month y m + (d - 1) < 365 + (if leap_year y then 1 else 0).
Proof.
  intros [Hm Hd]. unfold days_before_month, month_length in *.
  destruct (month_range m Hm) as [->|[->|[->|[->|[->|[->|[->|[->|[->|[->|[->| ->]]]]]]]]]]];
    month_cbn;
    destruct (leap_year y); lia.
Qed.

Lemma day_number_inj y m d y' m' d' :
  valid_date y m d -> valid_date y' m' d' -> day_number y m d = day_number y' m' d' -> y = y' /\ m = m' /\ d = d'.
Proof.
  intros V V' E. unfold day_number in E.
  pose proof (day_of_year _ _ _ V) as D. pose proof (day_of_year _ _ _ V') as D'.
  assert (y = y') as <-.
  { destruct (Z.lt_trichotomy y y') as [L|[->|L]]; [exfalso| reflexivity |exfalso].
    - pose proof (year_mono (y + 1) y' ltac:(lia)). rewrite year_step in H. lia.
    - pose proof (year_mono (y' + 1) y ltac:(lia)). rewrite year_step in H. lia. }
  destruct V as [Vm Vd], V' as [Vm' Vd'].
  assert (m = m') as <-.
  { destruct (Z.lt_trichotomy m m') as [L|[->|L]]; [exfalso| reflexivity |exfalso].
    - pose proof (month_step y m m' ltac:(lia) L ltac:(lia)). lia.
    - pose proof (month_step y m' m ltac:(lia) L ltac:(lia)). lia. }
  lia.
Qed.

Lemma year_range y m d : valid_date y m d -> (1 <= y <= 9999 <-> 0 <= day_number y m d < day_number 10000 1 1).
Proof.
  intros V. pose proof (day_of_year _ _ _ V) as D. unfold day_number at 1 2.
  change (day_number 10000 1 1) with 3652059.
  assert (days_before_year 1 = 0) by reflexivity. assert (days_before_year 10000 = 3652059) by reflexivity.
  split; intros R.
  - pose proof (year_mono 1 y ltac:(lia)). pose proof (year_mono (y + 1) 10000 ltac:(lia)). rewrite year_step in *. lia.
  - split.
    + destruct (Z.le_gt_cases 1 y); [assumption|]. pose proof (year_mono (y + 1) 1 ltac:(lia)). rewrite year_step in *. lia.
    + destruct (Z.le_gt_cases y 9999); [assumption|]. pose proof (year_mono 10000 y ltac:(lia)). lia.
Qed.

Lemma microseconds_inj t t' : valid_datetime t -> valid_datetime t' -> microseconds t = microseconds t' -> t = t'.
Proof.
  destruct t as [y m d h mi s us], t' as [y' m' d' h' mi' s' us']. unfold valid_datetime, microseconds. cbn.
  intros (Y & V & H & MI & S & U) (Y' & V' & H' & MI' & S' & U') E.
  assert (us = us' /\ s = s' /\ mi = mi' /\ h = h' /\ day_number y m d = day_number y' m' d') as (-> & -> & -> & -> & ED) by lia.
  apply day_number_inj in ED as (-> & -> & ->); auto.
Qed.
Lemma microseconds_range t : valid_datetime t -> 0 <= microseconds t < end_of_time.
Proof.
  destruct t as [y m d h mi s us]. unfold valid_datetime, microseconds, end_of_time. cbn [dt_year dt_month dt_day dt_hour dt_min dt_sec dt_us].
  intros (Y & V & H & MI & S & U). pose proof (proj1 (year_range _ _ _ V) Y). lia.
Qed.

(** [fromtimestamp] from the rounded microseconds. *)
Lemma fromtimestamp_spec n den s u :
  timestamp_to_sec_us n den = (s, u) -> 0 <= u <= 999999 ->
  let R := day_number 1970 1 1 * 86400 * 1000000 + (s * 1000000 + u) in
  (0 <= R < end_of_time -> exists t, fromtimestamp_utc n den = Some t /\ valid_datetime t /\ microseconds t = R)
  /\ (~ 0 <= R < end_of_time -> fromtimestamp_utc n den = None).
Proof.
  intros E Hu R. unfold fromtimestamp_utc. rewrite E. cbv zeta.
  destruct (civil_of_days (s / 86400 + epoch_days)) as [[y m] d] eqn:EC.
  apply civil_spec in EC as [V N]. pose proof (year_range _ _ _ V) as YR.
  unfold make_datetime. destruct V as [Vm Vd]. rewrite days_in_month_same by lia.
  assert (D70 : day_number 1970 1 1 = epoch_days) by reflexivity.
  assert (RE : R = (day_number y m d * 86400 + s mod 86400 / 3600 * 3600 + s mod 86400 / 60 mod 60 * 60 + s mod 86400 mod 60) * 1000000 + u).
  { unfold R. rewrite N, D70. lia. }
  assert (RY : 0 <= R < end_of_time <-> 1 <= y <= 9999).
  { rewrite YR. unfold end_of_time. rewrite RE. lia. }
  replace ((1 <=? y) && (y <=? 9999) && (1 <=? m) && (m <=? 12) && (1 <=? d) && (d <=? month_length y m)
     && (0 <=? s mod 86400 / 3600) && (s mod 86400 / 3600 <=? 23) && (0 <=? s mod 86400 / 60 mod 60)
     && (s mod 86400 / 60 mod 60 <=? 59) && (0 <=? s mod 86400 mod 60) && (s mod 86400 mod 60 <=? 59)
     && (0 <=? u) && (u <=? 999999)) with ((1 <=? y) && (y <=? 9999)) by lia.
  split; intros H.
  - apply RY in H as HY. replace ((1 <=? y) && (y <=? 9999)) with true by lia.
    eexists. split; [reflexivity|]. unfold valid_datetime, microseconds, valid_date.
    cbn [dt_year dt_month dt_day dt_hour dt_min dt_sec dt_us]. split; [lia|]. now rewrite RE.
  - replace ((1 <=? y) && (y <=? 9999)) with false by lia. reflexivity.
Qed.

(** ** FILETIME *)

(** [R] microseconds after 0001-01-01 are reported exactly if they are a year 1..9999, and
    otherwise as missing, with a warning about the bytes. *)
Definition reports_time (w : warning) (R : Z) (m : M (option datetime)) : Prop :=
  (0 <= R < end_of_time -> exists t, m = ret (Some t) /\ valid_datetime t /\ microseconds t = R)
  /\ (~ 0 <= R < end_of_time -> m = ([w], Ok None)).

Lemma filetime_zero : parse_filetime (enci64 0) = ret None.
Proof. reflexivity. Qed.

Lemma filetime_rounds t lim :
  fits_i64 t -> t <> 0 -> 0 <= lim <= 40 -> Z.abs (since_1970 t) < 2 ^ lim * tick ->
  exists R, reports_time (WFiletime (enci64 t)) R (parse_filetime (enci64 t))
    /\ 2 ^ (52 - lim) * Z.abs (10 * R - filetime_instant t) <= 6 * 2 ^ (52 - lim) + 2500000
    /\ (t mod 10000000 = 0 -> 10 * R = filetime_instant t).
Proof.
  intros Hf H0 Hl Hn. unfold parse_filetime. rewrite unpack_enci64 by assumption. rewrite bind_ret_l.
  replace (t =? 0) with false by lia.
  assert (E70 : since_1970 t = t - epoch_as_filetime) by (unfold since_1970, filetime_instant, epoch_as_filetime; change (day_number 1601 1 1) with 584388; change (day_number 1970 1 1) with 719162; lia).
  rewrite <- E70. change hundreds_of_nanoseconds with tick.
  destruct (timestamp_spec (since_1970 t) lim Hl Hn) as (s & u & ES & Hu & HE & HX).
  exists (day_number 1970 1 1 * 86400 * 1000000 + (s * 1000000 + u)).
  pose proof (fromtimestamp_spec _ _ _ _ ES Hu) as [F1 F2]. cbv zeta in F1, F2. split; [|split].
  - split; intros HR.
    + destruct (F1 HR) as (dt & -> & V & MR). exists dt. auto.
    + rewrite (F2 HR). reflexivity.
  - replace (10 * _ - filetime_instant t) with (10 * (s * 1000000 + u) - since_1970 t); [assumption|].
    unfold since_1970. lia.
  - intros Hm. destruct HX as [-> ->].
    { unfold since_1970, filetime_instant, tick. change (day_number 1601 1 1) with 584388. change (day_number 1970 1 1) with 719162. lia. }
    unfold since_1970, filetime_instant, tick. change (day_number 1601 1 1) with 584388. change (day_number 1970 1 1) with 719162. lia.
Qed.

Lemma since_1970_range t : fits_i64 t -> Z.abs (since_1970 t) < 2 ^ 40 * tick.
Proof.
  unfold fits_i64, since_1970, filetime_instant, tick. change (day_number 1601 1 1) with 584388.
  change (day_number 1970 1 1) with 719162. lia.
Qed.

Lemma filetime_near_1970 t :
  fits_i64 t -> t <> 0 -> Z.abs (since_1970 t) < 2 ^ 32 * 10000000 ->
  exists R, reports_time (WFiletime (enci64 t)) R (parse_filetime (enci64 t))
    /\ Z.abs (10 * R - filetime_instant t) < 10
    /\ (t mod 10 = 0 -> 10 * R = filetime_instant t).
Proof.
  intros Hf H0 Hn. destruct (filetime_rounds t 32 Hf H0 ltac:(lia) Hn) as (R & HR & HE & _).
  exists R. split; [assumption|]. change (2 ^ (52 - 32)) with 1048576 in HE.
  split; [lia|]. intros Hm. unfold filetime_instant in *. change (day_number 1601 1 1) with 584388 in *. lia.
Qed.
Lemma filetime_everywhere t :
  fits_i64 t -> t <> 0 ->
  exists R, reports_time (WFiletime (enci64 t)) R (parse_filetime (enci64 t))
    /\ (0 <= R < end_of_time \/ 0 <= filetime_instant t < 10 * end_of_time -> Z.abs (10 * R - filetime_instant t) <= 170).
Proof.
  intros Hf H0. destruct (filetime_rounds t 40 Hf H0 ltac:(lia) (since_1970_range t Hf)) as (R & HR & HE & _).
  destruct (Z.lt_ge_cases (Z.abs (since_1970 t)) (2 ^ 38 * tick)) as [HL|HG].
  - destruct (filetime_rounds t 38 Hf H0 ltac:(lia) HL) as (R' & HR' & HE' & _).
    exists R'. split; [assumption|]. intros _. change (2 ^ (52 - 38)) with 16384 in HE'. lia.
  - exists R. split; [assumption|]. change (2 ^ (52 - 40)) with 4096 in HE.
    intros HI. exfalso. unfold end_of_time in HI. change (day_number 10000 1 1) with 3652059 in HI.
    unfold since_1970, tick in HG. change (day_number 1970 1 1) with 719162 in HG. lia.
Qed.

(** Two times with the same microseconds are the same time. *)
Lemma reports_time_unique w R m t :
  reports_time w R m -> valid_datetime t -> microseconds t = R -> m = ret (Some t).
Proof.
  intros [H _] V E. pose proof (microseconds_range t V) as B. destruct (H ltac:(lia)) as (t' & -> & V' & E').
  rewrite (microseconds_inj t t'); [reflexivity|assumption|assumption|lia].
Qed.

Lemma filetime_of_fits t : valid_datetime t -> fits_i64 (filetime_of t).
Proof.
  intros V. pose proof (microseconds_range t V) as B. unfold end_of_time in B. change (day_number 10000 1 1) with 3652059 in B.
  unfold fits_i64, filetime_of. change (day_number 1601 1 1) with 584388. lia.
Qed.
Lemma filetime_round_trip t :
  valid_datetime t -> filetime_of t <> 0 ->
  dt_us t = 0 \/ Z.abs (since_1970 (filetime_of t)) < 2 ^ 32 * 10000000 ->
  parse_filetime (enci64 (filetime_of t)) = ret (Some t).
Proof.
  intros V H0 H. pose proof (filetime_of_fits t V) as F.
  assert (EI : filetime_instant (filetime_of t) = 10 * microseconds t) by (unfold filetime_instant, filetime_of; lia).
  destruct H as [H|H].
  - destruct (filetime_rounds _ 40 F H0 ltac:(lia) (since_1970_range _ F)) as (R & HR & _ & HX).
    eapply reports_time_unique; [exact HR|assumption|]. rewrite EI in HX.
    enough (10 * R = 10 * microseconds t) by lia. apply HX. unfold filetime_of, microseconds.
    change (day_number 1601 1 1) with 584388. rewrite H. lia.
  - destruct (filetime_near_1970 _ F H0 H) as (R & HR & _ & HX).
    eapply reports_time_unique; [exact HR|assumption|]. rewrite EI in HX.
    enough (10 * R = 10 * microseconds t) by lia. apply HX. unfold filetime_of.
    change (day_number 1601 1 1) with 584388. lia.
Qed.
(** Times outside the years 1..9999 (by more than the rounding) are reported missing. *)
Lemma filetime_out_of_range t :
  fits_i64 t -> t <> 0 -> filetime_instant t < -170 \/ 10 * end_of_time + 170 <= filetime_instant t ->
  parse_filetime (enci64 t) = ([WFiletime (enci64 t)], Ok None).
Proof.
  intros Hf H0 H. destruct (filetime_everywhere t Hf H0) as (R & [_ HR] & HE). apply HR. intros B.
  specialize (HE (or_introl B)). lia.
Qed.
Lemma filetime_in_range t :
  fits_i64 t -> t <> 0 -> 170 <= filetime_instant t < 10 * end_of_time - 170 ->
  exists dt, parse_filetime (enci64 t) = ret (Some dt) /\ valid_datetime dt
    /\ Z.abs (10 * microseconds dt - filetime_instant t) <= 170.
Proof.
  intros Hf H0 H. destruct (filetime_everywhere t Hf H0) as (R & [HR _] & HE).
  assert (B : 0 <= R < end_of_time) by lia. destruct (HR B) as (dt & E & V & M).
  exists dt. rewrite M. split; [exact E|]. split; [exact V|]. apply HE. left. exact B.
Qed.

(** ** FAT date and time *)

Lemma dos_bits n : (n < 2 ^ 32)%N ->
  N.shiftr (N.land n 0x0000FE00) 9 = ((n / 512) mod 128)%N
  /\ N.shiftr (N.land n 0x000001E0) 5 = ((n / 32) mod 16)%N
  /\ N.shiftr (N.land n 0x0000001F) 0 = (n mod 32)%N
  /\ N.shiftr (N.land n 0xF8000000) 27 = (n / 134217728)%N
  /\ N.shiftr (N.land n 0x07E00000) 21 = ((n / 2097152) mod 64)%N
  /\ N.shiftr (N.land n 0x001F0000) 16 = ((n / 65536) mod 32)%N.
Proof.
  intros H. rewrite !N.shiftr_land.
  change (N.shiftr 0xFE00 9) with (N.ones 7). change (N.shiftr 0x1E0 5) with (N.ones 4).
  change (N.shiftr 0x1F 0) with (N.ones 5). change (N.shiftr 0xF8000000 27) with (N.ones 5).
  change (N.shiftr 0x07E00000 21) with (N.ones 6). change (N.shiftr 0x1F0000 16) with (N.ones 5).
  rewrite !N.land_ones, !N.shiftr_div_pow2.
  change (2 ^ 9)%N with 512%N. change (2 ^ 7)%N with 128%N. change (2 ^ 5)%N with 32%N. change (2 ^ 4)%N with 16%N.
  change (2 ^ 0)%N with 1%N. change (2 ^ 27)%N with 134217728%N. change (2 ^ 21)%N with 2097152%N. change (2 ^ 6)%N with 64%N.
  change (2 ^ 16)%N with 65536%N. change (2 ^ 32)%N with 4294967296%N in H. rewrite N.div_1_r.
  repeat split; try reflexivity. apply N.mod_small. lia.
Qed.

Lemma make_datetime_valid y m d h mi s us :
  (valid_datetime (DT y m d h mi s us) -> make_datetime y m d h mi s us = Some (DT y m d h mi s us))
  /\ (~ valid_datetime (DT y m d h mi s us) -> make_datetime y m d h mi s us = None).
Proof.
  unfold make_datetime, valid_datetime, valid_date. cbn [dt_year dt_month dt_day dt_hour dt_min dt_sec dt_us].
  destruct ((1 <=? m) && (m <=? 12)) eqn:Em.
  - rewrite days_in_month_same by lia. set (L := month_length y m). clearbody L. split; intros H.
    + match goal with |- (if ?b then _ else _) = _ => replace b with true by lia end. reflexivity.
    + match goal with |- (if ?b then _ else _) = _ => destruct b eqn:E end; [exfalso; apply H; lia|reflexivity].
  - split; intros H; [exfalso; lia|].
    match goal with |- (if ?b then _ else _) = _ => replace b with false by lia end. reflexivity.
Qed.

Lemma dostime_spec n : fits32 n ->
  (n = 0%N -> parse_dostime (enc32 n) = ret None)
  /\ (n <> 0%N -> valid_datetime (fat_datetime n) -> parse_dostime (enc32 n) = ret (Some (fat_datetime n)))
  /\ (n <> 0%N -> ~ valid_datetime (fat_datetime n) -> parse_dostime (enc32 n) = ([WDostime (enc32 n)], Ok None)).
Proof.
  intros Hf. unfold parse_dostime. rewrite unpack_enc32 by assumption. rewrite bind_ret_l.
  pose proof (dos_bits n Hf) as (-> & -> & -> & -> & -> & ->). cbv zeta.
  split; [|split].
  - intros ->. reflexivity.
  - intros H0 V. replace (n =? 0)%N with false by lia.
    rewrite (proj1 (make_datetime_valid _ _ _ _ _ _ _) V). reflexivity.
  - intros H0 V. replace (n =? 0)%N with false by lia.
    rewrite (proj2 (make_datetime_valid _ _ _ _ _ _ _) V). reflexivity.
Qed.

(** Every even-second time of 1980..2107 is read back from its FAT encoding. *)
Lemma dostime_round_trip t :
  valid_datetime t -> 1980 <= dt_year t <= 2107 -> dt_us t = 0 -> dt_sec t mod 2 = 0 ->
  parse_dostime (enc16 (Z.to_N (fat_date t)) ++ enc16 (Z.to_N (fat_time t))) = ret (Some t).
Proof.
  intros V Y U S. set (n := Z.to_N (fat_time t * 65536 + fat_date t)).
  destruct t as [y m d h mi s us]. cbn [dt_year dt_us dt_sec] in *. subst us.
  destruct V as (_ & (Vm & Vd) & Vh & Vmi & Vs & _). cbn [dt_year dt_month dt_day dt_hour dt_min dt_sec dt_us] in *.
  assert (Vd' : d <= 31). { unfold month_length in Vd. repeat match type of Vd with context [if ?b then _ else _] => destruct b end; lia. }
  unfold fat_date, fat_time in *. cbn [dt_year dt_month dt_day dt_hour dt_min dt_sec dt_us] in *.
  assert (EN : n = Z.to_N ((h * 2048 + mi * 32 + s / 2) * 65536 + ((y - 1980) * 512 + m * 32 + d))) by reflexivity.
  assert (Hn : fits32 n) by (unfold fits32; lia).
  replace (enc16 _ ++ enc16 _)%list with (enc32 n).
  - pose proof (dostime_spec n Hn) as (_ & D & _).
    assert (ET : fat_datetime n = DT y m d h mi s 0).
    { unfold fat_datetime. f_equal; lia. }
    rewrite ET in D. apply D; [lia|]. unfold valid_datetime, valid_date. cbn. lia.
  - unfold enc32, enc16, num. clearbody n. cbn [map app seq]. 
    assert (X : forall a b : N, (a mod 256 = b mod 256)%N -> n2b a = n2b b) by (intros a b E; apply b2n_inj; now rewrite !b2n_n2b).
    apply f_equal2; [apply X; lia|]. apply f_equal2; [apply X; lia|].
    apply f_equal2; [apply X; lia|]. apply f_equal2; [apply X; lia|reflexivity].
Qed.
Lemma filetime_near_1970_reported t :
  fits_i64 t -> t <> 0 -> Z.abs (since_1970 t) < 2 ^ 32 * 10000000 ->
  exists dt, parse_filetime (enci64 t) = ret (Some dt) /\ valid_datetime dt
    /\ Z.abs (10 * microseconds dt - filetime_instant t) < 10.
Proof.
  intros Hf H0 Hn. destruct (filetime_near_1970 t Hf H0 Hn) as (R & [HR _] & HE & _).
  assert (B : 0 <= R < end_of_time).
  { unfold end_of_time, since_1970 in *. change (day_number 10000 1 1) with 3652059. change (day_number 1970 1 1) with 719162 in Hn. lia. }
  destruct (HR B) as (dt & E & V & M). exists dt. rewrite M. auto.
Qed.
