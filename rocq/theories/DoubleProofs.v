(** * Times to the last digit (C64) *)
From Coq Require Import QArith Qabs Qpower Lqa.
From Verif Require Import Lemmas PyTime Utils Spec SpecTime SpecDouble EncProofs TimeProofs.
#[local] Open Scope Q_scope.

Lemma two_pos e : 0 < (2 # 1) ^ e.
Proof. apply Qpower_0_lt. reflexivity. Qed.
Lemma two_plus a b : (2 # 1) ^ (a + b) == (2 # 1) ^ a * (2 # 1) ^ b.
Proof. apply Qpower_plus. discriminate. Qed.
Lemma two_int k : (0 <= k)%Z -> (2 # 1) ^ k == inject_Z (2 ^ k).
Proof.
  intros H. rewrite <- (Z2Nat.id k H). induction (Z.to_nat k) as [|n IH]; [reflexivity|].
  rewrite Nat2Z.inj_succ. unfold Z.succ. rewrite two_plus, IH, Z.pow_add_r, inject_Z_mult by lia. reflexivity.
Qed.

Lemma inj_le a b : (a <= b)%Z <-> inject_Z a <= inject_Z b.
Proof. now rewrite Zle_Qle. Qed.
Lemma inj_lt a b : (a < b)%Z <-> inject_Z a < inject_Z b.
Proof. now rewrite Zlt_Qlt. Qed.

(** Doubles on the scale of [e]: integers, or below 2^52. *)
Lemma on_scale y e : double y ->
  exists w, y == w * (2 # 1) ^ e /\ ((exists k, w == inject_Z k) \/ Qabs w < inject_Z (2 ^ 52)).
Proof.
  intros (m & e' & Hm & Ey). exists (inject_Z m * (2 # 1) ^ (e' - e)). split.
  { rewrite Ey, <- Qmult_assoc, <- two_plus. now replace (e' - e + e)%Z with e' by lia. }
  destruct (Z.le_gt_cases e e') as [H|H].
  - left. exists (m * 2 ^ (e' - e))%Z. now rewrite two_int, inject_Z_mult by lia.
  - right. rewrite Qabs_Qmult. rewrite (Qabs_pos ((2 # 1) ^ _)) by (apply Qlt_le_weak, two_pos).
    change (Qabs (inject_Z m)) with (inject_Z (Z.abs m)).
    assert (HP : (2 # 1) ^ (e' - e) <= 1 # 2).
    { replace (e' - e)%Z with (- (e - e'))%Z by lia. rewrite Qpower_opp, two_int by lia.
      assert (2 <= 2 ^ (e - e'))%Z by (change 2%Z with (2 ^ 1)%Z at 1; apply Z.pow_le_mono_r; lia).
      apply Qle_shift_inv_r; [change 0 with (inject_Z 0); rewrite <- inj_lt; lia|]. apply (Qle_trans _ ((1 # 2) * inject_Z 2)); [discriminate|].
      apply Qmult_le_l; [reflexivity|]. now rewrite <- inj_le. }
    assert (HM : inject_Z (Z.abs m) < inject_Z (2 ^ 53)) by now rewrite <- inj_lt.
    assert (H0 : 0 <= inject_Z (Z.abs m)) by (change 0 with (inject_Z 0); rewrite <- inj_le; lia).
    apply (Qle_lt_trans _ (inject_Z (Z.abs m) * (1 # 2))).
    + rewrite !(Qmult_comm (inject_Z (Z.abs m))). apply Qmult_le_compat_r; assumption.
    + change (inject_Z (2 ^ 52)) with (4503599627370496 # 1). change (inject_Z (2 ^ 53)) with (9007199254740992 # 1) in HM. lra.
Qed.
Lemma distance_scaled s w e : Qabs (s * (2 # 1) ^ e - w * (2 # 1) ^ e) == Qabs (s - w) * (2 # 1) ^ e.
Proof.
  setoid_replace (s * (2 # 1) ^ e - w * (2 # 1) ^ e) with ((s - w) * (2 # 1) ^ e) by ring.
  rewrite Qabs_Qmult, (Qabs_pos ((2 # 1) ^ e)); [reflexivity|]. apply Qlt_le_weak, two_pos.
Qed.

(** Rational numbers near an integer. *)
Lemma near_integer s m k : Qabs (s - inject_Z m) <= 1 # 2 -> k <> m ->
  Qabs (s - inject_Z m) <= Qabs (s - inject_Z k)
  /\ (Qabs (s - inject_Z m) == Qabs (s - inject_Z k) -> Qabs (s - inject_Z m) == 1 # 2 /\ (k = m + 1 \/ k = m - 1)%Z).
Proof.
  intros H HK. apply Qabs_Qle_condition in H as [H1 H2].
  assert (HI : (k <= m - 1 \/ m + 1 <= k)%Z) by lia.
  assert (HQ : inject_Z k <= inject_Z m - 1 \/ inject_Z m + 1 <= inject_Z k).
  { destruct HI as [HI|HI]; [left|right]; rewrite inj_le in HI.
    - unfold Z.sub in HI. rewrite inject_Z_plus in HI. exact HI.
    - rewrite inject_Z_plus in HI. exact HI. }
  assert (HE : forall d, (d = 1 \/ d = -1)%Z -> inject_Z k == inject_Z m + inject_Z d -> (k = m + d)%Z).
  { intros d _ E. rewrite <- inject_Z_plus in E. rewrite inject_Z_injective in E. exact E. }
  split.
  - apply Qabs_case; intros; apply Qabs_case; intros; lra.
  - intros E.
    assert (T : Qabs (s - inject_Z m) == 1 # 2
                /\ (inject_Z k == inject_Z m + inject_Z 1 \/ inject_Z k == inject_Z m + inject_Z (-1))).
    { change (inject_Z 1) with (1 # 1). change (inject_Z (-1)) with (-1 # 1).
      revert E. apply Qabs_case; intros A; apply Qabs_case; intros B E; destruct HQ as [HQ|HQ];
        first [exfalso; lra | split; [lra|left; lra] | split; [lra|right; lra]]. }
    destruct T as [T [D|D]]; (split; [exact T|]).
    + left. apply (HE 1%Z); [now left|exact D].
    + right. apply (HE (-1)%Z); [now right|exact D].
Qed.

Lemma scaled_nearest s m e :
  inject_Z (2 ^ 52) <= s -> s < inject_Z (2 ^ 53) -> Qabs (s - inject_Z m) <= 1 # 2 ->
  (Qabs (s - inject_Z m) == 1 # 2 -> Z.even m = true) ->
  nearest_double (s * (2 # 1) ^ e) (inject_Z m * (2 # 1) ^ e)
  /\ (forall x, nearest_double (s * (2 # 1) ^ e) x -> x == inject_Z m * (2 # 1) ^ e).
Proof.
  intros H52 H53 HM HT. pose proof (two_pos e) as HP.
  assert (HB : (2 ^ 52 <= m <= 2 ^ 53)%Z).
  { apply Qabs_Qle_condition in HM as [M1 M2]. split.
    - apply Z.le_ngt. intros HC. assert (HC' : (m <= 2 ^ 52 - 1)%Z) by lia. rewrite inj_le in HC'.
      change (2 ^ 52 - 1)%Z with 4503599627370495%Z in HC'. change (2 ^ 52)%Z with 4503599627370496%Z in H52.
      change (inject_Z 4503599627370496) with (4503599627370496 # 1) in *.
      change (inject_Z 4503599627370495) with (4503599627370495 # 1) in *. lra.
    - apply Z.le_ngt. intros HC. assert (HC' : (2 ^ 53 + 1 <= m)%Z) by lia. rewrite inj_le in HC'.
      change (2 ^ 53 + 1)%Z with 9007199254740993%Z in HC'. change (2 ^ 53)%Z with 9007199254740992%Z in H53.
      change (inject_Z 9007199254740993) with (9007199254740993 # 1) in *.
      change (inject_Z 9007199254740992) with (9007199254740992 # 1) in *. lra. }
  assert (HD : double (inject_Z m * (2 # 1) ^ e)).
  { destruct (Z.eq_dec m (2 ^ 53)) as [->|HN].
    - exists (2 ^ 52)%Z, (e + 1)%Z. split; [reflexivity|]. rewrite two_plus. change (2 ^ 53)%Z with (2 ^ 52 * 2)%Z.
      rewrite inject_Z_mult. change ((2 # 1) ^ 1) with (inject_Z 2). ring.
    - exists m, e. split; [lia|reflexivity]. }
  (* the distance of any other double *)
  assert (HY : forall y, double y -> ~ y == inject_Z m * (2 # 1) ^ e ->
            Qabs (s * (2 # 1) ^ e - inject_Z m * (2 # 1) ^ e) < Qabs (s * (2 # 1) ^ e - y)
            \/ (Qabs (s * (2 # 1) ^ e - inject_Z m * (2 # 1) ^ e) <= Qabs (s * (2 # 1) ^ e - y)
                /\ exists k, y == inject_Z k * (2 # 1) ^ e
                   /\ (Qabs (s * (2 # 1) ^ e - inject_Z m * (2 # 1) ^ e) == Qabs (s * (2 # 1) ^ e - y) ->
                       Z.even m = true /\ Z.even k = false /\ (2 ^ 52 <= k)%Z))).
  { intros y Dy Ny. destruct (on_scale y e Dy) as (w & Ey & [[k Ek]|HW]).
    - right. rewrite Ek in Ey. assert (Hk : k <> m) by (intros ->; contradiction).
      destruct (near_integer s m k HM Hk) as [N1 N2].
      rewrite Ey, !distance_scaled. split; [apply Qmult_le_compat_r; [exact N1|now apply Qlt_le_weak]|].
      exists k. split; [exact Ey|]. intros E. rewrite Ey, !distance_scaled in E. apply Qmult_inj_r in E; [|intros C; rewrite C in HP; discriminate HP].
      destruct (N2 E) as [T HK]. specialize (HT T). split; [exact HT|].
      split; [destruct HK as [-> | ->]; [rewrite Z.even_add|rewrite Z.even_sub]; now rewrite HT|].
      destruct HK as [-> | ->]; [lia|]. destruct (Z.eq_dec m (2 ^ 52)) as [->|]; [exfalso|lia].
      rewrite Qabs_pos in T, E by lra. change (2 ^ 52 - 1)%Z with (2 ^ 52 + -1)%Z in E. rewrite inject_Z_plus in E.
      change (inject_Z (-1)) with (-1 # 1) in E. rewrite Qabs_pos in E by lra. lra.
    - left. rewrite Ey, !distance_scaled. apply Qmult_lt_compat_r; [exact HP|].
      (* 2^52 is an integer nearer to s than w *)
      assert (HA : Qabs (s - inject_Z m) <= Qabs (s - inject_Z (2 ^ 52))).
      { destruct (Z.eq_dec (2 ^ 52) m) as [<-|HN]; [apply Qle_refl|]. exact (proj1 (near_integer s m _ HM HN)). }
      eapply Qle_lt_trans; [exact HA|]. rewrite (Qabs_pos (s - inject_Z (2 ^ 52))) by lra.
      apply Qabs_Qlt_condition in HW as [W1 W2]. rewrite Qabs_pos by lra. lra. }
  split.
  - split; [exact HD|]. split.
    + intros y Dy. destruct (Qeq_dec y (inject_Z m * (2 # 1) ^ e)) as [Ey|Ny]; [rewrite Ey; apply Qle_refl|].
      destruct (HY y Dy Ny) as [H|[H _]]; [now apply Qlt_le_weak|exact H].
    + intros y Dy Ny E. destruct (HY y Dy Ny) as [H|(_ & k & _ & H)]; [rewrite E in H; now apply Qlt_irrefl in H|].
      destruct (H E) as [HE _]. destruct (Z.eq_dec m (2 ^ 53)) as [->|HN].
      * exists (2 ^ 52)%Z, (e + 1)%Z. split; [split; [discriminate|reflexivity]|]. split; [reflexivity|]. rewrite two_plus.
        change (2 ^ 53)%Z with (2 ^ 52 * 2)%Z. rewrite inject_Z_mult. change ((2 # 1) ^ 1) with (inject_Z 2). ring.
      * exists m, e. split; [lia|]. split; [exact HE|reflexivity].
  - intros x (Dx & Nx & Tx). destruct (Qeq_dec x (inject_Z m * (2 # 1) ^ e)) as [E|NE]; [exact E|exfalso].
    specialize (Nx _ HD). destruct (HY x Dx NE) as [H|(H & k & Ek & HK)].
    { apply (Qlt_irrefl (Qabs (s * (2 # 1) ^ e - x))). eapply Qle_lt_trans; [exact Nx|exact H]. }
    assert (EQ : Qabs (s * (2 # 1) ^ e - inject_Z m * (2 # 1) ^ e) == Qabs (s * (2 # 1) ^ e - x)) by now apply Qle_antisym.
    destruct (HK EQ) as (Em & Eo & HK52).
    destruct (Tx _ HD (fun C => NE (Qeq_sym _ _ C)) (Qeq_sym _ _ EQ)) as (mx & ex & Bx & Evx & Exx).
    (* x is an even double, and an odd multiple of 2^e *)
    rewrite Ek in Exx.
    assert (HS : inject_Z k == inject_Z mx * (2 # 1) ^ (ex - e)).
    { apply (Qmult_inj_r _ _ ((2 # 1) ^ e)); [intros C; rewrite C in HP; discriminate HP|].
      rewrite Exx, <- Qmult_assoc, <- two_plus. now replace (ex - e + e)%Z with ex by lia. }
    destruct (Z.le_gt_cases e ex) as [HX|HX].
    + rewrite two_int, <- inject_Z_mult in HS by lia. rewrite inject_Z_injective in HS. subst k.
      rewrite Z.even_mul, Evx in Eo. discriminate Eo.
    + assert (HM2 : (k * 2 ^ (e - ex) = mx)%Z).
      { apply inject_Z_injective. rewrite inject_Z_mult, <- two_int, HS, <- Qmult_assoc, <- two_plus by lia.
        replace (ex - e + (e - ex))%Z with 0%Z by lia. change ((2 # 1) ^ 0) with 1. ring. }
      assert (2 <= 2 ^ (e - ex))%Z by (change 2%Z with (2 ^ 1)%Z at 1; apply Z.pow_le_mono_r; lia).
      change (2 ^ 53)%Z with (2 * 2 ^ 52)%Z in Bx. nia.
Qed.

(** ** The rounding functions of the model *)

#[export] Instance double_proper : Proper (Qeq ==> iff) double.
Proof. intros x x' E. unfold double. split; intros (m & e & H & D); exists m, e; (split; [exact H|]); [now rewrite <- E|now rewrite E]. Qed.
#[export] Instance even_double_proper : Proper (Qeq ==> iff) even_double.
Proof.
  intros x x' E. unfold even_double. split; intros (m & e & H & H' & D); exists m, e; (split; [exact H|]); (split; [exact H'|]);
    [now rewrite <- E|now rewrite E].
Qed.
#[export] Instance nearest_double_proper : Proper (Qeq ==> Qeq ==> iff) nearest_double.
Proof.
  assert (HI : forall q q' x x', q == q' -> x == x' -> nearest_double q x -> nearest_double q' x').
  { intros q q' x x' Eq Ex (D & N & T). split; [now rewrite <- Ex|]. split.
    - intros y Dy. rewrite <- Eq, <- Ex. now apply N.
    - intros y Dy Ny H. rewrite <- Eq, <- Ex in H. rewrite <- Ex in Ny |- *. now apply (T y). }
  intros q q' Eq x x' Ex. split; apply HI; auto; now apply Qeq_sym.
Qed.
#[export] Instance nearest_integer_proper : Proper (Qeq ==> eq ==> iff) nearest_integer.
Proof.
  assert (HI : forall q q' n, q == q' -> nearest_integer q n -> nearest_integer q' n).
  { intros q q' n Eq (N & T). split.
    - intros k. rewrite <- Eq. apply N.
    - intros k Hk H. rewrite <- Eq in H. now apply (T k). }
  intros q q' Eq x x' <-. split; apply HI; auto. now apply Qeq_sym.
Qed.
#[export] Instance whole_part_proper : Proper (Qeq ==> eq) whole_part.
Proof.
  intros [a b] [c d] E. unfold Qeq in E. cbn [Qnum Qden] in E. unfold whole_part. cbn [Qnum Qden].
  rewrite <- (Z.quot_mul_cancel_r a (Z.pos b) (Z.pos d)) by discriminate.
  rewrite <- (Z.quot_mul_cancel_r c (Z.pos d) (Z.pos b)) by discriminate. rewrite E. now rewrite (Z.mul_comm (Z.pos b)).
Qed.

Lemma ratio_nonzero b : (0 < b)%Z -> ~ inject_Z b == 0.
Proof. intros H C. change 0 with (inject_Z 0) in C. rewrite inject_Z_injective in C. lia. Qed.
Lemma rhe_half a b : (0 < b)%Z ->
  Qabs (inject_Z a / inject_Z b - inject_Z (rhe_div a b)) <= 1 # 2
  /\ (Qabs (inject_Z a / inject_Z b - inject_Z (rhe_div a b)) == 1 # 2 -> Z.even (rhe_div a b) = true).
Proof.
  intros H. pose proof (ratio_nonzero b H) as HB.
  assert (HP : 0 < inject_Z b) by (change 0 with (inject_Z 0); now rewrite <- inj_lt).
  set (r := rhe_div a b).
  assert (E : Qabs (inject_Z a / inject_Z b - inject_Z r) == inject_Z (Z.abs (a - r * b)) / inject_Z b).
  { setoid_replace (inject_Z a / inject_Z b - inject_Z r) with (inject_Z (a - r * b) / inject_Z b).
    - unfold Qdiv. rewrite Qabs_Qmult, (Qabs_pos (/ inject_Z b)); [reflexivity|]. now apply Qlt_le_weak, Qinv_lt_0_compat.
    - unfold Z.sub. rewrite inject_Z_plus, inject_Z_opp, inject_Z_mult. field. exact HB. }
  rewrite E. pose proof (rhe_div_err a b H) as HR. fold r in HR. split.
  - apply Qle_shift_div_r; [exact HP|]. setoid_replace ((1 # 2) * inject_Z b) with (inject_Z b / inject_Z 2) by (change (inject_Z 2) with (2 # 1); field).
    apply Qle_shift_div_l; [reflexivity|]. rewrite <- inject_Z_mult, <- inj_le. lia.
  - intros T. assert (T2 : (2 * Z.abs (a - r * b) = b)%Z).
    { rewrite <- inject_Z_injective, inject_Z_mult. setoid_replace (inject_Z (Z.abs (a - r * b))) with ((1 # 2) * inject_Z b).
      - change (inject_Z 2) with (2 # 1). field.
      - rewrite <- T. field. exact HB. }
    unfold r, rhe_div in *. cbv zeta in *.
    pose proof (Z.div_mod a b ltac:(lia)) as D. pose proof (Z.mod_pos_bound a b H) as B.
    set (q := (a / b)%Z) in *. set (u := (a mod b)%Z) in *. clearbody q u. subst a.
    destruct (2 * u <? b)%Z eqn:E1.
    { exfalso. replace (b * q + u - q * b)%Z with u in T2 by ring. lia. }
    destruct (b <? 2 * u)%Z eqn:E2.
    { exfalso. replace (b * q + u - (q + 1) * b)%Z with (u - b)%Z in T2 by ring. lia. }
    destruct (Z.even q) eqn:EQ; [exact EQ|]. rewrite Z.even_add, EQ. reflexivity.
Qed.
Lemma rhe_nearest a b : (0 < b)%Z ->
  nearest_integer (inject_Z a / inject_Z b) (rhe_div a b)
  /\ (forall n, nearest_integer (inject_Z a / inject_Z b) n -> n = rhe_div a b).
Proof.
  intros H. destruct (rhe_half a b H) as [H1 H2]. set (r := rhe_div a b) in *. set (s := inject_Z a / inject_Z b) in *. split.
  - split.
    + intros k. destruct (Z.eq_dec k r) as [->|N]; [apply Qle_refl|]. exact (proj1 (near_integer s r k H1 N)).
    + intros k N E. destruct (proj2 (near_integer s r k H1 N) E) as [T _]. exact (H2 T).
  - intros n (N & T). destruct (Z.eq_dec n r) as [E|NE]; [exact E|exfalso].
    destruct (near_integer s r n H1 NE) as [L TE]. assert (EQ : Qabs (s - inject_Z r) == Qabs (s - inject_Z n)) by (apply Qle_antisym; [exact L|apply N]).
    destruct (TE EQ) as [TT D]. specialize (H2 TT). assert (HE : Z.even n = true) by (apply (T r); [congruence|now apply Qeq_sym]).
    destruct D as [-> | ->]; [rewrite Z.even_add, H2 in HE|rewrite Z.even_sub, H2 in HE]; discriminate HE.
Qed.

(** The quotient on the scale of [e]. *)
Definition value (d : Z * Z) : Q := inject_Z (fst d) * (2 # 1) ^ snd d.
Lemma scaled_ratio a b e : (0 < a)%Z -> (0 < b)%Z ->
  exists A B, (0 < B)%Z /\ inject_Z a / inject_Z b == inject_Z A / inject_Z B * (2 # 1) ^ e
    /\ scaled_rhe a b e = rhe_div A B /\ scaled_floor a b e = (A / B)%Z
    /\ (e < 0 -> A = a * 2 ^ (- e) /\ B = b)%Z /\ (0 <= e -> A = a /\ B = b * 2 ^ e)%Z.
Proof.
  intros Ha Hb. pose proof (ratio_nonzero b Hb) as NB. pose proof (two_pos e) as TP.
  assert (NT : ~ (2 # 1) ^ e == 0) by (intros C; rewrite C in TP; discriminate TP).
  unfold scaled_rhe, scaled_floor. destruct (e <? 0)%Z eqn:E.
  - exists (a * 2 ^ (- e))%Z, b. split; [exact Hb|]. split; [|repeat split; lia].
    rewrite inject_Z_mult, <- two_int, Qpower_opp by lia. field. now split.
  - assert (0 < 2 ^ e)%Z by (apply Z.pow_pos_nonneg; lia).
    exists a, (b * 2 ^ e)%Z. split; [nia|]. split; [|repeat split; lia].
    rewrite inject_Z_mult, <- two_int by lia. field. now split.
Qed.
Lemma to_double_nearest a b : (0 < a)%Z -> (0 < b)%Z ->
  nearest_double (inject_Z a / inject_Z b) (value (to_double a b))
  /\ (forall x, nearest_double (inject_Z a / inject_Z b) x -> x == value (to_double a b)).
Proof.
  intros Ha Hb. destruct (to_double a b) as [m e] eqn:ED. pose proof ED as ED'.
  apply to_double_spec in ED as [EN EP]; [|assumption..].
  destruct (scaled_ratio a b e Ha Hb) as (A & B & HB & ER & E1 & E2 & AN & AP).
  assert (Hm : m = rhe_div A B) by (rewrite <- E1; unfold to_double in ED'; cbv zeta in ED'; injection ED' as <- <-; reflexivity).
  assert (L : (2 ^ 52 * B <= A)%Z).
  { destruct (Z.lt_ge_cases e 0) as [He|He].
    - destruct (AN He) as [-> ->]. apply EN. exact He.
    - destruct (AP He) as [-> ->]. specialize (EP He). rewrite Z.mul_assoc. exact EP. }
  assert (U : (A < 2 ^ 53 * B)%Z).
  { assert (NT : ~ (2 # 1) ^ e == 0) by (pose proof (two_pos e) as TP; intros C; rewrite C in TP; discriminate TP).
    unfold to_double in ED'. cbv zeta in ED'. destruct (_ <? 2 ^ 53)%Z eqn:F in ED'.
    - injection ED' as _ <-. rewrite E2 in F. apply Z.ltb_lt in F.
      pose proof (Z.div_mod A B ltac:(lia)). pose proof (Z.mod_pos_bound A B HB). nia.
    - injection ED' as _ EE.
      assert (HQ : inject_Z A / inject_Z B < inject_Z (2 ^ 53)).
      { setoid_replace (inject_Z A / inject_Z B) with (inject_Z a / inject_Z b * (2 # 1) ^ (- e)).
        - pose proof (Z.log2_spec a Ha) as [_ La]. pose proof (Z.log2_spec b Hb) as [Lb _].
          pose proof (Z.log2_nonneg a) as Na. pose proof (Z.log2_nonneg b) as Nb.
          rewrite <- two_int by lia.
          replace 53%Z with (Z.succ (Z.log2 a) + - Z.log2 b + - e)%Z by lia.
          rewrite (two_plus (Z.succ _ + _)). apply Qmult_lt_compat_r; [apply two_pos|].
          rewrite two_plus, Qpower_opp, !two_int by lia.
          apply Qlt_shift_div_r; [change 0 with (inject_Z 0); rewrite <- inj_lt; exact Hb|].
          apply (Qlt_le_trans _ (inject_Z (2 ^ Z.succ (Z.log2 a)))); [rewrite <- inj_lt; exact La|].
          assert (PL : (0 < 2 ^ Z.log2 b)%Z) by (apply Z.pow_pos_nonneg; lia).
          rewrite <- Qmult_assoc. setoid_replace (/ inject_Z (2 ^ Z.log2 b) * inject_Z b) with (inject_Z b / inject_Z (2 ^ Z.log2 b)) by apply Qmult_comm.
          assert (O : 1 <= inject_Z b / inject_Z (2 ^ Z.log2 b)).
          { apply Qle_shift_div_l; [change 0 with (inject_Z 0); rewrite <- inj_lt; exact PL|]. rewrite Qmult_1_l, <- inj_le. exact Lb. }
          rewrite <- (Qmult_1_r (inject_Z (2 ^ Z.succ (Z.log2 a)))) at 1.
          rewrite !(Qmult_comm (inject_Z (2 ^ Z.succ _))). apply Qmult_le_compat_r; [exact O|].
          change 0 with (inject_Z 0). rewrite <- inj_le. apply Z.pow_nonneg. lia.
        - rewrite ER, <- Qmult_assoc, <- two_plus. replace (e + - e)%Z with 0%Z by lia. now rewrite Qpower_0_r, Qmult_1_r. }
      rewrite inj_lt, inject_Z_mult.
      assert (HPB : 0 < inject_Z B) by (change 0 with (inject_Z 0); now rewrite <- inj_lt).
      setoid_replace (inject_Z A) with (inject_Z A / inject_Z B * inject_Z B) by (field; now apply ratio_nonzero).
      apply Qmult_lt_compat_r; assumption. }
  assert (HPB : 0 < inject_Z B) by (change 0 with (inject_Z 0); now rewrite <- inj_lt).
  destruct (rhe_half A B HB) as [R1 R2]. rewrite <- Hm in R1, R2.
  destruct (scaled_nearest (inject_Z A / inject_Z B) m e) as [S1 S2].
  - apply Qle_shift_div_l; [exact HPB|]. rewrite <- inject_Z_mult, <- inj_le. exact L.
  - apply Qlt_shift_div_r; [exact HPB|]. rewrite <- inject_Z_mult, <- inj_lt. exact U.
  - exact R1.
  - exact R2.
  - unfold value. cbn [fst snd]. split.
    + rewrite ER. exact S1.
    + intros x Hx. rewrite ER in Hx. now apply S2.
Qed.

Lemma nearest_zero x : nearest_double 0 x <-> x == 0.
Proof.
  assert (D0 : double 0) by (exists 0%Z, 0%Z; split; reflexivity). split.
  - intros (_ & N & _). specialize (N _ D0). setoid_replace (0 - x) with (- x) in N by ring. rewrite Qabs_opp in N.
    change (Qabs (0 - 0)) with (0 # 1) in N. apply Qabs_Qle_condition in N as [N1 N2]. lra.
  - intros ->. split; [exact D0|]. split; [intros; apply Qabs_nonneg|].
    intros y _ Ny E. exfalso. apply Ny. change (Qabs (0 - 0)) with 0 in E. setoid_replace (0 - y) with (- y) in E by ring.
    rewrite Qabs_opp in E. revert E. apply Qabs_case; intros; lra.
Qed.
Lemma true_div_nearest a b x : (0 <= a)%Z -> (0 < b)%Z ->
  nearest_double (inject_Z a / inject_Z b) x <-> x == value (true_div a b).
Proof.
  intros Ha Hb. unfold true_div. destruct (a =? 0)%Z eqn:E.
  - apply Z.eqb_eq in E. subst a. change (value (0%Z, 0%Z)) with (inject_Z 0 * 1).
    setoid_replace (inject_Z 0 / inject_Z b) with 0 by (field; now apply ratio_nonzero). rewrite nearest_zero. reflexivity.
  - destruct (to_double_nearest a b ltac:(lia) Hb) as [H1 H2]. split; [apply H2|]. intros ->. exact H1.
Qed.

(** [counted], for any number of seconds. *)
Definition counted_from (q : Q) (n : Z) : Prop :=
  exists seconds micro us,
    nearest_double q seconds
    /\ nearest_double ((seconds - inject_Z (whole_part seconds)) * inject_Z 1000000) micro
    /\ nearest_integer micro us
    /\ n = (whole_part seconds * 1000000 + us)%Z.

Lemma whole_part_ratio m D : (0 <= m)%Z -> (0 < D)%Z -> whole_part (inject_Z m / inject_Z D) = (m / D)%Z.
Proof.
  intros Hm HD. destruct D as [|D|D]; try lia. change (inject_Z m / inject_Z (Z.pos D)) with (m * 1 # D).
  unfold whole_part. cbn [Qnum Qden]. rewrite Z.mul_1_r. now apply Z.quot_div_nonneg.
Qed.
Lemma value_ratio m e : exists A D, (0 < D)%Z /\ value (m, e) == inject_Z A / inject_Z D
  /\ (e < 0 -> A = m /\ D = 2 ^ (- e))%Z /\ (0 <= e -> A = m * 2 ^ e /\ D = 1)%Z.
Proof.
  unfold value. cbn [fst snd]. destruct (Z.lt_ge_cases e 0) as [He|He].
  - exists m, (2 ^ (- e))%Z. assert (0 < 2 ^ (- e))%Z by (apply Z.pow_pos_nonneg; lia). split; [assumption|]. split; [|lia].
    rewrite <- two_int, Qpower_opp by lia. pose proof (two_pos e) as TP. field. intros C. rewrite C in TP. discriminate TP.
  - exists (m * 2 ^ e)%Z, 1%Z. split; [lia|]. split; [|lia]. rewrite inject_Z_mult, <- two_int by lia. field.
Qed.
(** The value of a double of the model, rounded to an integer. *)
Definition integer_of (d : Z * Z) : Z := let (m, e) := d in if (0 <=? e)%Z then (m * 2 ^ e)%Z else rhe_div m (2 ^ (- e)).
Lemma integer_of_nearest d n : nearest_integer (value d) n <-> n = integer_of d.
Proof.
  destruct d as [m e]. destruct (value_ratio m e) as (A & D & HD & EV & HN & HP). rewrite EV.
  assert (EI : integer_of (m, e) = rhe_div A D).
  { unfold integer_of. destruct (0 <=? e)%Z eqn:E.
    - destruct (HP ltac:(lia)) as [-> ->]. rewrite <- (rhe_div_exact (m * 2 ^ e) 1) at 1 by lia. now rewrite Z.mul_1_r.
    - now destruct (HN ltac:(lia)) as [-> ->]. }
  rewrite EI. destruct (rhe_nearest A D HD) as [H1 H2]. split; [apply H2|]. now intros ->.
Qed.
Lemma sec_us_counted d n : (0 <= fst d)%Z ->
  (exists micro us, nearest_double ((value d - inject_Z (whole_part (value d))) * inject_Z 1000000) micro
     /\ nearest_integer micro us /\ n = (whole_part (value d) * 1000000 + us)%Z)
  <-> n = (fst (double_to_sec_us d) * 1000000 + snd (double_to_sec_us d))%Z.
Proof.
  destruct d as [m e]. cbn [fst]. intros Hm. destruct (value_ratio m e) as (A & D & HD & EV & HN & HP).
  assert (HA : (0 <= A)%Z).
  { destruct (Z.lt_ge_cases e 0) as [He|He]; [now destruct (HN He) as [-> _]|]. destruct (HP He) as [-> _].
    apply Z.mul_nonneg_nonneg; [exact Hm|]. apply Z.pow_nonneg. lia. }
  assert (EW : whole_part (value (m, e)) = (A / D)%Z) by (rewrite EV; now apply whole_part_ratio).
  pose proof (Z.div_mod A D ltac:(lia)) as DM. pose proof (Z.mod_pos_bound A D HD) as BM.
  assert (EF : (value (m, e) - inject_Z (whole_part (value (m, e)))) * inject_Z 1000000
               == inject_Z (A mod D * 1000000) / inject_Z D).
  { rewrite EW, EV. rewrite DM at 1. rewrite inject_Z_plus, !inject_Z_mult. field. now apply ratio_nonzero. }
  assert (ED : double_to_sec_us (m, e) = (A / D, integer_of (true_div (A mod D * 1000000) D))%Z).
  { unfold double_to_sec_us. destruct (0 <=? e)%Z eqn:E.
    - destruct (HP ltac:(lia)) as [-> ->]. now rewrite Z.div_1_r, Z.mod_1_r.
    - destruct (HN ltac:(lia)) as [-> ->]. cbv zeta. unfold integer_of. now destruct (true_div _ _). }
  rewrite ED. cbn [fst snd]. rewrite EW in *. split.
  - intros (micro & us & N1 & N2 & ->). rewrite EF in N1. apply true_div_nearest in N1; [|lia|exact HD].
    rewrite N1 in N2. apply integer_of_nearest in N2. now subst us.
  - intros ->. exists (value (true_div (A mod D * 1000000) D)), (integer_of (true_div (A mod D * 1000000) D)).
    split; [|split; [now apply integer_of_nearest|reflexivity]]. rewrite EF. apply true_div_nearest; [lia|exact HD|reflexivity].
Qed.
Lemma true_div_nonneg a b : (0 <= a)%Z -> (0 < b)%Z -> (0 <= fst (true_div a b))%Z.
Proof.
  intros Ha Hb. unfold true_div. destruct (a =? 0)%Z eqn:E; [discriminate|]. unfold to_double. cbn [fst].
  match goal with |- (0 <= scaled_rhe a b ?e)%Z => destruct (scaled_ratio a b e ltac:(lia) Hb) as (A & B & HB & ER & -> & _ & AN & AP) end.
  assert (0 <= A)%Z.
  { match goal with H : (?e < 0 -> _)%Z |- _ => destruct (Z.lt_ge_cases e 0) as [He|He] end.
    - destruct (AN He) as [-> _]. apply Z.mul_nonneg_nonneg; [lia|]. apply Z.pow_nonneg. lia.
    - destruct (AP He) as [-> _]. lia. }
  pose proof (rhe_div_err A B HB). nia.
Qed.
Lemma counted_nonneg a b n : (0 <= a)%Z -> (0 < b)%Z ->
  counted_from (inject_Z a / inject_Z b) n
  <-> n = (fst (double_to_sec_us (true_div a b)) * 1000000 + snd (double_to_sec_us (true_div a b)))%Z.
Proof.
  intros Ha Hb. rewrite <- sec_us_counted by now apply true_div_nonneg. unfold counted_from. split.
  - intros (x & micro & us & N & N2 & N3 & ->). apply true_div_nearest in N; [|assumption..].
    assert (EW : whole_part x = whole_part (value (true_div a b))) by now rewrite N.
    exists micro, us. rewrite <- EW. split; [|auto]. now rewrite <- N.
  - intros (micro & us & H). exists (value (true_div a b)), micro, us. split; [|exact H].
    apply true_div_nearest; [assumption..|reflexivity].
Qed.

(** ** Negative numbers *)
Lemma double_opp x : double x -> double (- x).
Proof. intros (m & e & H & E). exists (- m)%Z, e. split; [lia|]. rewrite E, inject_Z_opp. ring. Qed.
Lemma even_double_opp x : even_double x -> even_double (- x).
Proof.
  intros (m & e & H & H2 & E). exists (- m)%Z, e. split; [lia|]. split; [now rewrite Z.even_opp|]. rewrite E, inject_Z_opp. ring.
Qed.
Lemma distance_opp q x : Qabs (- q - x) == Qabs (q - - x).
Proof. rewrite <- (Qabs_opp (- q - x)). apply Qabs_wd. ring. Qed.
Lemma nearest_double_opp q x : nearest_double q x -> nearest_double (- q) (- x).
Proof.
  intros (D & N & T). split; [now apply double_opp|]. split.
  - intros y Dy. rewrite !distance_opp, Qopp_involutive. now apply N, double_opp.
  - intros y Dy Ny E. rewrite !distance_opp, Qopp_involutive in E. apply even_double_opp. apply (T (- y)); [now apply double_opp| |exact E].
    intros C. apply Ny. rewrite <- C. now rewrite Qopp_involutive.
Qed.
Lemma nearest_integer_opp q n : nearest_integer q n -> nearest_integer (- q) (- n).
Proof.
  intros (N & T). split.
  - intros k. rewrite !distance_opp, <- !inject_Z_opp, Z.opp_involutive. apply N.
  - intros k Hk E. rewrite !distance_opp, <- !inject_Z_opp, Z.opp_involutive in E. rewrite Z.even_opp. apply (T (- k)%Z); [lia|exact E].
Qed.
Lemma whole_part_opp x : whole_part (- x) = (- whole_part x)%Z.
Proof. destruct x as [a b]. unfold whole_part. cbn [Qopp Qnum Qden]. now apply Z.quot_opp_l. Qed.
Lemma counted_opp q n : counted_from q n -> counted_from (- q) (- n).
Proof.
  intros (x & micro & us & N1 & N2 & N3 & ->). exists (- x), (- micro), (- us)%Z.
  split; [now apply nearest_double_opp|]. rewrite whole_part_opp. split; [|split; [now apply nearest_integer_opp|lia]].
  apply nearest_double_opp in N2. rewrite inject_Z_opp.
  setoid_replace ((- x - - inject_Z (whole_part x)) * inject_Z 1000000) with (- ((x - inject_Z (whole_part x)) * inject_Z 1000000)) by ring.
  exact N2.
Qed.
#[local] Instance counted_proper : Proper (Qeq ==> eq ==> iff) counted_from.
Proof.
  intros q q' E n n' <-. unfold counted_from. split; intros (x & micro & us & N1 & H); exists x, micro, us; (split; [|exact H]);
    [now rewrite <- E|now rewrite E].
Qed.

Lemma counted_model a b n : (0 < b)%Z ->
  counted_from (inject_Z a / inject_Z b) n
  <-> n = (fst (timestamp_to_sec_us a b) * 1000000 + snd (timestamp_to_sec_us a b))%Z.
Proof.
  intros Hb. unfold timestamp_to_sec_us.
  assert (ES : counted_from (inject_Z a / inject_Z b) n
               <-> n = ((if 0 <=? a then 1 else -1)
                        * (fst (double_to_sec_us (true_div (Z.abs a) b)) * 1000000 + snd (double_to_sec_us (true_div (Z.abs a) b))))%Z).
  { destruct (0 <=? a)%Z eqn:E.
    - rewrite (Z.abs_eq a) by lia. rewrite counted_nonneg by lia. rewrite Z.mul_1_l. reflexivity.
    - rewrite (Z.abs_neq a) by lia.
      assert (EQ : inject_Z a / inject_Z b == - (inject_Z (- a) / inject_Z b)) by (rewrite inject_Z_opp; field; now apply ratio_nonzero).
      rewrite EQ. split.
      + intros H. apply counted_opp in H. rewrite Qopp_involutive in H. apply counted_nonneg in H; [|lia|exact Hb]. lia.
      + intros ->. match goal with |- counted_from _ (-1 * ?X)%Z => replace (-1 * X)%Z with (- X)%Z by lia end. apply counted_opp. apply counted_nonneg; [lia|exact Hb|reflexivity]. }
  rewrite ES. destruct (double_to_sec_us (true_div (Z.abs a) b)) as [i f]. cbn [fst snd].
  destruct (0 <=? a)%Z; [destruct (1000000 <=? f)%Z|destruct (- f <? 0)%Z]; cbn [fst snd]; lia.
Qed.

(** ** FILETIME *)
Lemma counted_timestamp t n : counted t n <-> n = (fst (timestamp_to_sec_us (since_1970 t) tick) * 1000000 + snd (timestamp_to_sec_us (since_1970 t) tick))%Z.
Proof. apply (counted_model (since_1970 t) tick n). reflexivity. Qed.

Theorem filetime_read t shown w : fits_i64 t ->
  parse_filetime (enci64 t) = (w, Ok shown) <-> time_read t shown /\ w = time_said t shown.
Proof.
  intros Hf. destruct (Z.eq_dec t 0) as [->|H0].
  { rewrite filetime_zero. unfold time_read, time_said, ret. split.
    - intros [= <- <-]. split; [now left|reflexivity].
    - destruct shown as [dt|]; [intros [(H & _) _]; now destruct H|]. intros [_ ->]. reflexivity. }
  unfold parse_filetime. rewrite unpack_enci64 by assumption. rewrite bind_ret_l. replace (t =? 0)%Z with false by lia.
  assert (E70 : (t - epoch_as_filetime = since_1970 t)%Z).
  { unfold since_1970, filetime_instant, epoch_as_filetime. change (day_number 1601 1 1) with 584388%Z.
    change (day_number 1970 1 1) with 719162%Z. lia. }
  rewrite E70. change hundreds_of_nanoseconds with tick.
  destruct (timestamp_spec (since_1970 t) 40 ltac:(lia) (since_1970_range t Hf)) as (s & u & ES & Hu & _).
  pose proof (fromtimestamp_spec _ _ _ _ ES Hu) as [F1 F2]. cbv zeta in F1, F2.
  pose proof (counted_timestamp t) as HC. rewrite ES in HC. cbn [fst snd] in HC.
  set (R := (day_number 1970 1 1 * 86400 * 1000000 + (s * 1000000 + u))%Z) in *.
  destruct (Z_le_dec 0 R) as [HL|HL]; [destruct (Z_lt_dec R end_of_time) as [HU|HU]|].
  - destruct (F1 (conj HL HU)) as (dt & -> & V & M). unfold ret. split.
    + intros [= <- <-]. unfold time_read. split; [|reflexivity]. split; [exact H0|]. split; [exact V|]. apply HC. unfold R in M. lia.
    + intros [HR ->]. destruct shown as [dt'|].
      * destruct HR as (_ & V' & HC'). apply HC in HC'. cbn [time_said]. replace dt' with dt; [reflexivity|].
        apply microseconds_inj; [assumption..|]. unfold R in M. lia.
      * destruct HR as [HR|(n & HC' & NR)]; [contradiction|]. apply HC in HC'. subst n. unfold R in *. lia.
  - rewrite F2 by lia. unfold bind, warn, ret. cbn [fst snd app]. split.
    + intros [= <- <-]. unfold time_read, time_said. replace (t =? 0)%Z with false by lia. split; [|reflexivity].
      right. exists (s * 1000000 + u)%Z. split; [now apply HC|]. unfold R in *. lia.
    + intros [HR ->]. destruct shown as [dt'|].
      * destruct HR as (_ & V' & HC'). apply HC in HC'. pose proof (microseconds_range dt' V'). unfold R in *. lia.
      * unfold time_said. replace (t =? 0)%Z with false by lia. reflexivity.
  - rewrite F2 by lia. unfold bind, warn, ret. cbn [fst snd app]. split.
    + intros [= <- <-]. unfold time_read, time_said. replace (t =? 0)%Z with false by lia. split; [|reflexivity].
      right. exists (s * 1000000 + u)%Z. split; [now apply HC|]. unfold R in *. lia.
    + intros [HR ->]. destruct shown as [dt'|].
      * destruct HR as (_ & V' & HC'). apply HC in HC'. pose proof (microseconds_range dt' V'). unfold R in *. lia.
      * unfold time_said. replace (t =? 0)%Z with false by lia. reflexivity.
Qed.
