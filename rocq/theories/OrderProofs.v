(** * The order of times (C64) *)
From Coq Require Import QArith Qabs Qpower Lqa.
From Verif Require Import Lemmas PyTime Utils Spec SpecTime SpecDouble EncProofs TimeProofs DoubleProofs.
#[local] Open Scope Q_scope.

Lemma ratio_of (q : Q) : q == inject_Z (Qnum q) / inject_Z (Z.pos (Qden q)).
Proof. destruct q as [a b]. apply Qmake_Qdiv. Qed.
Lemma nearest_double_unique q x y : nearest_double q x -> nearest_double q y -> x == y.
Proof.
  intros Hx Hy. destruct (Z.le_gt_cases 0 (Qnum q)) as [H|H].
  - pose proof (ratio_of q) as R. rewrite R in Hx, Hy. apply true_div_nearest in Hx; [|lia..]. apply true_div_nearest in Hy; [|lia..]. now rewrite Hx, Hy.
  - apply nearest_double_opp in Hx. apply nearest_double_opp in Hy. pose proof (ratio_of (- q)) as R. rewrite R in Hx, Hy. cbn [Qopp Qnum Qden] in Hx, Hy.
    apply true_div_nearest in Hx; [|lia..]. apply true_div_nearest in Hy; [|lia..]. rewrite <- (Qopp_involutive x), Hx, <- Hy. apply Qopp_involutive.
Qed.
Lemma nearest_integer_unique q x y : nearest_integer q x -> nearest_integer q y -> x = y.
Proof.
  intros Hx Hy. pose proof (ratio_of q) as R. rewrite R in Hx, Hy. destruct (rhe_nearest (Qnum q) (Z.pos (Qden q)) ltac:(lia)) as [_ H].
  rewrite (H x Hx), (H y Hy). reflexivity.
Qed.

(** Of two numbers on both sides of two targets, the nearer ones lie in the order of the targets. *)
Lemma crossing q1 q2 x1 x2 : q1 <= q2 -> x2 < x1 ->
  Qabs (q1 - x1) <= Qabs (q1 - x2) -> Qabs (q2 - x2) <= Qabs (q2 - x1) -> q1 == q2.
Proof. intros Hq Hx. do 4 (apply Qabs_case; intros ?); intros; lra. Qed.
Lemma nearest_double_mono q1 q2 x1 x2 : q1 <= q2 -> nearest_double q1 x1 -> nearest_double q2 x2 -> x1 <= x2.
Proof.
  intros Hq H1 H2. destruct (Qlt_le_dec x2 x1) as [C|]; [|assumption]. exfalso.
  assert (E : q1 == q2) by (apply (crossing q1 q2 x1 x2); [assumption..|now apply H1, H2|now apply H2, H1]).
  rewrite E in H1. pose proof (nearest_double_unique _ _ _ H1 H2). lra.
Qed.
Lemma nearest_integer_mono q1 q2 n1 n2 : q1 <= q2 -> nearest_integer q1 n1 -> nearest_integer q2 n2 -> (n1 <= n2)%Z.
Proof.
  intros Hq H1 H2. destruct (Z.le_gt_cases n1 n2) as [|C]; [assumption|]. exfalso. apply inj_lt in C.
  assert (E : q1 == q2) by (apply (crossing q1 q2 (inject_Z n1) (inject_Z n2)); [assumption..|apply H1|apply H2]).
  rewrite E in H1. rewrite (nearest_integer_unique _ _ _ H1 H2) in C. lra.
Qed.
Lemma distance_self x : Qabs (x - x) == 0.
Proof. setoid_replace (x - x) with 0 by ring. reflexivity. Qed.
Lemma nearest_self x : double x -> nearest_double x x.
Proof.
  intros D. split; [exact D|]. split.
  - intros y _. rewrite distance_self. apply Qabs_nonneg.
  - intros y _ N E. exfalso. apply N. rewrite distance_self in E. revert E. apply Qabs_case; intros; lra.
Qed.
Lemma nearest_integer_self n : nearest_integer (inject_Z n) n.
Proof.
  split.
  - intros k. rewrite distance_self. apply Qabs_nonneg.
  - intros k N E. exfalso. apply N. apply inject_Z_injective. rewrite distance_self in E. revert E. apply Qabs_case; intros; lra.
Qed.
Lemma small_double n : (Z.abs n < 2 ^ 53)%Z -> double (inject_Z n).
Proof. intros H. exists n, 0%Z. split; [exact H|]. now rewrite Qmult_1_r. Qed.

Lemma whole_part_nonneg x : 0 <= x -> (0 <= whole_part x)%Z /\ inject_Z (whole_part x) <= x < inject_Z (whole_part x) + 1.
Proof.
  destruct x as [a b]. intros H. assert (Ha : (0 <= a)%Z) by (unfold Qle in H; cbn in H; lia).
  unfold whole_part. cbn [Qnum Qden]. rewrite Z.quot_div_nonneg by lia.
  pose proof (Z.div_mod a (Z.pos b) ltac:(lia)) as DM. pose proof (Z.mod_pos_bound a (Z.pos b) ltac:(lia)) as BM.
  split; [apply Z.div_pos; lia|]. unfold Qle, Qlt, Qplus. cbn [inject_Z Qnum Qden]. split; nia.
Qed.
Lemma whole_part_nonpos x : x <= 0 -> (whole_part x <= 0)%Z /\ inject_Z (whole_part x) - 1 < x <= inject_Z (whole_part x).
Proof.
  intros H. destruct (whole_part_nonneg (- x) ltac:(lra)) as [H1 H2]. rewrite whole_part_opp in *. rewrite inject_Z_opp in H2. split; [lia|]. lra.
Qed.

(** The part behind the point, in microseconds. *)
Definition micros (x micro : Q) (us : Z) : Prop :=
  nearest_double ((x - inject_Z (whole_part x)) * inject_Z 1000000) micro /\ nearest_integer micro us.
Lemma micros_nonneg x micro us : 0 <= x -> micros x micro us -> (0 <= us <= 1000000)%Z.
Proof.
  intros H [H1 H2]. destruct (whole_part_nonneg x H) as [_ [W1 W2]].
  assert (B0 : inject_Z 0 <= micro).
  { apply (nearest_double_mono (inject_Z 0) ((x - inject_Z (whole_part x)) * inject_Z 1000000) (inject_Z 0) micro); [|apply nearest_self, (small_double 0); reflexivity|exact H1].
    change (inject_Z 1000000) with (1000000 # 1). change (inject_Z 0) with 0. lra. }
  assert (B1 : micro <= inject_Z 1000000).
  { apply (nearest_double_mono ((x - inject_Z (whole_part x)) * inject_Z 1000000) (inject_Z 1000000) micro (inject_Z 1000000)); [|exact H1|apply nearest_self, (small_double 1000000); reflexivity].
    change (inject_Z 1000000) with (1000000 # 1). lra. }
  split.
  - exact (nearest_integer_mono _ _ _ _ B0 (nearest_integer_self 0) H2).
  - exact (nearest_integer_mono _ _ _ _ B1 H2 (nearest_integer_self 1000000)).
Qed.
Lemma micros_opp x micro us : micros x micro us -> micros (- x) (- micro) (- us).
Proof.
  intros [H1 H2]. split; [|now apply nearest_integer_opp]. apply nearest_double_opp in H1. rewrite whole_part_opp, inject_Z_opp.
  setoid_replace ((- x - - inject_Z (whole_part x)) * inject_Z 1000000) with (- ((x - inject_Z (whole_part x)) * inject_Z 1000000)) by ring.
  exact H1.
Qed.
Lemma micros_nonpos x micro us : x <= 0 -> micros x micro us -> (- 1000000 <= us <= 0)%Z.
Proof. intros H HM. apply micros_opp in HM. apply micros_nonneg in HM; [lia|lra]. Qed.

Lemma counted_from_mono q1 q2 n1 n2 : q1 <= q2 -> counted_from q1 n1 -> counted_from q2 n2 -> (n1 <= n2)%Z.
Proof.
  intros Hq (x1 & y1 & u1 & X1 & Y1 & U1 & ->) (x2 & y2 & u2 & X2 & Y2 & U2 & ->).
  pose proof (nearest_double_mono _ _ _ _ Hq X1 X2) as HX.
  assert (EQ : whole_part x1 = whole_part x2 -> (u1 <= u2)%Z).
  { intros E. apply (nearest_integer_mono y1 y2); [|assumption..].
    refine (nearest_double_mono _ _ _ _ _ Y1 Y2). rewrite E. change (inject_Z 1000000) with (1000000 # 1). lra. }
  destruct (Qlt_le_dec x2 0) as [C2|C2].
  - destruct (whole_part_nonpos x1 ltac:(lra)) as [_ W1]. destruct (whole_part_nonpos x2 ltac:(lra)) as [_ W2].
    pose proof (micros_nonpos x1 y1 u1 ltac:(lra) (conj Y1 U1)). pose proof (micros_nonpos x2 y2 u2 ltac:(lra) (conj Y2 U2)).
    destruct (Z.lt_trichotomy (whole_part x1) (whole_part x2)) as [L|[E|G]]; [lia|rewrite E; specialize (EQ E); lia|exfalso].
    assert (G' : (whole_part x2 + 1 <= whole_part x1)%Z) by lia. apply inj_le in G'. rewrite inject_Z_plus in G'. change (inject_Z 1) with 1 in G'. lra.
  - destruct (whole_part_nonneg x2 C2) as [P2 W2]. pose proof (micros_nonneg x2 y2 u2 C2 (conj Y2 U2)).
    destruct (Qlt_le_dec x1 0) as [C1|C1].
    + destruct (whole_part_nonpos x1 ltac:(lra)) as [P1 _]. pose proof (micros_nonpos x1 y1 u1 ltac:(lra) (conj Y1 U1)). lia.
    + destruct (whole_part_nonneg x1 C1) as [P1 W1]. pose proof (micros_nonneg x1 y1 u1 C1 (conj Y1 U1)).
      destruct (Z.lt_trichotomy (whole_part x1) (whole_part x2)) as [L|[E|G]]; [lia|rewrite E; specialize (EQ E); lia|exfalso].
      assert (G' : (whole_part x2 + 1 <= whole_part x1)%Z) by lia. apply inj_le in G'. rewrite inject_Z_plus in G'. change (inject_Z 1) with 1 in G'. lra.
Qed.
Lemma counted_mono t1 t2 n1 n2 : (t1 <= t2)%Z -> counted t1 n1 -> counted t2 n2 -> (n1 <= n2)%Z.
Proof.
  intros H. apply counted_from_mono. apply Qmult_le_compat_r; [|discriminate]. rewrite <- inj_le. unfold since_1970, filetime_instant. lia.
Qed.

Lemma time_read_mono t1 t2 d1 d2 : (t1 <= t2)%Z -> time_read t1 (Some d1) -> time_read t2 (Some d2) -> (microseconds d1 <= microseconds d2)%Z.
Proof. intros H (_ & _ & C1) (_ & _ & C2). pose proof (counted_mono _ _ _ _ H C1 C2). lia. Qed.
Lemma time_read_between t1 t t2 d1 d2 shown : (t1 <= t <= t2)%Z -> t <> 0%Z ->
  time_read t1 (Some d1) -> time_read t2 (Some d2) -> time_read t shown -> shown <> None.
Proof.
  intros [H1 H2] H0 (_ & V1 & C1) (_ & V2 & C2) H ->. destruct H as [H|(n & C & HN)]; [contradiction|]. apply HN.
  pose proof (counted_mono _ _ _ _ H1 C1 C). pose proof (counted_mono _ _ _ _ H2 C C2).
  pose proof (microseconds_range d1 V1). pose proof (microseconds_range d2 V2). lia.
Qed.
