(** * Text decoding (C12, C13) *)
From Verif Require Import Lemmas Codec Spec SpecText EncProofs OutcomeProofs.

(** ** Splitting at NUL *)

Lemma split_nul_first b : forall c, exists r, split_nul c b = (c ++ before_nul b) :: r.
Proof.
  induction b as [|x b IH]; intros c; cbn [split_nul before_nul].
  - exists []. now rewrite app_nil_r.
  - destruct (Byte.eqb x x00).
    + eexists. rewrite app_nil_r. reflexivity.
    + destruct (IH (c ++ [x])) as [r ->]. exists r. rewrite <- app_assoc. reflexivity.
Qed.
Lemma read_string_field cp b : usable cp -> read_string cp b = (field_warning cp b, Ok (field_text cp b)).
Proof.
  intros Hcp. rewrite read_string_eq. destruct (split_nul_first b []) as [r ->]. cbn [app].
  unfold chars_to_string, field_text, field_warning.
  destruct (before_nul b) as [|x b']; [reflexivity|].
  assert (E : tp_codec cp = Some (page_of cp)) by (destruct cp; [reflexivity|reflexivity|now destruct Hcp]).
  rewrite E. unfold page_text, page_warning. destruct (strict _ _); [reflexivity|].
  destruct (utf8_strict _); reflexivity.
Qed.

Lemma pair_ind (P : bytes -> Prop) :
  P [] -> (forall a, P [a]) -> (forall a b (r : bytes), P r -> P (a :: b :: r)) -> forall l, P l.
Proof.
  intros H0 H1 H2. enough (G : forall l, P l /\ forall a, P (a :: l)) by (intros l; apply G).
  induction l as [|x l [IH1 IH2]]; split; auto.
Qed.
Lemma split_nul_units_first b : forall c, exists r, split_nul_units c (two_bytes_each b) = (c ++ before_nul_unit b) :: r.
Proof.
  induction b as [|a|a c0 r IH] using pair_ind; intros c; cbn [two_bytes_each split_nul_units before_nul_unit is_nul_unit].
  - exists []. now rewrite app_nil_r.
  - exists []. reflexivity.
  - destruct (Byte.eqb a x00 && Byte.eqb c0 x00).
    + eexists. rewrite app_nil_r. reflexivity.
    + destruct (IH (c ++ [a; c0])) as [r' ->]. exists r'. rewrite <- app_assoc. reflexivity.
Qed.
Lemma read_unicode_field b : read_unicode_string b = (wide_warning b, Ok (wide_text b)).
Proof.
  rewrite read_unicode_string_eq. destruct (split_nul_units_first b []) as [r ->]. cbn [app].
  unfold uchars_to_string, wide_text, wide_warning. destruct (utf16_strict _); reflexivity.
Qed.

Lemma before_nul_app body rest : ~ In x00 body -> before_nul (body ++ x00 :: rest) = body.
Proof.
  induction body as [|x b IH]; intros H; cbn [app before_nul]; [reflexivity|].
  destruct (Byte.eqb x x00) eqn:E; [apply byte_eqb_eq in E; subst; exfalso; apply H; now left|].
  rewrite IH; [reflexivity|]. intros HI. apply H. now right.
Qed.
Lemma before_nul_all body : ~ In x00 body -> before_nul body = body.
Proof.
  induction body as [|x b IH]; intros H; cbn [before_nul]; [reflexivity|].
  destruct (Byte.eqb x x00) eqn:E; [apply byte_eqb_eq in E; subst; exfalso; apply H; now left|].
  rewrite IH; [reflexivity|]. intros HI. apply H. now right.
Qed.
Lemma before_nul_none b : ~ In x00 (before_nul b).
Proof.
  induction b as [|x b IH]; cbn [before_nul]; [intros []|].
  destruct (Byte.eqb x x00) eqn:E; [intros []|]. intros [->|H]; [discriminate|contradiction].
Qed.
Lemma before_nul_cut b rest : before_nul (b ++ x00 :: rest) = before_nul b.
Proof.
  induction b as [|x b IH]; cbn [app before_nul]; [reflexivity|].
  destruct (Byte.eqb x x00); [reflexivity|]. now rewrite IH.
Qed.
Lemma before_nul_cases b : b = before_nul b \/ exists rest, b = before_nul b ++ x00 :: rest.
Proof.
  induction b as [|x b IH]; cbn [before_nul]; [now left|].
  destruct (Byte.eqb x x00) eqn:E; [apply byte_eqb_eq in E; subst; right; now exists b|].
  destruct IH as [IH|[r IH]]; [left|right; exists r]; cbn [app]; now f_equal.
Qed.

Lemma before_nul_unit_cut (b rest : bytes) :
  N.even (lenN b) = true -> before_nul_unit (b ++ x00 :: x00 :: rest) = before_nul_unit b.
Proof.
  induction b as [|a|a c0 r IH] using pair_ind; intros H; cbn [app before_nul_unit]; [reflexivity|discriminate|].
  destruct (Byte.eqb a x00 && Byte.eqb c0 x00); [reflexivity|]. rewrite IH; [reflexivity|].
  rewrite !lenN_cons in H. replace (1 + (1 + lenN r)) with (2 + lenN r) in H by lia.
  rewrite N.even_add in H. cbn in H. now destruct (N.even (lenN r)).
Qed.

(** ** UTF-16 *)

Lemma unit16_enc n : n < 65536 -> unit16 (n2b n) (n2b (n / 256)) = n.
Proof. intros H. unfold unit16. rewrite !b2n_n2b. lia. Qed.
Lemma enc16_unit a b : enc16 (unit16 a b) = [a; b].
Proof.
  unfold enc16, unit16. pose proof (b2n_lt a). pose proof (b2n_lt b).
  f_equal; [|f_equal]; apply b2n_inj; rewrite b2n_n2b; lia.
Qed.
Lemma unit16_lt a b : unit16 a b < 65536.
Proof. unfold unit16. pose proof (b2n_lt a). pose proof (b2n_lt b). lia. Qed.

Lemma utf16_events_char c rest : scalar c -> utf16_events (utf16_char c ++ rest) = Some c :: utf16_events rest.
Proof.
  intros H. unfold scalar in H. unfold utf16_char. destruct (c <? 0x10000) eqn:E.
  - cbn [enc16 app utf16_events]. rewrite unit16_enc by lia.
    replace (is_surrogate c) with false by (unfold is_surrogate; lia). reflexivity.
  - cbn [enc16 app utf16_events].
    set (u := 0xD800 + (c - 0x10000) / 1024). set (v := 0xDC00 + (c - 0x10000) mod 1024).
    rewrite !unit16_enc by (subst u v; lia).
    replace (is_surrogate u) with true by (unfold is_surrogate; subst u; lia).
    replace (is_high u) with true by (unfold is_high; subst u; lia).
    replace (is_low v) with true by (unfold is_low; subst v; lia). cbn [negb].
    do 2 f_equal. subst u v. lia.
Qed.
Lemma utf16_events_text t rest : Forall scalar t -> utf16_events (utf16 t ++ rest) = map Some t ++ utf16_events rest.
Proof.
  induction 1 as [|c t Hc Ht IH]; cbn [utf16 flat_map map app]; [reflexivity|].
  fold (utf16 t). rewrite <- app_assoc, utf16_events_char by assumption. now rewrite IH.
Qed.
Lemma all_some_map {A} (t : list A) : all_some (map Some t) = Some t.
Proof. induction t as [|c t IH]; cbn; [reflexivity|]. now rewrite IH. Qed.
Lemma all_some_inv {A} (l : list (option A)) t : all_some l = Some t -> l = map Some t.
Proof.
  revert t; induction l as [|[x|] l IH]; cbn; intros t H; [now injection H as <-| |discriminate].
  destruct (all_some l) as [xs|]; [|discriminate]. injection H as <-. cbn. f_equal. now apply IH.
Qed.
Lemma utf16_strict_text t : Forall scalar t -> utf16_strict (utf16 t) = Some t.
Proof.
  intros H. unfold utf16_strict. rewrite <- (app_nil_r (utf16 t)), utf16_events_text by assumption.
  cbn [utf16_events]. rewrite app_nil_r. apply all_some_map.
Qed.

(** Every event is a scalar value, and a run without errors comes from the encoding. *)
Lemma utf16_events_inv b t :
  utf16_events b = map Some t -> Forall scalar t /\ b = utf16 t.
Proof.
  revert t. remember (length b) as n eqn:En. revert b En.
  induction n as [n IH] using lt_wf_ind. intros b -> t H.
  destruct b as [|a0 [|a1 r]]; cbn [utf16_events] in H.
  - destruct t; [now split|discriminate].
  - destruct t; discriminate.
  - pose proof (unit16_lt a0 a1) as L. pose proof (enc16_unit a0 a1) as EU. set (u := unit16 a0 a1) in *.
    destruct (negb (is_surrogate u)) eqn:ES.
    + destruct t as [|c t]; [discriminate|]. injection H as Hc H.
      apply (IH (length r)) in H as [HF ->]; [|cbn; lia|reflexivity]. subst c. split.
      * constructor; [|assumption]. unfold scalar, is_surrogate in *. lia.
      * cbn [utf16 flat_map]. unfold utf16_char. replace (u <? 0x10000) with true by lia. rewrite EU. reflexivity.
    + destruct (negb (is_high u)) eqn:EH; [destruct t; discriminate|].
      destruct r as [|c0 [|c1 r']]; try (destruct t; discriminate).
      pose proof (unit16_lt c0 c1) as L'. pose proof (enc16_unit c0 c1) as EU'. set (v := unit16 c0 c1) in *.
      destruct (is_low v) eqn:EL; [|destruct t; discriminate].
      destruct t as [|c t]; [discriminate|]. injection H as Hc H.
      apply (IH (length r')) in H as [HF ->]; [|cbn; lia|reflexivity]. unfold is_surrogate, is_high, is_low in *. split.
      * constructor; [|assumption]. unfold scalar. lia.
      * cbn [utf16 flat_map]. unfold utf16_char. replace (c <? 0x10000) with false by lia.
        replace (0xD800 + (c - 0x10000) / 1024) with u by lia. replace (0xDC00 + (c - 0x10000) mod 1024) with v by lia.
        rewrite EU, EU'. reflexivity.
Qed.
Lemma utf16_events_scalar b : Forall (fun o => match o with Some c => scalar c | None => True end) (utf16_events b).
Proof.
  remember (length b) as n eqn:En. revert b En.
  induction n as [n IH] using lt_wf_ind. intros b ->.
  destruct b as [|a0 [|a1 r]]; cbn [utf16_events]; [constructor|repeat constructor|].
  pose proof (unit16_lt a0 a1) as L. set (u := unit16 a0 a1) in *.
  destruct (negb (is_surrogate u)) eqn:ES.
  - constructor; [unfold scalar, is_surrogate in *; lia|]. eapply IH; [|reflexivity]. cbn; lia.
  - destruct (negb (is_high u)) eqn:EH; [constructor; [exact I|]; eapply IH; [|reflexivity]; cbn; lia|].
    destruct r as [|c0 [|c1 r']]; try (repeat constructor; fail).
    pose proof (unit16_lt c0 c1) as L'. set (v := unit16 c0 c1) in *.
    destruct (is_low v) eqn:EL.
    + constructor; [unfold scalar, is_surrogate, is_high, is_low in *; lia|]. eapply IH; [|reflexivity]. cbn; lia.
    + constructor; [exact I|]. eapply (IH (length (c0 :: c1 :: r'))); [cbn; lia|reflexivity].
Qed.
Lemma utf16_replace_scalar b : Forall scalar (utf16_replace b).
Proof.
  unfold utf16_replace, replaced. rewrite Forall_map. eapply Forall_impl; [|apply utf16_events_scalar].
  intros [c|]; [auto|]. intros _. right. lia.
Qed.

(** NUL units of an encoding are NUL characters. *)
Lemma utf16_even t : N.even (lenN (utf16 t)) = true.
Proof.
  induction t as [|c t IH]; cbn [utf16 flat_map]; [reflexivity|]. fold (utf16 t). rewrite lenN_app, N.even_add, IH.
  unfold utf16_char. destruct (c <? 0x10000); reflexivity.
Qed.
Lemma enc16_zero n : n < 65536 -> n <> 0 -> Byte.eqb (n2b n) x00 && Byte.eqb (n2b (n / 256)) x00 = false.
Proof.
  intros H N0. apply andb_false_iff. destruct (Byte.eqb (n2b n) x00) eqn:E1; [|now left].
  right. destruct (Byte.eqb (n2b (n / 256)) x00) eqn:E2; [|reflexivity].
  apply byte_eqb_eq in E1, E2. apply (f_equal b2n) in E1, E2. rewrite b2n_n2b in E1, E2.
  change (b2n x00) with 0 in *. lia.
Qed.
Lemma before_nul_unit_enc n r : n < 65536 -> n <> 0 -> before_nul_unit (enc16 n ++ r) = enc16 n ++ before_nul_unit r.
Proof. intros H N0. cbn [enc16 app before_nul_unit]. now rewrite enc16_zero. Qed.
Lemma before_nul_unit_text t rest : Forall scalar t -> no_nul t ->
  before_nul_unit (utf16 t ++ rest) = utf16 t ++ before_nul_unit rest.
Proof.
  induction 1 as [|c t Hc Ht IH]; intros Hn; cbn [utf16 flat_map app]; [reflexivity|].
  inversion Hn as [|? ? Hn1 Hn2]; subst. fold (utf16 t). unfold scalar in Hc. unfold utf16_char. destruct (c <? 0x10000) eqn:E.
  - rewrite <- !app_assoc. rewrite before_nul_unit_enc by lia. now rewrite IH.
  - rewrite <- !app_assoc. rewrite !before_nul_unit_enc by lia. now rewrite IH.
Qed.
Lemma wide_text_nul t rest : Forall scalar t -> no_nul t ->
  read_unicode_string (utf16 t ++ x00 :: x00 :: rest) = ret t.
Proof.
  intros Hs Hn. rewrite read_unicode_field. unfold wide_warning, wide_text.
  rewrite before_nul_unit_text by assumption. cbn [before_nul_unit Byte.eqb andb].
  change (Byte.eqb x00 x00) with true. cbn [andb]. rewrite app_nil_r, utf16_strict_text by assumption. reflexivity.
Qed.
Lemma wide_text_all t : Forall scalar t -> no_nul t -> read_unicode_string (utf16 t) = ret t.
Proof.
  intros Hs Hn. rewrite read_unicode_field. unfold wide_warning, wide_text.
  rewrite <- (app_nil_r (utf16 t)), before_nul_unit_text by assumption. cbn [before_nul_unit].
  rewrite app_nil_r, utf16_strict_text by assumption. reflexivity.
Qed.
Lemma before_nul_unit_cases b : b = before_nul_unit b \/ exists rest, b = before_nul_unit b ++ x00 :: x00 :: rest.
Proof.
  induction b as [|a|a c0 r IH] using pair_ind; cbn [before_nul_unit]; [now left|now left|].
  destruct (Byte.eqb a x00 && Byte.eqb c0 x00) eqn:E.
  - apply andb_true_iff in E as [E1 E2]. apply byte_eqb_eq in E1, E2. subst. right. now exists r.
  - destruct IH as [IH|[r' IH]]; [left|right; exists r']; cbn [app]; now do 2 f_equal.
Qed.
Lemma before_nul_unit_idem b : before_nul_unit (before_nul_unit b) = before_nul_unit b.
Proof.
  induction b as [|a|a c0 r IH] using pair_ind; cbn [before_nul_unit]; [reflexivity|reflexivity|].
  destruct (Byte.eqb a x00 && Byte.eqb c0 x00) eqn:E; [reflexivity|]. cbn [before_nul_unit]. rewrite E. now rewrite IH.
Qed.
Lemma utf16_no_nul t : Forall scalar t -> before_nul_unit (utf16 t) = utf16 t -> no_nul t.
Proof.
  induction 1 as [|c t Hc Ht IH]; intros H; [constructor|]. cbn [utf16 flat_map] in H. fold (utf16 t) in H.
  destruct (N.eq_dec c 0) as [->|N0]; [discriminate H|].
  constructor; [assumption|]. apply IH. unfold scalar in Hc. unfold utf16_char in H. destruct (c <? 0x10000) eqn:E.
  - rewrite before_nul_unit_enc in H by lia. now apply app_inv_head in H.
  - rewrite <- !app_assoc in H. rewrite !before_nul_unit_enc in H by lia. now apply app_inv_head, app_inv_head in H.
Qed.

(** Total behaviour: some text of scalar values, silent iff well formed. *)
Lemma wide_total b :
  exists t, snd (read_unicode_string b) = Ok t /\ Forall scalar t
    /\ (fst (read_unicode_string b) = [] \/ fst (read_unicode_string b) = [WDecode t])
    /\ (fst (read_unicode_string b) = [] <->
        Forall scalar t /\ no_nul t /\ (b = utf16 t \/ exists rest, b = utf16 t ++ x00 :: x00 :: rest)).
Proof.
  rewrite read_unicode_field. cbn [fst snd]. exists (wide_text b). split; [reflexivity|].
  unfold wide_text, wide_warning. destruct (utf16_strict (before_nul_unit b)) as [t|] eqn:E.
  - assert (E' := E). apply all_some_inv in E' as E2. apply utf16_events_inv in E2 as [HS HE].
    split; [assumption|]. split; [now left|]. split; [|reflexivity]. intros _. split; [assumption|]. split.
    + apply utf16_no_nul; [assumption|]. rewrite <- HE. apply before_nul_unit_idem.
    + rewrite <- HE. apply before_nul_unit_cases.
  - split; [apply utf16_replace_scalar|]. split; [now right|]. split; [discriminate|].
    intros (HS & HN & HB). exfalso. generalize dependent (utf16_replace (before_nul_unit b)). intros t HS HN HB.
    assert (X : before_nul_unit b = utf16 t).
    { destruct HB as [HB|[r HB]]; rewrite HB.
      - rewrite <- (app_nil_r (utf16 t)) at 1. rewrite before_nul_unit_text by assumption. apply app_nil_r.
      - rewrite before_nul_unit_text by assumption. cbn [before_nul_unit]. change (Byte.eqb x00 x00) with true. apply app_nil_r. }
    rewrite X in E. rewrite utf16_strict_text in E by assumption. discriminate.
Qed.

(** ** UTF-8 *)

Lemma ucons_some c r t : ucons c r = Some t -> exists t', t = c :: t' /\ r = Some t'.
Proof. destruct r as [t'|]; cbn; [|discriminate]. intros [= <-]. now exists t'. Qed.

Lemma utf8_strict_char c rest : scalar c -> utf8_strict (utf8_char c ++ rest) = ucons c (utf8_strict rest).
Proof.
  intros H. unfold scalar in H. unfold utf8_char.
  destruct (c <? 0x80) eqn:E1; [|destruct (c <? 0x800) eqn:E2; [|destruct (c <? 0x10000) eqn:E3]];
  cbn [app utf8_strict]; unfold in_range; rewrite !b2n_n2b.
  - replace (c mod 256) with c by lia. now rewrite E1.
  - replace ((0xC0 + c / 64) mod 256) with (0xC0 + c / 64) by lia.
    replace ((0x80 + c mod 64) mod 256) with (0x80 + c mod 64) by lia.
    replace (0xC0 + c / 64 <? 0x80) with false by lia.
    replace ((0xC2 <=? 0xC0 + c / 64) && (0xC0 + c / 64 <=? 0xDF)) with true by lia.
    replace ((0x80 <=? 0x80 + c mod 64) && (0x80 + c mod 64 <=? 0xBF)) with true by lia.
    f_equal. lia.
  - replace ((0xE0 + c / 4096) mod 256) with (0xE0 + c / 4096) by lia.
    replace ((0x80 + c mod 64) mod 256) with (0x80 + c mod 64) by lia.
    replace ((0x80 + c / 64 mod 64) mod 256) with (0x80 + c / 64 mod 64) by lia.
    replace (0xE0 + c / 4096 <? 0x80) with false by lia.
    replace ((0xC2 <=? 0xE0 + c / 4096) && (0xE0 + c / 4096 <=? 0xDF)) with false by lia.
    replace ((0xE0 <=? 0xE0 + c / 4096) && (0xE0 + c / 4096 <=? 0xEF)) with true by lia.
    cbv zeta.
    match goal with |- context [if ?b then ucons ?x ?y else None] => replace b with true; [replace x with c by lia; reflexivity|] end.
    destruct (0xE0 + c / 4096 =? 0xE0) eqn:A, (0xE0 + c / 4096 =? 0xED) eqn:B; lia.
  - replace ((0xF0 + c / 262144) mod 256) with (0xF0 + c / 262144) by lia.
    replace ((0x80 + c mod 64) mod 256) with (0x80 + c mod 64) by lia.
    replace ((0x80 + c / 64 mod 64) mod 256) with (0x80 + c / 64 mod 64) by lia.
    replace ((0x80 + c / 4096 mod 64) mod 256) with (0x80 + c / 4096 mod 64) by lia.
    replace (0xF0 + c / 262144 <? 0x80) with false by lia.
    replace ((0xC2 <=? 0xF0 + c / 262144) && (0xF0 + c / 262144 <=? 0xDF)) with false by lia.
    replace ((0xE0 <=? 0xF0 + c / 262144) && (0xF0 + c / 262144 <=? 0xEF)) with false by lia.
    replace ((0xF0 <=? 0xF0 + c / 262144) && (0xF0 + c / 262144 <=? 0xF4)) with true by lia.
    cbv zeta.
    match goal with |- context [if ?b then ucons ?x ?y else None] => replace b with true; [replace x with c by lia; reflexivity|] end.
    destruct (0xF0 + c / 262144 =? 0xF0) eqn:A, (0xF0 + c / 262144 =? 0xF4) eqn:B; lia.
Qed.
Lemma utf8_strict_text t : Forall scalar t -> utf8_strict (utf8 t) = Some t.
Proof.
  induction 1 as [|c t Hc Ht IH]; cbn [utf8 flat_map]; [reflexivity|]. fold (utf8 t).
  now rewrite utf8_strict_char, IH.
Qed.
Lemma n2b_is a n : n = b2n a -> n2b n = a.
Proof. intros ->. apply n2b_b2n. Qed.
Lemma utf8_strict_inv b t : utf8_strict b = Some t -> Forall scalar t /\ b = utf8 t.
Proof.
  revert t. remember (length b) as n eqn:En. revert b En.
  induction n as [n IH] using lt_wf_ind. intros b -> t H.
  destruct b as [|a r]; cbn [utf8_strict] in H; [injection H as <-; now split|].
  pose proof (b2n_lt a) as La.
  assert (STEP : forall c r' u, ucons c (utf8_strict r') = Some t -> (length r' < length (a :: r))%nat ->
    scalar c -> u = utf8_char c -> a :: r = u ++ r' -> Forall scalar t /\ a :: r = utf8 t).
  { intros c r' u HU HL HS -> HR. apply ucons_some in HU as (t' & -> & HU).
    apply (IH (length r')) in HU as [HF ->]; [|assumption|reflexivity].
    split; [now constructor|]. rewrite HR. reflexivity. }
  destruct (b2n a <? 0x80) eqn:E1.
  { eapply STEP; [exact H|cbn; lia|left; lia|reflexivity|]. unfold utf8_char. rewrite E1. cbn [app]. now rewrite n2b_b2n. }
  destruct (in_range 0xC2 0xDF a) eqn:E2.
  { destruct r as [|c r']; [discriminate|]. destruct (in_range 0x80 0xBF c) eqn:EC; [|discriminate].
    pose proof (b2n_lt c) as Lc. unfold in_range in *.
    eapply STEP; [exact H|cbn; lia|left; lia|reflexivity|]. set (x := (b2n a - 192) * 64 + (b2n c - 128)) in *.
    unfold utf8_char. replace (x <? 0x80) with false by lia. replace (x <? 0x800) with true by lia. cbn [app].
    rewrite (n2b_is a) by lia. rewrite (n2b_is c) by lia. reflexivity. }
  destruct (in_range 0xE0 0xEF a) eqn:E3.
  { destruct r as [|c [|d r']]; try discriminate. cbv zeta in H.
    destruct (in_range _ _ c && in_range 0x80 0xBF d) eqn:EC; [|discriminate].
    pose proof (b2n_lt c) as Lc. pose proof (b2n_lt d) as Ld. unfold in_range in *.
    assert (X : (128 <= b2n c <= 191 /\ (b2n a = 0xE0 -> 0xA0 <= b2n c) /\ (b2n a = 0xED -> b2n c <= 0x9F)
      /\ 128 <= b2n d <= 191 /\ 0xE0 <= b2n a <= 0xEF)).
    { destruct (b2n a =? 0xE0) eqn:A, (b2n a =? 0xED) eqn:B; lia. }
    clear EC E3 E2.
    set (x := (b2n a - 224) * 4096 + (b2n c - 128) * 64 + (b2n d - 128)) in *.
    eapply STEP; [exact H|cbn; lia|unfold scalar; lia|reflexivity|].
    unfold utf8_char. replace (x <? 0x80) with false by lia. replace (x <? 0x800) with false by lia.
    replace (x <? 0x10000) with true by lia. cbn [app].
    rewrite (n2b_is a) by lia. rewrite (n2b_is c) by lia. rewrite (n2b_is d) by lia. reflexivity. }
  destruct (in_range 0xF0 0xF4 a) eqn:E4; [|discriminate].
  destruct r as [|c [|d [|e r']]]; try discriminate. cbv zeta in H.
  destruct (in_range _ _ c && in_range 0x80 0xBF d && in_range 0x80 0xBF e) eqn:EC; [|discriminate].
  pose proof (b2n_lt c) as Lc. pose proof (b2n_lt d) as Ld. pose proof (b2n_lt e) as Le. unfold in_range in *.
  assert (X : (128 <= b2n c <= 191 /\ (b2n a = 0xF0 -> 0x90 <= b2n c) /\ (b2n a = 0xF4 -> b2n c <= 0x8F)
    /\ 128 <= b2n d <= 191 /\ 128 <= b2n e <= 191 /\ 0xF0 <= b2n a <= 0xF4)).
  { destruct (b2n a =? 0xF0) eqn:A, (b2n a =? 0xF4) eqn:B; lia. }
  clear EC E4 E3 E2.
  set (x := (b2n a - 240) * 262144 + (b2n c - 128) * 4096 + (b2n d - 128) * 64 + (b2n e - 128)) in *.
  eapply STEP; [exact H|cbn; lia|unfold scalar; lia|reflexivity|].
  unfold utf8_char. replace (x <? 0x80) with false by lia. replace (x <? 0x800) with false by lia.
  replace (x <? 0x10000) with false by lia. cbn [app].
  rewrite (n2b_is a) by lia. rewrite (n2b_is c) by lia. rewrite (n2b_is d) by lia. rewrite (n2b_is e) by lia. reflexivity.
Qed.
Lemma utf8_strict_spec b t : utf8_strict b = Some t <-> Forall scalar t /\ b = utf8 t.
Proof. split; [apply utf8_strict_inv|]. intros [H ->]. now apply utf8_strict_text. Qed.
Lemma utf16_strict_spec b t : utf16_strict b = Some t <-> Forall scalar t /\ b = utf16 t.
Proof.
  split; [intros H; apply all_some_inv in H; now apply utf16_events_inv|].
  intros [H ->]. now apply utf16_strict_text.
Qed.

(** ** C12, all cases *)
Lemma code_page_field cp field body :
  usable cp -> ~ In x00 body -> (field = body \/ exists rest, field = body ++ x00 :: rest) ->
  let c := page_of cp in
  (body = [] -> read_string cp field = ret [])
  /\ (body <> [] -> forall t, strict c body = Some t -> read_string cp field = ret t)
  /\ (body <> [] -> strict c body = None -> forall t, Forall scalar t -> body = utf8 t -> read_string cp field = ret t)
  /\ (body <> [] -> strict c body = None -> (forall t, Forall scalar t -> body <> utf8 t) ->
      read_string cp field = ([WDecode (replace c body)], Ok (replace c body))).
Proof.
  intros Hcp HN HF c. assert (E : before_nul field = body).
  { destruct HF as [->|[rest ->]]; [now apply before_nul_all|now apply before_nul_app]. }
  rewrite read_string_field by assumption. unfold field_warning, field_text. rewrite E.
  split; [intros ->; reflexivity|].
  destruct body as [|x body]; [split; [|split]; intros H; contradiction|]. set (bd := x :: body) in *.
  unfold page_warning, page_text. fold c.
  split; [intros _ t ->; reflexivity|]. split.
  - intros _ -> t HS HB. rewrite HB, utf8_strict_text by assumption. reflexivity.
  - intros _ -> HU. destruct (utf8_strict bd) as [t|] eqn:EU; [|reflexivity].
    apply utf8_strict_inv in EU as [HS HB]. exfalso. now apply (HU t).
Qed.
Lemma code_page_body field :
  exists body, ~ In x00 body /\ (field = body \/ exists rest, field = body ++ x00 :: rest).
Proof. exists (before_nul field). split; [apply before_nul_none|apply before_nul_cases]. Qed.
Lemma code_page_cut cp field rest1 rest2 :
  usable cp -> read_string cp (field ++ x00 :: rest1) = read_string cp (field ++ x00 :: rest2).
Proof.
  intros H. rewrite !read_string_field by assumption. unfold field_warning, field_text. now rewrite !before_nul_cut.
Qed.
Lemma wide_cut field rest1 rest2 :
  N.even (lenN field) = true ->
  read_unicode_string (field ++ x00 :: x00 :: rest1) = read_unicode_string (field ++ x00 :: x00 :: rest2).
Proof.
  intros H. rewrite !read_unicode_field. unfold wide_warning, wide_text. now rewrite !before_nul_unit_cut.
Qed.

(** Windows-1252 on ASCII. *)
Lemma ascii_strict t : Forall (fun c => c < 128) t -> strict cp1252 (map n2b t) = Some t.
Proof.
  intros H. cbn [cp1252 event_codec strict]. rewrite map_map.
  rewrite (map_ext_in _ Some).
  - apply all_some_map.
  - intros c Hc. rewrite Forall_forall in H. specialize (H c Hc). unfold cp1252_char. rewrite b2n_n2b.
    replace (c mod 256) with c by lia. replace (128 <=? c) with false by lia. reflexivity.
Qed.
Lemma ascii_no_nul t : Forall (fun c => 0 < c < 128) t -> ~ In x00 (map n2b t).
Proof.
  intros H HI. apply in_map_iff in HI as (c & HE & HI). rewrite Forall_forall in H. specialize (H c HI).
  apply (f_equal b2n) in HE. rewrite b2n_n2b in HE. change (b2n x00) with 0 in HE. lia.
Qed.
Lemma ascii_field t rest : Forall (fun c => 0 < c < 128) t -> read_string CpNone (map n2b t ++ x00 :: rest) = ret t.
Proof.
  intros H. destruct (code_page_field CpNone (map n2b t ++ x00 :: rest) (map n2b t)) as (H1 & H2 & _).
  - discriminate.
  - now apply ascii_no_nul.
  - right. now exists rest.
  - destruct t as [|c t]; [now apply H1|]. apply H2; [discriminate|]. apply ascii_strict.
    eapply Forall_impl; [|exact H]. cbn. lia.
Qed.
