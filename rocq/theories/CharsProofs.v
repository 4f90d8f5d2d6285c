(** * Proofs about single characters (C12, C13) *)
From Verif Require Import Lemmas Codec Spec SpecText TextProofs SpecChars.

(** ** Windows-1252 *)

Fixpoint byte_of_table (n : N) (l : list (N * N)) : option N :=
  match l with
  | [] => None
  | (c, m) :: r => if m =? n then Some c else byte_of_table n r
  end.
Lemma byte_of_table_in n l c : NoDup (map snd l) -> In (c, n) l <-> byte_of_table n l = Some c.
Proof.
  induction l as [|[c' m] l IH]; cbn [map snd In byte_of_table]; intros H; [split; [tauto|discriminate]|].
  inversion H as [|? ? H1 H2]; subst. destruct (m =? n) eqn:E.
  - apply N.eqb_eq in E as ->. split; [|intros [= ->]; now left]. intros [[= ->]|HI]; [reflexivity|].
    destruct H1. apply in_map_iff. now exists (c, n).
  - rewrite <- IH by assumption. split; [|tauto]. intros [[= -> ->]|HI]; [lia|assumption].
Qed.
Definition stands_char (x : byte) : option N :=
  if (b2n x <? 0x80) || (0xA0 <=? b2n x) then Some (b2n x) else byte_of_table (b2n x) windows_1252_table.
Lemma stands_char_eq x : cp1252_char x = stands_char x.
Proof. destruct x; vm_compute; reflexivity. Qed.
Lemma table_high c n : In (c, n) windows_1252_table -> 0x80 <= n < 0xA0.
Proof.
  assert (H : forallb (fun e => (0x80 <=? snd e) && (snd e <? 0xA0)) windows_1252_table = true) by (vm_compute; reflexivity).
  rewrite forallb_forall in H. intros HI. specialize (H _ HI). cbn [snd] in H. lia.
Qed.
Lemma table_once : NoDup (map snd windows_1252_table).
Proof. vm_compute. repeat (constructor; [cbn [In]; intuition discriminate|]). constructor. Qed.
Lemma stands_iff x c : stands_for x c <-> cp1252_char x = Some c.
Proof.
  rewrite stands_char_eq. unfold stands_for, stands_char. destruct ((b2n x <? 0x80) || (0xA0 <=? b2n x)) eqn:E.
  - split; [|intros [= <-]; left; split; [lia|reflexivity]]. intros [[_ ->]|H]; [reflexivity|]. apply table_high in H. lia.
  - rewrite <- byte_of_table_in by apply table_once. split; [|tauto]. intros [[H _]|H]; [lia|assumption].
Qed.
Lemma unassigned_iff x : unassigned x <-> cp1252_char x = None.
Proof. destruct x; vm_compute; intuition discriminate. Qed.

Lemma page_strict b t : strict cp1252 b = Some t <-> Forall2 stands_for b t.
Proof.
  cbn [strict cp1252 event_codec]. revert t. induction b as [|x b IH]; intros t; cbn [map all_some].
  - split; [intros [= <-]; constructor|]. intros H. inversion H. reflexivity.
  - split.
    + destruct (cp1252_char x) as [c|] eqn:E; [|discriminate]. destruct (all_some _) as [t'|] eqn:E'; [|discriminate].
      intros [= <-]. constructor; [now apply stands_iff|now apply IH].
    + intros H. inversion H as [|? c ? t' H1 H2]; subst. apply stands_iff in H1 as ->. apply IH in H2 as ->. reflexivity.
Qed.
Lemma page_replace b t :
  replace cp1252 b = t <-> Forall2 (fun x c => stands_for x c \/ unassigned x /\ c = 0xFFFD) b t.
Proof.
  cbn [replace cp1252 event_codec]. unfold replaced. rewrite map_map. revert t. induction b as [|x b IH]; intros t; cbn [map].
  - split; [intros <-; constructor|]. intros H. inversion H. reflexivity.
  - split.
    + intros <-. constructor; [|now apply IH]. destruct (cp1252_char x) as [c|] eqn:E.
      * left. now apply stands_iff.
      * right. split; [now apply unassigned_iff|reflexivity].
    + intros H. inversion H as [|? c ? t' H1 H2]; subst. apply IH in H2 as <-. f_equal.
      destruct H1 as [H1|[H1 ->]]; [apply stands_iff in H1 as ->|apply unassigned_iff in H1 as ->]; reflexivity.
Qed.
Lemma page_defined x : unassigned x \/ exists c, stands_for x c.
Proof.
  destruct (cp1252_char x) as [c|] eqn:E; [right; exists c; now apply stands_iff|left; now apply unassigned_iff].
Qed.
Lemma page_never_both x c : unassigned x -> ~ stands_for x c.
Proof. rewrite stands_iff, unassigned_iff. congruence. Qed.
Lemma page_strict_none b : strict cp1252 b = None <-> Exists unassigned b.
Proof.
  cbn [strict cp1252 event_codec]. induction b as [|x b IH]; cbn [map all_some].
  - split; [discriminate|]. intros H. inversion H.
  - rewrite Exists_cons, unassigned_iff, <- IH. destruct (cp1252_char x) as [c|], (all_some _); intuition discriminate.
Qed.

(** A field read with the default code page. *)
Theorem default_page field body :
  ~ In x00 body -> body <> [] -> (field = body \/ exists rest, field = body ++ x00 :: rest) ->
  (forall t, Forall2 stands_for body t -> read_string CpNone field = ret t)
  /\ (forall t, Exists unassigned body -> Forall scalar t -> body = utf8 t -> read_string CpNone field = ret t)
  /\ (forall t, Exists unassigned body -> (forall u, Forall scalar u -> body <> utf8 u) ->
      Forall2 (fun x c => stands_for x c \/ unassigned x /\ c = 0xFFFD) body t ->
      read_string CpNone field = ([WDecode t], Ok t)).
Proof.
  intros Hn H0 Hf. destruct (code_page_field CpNone field body ltac:(discriminate) Hn Hf) as (_ & A & B & C).
  cbn [page_of] in A, B, C. split; [|split].
  - intros t H. apply A; [assumption|]. now apply page_strict.
  - intros t H Hs E. apply B; try assumption. now apply page_strict_none.
  - intros t H Hu Ht. apply page_replace in Ht as <-. apply C; try assumption. now apply page_strict_none.
Qed.

(** ** Malformed UTF-16 *)

Lemma num_unit c0 c1 r : num 2 0 (c0 :: c1 :: r) = unit16 c0 c1.
Proof.
  unfold num. change (dropN 0 (c0 :: c1 :: r)) with (c0 :: c1 :: r). change (takeN 2 (c0 :: c1 :: r)) with (c0 :: c1 :: takeN 0 r).
  replace (takeN 0 r) with (@nil byte) by (now destruct r). cbn [le_val]. unfold unit16. lia.
Qed.
Lemma wide_events b t : wide_chars b t -> utf16_replace b = t.
Proof.
  unfold utf16_replace. induction 1 as [|c r t Hc H IH|u r t Hu H IH|u r t Hu Hl Hn H IH|u r Hu Hl|x].
  - reflexivity.
  - rewrite utf16_events_char by assumption. cbn [replaced map]. f_equal. exact IH.
  - unfold second_half in Hu. cbn [enc16 app utf16_events]. rewrite unit16_enc by lia. unfold is_surrogate, is_high.
    replace ((55296 <=? u) && (u <=? 57343)) with true by lia. replace ((55296 <=? u) && (u <=? 56319)) with false by lia.
    cbn [negb replaced map]. f_equal. exact IH.
  - unfold first_half in Hu. destruct r as [|c0 [|c1 r']]; [unfold lenN in Hl; cbn [length] in Hl; lia|unfold lenN in Hl; cbn [length] in Hl; lia|]. cbn [enc16 app].
    cbn [utf16_events] in IH |- *. rewrite unit16_enc by lia.
    replace (is_surrogate u) with true by (unfold is_surrogate; lia). replace (is_high u) with true by (unfold is_high; lia).
    cbn [negb]. assert (E : is_low (unit16 c0 c1) = false).
    { rewrite num_unit in Hn. unfold second_half in Hn. unfold is_low. lia. }
    rewrite E. cbn [replaced map]. f_equal. exact IH.
  - unfold first_half in Hu. cbn [enc16 app utf16_events]. rewrite unit16_enc by lia. unfold is_surrogate, is_high.
    replace ((55296 <=? u) && (u <=? 57343)) with true by lia. replace ((55296 <=? u) && (u <=? 56319)) with true by lia.
    cbn [negb]. destruct r as [|c0 [|c1 r']]; [reflexivity|reflexivity|]. unfold lenN in Hl. cbn [length] in Hl. lia.
  - reflexivity.
Qed.
Lemma wide_exists b : wide_chars b (utf16_replace b).
Proof.
  remember (length b) as n eqn:En. revert b En. induction n as [n IH] using lt_wf_ind. intros b ->.
  destruct b as [|a0 [|a1 r]]; [constructor|constructor|].
  assert (IHr : wide_chars r (utf16_replace r)) by (apply (IH (length r)); [cbn; lia|reflexivity]).
  pose proof (unit16_lt a0 a1) as Lt. pose proof (enc16_unit a0 a1) as Eu.
  assert (EB : a0 :: a1 :: r = enc16 (unit16 a0 a1) ++ r) by (rewrite Eu; reflexivity).
  assert (X : exists t, wide_chars (a0 :: a1 :: r) t); [|destruct X as [t X]; now rewrite (wide_events _ _ X)].
  rewrite EB. set (u := unit16 a0 a1) in *.
  assert (C : u < 0xD800 \/ 0xE000 <= u \/ second_half u \/ first_half u) by (unfold second_half, first_half; lia).
  destruct C as [C|[C|[C|C]]].
  - exists (u :: utf16_replace r). replace (enc16 u) with (utf16_char u) by (unfold utf16_char; now replace (u <? 0x10000) with true by lia).
    constructor; [left; lia|assumption].
  - exists (u :: utf16_replace r). replace (enc16 u) with (utf16_char u) by (unfold utf16_char; now replace (u <? 0x10000) with true by lia).
    constructor; [right; lia|assumption].
  - exists (0xFFFD :: utf16_replace r). now constructor.
  - destruct r as [|c0 [|c1 r']].
    + exists [0xFFFD]. now constructor.
    + exists [0xFFFD]. constructor; [assumption|unfold lenN; cbn [length]; lia].
    + pose proof (unit16_lt c0 c1) as Lv. pose proof (enc16_unit c0 c1) as Ev.
      pose proof (num_unit c0 c1 r') as Nv.
      set (v := unit16 c0 c1) in *.
      assert (D : second_half v \/ ~ second_half v) by (unfold second_half; lia). destruct D as [D|D].
      * exists (0x10000 + (u - 0xD800) * 1024 + (v - 0xDC00) :: utf16_replace r').
        unfold first_half in C. unfold second_half in D.
        set (c := 0x10000 + (u - 0xD800) * 1024 + (v - 0xDC00)).
        replace (enc16 u ++ c0 :: c1 :: r') with (utf16_char c ++ r').
        { constructor; [right; lia|]. apply (IH (length r')); [cbn; lia|reflexivity]. }
        unfold utf16_char. replace (c <? 0x10000) with false by lia. rewrite <- app_assoc.
        replace (0xD800 + (c - 0x10000) / 1024) with u by lia. replace (0xDC00 + (c - 0x10000) mod 1024) with v by lia.
        rewrite Ev. reflexivity.
      * exists (0xFFFD :: utf16_replace (c0 :: c1 :: r')). apply wide_first; [assumption|unfold lenN; cbn [length]; lia|now rewrite Nv|].
        exact IHr.
Qed.
Lemma wide_good b t : Forall scalar t -> b = utf16 t -> wide_chars b t.
Proof.
  intros H ->. induction H as [|c t Hc H IH]; cbn [utf16 flat_map]; [constructor|]. now constructor.
Qed.
Theorem wide_field field t : snd (read_unicode_string field) = Ok t <-> wide_chars (before_nul_unit field) t.
Proof.
  rewrite read_unicode_field. cbn [snd]. unfold wide_text. split.
  - intros [= <-]. destruct (utf16_strict (before_nul_unit field)) as [t'|] eqn:E; [|apply wide_exists].
    apply utf16_strict_spec in E as [HS HE]. now apply wide_good.
  - intros H. f_equal. destruct (utf16_strict (before_nul_unit field)) as [t'|] eqn:E; [|now apply wide_events].
    apply utf16_strict_spec in E as [HS HE]. apply wide_events in H as <-.
    symmetry. apply wide_events. now apply wide_good.
Qed.
