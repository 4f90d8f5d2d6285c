(** * The text of a JSON document to the last character (property C68) *)
From Verif Require Import ReportProofs.
From Verif Require Import MainProofs.
From Verif Require Import Lemmas PyTime Codec Utils Header StringData Targets Info Extra LnkFile Json Report.
From Verif Require Import SpecText SpecTime SpecReport FormatProofs OutcomeProofs ShapeProofs JsonProofs SpecJsonText.

(** ** Numbers *)

Lemma span_spec t : forall d r, span_digits t = (d, r) -> t = d ++ r /\ Forall (fun c => is_digit c = true) d.
Proof.
  induction t as [|c t IH]; intros d r H; cbn [span_digits] in H; [injection H as <- <-; split; [reflexivity|constructor]|].
  destruct (is_digit c) eqn:E.
  - destruct (span_digits t) as [d' r'] eqn:E2. injection H as <- <-. destruct (IH _ _ eq_refl) as [-> F].
    split; [reflexivity|now constructor].
  - injection H as <- <-. split; [reflexivity|constructor].
Qed.
Definition no_zero (d : text) : Prop := d <> [] /\ (forall r, d = 48 :: r -> r = []).
Lemma natural_spec t n : natural t = Some (n, []) ->
  Forall (fun c => is_digit c = true) t /\ no_zero t /\ decimal t = n.
Proof.
  unfold natural. destruct (span_digits t) as [d r] eqn:E. apply span_spec in E as [-> F].
  intros H. destruct d as [|c d]; [discriminate|].
  assert (Hr : r = [] /\ decimal (c :: d) = n /\ (c = 48 -> d = [])).
  { destruct (N.eq_dec c 48) as [->|Hc].
    - destruct d as [|c2 d]; [|discriminate]. destruct r as [|x r].
      + injection H as <-. auto.
      + destruct (existsb (N.eqb x) [46; 69; 101]); discriminate.
    - assert (HN : forall (X Y : option (N * text)), match c :: d with 48 :: _ :: _ => X | _ => Y end = Y).
      { intros X Y. destruct c as [|q]; [reflexivity|].
        destruct q as [q|q|]; try reflexivity; destruct q as [q|q|]; try reflexivity; destruct q as [q|q|]; try reflexivity;
        destruct q as [q|q|]; try reflexivity; destruct q as [q|q|]; try reflexivity; destruct q as [q|q|]; try reflexivity.
        congruence. }
      destruct r as [|x r].
      + specialize (HN None (Some (decimal (c :: d), []))).
        assert (X : Some (decimal (c :: d), []) = Some (n, [])) by (etransitivity; [symmetry; exact HN|exact H]).
        injection X as X. repeat split; congruence.
      + exfalso. specialize (HN None (if existsb (N.eqb x) [46; 69; 101] then None else Some (decimal (c :: d), x :: r))).
        assert (X : (if existsb (N.eqb x) [46; 69; 101] then None else Some (decimal (c :: d), x :: r)) = Some (n, []))
          by (etransitivity; [symmetry; exact HN|exact H]).
        destruct (existsb (N.eqb x) [46; 69; 101]); discriminate. }
  destruct Hr as (-> & Hn & H0). rewrite app_nil_r. split; [exact F|]. split; [|exact Hn].
  split; [congruence|]. intros r [= -> ->]. auto.
Qed.
Lemma decimal_snoc d c : decimal (d ++ [c]) = decimal d * 10 + (c - 48).
Proof. unfold decimal. now rewrite fold_left_app. Qed.
Lemma decimal_le d : forall n, n <= fold_left (fun n c => n * 10 + (c - 48)) d n.
Proof. induction d as [|c d IH]; intros n; cbn [fold_left]; [lia|]. etransitivity; [|apply IH]. lia. Qed.
Lemma decimal_pos c d : is_digit c = true -> c <> 48 -> 0 < decimal (c :: d).
Proof.
  intros H Hc. unfold decimal. cbn [fold_left]. eapply N.lt_le_trans; [|apply decimal_le].
  unfold is_digit in H. lia.
Qed.
Lemma decimal_unique : forall d d', Forall (fun c => is_digit c = true) d -> Forall (fun c => is_digit c = true) d' ->
  no_zero d -> no_zero d' -> decimal d = decimal d' -> d = d'.
Proof.
  assert (S1 : forall c, is_digit c = true -> 48 <= c <= 57) by (intros c H; unfold is_digit in H; lia).
  assert (NZ : forall d c, no_zero (d ++ [c]) -> d = [] \/ (no_zero d /\ 0 < decimal d) \/ Exists (fun c => is_digit c = false) d).
  { intros d c [_ H]. destruct d as [|x d]; [now left|]. right.
    destruct (is_digit x) eqn:E; [|right; now constructor]. left. split.
    - split; [congruence|]. intros r [= -> ->]. exfalso. specialize (H _ eq_refl). now destruct r.
    - apply decimal_pos; [exact E|]. intros ->. specialize (H _ eq_refl). now destruct d. }
  induction d as [|c d IH] using rev_ind; intros d' F F' Z Z' E; [now destruct Z|].
  destruct d' as [|c' d' _] using rev_ind; [now destruct Z'|].
  rewrite !decimal_snoc in E. apply Forall_app in F as [F Fc], F' as [F' Fc'].
  apply Forall_inv in Fc, Fc'. apply S1 in Fc, Fc'.
  assert (Ec : c = c' /\ decimal d = decimal d') by lia. destruct Ec as [-> Ed]. f_equal.
  assert (B : forall d, Forall (fun c => is_digit c = true) d -> ~ Exists (fun c => is_digit c = false) d).
  { clear. intros x0 H HE. apply Exists_exists in HE as (x & Hx & E). rewrite Forall_forall in H. apply H in Hx. congruence. }
  destruct (NZ _ _ Z) as [->|[[Zd Pd]|X]]; [| |now apply B in X];
  destruct (NZ _ _ Z') as [->|[[Zd' Pd']|X]]; try (now apply B in X).
  - reflexivity.
  - unfold decimal in Ed at 1. cbn [fold_left] in Ed. lia.
  - unfold decimal in Ed at 2. cbn [fold_left] in Ed. lia.
  - now apply IH.
Qed.
Lemma natural_text n t : natural t = Some (n, []) <-> t = dec_text n.
Proof.
  split.
  - intros H. pose proof (natural_dec n [] I) as H2. rewrite app_nil_r in H2.
    apply natural_spec in H as (F & Z & E), H2 as (F' & Z' & E'). apply decimal_unique; congruence || assumption.
  - intros ->. pose proof (natural_dec n [] I) as H. now rewrite app_nil_r in H.
Qed.
Lemma number_text z t : number z t <-> t = decZ_text z.
Proof.
  split.
  - intros [n t' H|n t' H Hn]; apply natural_text in H as ->.
    + destruct n; reflexivity.
    + destruct n; [lia|]. reflexivity.
  - intros ->. destruct z as [|p|p].
    + apply (number_natural 0). now apply natural_text.
    + apply (number_natural (N.pos p)). now apply natural_text.
    + apply (number_negative (N.pos p)); [now apply natural_text|lia].
Qed.

(** ** Strings *)

Lemma hex_digit a : 48 <= a <= 57 \/ 97 <= a <= 102 -> exists d, d < 16 /\ a = digit_char false d /\ hex_value a = Some d.
Proof.
  intros H. exists (if a <=? 57 then a - 48 else a - 87).
  assert (E : (if a <=? 57 then a - 48 else a - 87) < 16) by (destruct (a <=? 57) eqn:E; lia).
  assert (A : a = digit_char false (if a <=? 57 then a - 48 else a - 87)).
  { unfold digit_char. destruct (a <=? 57) eqn:E1.
    - replace (a - 48 <? 10) with true by lia. lia.
    - replace (a - 87 <? 10) with false by lia. lia. }
  split; [exact E|]. split; [exact A|]. rewrite A at 1. now apply hex_value_char.
Qed.
Lemma hexadecimal_text u t : u < 65536 -> hexadecimal u t <-> t = u_escape u.
Proof.
  intros Hu. unfold u_escape. rewrite hexx_fixd by (cbn; lia). cbn [fixd app map].
  change (s2t "\u") with [92; 117]. cbn [app].
  split.
  - intros (a & b & c & d & -> & H & F). rewrite !Forall_cons_iff in F. destruct F as (Fa & Fb & Fc & Fd & _).
    destruct (hex_digit a Fa) as (a' & La & Ea & Va). destruct (hex_digit b Fb) as (b' & Lb & Eb & Vb).
    destruct (hex_digit c Fc) as (c' & Lc & Ec & Vc). destruct (hex_digit d Fd) as (d' & Ld & Ed & Vd).
    unfold hex4 in H. rewrite Va, Vb, Vc, Vd in H. injection H as H.
    rewrite Ea, Eb, Ec, Ed.
    assert (D1 : u mod 16 = d') by (symmetry; apply (N.mod_unique u 16 ((a' * 16 + b') * 16 + c')); lia).
    assert (Q1 : u / 16 = (a' * 16 + b') * 16 + c') by (symmetry; apply (N.div_unique u 16 _ d'); lia).
    assert (D2 : u / 16 mod 16 = c') by (symmetry; apply (N.mod_unique (u / 16) 16 (a' * 16 + b')); lia).
    assert (Q2 : u / 16 / 16 = a' * 16 + b') by (symmetry; apply (N.div_unique (u / 16) 16 _ c'); lia).
    assert (D3 : u / 16 / 16 mod 16 = b') by (symmetry; apply (N.mod_unique (u / 16 / 16) 16 a'); lia).
    assert (Q3 : u / 16 / 16 / 16 = a') by (symmetry; apply (N.div_unique (u / 16 / 16) 16 _ b'); lia).
    assert (D4 : u / 16 / 16 / 16 mod 16 = a') by (rewrite Q3; apply N.mod_small; lia).
    now rewrite D1, D2, D3, D4.
  - intros ->. eexists _, _, _, _. split; [reflexivity|].
    set (a := u / 16 / 16 / 16 mod 16). set (b := u / 16 / 16 mod 16). set (c := u / 16 mod 16). set (d := u mod 16).
    assert (Ha : a < 16) by (apply N.mod_lt; lia). assert (Hb : b < 16) by (apply N.mod_lt; lia).
    assert (Hc : c < 16) by (apply N.mod_lt; lia). assert (Hd : d < 16) by (apply N.mod_lt; lia).
    split.
    + unfold hex4. rewrite !hex_value_char by assumption. f_equal. unfold a, b, c, d. clear - Hu.
      rewrite (N.mod_small (u / 16 / 16 / 16)).
      * pose proof (N.div_mod u 16). pose proof (N.div_mod (u / 16) 16). pose proof (N.div_mod (u / 16 / 16) 16). lia.
      * rewrite !N.div_div by lia. apply N.div_lt_upper_bound; lia.
    + assert (D : forall x, x < 16 -> 48 <= digit_char false x <= 57 \/ 97 <= digit_char false x <= 102).
      { intros x Hx. unfold digit_char. destruct (x <? 10) eqn:E; lia. }
      repeat (apply Forall_cons; [now apply D|]). apply Forall_nil.
Qed.

Lemma short_in c e : In (c, e) short_escapes -> json_char c = [92; e] /\ (c = 34 \/ c = 92 \/ c < 32).
Proof.
  unfold short_escapes. intros H. cbn [In] in H.
  repeat (destruct H as [H|H]; [injection H as <- <-; split; [reflexivity|lia]|]). contradiction.
Qed.
Lemma short_out c : (forall e, ~ In (c, e) short_escapes) ->
  json_char c = if (32 <=? c) && (c <=? 126) then [c]
  else if c <? 0x10000 then u_escape c
  else u_escape (0xD800 + (c - 0x10000) / 1024 mod 1024) ++ u_escape (0xDC00 + (c - 0x10000) mod 1024).
Proof.
  intros H. unfold json_char.
  assert (K : forall d e, In (d, e) short_escapes -> (c =? d) = false).
  { intros d e Hi. apply N.eqb_neq. intros ->. now apply H in Hi. }
  rewrite (K 34 34), (K 92 92), (K 10 110), (K 13 114), (K 9 116), (K 12 102), (K 8 98) by (cbn; auto 10). reflexivity.
Qed.
Lemma scalar_point c : scalar c -> code_point c.
Proof. unfold scalar, code_point. lia. Qed.
Lemma scalar_points t : Forall scalar t -> Forall code_point t.
Proof. apply Forall_impl. exact scalar_point. Qed.
Lemma page_points cp c : python_page (page_of cp) -> tp_codec cp = Some c ->
  (forall b t, strict c b = Some t -> Forall code_point t) /\ (forall b, Forall code_point (replace c b)).
Proof. intros H E. destruct cp; cbn in E; try discriminate; injection E as <-; exact H. Qed.
Lemma text_python c : text_page c -> python_page c.
Proof. intros [H1 H2]. split; [intros b t H; exact (scalar_points _ (H1 b t H))|intros b; exact (scalar_points _ (H2 b))]. Qed.

Lemma escaped_text c t : code_point c -> escaped c t <-> t = json_char c.
Proof.
  intros Hs. split.
  - intros [x H1 H2 H3|x e H|x y H1 H2 H3|x u v t1 t2 Hu Hv E H1 H2].
    + rewrite short_out.
      * replace ((32 <=? x) && (x <=? 126)) with true by lia. reflexivity.
      * intros e Hi. apply short_in in Hi as [_ Hi]. unfold quotation_mark, backslash in *. lia.
    + apply short_in in H as [-> _]. reflexivity.
    + rewrite short_out by assumption. replace ((32 <=? x) && (x <=? 126)) with false by lia.
      replace (x <? 65536) with true by lia. apply hexadecimal_text in H3; [exact H3|lia].
    + unfold high_surrogate in Hu. unfold low_surrogate in Hv.
      rewrite short_out by (intros e Hi; apply short_in in Hi as [_ Hi]; lia).
      replace ((32 <=? x) && (x <=? 126)) with false by lia. replace (x <? 65536) with false by lia.
      apply hexadecimal_text in H1; [|lia]. apply hexadecimal_text in H2; [|lia]. subst t1 t2.
      assert (Q : (x - 65536) / 1024 = u - 0xD800) by (symmetry; apply (N.div_unique _ 1024 _ (v - 0xDC00)); lia).
      assert (R : (x - 65536) mod 1024 = v - 0xDC00) by (symmetry; apply (N.mod_unique _ 1024 (u - 0xD800)); lia).
      rewrite R, Q, N.mod_small by lia. f_equal; f_equal; lia.
  - intros ->. destruct (existsb (fun p => N.eqb c (fst p)) short_escapes) eqn:E.
    + apply existsb_exists in E as ([d e] & Hi & E). cbn [fst] in E. apply N.eqb_eq in E as <-.
      destruct (short_in _ _ Hi) as [-> _]. now apply short.
    + assert (O : forall e, ~ In (c, e) short_escapes).
      { intros e Hi. assert (X : existsb (fun p => N.eqb c (fst p)) short_escapes = true); [|congruence].
        apply existsb_exists. exists (c, e). split; [exact Hi|]. apply N.eqb_refl. }
      rewrite short_out by assumption. destruct ((32 <=? c) && (c <=? 126)) eqn:E1.
      * apply itself; [lia| |]; intros ->; unfold quotation_mark, backslash in *; [apply (O 34)|apply (O 92)]; cbn; auto.
      * destruct (c <? 65536) eqn:E2.
        -- apply unit; [lia|exact O|]. apply hexadecimal_text; [lia|reflexivity].
        -- assert (Hb : c < 0x110000) by (unfold code_point in Hs; lia).
           assert (HQ : (c - 65536) / 1024 < 1024) by (apply N.div_lt_upper_bound; lia).
           assert (HR : (c - 65536) mod 1024 < 1024) by (apply N.mod_lt; lia).
           rewrite (N.mod_small ((c - 65536) / 1024)) by exact HQ.
           pose proof (N.div_mod (c - 65536) 1024) as HD.
           set (q := (c - 65536) / 1024) in *. set (r := (c - 65536) mod 1024) in *.
           apply (pair c (0xD800 + q) (0xDC00 + r)).
           ++ unfold high_surrogate. lia.
           ++ unfold low_surrogate. lia.
           ++ lia.
           ++ apply hexadecimal_text; [lia|reflexivity].
           ++ apply hexadecimal_text; [lia|reflexivity].
Qed.
Lemma quoted_text s t : Forall code_point s -> quoted s t <-> t = json_string s.
Proof.
  intros Hs. unfold json_string.
  assert (P : forall parts, Forall2 escaped s parts <-> parts = map json_char s).
  { induction Hs as [|c s Hc Hs IH]; intros parts; cbn [map].
    - split; [now intros H; inversion H|intros ->; constructor].
    - split.
      + intros H; inversion H as [|? y ? ys Hy Hys]; subst. apply escaped_text in Hy as ->; [|exact Hc].
        apply IH in Hys as ->. reflexivity.
      + intros ->. constructor; [now apply escaped_text|now apply IH]. }
  split.
  - intros H; inversion H as [? parts HP]; subst. apply P in HP as ->. now rewrite <- flat_map_concat_map.
  - intros ->. rewrite flat_map_concat_map. constructor. now apply P.
Qed.

(** ** Values *)

Lemma indented_newline depth t : indented depth t = newline depth ++ t.
Proof. reflexivity. Qed.
Lemma with_commas_join depth rows : rows <> [] ->
  with_commas (map (indented depth) rows) = newline depth ++ join (44 :: newline depth) rows.
Proof.
  induction rows as [|r rows IH]; intros H; [congruence|]. cbn [map with_commas]. destruct rows as [|r2 rows].
  - cbn [map join]. rewrite app_nil_r. reflexivity.
  - specialize (IH ltac:(discriminate)). cbn [map] in IH |- *. rewrite IH.
    change (join (44 :: newline depth) (r :: r2 :: rows))
      with (r ++ (44 :: newline depth) ++ join (44 :: newline depth) (r2 :: rows)).
    rewrite indented_newline, <- !app_assoc. reflexivity.
Qed.
Lemma bracketed_container a b depth rows : rows <> [] -> bracketed a b depth rows = container a b depth rows.
Proof.
  intros H. unfold bracketed, container. destruct rows as [|r rows]; [congruence|].
  rewrite with_commas_join by discriminate. rewrite indented_newline, <- app_assoc. reflexivity.
Qed.

Lemma s2t_inj a : forall b, s2t a = s2t b -> a = b.
Proof. 
  induction a as [|x a IH]; intros [|y b] H; cbn in H; try discriminate; [reflexivity|].
  injection H as H1 H2. f_equal; [|now apply IH].
  rewrite <- (Ascii.ascii_N_embedding x), <- (Ascii.ascii_N_embedding y). now f_equal.
Qed.
Lemma before_antisym a : forall b, before a b -> before b a -> a = b.
Proof.
  induction a as [|x a IH]; intros [|y b] H1 H2; cbn in *; try contradiction; [reflexivity|].
  destruct H1 as [H1|[-> H1]], H2 as [H2|[E2 H2]]; try lia. f_equal. now apply IH.
Qed.
Lemma sorted_unique {A} (l l' : list (string * A)) : NoDup (map fst l) -> Permutation l l' ->
  StronglySorted before (map name l) -> StronglySorted before (map name l') -> l = l'.
Proof.
  revert l'. induction l as [|e l IH]; intros l' HN HP S1 S2.
  - now apply Permutation_nil in HP.
  - destruct l' as [|e' l']; [apply Permutation_sym, Permutation_nil in HP; discriminate|].
    assert (E : e = e').
    { assert (I1 : In e (e' :: l')) by (eapply Permutation_in; [exact HP|now left]).
      assert (I2 : In e' (e :: l)) by (eapply Permutation_in; [apply Permutation_sym, HP|now left]).
      destruct I1 as [I1|I1]; [congruence|]. destruct I2 as [I2|I2]; [congruence|].
      cbn [map] in S1, S2. inversion S1 as [|? ? _ F1]; inversion S2 as [|? ? _ F2]; subst.
      rewrite Forall_forall in F1, F2.
      assert (B1 : before (name e) (name e')) by (apply F1, in_map, I2).
      assert (B2 : before (name e') (name e)) by (apply F2, in_map, I1).
      pose proof (before_antisym _ _ B1 B2) as B. unfold name in B. apply s2t_inj in B.
      inversion HN as [|? ? HN1 _]; subst. exfalso. apply HN1. rewrite B. now apply in_map. }
    subst e'. f_equal. apply IH.
    + now inversion HN.
    + eapply Permutation_cons_inv, HP.
    + now inversion S1.
    + now inversion S2.
Qed.

(** The ordered JSON value that denotes a value. *)
Lemma ordered_unique T K v : well_formed T K v -> forall j, denotes j v -> ordered j -> j = json_of v.
Proof.
  induction v as [|z|t|d|l IH|d IH] using value_induction; intros Hw j Hj Ho.
  - now inversion Hj.
  - now inversion Hj.
  - now inversion Hj.
  - now inversion Hj.
  - apply wf_list in Hw. inversion Hj as [| | | |js vs F|]; subst. cbn [json_of]. f_equal.
    inversion Ho as [| | | |? Fo|]; subst. clear Hj Ho.
    induction F as [|j v js vs Hjv F IHF]; cbn [map]; [reflexivity|].
    apply Forall_cons_iff in IH as [I1 I2], Hw as [W1 W2], Fo as [O1 O2].
    f_equal; [now apply I1|now apply IHF].
  - apply wf_dict in Hw as (HN & _ & Hw). inversion Hj as [| | | | |ms ? d' HP F]; subst.
    inversion Ho as [| | | | |? HS Fo]; subst. rewrite json_of_dict. f_equal.
    assert (E : d' = sort_entries d).
    { apply sorted_unique.
      - eapply Permutation_NoDup; [apply Permutation_map, HP|exact HN].
      - rewrite <- HP. apply sort_perm.
      - replace (map name d') with (map fst ms); [exact HS|].
        clear - F. induction F as [|m e ms d' [H _] F IHF]; cbn [map]; [reflexivity|]. now rewrite IHF, H.
      - apply sort_sorted. }
    rewrite <- E. apply (Permutation_Forall HP) in IH. apply (Permutation_Forall HP) in Hw.
    clear - IH Hw F Fo. induction F as [|m e ms d' [H1 H2] F IHF]; cbn [map]; [reflexivity|].
    apply Forall_cons_iff in IH as [I1 I2], Hw as [W1 W2], Fo as [O1 O2].
    f_equal; [|now apply IHF]. destruct m as [k j], e as [k' v]; cbn [fst snd] in *. unfold member_json. cbn [fst snd].
    f_equal; [exact H1|now apply I1].
Qed.

Lemma written_dumps K v : well_formed (Forall code_point) K v -> forall depth t, written depth (json_of v) t <-> t = dumps depth v.
Proof.
  induction v as [|z|s|d|l IH|d IH] using value_induction; intros Hw depth t.
  - cbn [json_of dumps]. split; [now intros H; inversion H|intros ->; constructor].
  - cbn [json_of dumps]. rewrite <- number_text. split; [now intros H; inversion H|now constructor].
  - cbn [json_of dumps]. rewrite <- quoted_text by exact Hw. split; [now intros H; inversion H|now constructor].
  - cbn [json_of dumps]. cbn [well_formed] in Hw. rewrite isoformat_iso by exact Hw.
    rewrite <- quoted_text by (now apply scalar_points, iso_scalar). split; [now intros H; inversion H|now constructor].
  - apply wf_list in Hw. cbn [json_of dumps].
    assert (P : forall rows, Forall2 (written (S depth)) (map json_of l) rows <-> rows = map (dumps (S depth)) l).
    { induction l as [|v l IHl]; intros rows; cbn [map].
      - split; [now intros H; inversion H|intros ->; constructor].
      - apply Forall_cons_iff in IH as [I1 I2], Hw as [W1 W2]. split.
        + intros H; inversion H as [|? y ? ys Hy Hys]; subst. apply I1 in Hy as ->; [|exact W1].
          apply IHl in Hys as ->; [reflexivity|assumption|assumption].
        + intros ->. constructor; [now apply I1|now apply IHl]. }
    destruct l as [|v l].
    + cbn [map container]. split; [intros H; inversion H as [| | | | | |? ? HH| |]; subst; [reflexivity|congruence]|intros ->; constructor].
    + rewrite <- bracketed_container by discriminate. split.
      * intros H; inversion H as [| | | | | |? rows _ HH| |]; subst. apply P in HH as ->. reflexivity.
      * intros ->. apply written_array; [discriminate|]. now apply P.
  - apply wf_dict in Hw as (_ & _ & Hw). rewrite json_of_dict, dumps_dict.
    apply (Permutation_Forall (sort_perm d)) in IH. apply (Permutation_Forall (sort_perm d)) in Hw.
    revert IH Hw. generalize (sort_entries d). clear d. intros d IH Hw.
    set (R := fun (m : text * json) row => exists k v, quoted (fst m) k /\ written (S depth) (snd m) v /\ row = k ++ s2t ": " ++ v).
    assert (P : forall rows, Forall2 R (map member_json d) rows <-> rows = map (member_text depth) d).
    { induction d as [|[k v] d IHd]; intros rows; cbn [map].
      - split; [now intros H; inversion H|intros ->; constructor].
      - apply Forall_cons_iff in IH as [I1 I2], Hw as [W1 W2]. cbn [fst snd] in *.
        assert (RR : forall row, R (member_json (k, v)) row <-> row = member_text depth (k, v)).
        { intros row. unfold R, member_json, member_text. cbn [fst snd]. split.
          - intros (k' & v' & Hk & Hv & ->). apply quoted_text in Hk as ->; [|apply scalar_points, s2t_scalar].
            apply I1 in Hv as ->; [reflexivity|exact W1].
          - intros ->. eexists _, _. split; [apply quoted_text; [apply scalar_points, s2t_scalar|reflexivity]|].
            split; [apply I1; [exact W1|reflexivity]|reflexivity]. }
        split.
        + intros H; inversion H as [|? y ? ys Hy Hys]; subst. apply RR in Hy as ->.
          apply IHd in Hys as ->; [reflexivity|assumption|assumption].
        + intros ->. constructor; [now apply RR|now apply IHd]. }
    destruct d as [|e d].
    + cbn [map container]. split; [intros H; inversion H as [| | | | | | | |? ? HH]; subst; [reflexivity|congruence]|intros ->; constructor].
    + rewrite <- bracketed_container by discriminate. split.
      * intros H; inversion H as [| | | | | | | |? rows _ HH]; subst. apply P in HH as ->. reflexivity.
      * intros ->. apply written_object; [discriminate|]. now apply P.
Qed.

Lemma printed_text K d t : well_formed (Forall code_point) K (PDict d) -> printed (PDict d) t <-> print_json_text d = t.
Proof.
  intros H. split.
  - intros (j & Hd & Ho & Hw). rewrite (ordered_unique _ _ _ H j Hd Ho) in Hw. symmetry.
    now apply (written_dumps K (PDict d) H) in Hw.
  - intros <-. exists (json_of (PDict d)). split; [apply json_of_denotes|]. split; [apply json_of_ordered|].
    now apply (written_dumps K (PDict d) H).
Qed.
Lemma printed_report src cp allow l all d t :
  python_page (page_of cp) -> snd (lnk_init src cp allow) = Ok l -> snd (get_json l all) = Ok d ->
  printed (PDict d) t <-> print_json_text d = t.
Proof.
  intros HP Hl Hd. apply (printed_text (fun _ => True)).
  exact (report_wf (Forall code_point) (fun _ => True) src cp allow l all d
    scalar_points (fun _ _ => I) (fun c => page_points cp c HP) Hl Hd).
Qed.

(** ** Reports that differ only in the order of their entries *)

Lemma sort_unique {A} (l l' : list (string * A)) : NoDup (map fst l) -> Permutation l l' -> sort_entries l = sort_entries l'.
Proof.
  intros HN HP. apply sorted_unique.
  - eapply Permutation_NoDup; [apply Permutation_map, sort_perm|exact HN].
  - rewrite <- !sort_perm. exact HP.
  - apply sort_sorted.
  - apply sort_sorted.
Qed.
Lemma rows_eq (d : dict) :
  (fix rows (d : dict) : list (string * json) :=
     match d with [] => [] | (k, v) :: r => (k, json_of v) :: rows r end) d = map (on_value json_of) d.
Proof. induction d as [|[k v] d IH]; cbn [map on_value fst snd]; [reflexivity|]. now rewrite IH. Qed.
Lemma json_of_same T K v : well_formed T K v -> forall v' j, well_formed T K v' -> denotes j v -> denotes j v' -> json_of v = json_of v'.
Proof.
  induction v as [|z|t|d|l IH|d IH] using value_induction; intros Hw v' j Hw' Hj Hj'.
  - inversion Hj; subst. inversion Hj'; subst; cbn [json_of]; congruence.
  - inversion Hj; subst. inversion Hj'; subst; cbn [json_of]; congruence.
  - inversion Hj; subst. inversion Hj'; subst; cbn [json_of]; congruence.
  - inversion Hj; subst. cbn [json_of]. clear Hj. remember (iso8601 d) as t eqn:Et. inversion Hj'; subst t; reflexivity || cbn [json_of]; congruence.
  - inversion Hj as [| | | |js vs F|]; subst. inversion Hj' as [| | | |js' vs' F'|]; subst.
    apply wf_list in Hw. apply wf_list in Hw'. cbn [json_of]. f_equal. clear Hj Hj'. revert vs' F' Hw'.
    induction F as [|j v js vs Hjv F IHF]; intros vs' F' Hw'; inversion F' as [|? v' ? vs2 Hjv' F2]; subst; cbn [map]; [reflexivity|].
    apply Forall_cons_iff in IH as [I1 I2], Hw as [W1 W2], Hw' as [W1' W2'].
    f_equal; [now apply (I1 W1 v' j)|now apply IHF].
  - inversion Hj as [| | | | |ms ? d1 HP F]; subst. inversion Hj' as [| | | | |ms' d2 d2' HP' F']; subst.
    apply wf_dict in Hw as (HN & _ & Hw). apply wf_dict in Hw' as (HN' & _ & Hw').
    cbn [json_of]. rewrite !rows_eq. f_equal. f_equal.
    assert (E : map (on_value json_of) d1 = map (on_value json_of) d2').
    { apply (Permutation_Forall HP) in IH. apply (Permutation_Forall HP) in Hw. apply (Permutation_Forall HP') in Hw'.
      clear - IH Hw Hw' F F'. revert d2' F' Hw'.
      induction F as [|m e ms d1 [H1 H2] F IHF]; intros d2' F' Hw'; inversion F' as [|? e' ? d3 [H1' H2'] F2]; subst; cbn [map]; [reflexivity|].
      apply Forall_cons_iff in IH as [I1 I2], Hw as [W1 W2], Hw' as [W1' W2'].
      f_equal; [|now apply IHF]. unfold on_value. f_equal; [apply s2t_inj; congruence|]. now apply (I1 W1 (snd e') (snd m)). }
    transitivity (sort_entries (map (on_value json_of) d1)).
    + apply sort_unique; [now rewrite map_map|]. now apply Permutation_map.
    + rewrite E. symmetry. apply sort_unique; [now rewrite map_map|]. now apply Permutation_map.
Qed.
Lemma wf_points K v : well_formed (Forall scalar) K v -> well_formed (Forall code_point) K v.
Proof.
  induction v as [|z|t|d|l IH|d IH] using value_induction; intros H; try exact H.
  - exact (scalar_points _ H).
  - apply wf_list in H. apply wf_list. rewrite Forall_forall in *. auto.
  - apply wf_dict in H as (H1 & H2 & H3). apply wf_dict. split; [exact H1|]. split; [exact H2|].
    rewrite Forall_forall in *. auto.
Qed.
Lemma same_text_iff K d d' : well_formed (Forall scalar) K (PDict d) -> well_formed (Forall scalar) K (PDict d') ->
  print_json_text d = print_json_text d' <-> exists j, denotes j (PDict d) /\ denotes j (PDict d').
Proof.
  intros H H'. split; [now apply (text_determines K)|]. intros (j & D & D').
  pose proof (json_of_same _ _ _ H _ j H' D D') as E.
  apply (written_dumps K _ (wf_points _ _ H') 0). rewrite <- E. now apply (written_dumps K _ (wf_points _ _ H) 0).
Qed.
Lemma same_reports src1 cp1 allow1 l1 all1 d1 src2 cp2 allow2 l2 all2 d2 :
  text_page (page_of cp1) -> snd (lnk_init src1 cp1 allow1) = Ok l1 -> snd (get_json l1 all1) = Ok d1 ->
  text_page (page_of cp2) -> snd (lnk_init src2 cp2 allow2) = Ok l2 -> snd (get_json l2 all2) = Ok d2 ->
  print_json_text d1 = print_json_text d2 <-> exists j, denotes j (PDict d1) /\ denotes j (PDict d2).
Proof.
  intros HP1 H1 D1 HP2 H2 D2. apply (same_text_iff (fun _ => True)).
  - exact (report_wf (Forall scalar) (fun _ => True) src1 cp1 allow1 l1 all1 d1
      (fun _ H => H) (fun _ _ => I) (fun c => page_gives cp1 c HP1) H1 D1).
  - exact (report_wf (Forall scalar) (fun _ => True) src2 cp2 allow2 l2 all2 d2
      (fun _ H => H) (fun _ _ => I) (fun c => page_gives cp2 c HP2) H2 D2).
Qed.
Lemma command_points src cp allow l c :
  python_page (page_of cp) -> snd (lnk_init src cp allow) = Ok l -> snd (lnk_command l) = Ok c -> Forall code_point c.
Proof. intros HP. apply command_chars; [exact scalar_point|]. exact (fun c => page_points cp c HP). Qed.
Lemma command_text c t : Forall code_point c ->
  command_json c = t <-> exists q, quoted c q /\ t = s2t "{""shortcut_target"": " ++ q ++ s2t "}".
Proof.
  intros H. unfold command_json. change (s2t "{" ++ json_string (s2t "shortcut_target") ++ s2t ": " ++ json_string c ++ s2t "}")
    with (s2t "{""shortcut_target"": " ++ json_string c ++ s2t "}").
  split.
  - intros <-. exists (json_string c). split; [now apply quoted_text|reflexivity].
  - intros (q & Hq & ->). apply quoted_text in Hq as ->; [reflexivity|exact H].
Qed.
Lemma main_json_text content cp all l d t :
  python_page (page_of cp) -> snd (lnk_init (FromHandle content) cp true) = Ok l -> snd (get_json l all) = Ok d ->
  snd (main content (Args false true cp all)) = Ok (OutJson t) <-> printed (PDict d) t.
Proof.
  intros HP Hl Hd. rewrite (printed_report _ _ _ _ _ _ _ HP Hl Hd).
  pose proof (main_json content cp all l Hl) as H. rewrite Hd in H. rewrite H. split; [congruence|now intros ->].
Qed.
Lemma main_command_text content cp all l c t :
  python_page (page_of cp) -> snd (lnk_init (FromHandle content) cp true) = Ok l -> snd (lnk_command l) = Ok c ->
  snd (main content (Args true true cp all)) = Ok (OutCommandJson t)
  <-> exists q, quoted c q /\ t = s2t "{""shortcut_target"": " ++ q ++ s2t "}".
Proof.
  intros HP Hl Hc. rewrite <- (command_text c t (command_points _ _ _ _ _ HP Hl Hc)).
  pose proof (main_target content true cp all l Hl) as H. rewrite Hc in H. rewrite H. split; [congruence|now intros ->].
Qed.
