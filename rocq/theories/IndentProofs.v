(** * The printed text (property C57) *)
From Verif Require Import Lemmas Codec LnkFile Json Report Readable.
From Verif Require Import Spec SpecHeader SpecText SpecReport SpecIndent.

(** ** Occurrences *)
Lemma prefixb_spec m : forall s, prefixb m s = true <-> exists r, s = m ++ r.
Proof.
  induction m as [|c m IH]; intros s; cbn; [split; [now exists s|reflexivity]|].
  destruct s as [|d s]; [split; [discriminate|now intros [r ?]]|].
  rewrite andb_true_iff, N.eqb_eq, IH. split; [intros [-> [r ->]]; now exists r|intros [r [= -> ->]]; split; [reflexivity|now exists r]].
Qed.
Lemma contains_nil m : m <> [] -> ~ contains m [].
Proof. intros Hm (a & b & H). symmetry in H. apply app_eq_nil in H as [_ H]. apply app_eq_nil in H as [H _]. now apply Hm. Qed.
Lemma contains_cons m c t : contains m (c :: t) -> contains m t \/ exists r, c :: t = m ++ r.
Proof.
  intros ([|x a] & b & H); [right; now exists b|]. injection H as -> ->. left. now exists a, b.
Qed.
Lemma contains_weaken m a t b : contains m t -> contains m (a ++ t ++ b).
Proof. intros (x & y & ->). exists (a ++ x), (y ++ b). now rewrite <- !app_assoc. Qed.
Lemma contains_split m x p r : ~ In x m -> contains m (p ++ x :: r) -> contains m p \/ contains m r.
Proof.
  intros Hx (a & b & H). revert p H. induction a as [|c a IH]; intros p H.
  - cbn in H. left. exists []. cbn. revert p H. induction m as [|d m IH]; intros p H; [now exists p|].
    destruct p as [|e p]; [injection H as -> H; destruct Hx; now left|]. injection H as -> H.
    destruct (IH ltac:(intros Hi; apply Hx; now right) p H) as [b' ->]. now exists b'.
  - destruct p as [|e p]; [injection H as _ ->; right; now exists a, b|]. injection H as _ H.
    destruct (IH p H) as [G|G]; [left|now right]. change (e :: p) with ([e] ++ p). rewrite <- (app_nil_r p). now apply contains_weaken.
Qed.

(** ** Replacing the markers *)
Notation marker := empty_line_marker.
Lemma marker_border d X Y : d <> [] -> (length d < length marker)%nat -> marker ++ X <> d ++ marker ++ Y.
Proof.
  intros Hd Hl H. set (k := length d) in *.
  assert (E : firstn (22 - k) (skipn k (marker ++ X)) = firstn (22 - k) (marker ++ Y)).
  { rewrite H. f_equal. unfold k. rewrite skipn_app, skipn_all, Nat.sub_diag. reflexivity. }
  change (length marker) with 22%nat in Hl.
  assert (Hk : (1 <= k)%nat) by (destruct d; [congruence|subst k; cbn; lia]).
  rewrite skipn_app, firstn_app in E. rewrite skipn_length in E. change (length marker) with 22%nat in E.
  replace (22 - k - (22 - k))%nat with 0%nat in E by lia. rewrite firstn_O, app_nil_r in E.
  rewrite firstn_app in E. change (length marker) with 22%nat in E. replace (22 - k - 22)%nat with 0%nat in E by lia.
  rewrite firstn_O, app_nil_r in E. clear - Hl Hk E. clearbody k.
  do 22 (destruct k as [|k]; [try lia; vm_compute in E; discriminate E|]). lia.
Qed.
Lemma joined_nonempty m ps t : joined m ps t -> ps <> [].
Proof. now destruct 1. Qed.
Lemma joined_cons m c p ps t : joined m (p :: ps) t -> joined m ((c :: p) :: ps) (c :: t).
Proof.
  intros H. inversion H; subst; [constructor|]. change (c :: p ++ m ++ t0) with ((c :: p) ++ m ++ t0). now constructor.
Qed.
Lemma joined_head m p ps t : joined m (p :: ps) t -> exists r, t = p ++ r.
Proof. intros H. inversion H; subst; [exists []; now rewrite app_nil_r|now eexists]. Qed.
Lemma replace_skip m new k : forall s, replace_from m new k s = replace_from m new 0 (skipn k s).
Proof. induction k as [|k IH]; intros [|c s]; cbn [replace_from skipn]; try reflexivity. apply IH. Qed.
Lemma replace_pieces m new n : m <> [] -> forall s, (length s <= n)%nat ->
  exists ps, joined m ps s /\ Forall (fun p => ~ contains m p) ps /\ joined new ps (replace_from m new 0 s).
Proof.
  intros Hm. induction n as [|n IH]; intros s Hs.
  - destruct s; [|cbn in Hs; lia]. exists [[]]. split; [constructor|]. split; [|constructor]. constructor; [now apply contains_nil|constructor].
  - destruct s as [|c r].
    { exists [[]]. split; [constructor|]. split; [|constructor]. constructor; [now apply contains_nil|constructor]. }
    cbn [replace_from]. destruct (prefixb m (c :: r)) eqn:E.
    + apply prefixb_spec in E as [x Hx]. rewrite replace_skip.
      assert (Hr : skipn (length m - 1) r = x).
      { destruct m as [|d m]; [congruence|]. cbn in Hx. injection Hx as -> ->. cbn. rewrite Nat.sub_0_r, skipn_app, skipn_all, Nat.sub_diag. reflexivity. }
      rewrite Hr. destruct (IH x) as (ps & H1 & H2 & H3).
      { assert (L : length (c :: r) = length (m ++ x)) by now rewrite Hx. rewrite app_length in L. cbn in L, Hs.
        destruct m; [congruence|]. cbn in L. lia. }
      exists ([] :: ps). split; [rewrite Hx; exact (joined_more m [] ps x H1)|]. split; [constructor; [now apply contains_nil|assumption]|].
      exact (joined_more new [] ps _ H3).
    + destruct (IH r) as (ps & H1 & H2 & H3); [cbn in Hs; lia|].
      destruct ps as [|p ps]; [now apply joined_nonempty in H1|].
      exists ((c :: p) :: ps). split; [now apply joined_cons|]. split; [|now apply joined_cons].
      apply Forall_cons_iff in H2 as [Hp H2]. constructor; [|assumption].
      intros Hc. apply contains_cons in Hc as [Hc|[x Hx]]; [now apply Hp|].
      apply (joined_cons m c) in H1.
      assert (P : prefixb m (c :: r) = true); [|congruence]. apply prefixb_spec.
      destruct (joined_head _ _ _ _ H1) as [t ->]. exists (x ++ t). now rewrite Hx, <- app_assoc.
Qed.
Lemma app_le_split {A} (p : list A) : forall u q v, p ++ u = q ++ v -> (length p <= length q)%nat -> exists d, q = p ++ d /\ u = d ++ v.
Proof.
  induction p as [|x p IH]; intros u q v H Hl; [exists q; split; [reflexivity|exact H]|].
  destruct q as [|y q]; [cbn in Hl; lia|]. injection H as -> H. cbn in Hl. destruct (IH u q v H) as (d & -> & ->); [lia|]. now exists d.
Qed.
Lemma marker_first p t q u : ~ contains marker q -> p ++ marker ++ t = q ++ marker ++ u ->
  (length p <= length q)%nat -> p = q /\ t = u.
Proof.
  intros Hq H Hl. destruct (app_le_split _ _ _ _ H Hl) as (d & -> & E).
  destruct d as [|x d].
  - rewrite app_nil_r. split; [reflexivity|]. exact (app_inv_head marker _ _ E).
  - exfalso. destruct (Nat.lt_ge_cases (length (x :: d)) (length marker)) as [HL|HL].
    + exact (marker_border (x :: d) t u ltac:(discriminate) HL E).
    + destruct (app_le_split _ _ _ _ E HL) as (d' & Ed & _). apply Hq. rewrite Ed. exists p, d'. reflexivity.
Qed.
Lemma pieces_unique ps t : joined marker ps t -> Forall (fun p => ~ contains marker p) ps ->
  forall qs, joined marker qs t -> Forall (fun p => ~ contains marker p) qs -> ps = qs.
Proof.
  induction 1 as [p|p ps t H IH]; intros Hps qs Hq Hqs; apply Forall_cons_iff in Hps as [Hp Hps].
  - inversion Hq as [|q qs' u Hu]; subst; [reflexivity|]. destruct Hp. now exists q, u.
  - inversion Hq as [|q qs' u Hu E]; subst; apply Forall_cons_iff in Hqs as [Hq' Hqs].
    + destruct Hq'. now exists p, t.
    + assert (p = q /\ t = u) as [-> ->].
      { destruct (Nat.le_ge_cases (length p) (length q)) as [L|L].
        - now apply marker_first.
        - destruct (marker_first q u p t) as [-> ->]; auto. }
      f_equal. now apply IH.
Qed.
Lemma joined_fun m ps t : joined m ps t -> forall u, joined m ps u -> t = u.
Proof.
  induction 1 as [p|p ps t H IH]; intros u Hu; inversion Hu as [q E|q qs v Hv E]; subst.
  - reflexivity.
  - inversion Hv.
  - inversion H.
  - now rewrite (IH v Hv).
Qed.
Lemma replace_marks y u : marks_replaced y u <-> u = replace marker [10] y.
Proof.
  destruct (replace_pieces marker [10] (length y)) with (s := y) as (ps & H1 & H2 & H3); [discriminate|lia|].
  fold (replace marker [10] y) in H3. split.
  - intros (qs & G1 & G2 & G3). assert (qs = ps) as -> by (eapply pieces_unique; eassumption). eapply joined_fun; eassumption.
  - intros ->. now exists ps.
Qed.

(** ** Lines *)
Lemma is_linebreak_spec c : is_linebreak c = true <-> line_boundary c.
Proof.
  unfold is_linebreak, line_boundary. rewrite existsb_exists. split.
  - intros (x & Hx & E). apply N.eqb_eq in E as ->. exact Hx.
  - intros H. exists c. split; [exact H|apply N.eqb_refl].
Qed.
Lemma linebreak_false c : is_linebreak c = false <-> ~ line_boundary c.
Proof. rewrite <- is_linebreak_spec. now destruct (is_linebreak c). Qed.
Lemma splitlines_lines n : forall cur s, (length s <= n)%nat -> one_line cur -> lines (rev cur ++ s) (splitlines cur s).
Proof.
  induction n as [|n IH]; intros cur s Hs Hcur.
  - destruct s; [|cbn in Hs; lia]. cbn. rewrite app_nil_r. destruct cur as [|c cur]; [constructor|].
    apply lines_last; [cbn; destruct (rev cur); discriminate|now apply Forall_rev].
  - destruct s as [|c r]; [exact (IH cur [] ltac:(cbn; lia) Hcur)|]. cbn [splitlines].
    assert (Hrc : one_line (rev cur)) by now apply Forall_rev.
    assert (Hnext : forall e rest, line_end e rest -> (length rest <= n)%nat ->
              lines (rev cur ++ e ++ rest) ((rev cur ++ e) :: splitlines [] rest)).
    { intros e rest He Hr. apply lines_next; [exact Hrc|exact He|]. apply (IH [] rest Hr). constructor. }
    cbn in Hs.
    destruct (c =? 13) eqn:E13; [apply N.eqb_eq in E13 as ->|].
    + assert (B : line_boundary 13) by (unfold line_boundary; cbn; tauto).
      destruct r as [|d r]; [|destruct (d =? 10) eqn:E10; [apply N.eqb_eq in E10 as ->|apply N.eqb_neq in E10]].
      * apply (Hnext [13] []); [|cbn; lia]. right. exists 13. split; [reflexivity|]. split; [exact B|]. now intros [_ [x ?]].
      * change (13 :: 10 :: r) with ([13; 10] ++ r). replace (rev (10 :: 13 :: cur)) with (rev cur ++ [13; 10]) by (cbn; now rewrite <- app_assoc).
        apply Hnext; [now left|cbn in Hs; lia].
      * change (13 :: d :: r) with ([13] ++ d :: r). change (rev (13 :: cur)) with (rev cur ++ [13]).
        apply Hnext; [|lia]. right. exists 13. split; [reflexivity|]. split; [exact B|]. intros [_ [x [= -> ?]]]. now apply E10.
    + apply N.eqb_neq in E13. destruct (is_linebreak c) eqn:Eb.
      * change (c :: r) with ([c] ++ r). change (rev (c :: cur)) with (rev cur ++ [c]).
        apply Hnext; [|lia]. right. exists c. split; [reflexivity|]. split; [now apply is_linebreak_spec|]. now intros [? _].
      * apply linebreak_false in Eb. replace (rev cur ++ c :: r) with (rev (c :: cur) ++ r) by (cbn; now rewrite <- app_assoc).
        apply IH; [lia|]. now constructor.
Qed.
Lemma first_boundary a : forall b x y u v, one_line a -> one_line b -> line_boundary x -> line_boundary y ->
  a ++ x :: u = b ++ y :: v -> a = b /\ x = y /\ u = v.
Proof.
  induction a as [|c a IH]; intros [|d b] x y u v Ha Hb Hx Hy E; cbn in E.
  - now injection E as -> ->.
  - injection E as -> E. apply Forall_cons_iff in Hb as [Hb _]. now destruct Hb.
  - injection E as -> E. apply Forall_cons_iff in Ha as [Ha _]. now destruct Ha.
  - injection E as -> E. apply Forall_cons_iff in Ha as [_ Ha], Hb as [_ Hb]. destruct (IH b x y u v) as (-> & -> & ->); auto.
Qed.
Lemma line_end_first e rest : line_end e rest -> exists x e', e = x :: e' /\ line_boundary x.
Proof.
  intros [->|(c & -> & H & _)]; [exists 13, [10]|now exists c, []]. split; [reflexivity|]. unfold line_boundary. cbn. tauto.
Qed.
Lemma line_end_unique e r e' r' : line_end e r -> line_end e' r' -> e ++ r = e' ++ r' -> e = e' /\ r = r'.
Proof.
  intros [->|(c & -> & Hc & Hn)] [->|(c' & -> & Hc' & Hn')] E; cbn in E; injection E.
  - now intros ->.
  - intros <- <-. destruct Hn'. split; [reflexivity|now eexists].
  - intros -> ->. destruct Hn. split; [reflexivity|now eexists].
  - now intros -> ->.
Qed.
Lemma not_one_line a e r : line_end e r -> ~ one_line (a ++ e ++ r).
Proof.
  intros He H. apply line_end_first in He as (x & e' & -> & Hx). apply Forall_app in H as [_ H]. apply Forall_cons_iff in H as [H _]. now apply H.
Qed.
Lemma lines_next_inv a e r ls : one_line a -> line_end e r -> lines (a ++ e ++ r) ls -> exists ls', ls = (a ++ e) :: ls' /\ lines r ls'.
Proof.
  intros Ha He H. inversion H as [E|t Hn Ho E|b e' r' ls' Hb He' Hl E].
  - symmetry in E. apply app_eq_nil in E as [_ E]. apply app_eq_nil in E as [E _]. apply line_end_first in He as (x & e' & -> & _). discriminate.
  - subst. now destruct (not_one_line a e r He).
  - destruct (line_end_first _ _ He) as (x & e1 & Hx & Bx). destruct (line_end_first _ _ He') as (y & e2 & Hy & By).
    assert (b = a) as ->.
    { subst e e'. cbn in E. apply first_boundary in E as (-> & _); auto. }
    apply app_inv_head in E. destruct (line_end_unique _ _ _ _ He' He E) as [-> ->]. now exists ls'.
Qed.
Lemma lines_unique t ls : lines t ls -> forall ls', lines t ls' -> ls = ls'.
Proof.
  induction 1 as [|t Hn Ho|a e r ls Ha He Hl IH]; intros ls' H.
  - inversion H as [E|t Hn Ho E|b e' r' ls2 Hb He' Hl E]; [reflexivity|congruence|].
    apply app_eq_nil in E as [_ E]. apply app_eq_nil in E as [E _]. apply line_end_first in He' as (x & e2 & -> & _). discriminate.
  - inversion H as [E|t' Hn' Ho' E|b e' r' ls2 Hb He' Hl E]; [congruence|reflexivity|].
    subst. now destruct (not_one_line b e' r' He').
  - apply lines_next_inv in H as (ls2 & -> & H2); auto. f_equal. now apply IH.
Qed.
Lemma lines_concat t ls : lines t ls -> concat ls = t.
Proof. induction 1 as [|t _ _|a e r ls _ _ _ IH]; cbn; [reflexivity|apply app_nil_r|]. now rewrite IH, <- app_assoc. Qed.

(** ** Indentation *)
Lemma is_whitespace_spec c : is_whitespace c = true <-> white c.
Proof.
  split.
  - unfold is_whitespace, white. rewrite !orb_true_iff, !andb_true_iff, !N.leb_le, !N.eqb_eq. cbn [In].
    intros H. repeat match type of H with _ \/ _ => destruct H as [H|H] end; lia.
  - unfold white. cbn [In]. intros H. repeat match type of H with _ \/ _ => destruct H as [<-|H] end; (reflexivity || contradiction).
Qed.
Lemma blank_spec line : existsb (fun c => negb (is_whitespace c)) line = false <-> blank line.
Proof.
  unfold blank. rewrite Forall_forall. split.
  - intros H c Hc. apply is_whitespace_spec. destruct (is_whitespace c) eqn:E; [reflexivity|].
    assert (existsb (fun c => negb (is_whitespace c)) line = true); [|congruence]. apply existsb_exists. exists c. now rewrite E.
  - intros H. apply not_true_is_false. intros E. apply existsb_exists in E as (c & Hc & E). apply H, is_whitespace_spec in Hc. now rewrite Hc in E.
Qed.
Definition indent_line (line : text) : text :=
  if existsb (fun c => negb (is_whitespace c)) line then s2t "   " ++ line else line.
Lemma indent_line_spec l l' : indented l l' <-> l' = indent_line l.
Proof.
  unfold indented, indent_line. rewrite <- blank_spec. destruct (existsb _ l) eqn:E; split.
  - now intros [[? _]|[_ ->]].
  - intros ->. now right.
  - intros [[_ ->]|[H _]]; [reflexivity|now destruct H].
  - intros ->. now left.
Qed.
Lemma indented_map ls ls' : Forall2 indented ls ls' <-> ls' = map indent_line ls.
Proof.
  split.
  - induction 1 as [|l l' ls ls' H _ IH]; [reflexivity|]. cbn. apply indent_line_spec in H as ->. now rewrite IH.
  - intros ->. induction ls as [|l ls IH]; cbn; constructor; [now apply indent_line_spec|assumption].
Qed.
Lemma indent_concat s : indent (s2t "   ") s = concat (map indent_line (splitlines [] s)).
Proof. unfold indent. now rewrite flat_map_concat_map. Qed.
Lemma printed_iff y t : printed y t <->
  t = s2t "Windows Shortcut Information:" ++ [10] ++ indent (s2t "   ") (replace marker [10] y) ++ [10].
Proof.
  set (u := replace marker [10] y). assert (Hl : lines u (splitlines [] u)) by (apply (splitlines_lines (length u) [] u); [lia|constructor]).
  rewrite indent_concat. split.
  - intros (v & ls & ls' & Hv & H1 & H2 & ->). apply replace_marks in Hv. fold u in Hv. subst v.
    apply indented_map in H2 as ->. now rewrite (lines_unique _ _ H1 _ Hl).
  - intros ->. exists u, (splitlines [] u), (map indent_line (splitlines [] u)). split; [now apply replace_marks|].
    split; [exact Hl|]. split; [now apply indented_map|reflexivity].
Qed.
Lemma print_printed dump l all tree t : snd (yaml_tree l all) = Ok tree ->
  printed (dump tree) t <-> snd (print_lnk_file dump l all) = Ok t.
Proof.
  intros H. rewrite printed_iff. unfold print_lnk_file. destruct (yaml_tree l all) as [w [r|]]; cbn [snd] in H; [|discriminate].
  injection H as ->. change (s2t placeholder) with marker. cbv zeta. cbn [bind snd ret fst]. split; [now intros ->|].
  intros E. unfold bind, ret in E. cbn [snd] in E. now injection E.
Qed.
Lemma print_warnings dump l all : fst (print_lnk_file dump l all) = fst (yaml_tree l all).
Proof. unfold print_lnk_file, bind, ret. destruct (yaml_tree l all) as [w [r|]]; cbn; [apply app_nil_r|reflexivity]. Qed.

(** ** The marker is never shown *)
Lemma marker_chars x : In x marker -> 65 <= x <= 95.
Proof.
  intros H. assert (A : forallb (fun x => (65 <=? x) && (x <=? 95)) marker = true) by (vm_compute; reflexivity).
  rewrite forallb_forall in A. specialize (A x H). lia.
Qed.
Lemma joined_contains ps t : joined [10] ps t -> Forall (fun p => ~ contains marker p) ps -> ~ contains marker t.
Proof.
  induction 1 as [p|p ps t _ IH]; intros Hp Hc; apply Forall_cons_iff in Hp as [H1 H2]; [now apply H1|].
  apply (contains_split marker 10) in Hc as [Hc|Hc]; [now apply H1|now apply IH|].
  intros Hi. apply marker_chars in Hi. lia.
Qed.
Lemma replaced_no_marker y : ~ contains marker (replace marker [10] y).
Proof.
  destruct (proj2 (replace_marks y _) eq_refl) as (ps & _ & H2 & H3). eapply joined_contains; eassumption.
Qed.
Lemma boundary_not_marker x : line_boundary x -> ~ In x marker.
Proof.
  intros H Hi. apply marker_chars in Hi. unfold line_boundary in H. cbn [In] in H.
  repeat match type of H with _ \/ _ => destruct H as [<-|H] end; lia.
Qed.
Lemma indent_line_contains l : contains marker (indent_line l) -> contains marker l.
Proof.
  unfold indent_line. destruct (existsb _ l); [|auto]. change (s2t "   " ++ l) with ([32; 32] ++ 32 :: l).
  intros H. apply (contains_split marker 32) in H as [H|H]; [|assumption|intros Hi; apply marker_chars in Hi; lia].
  change [32; 32] with ([32] ++ 32 :: []) in H.
  apply (contains_split marker 32) in H as [H|H]; [| |intros Hi; apply marker_chars in Hi; lia].
  - change [32] with ([] ++ 32 :: []) in H.
    apply (contains_split marker 32) in H as [H|H]; [| |intros Hi; apply marker_chars in Hi; lia]; now apply contains_nil in H.
  - now apply contains_nil in H.
Qed.
Lemma contains_app_l m a b : contains m a -> contains m (a ++ b).
Proof. intros H. apply (contains_weaken m [] a b H). Qed.
Lemma contains_app_r m a b : contains m b -> contains m (a ++ b).
Proof. intros H. rewrite <- (app_nil_r b). now apply contains_weaken. Qed.
(** A line end separates occurrences. *)
Lemma line_end_split a e r : line_end e r -> contains marker ((a ++ e) ++ r) -> contains marker (a ++ e) \/ contains marker r.
Proof.
  intros He H. rewrite <- app_assoc in H. destruct He as [->|(c & -> & Hc & _)].
  - change ([13; 10] ++ r) with (13 :: 10 :: r) in H.
    apply (contains_split marker 13) in H as [H|H]; [left; now apply contains_app_l| |intros Hi; apply marker_chars in Hi; lia].
    change (10 :: r) with ([] ++ 10 :: r) in H.
    apply (contains_split marker 10) in H as [H|H]; [now apply contains_nil in H|now right|intros Hi; apply marker_chars in Hi; lia].
  - cbn in H. apply (contains_split marker c) in H as [H|H]; [left; now apply contains_app_l|now right|now apply boundary_not_marker].
Qed.
Lemma indent_line_end a e : exists p, indent_line (a ++ e) = (p ++ a) ++ e.
Proof. unfold indent_line. destruct (existsb _ _); [exists (s2t "   ")|exists []]; now rewrite <- ?app_assoc. Qed.
Lemma line_end_weaken e r : line_end e r -> e <> [13] -> forall r', line_end e r'.
Proof. intros [->|(c & -> & Hc & _)] H r'; [now left|]. right. exists c. split; [reflexivity|]. split; [exact Hc|]. intros [-> _]. now apply H. Qed.
Lemma indented_contains t ls : lines t ls -> contains marker (concat (map indent_line ls)) -> contains marker t.
Proof.
  induction 1 as [|t _ _|a e r ls Ha He _ IH]; cbn [map concat]; intros H.
  - exact H.
  - rewrite app_nil_r in H. now apply indent_line_contains.
  - assert (G : contains marker (indent_line (a ++ e)) \/ contains marker (concat (map indent_line ls))).
    { destruct (indent_line_end a e) as [p Hp]. rewrite Hp in *.
      destruct He as [->|(c & -> & Hc & _)].
      - apply (line_end_split _ [13; 10]); [now left|exact H].
      - rewrite <- app_assoc in H. apply (contains_split marker c) in H as [H|H]; [left; now apply contains_app_l|now right|now apply boundary_not_marker]. }
    destruct G as [G|G]; [apply indent_line_contains in G; rewrite app_assoc; now apply contains_app_l|].
    apply IH in G. rewrite app_assoc. now apply contains_app_r.
Qed.
Lemma printed_no_marker y t : printed y t -> ~ contains marker t.
Proof.
  intros (u & ls & ls' & Hu & Hl & Hi & ->) H. apply replace_marks in Hu. apply indented_map in Hi as ->.
  assert (N10 : ~ In 10 marker) by (intros Hi; apply marker_chars in Hi; lia).
  cbn [app] in H. apply (contains_split marker 10) in H as [H|H]; [| |exact N10].
  - destruct H as (a & b & H). assert (L : length (s2t "Windows Shortcut Information:") = length (a ++ marker ++ b)) by now rewrite H.
    rewrite !app_length in L. change (length marker) with 22%nat in L. change (length (s2t "Windows Shortcut Information:")) with 29%nat in L.
    do 8 (destruct a as [|? a]; [vm_compute in H; discriminate H|cbn [app] in H; injection H as _ H]). cbn in L. lia.
  - change [10] with (10 :: []) in H. apply (contains_split marker 10) in H as [H|H]; [|now apply contains_nil in H|exact N10].
    apply (indented_contains u) in H; [|exact Hl]. subst u. now apply replaced_no_marker in H.
Qed.

(** ** The dump can be recovered *)
Lemma no_marker_replaced y u : ~ contains marker y -> marks_replaced y u -> u = y.
Proof.
  intros Hy (ps & H1 & H2 & H3). inversion H1 as [p|p qs v Hv]; subst.
  - now inversion H3 as [|? ? ? Hx]; [|inversion Hx].
  - destruct Hy. now exists p, v.
Qed.
Lemma indent_line_blank l : blank (indent_line l) <-> blank l.
Proof.
  unfold indent_line. destruct (existsb _ l) eqn:E; [|reflexivity]. unfold blank. rewrite Forall_app. split; [tauto|].
  intros H. apply blank_spec in H. congruence.
Qed.
Lemma indent_line_inj l l' : indent_line l = indent_line l' -> l = l'.
Proof.
  intros H. assert (B : blank l <-> blank l') by (rewrite <- indent_line_blank, H; apply indent_line_blank).
  unfold indent_line in H. rewrite <- !blank_spec in B. destruct (existsb _ l), (existsb _ l'); try (now destruct B; intuition congruence).
  - now apply app_inv_head in H.
Qed.
Lemma one_line_indent a e : one_line a -> exists p, indent_line (a ++ e) = p ++ e /\ one_line p.
Proof.
  intros Ha. unfold indent_line. destruct (existsb _ _).
  - exists (s2t "   " ++ a). split; [now rewrite <- app_assoc|]. apply Forall_app. split; [|exact Ha].
    repeat constructor; rewrite <- is_linebreak_spec; discriminate.
  - now exists a.
Qed.
Lemma concat_indent_10 t ls r : lines t ls -> concat (map indent_line ls) = 10 :: r -> exists r', t = 10 :: r'.
Proof.
  intros H E. assert (A : forall l x, indent_line l ++ x = 10 :: r -> l = [] \/ exists r', l = 10 :: r').
  { intros l x. unfold indent_line. destruct (existsb _ l); [discriminate|]. destruct l; [now left|]. cbn. intros [= -> _]. right. now eexists. }
  inversion H as [|t' Hn Ho|a e rest ls' Ha He Hl]; subst; [discriminate| |]; cbn [map concat] in E; apply A in E as [E|[r' E]].
  - congruence.
  - rewrite E. now eexists.
  - apply app_eq_nil in E as [_ ->]. apply line_end_first in He as (x & ? & ? & _). discriminate.
  - rewrite app_assoc, E. now eexists.
Qed.
Lemma lines_indented t ls : lines t ls -> lines (concat (map indent_line ls)) (map indent_line ls).
Proof.
  induction 1 as [|t Hn Ho|a e r ls Ha He Hl IH]; cbn [map concat].
  - constructor.
  - rewrite app_nil_r. apply lines_last.
    + unfold indent_line. destruct (existsb _ t); [discriminate|exact Hn].
    + destruct (one_line_indent t [] Ho) as (p & Hp & Hq). rewrite app_nil_r in Hp. rewrite Hp, app_nil_r. exact Hq.
  - destruct (one_line_indent a e Ha) as (p & -> & Hp). rewrite <- app_assoc. apply lines_next; [exact Hp| |exact IH].
    destruct He as [->|(c & -> & Hc & Hn)]; [now left|]. right. exists c. split; [reflexivity|]. split; [exact Hc|].
    intros [-> [r' Hr]]. destruct Hn. split; [reflexivity|]. eapply concat_indent_10; eassumption.
Qed.
Lemma map_inj {A B} (f : A -> B) : (forall x y, f x = f y -> x = y) -> forall l l', map f l = map f l' -> l = l'.
Proof. intros H. induction l as [|x l IH]; intros [|y l'] E; try discriminate; [reflexivity|]. injection E as E1 E2. f_equal; auto. Qed.
Lemma printed_replaced y y' t u : printed y t -> printed y' t -> marks_replaced y u -> marks_replaced y' u.
Proof.
  intros (u1 & ls & ls' & Hu & Hl & Hi & ->) (v & ms & ms' & Hv & Hm & Hj & E) H.
  apply replace_marks in H, Hu. subst u1 u.
  apply indented_map in Hi as ->, Hj as ->. apply app_inv_head, app_inv_head, app_inv_tail in E.
  assert (M : map indent_line ls = map indent_line ms).
  { eapply lines_unique; [exact (lines_indented _ _ Hl)|]. rewrite E. exact (lines_indented _ _ Hm). }
  apply (map_inj _ indent_line_inj) in M. pose proof (lines_concat _ _ Hl). pose proof (lines_concat _ _ Hm). congruence.
Qed.
Lemma printed_recovers y y' t : ~ contains marker y -> ~ contains marker y' -> printed y t -> printed y' t -> y = y'.
Proof.
  intros Hy Hy' H H'. pose proof (proj2 (replace_marks y _) eq_refl) as R.
  rewrite <- (no_marker_replaced _ _ Hy R). apply no_marker_replaced; [exact Hy'|]. exact (printed_replaced _ _ _ _ H H' R).
Qed.

(** ** Files *)
Lemma print_no_marker dump l all t : snd (print_lnk_file dump l all) = Ok t -> ~ contains marker t.
Proof.
  intros H. destruct (snd (yaml_tree l all)) as [tree|e] eqn:E.
  - apply (printed_no_marker (dump tree)). now apply (print_printed dump l all tree t).
  - exfalso. unfold print_lnk_file, bind in H. destruct (yaml_tree l all) as [w [r|]]; cbn in *; discriminate.
Qed.
(** A file whose description is the marker. *)
Definition marker_description : bytes :=
  encode_header (plain_header 0x84) ++ enc16 22 ++ utf16 marker ++ enc32 0.
Lemma marker_shown_refuted :
  exists b l tree, snd (lnk_init (FromBytes b) CpNone true) = Ok l /\ snd (yaml_tree l false) = Ok tree
  /\ at_path [Key "EMPTY_LINE_PLACEHOLDERDATA"; Key "Description"] (PDict tree) = Some (PStr marker)
  /\ forall dump t, snd (print_lnk_file dump l false) = Ok t -> ~ contains marker t.
Proof.
  assert (X : match snd (l <- lnk_init (FromBytes marker_description) CpNone true ;; yaml_tree l false) with
              | Ok t => at_path [Key "EMPTY_LINE_PLACEHOLDERDATA"; Key "Description"] (PDict t) = Some (PStr marker)
              | Err _ => False end) by (vm_compute; reflexivity).
  exists marker_description. destruct (lnk_init (FromBytes marker_description) CpNone true) as [w [l|e]]; [|destruct X].
  unfold bind in X. destruct (yaml_tree l false) as [w' [tree|e]] eqn:E; cbn [snd] in X; [|destruct X].
  exists l, tree. split; [reflexivity|]. rewrite E. split; [reflexivity|]. split; [exact X|]. intros dump t. apply print_no_marker.
Qed.
