(** * Proofs about the whole program (C73) *)
From Verif Require Import Lemmas Codec Utils LnkFile Json Report.
From Verif Require Import Spec SpecText SpecFailure SpecJsonText SpecRun JsonProofs JsonTextProofs RunProofs.
From Verif Require Import Args SpecArgs ArgsProofs SpecProgram.

Section Program.
  Variable digit : N -> bool.
  Lemma asked_iff argv q : asked digit argv q <-> parse_args digit argv = Namespace (namespace_of q).
  Proof. symmetry. apply args_request. Qed.
  Lemma namespace_inj p q : namespace_of p = namespace_of q -> p = q.
  Proof. destruct p, q. unfold namespace_of. cbn. congruence. Qed.
  Lemma refused_iff argv :
    parse_args digit argv = Refused <-> ambiguous argv \/ ~ says_help digit argv /\ (forall q, ~ asked digit argv q).
  Proof.
    split.
    - intros H. destruct (classify digit argv) eqn:E; [|left; now apply classify_none in E].
      assert (HA : ~ ambiguous argv) by (intros HA; apply (proj2 (classify_none digit argv)) in HA; congruence).
      right. split.
      + intros HS. rewrite (proj2 (args_help digit argv) (conj HA HS)) in H. discriminate H.
      + intros q HQ. apply asked_iff in HQ. rewrite HQ in H. discriminate H.
    - intros [HA|[HS HQ]].
      + unfold parse_args. now rewrite (proj2 (classify_none digit argv) HA).
      + destruct (args_full digit argv) as [H|[H|[q H]]]; [|exact H|].
        * apply args_help in H as [_ H]. now apply HS in H.
        * apply asked_iff in H. now apply HQ in H.
  Qed.
  Lemma page_of_name codecs name cp : code_page_of codecs name cp -> page_named codecs name = cp.
  Proof.
    unfold code_page_of, page_named. intros [[[->| ->] ->]|(H1 & H2 & c & HC & ->)]; [reflexivity|reflexivity|].
    destruct (text_eqb name []) eqn:E1; [apply text_eqb_eq in E1; now apply H1 in E1|].
    destruct (text_eqb name (s2t "cp1252")) eqn:E2; [apply text_eqb_eq in E2; now apply H2 in E2|]. cbn [orb]. now rewrite HC.
  Qed.
  Lemma run_program codecs files argv p :
    (forall name c, codecs name = Some c -> python_page c) ->
    (forall q, asked digit argv q -> exists cp, code_page_of codecs (q_page q) cp) ->
    program digit codecs files argv = p <-> does digit codecs files argv p.
  Proof.
    intros HP HK.
    assert (HM : forall name cp, code_page_of codecs name cp -> usable cp /\ python_page (page_of cp)).
    { intros name cp [[_ ->]|(_ & _ & c & HC & ->)].
      - split; [exact none_usable|exact (text_python _ cp1252_text)].
      - split; [discriminate|exact (HP _ _ HC)]. }
    assert (HF : forall q, asked digit argv q -> program digit codecs files argv =
        match files (q_file q) with
        | None => NoSuchFile
        | Some content => Ran (main content (Args (q_target q) (q_json q) (page_named codecs (q_page q)) (q_all q)))
        end).
    { intros q HQ. apply asked_iff in HQ. unfold program. rewrite HQ. reflexivity. }
    split.
    - intros <-. destruct (args_full digit argv) as [H|[H|[q H]]].
      + unfold program. rewrite H. apply args_help in H as [H1 H2]. now apply does_help.
      + unfold program. rewrite H. apply refused_iff in H. now apply does_refuse.
      + apply asked_iff in H. rewrite (HF q H). destruct (files (q_file q)) as [content|] eqn:E; [|now apply (does_not_open _ _ _ _ q)].
        destruct (HK q H) as [cp HC]. rewrite (page_of_name _ _ _ HC). destruct (HM _ _ HC) as [Hcp HPy].
        destruct (main content _) as [said r] eqn:EM. apply (does_run _ _ _ _ q content cp); try assumption.
        now apply (run_iff content cp Hcp HPy).
    - intros [HA HS|HR|q HQ HN|q content cp said r HQ HC HCP HR].
      + unfold program. now rewrite (proj2 (args_help digit argv) (conj HA HS)).
      + unfold program. now rewrite (proj2 (refused_iff argv) HR).
      + now rewrite (HF q HQ), HN.
      + rewrite (HF q HQ), HC, (page_of_name _ _ _ HCP). destruct (HM _ _ HCP) as [Hcp HPy].
        now rewrite (proj2 (run_iff content cp Hcp HPy _ _ _ _ _) HR).
  Qed.

  (** ** Names *)
  Lemma two_dashes_plain v : plain digit v -> v <> two_dashes.
  Proof. intros H ->. apply word_plain in H. discriminate H. Qed.
  Lemma option_not_dashes w l n : option_word digit w l n -> w <> two_dashes.
  Proof. intros H ->. apply word_option in H as (f & H & _). discriminate H. Qed.
  (** Options followed by "--" and a name *)
  Lemma says_then ws l : says digit ws l -> words_of l = [] -> ~ In SayUnknown l ->
    forall f, says digit (ws ++ [two_dashes; f]) (l ++ [SayWord f]) /\ ~ In two_dashes ws.
  Proof.
    intros HS HW HU f. induction HS as [|w l r m HO HS IH|w l v r m HO HP HS IH|w r m HP HR HS IH|w HP|w r|].
    - split; [exact (says_only_words digit f [])|intros []].
    - unfold words_of in HW. rewrite flat_map_app in HW. apply app_eq_nil in HW as [_ HW].
      destruct IH as [I1 I2]; [exact HW|intros H; apply HU, in_or_app; now right|]. split.
      + rewrite <- app_assoc. now apply says_option.
      + intros [->|H]; [|auto]. now apply option_not_dashes in HO.
    - unfold words_of in HW. rewrite flat_map_app in HW. apply app_eq_nil in HW as [_ HW].
      destruct IH as [I1 I2]; [exact HW|intros H; apply HU, in_or_app; right; now right|]. split.
      + rewrite <- app_assoc. exact (says_page digit w l v _ _ HO HP I1).
      + intros [->|[->|H]]; [| |auto]; [now apply option_not_dashes in HO|now apply two_dashes_plain in HP].
    - discriminate HW.
    - discriminate HW.
    - discriminate HW.
    - destruct HU. now left.
  Qed.
  Lemma unambiguous_then ws x : ~ ambiguous ws -> ~ ambiguous (ws ++ two_dashes :: x).
  Proof.
    intros H (b & v & a & E & HB). apply H. clear H. revert b E HB. induction ws as [|w ws IH]; intros b E HB.
    - destruct b as [|y b]; [discriminate E|]. injection E as <- _. destruct HB. now left.
    - destruct b as [|y b]; injection E as -> E.
      + exists [], v, ws. split; [reflexivity|intros []].
      + destruct (IH b E) as (b' & v' & a' & -> & HB'); [intros HX; apply HB; now right|]. exists (y :: b'), v', a'.
        split; [reflexivity|]. intros [HX|HX]; [apply HB; now left|auto].
  Qed.
  Lemma last_page_app l m : forall d, last_page d (l ++ m) = last_page (last_page d l) m.
  Proof. induction l as [|s l IH]; intros d; [reflexivity|]. destruct s; cbn [app last_page]; apply IH. Qed.
  Definition has (s : saying) (l : list saying) : bool :=
    existsb (fun x => match x, s with SayTarget, SayTarget => true | SayJson, SayJson => true | SayAll, SayAll => true | _, _ => false end) l.
  Lemma any_name ws l f : ~ ambiguous ws -> says digit ws l -> words_of l = [] -> ~ In SayUnknown l -> ~ In SayHelp l ->
    exists q, asked digit (ws ++ [two_dashes; f]) q /\ q_file q = f
      /\ (q_target q = true <-> In SayTarget l) /\ (q_json q = true <-> In SayJson l) /\ (q_all q = true <-> In SayAll l)
      /\ q_page q = last_page (s2t "cp1252") l.
  Proof.
    intros HA HS HW HU HH. destruct (says_then ws l HS HW HU f) as [H1 H2].
    assert (HX : forall s, s = SayTarget \/ s = SayJson \/ s = SayAll -> has s l = true <-> In s l).
    { intros s Hs. unfold has. rewrite existsb_exists. split.
      - intros (x & HI & E). destruct Hs as [->|[->| ->]]; destruct x; try discriminate E; exact HI.
      - intros HI. exists s. split; [exact HI|]. now destruct Hs as [->|[->| ->]]. }
    exists (Request f (has SayTarget l) (has SayJson l) (last_page (s2t "cp1252") l) (has SayAll l)).
    cbn [q_file q_target q_json q_page q_all]. rewrite !HX by auto. repeat split; auto.
    - now apply unambiguous_then.
    - exists (l ++ [SayWord f]). split; [exact H1|]. unfold asks. cbn [q_file q_target q_json q_page q_all]. rewrite !HX by auto.
      assert (HI : forall s, (forall w, s <> SayWord w) -> In s (l ++ [SayWord f]) <-> In s l).
      { intros s Hs. rewrite in_app_iff. cbn [In]. split; [|now left]. intros [H|[H|[]]]; [exact H|]. now destruct (Hs f). }
      rewrite !HI by discriminate. unfold words_of. rewrite flat_map_app. fold (words_of l). rewrite HW, last_page_app.
      repeat split; auto.
  Qed.

  Lemma asked_determined argv p q : asked digit argv p -> asked digit argv q -> p = q.
  Proof. rewrite !asked_iff. intros H1 H2. rewrite H1 in H2. injection H2 as H2. apply namespace_inj. unfold namespace_of. congruence. Qed.
  (** A name before or behind the options *)
  Lemma says_name ws l f : says digit ws l -> words_of l = [] -> ~ In SayUnknown l -> plain digit f ->
    says digit (ws ++ [f]) (l ++ [SayWord f]) /\ ~ In two_dashes ws.
  Proof.
    intros HS HW HU Hf. induction HS as [|w l r m HO HS IH|w l v r m HO HP HS IH|w r m HP HR HS IH|w HP|w r|].
    - split; [|intros []]. apply says_word; [exact Hf|discriminate|constructor].
    - unfold words_of in HW. rewrite flat_map_app in HW. apply app_eq_nil in HW as [_ HW].
      destruct IH as [I1 I2]; [exact HW|intros H; apply HU, in_or_app; now right|]. split.
      + rewrite <- app_assoc. now apply says_option.
      + intros [->|H]; [|auto]. now apply option_not_dashes in HO.
    - unfold words_of in HW. rewrite flat_map_app in HW. apply app_eq_nil in HW as [_ HW].
      destruct IH as [I1 I2]; [exact HW|intros H; apply HU, in_or_app; right; now right|]. split.
      + rewrite <- app_assoc. exact (says_page digit w l v _ _ HO HP I1).
      + intros [->|[->|H]]; [| |auto]; [now apply option_not_dashes in HO|now apply two_dashes_plain in HP].
    - discriminate HW.
    - discriminate HW.
    - discriminate HW.
    - destruct HU. now left.
  Qed.
  Lemma ambiguous_front w ws : w <> two_dashes -> (forall v, w <> [45; 45; 61] ++ v) -> ambiguous (w :: ws) <-> ambiguous ws.
  Proof.
    intros H1 H2. split.
    - intros (b & v & a & E & HB). destruct b as [|y b]; injection E as -> E; [now destruct (H2 v)|]. exists b, v, a.
      split; [exact E|]. intros HX. apply HB. now right.
    - intros (b & v & a & -> & HB). exists (w :: b), v, a. split; [reflexivity|]. intros [HX|HX]; [now apply H1|auto].
  Qed.
  Lemma ambiguous_back w ws : w <> two_dashes -> (forall v, w <> [45; 45; 61] ++ v) -> ambiguous (ws ++ [w]) <-> ambiguous ws.
  Proof.
    intros H1 H2. induction ws as [|x ws IH]; [now apply (ambiguous_front w [])|]. split.
    - intros (b & v & a & E & HB). destruct b as [|y b]; injection E as -> E; [exists [], v, ws; split; [reflexivity|intros []]|].
      destruct (proj1 IH) as (b' & v' & a' & -> & HB'); [exists b, v, a; split; [exact E|intros HX; apply HB; now right]|].
      exists (y :: b'), v', a'. split; [reflexivity|]. intros [HX|HX]; [apply HB; now left|auto].
    - intros (b & v & a & -> & HB). exists b, v, (a ++ [w]). split; [|exact HB]. rewrite app_comm_cons, app_assoc. reflexivity.
  Qed.
  Lemma plain_words f : plain digit f -> f <> two_dashes /\ forall v, f <> [45; 45; 61] ++ v.
  Proof.
    intros H. split; [now apply two_dashes_plain|]. intros v ->. apply word_plain in H. cbn [app] in H. rewrite parse_ambiguous in H. discriminate H.
  Qed.
  Lemma name_anywhere ws l f : ~ ambiguous ws -> says digit ws l -> words_of l = [] -> ~ In SayUnknown l -> ~ In SayHelp l -> plain digit f ->
    exists q, asked digit (f :: ws) q /\ asked digit (ws ++ [f]) q /\ q_file q = f
      /\ (q_target q = true <-> In SayTarget l) /\ (q_json q = true <-> In SayJson l) /\ (q_all q = true <-> In SayAll l)
      /\ q_page q = last_page (s2t "cp1252") l.
  Proof.
    intros HA HS HW HU HH Hf. destruct (says_name ws l f HS HW HU Hf) as [H1 H2]. destruct (plain_words f Hf) as [P1 P2].
    assert (HX : forall s, s = SayTarget \/ s = SayJson \/ s = SayAll -> has s l = true <-> In s l).
    { intros s Hs. unfold has. rewrite existsb_exists. split.
      - intros (x & HI & E). destruct Hs as [->|[->| ->]]; destruct x; try discriminate E; exact HI.
      - intros HI. exists s. split; [exact HI|]. now destruct Hs as [->|[->| ->]]. }
    exists (Request f (has SayTarget l) (has SayJson l) (last_page (s2t "cp1252") l) (has SayAll l)).
    cbn [q_file q_target q_json q_page q_all]. rewrite !HX by auto. repeat split; auto.
    - now rewrite ambiguous_front.
    - exists (SayWord f :: l). split; [apply says_word; [exact Hf| |exact HS]; intros ->; apply H2; now left|].
      unfold asks. cbn [q_file q_target q_json q_page q_all]. rewrite !HX by auto.
      assert (HI : forall s, (forall w, s <> SayWord w) -> In s (SayWord f :: l) <-> In s l).
      { intros s Hs. cbn [In]. split; [|now right]. intros [H|H]; [|exact H]. now destruct (Hs f). }
      rewrite !HI by discriminate. unfold words_of. cbn [flat_map app]. fold (words_of l). rewrite HW. repeat split; auto.
    - now rewrite ambiguous_back.
    - exists (l ++ [SayWord f]). split; [exact H1|]. unfold asks. cbn [q_file q_target q_json q_page q_all]. rewrite !HX by auto.
      assert (HI : forall s, (forall w, s <> SayWord w) -> In s (l ++ [SayWord f]) <-> In s l).
      { intros s Hs. rewrite in_app_iff. cbn [In]. split; [|now left]. intros [H|[H|[]]]; [exact H|]. now destruct (Hs f). }
      rewrite !HI by discriminate. unfold words_of. rewrite flat_map_app. fold (words_of l). rewrite HW, last_page_app.
      repeat split; auto.
  Qed.
End Program.
