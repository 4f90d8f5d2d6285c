(** * Every outcome of a run of the command line (C69) *)
From Verif Require Import ApiProofs ShapeProofs ReportProofs CommandProofs ReadableProofs MainProofs.
From Verif Require Import Lemmas Codec Utils Sha256 Header StringData Targets Info Extra LnkFile Json Report.
From Verif Require Import Spec SpecText SpecReport SpecCommand SpecReadable SpecItems SpecInfo SpecHeader SpecExtra SpecOutcome SpecEntries SpecBlocks SpecWhole SpecFailure SpecUnknown SpecJsonText SpecRun.
From Verif Require Import ConstructProofs FailureProofs UnknownProofs JsonProofs JsonTextProofs.
From Verif Require Import ClassProofs.

Lemma command_quiet b cp l : usable cp -> snd (lnk_init (FromBytes b) cp true) = Ok l -> fst (lnk_command l) = [].
Proof.
  intros Hcp Hl. destruct (init_constructed b cp true l Hcp Hl) as [HC _].
  destruct (construct_full b cp true Hcp HC) as (l' & found & cut & wx & _ & HW & _).
  rewrite (command_outcome b cp true l found _ cut Hcp Hl HW). reflexivity.
Qed.
Section Run.
  Variables (b : bytes) (cp : cp_arg).
  Hypothesis Hcp : usable cp.
  Hypothesis HP : python_page (page_of cp).

  Lemma report_selected l all said d : b <> [] -> snd (lnk_init (FromHandle b) cp true) = Ok l ->
    get_json l all = (said, Ok d)
    <-> report_outcome b None /\ exists full, whole_report b cp true full said /\ selected all full d.
  Proof.
    intros Hb Hl. rewrite handle_bytes in Hl by exact Hb.
    pose proof (fun r => complete_iff b cp true l Hcp Hl said r) as HE. pose proof (report_abridged l) as [HW HA].
    split.
    - intros H. destruct (get_json l true) as [w r] eqn:E. destruct r as [full|e].
      + assert (Ew : w = said).
        { destruct all; [congruence|]. rewrite H in HW. cbn [fst] in HW. congruence. }
        subst w. destruct (proj1 (HE (Ok full)) eq_refl) as [HO HR]. split; [exact HO|]. exists full. split; [exact HR|].
        unfold selected. destruct all; [congruence|]. rewrite H in HA. exact HA.
      + exfalso. destruct all; [congruence|]. rewrite H in HA. exact HA.
    - intros (HO & full & HR & HS). pose proof (proj2 (HE (Ok full)) (conj HO HR)) as E. unfold selected in HS.
      destruct all; [congruence|]. rewrite E in HW, HA. cbn [fst snd] in HW, HA.
      destruct (get_json l false) as [w [d'|e']]; cbn [fst snd] in HW, HA; [|contradiction]. congruence.
  Qed.
  Lemma report_refused l all said e : b <> [] -> snd (lnk_init (FromHandle b) cp true) = Ok l ->
    get_json l all = (said, Err e) <-> report_fails b cp e said.
  Proof. intros Hb Hl. rewrite handle_bytes in Hl by exact Hb. exact (fails_iff b cp true l Hcp Hl all e said). Qed.

  Lemma chosen_wf full said d all : whole_report b cp true full said ->
    (exists l, b <> [] /\ snd (lnk_init (FromHandle b) cp true) = Ok l /\ snd (get_json l all) = Ok d) -> selected all full d ->
    classed (PDict d) /\ well_formed anything any_keys (PDict d).
  Proof.
    intros HR (l & Hb & Hl & Hd) HS. apply whole_classed in HR. split.
    - unfold selected in HS. rewrite HS. destruct all; [exact HR|]. now apply abridged_classed.
    - exact (report_wf anything any_keys _ cp true l all d (fun _ _ => I) (fun _ _ => I) (any_page cp) Hl Hd).
  Qed.

  Lemma run_iff target json all said r : main b (Args target json cp all) = (said, r) <-> run b (Args target json cp all) said r.
  Proof.
    unfold main. cbn [a_cp a_target a_json a_all].
    destruct (lnk_init (FromHandle b) cp true) as [w [l|e]] eqn:EI.
    2:{ assert (HO : opened b cp w (Some e)) by (apply opened_iff; rewrite EI; split; reflexivity).
        cbn [bind]. split.
        - intros [= <- <-]. now constructor.
        - assert (HU : forall s x, opened b cp s x -> s = w /\ x = Some e).
          { intros s x H. apply opened_iff in H. rewrite EI in H. destruct H as [<- <-]. split; reflexivity. }
          intros H. inversion H; subst;
            match goal with X : opened b cp _ _ |- _ => destruct (HU _ _ X) as [-> HZ] end; try discriminate HZ. now injection HZ as ->. }
    assert (HO : opened b cp w None) by (apply opened_iff; rewrite EI; split; reflexivity).
    assert (HU : forall s x, opened b cp s x -> s = w /\ x = None).
    { intros s x H. apply opened_iff in H. rewrite EI in H. destruct H as [<- <-]. split; reflexivity. }
    assert (Hb : b <> []) by (intros E; rewrite E, handle_empty in EI; discriminate).
    assert (Hl : snd (lnk_init (FromHandle b) cp true) = Ok l) by (rewrite EI; reflexivity).
    assert (Hl' : snd (lnk_init (FromBytes b) cp true) = Ok l) by (rewrite <- handle_bytes by exact Hb; exact Hl).
    cbn [bind]. split.
    - destruct target.
      + destruct (lnk_command l) as [w2 r2] eqn:EC.
        assert (E2 : w2 = []) by (pose proof (command_quiet b cp l Hcp Hl') as X; rewrite EC in X; exact X). subst w2.
        assert (HT : target_run b cp r2) by (apply (target_run_iff b cp l); assumption).
        destruct r2 as [c|e].
        * unfold ret; cbn [bind]; rewrite ?app_nil_r. destruct json; intros [= <- <-].
          -- destruct (proj1 (command_text c _ (command_points _ _ _ _ _ HP Hl (f_equal snd EC))) eq_refl) as (q & Hq & ->).
             now apply (run_target_json b cp all w c).
          -- now apply run_target.
        * unfold ret; cbn [bind]; rewrite ?app_nil_r. intros [= <- <-]. now apply run_no_target.
      + destruct (get_json l all) as [w2 [d|e]] eqn:ED.
        * pose proof (proj1 (report_selected l all w2 d Hb Hl) ED) as (HR & full & HF & HS). destruct json.
          -- unfold ret; cbn [bind]; rewrite ?app_nil_r. intros [= <- <-].
             apply (run_json b cp all w w2 full d); try assumption.
             apply (printed_report _ _ _ _ _ _ _ HP Hl (f_equal snd ED)). reflexivity.
          -- destruct (yaml_shown _ _ _ _ _ _ Hl (f_equal snd ED)) as (h & lines & sections & Hh & HY & HL & HX).
             rewrite HY, ED. unfold ret; cbn [bind]; rewrite ?app_nil_r. intros [= <- <-].
             apply (run_readable b cp all w w2 full d); try assumption. exists h, lines, sections. now repeat split.
        * assert (HF : report_fails b cp e w2) by now apply (report_refused l all).
          destruct json; [|rewrite yaml_raises with (e := e) by (rewrite ED; reflexivity); rewrite ED]; cbn [bind fst];
            intros [= <- <-]; now apply run_no_report.
    - intros H. inversion H; subst;
        match goal with X : opened b cp _ _ |- _ => destruct (HU _ _ X) as [-> HZ] end; try discriminate HZ.
      + match goal with X : target_run _ _ _ |- _ => apply (target_run_iff b cp l) in X; [|assumption|assumption]; rewrite X end.
        unfold ret; cbn [bind]; now rewrite ?app_nil_r.
      + match goal with X : target_run _ _ _ |- _ => apply (target_run_iff b cp l) in X; [|assumption|assumption]; rewrite X end.
        unfold ret; cbn [bind]; now rewrite ?app_nil_r.
      + match goal with X : target_run _ _ _ |- _ => apply (target_run_iff b cp l) in X; [|assumption|assumption]; rewrite X; rename X into EC end.
        unfold ret; cbn [bind]; rewrite ?app_nil_r. f_equal. f_equal. f_equal.
        apply (command_text c _ (command_points _ _ _ _ _ HP Hl (f_equal snd EC))). now exists q.
      + match goal with X : report_fails _ _ _ _ |- _ => apply (report_refused l all) in X; [|assumption|assumption]; rename X into ED end.
        destruct json; [rewrite ED; reflexivity|]. rewrite yaml_raises with (e := e) by (rewrite ED; reflexivity). rewrite ED. reflexivity.
      + assert (ED : get_json l all = (more, Ok d)) by (apply report_selected; [exact Hb|exact Hl|]; split; [assumption|]; now exists full).
        rewrite ED. unfold ret; cbn [bind]; rewrite ?app_nil_r. f_equal. f_equal. f_equal.
        now apply (printed_report _ _ _ _ _ _ _ HP Hl (f_equal snd ED)).
      + assert (ED : get_json l all = (more, Ok d)) by (apply report_selected; [exact Hb|exact Hl|]; split; [assumption|]; now exists full).
        destruct (yaml_shown _ _ _ _ _ _ Hl (f_equal snd ED)) as (h & lines & sections & Hh & HY & HL & HX).
        rewrite HY, ED. unfold ret; cbn [bind]; rewrite ?app_nil_r. f_equal. f_equal. f_equal.
        assert (CW : classed (PDict d) /\ well_formed anything any_keys (PDict d)).
        { eapply chosen_wf; [eassumption| |eassumption]. exists l. split; [exact Hb|]. split; [exact Hl|exact (f_equal snd ED)]. }
        apply (readable_determined d); [apply CW|apply CW| |assumption]. exists h, lines, sections. now repeat split.
  Qed.
End Run.
Lemma none_usable : usable CpNone.
Proof. discriminate. Qed.
Lemma run_determined b target json cp all : usable cp -> python_page (page_of cp) ->
  exists said r, run b (Args target json cp all) said r
    /\ forall said' r', run b (Args target json cp all) said' r' -> said' = said /\ r' = r.
Proof.
  intros Hcp HP. destruct (main b (Args target json cp all)) as [said r] eqn:E. exists said, r.
  split; [now apply (run_iff b cp Hcp HP)|]. intros said' r' H. apply (run_iff b cp Hcp HP) in H. split; congruence.
Qed.
Lemma argument_back p : (exists q, argument p q /\ forall q', argument p q' -> q' = q)
  /\ forall q, argument p q -> arguments_of q = [p] /\ forall a, arguments_of (q ++ [32] ++ a) = p :: arguments_of a.
Proof.
  split.
  - exists (list2cmdline1 p). split; [now apply argument_iff|]. intros q' H. now apply argument_iff.
  - intros q H. apply argument_iff in H as ->. apply quoting.
Qed.
