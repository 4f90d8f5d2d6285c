(** * Walking the parts of a link by hand (C71) *)
From Verif Require Import ApiProofs ShapeProofs ReportProofs CommandProofs.
From Verif Require Import Lemmas Codec Utils Sha256 Header StringData Targets Info Extra LnkFile Json Report.
From Verif Require Import Spec SpecText SpecReport SpecCommand SpecItems SpecInfo SpecHeader SpecExtra SpecOutcome SpecEntries SpecBlocks SpecWhole SpecFailure SpecUnknown SpecJsonText SpecRun.
From Verif Require Import EntryProofs LayoutProofs ExactProofs ConstructProofs FailureProofs.
From Verif Require Import Walk SpecWalk WalkItemProofs WalkBlockProofs.

Section Walk.
  Variables (b : bytes) (cp : cp_arg) (allow : bool) (l : lnk).
  Hypothesis Hcp : usable cp.
  Hypothesis Hl : snd (lnk_init (FromBytes b) cp allow) = Ok l.

  Lemma walk_page : l_cp l = cp.
  Proof. now destruct (init_constructed b cp allow l Hcp Hl) as [_ (H & _)]. Qed.
  Lemma walk_list : match l_targets l with
    | Some t => has_id_list b = true /\ tg_raw_targets t = id_list b
    | None => has_id_list b = false
    end.
  Proof.
    destruct (init_constructed b cp allow l Hcp Hl) as [_ (_ & _ & _ & H & _)]. rewrite H.
    destruct (has_id_list b); [|reflexivity]. split; [reflexivity|]. cbn [tg_raw_targets]. rewrite slice_dropN. unfold id_list. f_equal. lia.
  Qed.

  (** The reports. *)
  Lemma walk_selected all said d :
    get_json l all = (said, Ok d)
    <-> report_outcome b None /\ exists full, whole_report b cp allow full said /\ selected all full d.
  Proof.
    pose proof (fun r => complete_iff b cp allow l Hcp Hl said r) as HE. pose proof (report_abridged l) as [HW HA].
    split.
    - intros H. destruct (get_json l true) as [w r] eqn:E. destruct r as [full|e].
      + assert (Ew : w = said).
        { destruct all; [congruence|]. rewrite H in HW. cbn [fst] in HW. congruence. }
        subst w. destruct (proj1 (HE (Ok full)) eq_refl) as [HO HR]. split; [exact HO|]. exists full. split; [exact HR|].
        unfold selected. destruct all; [congruence|]. rewrite H in HA. exact HA.
      + destruct all; [congruence|]. rewrite H in HA. contradiction HA.
    - intros (HO & full & HR & HS). pose proof (proj2 (HE (Ok full)) (conj HO HR)) as E.
      unfold selected in HS. destruct all; [rewrite E; congruence|].
      rewrite E in HW, HA. cbn [fst snd] in HW, HA. destruct (get_json l false) as [w [d'|e]]; [|contradiction HA].
      cbn [fst snd] in HW, HA. subst w. rewrite <- HA in HS. congruence.
  Qed.
  Lemma report_gives h all said r : gives b cp allow h (Report all) said (as_answer r) <-> get_json l all = (said, r).
  Proof.
    split.
    - intros H. inversion H as [| | | | | | | | | | | |? full d ? HO HR HS E1 E2 E3|? e ? HF E1 E2 E3]; subst.
      + destruct r as [d'|e]; [|discriminate E3]. injection E3 as ->. apply walk_selected. split; [exact HO|]. now exists full.
      + destruct r as [d'|e']; [discriminate E3|]. injection E3 as ->. now apply (fails_iff b cp allow l Hcp Hl).
    - intros H. destruct r as [d|e]; cbn [as_answer].
      + apply walk_selected in H as (HO & full & HR & HS). now apply report_made with full.
      + apply report_not_made. now apply (fails_iff b cp allow l Hcp Hl all).
  Qed.
  (** The strings. *)
  Lemma string_gives : exists found e cut, string_walk b string_fields (info_end b) found e cut
    /\ forall name, sd_get name (l_string_data l) = text_of b cp found name.
  Proof.
    destruct (init_constructed b cp allow l Hcp Hl) as [HC _].
    destruct (construct_full b cp allow Hcp HC) as (l' & found & cut & wx & HI & HW & HD & _).
    pose proof Hl as HL. rewrite HI in HL. injection HL as <-. exists found, (string_data_end b), cut. split; [exact HW|].
    intros name. now apply sd_get_found.
  Qed.

  (** The variables. *)
  Definition variable_ok (h : list call) (v : nat) : Prop :=
    match after l h v, holds_iterator b v h with
    | None, None => True
    | Some (ItemIterator g got), Some (Items, k) => asked cp (id_list b) k g got
    | Some (BlockIterator n), Some (Blocks, k) => n = Nat.min k (length (l_extras l))
    | _, _ => False
    end.
  Lemma assign_same v i s : assign v i s v = Some i.
  Proof. unfold assign. now rewrite Nat.eqb_refl. Qed.
  Lemma variables_ok h : forall v, variable_ok h v.
  Proof.
    induction h as [|c h IH]; intros v; [exact I|]. unfold variable_ok. cbn [after]. specialize (IH v). unfold variable_ok in IH.
    set (s := after l h) in *. destruct c as [v'|v'|v'|v' k'|v' k'|v' k'|m|all]; cbn [do_call holds_iterator]; cbv zeta.
    - pose proof walk_list as HT. destruct (l_targets l) as [t|].
      + destruct HT as [HB HT]. rewrite HB, andb_true_r, HT. cbn [fst]. unfold assign. destruct (Nat.eqb v' v); [apply asked_start|exact IH].
      + rewrite HT, andb_false_r. exact IH.
    - cbn [fst]. unfold assign. destruct (Nat.eqb v' v); [reflexivity|exact IH].
    - destruct (Nat.eqb v' v) eqn:EV.
      + apply Nat.eqb_eq in EV. subst v'. destruct (s v) as [[g got|n]|] eqn:ES.
        * destruct (holds_iterator b v h) as [[[] k]|]; try contradiction. rewrite walk_page.
          pose proof (asked_next cp Hcp _ _ _ _ IH) as HN. destruct (generator_next cp g) as [g' [w [t|e]]]; cbn [fst]; rewrite assign_same; apply HN.
        * destruct (holds_iterator b v h) as [[[] k]|]; try contradiction.
          destruct (nth_error (l_extras l) n) as [x|] eqn:EN; cbn [fst].
          -- rewrite assign_same. assert (n < length (l_extras l))%nat by (apply nth_error_Some; congruence). lia.
          -- rewrite ES. apply nth_error_None in EN. lia.
        * cbn [fst]. rewrite ES. destruct (holds_iterator b v h) as [[[] k]|]; try contradiction. exact I.
      + assert (HV : forall i, assign v' i s v = s v) by (intros i; unfold assign; now rewrite EV).
        assert (HH : match holds_iterator b v h with Some (x, k) => Some (x, k) | None => None end = holds_iterator b v h)
          by (destruct (holds_iterator b v h) as [[]|]; reflexivity).
        rewrite HH. destruct (s v') as [[g got|n]|].
        * destruct (generator_next (l_cp l) g) as [g' [w [t|e]]]; cbn [fst]; rewrite HV; exact IH.
        * destruct (nth_error (l_extras l) n); cbn [fst]; rewrite ?HV; exact IH.
        * exact IH.
    - exact IH.
    - exact IH.
    - exact IH.
    - exact IH.
    - exact IH.
  Qed.
  Lemma holds_items h v g got : after l h v = Some (ItemIterator g got) ->
    exists k, holds_iterator b v h = Some (Items, k) /\ asked cp (id_list b) k g got.
  Proof.
    intros E. pose proof (variables_ok h v) as HV. unfold variable_ok in HV. rewrite E in HV.
    destruct (holds_iterator b v h) as [[[] k]|]; try contradiction. now exists k.
  Qed.
  Lemma holds_blocks h v n : after l h v = Some (BlockIterator n) ->
    exists k, holds_iterator b v h = Some (Blocks, k) /\ n = Nat.min k (length (l_extras l)).
  Proof.
    intros E. pose proof (variables_ok h v) as HV. unfold variable_ok in HV. rewrite E in HV.
    destruct (holds_iterator b v h) as [[[] k]|]; try contradiction. now exists k.
  Qed.
  Lemma holds_model h v x k : holds_iterator b v h = Some (x, k) ->
    match x with
    | Items => exists g got, after l h v = Some (ItemIterator g got) /\ asked cp (id_list b) k g got
    | Blocks => after l h v = Some (BlockIterator (Nat.min k (length (l_extras l))))
    end.
  Proof.
    intros E. pose proof (variables_ok h v) as HV. unfold variable_ok in HV. rewrite E in HV.
    destruct (after l h v) as [[g got|n]|]; destruct x; try contradiction.
    - exists g, got. now split.
    - now subst n.
  Qed.
  Lemma firstn_nth {A} n (x : list A) k : nth_error (firstn n x) k = if Nat.ltb k n then nth_error x k else None.
  Proof.
    revert n k. induction x as [|a x IH]; intros n k; [rewrite firstn_nil; destruct k, (Nat.ltb _ n); reflexivity|].
    destruct n as [|n]; [now destruct k|]. destruct k as [|k]; [reflexivity|]. cbn [firstn nth_error]. exact (IH n k).
  Qed.

  (** The model gives what the specification says. *)
  Lemma item_model h v k there : has_item b cp h v k there ->
    exists g got t, after l h v = Some (ItemIterator g got) /\ nth_error got k = Some t
      /\ t_class t = class_for (num 1 2 there) /\ t_raw t = there /\ item_there there
      /\ forall said r, item_shown cp there said r -> as_item cp t = (said, r).
  Proof.
    intros [n th said HH HK HF HC]. destruct (holds_model _ _ _ _ HH) as (g & got & HA & HQ).
    pose proof (asked_got cp Hcp _ _ _ _ k HQ) as HG. destruct (nth_error got k) as [t|] eqn:E.
    - destruct HG as (th' & said' & _ & HF' & _ & H1 & H2 & H3 & H4). rewrite (further_det cp _ _ _ _ HF HF') in *.
      exists g, got, t. now repeat split; try apply H3.
    - exfalso. now apply (HG th said HK HF).
  Qed.
  Lemma part_model h v k p : has_part b allow h v k p ->
    exists n, after l h v = Some (BlockIterator n) /\ nth_error (firstn n (l_extras l)) k = Some (extra_of p) /\ part_ok p.
  Proof.
    intros [n ps p' HH HK HP HN]. pose proof (holds_model _ _ _ _ HH) as HA. destruct (file_parts cp Hcp b allow l Hl) as (ps' & HP' & HE & HO).
    rewrite (parts_det _ _ _ _ HP HP') in *. eexists. split; [exact HA|].
    assert (HLt : (k < length ps')%nat) by (apply nth_error_Some; congruence). split.
    - rewrite firstn_nth, HE, map_length. replace (Nat.ltb k _) with true by (symmetry; apply Nat.ltb_lt; lia).
      now apply map_nth_error.
    - rewrite Forall_forall in HO. apply HO. now apply nth_error_In with k.
  Qed.
  Lemma gives_model h c said r : gives b cp allow h c said r -> answered l h c = Some (said, r).
  Proof.
    unfold answered. intros H. destruct H as [v HB|v HB|v|v k said e HH HN|v k ps HH HP|v k there HI|v k there HI|v k there said r HI HS
      |v k p HI|v k p HI|v k p said r HI HS|m found e cut HW|all full d said HO HR HS|all e said HF]; cbn [do_call]; cbv zeta.
    - pose proof walk_list as HT. destruct (l_targets l) as [t|]; [reflexivity|congruence].
    - pose proof walk_list as HT. destruct (l_targets l) as [t|]; [destruct HT; congruence|reflexivity].
    - reflexivity.
    - destruct (holds_model _ _ _ _ HH) as (g & got & -> & HQ). rewrite walk_page. pose proof (asked_next cp Hcp _ _ _ _ HQ) as HX.
      destruct (generator_next cp g) as [g' [w [t|x]]]; destruct HX as [HX _]; destruct (next_det cp Hcp _ _ _ _ _ _ HN HX) as [-> ->]; reflexivity.
    - rewrite (holds_model _ _ _ _ HH). destruct (file_parts cp Hcp b allow l Hl) as (ps' & HP' & HE & HO).
      rewrite (parts_det _ _ _ _ HP HP') in *. assert (HLn : length (l_extras l) = length ps') by (now rewrite HE, map_length).
      destruct (Nat.ltb_spec k (length ps')) as [L|L].
      + rewrite Nat.min_l by lia. destruct (nth_error (l_extras l) k) as [x|] eqn:EN; [reflexivity|]. apply nth_error_None in EN. lia.
      + rewrite Nat.min_r by lia. rewrite (proj2 (nth_error_None _ _)) by lia. reflexivity.
    - destruct (item_model _ _ _ _ HI) as (g & got & t & -> & -> & H1 & _). cbn [option_map snd]. now rewrite H1, class_name by apply num1_lt.
    - destruct (item_model _ _ _ _ HI) as (g & got & t & -> & -> & _ & H2 & H3 & _). cbn [option_map snd]. rewrite H2.
      unfold made. now rewrite size_there, bind_ret_l.
    - destruct (item_model _ _ _ _ HI) as (g & got & t & -> & -> & _ & _ & _ & H4). cbn [option_map snd]. rewrite walk_page.
      rewrite (H4 _ _ HS). destruct r as [d|e]; cbn; now rewrite ?app_nil_r.
    - destruct (part_model _ _ _ _ HI) as (n & -> & -> & _). cbn [option_map snd]. now rewrite part_named.
    - destruct (part_model _ _ _ _ HI) as (n & -> & -> & HK). cbn [option_map snd]. unfold made. now rewrite part_sized, bind_ret_l.
    - destruct (part_model _ _ _ _ HI) as (n & -> & -> & HK). cbn [option_map snd]. rewrite walk_page.
      rewrite (part_gives cp Hcp _ _ _ HK HS). destruct r as [d|e]; cbn; now rewrite ?app_nil_r.
    - destruct string_gives as (found' & e' & cut' & HW' & HG). destruct (string_walk_det _ _ _ _ _ _ _ _ _ HW HW') as (-> & _ & _).
      now rewrite HG.
    - rewrite (proj2 (walk_selected all said d)) by (split; [exact HO|now exists full]). cbn. now rewrite app_nil_r.
    - rewrite (proj2 (fails_iff b cp allow l Hcp Hl all e said)) by exact HF. reflexivity.
  Qed.
  (** The specification says something whenever the model answers. *)
  Lemma model_item h v k g got t : after l h v = Some (ItemIterator g got) -> nth_error got k = Some t -> exists there, has_item b cp h v k there.
  Proof.
    intros HA HN. destruct (holds_items _ _ _ _ HA) as (n & HH & HQ). pose proof (asked_got cp Hcp _ _ _ _ k HQ) as HG. rewrite HN in HG.
    destruct HG as (there & said & HK & HF & HC & _). exists there. now apply (given_item b cp h v k n there said).
  Qed.
  Lemma model_part h v k n x : after l h v = Some (BlockIterator n) -> nth_error (firstn n (l_extras l)) k = Some x ->
    exists p, has_part b allow h v k p /\ part_ok p.
  Proof.
    intros HA HN. destruct (holds_blocks _ _ _ HA) as (m & HH & EM). destruct (file_parts cp Hcp b allow l Hl) as (ps & HP & HE & HO).
    rewrite firstn_nth in HN. destruct (Nat.ltb_spec k n) as [L|L]; [|discriminate HN].
    rewrite HE in HN. rewrite nth_error_map in HN. destruct (nth_error ps k) as [p|] eqn:EP; [|discriminate HN].
    exists p. split; [apply (given_part b allow h v k m ps p); (lia || assumption)|].
    rewrite Forall_forall in HO. apply HO. now apply nth_error_In with k.
  Qed.
  Lemma model_gives h c a : answered l h c = Some a -> exists said r, gives b cp allow h c said r.
  Proof.
    unfold answered. destruct c as [v|v|v|v k|v k|v k|m|all]; cbn [do_call]; cbv zeta; intros H.
    - destruct (has_id_list b) eqn:E; do 2 eexists; [now apply iter_items|now apply iter_no_items].
    - do 2 eexists. apply iter_blocks.
    - destruct (after l h v) as [[g got|n]|] eqn:EA; [| |discriminate H].
      + destruct (holds_items _ _ _ _ EA) as (k & HH & HQ). pose proof (asked_next cp Hcp _ _ _ _ HQ) as HX.
        destruct (generator_next cp g) as [g' [w [t|e]]]; destruct HX as [HX _]; do 2 eexists; exact (next_item b cp allow h v k _ _ HH HX).
      + destruct (holds_blocks _ _ _ EA) as (k & HH & _). destruct (file_parts cp Hcp b allow l Hl) as (ps & HP & _).
        do 2 eexists. exact (next_block b cp allow h v k ps HH HP).
    - cbn [snd] in H. destruct (after l h v) as [[g got|n]|] eqn:EA; [| |discriminate H].
      + destruct (nth_error got k) as [t|] eqn:EN; [|discriminate H]. destruct (model_item _ _ _ _ _ _ EA EN) as [there HI].
        do 2 eexists. exact (item_name b cp allow h v k there HI).
      + destruct (nth_error (firstn n (l_extras l)) k) as [x|] eqn:EN; [|discriminate H]. destruct (model_part _ _ _ _ _ EA EN) as (p & HI & _).
        do 2 eexists. exact (block_is_named b cp allow h v k p HI).
    - cbn [snd] in H. destruct (after l h v) as [[g got|n]|] eqn:EA; [| |discriminate H].
      + destruct (nth_error got k) as [t|] eqn:EN; [|discriminate H]. destruct (model_item _ _ _ _ _ _ EA EN) as [there HI].
        do 2 eexists. exact (item_size b cp allow h v k there HI).
      + destruct (nth_error (firstn n (l_extras l)) k) as [x|] eqn:EN; [|discriminate H]. destruct (model_part _ _ _ _ _ EA EN) as (p & HI & _).
        do 2 eexists. exact (block_has_size b cp allow h v k p HI).
    - cbn [snd] in H. destruct (after l h v) as [[g got|n]|] eqn:EA; [| |discriminate H].
      + destruct (nth_error got k) as [t|] eqn:EN; [|discriminate H]. destruct (model_item _ _ _ _ _ _ EA EN) as [there HI].
        destruct (shown_total cp there) as (said & r & HS). do 2 eexists. exact (item_entry b cp allow h v k there said r HI HS).
      + destruct (nth_error (firstn n (l_extras l)) k) as [x|] eqn:EN; [|discriminate H]. destruct (model_part _ _ _ _ _ EA EN) as (p & HI & HO).
        destruct (part_total cp Hcp p HO) as (said & r & HS). do 2 eexists. exact (block_entry b cp allow h v k p said r HI HS).
    - destruct string_gives as (found & e & cut & HW & _). do 2 eexists. exact (string_asked b cp allow h m found e cut HW).
    - destruct (get_json l all) as [w r] eqn:E. do 2 eexists. apply report_gives. exact E.
  Qed.
  Theorem walk_iff h c said r : answered l h c = Some (said, r) <-> gives b cp allow h c said r.
  Proof.
    split; [|apply gives_model]. intros H. destruct (model_gives _ _ _ H) as (said' & r' & HG). pose proof (gives_model _ _ _ _ HG) as H'.
    rewrite H in H'. injection H' as -> ->. exact HG.
  Qed.
End Walk.

(** The items of a report are those of a walk. *)
Lemma listed_further cp rest entries said : entries_listed cp rest entries said ->
  (forall k d, nth_error entries k = Some d -> exists there s w,
     further cp k rest there /\ comes_to cp there s None /\ item_shown cp there w (Ok d))
  /\ exists last, further cp (length entries) rest last /\ comes_to cp last [] (Some StopIteration).
Proof.
  induction 1 as [rest H|rest entries said L Hn fields He HL [IH1 (last & IH2 & IH3)]].
  - split; [intros [|k] d E; discriminate E|]. exists rest. split; [constructor|now apply at_the_end].
  - assert (HC : comes_to cp rest (made_says cp (fields_at rest)) None) by (apply at_an_item; [now split|auto]).
    split.
    + intros [|k] d E.
      * injection E as <-. exists rest. do 2 eexists. split; [constructor|]. split; [exact HC|]. exact (item_good cp rest He).
      * destruct (IH1 k d E) as (there & s & w & HF & HX). exists there, s, w. split; [|exact HX]. econstructor; [exact HC|exact HF].
    + exists last. split; [|exact IH3]. econstructor; [exact HC|exact IH2].
Qed.
Theorem walk_as_reported b cp allow l entries said h v k :
  usable cp -> snd (lnk_init (FromBytes b) cp allow) = Ok l ->
  entries_listed cp (id_list b) entries said -> holds_iterator b v h = Some (Items, k) ->
  (if Nat.ltb k (length entries) then exists w, answered l h (Next v) = Some (w, Ok Given)
   else answered l h (Next v) = Some ([], Err StopIteration))
  /\ forall i d, (i < k)%nat -> nth_error entries i = Some d -> exists w, answered l h (Show v i) = Some (w, Ok (ADict d)).
Proof.
  intros Hcp Hl HE HH. destruct (listed_further _ _ _ _ HE) as [H1 (last & H2 & H3)]. split.
  - destruct (Nat.ltb_spec k (length entries)) as [L|L].
    + destruct (nth_error entries k) as [d|] eqn:EN; [|apply nth_error_None in EN; lia].
      destruct (H1 k d EN) as (there & s & w & HF & HC & _). exists s. apply (walk_iff b cp allow l Hcp Hl).
      apply (next_item b cp allow h v k s None HH). now apply next_comes with there.
    + apply (walk_iff b cp allow l Hcp Hl). apply (next_item b cp allow h v k [] (Some StopIteration) HH).
      destruct (Nat.eq_dec k (length entries)) as [->|NE]; [now apply next_comes with last|].
      apply (next_over cp (id_list b) k (length entries) last [] StopIteration); [lia|assumption..].
  - intros i d Hi EN. destruct (H1 i d EN) as (there & s & w & HF & HC & HS). exists w. apply (walk_iff b cp allow l Hcp Hl).
    apply (item_entry b cp allow h v i there w (Ok d)); [|exact HS]. now apply (given_item b cp h v i k there s).
Qed.
Theorem walk_determined b cp allow l h c said1 r1 said2 r2 : usable cp -> snd (lnk_init (FromBytes b) cp allow) = Ok l ->
  gives b cp allow h c said1 r1 -> gives b cp allow h c said2 r2 -> said1 = said2 /\ r1 = r2.
Proof.
  intros Hcp Hl H1 H2. apply (walk_iff b cp allow l Hcp Hl) in H1, H2. rewrite H1 in H2. now injection H2 as -> ->.
Qed.
Theorem walk_nothing b cp allow l h c : usable cp -> snd (lnk_init (FromBytes b) cp allow) = Ok l ->
  answered l h c = None <-> forall said r, ~ gives b cp allow h c said r.
Proof.
  intros Hcp Hl. split.
  - intros HN said r HG. apply (walk_iff b cp allow l Hcp Hl) in HG. rewrite HN in HG. discriminate HG.
  - intros HN. destruct (answered l h c) as [[said r]|] eqn:E; [|reflexivity]. exfalso. apply (HN said r).
    now apply (walk_iff b cp allow l Hcp Hl).
Qed.
(** A malformed item that is no network location is given, says so when it is asked, and does not hide the next one. *)
Theorem walk_goes_on b cp allow l h v k there e : usable cp -> snd (lnk_init (FromBytes b) cp allow) = Ok l ->
  has_item b cp h v k there -> error_at there = Some e ->
  answered l h (Show v k) = Some (entry_tried cp (fields_at there), Err e)
  /\ (forall x, report_outcome b x -> x <> None)
  /\ further cp (S k) (id_list b) (dropN (num 2 0 there) there).
Proof.
  intros Hcp Hl HI HE. split; [|split].
  - apply (walk_iff b cp allow l Hcp Hl). exact (item_entry b cp allow h v k there _ _ HI (item_malformed cp there e HE)).
  - intros x HX ->. destruct HI as [n th said HH HK HF HC].
    assert (HB : has_id_list b = true).
    { clear -HH. revert HH. generalize n. induction h as [|c h IH]; intros m HH; [discriminate HH|]. cbn [holds_iterator] in HH.
      destruct c as [v'|v'|v'|v' k'|v' k'|v' k'|q|all]; try exact (IH _ HH).
      - destruct (Nat.eqb v' v && has_id_list b) eqn:E; [now apply andb_true_iff in E|exact (IH _ HH)].
      - destruct (Nat.eqb v' v); [discriminate HH|exact (IH _ HH)].
      - destruct (holds_iterator b v h) as [[x k]|]; [|discriminate HH]. injection HH as -> _. exact (IH _ eq_refl). }
    assert (HW : items_outcome (id_list b) None) by (inversion HX; subst; auto).
    clear -HW HF HC HE. revert HW. induction HF as [rest|k rest s t H1 _ IH]; intros HW.
    + inversion HC as [| | |[HT Hz] _]; subst. inversion HW as [? H| | |? ? L Hn He _]; subst.
      * destruct H as [->|[_ H]]; [cbn in HT; lia|contradiction].
      * unfold error_at, fields_at in HE. rewrite He in HE. discriminate HE.
    + apply IH; [assumption..|]. inversion H1 as [| | |[HT Hz] _]; subst. inversion HW as [? H| | |? ? L Hn He HN]; subst.
      * destruct H as [->|[_ H]]; [cbn in HT; lia|contradiction].
      * exact HN.
  - destruct HI as [n th said HH HK HF HC]. now apply further_last with said.
Qed.
