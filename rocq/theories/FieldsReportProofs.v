(** * Single fields and the report (C72) *)
From Verif Require Import ApiProofs ShapeProofs ReportProofs CommandProofs.
From Verif Require Import Lemmas PyTime Codec Utils Sha256 Header StringData Targets Info Extra LnkFile Json Report.
From Verif Require Import Spec SpecText SpecHeader SpecTime SpecDouble SpecItems SpecInfo SpecExtra SpecOutcome SpecEntries SpecBlocks SpecWhole SpecFailure SpecReadable.
From Verif Require Import OutcomeProofs LayoutProofs CoreProofs FormatProofs EncProofs TextProofs HeaderProofs StringProofs.
From Verif Require Import ConstructProofs ExtraProofs ExtraListProofs AnyBlockProofs InfoProofs HeaderFileProofs EntryProofs TriedProofs WholeProofs FailureProofs ExactProofs ReadableProofs.
From Verif Require Import Fields SpecFields FieldsProofs.

(** An entry [o] of a report and a field [t]. *)
Definition agrees (o : option pyval) (t : there) : Prop :=
  match o with
  | Some v => exists said, t = There said v
  | None => exists said v, t = There said v /\ nothing v
  end.
Lemma none_nothing : nothing PNone. Proof. now left. Qed.
Lemma zero_nothing : nothing (PN 0). Proof. right. now left. Qed.
Lemma empty_nothing : nothing (PStr []). Proof. right. now right. Qed.
Ltac found := cbn [agrees]; eexists; reflexivity.
Ltac missing := cbn [agrees]; do 2 eexists; split; [reflexivity|(apply none_nothing || apply zero_nothing || apply empty_nothing)].

Lemma dget_if k c d : dget k (entry_if c d) = if c then dget k d else None. Proof. now destruct c. Qed.
Lemma if_same {A} (c : bool) (x : A) : (if c then x else x) = x. Proof. now destruct c. Qed.
Ltac look := rewrite !dget_app, !dget_if; cbn [dget String.eqb Ascii.eqb Bool.eqb]; rewrite ?if_same.

Section Agree.
  Variables (cp : cp_arg) (raw : bytes).
  Lemma info_agrees network m : info_readable network raw = true ->
    agrees (dget (info_key m) (info_entries cp network raw)) (info_field cp network raw m).
  Proof.
    intros HR. apply readable_parts in HR as (H28 & H36 & _).
    unfold info_entries, common_entries, wide_offset. cbv zeta.
    destruct m; cbn [info_key info_field]; unfold number_field, if_wide, if_set; rewrite ?within_true by lia;
      look; try found;
      repeat (match goal with |- context [if ?c then _ else _] => destruct c eqn:? end; try specialize (H36 ltac:(lia));
        rewrite ?within_true by lia; cbn [negb] in *; try discriminate);
      try found; try missing.
    all: match goal with H : negb (?x =? 0) = false |- _ => apply Bool.negb_false_iff, N.eqb_eq in H; rewrite H end; missing.
  Qed.
  Lemma local_agrees m : info_readable false raw = true ->
    agrees (dget (local_key m) (local_entries cp raw)) (local_field cp raw m).
  Proof.
    intros HR. apply readable_parts in HR as (H28 & _ & H16 & H20).
    unfold local_entries, local_field. cbv zeta. rewrite within_true by lia.
    destruct m; cbn [local_key]; unfold number_field, if_set; rewrite ?within_true by lia; try (cbn; found);
      destruct (num 4 (num 4 12 raw + 12) raw =? 0x14) eqn:E; try specialize (H20 ltac:(lia)); rewrite ?within_true by lia;
      try destruct (num 4 (num 4 12 raw + 16) raw =? 0) eqn:E16; try apply N.eqb_eq in E16; try rewrite E16;
      cbn; (found || missing).
  Qed.
  Definition reads_anyway (m : network_method) : bool := match m with NNameUnicode | NDeviceUnicode => true | _ => false end.
  Lemma network_agrees m : info_readable true raw = true ->
    if reads_anyway m
    then match dget (network_key m) (network_entries cp raw) with
         | Some v => exists said, network_field cp raw m = There said v
         | None => exists said v, network_field cp raw m = There said v
         end
    else agrees (dget (network_key m) (network_entries cp raw)) (network_field cp raw m).
  Proof.
    intros HR. apply readable_parts in HR as (H28 & _ & H20 & H28').
    unfold network_entries, network_field. cbv zeta. rewrite within_true by lia. rewrite (N.leb_antisym 20).
    set (o := num 4 20 raw) in *. set (name := num 4 (o + 8) raw) in *.
    destruct m; cbn [network_key reads_anyway]; unfold number_field; rewrite ?within_true by lia; try (cbn; found).
    { destruct (N.testbit (num 4 (o + 4) raw) 1); [destruct (known_provider _)|];
        destruct (20 <? name) eqn:E; try specialize (H28' ltac:(lia)); cbn [negb andb];
        try destruct (num 4 (o + 20) raw =? 0); try destruct (num 4 (o + 24) raw =? 0);
        try destruct (nonempty (field_text cp (dropN (o + name) raw))); try destruct (nonempty (field_text cp (dropN (o + num 4 (o + 12) raw) raw)));
        cbn; (found || missing). }
    all: rewrite !dget_app.
    all: replace (dget _ (if N.testbit _ _ then _ else _)) with (@None pyval)
      by (destruct (N.testbit _ 1); [destruct (known_provider _)|]; reflexivity).
    all: rewrite !dget_if; cbn [dget String.eqb Ascii.eqb Bool.eqb]; rewrite ?if_same.
    all: destruct (20 <? name) eqn:E; try specialize (H28' ltac:(lia)); rewrite ?within_true by lia; cbn [negb andb].
    all: unfold page_string; change (0 =? 0) with true; cbn [negb].
    all: repeat (match goal with |- context [if negb (?x =? 0) then _ else _] => destruct (x =? 0) eqn:?; cbn [negb] end).
    all: try match goal with |- context [nonempty ?t] => destruct t; cbn [nonempty] end.
    all: try (found || missing); try (do 2 eexists; reflexivity); try (eexists; reflexivity).
    all: match goal with H : (?x =? 0) = true |- _ => apply N.eqb_eq in H; rewrite H end; missing.
  Qed.
End Agree.

Lemma header_rows h m : row (header_key m)
    [("guid", t <- link_cls_id h ;; ret (PStr t));
     ("r_link_flags", n <- r_link_flags h ;; ret (PN n));
     ("r_file_flags", n <- r_file_flags h ;; ret (PN n));
     ("creation_time", t <- creation_time h ;; ret (POpt PDate t));
     ("accessed_time", t <- access_time h ;; ret (POpt PDate t));
     ("modified_time", t <- write_time h ;; ret (POpt PDate t));
     ("file_size", n <- file_size h ;; ret (PN n));
     ("icon_index", n <- icon_index h ;; ret (PInt n));
     ("windowstyle", s <- window_style h ;; ret (PS s));
     ("hotkey", t <- hot_key h ;; ret (PStr t));
     ("r_hotkey", n <- raw_hot_key h ;; ret (PN n));
     ("link_flags", l <- link_flags h ;; ret (PList (map PS l)));
     ("file_flags", l <- file_flags h ;; ret (PList (map PS l)));
     ("header_size", n <- header_size h ;; ret (PN n));
     ("reserved0", n <- reserved0 h ;; ret (PN n));
     ("reserved1", n <- reserved1 h ;; ret (PN n));
     ("reserved2", n <- reserved2 h ;; ret (PN n))]%string = Some (ask_header h m).
Proof. destruct m; reflexivity. Qed.
Lemma header_agrees h d m : snd (header_dict h) = Ok d -> exists v, snd (ask_header h m) = Ok v /\ dget (header_key m) d = Some v.
Proof. intros H. unfold header_dict in H. exact (fields_dget _ _ _ _ H (header_rows h m)). Qed.
Lemma answer_ok {A} (m : M A) f (v : A) : snd m = Ok v -> snd (x <- m ;; ret (f x)) = Ok (f v : answer).
Proof. intros H. rewrite (surjective_pairing m), H, bind_Ok. reflexivity. Qed.
Lemma within_report k cp raw d : usable cp -> snd (info_dict cp k raw) = Ok d ->
  info_readable (is_network k) raw = true /\ d = info_entries cp (is_network k) raw.
Proof.
  intros Hcp H. destruct (info_readable (is_network k) raw) eqn:E.
  - split; [reflexivity|]. rewrite (info_dict_ok cp k raw Hcp E) in H. now injection H as <-.
  - rewrite (info_fails_here cp raw Hcp k E) in H. discriminate H.
Qed.
Lemma location_entries cp network raw : dget "location_info" (info_entries cp network raw)
  = Some (PDict (if network then network_entries cp raw else local_entries cp raw)).
Proof. unfold info_entries, common_entries. cbv zeta. look. reflexivity. Qed.
Lemma no_local_key cp raw m : dget (local_key m) (network_entries cp raw) = None.
Proof.
  unfold network_entries. cbv zeta. destruct m; cbn [local_key]; look;
    (destruct (N.testbit _ 1); [destruct (known_provider _)|]; cbn [dget String.eqb Ascii.eqb Bool.eqb]; now rewrite ?if_same).
Qed.
Lemma no_network_key cp raw m : dget (network_key m) (local_entries cp raw) = None.
Proof. unfold local_entries. cbv zeta. destruct m; cbn [network_key]; look; reflexivity. Qed.

Section Link.
  Variables (b : bytes) (cp : cp_arg) (allow : bool) (l : lnk) (full : dict).
  Hypotheses (Hcp : usable cp) (Hl : snd (lnk_init (FromBytes b) cp allow) = Ok l) (Hf : snd (get_json l true) = Ok full).

  (** What the report and the single answers say of each other. *)
  Definition reported (q : question) : Prop :=
    match report_entry full q with
    | Some v => snd (ask l q) = Ok (Value v)
    | None =>
      match snd (ask l q) with
      | Ok (Truth _) => True
      | Ok (Value v) => nothing v \/ In q without_place \/ In q read_from_zero
      | Err e => e = AttributeError
      end
    end.
  Lemma reported_all q : reported q.
  Proof.
    destruct (report_sections l full Hf) as (h & i & e & Hh & Dh & Ht & Hi & Di & Dd & He & De & Ds).
    pose proof (page_of_link b cp allow l Hcp Hl) as Lc.
    assert (HI : forall k raw, l_info l = Some (k, raw) ->
      info_readable (is_network k) raw = true /\ i = info_entries cp (is_network k) raw).
    { intros k raw EQ. rewrite EQ, Lc in Hi. now apply within_report. }
    destruct q as [p|m|m|m|m|m]; unfold reported, report_entry, part_of.
    - destruct (snd (ask l (Is p))) as [[x|v]|x] eqn:E; [exact I| |].
      + cbn [ask] in E. apply snd_bind_Ok in E as (y & _ & E). discriminate E.
      + assert (HA := asked_model b cp allow l Hcp Hl _ _ _ (ask_flag b cp allow p)). rewrite HA in E. discriminate E.
    - rewrite Dh. destruct (header_agrees _ _ m Hh) as (v & Hv & ->). cbn [ask]. now apply answer_ok.
    - rewrite Di. cbn [ask]. rewrite Lc. destruct (l_info l) as [[k raw]|].
      + destruct (HI _ _ eq_refl) as [HR ->]. pose proof (info_agrees cp raw (is_network k) m HR) as HA.
        rewrite <- (info_run cp raw Hcp), run_value. cbn [snd].
        destruct (dget (info_key m) _); cbn [agrees] in HA; [destruct HA as [s ->]; reflexivity|]. destruct HA as (s & v & -> & HN). cbn. now left.
      + rewrite Hi. reflexivity.
    - rewrite Di. cbn [ask]. rewrite Lc. destruct (l_info l) as [[k raw]|].
      + destruct (HI _ _ eq_refl) as [HR ->]. rewrite location_entries. destruct k; cbn [is_network] in *.
        * pose proof (local_agrees cp raw m HR) as HA. rewrite <- (local_run cp raw Hcp), run_value. cbn [snd].
          destruct (dget (local_key m) _); cbn [agrees] in HA; [destruct HA as [s ->]; reflexivity|]. destruct HA as (s & v & -> & HN). cbn. now left.
        * rewrite no_local_key. reflexivity.
      + rewrite Hi. reflexivity.
    - rewrite Di. cbn [ask]. rewrite Lc. destruct (l_info l) as [[k raw]|].
      + destruct (HI _ _ eq_refl) as [HR ->]. rewrite location_entries. destruct k; cbn [is_network] in *.
        * rewrite no_network_key. reflexivity.
        * pose proof (network_agrees cp raw m HR) as HA. rewrite <- (network_run cp raw Hcp), run_value. cbn [snd].
          destruct (reads_anyway m) eqn:ER.
          -- destruct (dget (network_key m) _); [destruct HA as [s ->]; reflexivity|]. destruct HA as (s & v & ->). cbn [value_there]. right. right.
             destruct m; try discriminate ER; cbn; tauto.
          -- destruct (dget (network_key m) _); cbn [agrees] in HA; [destruct HA as [s ->]; reflexivity|]. destruct HA as (s & v & -> & HN). cbn. now left.
      + rewrite Hi. reflexivity.
    - assert (HA := asked_iff b cp allow l Hcp Hl (OfSection m)).
      destruct m.
      + destruct (asked_total b cp allow l Hcp Hl (OfSection TargetsSize)) as (s & r & HQ). rewrite (proj2 (HA s r) HQ). cbn [snd].
        inversion HQ; subst; cbn; tauto.
      + cbn [ask]. destruct (l_targets l) as [t|].
        * destruct Ht as (td & Htd & ->). unfold target_dict in Htd.
          destruct (fields_dget _ _ "size" _ Htd eq_refl) as (v & Hv & ->).
          apply snd_bind_Ok in Hv as (n & Hn & E). injection E as <-. now apply (answer_ok _ (fun n => Value (PN n))).
        * rewrite Ht. reflexivity.
      + cbn [ask]. destruct (l_targets l) as [t|].
        * destruct Ht as (td & Htd & ->). unfold target_dict in Htd.
          destruct (fields_dget _ _ "items" _ Htd eq_refl) as (v & Hv & ->).
          apply snd_bind_Ok in Hv as (n & Hn & E). injection E as <-. now apply (answer_ok _ (fun n => Value (PList n))).
        * rewrite Ht. reflexivity.
      + cbn. tauto.
      + rewrite Dd. reflexivity.
      + destruct (asked_total b cp allow l Hcp Hl (OfSection ExtrasSize)) as (s & r & HQ). rewrite (proj2 (HA s r) HQ). cbn [snd].
        inversion HQ; subst; cbn; tauto.
      + rewrite De. cbn [ask]. now apply (answer_ok _ (fun d => Value (PDict d))).
      + rewrite Ds. reflexivity.
      + destruct (asked_total b cp allow l Hcp Hl (OfSection LinkFlagsLine)) as (s & r & HQ). rewrite (proj2 (HA s r) HQ). cbn [snd].
        inversion HQ; subst; cbn; tauto.
      + clear Lc HI. destruct (asked_total b cp allow l Hcp Hl (OfSection FileFlagsLine)) as (s & r & HQ). rewrite (proj2 (HA s r) HQ). cbn [snd].
        inversion HQ; subst; cbn; try tauto.
        (* too short a header has no report *)
        exfalso. destruct (header_agrees _ _ HRawFileFlags Hh) as (v & Hv & _).
        destruct (header_of_link b cp allow l Hl) as (H1 & H2 & H3). rewrite H3 in Hv. cbn [ask_header] in Hv.
        unfold r_file_flags, unpack_u32 in Hv. rewrite cut_at in Hv by (rewrite ?lenN_takeN; unfold bytes in *; lia). discriminate Hv.
  Qed.
  Theorem report_answers q v : report_entry full q = Some v -> snd (ask l q) = Ok (Value v).
  Proof. intros H. pose proof (reported_all q) as R. unfold reported in R. now rewrite H in R. Qed.
  Theorem report_leaves_out q v : report_entry full q = None -> snd (ask l q) = Ok (Value v) ->
    nothing v \/ In q without_place \/ In q read_from_zero.
  Proof. intros H HA. pose proof (reported_all q) as R. unfold reported in R. now rewrite H, HA in R. Qed.
  Theorem report_no_other_failure q e : snd (ask l q) = Err e -> e = AttributeError.
  Proof.
    intros HA. pose proof (reported_all q) as R. unfold reported in R. destruct (report_entry full q); [congruence|]. now rewrite HA in R.
  Qed.
  (** The two names: what the report leaves out although something is read is read from the start of the share. *)
  Theorem unset_names m v raw o : In (OfNetwork m) read_from_zero ->
    report_entry full (OfNetwork m) = None -> snd (ask l (OfNetwork m)) = Ok (Value v) ->
    raw = dropN (id_list_end b) b -> o = num 4 20 raw ->
    v = PNone \/ 20 < num 4 (o + 8) raw /\ num 4 (o + name_offset m) raw = 0 /\ v = PStr (wide_text (dropN o raw)).
  Proof.
    intros Hm HN HA -> ->. destruct (report_sections l full Hf) as (h & i & e & _ & _ & _ & Hi & Di & _).
    pose proof (page_of_link b cp allow l Hcp Hl) as Lc. pose proof (info_of_link b cp allow l Hcp Hl) as Li.
    cbn [ask] in HA. cbn [report_entry] in HN. unfold part_of in HN. rewrite Di in HN. rewrite Lc in HA, Hi.
    destruct (info_processed b); [|rewrite Li in HA; discriminate HA]. rewrite Li in HA, Hi.
    set (raw := dropN (id_list_end b) b) in *. destruct (N.testbit (num 4 8 raw) 0); [discriminate HA|].
    apply (within_report Network cp raw i Hcp) in Hi as [HR ->]. cbn [is_network] in *. rewrite location_entries in HN.
    rewrite <- (network_run cp raw Hcp), run_value in HA. cbn [snd] in HA.
    apply readable_parts in HR as (H28 & _ & H20 & H28').
    assert (EM : m = NNameUnicode \/ m = NDeviceUnicode) by (destruct Hm as [[= <-]|[[= <-]|[]]]; tauto).
    unfold network_entries in HN. cbv zeta in HN. rewrite !dget_app, !dget_if in HN.
    replace (dget _ (if N.testbit _ _ then _ else _)) with (@None pyval) in HN
      by (destruct EM as [-> | ->]; destruct (N.testbit _ 1); [destruct (known_provider _)| |destruct (known_provider _)|]; reflexivity).
    unfold network_field in HA. cbv zeta in HA. rewrite within_true in HA by lia.
    set (o := num 4 20 raw) in *. set (name := num 4 (o + 8) raw) in *.
    destruct EM as [-> | ->]; cbn [name_offset network_key dget String.eqb Ascii.eqb Bool.eqb] in *;
      rewrite within_true in HA by lia; destruct (N.ltb_spec 20 name) as [A|A];
      [|left; now injection HA as <-| |left; now injection HA as <-]; specialize (H28' A); rewrite within_true in HA by lia;
      injection HA as <-; right; (split; [exact A|]).
    - destruct (num 4 (o + 20) raw =? 0) eqn:E; [|cbn in HN; discriminate HN]. apply N.eqb_eq in E. rewrite E, N.add_0_r. now split.
    - rewrite if_same in HN. destruct (num 4 (o + 24) raw =? 0) eqn:E; [|cbn in HN; discriminate HN]. apply N.eqb_eq in E.
      rewrite E, N.add_0_r. now split.
  Qed.
End Link.

Lemma asked_determined b cp allow l q :
  usable cp -> snd (lnk_init (FromBytes b) cp allow) = Ok l ->
  (exists said r, asked b cp allow q said r)
  /\ forall said1 r1 said2 r2, asked b cp allow q said1 r1 -> asked b cp allow q said2 r2 -> said1 = said2 /\ r1 = r2.
Proof.
  intros Hcp Hl. split; [exact (asked_total b cp allow l Hcp Hl q)|]. intros s1 r1 s2 r2 H1 H2.
  apply (asked_model b cp allow l Hcp Hl) in H1, H2. rewrite H1 in H2. now injection H2.
Qed.
Lemma only_missing_parts b cp allow l full :
  usable cp -> snd (lnk_init (FromBytes b) cp allow) = Ok l -> snd (get_json l true) = Ok full ->
  forall q e, snd (ask l q) = Err e ->
    e = AttributeError
    /\ match q with
       | OfInfo _ => info_processed b = false
       | OfLocal _ => info_processed b = false \/ N.testbit (num 4 8 (dropN (id_list_end b) b)) 0 = false
       | OfNetwork _ => info_processed b = false \/ N.testbit (num 4 8 (dropN (id_list_end b) b)) 0 = true
       | OfSection IdListSize | OfSection TargetsSize | OfSection TargetsList => has_id_list b = false
       | _ => False
       end.
Proof.
  intros Hcp Hl Hf q e HE. pose proof (report_no_other_failure b cp allow l full Hcp Hl Hf q e HE) as ->. split; [reflexivity|].
  destruct (report_sections l full Hf) as (h & i & ex & Hh & _ & Ht & Hi & _ & _ & He & _).
  pose proof (info_of_link b cp allow l Hcp Hl) as Li. pose proof (init_constructed b cp allow l Hcp Hl) as [_ (Lc & _ & _ & Lt & _)].
  assert (HA : ask l q = (fst (ask l q), Err AttributeError)) by (rewrite <- HE; apply surjective_pairing).
  destruct q as [p|m|m|m|m|m].
  - rewrite (asked_model b cp allow l Hcp Hl _ _ _ (ask_flag b cp allow p)) in HE. discriminate HE.
  - destruct (header_agrees _ _ m Hh) as (v & Hv & _). cbn [ask] in HE. rewrite (answer_ok _ Value v Hv) in HE. discriminate HE.
  - apply (asked_iff b cp allow l Hcp Hl) in HA. inversion HA; subst; [|assumption]. destruct (info_field _ _ _ _); discriminate.
  - apply (asked_iff b cp allow l Hcp Hl) in HA. inversion HA; subst; [|assumption]. destruct (local_field _ _ _); discriminate.
  - apply (asked_iff b cp allow l Hcp Hl) in HA. inversion HA; subst; [|assumption]. destruct (network_field _ _ _); discriminate.
  - destruct (has_id_list b) eqn:EI.
    + exfalso. destruct (l_targets l) as [t|] eqn:ET; [|discriminate Lt]. destruct Ht as (td & Htd & _). unfold target_dict in Htd.
      destruct (fields_dget _ _ "size" _ Htd eq_refl) as (v & Hv & _). destruct (fields_dget _ _ "items" _ Htd eq_refl) as (v' & Hv' & _).
      apply snd_bind_Ok in Hv as (n & Hn & _). apply snd_bind_Ok in Hv' as (n' & Hn' & _). clear Lc Li.
      destruct m; cbn [ask] in HE; rewrite ?ET in HE; try discriminate HE.
      * unfold targets_size in HE. rewrite (surjective_pairing (id_list_size _)), Hn in HE. discriminate HE.
      * rewrite (surjective_pairing (id_list_size _)), Hn in HE. discriminate HE.
      * rewrite (surjective_pairing (targets_as_list _ _)), Hn' in HE. discriminate HE.
      * apply (asked_iff b cp allow l Hcp Hl) in HA. inversion HA; subst; cbn in *; intuition discriminate.
      * pose proof (answer_ok _ (fun d => Value (PDict d)) _ He) as HX. pose proof (eq_trans (eq_sym HX) HE) as HY. discriminate HY.
      * apply (asked_iff b cp allow l Hcp Hl) in HA. inversion HA; subst; cbn in *; intuition discriminate.
      * apply (asked_iff b cp allow l Hcp Hl) in HA. inversion HA; subst; cbn in *; intuition discriminate.
    + clear Lc Li. destruct m; try reflexivity; exfalso; cbn [ask] in HE; try discriminate HE.
      * apply (asked_iff b cp allow l Hcp Hl) in HA. inversion HA; subst; cbn in *; intuition discriminate.
      * pose proof (answer_ok _ (fun d => Value (PDict d)) _ He) as HX. pose proof (eq_trans (eq_sym HX) HE) as HY. discriminate HY.
      * apply (asked_iff b cp allow l Hcp Hl) in HA. inversion HA; subst; cbn in *; intuition discriminate.
      * apply (asked_iff b cp allow l Hcp Hl) in HA. inversion HA; subst; cbn in *; intuition discriminate.
Qed.

(** A share that announces Unicode names and leaves their offsets zero. *)
Definition unset_bytes : bytes :=
  encode_header (plain_header 0x2)
  ++ enc32 76 ++ enc32 0x1C ++ enc32 2 ++ enc32 0 ++ enc32 0 ++ enc32 28 ++ enc32 0
  ++ enc32 0x30 ++ enc32 2 ++ enc32 28 ++ enc32 0 ++ enc32 0x20000 ++ enc32 0 ++ enc32 0 ++ repeat x00 20
  ++ enc32 0.
Lemma unset_names_lost :
  exists b l full v,
    snd (lnk_init (FromBytes b) CpNone true) = Ok l /\ snd (get_json l true) = Ok full
    /\ report_entry full (OfNetwork NNameUnicode) = None /\ snd (ask l (OfNetwork NNameUnicode)) = Ok (Value v)
    /\ ~ nothing v.
Proof.
  exists unset_bytes. destruct (snd (lnk_init (FromBytes unset_bytes) CpNone true)) as [l|x] eqn:El; [|vm_compute in El; discriminate El].
  exists l. destruct (snd (get_json l true)) as [full|x] eqn:Ef.
  2: { exfalso. vm_compute in El. injection El as <-. vm_compute in Ef. discriminate Ef. }
  exists full, (PStr (s2t "0")). split; [reflexivity|]. split; [reflexivity|]. vm_compute in El. injection El as <-.
  vm_compute in Ef. injection Ef as <-. split; [vm_compute; reflexivity|]. split; [vm_compute; reflexivity|].
  intros [H|[H|H]]; vm_compute in H; discriminate H.
Qed.
