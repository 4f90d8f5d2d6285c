(** * How many warnings a file can cause (C80) *)
From Verif Require Import Lemmas PyTime Codec Utils Sha256 Header StringData Targets Info Extra LnkFile.
From Verif Require Import Spec SpecText SpecHeader SpecTime SpecDouble SpecItems SpecInfo SpecExtra SpecOutcome SpecEntries SpecBlocks SpecWhole SpecFailure SpecFlood.
From Verif Require Import OutcomeProofs LayoutProofs CoreProofs FormatProofs EncProofs TextProofs TimeProofs HeaderProofs StringProofs ApiProofs.
From Verif Require Import ConstructProofs ItemProofs ExtraProofs ExtraListProofs ExactProofs EntryProofs AnyBlockProofs TriedProofs WholeProofs PrefixProofs FailureProofs.
From Verif Require Import LinkProofs ClassProofs.

(** ** Single warnings *)
Lemma lenN_nil_app {A} (l : list A) : lenN (@nil A ++ l) = lenN l.
Proof. reflexivity. Qed.
Lemma field_one cp f : lenN (field_warning cp f) <= 1 /\ lenN (field_warning cp f) <= lenN f.
Proof.
  unfold field_warning. destruct f as [|x f]; [cbn; lia|]. rewrite lenN_cons.
  destruct (before_nul (x :: f)) as [|y t]; [cbn; lia|]. unfold page_warning.
  destruct (strict _ _); [cbn; lia|]. destruct (utf8_strict _); cbn; lia.
Qed.
Lemma wide_one f : lenN (wide_warning f) <= 1 /\ lenN (wide_warning f) <= lenN f.
Proof.
  unfold wide_warning. destruct f as [|x f]; [cbn; lia|]. rewrite lenN_cons. destruct (utf16_strict _); cbn; lia.
Qed.
Lemma stored_one u cp f : lenN (stored_warning u cp f) <= 1 /\ lenN (stored_warning u cp f) <= lenN f.
Proof. unfold stored_warning. destruct u; [apply wide_one|apply field_one]. Qed.
Lemma flags_one ty : lenN (flags_warning ty) <= 1.
Proof. unfold flags_warning. destruct (flags_name ty); cbn; lia. Qed.
Lemma fat_one n : lenN (fat_warned n) <= 1.
Proof. unfold fat_warned. destruct (_ || _); cbn; lia. Qed.
Lemma known_one o w : lenN (unless_known o w) <= 1.
Proof. unfold unless_known. destruct o; cbn; lia. Qed.
Lemma must_one k b : lenN (must_be k b) <= 1.
Proof. unfold must_be. destruct b; cbn; lia. Qed.
Lemma time_one t o : lenN (time_said t o) <= 1.
Proof. unfold time_said. destruct o; [cbn; lia|]. destruct (_ =? _)%Z; cbn; lia. Qed.
Lemma opt_one cp o : lenN (opt_field_warning cp o) <= 1.
Proof. destruct o; [apply field_one|cbn; lia]. Qed.
Lemma if_le b (w : list warning) n : lenN w <= n -> lenN (warn_if b w) <= n.
Proof. destruct b; cbn [warn_if]; [trivial|]. change (lenN (@nil warning)) with 0. lia. Qed.

(** ** Items *)
Lemma file_says_few cp f : lenN (file_entry_says cp f) <= 3.
Proof.
  unfold file_entry_says. cbv zeta. rewrite !lenN_app.
  pose proof (flags_one (num 1 0 f)). pose proof (fat_one (num 4 6 f)).
  pose proof (stored_one (N.testbit (num 1 0 f) 2) cp (dropN 12 f)). lia.
Qed.
Lemma file_tried_few (f : bytes) : lenN (file_entry_tried f) <= 2 /\ lenN (file_entry_tried f) <= lenN f.
Proof.
  unfold file_entry_tried. rewrite lenN_app. pose proof (flags_one (num 1 0 f)). pose proof (fat_one (num 4 6 f)).
  destruct (1 <=? lenN f) eqn:E1; destruct (10 <=? lenN f) eqn:E2; change (lenN (@nil warning)) with 0; lia.
Qed.
Lemma needs_none n f : needs n f = None -> n <= lenN f.
Proof. unfold needs. destruct (lenN f <? n) eqn:E; [discriminate|]. lia. Qed.
Lemma after_none a b : after_all a b = None -> a = None /\ b = None.
Proof. unfold after_all. destruct a; [discriminate|auto]. Qed.

Section Items.
  Variable cp : cp_arg.

  Lemma network_says_few (f : bytes) ty : 3 <= lenN f ->
    lenN (field_warning cp (network_location_at f) ++ opt_field_warning cp (network_description f)
          ++ opt_field_warning cp (network_comments f) ++ flags_warning ty) <= lenN f.
  Proof.
    intros L. rewrite !lenN_app. pose proof (field_one cp (network_location_at f)) as [H1 H2].
    pose proof (opt_one cp (network_description f)). pose proof (opt_one cp (network_comments f)). pose proof (flags_one ty).
    unfold network_location_at in *. rewrite lenN_dropN in H2. lia.
  Qed.
  Lemma cpl_says_few (f : bytes) : 10 <= lenN f ->
    lenN (stored_warning (cpl_wide f) cp (cpl_string f 0)
      ++ stored_warning (cpl_wide f) cp (cpl_string f (cpl_name_offset_of f))
      ++ (if cpl_comments_offset_of f =? 0 then []
          else stored_warning (cpl_wide f) cp (cpl_string f (cpl_comments_offset_of f)))) <= lenN f.
  Proof.
    intros L. rewrite !lenN_app. pose proof (stored_one (cpl_wide f) cp (cpl_string f 0)) as [H1 _].
    pose proof (stored_one (cpl_wide f) cp (cpl_string f (cpl_name_offset_of f))) as [H2 _].
    pose proof (stored_one (cpl_wide f) cp (cpl_string f (cpl_comments_offset_of f))) as [H3 _].
    destruct (_ =? 0); change (lenN (@nil warning)) with 0; lia.
  Qed.
  Lemma users_says_few (f : bytes) : after_all (needs 10 f)
        (after_all (needs 12 (slice 10 (10 + num 2 8 f) f)) (needs (36 + num 2 2 f) f)) = None ->
    lenN (file_entry_says cp (slice 10 (10 + num 2 8 f) f)) <= lenN f.
  Proof.
    intros H. apply after_none in H as [H _]. apply needs_none in H. pose proof (file_says_few cp (slice 10 (10 + num 2 8 f) f)). lia.
  Qed.
  Lemma volume_says_few (f : bytes) : lenN (field_warning cp (slice 1 21 f)) <= lenN f.
  Proof. pose proof (field_one cp (slice 1 21 f)) as [_ H]. rewrite lenN_slice in H. lia. Qed.
  Lemma one_says_few (f : bytes) o w : 1 <= lenN f -> lenN (unless_known o w) <= lenN f.
  Proof. intros L. pose proof (known_one o w). lia. Qed.

  Lemma entry_few (f : bytes) ty : 1 <= lenN f -> num 1 0 f = ty -> ty < 256 -> item_error ty f = None -> lenN (entry_says cp f) <= lenN f.
  Proof.
    intros L Hty Hlt He.
    assert (He' : error_for (class_for ty) ty f = None).
    { rewrite <- He. clear -Hlt. revert f. pattern ty. apply by_bytes; [|assumption]. intros b f. symmetry. apply item_error_byte. }
    unfold entry_says. cbv zeta. rewrite Hty.
    match goal with |- lenN ?x <= _ => evar (y : list warning); assert (E : x = y) end.
    { subst y. refine (choice_class (A := list warning) ty _ _ _ _ _ _ _ _ _ _ _ _ _ Hlt). }
    rewrite E. subst y. clear E. destruct (class_for ty) eqn:EC; cbn [error_for] in He'; change (lenN (@nil warning)) with 0; try lia.
    all: try (apply after_none in He' as [He' _]); try (pose proof (needs_none _ _ He')).
    all: first [now apply cpl_says_few | now apply one_says_few | now apply network_says_few | idtac].
    - destruct (N.testbit ty 0); [apply volume_says_few|change (lenN (@nil warning)) with 0; lia].
    - pose proof (file_says_few cp f). lia.
    - pose proof (file_says_few cp (slice 10 (10 + num 2 8 f) f)). lia.
    - change (lenN [WItemType ty]) with 1. lia.
  Qed.
  Lemma entry_tried_few f : lenN (entry_tried cp f) <= lenN f.
  Proof.
    destruct (N.eq_dec (lenN f) 0) as [E0|L].
    { assert (E : f = []) by (destruct f; [reflexivity|rewrite lenN_cons in E0; lia]). rewrite E. vm_compute. discriminate. }
    rewrite (entry_tried_class cp _ f (num1_lt _ _) eq_refl).
    destruct (class_for _); change (lenN (@nil warning)) with 0; try lia.
    - destruct (2 <=? lenN f) eqn:E; [apply one_says_few|change (lenN (@nil warning)) with 0]; lia.
    - apply file_tried_few.
    - rewrite lenN_app. pose proof (field_one cp (network_location_at f)) as [H1 H2]. pose proof (opt_one cp (network_description f)) as H3.
      destruct (nuls (network_location_at f) =? 0) eqn:E; [change (lenN (@nil warning)) with 0|].
      + unfold network_location_at in *. rewrite lenN_dropN in H2. lia.
      + assert (1 <= lenN (network_location_at f)).
        { destruct (network_location_at f); [discriminate E|rewrite lenN_cons; lia]. }
        unfold network_location_at in *. rewrite lenN_dropN in *. lia.
    - cbv zeta. destruct (lenN f <? 10) eqn:E; [change (lenN (@nil warning)) with 0; lia|].
      destruct (_ <? 12).
      + pose proof (file_tried_few (slice 10 (10 + num 2 8 f) f)). lia.
      + pose proof (file_says_few cp (slice 10 (10 + num 2 8 f) f)). lia.
  Qed.

  Lemma fields_type rest : 3 <= lenN rest -> num 2 0 rest <> 0 ->
    let f := slice 2 (2 + num 2 0 rest) rest in
    1 <= lenN f /\ num 1 0 f = num 1 2 rest /\ lenN f <= num 2 0 rest /\ lenN f + 2 <= lenN rest.
  Proof.
    intros L Hn f. assert (EL : lenN f = N.min (num 2 0 rest) (lenN rest - 2)) by (unfold f; rewrite lenN_slice; lia).
    split; [lia|]. split; [|lia].
    unfold f. clear EL f. revert Hn. generalize (num 2 0 rest). intros n Hn. unfold num, slice. rewrite dropN_0, takeN_takeN. f_equal. f_equal. lia.
  Qed.
  Lemma entries_few rest entries said : entries_listed cp rest entries said -> lenN said <= lenN rest.
  Proof.
    induction 1 as [rest _|rest entries said L Hn f He H IH]; [change (lenN (@nil warning)) with 0; lia|].
    destruct (fields_type rest L Hn) as (L1 & Hty & L2 & L3). fold f in L1, Hty, L2, L3.
    pose proof (entry_few f _ L1 eq_refl (num1_lt _ _) ltac:(now rewrite Hty)) as HE.
    rewrite lenN_app. rewrite lenN_dropN in IH. lia.
  Qed.
  Lemma entries_tried_few rest e said : entries_tried cp rest e said -> lenN said <= lenN rest.
  Proof.
    induction 1 as [rest _|rest e L Hn f He|rest e w L Hn f He H IH]; [change (lenN (@nil warning)) with 0; lia| |].
    - destruct (fields_type rest L Hn) as (L1 & Hty & L2 & L3). fold f in L1, Hty, L2, L3. pose proof (entry_tried_few f). lia.
    - destruct (fields_type rest L Hn) as (L1 & Hty & L2 & L3). fold f in L1, Hty, L2, L3.
      pose proof (entry_few f _ L1 eq_refl (num1_lt _ _) ltac:(now rewrite Hty)) as HE.
      rewrite lenN_app. rewrite lenN_dropN in IH. lia.
  Qed.
End Items.

(** ** Property stores *)
Ltac nil0 := change (lenN (@nil warning)) with 0 in *.
Lemma value_few v d w : value_at v d w -> lenN w <= 1.
Proof. intros H. destruct H as [name|name]; [apply wide_one|cbn; lia]. Qed.
Lemma property_few named p d w : property_at named p d w -> lenN w <= 2.
Proof.
  intros H. destruct H as [d w _ _ H|d w _ _ H]; apply value_few in H; [lia|]. rewrite lenN_app.
  pose proof (wide_one (slice 9 (9 + num 4 4 p) p)). lia.
Qed.
Lemma property_tried_few named p w : property_tried named p w -> lenN w <= 2.
Proof.
  intros [_ ->]. destruct (named && _); [pose proof (wide_one (slice 9 (9 + num 4 4 p) p)); lia|nil0; lia].
Qed.
Lemma each_few (P : bytes -> dict -> list warning -> Prop) r l ds w : elements r l -> (forall p d w, P p d w -> lenN w <= 2) ->
  each P l ds w -> lenN w <= 2 * lenN r.
Proof.
  intros H HP. revert ds w. induction H as [r _ _|r l L Hn H IH]; intros ds w HE; inversion HE; subst; [nil0; lia|].
  rewrite lenN_app. match goal with H : P _ _ _ |- _ => apply HP in H end.
  match goal with H : each P l _ _ |- _ => apply IH in H; rewrite lenN_dropN in H end. lia.
Qed.
Lemma each_tried_few (P : bytes -> dict -> list warning -> Prop) (T : bytes -> list warning -> Prop) r l w : elements r l ->
  (forall p d w, P p d w -> lenN w <= 2) -> (forall p w, T p w -> lenN w <= 2) -> each_tried P T l w -> lenN w <= 2 * lenN r.
Proof.
  intros H HP HT. revert w. induction H as [r _ _|r l L Hn H IH]; intros w HE; inversion HE; subst.
  - match goal with H : T _ _ |- _ => apply HT in H end. lia.
  - rewrite lenN_app. match goal with H : P _ _ _ |- _ => apply HP in H end.
    match goal with H : each_tried P T l _ |- _ => apply IH in H; rewrite lenN_dropN in H end. lia.
Qed.
Lemma storage_few s d w : storage_at s d w -> lenN w <= 2 * (lenN s - 24) /\ 24 <= lenN s.
Proof.
  intros H. destruct H as [named ps ds w L _ HE H]. split; [|assumption].
  rewrite <- lenN_dropN. eapply each_few; [exact HE|apply property_few|exact H].
Qed.
Lemma storage_tried_few s w : storage_tried s w -> lenN w <= 2 * (lenN s - 24).
Proof.
  intros H. destruct H as [_|named ps w L _ HE H]; [nil0; lia|].
  rewrite <- lenN_dropN. eapply each_tried_few; [exact HE|apply property_few|apply property_tried_few|exact H].
Qed.
Lemma storages_few r ss ds w : elements r ss -> each storage_at ss ds w -> lenN w <= lenN r * lenN r.
Proof.
  intros H. revert ds w. induction H as [r _ _|r l L Hn H IH]; intros ds w HE; inversion HE; subst; [nil0; lia|].
  rewrite lenN_app. match goal with H : storage_at _ _ _ |- _ => apply storage_few in H end.
  match goal with H : each _ l _ _ |- _ => apply IH in H; rewrite lenN_dropN in H end. nia.
Qed.
Lemma storages_tried_few r ss w : elements r ss -> each_tried storage_at storage_tried ss w -> lenN w <= lenN r * lenN r.
Proof.
  intros H. revert w. induction H as [r _ _|r l L Hn H IH]; intros w HE; inversion HE; subst.
  - match goal with H : storage_tried _ _ |- _ => apply storage_tried_few in H end. nia.
  - rewrite lenN_app. match goal with H : storage_at _ _ _ |- _ => apply storage_few in H end.
    match goal with H : each_tried _ _ l _ |- _ => apply IH in H; rewrite lenN_dropN in H end. nia.
Qed.

(** ** Blocks *)
Lemma fixed_says_few cp sig raw : 4 <= lenN raw -> fixed_bytes sig <= lenN raw -> lenN (fixed_says cp sig raw) <= lenN raw.
Proof.
  intros L4. pose proof (class_sig sig) as HC.
  assert (EO : class_of_sig sig = UnknownExtra -> fixed_says cp sig raw = []).
  { clear. unfold fixed_says, class_of_sig.
    repeat match goal with |- context [match ?p with _ => _ end] =>
        is_var p; destruct p; try reflexivity; try (intros EC; discriminate EC) end. }
  destruct (class_of_sig sig) eqn:EC; try subst sig; cbn [fixed_says fixed_bytes] in *; intros LB; try (nil0; lia); try (rewrite EO by reflexivity; nil0; lia);
    rewrite ?lenN_app;
    pose proof (field_one cp (slice 8 268 raw)); pose proof (wide_one (slice 268 788 raw)); pose proof (wide_one (slice 44 108 raw));
    pose proof (field_one cp (slice 16 32 raw)); pose proof (field_one cp (dropN 8 raw));
    pose proof (must_one "length" (num 4 8 raw =? 88)); pose proof (must_one "version" (num 4 12 raw =? 0)); try lia.
Qed.
Lemma fixed_tried_few cp sig raw : 4 <= lenN raw -> lenN (fixed_tried cp sig raw) + 1 <= lenN raw.
Proof.
  intros L4. pose proof (class_sig sig) as HC.
  assert (EO : class_of_sig sig = UnknownExtra -> fixed_tried cp sig raw = []).
  { clear. unfold fixed_tried, class_of_sig.
    repeat match goal with |- context [match ?p with _ => _ end] =>
        is_var p; destruct p; try reflexivity; try (intros EC; discriminate EC) end. }
  destruct (class_of_sig sig) eqn:EC; try subst sig; cbn [fixed_tried] in *; try (nil0; lia); try (rewrite EO by reflexivity; nil0; lia).
  - pose proof (wide_one (slice 44 108 raw)). destruct (44 <=? _); nil0; lia.
  - rewrite !lenN_app. pose proof (field_one cp (slice 16 32 raw)).
    pose proof (must_one "length" (num 4 8 raw =? 88)). pose proof (must_one "version" (num 4 12 raw =? 0)).
    destruct (12 <=? _) eqn:E1; destruct (16 <=? _) eqn:E2; rewrite ?lenN_app; nil0; lia.
Qed.
Lemma lenN_inner raw : lenN (slice 8 (num 4 0 raw) raw) <= lenN raw - 8.
Proof. rewrite lenN_slice. lia. Qed.
Lemma darwin_few cp raw : lenN (field_warning cp (slice 8 268 raw)) + 4 * lenN (wide_warning (slice 268 788 raw)) <= lenN raw.
Proof.
  pose proof (field_one cp (slice 8 268 raw)) as [H1 H2]. pose proof (wide_one (slice 268 788 raw)) as [H3 H4].
  rewrite lenN_slice in *. lia.
Qed.
Lemma block_read_few cp sig raw d w : 4 <= lenN raw -> block_read cp sig raw d w -> sig <> 0xA0000009 -> lenN w <= lenN raw.
Proof.
  intros L4 H HS. destruct H as [d _ HB|_ _|ss ds w E _ _|entries w _ H].
  - now apply fixed_says_few.
  - unfold darwin_says. cbv zeta. rewrite !lenN_app. pose proof (darwin_few cp raw). lia.
  - contradiction.
  - apply entries_few in H. pose proof (lenN_inner raw). lia.
Qed.
Lemma block_read_square cp sig raw d w : 4 <= lenN raw -> block_read cp sig raw d w -> lenN w <= lenN raw * lenN raw.
Proof.
  intros L4 H. destruct (N.eq_dec sig 0xA0000009) as [E|E].
  - destruct H as [d H _|E' _|ss ds w _ H1 H2|entries w E' H]; try (subst sig; discriminate).
    pose proof (storages_few _ _ _ _ H1 H2) as H. rewrite lenN_dropN in H. nia.
  - apply block_read_few in H; [nia|assumption|assumption].
Qed.
Lemma block_tried_few cp sig raw w : 4 <= lenN raw -> block_tried cp sig raw w -> sig <> 0xA0000009 -> lenN w + 1 <= lenN raw.
Proof.
  intros L4 H HS. destruct H as [_|E _|ss w E _ _|w _ H]; try contradiction.
  - now apply fixed_tried_few.
  - apply entries_tried_few in H. pose proof (lenN_inner raw). lia.
Qed.
Lemma block_tried_square cp sig raw w : 4 <= lenN raw -> block_tried cp sig raw w -> lenN w + 1 <= lenN raw * lenN raw.
Proof.
  intros L4 H. destruct (N.eq_dec sig 0xA0000009) as [E|E].
  - destruct H as [L|_ _|ss w _ H1 H2|w E' H]; try (subst sig; discriminate).
    + subst sig. pose proof (fixed_tried_few cp 0xA0000009 raw L4). nia.
    + nil0. nia.
    + pose proof (storages_tried_few _ _ _ H1 H2) as H. rewrite lenN_dropN in H. nia.
  - apply block_tried_few in H; [nia|assumption|assumption].
Qed.
Lemma block_stops_few cp sig raw e w : block_stops cp sig raw e w -> lenN w <= lenN raw.
Proof.
  intros H. destruct H as [text said _ _ -> _|said _ H].
  - pose proof (darwin_few cp raw). rewrite !lenN_app. destruct (_ <? 20); rewrite ?lenN_app; nil0; lia.
  - apply entries_tried_few in H. pose proof (lenN_inner raw). lia.
Qed.

Definition raw_total (blocks : list (N * bytes)) : N := sumN (map (fun blk => lenN (snd blk)) blocks).
Lemma raw_total_cons sig raw l : raw_total ((sig, raw) :: l) = lenN raw + raw_total l.
Proof. reflexivity. Qed.
Definition storeless (blocks : list (N * bytes)) : Prop := Forall (fun blk => fst blk <> 0xA0000009) blocks.
Lemma lenN_named (n : string) (w ws : list warning) : lenN (w ++ WExtraBlock n :: ws) = lenN w + 1 + lenN ws.
Proof. rewrite lenN_app, lenN_cons. lia. Qed.
Lemma blocks_few cp blocks l w : blocks_read cp blocks l w -> sizes_readable blocks ->
  lenN w <= raw_total blocks * raw_total blocks /\ (storeless blocks -> lenN w <= raw_total blocks).
Proof.
  induction 1 as [|sig raw rest d w l ws HB H IH|sig raw rest w l ws HB H IH]; intros HR.
  - split; [|intros _]; nil0; lia.
  - inversion HR as [|? ? HR1 HR2]; subst. cbn [snd] in HR1. destruct (IH HR2) as [I1 I2]. rewrite raw_total_cons, lenN_app.
    pose proof (block_read_square _ _ _ _ _ HR1 HB). split; [nia|]. intros HS. inversion HS as [|? ? HS1 HS2]; subst.
    specialize (I2 HS2). pose proof (block_read_few _ _ _ _ _ HR1 HB HS1). lia.
  - inversion HR as [|? ? HR1 HR2]; subst. cbn [snd] in HR1. destruct (IH HR2) as [I1 I2]. rewrite raw_total_cons, lenN_named.
    pose proof (block_tried_square _ _ _ _ HR1 HB). split; [nia|]. intros HS. inversion HS as [|? ? HS1 HS2]; subst.
    specialize (I2 HS2). pose proof (block_tried_few _ _ _ _ HR1 HB HS1). lia.
Qed.
Lemma blocks_stop_few cp blocks e w : blocks_stop cp blocks e w -> sizes_readable blocks ->
  lenN w <= raw_total blocks * raw_total blocks /\ (storeless blocks -> lenN w <= raw_total blocks).
Proof.
  induction 1 as [sig raw rest e w HB|sig raw rest d w e ws HB H IH|sig raw rest w e ws HB H IH]; intros HR;
    inversion HR as [|? ? HR1 HR2]; subst; cbn [snd] in HR1; rewrite raw_total_cons.
  - apply block_stops_few in HB. split; [nia|intros _; lia].
  - destruct (IH HR2) as [I1 I2]. rewrite lenN_app.
    pose proof (block_read_square _ _ _ _ _ HR1 HB). split; [nia|]. intros HS. inversion HS as [|? ? HS1 HS2]; subst.
    specialize (I2 HS2). pose proof (block_read_few _ _ _ _ _ HR1 HB HS1). lia.
  - destruct (IH HR2) as [I1 I2]. rewrite lenN_named.
    pose proof (block_tried_square _ _ _ _ HR1 HB). split; [nia|]. intros HS. inversion HS as [|? ? HS1 HS2]; subst.
    specialize (I2 HS2). pose proof (block_tried_few _ _ _ _ HR1 HB HS1). lia.
Qed.
Lemma walk_total r blocks tail : block_walk r blocks tail -> raw_total blocks <= lenN r.
Proof.
  induction 1 as [r _|r bs r' Hl Hn H IH|r bs r' Hl Hn H IH]; [unfold raw_total; cbn; lia| |].
  - rewrite lenN_dropN in IH. lia.
  - rewrite raw_total_cons, lenN_takeN. rewrite lenN_dropN in IH. lia.
Qed.

(** ** The link info *)
Lemma name_two cp f : lenN (name_warnings cp f) <= 2.
Proof.
  unfold name_warnings. rewrite lenN_app. pose proof (field_one cp f) as [H _].
  pose proof (if_le (nonempty (field_text cp f)) (field_warning cp f) 1 H). lia.
Qed.
Ltac ones := repeat match goal with
  | |- context [lenN (warn_if ?b ?w)] =>
    lazymatch w with
    | name_warnings ?cp ?f => pose proof (if_le b w 2 (name_two cp f))
    | field_warning ?cp ?f => pose proof (if_le b w 1 (proj1 (field_one cp f)))
    | wide_warning ?f => pose proof (if_le b w 1 (proj1 (wide_one f)))
    | time_said ?t ?o => pose proof (if_le b w 1 (time_one t o))
    | must_be ?k ?c => pose proof (if_le b w 1 (must_one k c))
    end; generalize dependent (lenN (warn_if b w)); intros
  end.
Lemma info_few cp network raw : lenN (info_warnings cp network raw) <= 8.
Proof.
  unfold info_warnings, common_warnings. cbv zeta. rewrite !lenN_app. ones. destruct network.
  - unfold network_warnings. cbv zeta. rewrite !lenN_app.
    destruct (num 4 (num 4 20 raw + 8) raw <=? 20) eqn:E.
    + replace (20 <? num 4 (num 4 20 raw + 8) raw) with false by lia. change (0 =? 0) with true. cbn [negb warn_if]. nil0.
      pose proof (name_two cp (dropN (num 4 20 raw + num 4 (num 4 20 raw + 8) raw) raw)).
      pose proof (name_two cp (dropN (num 4 20 raw + num 4 (num 4 20 raw + 12) raw) raw)). lia.
    + cbn [warn_if]. nil0. ones. lia.
  - unfold local_warnings. cbv zeta. rewrite !lenN_app. ones. lia.
Qed.
Lemma info_tried_few cp network raw : lenN (info_tried cp network raw) <= 8.
Proof.
  unfold info_tried. cbv zeta. destruct (lenN raw <? 28); [nil0; lia|]. rewrite !lenN_app. ones.
  destruct (_ && _); [nil0; lia|]. rewrite !lenN_app. ones. destruct (_ && _); [nil0; lia|]. rewrite !lenN_app. ones. lia.
Qed.

(** ** The header *)
Lemma header_tried_few h c a w : lenN (header_tried h c a w) <= 8.
Proof.
  unfold header_tried. rewrite !lenN_app. ones. pose proof (must_one "link_cls_id" (text_eqb (guid_text (slice 4 20 h)) link_clsid_text)). lia.
Qed.

(** ** Whole reports *)
Definition warnings_bound (b : bytes) (said : list warning) : Prop :=
  lenN said <= lenN b * lenN b /\ (no_store b -> lenN said <= lenN b).
Lemma id_list_len b : lenN (id_list b) + header_len b <= lenN b \/ lenN (id_list b) = 0.
Proof. unfold id_list. rewrite lenN_slice. lia. Qed.
Lemma data_behind b : id_list_end b <= string_data_end b.
Proof.
  assert (H : id_list_end b <= info_end b) by (unfold info_end; destruct (info_processed b); lia).
  unfold string_data_end. enough (HS : forall l p, p <= strings_end l b p) by (specialize (HS string_slots (info_end b)); lia).
  induction l as [|[i lim] l IH]; intros p; cbn [strings_end]; [lia|].
  destruct (bit_set i b); [|apply IH]. destruct (_ <=? _); [|lia].
  match goal with |- _ <= strings_end l b ?q => specialize (IH q) end. lia.
Qed.
Lemma items_and_blocks b : has_id_list b = true -> lenN (id_list b) + lenN (dropN (string_data_end b) b) + N.min (header_len b) (lenN b) <= lenN b.
Proof.
  intros H. pose proof (data_behind b) as HD. unfold id_list_end in HD. rewrite H in HD. unfold id_list. rewrite lenN_slice, lenN_dropN. lia.
Qed.
Lemma just_blocks b : lenN (dropN (string_data_end b) b) + N.min (header_len b) (lenN b) <= lenN b.
Proof.
  pose proof (data_behind b) as HD. unfold id_list_end in HD. rewrite lenN_dropN. destruct (has_id_list b); lia.
Qed.
Lemma storeless_of b blocks tail : no_store b -> block_walk (dropN (string_data_end b) b) blocks tail -> storeless blocks.
Proof. intros HN HW. apply Forall_forall. intros [sig raw] HI. exact (HN _ _ _ _ HW HI). Qed.

Lemma sections_bound b items blocks tail (iw bw : list warning) n :
  constructible b -> 76 <= header_len b -> 76 <= lenN b ->
  (if has_id_list b then lenN iw <= lenN (id_list b) else iw = []) ->
  block_walk (dropN (string_data_end b) b) blocks tail ->
  (lenN bw <= raw_total blocks * raw_total blocks /\ (storeless blocks -> lenN bw <= raw_total blocks)) ->
  n <= 16 -> items = lenN iw ->
  n + items + lenN bw <= lenN b * lenN b /\ (no_store b -> n + items + lenN bw <= lenN b).
Proof.
  intros HC L1 L2 HI HW [HB1 HB2] Hn ->. pose proof (walk_total _ _ _ HW) as HT.
  assert (HX : lenN iw + lenN (dropN (string_data_end b) b) + 76 <= lenN b).
  { pose proof (just_blocks b). destruct (has_id_list b) eqn:E; [pose proof (items_and_blocks b E); lia|subst iw; nil0; lia]. }
  split; [nia|]. intros HN. specialize (HB2 (storeless_of _ _ _ HN HW)). lia.
Qed.

Lemma header_said_few h c a w : lenN (clsid_warning h ++ time_said (h_ctime h) c ++ time_said (h_atime h) a ++ time_said (h_wtime h) w
    ++ size_warning h ++ reserved_warnings h) <= 8.
Proof.
  unfold clsid_warning, size_warning, reserved_warnings. rewrite !lenN_app.
  pose proof (time_one (h_ctime h) c). pose proof (time_one (h_atime h) a). pose proof (time_one (h_wtime h) w).
  repeat match goal with |- context [lenN (must_be ?k ?b)] => pose proof (must_one k b); generalize dependent (lenN (must_be k b)); intros end. lia.
Qed.
Lemma whole_bound b cp allow d said : constructible b -> 76 <= header_len b -> 76 <= lenN b ->
  whole_report b cp allow d said -> warnings_bound b said.
Proof.
  intros HC L1 L2 H. destruct H as [h rest c a w items items_said found data_end cut blocks tail entries blocks_said raw network terminal sections
    HH HE _ _ _ HI _ _ HS HW HB _ _].
  apply data_end_found in HS. subst data_end.
  assert (HR : sizes_readable blocks) by (destruct HC as (_ & _ & _ & HC); exact (HC _ _ HW)).
  assert (HI' : if has_id_list b then lenN items_said <= lenN (id_list b) else items_said = []).
  { destruct (has_id_list b); [now apply entries_few in HI|apply HI]. }
  pose proof (header_said_few h c a w) as HN.
  assert (HF : lenN (if info_processed b then info_warnings cp network raw else []) <= 8).
  { destruct (info_processed b); [apply info_few|nil0; lia]. }
  pose proof (sections_bound b _ _ _ items_said blocks_said _ HC L1 L2 HI' HW (blocks_few _ _ _ _ HB HR) (N.le_refl 16) eq_refl) as [B1 B2].
  unfold warnings_bound. rewrite !lenN_app in *. split; [|intros HX; specialize (B2 HX)]; lia.
Qed.
Lemma fails_bound b cp e said : constructible b -> report_fails b cp e said -> warnings_bound b said.
Proof.
  intros HC H. assert (HC' := HC). destruct HC' as (H24 & HL24 & _ & HCb).
  assert (small : forall n, n <= 16 -> n <= lenN b * lenN b /\ (no_store b -> n <= lenN b)) by (intros n Hn; split; [nia|lia]).
  destruct H as [h c a w _ _ _ _ _|h c a w e said Eh Lh _ _ _ H].
  - apply small. pose proof (header_tried_few h c a w). lia.
  - pose proof (header_tried_few h c a w) as HN. unfold warnings_bound. rewrite lenN_app.
    assert (L : 76 <= header_len b /\ 76 <= lenN b) by (subst h; rewrite lenN_takeN in Lh; lia). destruct L as [L1 L2].
    destruct (block_walk_total (dropN (string_data_end b) b)) as (bs & tl & HWt).
    assert (HSd : forall s, items_said_by b cp s -> if has_id_list b then lenN s <= lenN (id_list b) else s = []).
    { intros s Hs. unfold items_said_by in Hs. destruct (has_id_list b); [|exact Hs]. destruct Hs as (items & Hs). now apply entries_few in Hs. }
    assert (H0 : lenN (@nil warning) <= raw_total bs * raw_total bs /\ (storeless bs -> lenN (@nil warning) <= raw_total bs)).
    { nil0. split; [|intros _]; lia. }
    destruct H as [e said HI H|said raw network HI _ _ _ _|said raw network blocks tail e bsaid HI _ _ _ HW HB].
    + assert (HI' : if has_id_list b then lenN said <= lenN (id_list b) else said = []).
      { rewrite HI. now apply entries_tried_few in H. }
      pose proof (sections_bound b _ _ _ said [] _ HC L1 L2 HI' HWt H0 (N.le_refl 16) eq_refl) as [B1 B2]. nil0.
      split; [|intros HX; specialize (B2 HX)]; lia.
    + pose proof (info_tried_few cp network raw) as HF. rewrite lenN_app.
      pose proof (sections_bound b _ _ _ said [] _ HC L1 L2 (HSd _ HI) HWt H0 (N.le_refl 16) eq_refl) as [B1 B2]. nil0.
      split; [|intros HX; specialize (B2 HX)]; lia.
    + pose proof (if_le (info_processed b) _ _ (info_few cp network raw)) as HF. rewrite !lenN_app.
      pose proof (sections_bound b _ _ _ said bsaid _ HC L1 L2 (HSd _ HI) HW (blocks_stop_few _ _ _ _ HB (HCb _ _ HW)) (N.le_refl 16) eq_refl) as [B1 B2].
      split; [|intros HX; specialize (B2 HX)]; lia.
Qed.
