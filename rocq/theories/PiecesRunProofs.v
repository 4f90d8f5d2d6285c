(** * Asking items and blocks for single fields (C74): every history, and reports *)
From Verif Require Import ApiProofs ShapeProofs ReportProofs CommandProofs.
From Verif Require Import Lemmas PyTime Codec Utils Sha256 Header StringData Targets Info Extra LnkFile Json Report.
From Verif Require Import Spec SpecText SpecHeader SpecTime SpecItems SpecInfo SpecExtra SpecCommand SpecOutcome SpecEntries SpecBlocks SpecFailure SpecRun.
From Verif Require Import OutcomeProofs LayoutProofs CoreProofs FormatProofs EncProofs TextProofs HeaderProofs StringProofs ItemProofs ExtraProofs ExtraListProofs.
From Verif Require Import EntryProofs AnyBlockProofs TriedProofs ExactProofs FailureProofs.
From Verif Require Import Walk SpecWalk WalkItemProofs WalkBlockProofs WalkProofs Pieces SpecPieces PiecesProofs PiecesBlockProofs.

(** ** Questions change nothing *)
Lemma after_calls l h : after_steps l h = after l (calls h).
Proof.
  induction h as [|[c|v k q|v k q] h IH]; cbn [after_steps calls after do_step]; [reflexivity| |exact IH|exact IH].
  rewrite IH. destruct (do_call l (after l (calls h)) c). reflexivity.
Qed.
Lemma happens_call l h c : happens l h (Call c) = option_map (fun m => a <- m ;; ret (Answered a)) (answered l (calls h) c).
Proof. unfold happens, answered. rewrite after_calls. cbn [do_step]. destruct (do_call l (after l (calls h)) c). reflexivity. Qed.
Lemma wrap {A} (f : A -> outcome) (m : M A) w r :
  (x <- m ;; ret (f x)) = (w, r) <-> exists r', m = (w, r') /\ r = match r' with Ok x => Ok (f x) | Err e => Err e end.
Proof.
  destruct m as [w' [x|e]]; cbn; rewrite ?app_nil_r; split.
  - intros [= <- <-]. eexists. split; reflexivity.
  - intros (r' & [= -> <-] & ->). reflexivity.
  - intros [= <- <-]. eexists. split; reflexivity.
  - intros (r' & [= -> <-] & ->). reflexivity.
Qed.

Lemma some_eq {A} (x y : A) : Some x = Some y -> x = y.
Proof. congruence. Qed.

Section Run.
  Variables (b : bytes) (cp : cp_arg) (allow : bool) (l : lnk).
  Hypothesis Hcp : usable cp.
  Hypothesis Hl : snd (lnk_init (FromBytes b) cp allow) = Ok l.

  (** Everything in the variables was made by a constructor. *)
  Lemma next_given_made g g' w t : generator_next cp g = (g', (w, Ok t)) -> made_of cp t.
  Proof.
    unfold generator_next. destruct g as [rest|]; [|intros H; discriminate H].
    destruct (next_target cp rest) as [w' [[[t' r]|]|e]] eqn:E; intros H; injection H; intros; subst; try discriminate.
    now apply (next_made cp rest w t r).
  Qed.
  Lemma got_made h : forall v g got, after l h v = Some (ItemIterator g got) -> Forall (made_of cp) got.
  Proof.
    pose proof (walk_page b cp allow l Hcp Hl) as HP.
    induction h as [|c h IH]; cbn [after]; [discriminate|]. set (s := after l h) in *. intros v g got.
    destruct c as [v'|v'|v'|v' k'|v' k'|v' k'|m|all]; cbn [do_call]; cbv zeta; try apply IH.
    - destruct (l_targets l); cbn [fst]; [|apply IH]. unfold assign. destruct (Nat.eqb v' v); [|apply IH]. intros [= <- <-]. constructor.
    - cbn [fst]. unfold assign. destruct (Nat.eqb v' v); [|apply IH]. discriminate.
    - destruct (s v') as [[g0 got0|n]|] eqn:ES; [| |cbn [fst]; apply IH].
      + rewrite HP. destruct (generator_next cp g0) as [g1 [w [t|e]]] eqn:EG; cbn [fst]; unfold assign; destruct (Nat.eqb v' v);
          try apply IH; intros [= <- <-]; pose proof (IH _ _ _ ES) as HG; [|exact HG].
        apply Forall_app. split; [exact HG|]. constructor; [|constructor]. now apply (next_given_made g0 g1 w t).
      + destruct (nth_error (l_extras l) n); cbn [fst]; [|apply IH]. unfold assign. destruct (Nat.eqb v' v); [|apply IH]. discriminate.
  Qed.

  Lemma item_iff h v k there : has_item b cp (calls h) v k there ->
    exists g got t, after l (calls h) v = Some (ItemIterator g got) /\ nth_error got k = Some t
      /\ t_class t = class_for (num 1 2 there) /\ t_raw t = there /\ item_there there
      /\ (network_item there -> error_at there = None) /\ made_of cp t.
  Proof.
    intros HI. destruct (item_model b cp allow l Hcp Hl _ _ _ _ HI) as (g & got & t & HA & HN & H1 & H2 & H3 & _).
    exists g, got, t. repeat split; try assumption; try apply H3.
    - clear -HI. destruct HI as [n th said HH HK HF HC]. inversion HC; subst; assumption.
    - pose proof (got_made _ _ _ _ HA) as HM. rewrite Forall_forall in HM. apply HM. now apply nth_error_In with k.
  Qed.
  Lemma ask_item_happens h v k there q : has_item b cp (calls h) v k there ->
    happens l h (AskItem v k q) = Some (x <- item_says_to cp (fields_at there) q ;; ret (Read x)).
  Proof.
    intros HI. destruct (item_iff _ _ _ _ HI) as (g & got & t & HA & HN & H1 & H2 & H3 & H4 & H5).
    unfold happens. rewrite after_calls. cbn [do_step]. cbv zeta. rewrite HA, HN, (walk_page b cp allow l Hcp Hl). cbn [snd option_map].
    now rewrite (item_model_of cp Hcp there t q H3 H4 H1 H2 H5).
  Qed.
  Lemma ask_block_happens h v k p q : has_part b allow (calls h) v k p ->
    happens l h (AskBlock v k q) = Some (x <- ask_block cp (extra_of p) q ;; ret (Read x)) /\ part_ok p.
  Proof.
    intros HP. destruct (part_model b cp allow l Hcp Hl _ _ _ _ HP) as (n & HA & HN & HO). split; [|exact HO].
    unfold happens. rewrite after_calls. cbn [do_step]. cbv zeta. rewrite HA, HN, (walk_page b cp allow l Hcp Hl). reflexivity.
  Qed.

  Theorem pieces_iff h st said r : happens l h st = Some (said, r) <-> says b cp allow h st said r.
  Proof.
    split.
    - intros H. destruct st as [c|v k q|v k q].
      + rewrite happens_call in H. destruct (answered l (calls h) c) as [[w x]|] eqn:E; [|discriminate H]. cbn [option_map] in H.
        apply some_eq in H. apply wrap in H as (r' & [= <- <-] & ->). apply says_call. now apply (walk_iff b cp allow l Hcp Hl).
      + destruct (after l (calls h) v) as [[g got|n]|] eqn:EA.
        * destruct (nth_error got k) as [t|] eqn:EN.
          -- destruct (model_item b cp allow l Hcp Hl _ _ _ _ _ _ EA EN) as [there HI]. rewrite (ask_item_happens h v k there q HI) in H.
             apply some_eq in H. apply wrap in H as (r' & HE & ->). apply says_item with there; [exact HI|symmetry; exact HE].
          -- exfalso. unfold happens in H. rewrite after_calls in H. cbn [do_step] in H. cbv zeta in H. rewrite EA, EN in H. discriminate H.
        * exfalso. unfold happens in H. rewrite after_calls in H. cbn [do_step] in H. cbv zeta in H. rewrite EA in H. discriminate H.
        * exfalso. unfold happens in H. rewrite after_calls in H. cbn [do_step] in H. cbv zeta in H. rewrite EA in H. discriminate H.
      + destruct (after l (calls h) v) as [[g got|n]|] eqn:EA.
        * exfalso. unfold happens in H. rewrite after_calls in H. cbn [do_step] in H. cbv zeta in H. rewrite EA in H. discriminate H.
        * destruct (nth_error (firstn n (l_extras l)) k) as [x|] eqn:EN.
          -- destruct (model_part b cp allow l Hcp Hl _ _ _ _ _ EA EN) as (p & HI & HO). destruct (ask_block_happens h v k p q HI) as [HH _].
             rewrite HH in H. apply some_eq in H. apply wrap in H as (r' & HE & ->). apply says_block with p; [exact HI|].
             now apply (part_iff cp Hcp).
          -- exfalso. unfold happens in H. rewrite after_calls in H. cbn [do_step] in H. cbv zeta in H. rewrite EA, EN in H. discriminate H.
        * exfalso. unfold happens in H. rewrite after_calls in H. cbn [do_step] in H. cbv zeta in H. rewrite EA in H. discriminate H.
    - destruct 1 as [c said r HG|v k q there said r HI HE|v k q p said r HI HE].
      + rewrite happens_call. rewrite (proj2 (walk_iff b cp allow l Hcp Hl _ _ _ _) HG). cbn [option_map]. f_equal. apply wrap. now exists r.
      + rewrite (ask_item_happens h v k there q HI), <- HE. f_equal. apply wrap. now exists r.
      + destruct (ask_block_happens h v k p q HI) as [HH HO]. rewrite HH. f_equal. apply wrap. exists r. split; [|reflexivity].
        now apply (part_iff cp Hcp).
  Qed.
End Run.

(** ** Reports *)
Definition display (s : shown_as) (x : reading) : M pyval :=
  match s, x with
  | AsIs, Plain v => ret v
  | InHex, Plain (PInt z) => ret (PStr (hex_text (Z.to_N z)))
  | InHex8, Plain (PInt z) => ret (PStr (hex32 (Z.to_N z)))
  | InAscii, Raw b => ret (PStr (ascii_or_replacement b))
  | AsDigest, Raw b => ret (PStr (sha256_hex b))
  | AsType, Plain (PInt z) => property_type_name (Z.to_N z)
  | _, _ => raise ValueError
  end.
Lemma display_shows s x : (exists v, display s x = ret v /\ forall v', shows s x v' <-> v' = v)
  \/ (display s x = raise ValueError /\ forall v, ~ shows s x v).
Proof.
  destruct s, x as [[]|bs|tr]; cbn [display shows]; try (right; split; [reflexivity|tauto]); try (left; eexists; split; [reflexivity|tauto]).
  destruct (assocN (Z.to_N z) PropertyType) as [name|] eqn:E.
  - left. exists (PS name). unfold property_type_name. rewrite E. split; [reflexivity|]. intros v'. split.
    + intros (n' & HI & ->). apply type_name_spec in HI. unfold property_type_name in HI. rewrite E in HI. unfold ret in HI. congruence.
    + intros ->. exists name. split; [|reflexivity]. rewrite <- type_names. now apply assocN_some.
  - right. unfold property_type_name. rewrite E. split; [reflexivity|]. intros v (n' & HI & _). apply type_name_spec in HI.
    unfold property_type_name in HI. rewrite E in HI. discriminate HI.
Qed.
Section Order.
  Context {Q : Type}.
  Variable ask : Q -> M reading.
  Fixpoint collect (rows : list (row Q)) : M dict :=
    match rows with
    | [] => ret []
    | (k, q, s) :: rows => x <- ask q ;; v <- display s x ;; d <- collect rows ;; ret ((k, v) :: d)
    end.
  Definition graph (q : Q) (w : list warning) (r : result reading) : Prop := ask q = (w, r).
  Lemma collect_sound rows : forall w r, in_order graph rows w r -> collect rows = (w, r).
  Proof.
    unfold graph. induction 1 as [|k q s x v rows said d w HQ HS _ IH|k q s x v rows said e w HQ HS _ IH|k q s rows said e HQ|k q s x rows said HQ HS];
      cbn [collect]; [reflexivity|..]; rewrite HQ; cbn [bind]; try reflexivity;
      (destruct (display_shows s x) as [(v' & HD & HV)|[HD HN]]; rewrite HD; cbn [bind ret raise]); rewrite ?app_nil_r; try reflexivity;
      try (exfalso; now apply (HN v)); try (exfalso; apply (HS v'); now apply HV).
    - apply HV in HS as ->. rewrite IH. cbn. now rewrite !app_nil_r.
    - rewrite IH. reflexivity.
  Qed.
  Lemma collect_complete rows : exists w r, in_order graph rows w r.
  Proof.
    induction rows as [|[[k q] s] rows (w & r & IH)]; [do 2 eexists; constructor|].
    destruct (ask q) as [said [x|e]] eqn:EQ; [|do 2 eexists; apply row_fails; exact EQ].
    destruct (display_shows s x) as [(v & _ & HV)|[_ HN]]; [|do 2 eexists; eapply row_is_not_shown; [exact EQ|exact HN]].
    destruct r as [d|e]; do 2 eexists; [eapply next_row|eapply next_rows_fail]; try exact EQ; try exact IH; now apply HV.
  Qed.
  Lemma collect_iff rows w r : in_order graph rows w r <-> collect rows = (w, r).
  Proof.
    split; [apply collect_sound|]. intros H. destruct (collect_complete rows) as (w' & r' & H'). apply collect_sound in H' as H2.
    rewrite H in H2. now injection H2 as -> ->.
  Qed.
  Definition collect_then (rows : list (row Q)) (key : string) (count : Q) (each : nat -> Q) : M dict :=
    d <- collect rows ;; x <- ask count ;;
    match x with
    | Plain (PInt z) =>
      things <- collect (map (fun i => (key, each i, AsIs)) (seq 0 (Z.to_nat z))) ;; ret (d ++ [(key, PList (map snd things))])
    | _ => raise ValueError
    end.
  Lemma then_sound rows key count each w r : in_order_then graph rows key count each w r -> collect_then rows key count each = (w, r).
  Proof.
    unfold collect_then. destruct 1 as [said e H|said d w e H HC|said d w n w' e H HC HT|said d w n w' things H HC HT];
      apply collect_iff in H; rewrite H; cbn [bind]; try reflexivity; unfold graph in HC; rewrite HC; cbn [bind]; try reflexivity;
      apply collect_iff in HT; unfold PN; replace (Z.to_nat (Z.of_N (N.of_nat n))) with n by lia; rewrite HT; cbn; now rewrite ?app_nil_r.
  Qed.
  Lemma then_complete rows key count each :
    (forall w x, ask count = (w, Ok x) -> exists n, x = Plain (PN (N.of_nat n))) -> exists w r, in_order_then graph rows key count each w r.
  Proof.
    intros HC. destruct (collect_complete rows) as (w & [d|e] & H); [|do 2 eexists; apply rows_fail; exact H].
    destruct (ask count) as [w2 [x|e]] eqn:EC; [|do 2 eexists; eapply count_fails; [exact H|exact EC]].
    destruct (HC w2 x eq_refl) as [n ->]. destruct (collect_complete (map (fun i => (key, each i, AsIs)) (seq 0 n))) as (w3 & [things|e] & H3).
    - do 2 eexists. eapply things_shown; [exact H|exact EC|exact H3].
    - do 2 eexists. eapply things_fail; [exact H|exact EC|exact H3].
  Qed.
End Order.
Lemma in_order_weaken {Q} (A B : Q -> list warning -> result reading -> Prop) rows w r :
  (forall q w r, A q w r -> B q w r) -> in_order A rows w r -> in_order B rows w r.
Proof.
  intros HAB. induction 1 as [|k q s x v rows said d w HQ HS _ IH|k q s x v rows said e w HQ HS _ IH|k q s rows said e HQ|k q s x rows said HQ HS].
  - apply no_rows.
  - apply next_row with x; auto.
  - apply next_rows_fail with x v; auto.
  - apply row_fails; auto.
  - apply row_is_not_shown with x; auto.
Qed.
Lemma in_order_ext {Q} (A B : Q -> list warning -> result reading -> Prop) rows w r :
  (forall q w r, A q w r <-> B q w r) -> in_order A rows w r <-> in_order B rows w r.
Proof. intros H. split; apply in_order_weaken; intros; now apply H. Qed.
Lemma then_weaken {Q} (A B : Q -> list warning -> result reading -> Prop) rows key count each w r :
  (forall q w r, A q w r -> B q w r) -> in_order_then A rows key count each w r -> in_order_then B rows key count each w r.
Proof.
  intros HAB. destruct 1 as [said e H|said d w e H HC|said d w n w' e H HC HT|said d w n w' things H HC HT].
  - apply rows_fail. now apply (in_order_weaken A B).
  - apply count_fails with d; [now apply (in_order_weaken A B)|auto].
  - apply things_fail with d n; [now apply (in_order_weaken A B)|auto|now apply (in_order_weaken A B)].
  - apply things_shown with n; [now apply (in_order_weaken A B)|auto|now apply (in_order_weaken A B)].
Qed.
Lemma then_ext {Q} (A B : Q -> list warning -> result reading -> Prop) rows key count each w r :
  (forall q w r, A q w r <-> B q w r) -> in_order_then A rows key count each w r <-> in_order_then B rows key count each w r.
Proof. intros H. split; apply then_weaken; intros; now apply H. Qed.

(** *** Items *)
Lemma rows_class f : item_rows f =
  match class_for (num 1 0 f) with
  | MyComputer => [("flags", Field Flags, InHex);
          if N.testbit (num 1 0 f) 0 then ("volume_name", Field VolumeName, AsIs) else ("volume_identifier", Field VolumeIdentifier, AsIs)]
  | ShellFSFolder => [("flags", Field Flags, AsIs); ("file_size", Field FileSize, AsIs); ("modification_time", Field ModificationTime, AsIs);
          ("file_attribute_flags", Field FileAttributeFlags, AsIs); ("primary_name", Field PrimaryName, AsIs)]
  | NetworkLocation => [("flags", Field Flags, AsIs); ("content_flags", Field ContentFlags, AsIs); ("location", Field Location, AsIs);
          ("description", Field Description, AsIs); ("comments", Field Comments, AsIs)]
  | ControlPanelCPL => [("signature", Field Signature, InHex8); ("cpl_file_path", Field CplFilePath, AsIs); ("name", Field NameString, AsIs);
               ("comments", Field Comments, AsIs)]
  | ControlPanelCategory => [("category_id", Field CategoryId, AsIs); ("category", Field Category, AsIs)]
  | RootFolder => [("sort_index", Field SortIndex, AsIs); ("sort_index_value", Field SortIndexValue, AsIs); ("guid", Field Guid, AsIs)]
  | ControlPanel => [("item_identifier", Field ControlPanelItemIdentifier, AsIs)]
  | UsersFilesFolder => [("signature", Field Signature, InAscii); ("file_entry", FileEntry EntryItem, AsIs);
               ("delegate_class_id", Field DelegateClassId, AsIs); ("delegate_folder_id", Field DelegateFolderId, AsIs)]
  | _ => []
  end%string.
Proof. unfold item_rows. pattern (num 1 0 f). apply by_bytes; [|apply num1_lt]. intros x. destruct x; reflexivity. Qed.
Lemma num_hex w i f : Z.to_N (Z.of_N (num w i f)) = num w i f.
Proof. apply N2Z.id. Qed.
(** Each part of a report in turn. *)
Ltac parts := repeat match goal with
  | |- context [bind ?m _] => lazymatch m with bind _ _ => fail | ret _ => fail | (_, _) => fail | _ => destruct m as [? [?|?]] end; cbn [bind ret]
  end.
Section Items.
  Variable cp : cp_arg.
  Hypothesis Hcp : usable cp.
  Ltac simple := cbn [collect display bind ret raise app]; rewrite ?app_nil_r, <- ?app_assoc; try reflexivity.
  Ltac piece m := destruct m as [? [?|?]]; simple.

  Lemma item_collect there t : item_there there -> t_class t = class_for (num 1 2 there) -> t_raw t = there ->
    t_raw_target t = fields_at there ->
    as_item cp t = (d <- collect (ask_item cp t) (item_rows (fields_at there)) ;;
                    ret (item_head (class_of_type (num 1 2 there)) (num 2 0 there) ++ d)).
  Proof.
    intros HT HC HR HF. rewrite rows_class, (type_of there HT), <- (class_name _ (num1_lt 2 there)).
    unfold as_item, item_head. cbv zeta. rewrite HC, HF, HR.
    assert (EC : t_class t = t_class t) by reflexivity. rewrite HC in EC at 1. clear HC.
    set (rt := fields_at there) in *.
    destruct (class_for (num 1 2 there)) eqn:EK; cbn [target_name String.eqb Ascii.eqb Bool.eqb app]; symmetry in EC;
      cbn [collect ask_item]; unfold ask_method; rewrite ?EC, ?HF; fold rt;
      cbn [ask_cpl ask_category ask_root ask_volume ask_file_entry ask_network ask_panel ask_users].
    - unfold cpl_as_item, number_read, text_read, cpl_signature, unpack_u32.
      destruct (N.lt_ge_cases (lenN rt) 6) as [L|L]; [now rewrite cut_at by lia|]. rewrite read_at by lia.
      assert (HX : s2t "0x" ++ hexX 8 (num 4 2 rt) = hex32 (num 4 2 rt)).
      { unfold hex32. rewrite hexX_enc32; [reflexivity|apply (num_lt 4)]. }
      rewrite !bind_ret_l. cbn [display PN]. unfold PN. cbn [display]. rewrite num_hex, <- HX. rewrite !bind_ret_l.
      piece (cpl_file_path cp rt). piece (cpl_name_string cp rt). piece (cpl_comments cp rt).
    - unfold cat_as_item, number_read, name_read. piece (cat_id rt). piece (cat_category rt).
    - unfold rf_as_item, number_read, name_read, text_read.
      piece (v <- rf_sort_index_value rt ;; get_sort_index v). piece (rf_sort_index_value rt). piece (parse_uuid (slice 2 18 rt)).
    - unfold mc_as_item, number_read, mc_has_name, mc_flags, class_type_indicator, unpack_u8.
      assert (L : 1 <= lenN rt) by (unfold rt, fields_at; destruct HT as [L Hn]; rewrite lenN_slice; lia).
      destruct (volume_flags (num 1 0 rt) (num1_lt 0 rt)) as [_ EB]. rewrite <- (type_of there HT) in *. fold rt in EK |- *.
      rewrite !read_at by lia. rewrite !bind_ret_l. unfold PN. cbn [display]. rewrite N2Z.id.
      rewrite EB. destruct (N.testbit (num 1 0 rt) 0); cbn [collect ask_item]; unfold ask_method; rewrite EC, HF; fold rt; cbn [ask_volume];
        unfold mc_has_name, mc_flags, class_type_indicator, unpack_u8, text_read; rewrite !read_at by lia; rewrite !bind_ret_l, EB.
      + piece (read_string cp (slice 1 21 rt)).
      + piece (parse_uuid (slice 2 18 rt)).
    - unfold fs_as_item, number_read, name_read, text_read.
      piece (fs_flags rt). piece (fs_file_size rt). piece (fs_modification_time rt). piece (fs_file_attribute_flags rt). piece (fs_primary_name cp rt).
    - unfold nl_as_item, number_read, name_read. cbv zeta. rewrite HF. fold rt. piece (nl_flags rt). piece (nl_content_flags rt).
    - reflexivity.
    - reflexivity.
    - unfold cpanel_as_item, text_read. piece (parse_uuid (slice 14 30 rt)).
    - reflexivity.
    - reflexivity.
    - unfold uf_as_item, text_read, dict_read. cbv zeta. unfold target_init. rewrite ascii_replace_map. simple.
      destruct (target_base_init (dropN 8 rt)) as [w0 [inner|e]]; simple. unfold as_item. cbn [t_class t_raw_target].
      destruct (fs_as_item cp inner) as [w1 [entry|e]]; simple. destruct (uf_delegate_offset rt) as [w2 [o|e]]; simple.
      destruct (parse_uuid (slice o (o + 16) rt)) as [w3 [id|e]]; simple.
      destruct (parse_uuid (slice (o + 16) (o + 16 + 16) rt)) as [w4 [id'|e]]; simple.
    - unfold unknown_as_item. rewrite size_there by assumption. reflexivity.
  Qed.
End Items.

(** *** Blocks *)
Definition read_as {Q} (ask : Q -> M reading) (a : string * M pyval) (x : row Q) : Prop :=
  let '(k, q, s) := x in fst a = k /\ snd a = (x <- ask q ;; display s x).
Lemma fields_collect {Q} (ask : Q -> M reading) ms rows : Forall2 (read_as ask) ms rows -> fields ms = collect ask rows.
Proof.
  induction 1 as [|[k m] [[k' q] s] ms rows [HK HM] _ IH]; [reflexivity|]. cbn [fst snd] in HK, HM. subst k' m. cbn [fields collect].
  rewrite bind_assoc, IH. reflexivity.
Qed.
Lemma value_shown m : m = (x <- value_read m ;; display AsIs x).
Proof. destruct m as [w [v|e]]; cbn; now rewrite ?app_nil_r. Qed.
Lemma number_shown m : (n <- m ;; ret (PN n)) = (x <- number_read m ;; display AsIs x).
Proof. destruct m as [w [v|e]]; cbn; now rewrite ?app_nil_r. Qed.
Lemma text_shown m : (t <- m ;; ret (PStr t)) = (x <- text_read m ;; display AsIs x).
Proof. destruct m as [w [v|e]]; cbn; now rewrite ?app_nil_r. Qed.
Lemma option_shown (m : M (option text)) : (t <- m ;; ret (POpt PStr t)) = (x <- (t <- m ;; ret (Plain (POpt PStr t))) ;; display AsIs x).
Proof. destruct m as [w [v|e]]; cbn; now rewrite ?app_nil_r. Qed.
Lemma rows_sig signature : block_rows signature =
  match class_of_sig signature with
  | Environment | Icon => block_rows 0xA0000001 | Console => block_rows 0xA0000002 | DistributedTracker => block_rows 0xA0000003
  | CodePage => block_rows 0xA0000004 | SpecialFolder => block_rows 0xA0000005 | Darwin => block_rows 0xA0000006
  | ShimLayer => block_rows 0xA0000008 | Metadata => block_rows 0xA0000009 | KnownFolder => block_rows 0xA000000B
  | ShellItem => block_rows 0xA000000C | _ => block_rows 0
  end.
Proof.
  unfold block_rows at 1. etransitivity; [refine (sig_choice_class (A := list (row block_question)) signature _ _ _ _ _ _ _ _ _ _ _ _)|].
  destruct (class_of_sig signature); reflexivity.
Qed.
Ltac read_rows := repeat (constructor; [split; [reflexivity|cbn [snd ask_block]; first
  [apply value_shown|apply number_shown|apply text_shown|apply option_shown|reflexivity]]|]); constructor.
Section Parts.
  Variable cp : cp_arg.

  Lemma part_collect p : part_ok p -> (forall raw, p <> Block 0xA0000009 raw) ->
    extra_as_dict cp (extra_of p) = (d <- collect (ask_block cp (extra_of p)) (part_rows p) ;; ret (("size"%string, PN (part_size p)) :: d)).
  Proof.
    intros HP HN. assert (HS : forall ms rows, Forall2 (read_as (ask_block cp (extra_of p))) ms rows ->
      fields (("size"%string, n <- extra_size (extra_of p) ;; ret (PN n)) :: ms)
      = (d <- collect (ask_block cp (extra_of p)) rows ;; ret (("size"%string, PN (part_size p)) :: d))).
    { intros ms rows H. cbn [fields]. rewrite (fields_collect _ _ _ H), (part_sized cp p HP), !bind_ret_l. reflexivity. }
    destruct p as [signature raw|r]; cbn [extra_of part_rows] in *.
    - rewrite rows_sig. pose proof (class_sig signature) as HC. unfold extra_as_dict. cbn [ex_class ex_raw].
      destruct (class_of_sig signature) eqn:EC; try contradiction; try (now destruct (HN raw); subst signature); apply HS; cbn [block_rows map fst snd];
        try (read_rows; fail).
      + constructor; [split; [reflexivity|]|constructor]. cbn [snd ask_block]. unfold ask_block_method. cbn [ex_class ex_raw]. cbv zeta.
        destruct (base_size raw) as [w [n|e]]; cbn [bind]; [|reflexivity].
        destruct (items_of cp (slice 8 n raw)) as [w' [items|e]]; cbn; now rewrite ?app_nil_r.
    - apply HS. read_rows.
  Qed.

  Lemma collect_each {Q} (ask : Q -> M reading) key each (f : bytes -> M dict) ss : forall start,
    (forall i s, nth_error ss i = Some s -> ask (each (start + i)%nat) = dict_read (f s)) ->
    collect ask (map (fun i => (key, each i, AsIs)) (seq start (length ss))) = (ds <- mapM f ss ;; ret (map (fun d => (key, PDict d)) ds)).
  Proof.
    induction ss as [|s ss IH]; intros start H; [reflexivity|]. cbn [length seq map collect mapM].
    pose proof (H O s eq_refl) as H0. rewrite Nat.add_0_r in H0. rewrite H0. rewrite (IH (S start)).
    2:{ intros i s' Hi. replace (S start + i)%nat with (start + S i)%nat by lia. now apply H. }
    unfold dict_read. destruct (f s) as [w [d|e]]; cbn [bind ret]; [|reflexivity].
    destruct (mapM f ss) as [w' [ds|e]]; cbn; now rewrite ?app_nil_r.
  Qed.
  Lemma snd_pairs (key : string) (ds : list dict) : map snd (map (fun d => (key, PDict d)) ds) = map PDict ds.
  Proof. rewrite map_map. reflexivity. Qed.
  Lemma count_nat n : Z.to_nat (Z.of_N (N.of_nat n)) = n.
  Proof. lia. Qed.

  Lemma store_collect raw : 4 <= lenN raw ->
    extra_as_dict cp (Extra Metadata raw)
    = (d <- collect_then (ask_block cp (Extra Metadata raw)) [] "property_store" HowManyStorages (fun i => Storage i StorageDict) ;;
       ret (("size"%string, PN (num 4 0 raw)) :: d)).
  Proof.
    intros L. unfold extra_as_dict. cbn [ex_class ex_raw]. unfold metadata_dict, base_fields, collect_then. cbn [app fields collect].
    rewrite base_size_num, !bind_ret_l by assumption. cbn [ask_block ex_class ex_raw].
    destruct (elements_either (dropN 8 raw)) as [[ss HE]|HE].
    - rewrite (elements_sound _ _ HE) by apply length_drop. rewrite !bind_ret_l. unfold PN at 2. unfold lenN. rewrite count_nat.
      rewrite (collect_each _ _ _ storage_dict ss 0).
      + destruct (mapM storage_dict ss) as [w [ds|e]]; cbn; rewrite ?app_nil_r, ?snd_pairs; reflexivity.
      + intros i s Hi. cbn [ask_block ex_class ex_raw Nat.add]. rewrite (elements_sound _ _ HE) by apply length_drop. rewrite bind_ret_l, Hi. reflexivity.
    - rewrite elements_fail; [reflexivity|apply length_drop|exact HE].
  Qed.
  Lemma storage_collect s :
    storage_dict s = collect_then (ask_storage s) storage_rows "serialized_property_values" HowManyProperties (fun j => Property j PropertyDict).
  Proof.
    unfold storage_dict, collect_then, storage_rows. cbn [fields collect ask_storage].
    unfold value_read, text_read. destruct (u32_field 0 s) as [w0 [v0|e]]; cbn [bind ret display]; [|reflexivity].
    destruct (unpack_u32 (slice 4 8 s)) as [w1 [v1|e]]; cbn [bind ret display app]; [|now rewrite ?app_nil_r].
    destruct (ps_format_id s) as [w2 [v2|e]]; cbn [bind ret display app]; [|now rewrite ?app_nil_r].
    destruct (serialized_property_values s) as [w3 [[named ps]|e]] eqn:EV; cbn [bind ret display app]; [|now rewrite ?app_nil_r, <- ?app_assoc].
    assert (EW : w3 = [] /\ True).
    { split; [|exact I]. destruct (N.lt_ge_cases (lenN s) 24) as [L|L]; [rewrite values_cut in EV by (now left); discriminate EV|].
      destruct (elements_either (dropN 24 s)) as [[ps' HE]|HE]; [|rewrite values_cut in EV by (now right); discriminate EV].
      destruct (naming s) as [nm HN]. rewrite (values_model s ps' nm L HE HN) in EV. now injection EV as <- _ _. }
    destruct EW as [-> _]. cbn [snd app]. unfold PN, lenN. rewrite count_nat.
    rewrite (collect_each _ _ _ (if named then string_name_dict else integer_name_dict) ps 0).
    - destruct (mapM (if named then string_name_dict else integer_name_dict) ps) as [w4 [ds|e]]; cbn; rewrite ?app_nil_r, ?snd_pairs, <- ?app_assoc; reflexivity.
    - intros i p Hi. cbn [ask_storage Nat.add]. rewrite EV, bind_Ok. cbn [fst snd app]. rewrite Hi. cbn [ask_property]. now rewrite <- surjective_pairing.
  Qed.
  Lemma property_collect (named : bool) p :
    (if named then string_name_dict else integer_name_dict) p = collect (ask_property named p) (property_rows named).
  Proof.
    assert (HT : forall v, (n <- tv_value_type v ;; property_type_name n) = (x <- ask_typed v TypedType ;; display AsType x)).
    { intros v. cbn [ask_typed]. unfold number_read. destruct (tv_value_type v) as [w [n|e]]; cbn [bind ret]; [|reflexivity].
      rewrite app_nil_r. unfold PN. cbn [display]. now rewrite N2Z.id. }
    destruct named; [unfold string_name_dict|unfold integer_name_dict]; apply fields_collect; unfold property_rows; cbn [app];
      repeat (constructor; [split; [reflexivity|cbn [snd ask_property]; first
        [apply value_shown|apply number_shown|apply text_shown|apply HT|idtac]]|]); try constructor.
    - destruct (sn_value_offset p) as [w [o|e]]; cbn [bind]; [|reflexivity]. destruct (read_unicode_string (slice 9 o p)) as [w' [t|e]]; cbn; now rewrite ?app_nil_r.
    - destruct (sn_value_offset p) as [w [o|e]]; cbn [bind]; [|reflexivity]. cbn [ask_typed]. unfold value_read.
      destruct (tv_value (dropN o p)) as [w' [t|e]]; cbn; now rewrite ?app_nil_r.
    - rewrite bind_assoc. destruct (sn_value_offset p) as [w [o|e]]; cbn [bind]; [|reflexivity]. now rewrite HT.
  Qed.
End Parts.

(** *** What happens, in order *)
Lemma as_read_inj r1 r2 : as_read r1 = as_read r2 -> r1 = r2.
Proof. destruct r1, r2; cbn; congruence. Qed.
Lemma asked_graph {Q} (ask : Q -> M reading) q w r :
  Some (x <- ask q ;; ret (Read x)) = Some (w, as_read r) <-> graph ask q w r.
Proof.
  unfold graph. split.
  - intros H. apply some_eq in H. apply wrap in H as (r' & HE & HR). rewrite HE. f_equal. symmetry. apply as_read_inj. exact HR.
  - intros ->. f_equal. apply wrap. now exists r.
Qed.
Lemma shown_wrapped (m : M dict) (f : dict -> dict) w r :
  (a <- made ADict (d <- m ;; ret (f d)) ;; ret (Answered a)) = (w, r) <-> exists r', m = (w, r') /\ r = wrapped f r'.
Proof.
  unfold made. destruct m as [w' [d|e]]; cbn; rewrite ?app_nil_r; split.
  - intros [= <- <-]. eexists. split; reflexivity.
  - intros (r' & [= -> <-] & ->). reflexivity.
  - intros [= <- <-]. eexists. split; reflexivity.
  - intros (r' & [= -> <-] & ->). reflexivity.
Qed.
Lemma nested_read (m : M dict) w r : dict_read m = (w, r) <-> exists r', m = (w, r') /\ r = nested r'.
Proof.
  unfold dict_read. destruct m as [w' [d|e]]; cbn; rewrite ?app_nil_r; split.
  - intros [= <- <-]. eexists. split; reflexivity.
  - intros (r' & [= -> <-] & ->). reflexivity.
  - intros [= <- <-]. eexists. split; reflexivity.
  - intros (r' & [= -> <-] & ->). reflexivity.
Qed.
Lemma then_iff {Q} (ask : Q -> M reading) rows key count each w r :
  (forall w x, ask count = (w, Ok x) -> exists n, x = Plain (PN (N.of_nat n))) ->
  in_order_then (graph ask) rows key count each w r <-> collect_then ask rows key count each = (w, r).
Proof.
  intros HC. split; [apply then_sound|]. intros H. destruct (then_complete ask rows key count each HC) as (w' & r' & H').
  apply then_sound in H' as H2. rewrite H in H2. now injection H2 as -> ->.
Qed.
Lemma store_counts cp e w x : ask_block cp e HowManyStorages = (w, Ok x) -> exists n, x = Plain (PN (N.of_nat n)).
Proof.
  cbn [ask_block]. destruct (ex_class e); try discriminate. destruct (sized_suffixes _ _) as [w' [ss|x']]; [|discriminate].
  cbn. intros [= _ <-]. now exists (length ss).
Qed.
Lemma storage_counts s w x : ask_storage s HowManyProperties = (w, Ok x) -> exists n, x = Plain (PN (N.of_nat n)).
Proof.
  cbn [ask_storage]. destruct (serialized_property_values s) as [w' [[nm ps]|x']]; [|discriminate].
  cbn. intros [= _ <-]. now exists (length ps).
Qed.

(** A storage or property that is there, or the same exception for every question. *)
Lemma storage_found cp e i :
  (exists s, forall q, ask_block cp e (Storage i q) = ask_storage s q) \/ (exists x, forall q, ask_block cp e (Storage i q) = raise x).
Proof.
  cbn [ask_block]. destruct (ex_class e); try (right; now eexists).
  destruct (elements_either (dropN 8 (ex_raw e))) as [[ss HE]|HE].
  - destruct (nth_error ss i) as [s|] eqn:EI; [left; exists s|right; exists IndexError]; intros q;
      rewrite (elements_sound _ _ HE) by apply length_drop; rewrite bind_ret_l, EI; reflexivity.
  - right. exists StructError. intros q. rewrite elements_fail; [reflexivity|apply length_drop|exact HE].
Qed.
Lemma property_found s j :
  (exists p named, (named = true <-> slice 8 24 s = named_format) /\ 24 <= lenN s /\ forall q, ask_storage s (Property j q) = ask_property named p q)
  \/ (exists x, forall q, ask_storage s (Property j q) = raise x).
Proof.
  cbn [ask_storage]. destruct (N.lt_ge_cases (lenN s) 24) as [L|L]; [right; exists StructError; intros q; now rewrite values_cut by (now left)|].
  destruct (elements_either (dropN 24 s)) as [[ps HE]|HE].
  - destruct (naming s) as [named HN].
    destruct (nth_error ps j) as [p|] eqn:EJ; [left; exists p, named; do 2 (split; [assumption|])|right; exists IndexError]; intros q;
      rewrite (values_model s ps named L HE HN), bind_ret_l; cbn [fst snd]; now rewrite EJ.
  - right. exists StructError. intros q. now rewrite values_cut by (now right).
Qed.

Section AsReported.
  Variables (b : bytes) (cp : cp_arg) (allow : bool) (l : lnk).
  Hypothesis Hcp : usable cp.
  Hypothesis Hl : snd (lnk_init (FromBytes b) cp allow) = Ok l.

  Theorem items_as_reported h v k there said r : has_item b cp (calls h) v k there ->
    happens l h (Call (Show v k)) = Some (said, r)
    <-> exists r', in_order (fun q w x => happens l h (AskItem v k q) = Some (w, as_read x)) (item_rows (fields_at there)) said r'
                   /\ r = wrapped (app (item_head (class_of_type (num 1 2 there)) (num 2 0 there))) r'.
  Proof.
    intros HI. destruct (item_iff b cp allow l Hcp Hl _ _ _ _ HI) as (g & got & t & HA & HN & H1 & H2 & H3 & H4 & H5).
    pose proof (walk_page b cp allow l Hcp Hl) as HP.
    assert (HF : t_raw_target t = fields_at there).
    { rewrite (target_made cp Hcp there t H3 H4 H1 H2 H5). destruct (class_for _); reflexivity. }
    assert (HQ : forall q, happens l h (AskItem v k q) = Some (x <- ask_item cp t q ;; ret (Read x))).
    { intros q. unfold happens. rewrite after_calls. cbn [do_step]. cbv zeta. rewrite HA, HN, HP. reflexivity. }
    rewrite happens_call. unfold answered. cbn [do_call]. cbv zeta. rewrite HA, HN, HP. cbn [snd option_map].
    rewrite (item_collect cp there t H3 H1 H2 HF).
    split.
    - intros H. apply some_eq in H. apply shown_wrapped in H as (r' & HC & ->). exists r'. split; [|reflexivity].
      apply collect_iff in HC. revert HC. apply in_order_weaken. intros q w x HX. rewrite HQ. now apply asked_graph.
    - intros (r' & HO & ->). f_equal. apply shown_wrapped. exists r'. split; [|reflexivity]. apply collect_iff.
      revert HO. apply in_order_weaken. intros q w x HX. rewrite HQ in HX. now apply asked_graph.
  Qed.
  Lemma show_block h v k p : has_part b allow (calls h) v k p ->
    happens l h (Call (Show v k)) = Some (a <- made ADict (extra_as_dict cp (extra_of p)) ;; ret (Answered a)).
  Proof.
    intros HP. destruct (part_model b cp allow l Hcp Hl _ _ _ _ HP) as (n & HA & HN & HO).
    rewrite happens_call. unfold answered. cbn [do_call]. cbv zeta. rewrite HA, HN, (walk_page b cp allow l Hcp Hl). reflexivity.
  Qed.
  Theorem blocks_as_reported h v k p said r : has_part b allow (calls h) v k p -> (forall raw, p <> Block 0xA0000009 raw) ->
    happens l h (Call (Show v k)) = Some (said, r)
    <-> exists r', in_order (fun q w x => happens l h (AskBlock v k q) = Some (w, as_read x)) (part_rows p) said r'
                   /\ r = wrapped (cons ("size"%string, PN (part_size p))) r'.
  Proof.
    intros HI HN. rewrite (show_block h v k p HI). destruct (part_model b cp allow l Hcp Hl _ _ _ _ HI) as (n & _ & _ & HO).
    rewrite (part_collect cp p HO HN). split.
    - intros H. apply some_eq in H. apply shown_wrapped in H as (r' & HC & ->). exists r'. split; [|reflexivity].
      apply collect_iff in HC. revert HC. apply in_order_weaken. intros q w x HX.
      rewrite (proj1 (ask_block_happens b cp allow l Hcp Hl h v k p q HI)). now apply asked_graph.
    - intros (r' & HX & ->). f_equal. apply (shown_wrapped _ (cons ("size"%string, PN (part_size p)))). exists r'. split; [|reflexivity]. apply collect_iff.
      revert HX. apply in_order_weaken. intros q w x HX. rewrite (proj1 (ask_block_happens b cp allow l Hcp Hl h v k p q HI)) in HX.
      now apply asked_graph.
  Qed.
  Theorem stores_as_reported h v k raw said r : has_part b allow (calls h) v k (Block 0xA0000009 raw) ->
    happens l h (Call (Show v k)) = Some (said, r)
    <-> exists r', in_order_then (fun q w x => happens l h (AskBlock v k q) = Some (w, as_read x)) [] "property_store" HowManyStorages
                     (fun i => Storage i StorageDict) said r'
                   /\ r = wrapped (cons ("size"%string, PN (num 4 0 raw))) r'.
  Proof.
    intros HI. rewrite (show_block h v k _ HI). destruct (part_model b cp allow l Hcp Hl _ _ _ _ HI) as (n & _ & _ & HO). cbn [part_ok] in HO.
    cbn [extra_of class_of_sig]. rewrite (store_collect cp raw HO). split.
    - intros H. apply some_eq in H. apply shown_wrapped in H as (r' & HC & ->). exists r'. split; [|reflexivity].
      apply then_iff in HC; [|apply store_counts]. revert HC. apply then_weaken. intros q w x HX.
      rewrite (proj1 (ask_block_happens b cp allow l Hcp Hl h v k _ q HI)). now apply asked_graph.
    - intros (r' & HX & ->). f_equal. apply (shown_wrapped _ (cons ("size"%string, PN (num 4 0 raw)))). exists r'. split; [|reflexivity].
      apply then_iff; [apply store_counts|].
      revert HX. apply then_weaken. intros q w x HX. rewrite (proj1 (ask_block_happens b cp allow l Hcp Hl h v k _ q HI)) in HX.
      now apply asked_graph in HX.
  Qed.
  Theorem storages_as_reported h v k p i said r : has_part b allow (calls h) v k p ->
    let ask q w x := happens l h (AskBlock v k (Storage i q)) = Some (w, as_read x) in
    ask StorageDict said r
    <-> exists r', in_order_then ask storage_rows "serialized_property_values" HowManyProperties (fun j => Property j PropertyDict) said r'
                   /\ r = nested r'.
  Proof.
    intros HI ask. assert (HA : forall q w x, ask q w x <-> ask_block cp (extra_of p) (Storage i q) = (w, x)).
    { intros q w x. unfold ask. rewrite (proj1 (ask_block_happens b cp allow l Hcp Hl h v k p _ HI)). apply (asked_graph (ask_block cp (extra_of p))). }
    rewrite HA. destruct (storage_found cp (extra_of p) i) as [[s HS]|[e HS]].
    - rewrite HS. cbn [ask_storage]. rewrite nested_read, storage_collect.
      assert (HG : forall q w x, ask q w x <-> graph (ask_storage s) q w x) by (intros q w x; rewrite HA, HS; reflexivity).
      split; intros (r' & HC & ->); exists r'; (split; [|reflexivity]).
      + apply then_iff in HC; [|apply storage_counts]. revert HC. apply then_weaken. intros q w x. apply HG.
      + apply then_iff; [apply storage_counts|]. revert HC. apply then_weaken. intros q w x. apply HG.
    - rewrite HS. assert (HG : forall q w x, ask q w x <-> graph (fun _ => raise e) q w x) by (intros q w x; rewrite HA, HS; reflexivity).
      split.
      + intros [= <- <-]. exists (Err e). split; [|reflexivity]. apply rows_fail, row_fails, HG. reflexivity.
      + intros (r' & HC & ->). assert (HW : in_order_then (graph (fun _ => raise e)) storage_rows "serialized_property_values" HowManyProperties
          (fun j => Property j PropertyDict) said r') by (revert HC; apply then_weaken; intros; now apply HG).
        apply then_sound in HW. cbn in HW. now injection HW as <- <-.
  Qed.
  Theorem properties_as_reported h v k p i j (named : bool) said r : has_part b allow (calls h) v k p ->
    (named = true <-> happens l h (AskBlock v k (Storage i FormatId))
                      = Some ([], Ok (Read (Plain (PS "D5CDD505-2E9C-101B-9397-08002B2CF9AE"))))) ->
    let ask q w x := happens l h (AskBlock v k (Storage i (Property j q))) = Some (w, as_read x) in
    ask PropertyDict said r <-> exists r', in_order ask (property_rows named) said r' /\ r = nested r'.
  Proof.
    intros HI HN ask. assert (HB : forall q, happens l h (AskBlock v k q) = Some (x <- ask_block cp (extra_of p) q ;; ret (Read x)))
      by (intros q; apply (proj1 (ask_block_happens b cp allow l Hcp Hl h v k p q HI))).
    assert (HA : forall q w x, ask q w x <-> ask_block cp (extra_of p) (Storage i (Property j q)) = (w, x)).
    { intros q w x. unfold ask. rewrite HB. apply (asked_graph (ask_block cp (extra_of p))). }
    assert (HE : forall e, (forall q, ask_block cp (extra_of p) (Storage i (Property j q)) = raise e) ->
      ask PropertyDict said r <-> exists r', in_order ask (property_rows named) said r' /\ r = nested r').
    { intros e HE. rewrite HA, HE.
      assert (HG : forall q w x, ask q w x <-> graph (fun _ => raise e) q w x) by (intros q w x; rewrite HA, HE; reflexivity). split.
      - intros [= <- <-]. exists (Err e). split; [|reflexivity]. apply row_fails, HG. reflexivity.
      - intros (r' & HC & ->). apply (in_order_ext _ _ _ _ _ HG) in HC. apply collect_iff in HC. cbn in HC. now injection HC as <- <-. }
    destruct (storage_found cp (extra_of p) i) as [[s HS]|[e HS]]; [|apply (HE e); intros q; apply HS].
    destruct (property_found s j) as [(p' & named' & HN' & L & HP)|[e HP]]; [|apply (HE e); intros q; now rewrite HS].
    assert (EN : named = named').
    { rewrite HB, HS in HN. cbn [ask_storage] in HN. unfold ps_format_id, text_read in HN. rewrite guid_at in HN by lia. cbn in HN.
      assert (HT : named = true <-> slice 8 24 s = named_format).
      { rewrite HN, <- (named_reflects s L), text_eqb_eq. unfold PS. split; intros HX; [|now rewrite HX]; injection HX as HX; exact HX. }
      destruct named, named'; try reflexivity; exfalso; intuition discriminate. }
    subst named'.
    rewrite HA, HS, HP. cbn [ask_property]. rewrite nested_read, property_collect.
    assert (HG : forall q w x, ask q w x <-> graph (ask_property named p') q w x) by (intros q w x; rewrite HA, HS, HP; reflexivity).
    split; intros (r' & HC & ->); exists r'; (split; [|reflexivity]).
    - apply collect_iff in HC. revert HC. apply in_order_weaken. intros q w x. apply HG.
    - apply collect_iff. revert HC. apply in_order_weaken. intros q w x. apply HG.
  Qed.
End AsReported.

(** *** Consequences *)
Theorem pieces_nothing b cp allow l h st : usable cp -> snd (lnk_init (FromBytes b) cp allow) = Ok l ->
  happens l h st = None <-> forall said r, ~ says b cp allow h st said r.
Proof.
  intros Hcp Hl. split.
  - intros HN said r HG. apply (pieces_iff b cp allow l Hcp Hl) in HG. rewrite HN in HG. discriminate HG.
  - intros HN. destruct (happens l h st) as [[w r]|] eqn:E; [|reflexivity]. exfalso. apply (HN w r). now apply (pieces_iff b cp allow l Hcp Hl).
Qed.
Theorem pieces_determined b cp allow l h st said1 r1 said2 r2 : usable cp -> snd (lnk_init (FromBytes b) cp allow) = Ok l ->
  says b cp allow h st said1 r1 -> says b cp allow h st said2 r2 -> said1 = said2 /\ r1 = r2.
Proof.
  intros Hcp Hl H1 H2. apply (pieces_iff b cp allow l Hcp Hl) in H1, H2. rewrite H1 in H2. now injection H2 as -> ->.
Qed.
Theorem pieces_undisturbed l h h' st : calls h = calls h' -> happens l h st = happens l h' st.
Proof. intros H. unfold happens. rewrite !after_calls. now rewrite H. Qed.
Theorem extension_block_fails b cp allow l h v k there : usable cp -> snd (lnk_init (FromBytes b) cp allow) = Ok l ->
  has_item b cp (calls h) v k there -> num 1 2 there = 0x1E \/ num 1 2 there = 0x1F ->
  happens l h (AskItem v k (Field ExtensionBlock)) = Some ([], Err AttributeError).
Proof.
  intros Hcp Hl HI HT. apply (pieces_iff b cp allow l Hcp Hl). apply (says_item b cp allow h v k _ there [] (Err AttributeError) HI).
  assert (HF : num 1 0 (fields_at there) = num 1 2 there).
  { apply type_of. destruct HI as [asked there said _ _ _ HC]. inversion HC; assumption. }
  cbn [item_says_to]. unfold item_field. rewrite HF. destruct HT as [-> | ->]; reflexivity.
Qed.
Theorem volume_identifier_fails b cp allow l h v k there : usable cp -> snd (lnk_init (FromBytes b) cp allow) = Ok l ->
  has_item b cp (calls h) v k there -> num 1 2 there / 16 mod 8 = 2 -> N.testbit (num 1 2 there) 0 = true ->
  happens l h (AskItem v k (Field VolumeIdentifier)) = Some ([], Err TypeError).
Proof.
  intros Hcp Hl HI HT HB. apply (pieces_iff b cp allow l Hcp Hl). apply (says_item b cp allow h v k _ there [] (Err TypeError) HI).
  assert (HC : item_there there).
  { destruct HI as [asked there said _ _ _ HC]. inversion HC; assumption. }
  pose proof (type_of there HC) as HF.
  cbn [item_says_to]. unfold item_field. rewrite HF, HT. unfold volume_field, have. rewrite HF, HB.
  replace (1 <=? lenN (fields_at there)) with true; [reflexivity|]. symmetry. apply N.leb_le.
  destruct HC as [HL HZ]. unfold fields_at. rewrite lenN_slice. lia.
Qed.
