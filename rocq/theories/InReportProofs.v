(** * The properties of single blocks and items, in reports *)
From Verif Require Import Lemmas PyTime Codec Utils Sha256 Header StringData Targets Info Extra LnkFile Report.
From Verif Require Import ApiProofs.
From Verif Require Import Spec SpecText SpecHeader SpecTime SpecDouble SpecItems SpecInfo SpecExtra SpecOutcome SpecEntries SpecBlocks SpecWhole SpecFailure SpecSha.
From Verif Require Import OutcomeProofs LayoutProofs CoreProofs EncProofs TextProofs ConstructProofs ItemProofs ExtraProofs ExtraListProofs ExtraFileProofs.
From Verif Require Import ExactProofs EntryProofs AnyBlockProofs TriedProofs WholeProofs FailureProofs ShaProofs DigestProofs HeaderFileProofs InfoFileProofs.

(** ** The entries of a list of blocks *)
Lemma read_app cp before after entries said : blocks_read cp (before ++ after) entries said ->
  exists e1 w1 e2 w2, blocks_read cp before e1 w1 /\ blocks_read cp after e2 w2 /\ entries = e1 ++ e2 /\ said = w1 ++ w2.
Proof.
  revert entries said. induction before as [|[sig raw] before IH]; intros entries said H.
  - exists [], [], entries, said. split; [constructor|]. now repeat split.
  - cbn [app] in H. inversion H as [|sig' raw' rest d w l ws HB HR|sig' raw' rest w l ws HB HR]; subst;
      destruct (IH _ _ HR) as (e1 & w1 & e2 & w2 & H1 & H2 & -> & ->).
    + exists ((block_name sig, d) :: e1), (w ++ w1), e2, w2. split; [now apply block_kept|]. split; [exact H2|]. split; [reflexivity|].
      now rewrite app_assoc.
    + exists e1, (w ++ WExtraBlock (block_name sig) :: w1), e2, w2. split; [now apply block_left_out|]. split; [exact H2|].
      split; [reflexivity|]. now rewrite <- app_assoc.
Qed.
Lemma read_named cp blocks entries said k d : blocks_read cp blocks entries said -> In (k, d) entries ->
  exists sig raw w, In (sig, raw) blocks /\ block_name sig = k /\ block_read cp sig raw d w.
Proof.
  induction 1 as [|sig raw rest x w l ws HB _ IH|sig raw rest w l ws HB _ IH]; intros HI; [destruct HI|..].
  - destruct HI as [E|HI].
    + injection E as <- <-. exists sig, raw, w. split; [now left|]. now split.
    + destruct (IH HI) as (s & r & w' & H1 & H2). exists s, r, w'. split; [now right|exact H2].
  - destruct (IH HI) as (s & r & w' & H1 & H2). exists s, r, w'. split; [now right|exact H2].
Qed.
Lemma collect_get k l : In k (map fst l) -> dget k (collect l) = Some (entry_for l k).
Proof.
  intros H. rewrite collect_eq, dget_map. destruct (in_dec string_dec k _) as [_|H']; [reflexivity|]. exfalso. apply H'. now apply first_seen_in.
Qed.
Lemma collect_get_none k l : ~ In k (map fst l) -> dget k (collect l) = None.
Proof.
  intros H. rewrite collect_eq, dget_map. destruct (in_dec string_dec k _) as [H'|_]; [|reflexivity]. exfalso. apply H. exact (proj1 (first_seen_in _ _) H').
Qed.
Lemma collect_keys l : map fst (collect l) = first_seen (map fst l).
Proof. rewrite collect_eq, map_map. cbn [fst]. apply map_id. Qed.
Lemma behind_names allow r k : In k (map fst (behind_blocks allow r)) -> k = "TERMINAL_BLOCK"%string.
Proof. unfold behind_blocks. destruct (allow && _ && _); cbn [map fst]; [intros [<-|[]]; reflexivity|intros []]. Qed.
Lemma name_not_terminal sig : block_name sig <> "TERMINAL_BLOCK"%string.
Proof.
  rewrite <- block_name_class. pose proof (sig_class_not_terminal sig) as H. intros E. destruct (sig_class sig); try discriminate E. now apply H.
Qed.

Section File.
  Variables (b : bytes) (cp : cp_arg) (allow all : bool) (l : lnk) (d : dict).
  Hypotheses (Hcp : usable cp) (Hl : snd (lnk_init (FromBytes b) cp allow) = Ok l) (Hd : snd (get_json l all) = Ok d).
  Variables (blocks : list (N * bytes)) (tail : bytes).
  Hypothesis HW : block_walk (dropN (string_data_end b) b) blocks tail.

  Lemma sized_blocks : sizes_readable blocks.
  Proof.
    destruct (file_extras b cp allow l Hcp Hl) as (_ & blocks' & r & HW' & HS & _). destruct (block_walk_det _ _ _ _ _ HW HW') as [<- <-]. exact HS.
  Qed.
  Lemma extra_here : exists entries said,
    blocks_read cp blocks entries said /\ reported_extra d = Some (collect (entries ++ behind_blocks allow tail)).
  Proof.
    destruct (extra_settled b cp allow l all d Hcp Hl Hd) as (blocks' & r & entries & said & HW' & HR & _ & E).
    destruct (block_walk_det _ _ _ _ _ HW HW') as [<- <-]. now exists entries, said.
  Qed.
  Lemma block_read_one sig raw d1 w1 d2 w2 : 4 <= lenN raw -> block_read cp sig raw d1 w1 -> block_read cp sig raw d2 w2 -> d1 = d2 /\ w1 = w2.
  Proof.
    intros L H1 H2. apply (proj1 (block_settles cp sig raw Hcp L)) in H1. apply (proj1 (block_settles cp sig raw Hcp L)) in H2.
    rewrite H1 in H2. now injection H2.
  Qed.
  Lemma read_not_tried sig raw d1 w1 w2 : 4 <= lenN raw -> block_read cp sig raw d1 w1 -> block_tried cp sig raw w2 -> False.
  Proof.
    intros L H1 H2. apply (proj1 (block_settles cp sig raw Hcp L)) in H1. apply (proj1 (block_tries cp sig raw Hcp L)) in H2 as (x & _ & H2).
    rewrite H1 in H2. discriminate.
  Qed.

  (** The last block of its kind that can be read. *)
  Lemma last_reported before sig raw after x w : blocks = before ++ (sig, raw) :: after ->
    block_name sig <> "UNKNOWN_BLOCK"%string -> block_read cp sig raw x w ->
    (forall sig' raw' x' w', In (sig', raw') after -> block_name sig' = block_name sig -> ~ block_read cp sig' raw' x' w') ->
    exists e, reported_extra d = Some e /\ dget (block_name sig) e = Some (PDict x).
  Proof.
    intros EB HU HR HL. destruct extra_here as (entries & said & HE & E). eexists. split; [exact E|].
    pose proof sized_blocks as HS. rewrite EB in HE, HS. apply Forall_app in HS as [_ HS]. inversion HS as [|? ? L _]; subst. cbn [snd] in L.
    apply read_app in HE as (e1 & w1 & e2 & w2 & _ & H2 & -> & ->).
    inversion H2 as [|sig' raw' rest x' w' l' ws HB HR'|sig' raw' rest w' l' ws HB HR']; subst; [|now destruct (read_not_tried _ _ _ _ _ L HR HB)].
    destruct (block_read_one _ _ _ _ _ _ L HR HB) as [<- <-].
    rewrite collect_get by (rewrite !map_app; apply in_or_app; left; apply in_or_app; right; now left).
    unfold entry_for. rewrite (eqb_sym_neq _ _ HU), !last_of_app.
    rewrite (last_of_absent _ (behind_blocks allow tail)) by (intros HI; apply behind_names in HI; exact (name_not_terminal sig HI)).
    cbn [last_of]. rewrite (last_of_absent _ l'), String.eqb_refl; [reflexivity|].
    intros HI. apply in_map_iff in HI as ((k & x') & Ek & HI). cbn [fst] in Ek. subst k.
    destruct (read_named _ _ _ _ _ _ HR' HI) as (s & r & w'' & Hi & Hn & Hb). exact (HL s r x' w'' Hi Hn Hb).
  Qed.
  (** Which keys there are, and in which order. *)
  Lemma keys_reported k : exists e, reported_extra d = Some e
    /\ (In k (map fst e) <-> (exists sig raw x w, In (sig, raw) blocks /\ block_name sig = k /\ block_read cp sig raw x w)
                            \/ (k = "TERMINAL_BLOCK"%string /\ allow = true /\ 4 < lenN tail /\ num 4 0 tail = 0)).
  Proof.
    destruct extra_here as (entries & said & HE & E). eexists. split; [exact E|]. rewrite collect_keys, first_seen_in, map_app, in_app_iff.
    assert (HT : In k (map fst (behind_blocks allow tail)) <-> k = "TERMINAL_BLOCK"%string /\ allow = true /\ 4 < lenN tail /\ num 4 0 tail = 0).
    { unfold behind_blocks. destruct allow; cbn [andb]; [|split; [intros []|intros (_ & H & _); discriminate H]].
      destruct (N.ltb_spec 4 (lenN tail)); cbn [andb]; [|split; [intros []|intros (_ & _ & H' & _); lia]].
      destruct (N.eqb_spec (num 4 0 tail) 0); cbn [map fst]; [|split; [intros []|intros (_ & _ & _ & H'); contradiction]].
      split; [intros [<-|[]]; now repeat split|intros (-> & _); now left]. }
    rewrite HT. apply or_iff_compat_r. split.
    - intros HI. apply in_map_iff in HI as ((k' & x) & Ek & HI). cbn [fst] in Ek. subst k'.
      destruct (read_named _ _ _ _ _ _ HE HI) as (s & r & w & H). now exists s, r, x, w.
    - intros (sig & raw & x & w & HI & <- & HR). apply in_split in HI as (before & after & EB).
      pose proof sized_blocks as HS. rewrite EB in HE, HS. apply Forall_app in HS as [_ HS]. inversion HS as [|? ? L _]; subst. cbn [snd] in L.
      apply read_app in HE as (e1 & w1 & e2 & w2 & _ & H2 & -> & ->). rewrite map_app. apply in_or_app. right.
      inversion H2 as [|sig' raw' rest x' w' l' ws HB HR'|sig' raw' rest w' l' ws HB HR']; subst; [|now destruct (read_not_tried _ _ _ _ _ L HR HB)].
      now left.
  Qed.
  (** The unknown ones. *)
  Definition digest_entry (raw : bytes) : dict :=
    [("size", PN (num 4 0 raw)); ("extra_data_sha256", PStr (sha256_hex (dropN 4 raw)))]%string.
  Lemma unknown_read sig raw x w : 4 <= lenN raw -> block_name sig = "UNKNOWN_BLOCK"%string -> block_read cp sig raw x w -> x = digest_entry raw.
  Proof.
    intros L HN HR. apply (proj1 (block_settles cp sig raw Hcp L)) in HR.
    assert (EC : class_of_sig sig = UnknownExtra) by now apply unknown_sig. rewrite EC in HR.
    pose proof (proj1 (what_is_hashed cp UnknownExtra raw L) eq_refl) as H. rewrite H in HR. now injection HR.
  Qed.
  Lemma unknown_not_tried sig raw w : 4 <= lenN raw -> block_name sig = "UNKNOWN_BLOCK"%string -> ~ block_tried cp sig raw w.
  Proof.
    intros L HN HR. apply (proj1 (block_tries cp sig raw Hcp L)) in HR as (x & _ & HR).
    assert (EC : class_of_sig sig = UnknownExtra) by now apply unknown_sig. rewrite EC in HR.
    pose proof (proj1 (what_is_hashed cp UnknownExtra raw L) eq_refl) as H. rewrite H in HR. discriminate.
  Qed.
  Lemma unknown_all bl entries said : sizes_readable bl -> blocks_read cp bl entries said ->
    all_of "UNKNOWN_BLOCK" entries = map (fun blk => digest_entry (snd blk)) (filter (fun blk => String.eqb (block_name (fst blk)) "UNKNOWN_BLOCK") bl).
  Proof.
    intros HS H. revert HS. unfold all_of. induction H as [|sig raw rest x w l' ws HB _ IH|sig raw rest w l' ws HB _ IH]; intros HS; [reflexivity|..];
      inversion_clear HS as [|? ? L HS']; cbn [snd] in L; cbn [filter fst snd]; specialize (IH HS').
    - rewrite (String.eqb_sym (block_name sig)). destruct (String.eqb_spec "UNKNOWN_BLOCK" (block_name sig)) as [E|E]; cbn [map snd]; rewrite IH; [|reflexivity].
      f_equal. exact (unknown_read _ _ _ _ L (eq_sym E) HB).
    - destruct (String.eqb_spec (block_name sig) "UNKNOWN_BLOCK") as [E|E]; [now destruct (unknown_not_tried _ _ _ L E HB)|exact IH].
  Qed.
  Lemma all_of_app k l1 l2 : all_of k (l1 ++ l2) = all_of k l1 ++ all_of k l2.
  Proof. unfold all_of. now rewrite filter_app, map_app. Qed.
  Lemma unknown_reported : exists e, reported_extra d = Some e
    /\ let raws := map snd (filter (fun blk => String.eqb (block_name (fst blk)) "UNKNOWN_BLOCK") blocks) in
       dget "UNKNOWN_BLOCK" e = match raws with [] => None | _ => Some (PList (map (fun raw => PDict (digest_entry raw)) raws)) end.
  Proof.
    destruct extra_here as (entries & said & HE & E). eexists. split; [exact E|]. cbv zeta.
    pose proof (unknown_all _ _ _ sized_blocks HE) as HA.
    assert (HB : all_of "UNKNOWN_BLOCK" (behind_blocks allow tail) = []).
    { apply all_of_absent. intros HI. apply behind_names in HI. discriminate HI. }
    destruct (in_dec string_dec "UNKNOWN_BLOCK" (map fst (entries ++ behind_blocks allow tail))) as [H|H].
    - rewrite collect_get by exact H. unfold entry_for. change (String.eqb "UNKNOWN_BLOCK" "UNKNOWN_BLOCK") with true. cbv iota.
      rewrite all_of_app, HB, HA, app_nil_r, map_map. rewrite (map_map snd).
      destruct (filter _ blocks) as [|blk r] eqn:EF; [|reflexivity]. exfalso. cbn [map] in HA.
      rewrite map_app in H. apply in_app_or in H as [H|H]; [|apply behind_names in H; discriminate H].
      apply in_map_iff in H as ((k & x) & Ek & HI). cbn [fst] in Ek. subst k. unfold all_of in HA. apply map_eq_nil in HA.
      assert (HF : In ("UNKNOWN_BLOCK"%string, x) (filter (fun e : string * dict => String.eqb "UNKNOWN_BLOCK" (fst e)) entries))
        by (apply filter_In; now split). rewrite HA in HF. destruct HF.
    - rewrite collect_get_none by exact H. rewrite map_app in H.
      assert (HN : all_of "UNKNOWN_BLOCK" entries = []) by (apply all_of_absent; intros HI; apply H; apply in_or_app; now left).
      rewrite HN in HA. symmetry in HA. apply map_eq_nil in HA. now rewrite HA.
  Qed.
  (** What is behind the terminal block. *)
  Lemma terminal_reported : allow = true -> 4 < lenN tail -> num 4 0 tail = 0 -> exists e, reported_extra d = Some e
    /\ dget "TERMINAL_BLOCK" e = Some (PDict [("size", PN (lenN tail)); ("appended_data_sha256", PStr (sha256_hex (dropN 4 tail)))]%string).
  Proof.
    intros HA HT HN. destruct extra_here as (entries & said & HE & E). eexists. split; [exact E|].
    assert (EB : behind_blocks allow tail = [("TERMINAL_BLOCK", [("size", PN (lenN tail)); ("appended_data_sha256", PStr (sha256_hex (dropN 4 tail)))])]%string).
    { unfold behind_blocks. rewrite HA, HN. now replace (4 <? lenN tail) with true by lia. }
    rewrite EB. rewrite collect_get by (rewrite map_app; apply in_or_app; right; now left).
    unfold entry_for. change (String.eqb "TERMINAL_BLOCK" "UNKNOWN_BLOCK") with false. cbv iota. rewrite last_of_app. reflexivity.
  Qed.
End File.

(** ** Entries by their source *)
Section Source.
  Variables (b : bytes) (cp : cp_arg) (allow all : bool) (l : lnk) (d : dict).
  Hypotheses (Hcp : usable cp) (Hl : snd (lnk_init (FromBytes b) cp allow) = Ok l) (Hd : snd (get_json l all) = Ok d).
  Variables (blocks : list (N * bytes)) (tail : bytes).
  Hypothesis HW : block_walk (dropN (string_data_end b) b) blocks tail.

  Lemma last_source bl entries said k x : blocks_read cp bl entries said -> last_of k entries = Some x ->
    exists before sig raw after w, bl = before ++ (sig, raw) :: after /\ block_name sig = k /\ block_read cp sig raw x w
      /\ forall sig' raw', In (sig', raw') after -> block_name sig' = k -> exists w', block_tried cp sig' raw' w'.
  Proof.
    induction 1 as [|sig raw rest y w l' ws HB HR IH|sig raw rest w l' ws HB HR IH]; cbn [last_of]; [discriminate|..].
    - destruct (last_of k l') as [z|] eqn:EL.
      + intros E. injection E as ->. destruct (IH eq_refl) as (before & s & r & after & w' & -> & H).
        exists ((sig, raw) :: before), s, r, after, w'. now split.
      + destruct (String.eqb_spec k (block_name sig)) as [->|]; [|discriminate]. intros E. injection E as ->.
        exists [], sig, raw, rest, w. split; [reflexivity|]. split; [reflexivity|]. split; [exact HB|].
        clear - HR EL. induction HR as [|s r rest y w l' ws HB HR IH|s r rest w l' ws HB HR IH]; intros sig' raw' HI HN; [destruct HI|..].
        * cbn [last_of] in EL. destruct (last_of (block_name sig) l') eqn:EL'; [discriminate|].
          destruct (String.eqb_spec (block_name sig) (block_name s)) as [|Hn]; [discriminate|].
          destruct HI as [E|HI]; [injection E as <- <-; now destruct Hn|now apply IH].
        * destruct HI as [E|HI]; [injection E as <- <-; now exists w|now apply IH].
    - intros E. destruct (IH E) as (before & s & r & after & w' & -> & H). exists ((sig, raw) :: before), s, r, after, w'. now split.
  Qed.
  Lemma source_reported e k x : reported_extra d = Some e -> dget k e = Some (PDict x) -> k <> "TERMINAL_BLOCK"%string ->
    exists before sig raw after w, blocks = before ++ (sig, raw) :: after /\ block_name sig = k /\ 4 <= lenN raw /\ block_read cp sig raw x w
      /\ forall sig' raw', In (sig', raw') after -> block_name sig' = k -> exists w', block_tried cp sig' raw' w'.
  Proof.
    intros He HG HT. destruct (extra_here b cp allow all l d Hcp Hl Hd _ _ HW) as (entries & said & HE & E).
    rewrite He in E. injection E as ->. rewrite collect_eq, dget_map in HG. destruct (in_dec _ _ _) as [_|]; [|discriminate HG].
    injection HG as HG. unfold entry_for in HG. destruct (String.eqb k "UNKNOWN_BLOCK"); [discriminate HG|].
    rewrite last_of_app in HG. rewrite (last_of_absent _ (behind_blocks allow tail)) in HG by (intros HI; apply behind_names in HI; contradiction).
    destruct (last_of k entries) as [x'|] eqn:EL; [|discriminate HG]. injection HG as ->.
    destruct (last_source _ _ _ _ _ HE EL) as (before & sig & raw & after & w & EB & HN & HR & HA).
    exists before, sig, raw, after, w. split; [exact EB|]. split; [exact HN|]. split; [|now split].
    pose proof (sized_blocks b cp allow l Hcp Hl _ _ HW) as HS. rewrite EB in HS. apply Forall_app in HS as [_ HS]. now inversion HS.
  Qed.
  (** The text fields. *)
  Lemma texts_reported e name key wide i j x : In (name, key, wide, i, j) text_fields ->
    reported_extra d = Some e -> dget name e = Some (PDict x) ->
    exists before sig raw after w, blocks = before ++ (sig, raw) :: after /\ block_name sig = name /\ block_read cp sig raw x w
      /\ (forall sig' raw', In (sig', raw') after -> block_name sig' = name -> exists w', block_tried cp sig' raw' w')
      /\ dget key x = Some (PStr (stored_text wide cp (slice i j raw))).
  Proof.
    intros HI He HG. assert (HT : name <> "TERMINAL_BLOCK"%string).
    { unfold text_fields in HI. cbn [In] in HI. intros ->. repeat (destruct HI as [HI|HI]; [discriminate HI|]). exact HI. }
    destruct (source_reported _ _ _ He HG HT) as (before & sig & raw & after & w & EB & HN & L & HR & HA).
    exists before, sig, raw, after, w. split; [exact EB|]. split; [exact HN|]. split; [exact HR|]. split; [exact HA|].
    apply (text_field cp (class_of_sig sig) raw x name key wide i j Hcp HI); [now rewrite <- sig_class_num, block_name_class|].
    now rewrite (proj1 (block_settles cp sig raw Hcp L) _ _ HR).
  Qed.
End Source.

(** ** Blocks with given contents *)
Lemma raw_long sig data : 4 <= lenN (encode_block (sig, data)).
Proof. unfold encode_block. rewrite lenN_app, lenN_enc32. lia. Qed.
Lemma read_of_class cp sig c raw x w : usable cp -> extra_name c = block_name sig -> 4 <= lenN raw ->
  extra_as_dict cp (Extra c raw) = (w, Ok x) -> block_read cp sig raw x w.
Proof. intros Hcp HN L H. exact (proj2 (proj1 (block_read_iff cp sig (Extra c raw) Hcp HN L) x w) H). Qed.
Lemma read_some cp sig c raw x : usable cp -> extra_name c = block_name sig -> 4 <= lenN raw ->
  snd (extra_as_dict cp (Extra c raw)) = Ok x -> exists w, block_read cp sig raw x w.
Proof.
  intros Hcp HN L H. destruct (extra_as_dict cp (Extra c raw)) as [w r] eqn:E. cbn [snd] in H. subst r. exists w. now apply read_of_class with c.
Qed.

(** ** A block that cannot be read *)
Lemma bad_reported b cp allow l d said before sig raw after tail w : usable cp -> snd (lnk_init (FromBytes b) cp allow) = Ok l ->
  get_json l true = (said, Ok d) -> block_walk (dropN (string_data_end b) b) (before ++ (sig, raw) :: after) tail -> block_tried cp sig raw w ->
  exists e1 w1 e2 w2 u, blocks_read cp before e1 w1 /\ blocks_read cp after e2 w2
    /\ reported_extra d = Some (collect ((e1 ++ e2) ++ behind_blocks allow tail))
    /\ said = u ++ w1 ++ w ++ [WExtraBlock (block_name sig)] ++ w2.
Proof.
  intros Hcp Hl HJ HW HT. pose proof (init_constructed _ _ _ _ Hcp Hl) as [(HC1 & HC2 & _) _]. pose proof (sized_blocks b cp allow l Hcp Hl _ _ HW) as HS.
  assert (HX : exists entries bs u, blocks_read cp (before ++ (sig, raw) :: after) entries bs
    /\ reported_extra d = Some (collect (entries ++ behind_blocks allow tail)) /\ said = u ++ bs).
  { pose proof (whole_reported b cp allow l d said Hcp Hl HJ) as H.
    inversion H as [h rest created accessed written items items_said found data_end cut blocks r entries bs info_raw network terminal sections
      Hw Hb Hc Ha Hwr Hi Hr Hn Hs Hbl Hre Ht Hse Edd Esaid].
    assert (Hend : data_end = string_data_end b).
    { destruct (string_data_full b cp Hcp HC1 HC2) as (f & c & Hf & _). exact (proj1 (proj2 (string_walk_det _ _ _ _ _ _ _ _ _ Hs Hf))). }
    rewrite Hend in Hbl. destruct (block_walk_det _ _ _ _ _ HW Hbl) as [<- <-].
    exists entries, bs. eexists. split; [exact Hre|]. split; [|rewrite !app_assoc; reflexivity].
    unfold reported_extra. destruct (has_id_list b); reflexivity. }
  destruct HX as (entries & bs & u & HR & E & ->).
  apply read_app in HR as (e1 & w1 & e2 & w2 & H1 & H2 & -> & ->).
  apply Forall_app in HS as [_ HS]. inversion HS as [|? ? L _]; subst. cbn [snd] in L.
  inversion H2 as [|sig' raw' rest x' w' l' ws HB HR'|sig' raw' rest w' l' ws HB HR']; subst; [now destruct (read_not_tried cp Hcp _ _ _ _ _ L HB HT)|].
  assert (w' = w) as ->.
  { apply (proj1 (block_tries cp sig raw Hcp L)) in HB as (x1 & _ & HB). apply (proj1 (block_tries cp sig raw Hcp L)) in HT as (x2 & _ & HT).
    rewrite HB in HT. now injection HT. }
  exists e1, w1, e2, ws, u. now repeat split.
Qed.

Lemma item_size_there body r : item_fits body -> num 2 0 (encode_item body ++ r) = lenN body + 2.
Proof.
  intros [_ H]. unfold encode_item. rewrite <- app_assoc. unfold num. change (dropN 0 (enc16 (lenN body + 2) ++ body ++ r)) with (enc16 (lenN body + 2) ++ body ++ r).
  rewrite (takeN_app_exact 2); [|apply lenN_enc16]. now apply le_val_enc16.
Qed.
Lemma listed_next cp body r es w : item_fits body -> entries_listed cp (encode_item body ++ r) es w ->
  exists es' w', es = entry_of cp (lenN body + 2) (slice 2 (2 + (lenN body + 2)) (encode_item body ++ r)) :: es' /\ entries_listed cp r es' w'.
Proof.
  intros HF H. pose proof (item_size_there body r HF) as E. inversion H as [? HE|? es' w' HL HN fields HI HR]; subst.
  - exfalso. destruct HE as [HE|[_ HE]]; [|rewrite E in HE; lia]. apply (f_equal lenN) in HE.
    unfold encode_item in HE. rewrite !lenN_app, lenN_enc16 in HE. change (lenN (@nil byte)) with 0 in HE. lia.
  - exists es', w'. unfold fields in *. rewrite E in *. split; [reflexivity|].
    rewrite dropN_app_exact in HR; [exact HR|]. unfold encode_item. rewrite lenN_app, lenN_enc16. lia.
Qed.
Lemma listed_at cp before : Forall item_fits before -> forall r es w, entries_listed cp (flat_map encode_item before ++ r) es w ->
  exists es1 es2 w2, es = es1 ++ es2 /\ length es1 = length before /\ entries_listed cp r es2 w2.
Proof.
  induction 1 as [|body before HF HB IH]; intros r es w H; [now exists [], es, w|].
  cbn [flat_map] in H. rewrite <- app_assoc in H. destruct (listed_next cp body _ _ _ HF H) as (es' & w' & -> & H').
  destruct (IH _ _ _ H') as (es1 & es2 & w2 & -> & HL & H2). eexists (_ :: es1), es2, w2. split; [reflexivity|]. split; [cbn; lia|exact H2].
Qed.
Lemma type_there body r : item_fits body -> num 1 0 (slice 2 (2 + (lenN body + 2)) (encode_item body ++ r)) = item_type body.
Proof.
  intros [HN _]. destruct body as [|c body]; [congruence|]. unfold encode_item. rewrite <- app_assoc.
  rewrite (slice_skip_n _ _ 2) by (try apply lenN_enc16; lia).
  replace (2 - 2) with 0 by lia. replace (2 + (lenN (c :: body) + 2) - 2) with (lenN (c :: body) + 2) by lia. rewrite slice_0.
  cbn [app]. replace (lenN (c :: body) + 2) with (1 + (lenN body + 2)) by (rewrite lenN_cons; lia).
  cbn [takeN]. destruct (N.eqb_spec (1 + (lenN body + 2)) 0); [lia|]. unfold num. generalize (takeN (N.pred (1 + (lenN body + 2))) (body ++ r)).
  intros t. change (dropN 0 (c :: t)) with (c :: t). change (takeN 1 (c :: t)) with (c :: takeN 0 t). rewrite takeN_0. cbn [le_val item_type]. lia.
Qed.
Lemma flags_of_entry cp n fields : fields <> [] -> num 1 0 fields / 16 mod 8 = 3 \/ num 1 0 fields / 16 mod 8 = 4 ->
  dget "flags" (entry_of cp n fields) = Some (PS (flags_text (num 1 0 fields))).
Proof. intros _ [H|H]; unfold entry_of; cbv zeta; rewrite H; reflexivity. Qed.

(** ** Items *)
Section Items.
  Variables (b : bytes) (cp : cp_arg) (allow : bool) (l : lnk) (d : dict).
  Hypotheses (Hcp : usable cp) (Hl : snd (lnk_init (FromBytes b) cp allow) = Ok l) (Hd : snd (get_json l true) = Ok d).
  Hypothesis (HI : has_id_list b = true).

  Lemma items_here : exists items, reported_items d = Some items /\ snd (items_of cp (id_list b)) = Ok items.
  Proof.
    destruct (items_of_file b cp allow l d Hcp Hl Hd HI) as (items & said & H & E). exists (map PDict items). split; [exact E|].
    apply (entries_of cp Hcp) in H. now rewrite H.
  Qed.
  Lemma flags_reported items x : reported_items d = Some items -> In (PDict x) items ->
    dget "flags" x <> Some (PS "Is Unicode share") /\ dget "flags" x <> Some (PS "Has CLSID").
  Proof.
    intros E Hx. destruct items_here as (items' & E' & H). rewrite E in E'. injection E' as <-. exact (items_flags cp _ _ _ H Hx).
  Qed.
  Lemma flags_named before body next : Forall item_fits before -> item_fits body ->
    id_list b = flat_map encode_item before ++ encode_item body ++ next ->
    item_type body / 16 mod 8 = 3 \/ item_type body / 16 mod 8 = 4 ->
    exists l1 x l2, reported_items d = Some (l1 ++ PDict x :: l2) /\ length l1 = length before
      /\ dget "flags" x = Some (PS (flags_text (item_type body))).
  Proof.
    intros HB HF E HT. destruct (items_of_file b cp allow l d Hcp Hl Hd HI) as (items & said & H & EI). rewrite E in H.
    destruct (listed_at cp before HB _ _ _ H) as (es1 & es2 & w2 & -> & HL & H2). destruct (listed_next cp body _ _ _ HF H2) as (es3 & w3 & -> & _).
    pose proof (type_there body next HF) as ET. set (fields := slice _ _ _) in *.
    exists (map PDict es1), (entry_of cp (lenN body + 2) fields), (map PDict es3).
    rewrite map_app in EI. split; [exact EI|]. split; [now rewrite map_length|]. rewrite <- ET. apply flags_of_entry; [|now rewrite ET].
    intros EF. rewrite EF in ET. rewrite <- ET in HT. vm_compute in HT. destruct HT; discriminate.
  Qed.
  Lemma item_place before body next : Forall item_fits before -> item_fits body ->
    id_list b = flat_map encode_item before ++ encode_item body ++ next ->
    exists l1 e l2, reported_items d = Some (l1 ++ e :: l2) /\ length l1 = length before
      /\ snd (items_of cp (encode_item body ++ next)) = Ok (e :: l2).
  Proof.
    intros HB HF E. destruct items_here as (items & EI & H). rewrite E in H. destruct (own_position cp before _ items HB H) as (l1 & l2 & -> & HL & H2).
    pose proof (own_position cp [body] next l2) as HO. cbn [flat_map] in HO. rewrite app_nil_r in HO.
    destruct (HO (Forall_cons _ HF (Forall_nil _)) H2) as (m1 & m2 & -> & HL' & _). destruct m1 as [|e [|? ?]]; try discriminate HL'.
    now exists l1, e, m2.
  Qed.
  Lemma class_reported before body next : Forall item_fits before -> item_fits body ->
    id_list b = flat_map encode_item before ++ encode_item body ++ next ->
    exists l1 e l2, reported_items d = Some (l1 ++ e :: l2) /\ length l1 = length before
      /\ entry_class e = Some (PS (class_of_type (item_type body))).
  Proof.
    intros HB HF E. destruct (item_place before body next HB HF E) as (l1 & e & l2 & H1 & H2 & H3). exists l1, e, l2. split; [exact H1|]. split; [exact H2|].
    exact (class_of_entry cp body next e l2 HF H3).
  Qed.
  Lemma network_reported before body next : Forall item_fits before -> item_fits body ->
    id_list b = flat_map encode_item before ++ encode_item body ++ next ->
    item_type body / 16 mod 8 = 4 -> 3 <= lenN (body ++ takeN 2 next) ->
    extra_strings (b2n (nth 2 (body ++ takeN 2 next) x00)) <= nuls (dropN 3 (body ++ takeN 2 next)).
  Proof.
    intros HB HF E HT HL. destruct (item_place before body next HB HF E) as (l1 & e & l2 & H1 & H2 & H3).
    pose proof (network_outcome cp body next Hcp HF HT HL) as HN. cbv zeta in HN.
    destruct (N.ltb_spec (nuls (dropN 3 (body ++ takeN 2 next))) (extra_strings (b2n (nth 2 (body ++ takeN 2 next) x00)))) as [H|H]; [|exact H].
    rewrite HN in H3. discriminate H3.
  Qed.
End Items.
Lemma flags_by_name b cp allow l d before body next n name :
  usable cp -> snd (lnk_init (FromBytes b) cp allow) = Ok l -> snd (get_json l true) = Ok d ->
  has_id_list b = true -> Forall item_fits before -> item_fits body ->
  id_list b = flat_map encode_item before ++ encode_item body ++ next ->
  item_type body / 16 mod 8 = 3 \/ item_type body / 16 mod 8 = 4 ->
  In (n, name)
    [(0, "Unknown"); (1, "Is directory"); (2, "Is file"); (3, "Is share"); (4, "Has Unicode strings");
     (5, "Is Unicode directory"); (6, "Is Unicode file"); (7, "Is Unicode directory")]%string ->
  item_type body mod 8 = n ->
  exists l1 x l2, reported_items d = Some (l1 ++ PDict x :: l2) /\ length l1 = length before
    /\ dget "flags" x = Some (PS name).
Proof.
  intros Hcp Hl Hd HI HB HF E HT Hn Hm. destruct (flags_named b cp allow l d Hcp Hl Hd HI before body next HB HF E HT) as (l1 & x & l2 & H1 & H2 & H3).
  exists l1, x, l2. split; [exact H1|]. split; [exact H2|]. rewrite H3. f_equal. f_equal. unfold flags_text, flags_name. rewrite Hm.
  cbn [In] in Hn. repeat destruct Hn as [[= <- <-]|Hn]; try reflexivity. destruct Hn.
Qed.
Lemma same_entry cp body next1 next2 e1 l1 e2 l2 : item_fits body -> takeN 2 next1 = takeN 2 next2 ->
  snd (items_of cp (encode_item body ++ next1)) = Ok (e1 :: l1) -> snd (items_of cp (encode_item body ++ next2)) = Ok (e2 :: l2) -> e1 = e2.
Proof.
  intros HF HN H1 H2. destruct (item_local cp) as [f Hf].
  assert (HO : forall next e m, snd (items_of cp (encode_item body ++ next)) = Ok (e :: m) -> snd (f body (takeN 2 next)) = Ok [e]).
  { intros next e m H. pose proof (own_position cp [body] next (e :: m)) as HO. cbn [flat_map] in HO. rewrite app_nil_r in HO.
    destruct (HO (Forall_cons _ HF (Forall_nil _)) H) as (m1 & m2 & EM & HL' & HM).
    destruct m1 as [|e' [|? ?]]; try discriminate HL'. injection EM as <- <-.
    rewrite (Hf body next HF) in H. apply snd_bind_Ok in H as (x & Hx & H). apply snd_bind_Ok in H as (y & Hy & H). rewrite HM in Hy. injection Hy as <-.
    cbn [snd ret] in H. injection H as H. change (e :: m) with ([e] ++ m) in H. apply app_inv_tail in H. now subst x. }
  apply HO in H1. apply HO in H2. rewrite HN in H1. rewrite H1 in H2. now injection H2.
Qed.

(** ** Blocks with given contents, in files *)
Lemma content_reported b cp allow all l d before sig data after rest c x : usable cp ->
  snd (lnk_init (FromBytes b) cp allow) = Ok l -> snd (get_json l all) = Ok d ->
  Forall block_fits (before ++ (sig, data) :: after) ->
  dropN (string_data_end b) b = encode_blocks (before ++ (sig, data) :: after) ++ enc32 0 ++ rest ->
  block_name sig <> "UNKNOWN_BLOCK"%string -> Forall (fun blk => block_name (fst blk) <> block_name sig) after ->
  extra_name c = block_name sig -> snd (extra_as_dict cp (Extra c (encode_block (sig, data)))) = Ok x ->
  exists e, reported_extra d = Some e /\ dget (block_name sig) e = Some (PDict x).
Proof.
  intros Hcp Hl Hd HF HE HU HA HC HX. pose proof (walk_encoded _ _ _ _ HF (walk_terminal rest)) as HW. rewrite <- HE, app_nil_r, map_app in HW.
  cbn [map fst] in HW. destruct (read_some cp sig c _ x Hcp HC (raw_long sig data) HX) as (w & HR).
  refine (last_reported b cp allow all l d Hcp Hl Hd _ _ HW _ sig _ _ x w eq_refl HU HR _).
  intros sig' raw' x' w' HI HN _. apply in_map_iff in HI as (blk & EB & HI). injection EB as <- <-. rewrite Forall_forall in HA. exact (HA blk HI HN).
Qed.
Lemma fits_here before blk after : Forall block_fits (before ++ blk :: after) -> 8 + lenN (snd blk) < 4294967296.
Proof. intros H. apply Forall_app in H as [_ H]. inversion H as [|? ? HB _]; subst. now destruct HB. Qed.
Lemma shim_in_report b cp allow all l d before data after rest : usable cp ->
  snd (lnk_init (FromBytes b) cp allow) = Ok l -> snd (get_json l all) = Ok d ->
  Forall block_fits (before ++ (0xA0000008, data) :: after) ->
  dropN (string_data_end b) b = encode_blocks (before ++ (0xA0000008, data) :: after) ++ enc32 0 ++ rest ->
  Forall (fun blk => block_name (fst blk) <> "SHIM_LAYER_BLOCK"%string) after ->
  exists e, reported_extra d = Some e
    /\ dget "SHIM_LAYER_BLOCK" e = Some (PDict [("size", PN (8 + lenN data)); ("layer_name", PStr (field_text cp data))]%string).
Proof.
  intros Hcp Hl Hd HF HE HA. apply (content_reported b cp allow all l d before 0xA0000008 data after rest ShimLayer); try assumption; try reflexivity; [discriminate|].
  apply shim_reported; [exact Hcp|reflexivity|exact (fits_here _ _ _ HF)].
Qed.
Lemma store_in_report b cp allow all l d before stores slack after rest :
  let data := flat_map (fun s => sized (storage_body s)) stores ++ enc32 0 ++ slack in
  usable cp -> snd (lnk_init (FromBytes b) cp allow) = Ok l -> snd (get_json l all) = Ok d ->
  Forall block_fits (before ++ (0xA0000009, data) :: after) -> Forall wf_storage stores ->
  dropN (string_data_end b) b = encode_blocks (before ++ (0xA0000009, data) :: after) ++ enc32 0 ++ rest ->
  Forall (fun blk => block_name (fst blk) <> "METADATA_PROPERTIES_BLOCK"%string) after ->
  exists e, reported_extra d = Some e
    /\ dget "METADATA_PROPERTIES_BLOCK" e
       = Some (PDict [("size", PN (8 + lenN data)); ("property_store", PList (map (fun s => PDict (storage_report s)) stores))]%string).
Proof.
  intros data Hcp Hl Hd HF HS HE HA.
  apply (content_reported b cp allow all l d before 0xA0000009 data after rest Metadata); try assumption; try reflexivity; [discriminate|].
  unfold data. rewrite store_reported; [reflexivity|reflexivity|exact HS|exact (fits_here _ _ _ HF)].
Qed.
Lemma descriptor_in_report b cp allow all l d before ansi x wide slack after rest :
  let data := ansi ++ wide ++ slack in
  usable cp -> snd (lnk_init (FromBytes b) cp allow) = Ok l -> snd (get_json l all) = Ok d ->
  lenN ansi = 260 -> wf_descriptor x -> wide_field (descriptor_text x) wide ->
  Forall block_fits (before ++ (0xA0000006, data) :: after) ->
  dropN (string_data_end b) b = encode_blocks (before ++ (0xA0000006, data) :: after) ++ enc32 0 ++ rest ->
  Forall (fun blk => block_name (fst blk) <> "DARWIN_BLOCK"%string) after ->
  exists e, reported_extra d = Some e
    /\ dget "DARWIN_BLOCK" e
       = Some (PDict [("size", PN (8 + lenN data));
                      ("darwin_data_ansi", PStr (field_text cp ansi)); ("darwin_data_unicode", PStr (descriptor_text x));
                      ("product_code_id", PStr (guid_text (d_product x)));
                      ("feature_name", match d_feature x with [] => PNone | f => PStr f end);
                      ("component_id", match d_component x with Some g => PStr (guid_text g) | None => PNone end)]%string).
Proof.
  intros data Hcp Hl Hd HA HX HWi HF HE HN.
  apply (content_reported b cp allow all l d before 0xA0000006 data after rest Darwin); try assumption; try reflexivity; [discriminate|].
  exact (f_equal snd (descriptor_reported cp Darwin ansi x wide slack Hcp eq_refl HA HX HWi (fits_here _ _ _ HF))).
Qed.

(** ** Digests *)
Lemma walk_lens r blocks tail : block_walk r blocks tail -> Forall (fun blk => lenN (snd blk) <= lenN r) blocks /\ lenN tail <= lenN r.
Proof.
  assert (HD : forall n (r : bytes), lenN (dropN n r) <= lenN r) by (intros n r0; rewrite lenN_dropN; lia).
  assert (HT : forall n (r : bytes), lenN (takeN n r) <= lenN r) by (intros n r0; rewrite lenN_takeN; lia).
  induction 1 as [r0|r0 blocks r' H1 H2 HW [IH1 IH2]|r0 blocks r' H1 H2 HW [IH1 IH2]]; [split; [constructor|lia]|..]; pose proof (HD (num 4 0 r0) r0) as HL.
  - split; [|lia]. eapply Forall_impl; [|exact IH1]. cbv beta. intros blk Hb. lia.
  - split; [|lia]. constructor; [apply HT|]. eapply Forall_impl; [|exact IH1]. cbv beta. intros blk Hb. lia.
Qed.
Lemma small_digest raw n : lenN raw <= n -> 8 * n < 2 ^ 64 -> sha256_digest (dropN 4 raw) (sha256_hex (dropN 4 raw)).
Proof.
  intros L H. apply sha256_digest_iff; [|reflexivity]. pose proof (lenN_dropN 4 raw). unfold bytes in *. lia.
Qed.
Lemma unknown_digests b cp allow all l d blocks tail : usable cp -> snd (lnk_init (FromBytes b) cp allow) = Ok l -> snd (get_json l all) = Ok d ->
  block_walk (dropN (string_data_end b) b) blocks tail -> 8 * lenN b < 2 ^ 64 ->
  exists e, reported_extra d = Some e
    /\ let unknown := filter (fun blk => String.eqb (block_name (fst blk)) "UNKNOWN_BLOCK") blocks in
       (unknown = [] -> dget "UNKNOWN_BLOCK" e = None)
       /\ (unknown <> [] -> exists ds, dget "UNKNOWN_BLOCK" e = Some (PList (map PDict ds))
           /\ Forall2 (fun blk x => exists t, sha256_digest (dropN 4 (snd blk)) t
                         /\ x = [("size", PN (num 4 0 (snd blk))); ("extra_data_sha256", PStr t)]%string) unknown ds).
Proof.
  intros Hcp Hl Hd HW HB. destruct (unknown_reported b cp allow all l d Hcp Hl Hd _ _ HW) as (e & E & H). exists e. split; [exact E|]. cbv zeta in *.
  destruct (walk_lens _ _ _ HW) as [HL _]. pose proof (lenN_dropN (string_data_end b) b) as HD.
  assert (HL' : Forall (fun blk => lenN (snd blk) <= lenN b) (filter (fun blk => String.eqb (block_name (fst blk)) "UNKNOWN_BLOCK") blocks)).
  { apply Forall_forall. intros blk HI. apply filter_In in HI as [HI _]. rewrite Forall_forall in HL. specialize (HL blk HI). unfold bytes in *. lia. }
  clear HL. revert H HL'. generalize (filter (fun blk => String.eqb (block_name (fst blk)) "UNKNOWN_BLOCK") blocks). intros unknown H HL. split.
  - intros ->. exact H.
  - intros HN. exists (map (fun blk => digest_entry (snd blk)) unknown). split.
    + rewrite H. destruct unknown as [|blk r]; [now destruct HN|]. rewrite map_map. cbn [map]. now rewrite map_map.
    + clear - HL HB. induction HL as [|blk r Hb _ IH]; [constructor|]. constructor; [|exact IH].
      exists (sha256_hex (dropN 4 (snd blk))). split; [exact (small_digest _ _ Hb HB)|reflexivity].
Qed.
Lemma appended_digests b cp all l d blocks tail : usable cp -> snd (lnk_init (FromBytes b) cp true) = Ok l -> snd (get_json l all) = Ok d ->
  block_walk (dropN (string_data_end b) b) blocks tail -> 8 * lenN b < 2 ^ 64 -> 4 < lenN tail -> num 4 0 tail = 0 ->
  exists e t, reported_extra d = Some e /\ sha256_digest (dropN 4 tail) t
    /\ dget "TERMINAL_BLOCK" e = Some (PDict [("size", PN (lenN tail)); ("appended_data_sha256", PStr t)]%string).
Proof.
  intros Hcp Hl Hd HW HB HT HN. destruct (terminal_reported b cp true all l d Hcp Hl Hd _ _ HW eq_refl HT HN) as (e & E & H).
  exists e, (sha256_hex (dropN 4 tail)). split; [exact E|]. split; [|exact H]. apply (small_digest tail (lenN b)); [|exact HB].
  destruct (walk_lens _ _ _ HW) as [_ HL]. pose proof (lenN_dropN (string_data_end b) b). unfold bytes in *. lia.
Qed.

(** ** One item in two files *)
Lemma same_item b1 b2 cp allow1 allow2 l1 l2 d1 d2 before1 before2 body next1 next2 : usable cp ->
  snd (lnk_init (FromBytes b1) cp allow1) = Ok l1 -> snd (lnk_init (FromBytes b2) cp allow2) = Ok l2 ->
  snd (get_json l1 true) = Ok d1 -> snd (get_json l2 true) = Ok d2 ->
  has_id_list b1 = true -> has_id_list b2 = true ->
  Forall item_fits before1 -> Forall item_fits before2 -> item_fits body -> takeN 2 next1 = takeN 2 next2 ->
  id_list b1 = flat_map encode_item before1 ++ encode_item body ++ next1 ->
  id_list b2 = flat_map encode_item before2 ++ encode_item body ++ next2 ->
  exists m1 e n1 m2 n2,
    reported_items d1 = Some (m1 ++ e :: n1) /\ length m1 = length before1
    /\ reported_items d2 = Some (m2 ++ e :: n2) /\ length m2 = length before2.
Proof.
  intros Hcp Hl1 Hl2 Hd1 Hd2 HI1 HI2 HB1 HB2 HF HN E1 E2.
  destruct (item_place b1 cp allow1 l1 d1 Hcp Hl1 Hd1 HI1 before1 body next1 HB1 HF E1) as (m1 & e1 & n1 & R1 & L1 & H1).
  destruct (item_place b2 cp allow2 l2 d2 Hcp Hl2 Hd2 HI2 before2 body next2 HB2 HF E2) as (m2 & e2 & n2 & R2 & L2 & H2).
  pose proof (same_entry cp body next1 next2 e1 n1 e2 n2 HF HN H1 H2) as <-. exists m1, e1, n1, m2, n2. now repeat split.
Qed.

(** ** A device name that is not there *)
Lemma device_of_any_size b cp allow l d li :
  usable cp -> snd (lnk_init (FromBytes b) cp allow) = Ok l -> snd (get_json l true) = Ok d ->
  info_processed b = true -> reported_location_info d = Some li ->
  let raw := dropN (id_list_end b) b in
  let o := num 4 20 raw in
  let name := field_text cp (dropN o raw) in
  N.testbit (num 4 8 raw) 0 = false -> num 4 (o + 8) raw <= 20 -> num 4 (o + 12) raw = 0 ->
  dget "device_name" li = (if nonempty name then Some (PStr name) else None)
  /\ (num 4 o raw < 2 ^ 24 -> name = field_text cp (enc32 (num 4 o raw))).
Proof.
  intros Hcp Hl Hd HP HI raw o name HB HN HD.
  destruct (info_of_file b cp allow l d Hcp Hl Hd) as [HR HX]. specialize (HX HP). fold raw in HR, HX. rewrite HP, HB in HR. rewrite HB in HX. cbn [negb] in HR, HX.
  unfold reported_location_info in HI. rewrite HR, (proj2 (dget_location cp true raw)) in HI. injection HI as <-.
  assert (HL : o + 20 <= lenN raw).
  { unfold info_readable in HX. cbv zeta in HX. fold o in HX. apply andb_prop in HX as [_ HX]. apply andb_prop in HX as [HX _]. lia. }
  split.
  - unfold network_entries. cbv zeta. fold o. rewrite HD, N.add_0_r. fold name.
    replace (20 <? num 4 (o + 8) raw) with false by lia. replace (num 4 (o + 8) raw <=? 20) with true by lia. cbn [negb N.eqb entry_if app andb].
    cbn [dget String.eqb Ascii.eqb Bool.eqb]. rewrite ?dget_app.
    destruct (N.testbit _ 1); [destruct (known_provider _)|]; cbn [dget String.eqb Ascii.eqb Bool.eqb];
      (destruct (nonempty (field_text cp (dropN (o + num 4 (o + 8) raw) raw))), (nonempty name); reflexivity).
  - intros HS. pose proof (HeaderFileProofs.enc32_num o raw ltac:(lia)) as E. symmetry in E. set (n := num 4 o raw) in *.
    unfold name. rewrite <- (take_drop 4 (dropN o raw)). rewrite E.
    assert (E4 : enc32 n = [n2b n; n2b (n / 256); n2b (n / 65536)] ++ [x00]).
    { unfold enc32, enc16. cbn [app]. do 3 f_equal. f_equal. rewrite N.div_small with (a := n / 65536); [reflexivity|].
      change (2 ^ 24) with 16777216 in HS. lia. }
    unfold field_text. rewrite E4, <- app_assoc. cbn [app]. set (f := [n2b n; n2b (n / 256); n2b (n / 65536)]).
    change (n2b n :: n2b (n / 256) :: n2b (n / 65536) :: x00 :: dropN 4 (dropN o raw)) with (f ++ x00 :: dropN 4 (dropN o raw)).
    change [n2b n; n2b (n / 256); n2b (n / 65536); x00] with (f ++ [x00]). now rewrite !before_nul_cut.
Qed.
