(** * Files that are parsed without warnings (C83) *)
From Verif Require Import Lemmas PyTime Codec Utils Sha256 Targets Extra LnkFile.
From Verif Require Import Spec SpecText SpecHeader SpecTime SpecDouble SpecItems SpecInfo SpecExtra SpecOutcome SpecEntries SpecBlocks SpecWhole.
From Verif Require Import OutcomeProofs LayoutProofs CoreProofs FormatProofs TextProofs ApiProofs ConstructProofs HeaderProofs StringProofs JsonTextProofs EntryProofs AnyBlockProofs TriedProofs WholeProofs.
From Verif Require Import SpecFailure SpecTrace TraceProofs SpecSilence.

Lemma app_nil {A} (a b : list A) : a ++ b = [] -> a = [] /\ b = [].
Proof. apply app_eq_nil. Qed.

(** ** Texts *)
Lemma wide_silent field : wide_warning field = [] -> wide_faithful field (wide_text field).
Proof.
  intros H. pose proof (read_unicode_field field) as E.
  destruct (wide_total field) as (t & Ht & _ & _ & HI).
  rewrite E in Ht, HI. cbn [fst snd] in Ht, HI. injection Ht as <-. exact (proj1 HI H).
Qed.

Lemma page_silent cp field : field_warning cp field = [] -> page_faithful cp field (field_text cp field).
Proof.
  intros H. exists (before_nul field). split; [apply before_nul_none|]. split; [apply before_nul_cases|].
  unfold field_warning, field_text in *. destruct (before_nul field) as [|x r] eqn:E; [now left|right].
  split; [discriminate|]. unfold page_warning, page_text in *. destruct (strict (page_of cp) (x :: r)); [now left|right].
  destruct (utf8_strict (x :: r)) as [t|] eqn:EU; [now apply utf8_strict_spec|discriminate H].
Qed.

(** ** The parts of a silent report *)
Section Silent.
  Variables (b : bytes) (cp : cp_arg) (allow : bool) (l : lnk) (d : dict).
  Hypotheses (Hcp : usable cp) (HI : lnk_init (FromBytes b) cp allow = ([], Ok l)) (HG : get_json l true = ([], Ok d)).

  Lemma silent_ok : snd (lnk_init (FromBytes b) cp allow) = Ok l.
  Proof using HI. now rewrite HI. Qed.
  Lemma silent_report : snd (get_json l true) = Ok d.
  Proof using HG. now rewrite HG. Qed.

  Lemma silent_init :
    info_warning b = []
    /\ walk_warnings (dropN (string_data_end b) b) []
    /\ exists found, string_walk b string_fields (info_end b) found (string_data_end b) false
       /\ forall f, In f found -> stored_warning (bit_set 7 b) cp (snd f) = [].
  Proof using Hcp HI.
    destruct (init_constructed b cp allow l Hcp silent_ok) as [HC _].
    destruct (construct_full b cp allow Hcp HC) as (l' & found & cut & wx & HE & HW & _ & HX).
    rewrite HI in HE. injection HE as HE _. symmetry in HE.
    apply app_nil in HE as [_ HE]. apply app_nil in HE as [_ HE]. apply app_nil in HE as [H1 HE].
    apply app_nil in HE as [H2 HE]. apply app_nil in HE as [H3 ->].
    destruct cut; [discriminate H3|]. split; [assumption|]. split; [assumption|]. exists found. split; [assumption|].
    intros f Hf. destruct (stored_warning (bit_set 7 b) cp (snd f)) as [|x r] eqn:E; [reflexivity|exfalso].
    assert (In x (flat_map (entry_warning (bit_set 7 b) cp) found)).
    { apply in_flat_map. exists f. split; [assumption|]. unfold entry_warning. rewrite E. now left. }
    rewrite H2 in H. exact H.
  Qed.

  Lemma silent_whole :
    exists h rest c a w items blocks tail entries,
      wf_header h /\ b = encode_header h ++ rest
      /\ (time_read (h_ctime h) c /\ time_read (h_atime h) a /\ time_read (h_wtime h) w)
      /\ (time_said (h_ctime h) c = [] /\ time_said (h_atime h) a = [] /\ time_said (h_wtime h) w = [])
      /\ (clsid_warning h = [] /\ size_warning h = [] /\ reserved_warnings h = [])
      /\ (has_id_list b = true -> entries_listed cp (id_list b) items [] /\ reported_items d = Some (map PDict items))
      /\ block_walk (dropN (string_data_end b) b) blocks tail
      /\ blocks_read cp blocks entries []
      /\ reported_extra d = Some (collect (entries ++ behind_blocks allow tail))
      /\ dget "header" d = Some (PDict (header_report h c a w)).
  Proof using Hcp HI HG.
    pose proof (whole_reported b cp allow l d [] Hcp silent_ok HG) as HW.
    remember (@nil warning) as none eqn:HN in HW.
    destruct HW as [h rest c a w items said found e cut blocks tail entries bsaid raw network terminal sections
                       H1 H2 H3 H4 H5 H6 H7 H8 H9 H10 H11 H12 H13].
    rename HN into HS.
    apply app_nil in HS as [S1 HS]. apply app_nil in HS as [S2 HS]. apply app_nil in HS as [S3 HS].
    apply app_nil in HS as [S4 HS]. apply app_nil in HS as [S5 HS]. apply app_nil in HS as [S6 HS].
    apply app_nil in HS as [S7 HS]. apply app_nil in HS as [_ S8].
    exists h, rest, c, a, w, items, blocks, tail, entries.
    rewrite S7 in H6. rewrite S8 in H11.
    destruct silent_init as (_ & _ & found' & HW' & _).
    destruct (string_walk_det _ _ _ _ _ _ _ _ _ H9 HW') as (_ & He & _). rewrite He in H10.
    split; [assumption|]. split; [assumption|]. split; [exact (conj H3 (conj H4 H5))|]. split; [exact (conj S2 (conj S3 S4))|].
    split; [exact (conj S1 (conj S5 S6))|]. split.
    { intros Hh. rewrite Hh in H6. split; [assumption|]. rewrite Hh. reflexivity. }
    split; [assumption|]. split; [assumption|]. split.
    - destruct (has_id_list b); reflexivity.
    - destruct (has_id_list b); reflexivity.
  Qed.
End Silent.

(** ** Header *)
Lemma silent_header b cp allow l d :
  usable cp -> lnk_init (FromBytes b) cp allow = ([], Ok l) -> get_json l true = ([], Ok d) ->
  exists h rest c a w,
    wf_header h /\ b = encode_header h ++ rest
    /\ h_size h = 76 /\ h_clsid h = link_clsid /\ h_res1 h = 0 /\ h_res2 h = 0 /\ h_res3 h = 0
    /\ dget "header" d = Some (PDict (header_report h c a w))
    /\ (c = None <-> h_ctime h = 0%Z) /\ (a = None <-> h_atime h = 0%Z) /\ (w = None <-> h_wtime h = 0%Z).
Proof.
  intros Hcp HI HG.
  destruct (silent_whole b cp allow l d Hcp HI HG)
    as (h & rest & c & a & w & items & blocks & tail & entries & H1 & H2 & (T1 & T2 & T3) & (S1 & S2 & S3) & (W1 & W2 & W3) & _ & _ & _ & _ & HD).
  assert (HT : forall t x, time_read t x -> time_said t x = [] -> (x = None <-> t = 0%Z)).
  { intros t [x|] Ht Hs; cbn in Ht, Hs.
    - split; [discriminate|]. intros ->. now destruct Ht.
    - destruct (t =? 0)%Z eqn:E; [|discriminate Hs]. split; [lia|reflexivity]. }
  unfold clsid_warning, size_warning, reserved_warnings, must_be in *.
  exists h, rest, c, a, w. split; [assumption|]. split; [assumption|].
  apply app_nil in W3 as [W3 W4]. apply app_nil in W4 as [W4 W5].
  destruct (h_size h =? 76) eqn:E1; [|discriminate W2]. destruct (h_res1 h =? 0) eqn:E2; [|discriminate W3].
  destruct (h_res2 h =? 0) eqn:E3; [|discriminate W4]. destruct (h_res3 h =? 0) eqn:E4; [|discriminate W5].
  split; [lia|]. split.
  { destruct (text_eqb (guid_text (h_clsid h)) link_clsid_text) eqn:E; [|discriminate W1].
    apply text_eqb_eq in E. apply guid_text_inj; [apply H1|reflexivity|]. rewrite E. vm_compute. reflexivity. }
  split; [lia|]. split; [lia|]. split; [lia|]. split; [assumption|]. split; [now apply HT|]. split; now apply HT.
Qed.

(** ** Strings *)
Lemma silent_strings b cp allow l d :
  usable cp -> lnk_init (FromBytes b) cp allow = ([], Ok l) -> get_json l true = ([], Ok d) ->
  exists found texts,
    string_walk b string_fields (info_end b) found (string_data_end b) false
    /\ map fst found = announced_keys b
    /\ dget "data" d = Some (PDict (combine (announced_keys b) (map PStr texts)))
    /\ Forall2 (fun f t => if bit_set 7 b then wide_faithful (snd f) t else page_faithful cp (snd f) t) found texts.
Proof.
  intros Hcp HI HG.
  destruct (silent_init b cp allow l Hcp HI) as (_ & _ & found & HW & HF).
  destruct (strings_of_file b cp allow l d found _ false Hcp (silent_ok _ _ _ _ HI) (silent_report _ _ HG) HW) as [HD _].
  destruct (walk_keys _ _ _ _ _ _ HW) as (rest & HE & H1 & _).
  assert (HK : map fst found = announced_keys b).
  { unfold announced_keys. rewrite HE, H1 by reflexivity. now rewrite app_nil_r. }
  exists found, (map (fun f => stored_text (bit_set 7 b) cp (snd f)) found).
  split; [assumption|]. split; [assumption|]. split.
  - rewrite HD, <- HK, map_map. f_equal. f_equal. clear. induction found as [|f r IH]; [reflexivity|]. cbn. now rewrite IH.
  - clear - HF. induction found as [|f r IH]; constructor.
    + specialize (HF f (or_introl eq_refl)). unfold stored_warning, stored_text in *. destruct (bit_set 7 b).
      * now apply wide_silent.
      * now apply page_silent.
    + apply IH. intros g Hg. apply HF. now right.
Qed.

(** ** Items *)
Lemma sort_known n s : sort_name n = Some s -> s <> "Unknown"%string.
Proof. unfold sort_name. intros H E. subst s. destruct n as [|p]; [discriminate|]. do 8 (destruct p; try discriminate H). Qed.
Lemma category_known n s : category_name n = Some s -> s <> "Unknown"%string.
Proof. unfold category_name. intros H E. subst s. destruct n as [|p]; [discriminate|]. do 5 (destruct p; try discriminate H). Qed.
Lemma flags_known n s : flags_name n = Some s -> s <> "Unknown"%string.
Proof. unfold flags_name. generalize (n mod 8). intros m H E. subst s. destruct m as [|p]; [discriminate|]. do 4 (destruct p; try discriminate H). Qed.
Lemma ps_other s : s <> "Unknown"%string -> Some (PS s) <> Some (PS "Unknown").
Proof. intros H E. apply H, s2t_inj. unfold PS in E. now injection E. Qed.
Lemma flags_shown ty : flags_warning ty = [] -> flags_text ty <> "Unknown"%string.
Proof. unfold flags_warning, flags_text. destruct (flags_name ty) eqn:E; [|discriminate]. intros _. now apply (flags_known ty). Qed.

Ltac four H := destruct H as [<-|[<-|[<-|[<-|[]]]]].

Lemma file_entry_known cp fields : file_entry_says cp fields = [] -> known_fields (file_entry_of cp fields).
Proof.
  unfold file_entry_says, file_entry_of. cbv zeta. intros H. apply app_nil in H as [H _]. apply flags_shown in H.
  intros k Hk. four Hk.
  - change (Some (PS "File entry") <> Some (PS "Unknown")). now apply ps_other.
  - change (Some (PS (flags_text (num 1 0 fields))) <> Some (PS "Unknown")). now apply ps_other.
  - discriminate.
  - discriminate.
Qed.

Lemma other_kind {A} (x y z o : A) kind : kind <> 2 /\ kind <> 3 /\ kind <> 4 ->
  match kind with 2 => x | 3 => y | 4 => z | _ => o end = o.
Proof. intros (H2 & H3 & H4). destruct kind as [|p]; [reflexivity|]. do 3 (destruct p; try reflexivity; try contradiction). Qed.

Lemma root_known n g : unless_known (sort_name n) (WSortIndex n) = [] ->
  known_fields [("class", PS "Root Folder"); ("sort_index", PS (or_unknown (sort_name n))); ("sort_index_value", PN n);
                ("guid", PStr g)]%string.
Proof.
  unfold unless_known, or_unknown. destruct (sort_name n) as [s|] eqn:E; [|discriminate]. intros _ k Hk.
  four Hk; try discriminate.
  change (Some (PS s) <> Some (PS "Unknown")). apply ps_other. now apply (sort_known n).
Qed.

Lemma entry_known cp size fields : entry_says cp fields = [] -> known_entry (entry_of cp size fields).
Proof.
  unfold entry_says, entry_of. cbv zeta. generalize (num 1 0 fields / 16 mod 8). intros kind H.
  assert (HV : kind = 2 \/ kind = 3 \/ kind = 4 \/ kind <> 2 /\ kind <> 3 /\ kind <> 4) by lia.
  destruct HV as [-> |[-> |[-> |HV]]].
  - split.
    + intros k Hk. four Hk.
      * change (Some (PS "Volume Item") <> Some (PS "Unknown")). now apply ps_other.
      * discriminate.
      * destruct (N.testbit _ 0); discriminate.
      * destruct (N.testbit _ 0); discriminate.
    + intros e. destruct (N.testbit _ 0); discriminate.
  - split; [now apply file_entry_known|discriminate].
  - apply app_nil in H as [_ H]. apply app_nil in H as [_ H]. apply app_nil in H as [_ H]. apply flags_shown in H.
    split; [|discriminate]. intros k Hk. four Hk.
    + change (Some (PS "Network location") <> Some (PS "Unknown")). now apply ps_other.
    + change (Some (PS (flags_text (num 1 0 fields))) <> Some (PS "Unknown")). now apply ps_other.
    + discriminate.
    + discriminate.
  - rewrite other_kind in H by assumption. rewrite other_kind by assumption. clear HV kind.
    generalize dependent (num 1 0 fields). intros ty H.
    assert (HU : forall x, known_fields x -> dget "file_entry" x = None -> known_entry x).
    { intros x Hx Hn. split; [assumption|]. intros e He. congruence. }
    destruct ty as [|p]; [apply HU; [intros k Hk; four Hk; try discriminate; now apply ps_other|reflexivity]|].
    do 7 (try (destruct p as [p|p|]; try discriminate H));
      try (apply HU; [intros k Hk; four Hk; try discriminate; now apply ps_other|reflexivity]).
    + apply HU; [|reflexivity]. now apply root_known.
    + apply HU; [|reflexivity]. now apply root_known.
    + split.
      * intros k Hk. four Hk; discriminate.
      * intros e [= <-]. now apply file_entry_known.
    + apply HU; [|reflexivity]. unfold unless_known, or_unknown in *. destruct (category_name (num 4 6 fields)) eqn:E; [|discriminate H].
      intros k Hk. four Hk; try discriminate.
      change (Some (PS s) <> Some (PS "Unknown")). apply ps_other. now apply (category_known (num 4 6 fields)).
Qed.

Lemma items_known cp idl items : entries_listed cp idl items [] -> Forall known_entry items.
Proof.
  intros H. remember (@nil warning) as none eqn:HN in H. induction H as [|rest entries said HL HS fields HE HR IH]; constructor.
  - apply app_nil in HN as [HN _]. now apply entry_known.
  - apply IH. now apply app_nil in HN as [_ HN].
Qed.

Lemma silent_items b cp allow l d :
  usable cp -> lnk_init (FromBytes b) cp allow = ([], Ok l) -> get_json l true = ([], Ok d) ->
  has_id_list b = true ->
  exists items, reported_items d = Some (map PDict items) /\ Forall known_entry items.
Proof.
  intros Hcp HI HG HL.
  destruct (silent_whole b cp allow l d Hcp HI HG)
    as (h & rest & c & a & w & items & blocks & tail & entries & _ & _ & _ & _ & _ & HT & _).
  destruct (HT HL) as [HT1 HT2]. exists items. split; [assumption|]. now apply items_known in HT1.
Qed.

(** ** Blocks *)
Lemma walk_laid r blocks tail : block_walk r blocks tail -> walk_warnings r [] ->
  r = concat (map snd blocks) ++ tail /\ (tail = [] \/ 4 <= lenN tail /\ num 4 0 tail = 0).
Proof.
  induction 1 as [r HS|r blocks r' HL HZ HW IH|r blocks r' HL HZ HW IH]; intros HN.
  - split; [reflexivity|]. inversion HN as [q Hq|q Hq|q ws Hq Hz Hr|q ws Hq Hz Hr]; subst.
    + destruct Hq as [Hq|Hq]; [left; now apply lenN_0|right; assumption].
    + exfalso. lia.
  - inversion HN as [q Hq|q Hq|q ws Hq Hz Hr|q ws Hq Hz Hr]; subst; exfalso; lia.
  - inversion HN as [q Hq|q Hq|q ws Hq Hz Hr|q ws Hq Hz Hr]; subst; [exfalso; lia|].
    destruct (IH Hr) as [HE HT]. split; [|assumption]. cbn [map snd concat]. rewrite <- app_assoc, <- HE. symmetry. apply take_drop.
Qed.

Lemma blocks_all cp blocks entries : blocks_read cp blocks entries [] ->
  map fst entries = map (fun k => block_name (fst k)) blocks
  /\ Forall2 (fun k e => block_read cp (fst k) (snd k) (snd e) []) blocks entries.
Proof.
  intros H. remember (@nil warning) as none eqn:HN in H.
  induction H as [|signature raw rest d w l ws HB HR IH|signature raw rest w l ws HB HR IH].
  - split; [reflexivity|constructor].
  - apply app_nil in HN as [-> HN]. destruct (IH HN) as [H1 H2]. split; [cbn [map fst]; now rewrite H1|]. constructor; [exact HB|exact H2].
  - apply app_nil in HN as [_ HN]. discriminate HN.
Qed.

Lemma tracker_silent cp raw d : block_read cp 0xA0000003 raw d [] -> num 4 8 raw = 88 /\ num 4 12 raw = 0.
Proof.
  intros H. remember (@nil warning) as none eqn:HN in H. destruct H as [d _ _|E _|ss ds w E _ _|en w E _]; try discriminate E.
  unfold fixed_says, must_be in HN. apply app_nil in HN as [H1 HN]. apply app_nil in HN as [H2 _].
  destruct (num 4 8 raw =? 88) eqn:E1; [|discriminate H1]. destruct (num 4 12 raw =? 0) eqn:E2; [|discriminate H2]. lia.
Qed.

Lemma silent_blocks b cp allow l d :
  usable cp -> lnk_init (FromBytes b) cp allow = ([], Ok l) -> get_json l true = ([], Ok d) ->
  exists blocks entries tail,
    block_walk (dropN (string_data_end b) b) blocks tail
    /\ dropN (string_data_end b) b = concat (map snd blocks) ++ tail
    /\ (tail = [] \/ 4 <= lenN tail /\ num 4 0 tail = 0)
    /\ map fst entries = map (fun k => block_name (fst k)) blocks
    /\ Forall2 (fun k e => block_read cp (fst k) (snd k) (snd e) []) blocks entries
    /\ reported_extra d = Some (collect (entries ++ behind_blocks allow tail))
    /\ forall raw, In (0xA0000003, raw) blocks -> num 4 8 raw = 88 /\ num 4 12 raw = 0.
Proof.
  intros Hcp HI HG.
  destruct (silent_init b cp allow l Hcp HI) as (_ & HX & _).
  destruct (silent_whole b cp allow l d Hcp HI HG)
    as (h & rest & c & a & w & items & blocks & tail & entries & _ & _ & _ & _ & _ & _ & HW & HR & HD & _).
  destruct (walk_laid _ _ _ HW HX) as [H1 H2]. destruct (blocks_all _ _ _ HR) as [H3 H4].
  exists blocks, entries, tail. split; [assumption|]. split; [assumption|]. split; [assumption|]. split; [assumption|].
  split; [assumption|]. split; [assumption|]. intros raw Hin. clear - H4 Hin.
  induction H4 as [|k e ks es HB HF IH]; [destruct Hin|]. destruct Hin as [-> |Hin]; [|now apply IH].
  now apply tracker_silent in HB.
Qed.

(** ** LinkInfo *)
Lemma silent_info b cp allow l :
  usable cp -> lnk_init (FromBytes b) cp allow = ([], Ok l) ->
  bit_set 1 b = true -> bit_set 8 b = false -> id_list_end b + 12 <= lenN b.
Proof.
  intros Hcp HI H1 H8. destruct (silent_init b cp allow l Hcp HI) as (H & _). unfold info_warning in H.
  rewrite H1, H8 in H. cbn [negb andb] in H. destruct (N.ltb_spec (lenN b) (id_list_end b + 12)); [discriminate H|assumption].
Qed.

(** ** All code-page strings *)
Lemma silent_texts b cp allow l all o trace field :
  usable cp -> snd (lnk_init (FromBytes b) cp allow) = Ok l -> fst (get_json l all) = [] -> report_trace b o trace ->
  In (Reads field) trace \/ In (ReadsName field) trace -> page_faithful cp field (field_text cp field).
Proof.
  intros Hcp Hl Hs HT HR. destruct (trace_heard b cp allow l Hl all o trace Hcp HT) as [HH _]. rewrite Hs in HH.
  assert (HE : forall e, In e trace -> heard_at cp e = []).
  { intros e He. destruct (heard_at cp e) as [|x r] eqn:E; [reflexivity|exfalso].
    assert (H : In x (heard cp trace)) by (apply in_flat_map; exists e; rewrite E; split; [assumption|now left]).
    rewrite <- HH in H. exact H. }
  apply page_silent. destruct HR as [HR|HR]; apply HE in HR; cbn [heard_at] in HR; [assumption|].
  unfold name_warnings in HR. now apply app_nil in HR as [HR _].
Qed.

(** ** The filter *)
Lemma given_app stops a c :
  given stops (a ++ c)
  = match snd (given stops a) with
    | Some w => (fst (given stops a), Some w)
    | None => (fst (given stops a) ++ fst (given stops c), snd (given stops c))
    end.
Proof.
  induction a as [|x r IH]; cbn [given app fst snd]; [now destruct (given stops c)|].
  destruct (stops x); [reflexivity|]. cbn [fst snd]. rewrite IH. destruct (snd (given stops r)); reflexivity.
Qed.

Lemma filtered_bind {A B} stops (m : M A) (f : A -> M B) :
  filtered stops (bind m f) = and_then (filtered stops m) (fun a => filtered stops (f a)).
Proof.
  destruct m as [ws [a|e]]; unfold filtered, and_then; cbn [fst snd].
  - cbn [bind]. destruct (snd (given stops ws)) eqn:E; destruct (f a) as [wf rf]; cbn [fst snd]; rewrite given_app, E; reflexivity.
  - cbn [bind fst snd]. destruct (snd (given stops ws)); reflexivity.
Qed.
Lemma filtered_try {A} stops (m : M A) handled h :
  filtered stops (try_except m handled h) = or_else (filtered stops m) handled (filtered stops h).
Proof.
  destruct m as [ws [a|e]]; unfold filtered, or_else, try_except; cbn [fst snd].
  - destruct (snd (given stops ws)); reflexivity.
  - destruct (handled e) eqn:E.
    + destruct h as [wh rh]. cbn [fst snd]. rewrite given_app. destruct (snd (given stops ws)); cbn [fst snd]; rewrite ?E; reflexivity.
    + cbn [fst snd]. destruct (snd (given stops ws)); cbn [fst snd]; rewrite ?E; reflexivity.
Qed.
Lemma filtered_silent {A} (m : M A) a : filtered (fun _ => true) m = ([], Gives a) <-> m = ([], Ok a).
Proof.
  destruct m as [[|w ws] [x|e]]; unfold filtered; cbn; split; intros H; try discriminate H.
  - now injection H as ->.
  - now injection H as ->.
Qed.
Lemma filtered_parse b cp allow all d :
  filtered (fun _ => true) (l <- lnk_init (FromBytes b) cp allow ;; get_json l all) = ([], Gives d)
  <-> exists l, lnk_init (FromBytes b) cp allow = ([], Ok l) /\ get_json l all = ([], Ok d).
Proof.
  rewrite filtered_silent. destruct (lnk_init (FromBytes b) cp allow) as [ws [l|e]].
  - cbn [bind]. destruct (get_json l all) as [wr r] eqn:E. split.
    + intros H. injection H as H ->. apply app_nil in H as [-> ->]. exists l. now split.
    + intros (l' & H1 & H2). injection H1 as -> ->. rewrite E in H2. injection H2 as -> ->. reflexivity.
  - cbn [bind]. split; [discriminate|]. intros (l & H & _). discriminate H.
Qed.
