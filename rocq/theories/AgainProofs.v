(** * Calling process again: what becomes of the link (C75) *)
From Verif Require Import ApiProofs ShapeProofs ReportProofs CommandProofs.
From Verif Require Import Lemmas PyTime Codec Utils Sha256 Header StringData Targets Info Extra LnkFile Json Report.
From Verif Require Import Spec SpecText SpecHeader SpecTime SpecDouble SpecItems SpecInfo SpecExtra SpecOutcome SpecEntries SpecBlocks.
From Verif Require Import SpecWhole SpecFailure SpecUnknown SpecReport SpecReadable SpecJsonText.
From Verif Require Import LayoutProofs ConstructProofs UnknownProofs.
From Verif Require Import SpecRun Fields SpecFields Again SpecAgain.

(** ** The rules of the monad *)
Definition padd {A} (w : list warning) (r : M A * object) : M A * object := ((w ++ fst (fst r), snd (fst r)), snd r).
Lemma padd_nil {A} (r : M A * object) : padd [] r = r.
Proof. now destruct r as [[w x] o]. Qed.
Lemma padd_padd {A} w1 w2 (r : M A * object) : padd w1 (padd w2 r) = padd (w1 ++ w2) r.
Proof. unfold padd. cbn [fst snd]. now rewrite app_assoc. Qed.
Lemma pbind_Ok {A B} (m : P A) (k : A -> P B) o w x o1 : m o = ((w, Ok x), o1) -> pbind m k o = padd w (k x o1).
Proof. unfold pbind, padd. intros ->. destruct (k x o1) as [[w2 r2] o2]. reflexivity. Qed.
Lemma pbind_Err {A B} (m : P A) (k : A -> P B) o w e o1 : m o = ((w, Err e), o1) -> pbind m k o = ((w, Err e), o1).
Proof. unfold pbind. now intros ->. Qed.
Lemma pcall_Ok {A B} (m : M A) (k : A -> P B) o w x : m = (w, Ok x) -> pbind (pcall m) k o = padd w (k x o).
Proof. intros ->. now apply pbind_Ok. Qed.
Lemma pcall_ret {A B} (m : M A) (k : A -> P B) o x : m = ret x -> pbind (pcall m) k o = k x o.
Proof. intros E. rewrite (pcall_Ok _ _ _ [] x E). apply padd_nil. Qed.
Lemma pcall_Err {A B} (m : M A) (k : A -> P B) o w e : m = (w, Err e) -> pbind (pcall m) k o = ((w, Err e), o).
Proof. intros ->. now apply pbind_Err. Qed.
Lemma pset_step {B} f (k : Datatypes.unit -> P B) o : pbind (pset f) k o = k tt (f o).
Proof. rewrite (pbind_Ok _ _ _ [] tt (f o)) by reflexivity. apply padd_nil. Qed.
Lemma pget_step {B} (k : object -> P B) o : pbind pget k o = k o o.
Proof. rewrite (pbind_Ok _ _ _ [] o o) by reflexivity. apply padd_nil. Qed.

(** ** Steps *)
Definition after_header (b : bytes) (o : object) : object := set_header (takeN (header_len b) b) o.
Definition after_index (b : bytes) (o : object) : object := set_targets None (set_index (header_len b + 2) (after_header b o)).
Definition list_part (b : bytes) (cp : cp_arg) : option (targets * cp_arg) :=
  if has_id_list b
  then Some (Targets (dropN (header_len b) b) (slice 2 (num 2 (header_len b) b + 2) (dropN (header_len b) b)), cp)
  else None.
Definition info_part (b : bytes) (cp : cp_arg) : option (info_kind * bytes * cp_arg) :=
  if info_processed b
  then Some (if N.testbit (num 4 (id_list_end b + 8) b) 0 then Local else Network, dropN (id_list_end b) b, cp)
  else None.
Definition after_info (b : bytes) (cp : cp_arg) (o : object) : object :=
  set_info (info_part b cp) (set_targets (list_part b cp) (after_index b o)).

Lemma again_empty o : o_indata o = [] -> process_again o = (raise LnkParserError, o).
Proof. intros E. unfold process_again. rewrite pget_step, E. reflexivity. Qed.
Lemma again_short o : o_indata o <> [] -> lenN (o_indata o) < 4 -> process_again o = (raise StructError, o).
Proof.
  intros E L. unfold process_again. rewrite pget_step. destruct (o_indata o) as [|x b]; [congruence|].
  cbn [header_init]. rewrite header_size_cut by exact L. reflexivity.
Qed.
Lemma header_here b : 4 <= lenN b -> header_init b = (size_warning_of b, Ok (takeN (header_len b) b)).
Proof.
  intros L. destruct b as [|x b]; [cbn in L; lia|]. cbn [header_init]. rewrite header_size_full by exact L.
  unfold bind, ret. now rewrite app_nil_r.
Qed.
Lemma header_size_here b : 4 <= lenN b -> 4 <= header_len b ->
  header_size (takeN (header_len b) b) = (size_warning_of b, Ok (header_len b)).
Proof.
  intros L H. rewrite header_size_full by (rewrite lenN_takeN; unfold bytes in *; lia). now rewrite num_takeN by lia.
Qed.
Lemma again_tiny o b : o_indata o = b -> 4 <= lenN b -> header_len b < 4 ->
  process_again o = ((size_warning_of b, Err StructError), after_header b o).
Proof.
  intros Eb L H. unfold process_again. rewrite pget_step, Eb. cbv zeta. rewrite (pcall_Ok _ _ _ _ _ (header_here b L)).
  rewrite pset_step. rewrite header_size_cut by (rewrite lenN_takeN; lia). rewrite (pcall_Err _ _ _ [] StructError) by reflexivity.
  unfold padd. cbn [fst snd]. now rewrite app_nil_r.
Qed.
Lemma flag_here b name i : In (name, i) used_flags -> 24 <= header_len b -> 24 <= lenN b ->
  has_flag name (takeN (header_len b) b) = ret (bit_set i b).
Proof. apply has_flag_bit. Qed.
Lemma again_cut o b : o_indata o = b -> 4 <= lenN b -> 4 <= header_len b -> ~ room b ->
  process_again o = ((size_warning_of b ++ size_warning_of b, Err StructError), after_index b o).
Proof.
  intros Eb L H HR. unfold process_again. rewrite pget_step, Eb. cbv zeta. rewrite (pcall_Ok _ _ _ _ _ (header_here b L)).
  rewrite pset_step, (pcall_Ok _ _ _ _ _ (header_size_here b L H)), padd_padd, !pset_step.
  change (set_targets None (set_index (header_len b + 2) (set_header (takeN (header_len b) b) o))) with (after_index b o).
  assert (E : forall A (r : M A * object), r = (raise StructError, after_index b o) ->
    padd (size_warning_of b ++ size_warning_of b) r = ((size_warning_of b ++ size_warning_of b, Err StructError), after_index b o)).
  { intros A r ->. unfold padd. cbn [fst snd raise]. now rewrite app_nil_r. }
  apply E. destruct (N.lt_ge_cases (N.min (header_len b) (lenN b)) 24) as [L24|L24].
  { rewrite has_flag_short by (rewrite lenN_takeN; lia). now apply pcall_Err. }
  rewrite (pcall_ret _ _ _ _ (flag_here b "HasTargetIDList" 0 ltac:(cbn; auto 12) ltac:(lia) ltac:(lia))). fold (has_id_list b).
  unfold room in HR. destruct (has_id_list b) eqn:EI; [|exfalso; apply HR; repeat split; [lia|lia|discriminate]].
  assert (LI : lenN b < header_len b + 2).
  { apply N.nle_gt. intros HH. apply HR. repeat split; [lia|lia|auto]. }
  apply pbind_Err. apply pcall_Err. unfold targets_init, targets_size, id_list_size. rewrite unpack_u16_0, lenN_dropN.
  now replace (2 <=? lenN b - header_len b) with false by lia.
Qed.

(** Behind the link info. *)
Definition again_rest (b : bytes) (cp : cp_arg) (allow : bool) : P Datatypes.unit :=
  sd <<- pcall (string_data_init (takeN (header_len b) b) cp (dropN (info_end b) b)) ;;
  pset (set_strings sd) ;;;;
  extras <<- pcall (extra_init allow (dropN (info_end b + sd_size sd) b)) ;;
  pset (set_extras (extras, cp)) ;;;;
  extras_sz <<- pcall (extras_size extras) ;;
  pset (set_size (info_end b + sd_size sd + extras_sz
                  + N.min (lenN (dropN (info_end b + sd_size sd + extras_sz) b)) 4)).
Lemma again_room o b cp allow : (o_indata o, o_cp o, o_allow o) = (b, cp, allow) -> room b ->
  process_again o = padd (size_warning_of b ++ size_warning_of b ++ info_warning b) (again_rest b cp allow (after_info b cp o)).
Proof.
  intros E HR. injection E as Eb Ec Ea. destruct HR as (H24 & L24 & HI).
  unfold process_again. rewrite pget_step, Eb, Ec, Ea. cbv zeta. rewrite (pcall_Ok _ _ _ _ _ (header_here b ltac:(lia))).
  rewrite pset_step, (pcall_Ok _ _ _ _ _ (header_size_here b ltac:(lia) ltac:(lia))), padd_padd, !pset_step.
  change (set_targets None (set_index (header_len b + 2) (set_header (takeN (header_len b) b) o))) with (after_index b o).
  rewrite (pcall_ret _ _ _ _ (flag_here b "HasTargetIDList" 0 ltac:(cbn; auto 12) H24 L24)). fold (has_id_list b).
  match goal with |- padd _ (pbind ?m ?k _) = _ =>
    rewrite (pbind_Ok m k (after_index b o) [] (id_list_end b) (set_targets (list_part b cp) (after_index b o))) end.
  2:{ unfold id_list_end, list_part. destruct (has_id_list b); [|reflexivity]. specialize (HI eq_refl).
      unfold targets_init, targets_size, id_list_size. rewrite unpack_u16_0, lenN_dropN, num_dropN, N.add_0_r.
      replace (2 <=? lenN b - header_len b) with true by (unfold bytes in *; lia).
      rewrite !bind_ret_l. rewrite (pcall_ret _ _ _ _ eq_refl), pset_step. cbn [tg_raw].
      rewrite unpack_u16_0, lenN_dropN, num_dropN, N.add_0_r. replace (2 <=? lenN b - header_len b) with true by (unfold bytes in *; lia).
      rewrite bind_ret_l. rewrite (pcall_ret _ _ _ _ eq_refl). unfold pret, ret. do 3 f_equal. lia. }
  rewrite padd_nil, pset_step.
  assert (EF : (b0 <- has_flag "HasLinkInfo" (takeN (header_len b) b);;
                (if b0 : bool then f <- has_flag "ForceNoLinkInfo" (takeN (header_len b) b);; ret (negb f) else ret false))
               = ret (bit_set 1 b && negb (bit_set 8 b))).
  { rewrite (flag_here b _ 1) by (lia || (cbn; auto 12)). rewrite bind_ret_l. destruct (bit_set 1 b); [|reflexivity].
    rewrite (flag_here b _ 8) by (lia || (cbn; auto 12)). reflexivity. }
  rewrite (pcall_ret _ _ _ _ EF). clear EF.
  match goal with |- padd _ (pbind ?m ?k ?s) = _ =>
    rewrite (pbind_Ok m k s (info_warning b) (info_end b) (after_info b cp o)) end.
  2:{ unfold after_info. set (t := set_targets (list_part b cp) (after_index b o)).
      unfold info_end, info_part, info_processed, info_warning. destruct (bit_set 1 b && negb (bit_set 8 b)); cbn [andb]; [|reflexivity].
      pose proof (info_class_spec (dropN (id_list_end b) b)) as HS. pose proof (info_class_fst (dropN (id_list_end b) b)) as HF.
      destruct (info_class _) as [w r]. cbn [fst snd] in HS, HF. subst w r. rewrite lenN_dropN, !num_dropN.
      destruct (id_list_end b + 12 <=? lenN b) eqn:E12; cbn [andb].
      - replace (12 <=? lenN b - id_list_end b) with true by (unfold bytes in *; lia).
        replace (lenN b <? id_list_end b + 12) with false by (unfold bytes in *; lia).
        assert (EZ : info_size (dropN (id_list_end b) b) = ret (num 4 (id_list_end b) b)).
        { unfold info_size, u32_at. rewrite unpack_u32_at, lenN_dropN, num_dropN, N.add_0_r.
          now replace (0 + 4 <=? lenN b - id_list_end b) with true by (unfold bytes in *; lia). }
        destruct (N.testbit (num 4 (id_list_end b + 8) b) 0); cbn [orb].
        + rewrite (pcall_Ok _ _ _ _ _ eq_refl), padd_nil, pset_step, (pcall_ret _ _ _ _ EZ). reflexivity.
        + destruct (N.testbit (num 4 (id_list_end b + 8) b) 1); rewrite (pcall_Ok _ _ _ _ _ eq_refl), padd_nil; [|reflexivity].
          rewrite pset_step, (pcall_ret _ _ _ _ EZ). reflexivity.
      - replace (12 <=? lenN b - id_list_end b) with false by (unfold bytes in *; lia).
        replace (lenN b <? id_list_end b + 12) with true by (unfold bytes in *; lia). reflexivity. }
  rewrite padd_padd, <- app_assoc. reflexivity.
Qed.

(** ** Of what a link is made *)
Definition strings_made (from : bytes * cp_arg) (sd : string_data) : Prop :=
  exists found cut, string_walk (fst from) string_fields (info_end (fst from)) found (string_data_end (fst from)) cut
    /\ sd_data sd = map (entry (bit_set 7 (fst from)) (snd from)) found.
Definition extras_made (from : bytes * cp_arg * bool) (es : list extra * cp_arg) : Prop :=
  exists found cut blocks r, string_walk (fst (fst from)) string_fields (info_end (fst (fst from))) found (string_data_end (fst (fst from))) cut
    /\ block_walk (dropN (string_data_end (fst (fst from))) (fst (fst from))) blocks r
    /\ es = (map mk_block blocks ++ tail_blocks (snd from) r, snd (fst from)).
Definition list_made (from : option (bytes * cp_arg)) (index : N) (t : option (targets * cp_arg)) : Prop :=
  match from with
  | None => t = None
  | Some (b, cp) => (has_id_list b = true -> header_len b + 2 <= lenN b) /\ index = header_len b + 2 /\ t = list_part b cp
  end.
Record made (o : object) (g : origin) : Prop := Made {
  m_given : given g = (o_indata o, o_cp o, o_allow o);
  m_header : 4 <= lenN (header_from g) /\ o_header o = takeN (header_len (header_from g)) (header_from g);
  m_list : list_made (list_from g) (o_index o) (o_targets o);
  m_info : o_info o = info_part (fst (info_from g)) (snd (info_from g));
  m_strings : strings_made (strings_from g) (o_strings o);
  m_extras : extras_made (extras_from g) (o_extras o);
  m_size : size_section (fst (size_from g)) (snd (size_from g)) (o_size o) }.

Lemma reaches_det b cp s1 s2 : reaches b cp s1 -> reaches b cp s2 -> s1 = s2.
Proof.
  intros H1 H2; inversion H1; subst; inversion H2; subst; try reflexivity;
    try (exfalso; unfold room in *; intuition lia); try (exfalso; tauto).
  all: exfalso; match goal with HA : string_walk _ _ _ ?f1 ?p1 ?c1, HB : string_walk _ _ _ ?f2 ?p2 ?c2 |- _ =>
         destruct (string_walk_det _ _ _ _ _ _ _ _ _ HA HB) as (-> & -> & ->) end; try tauto.
  all: match goal with HA : block_walk _ _ _, HB : block_walk _ _ _ |- _ => destruct (block_walk_det _ _ _ _ _ HA HB) as [<- <-] end; tauto.
Qed.

Lemma room_dec b : room b \/ ~ room b.
Proof.
  unfold room. destruct (N.lt_ge_cases (header_len b) 24); [right; intros (? & ? & _); lia|].
  destruct (N.lt_ge_cases (lenN b) 24); [right; intros (? & ? & _); lia|].
  destruct (has_id_list b); [|left; repeat split; [assumption|assumption|discriminate]].
  destruct (N.lt_ge_cases (lenN b) (header_len b + 2)); [right; intros (_ & _ & HH); specialize (HH eq_refl); lia|].
  left. auto.
Qed.

(** The outcome is the constructor's, but for empty data. *)
Definition process_reply (b : bytes) (cp : cp_arg) (said : list warning) (e : option exn) : Prop :=
  b = [] /\ said = [] /\ e = Some LnkParserError \/ b <> [] /\ construction b cp said e.

Ltac parts := cbn [given header_from list_from info_from strings_from extras_from size_from all_from o_indata o_cp o_allow o_header o_index o_targets o_info o_strings o_extras o_size set_header set_index set_targets set_info set_strings set_extras set_size after_header after_index after_info fst snd].
Lemma processed_to o g : made o g ->
  exists s said e, reaches (o_indata o) (o_cp o) s
    /\ process_reply (o_indata o) (o_cp o) said e
    /\ fst (process_again o) = (said, match e with None => Ok tt | Some e => Err e end)
    /\ made (snd (process_again o)) (made_anew g s)
    /\ (e = None <-> s = ToTheEnd).
Proof.
  intros [G [LH H] T I S X Z]. unfold made_anew. rewrite G. set (b := o_indata o) in *. set (cp := o_cp o) in *. set (allow := o_allow o) in *.
  destruct (N.lt_ge_cases (lenN b) 4) as [L4|L4].
  { exists Nowhere. destruct (list_eq_dec Byte.byte_eq_dec b []) as [E|E].
    - exists [], (Some LnkParserError). split; [now apply reaches_nothing|]. split; [left; auto|].
      rewrite (again_empty o E). cbn [fst snd]. split; [reflexivity|]. split; [now constructor|split; discriminate].
    - exists [], (Some StructError). split; [now apply reaches_nothing|]. split.
      { right. split; [exact E|]. apply no_size. destruct b; [congruence|]. rewrite lenN_cons in *. lia. }
      rewrite (again_short o E L4). cbn [fst snd]. split; [reflexivity|]. split; [now constructor|split; discriminate]. }
  assert (Hb : b <> []) by (intros E; rewrite E in L4; cbn in L4; lia).
  destruct (N.lt_ge_cases (header_len b) 4) as [H4|H4].
  { exists ToHeader, (size_warning_of b), (Some StructError). split; [now apply reaches_header|].
    split; [right; split; [exact Hb|now apply tiny_header]|].
    rewrite (again_tiny o b eq_refl L4 H4). cbn [fst snd]. split; [reflexivity|]. split; [|split; discriminate].
    constructor; try assumption; parts; try assumption; [reflexivity|now split]. }
  destruct (room_dec b) as [HR|HR].
  2:{ exists ToList, (size_warning_of b ++ size_warning_of b), (Some StructError). split; [now apply reaches_list|].
      split; [right; split; [exact Hb|now apply no_room]|].
      rewrite (again_cut o b eq_refl L4 H4 HR). cbn [fst snd]. split; [reflexivity|]. split; [|split; discriminate].
      constructor; try assumption; parts; try assumption; [reflexivity|now split|reflexivity]. }
  rewrite (again_room o b cp allow eq_refl HR). unfold again_rest.
  assert (HR' := HR). destruct HR' as (H24 & L24 & HL).
  destruct (strings_any b cp H24 L24) as (found & cut & HW & HS).
  pose proof (page_reflect b found) as HP.
  destruct (stopped cp b found) eqn:ES.
  { exists ToStrings, (size_warning_of b ++ size_warning_of b ++ info_warning b), (Some LookupError).
    assert (EC : cp = CpUnknown /\ page_needed b found).
    { clear - ES HP. unfold stopped in ES. destruct cp; try discriminate. rewrite ES in HP. now split. }
    destruct EC as [EC HN].
    split; [exact (reaches_strings _ _ _ _ _ HR EC HW HN)|].
    split; [right; split; [exact Hb|exact (no_page _ _ _ _ _ HR EC HW HN)]|].
    rewrite (pcall_Err _ _ _ [] LookupError) by exact HS. unfold padd. cbn [fst snd]. rewrite app_nil_r.
    split; [reflexivity|]. split; [|split; discriminate].
    constructor; try assumption; parts; try assumption; [reflexivity|now split| |reflexivity]. split; [exact HL|]. now split. }
  destruct HS as (sd & HS & HD & HE).
  assert (HP' : cp = CpUnknown -> ~ page_needed b found).
  { intros EC. clear - ES HP EC. unfold stopped in ES. rewrite EC in ES. now rewrite ES in HP. }
  destruct (extra_init_spec allow (dropN (string_data_end b) b)) as (blocks & r & HB & HX).
  pose proof (extra_init_fst allow (dropN (string_data_end b) b)) as HXF.
  rewrite (pcall_Ok _ _ _ _ _ HS), padd_padd, pset_step, HE.
  set (wx := fst (extra_init allow (dropN (string_data_end b) b))) in *.
  assert (EX : extra_init allow (dropN (string_data_end b) b) = (wx, Ok (map mk_block blocks ++ tail_blocks allow r))).
  { rewrite <- HX. apply surjective_pairing. }
  rewrite (pcall_Ok _ _ _ _ _ EX), padd_padd, pset_step.
  pose proof (readable_reflect blocks) as HRR. pose proof (extras_size_fst (map mk_block blocks ++ tail_blocks allow r)) as HZF.
  set (said := size_warning_of b ++ size_warning_of b ++ info_warning b
       ++ flat_map (fun f => stored_warning (bit_set 7 b) cp (snd f)) found ++ (if cut then [WStringData] else []) ++ wx).
  assert (Esaid : ((size_warning_of b ++ size_warning_of b ++ info_warning b)
     ++ flat_map (entry_warning (bit_set 7 b) cp) found ++ (if cut then [WStringData] else [])) ++ wx = said).
  { unfold said. rewrite <- !app_assoc. reflexivity. }
  rewrite Esaid. clear Esaid.
  assert (MS : strings_made (b, cp) sd) by (exists found, cut; now split).
  assert (MX : extras_made (b, cp, allow) (map mk_block blocks ++ tail_blocks allow r, cp)) by (exists found, cut, blocks, r; now repeat split).
  assert (ML : list_made (Some (b, cp)) (header_len b + 2) (list_part b cp)) by (split; [exact HL|now split]).
  destruct (forallb (fun blk : N * bytes => 4 <=? lenN (snd blk)) blocks) eqn:EB.
  - exists ToTheEnd, said, None. split; [exact (reaches_the_end _ _ _ _ _ _ _ HR HW HP' HB HRR)|].
    split; [right; split; [exact Hb|]; refine (walked _ _ _ _ _ _ _ _ _ HR HW HP' HXF HB _); left; now split|].
    assert (EZ : extras_size (map mk_block blocks ++ tail_blocks allow r) = ret (sumN (map declared blocks) + tail_size allow r)).
    { rewrite (surjective_pairing (extras_size _)), HZF. unfold ret. f_equal.
      apply extras_size_app; [|apply extras_size_tail]. etransitivity; [apply extras_size_blocks|]. unfold bytes in *. now rewrite EB. }
    rewrite (pcall_ret _ _ _ _ EZ). unfold padd, pset. cbn [fst snd ret]. rewrite app_nil_r.
    split; [reflexivity|]. split; [|split; reflexivity].
    constructor; parts; try assumption; [reflexivity|now split|reflexivity|].
    rewrite lenN_dropN, (N.min_comm _ 4).
    exact (size_there b allow _ _ _ _ _ _ HW HB eq_refl).
  - exists ToSize, said, (Some StructError). split; [exact (reaches_size _ _ _ _ _ _ _ HR HW HP' HB HRR)|].
    split; [right; split; [exact Hb|]; refine (walked _ _ _ _ _ _ _ _ _ HR HW HP' HXF HB _); right; now split|].
    assert (EZ : extras_size (map mk_block blocks ++ tail_blocks allow r) = ([], Err StructError)).
    { rewrite (surjective_pairing (extras_size _)), HZF. f_equal. apply extras_size_app_err.
      etransitivity; [apply extras_size_blocks|]. unfold bytes in *. now rewrite EB. }
    rewrite (pcall_Err _ _ _ _ _ EZ). unfold padd. cbn [fst snd]. rewrite app_nil_r.
    split; [reflexivity|]. split; [|split; discriminate].
    constructor; parts; try assumption; [reflexivity|now split|reflexivity].
Qed.
