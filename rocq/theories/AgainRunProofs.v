(** * Links that are processed again: every history (C75) *)
From Verif Require Import ApiProofs ShapeProofs ReportProofs CommandProofs.
From Verif Require Import Lemmas PyTime Codec Utils Sha256 Header StringData Targets Info Extra LnkFile Json Report.
From Verif Require Import Spec SpecText SpecHeader SpecTime SpecDouble SpecItems SpecInfo SpecExtra SpecOutcome SpecEntries SpecBlocks.
From Verif Require Import SpecWhole SpecFailure SpecUnknown SpecReport SpecReadable SpecJsonText.
From Verif Require Import LayoutProofs ConstructProofs UnknownProofs.
From Verif Require Import SpecRun Fields SpecFields Again SpecAgain AgainProofs AgainReportProofs.

(** ** A successful process leaves what the constructor makes *)
Lemma constructed_room b cp allow l : snd (lnk_init (FromBytes b) cp allow) = Ok l -> room b /\ b <> [].
Proof.
  intros H. assert (HC : construction b cp (fst (lnk_init (FromBytes b) cp allow)) None).
  { apply (construction_iff b cp allow). split; [reflexivity|]. unfold failure. now rewrite H. }
  inversion HC; subst. split; [assumption|]. intros ->. unfold lnk_init in H. discriminate.
Qed.
Lemma again_new o b cp allow l : (o_indata o, o_cp o, o_allow o) = (b, cp, allow) ->
  snd (lnk_init (FromBytes b) cp allow) = Ok l ->
  process_again o = ((fst (lnk_init (FromBytes b) cp allow), Ok tt), object_of b allow l).
Proof.
  intros E H. destruct (constructed_room _ _ _ _ H) as [HR Hb].
  assert (EI : lnk_init (FromBytes b) cp allow = process b cp allow) by (destruct b; [congruence|reflexivity]).
  rewrite EI in *. rewrite (again_room _ _ _ _ E HR). rewrite (process_room _ _ allow HR) in *. unfold again_rest.
  destruct (string_data_init (takeN (header_len b) b) cp (dropN (info_end b) b)) as [w1 [sd|e1]] eqn:E1.
  2:{ cbn [bind snd] in H. discriminate. }
  rewrite (pcall_Ok _ _ _ _ _ eq_refl), pset_step.
  destruct (extra_init allow (dropN (info_end b + sd_size sd) b)) as [w2 [xs|e2]] eqn:E2; cbn [bind snd] in H.
  2:{ rewrite E2 in H. discriminate. }
  rewrite (pcall_Ok _ _ _ _ _ eq_refl), pset_step.
  destruct (extras_size xs) as [w3 [z|e3]] eqn:E3; rewrite E2 in *; cbn [bind snd] in *; rewrite E3 in *; [|discriminate].
  rewrite (pcall_Ok _ _ _ _ _ eq_refl). cbn [bind ret snd] in H. injection H as <-.
  injection E as Ea Ec Eal. unfold padd, pset, ret. cbn [fst snd bind]. rewrite E2. cbn [bind]. rewrite E3. cbn [fst snd bind]. rewrite !app_nil_r. f_equal.
  destruct o as [i c a h ix t n s x z0]. cbn [o_indata o_cp o_allow] in *. subst i c a.
  etransitivity; [|unfold object_of; cbn [l_cp l_header l_target_index l_targets l_info l_string_data l_extras l_size]; reflexivity].
  change (after_info b cp (Object b cp allow h ix t n s x z0))
    with (Object b cp allow (takeN (header_len b) b) (header_len b + 2) (list_part b cp) (info_part b cp) s x z0).
  unfold set_strings. parts. unfold set_extras. parts. unfold set_size. parts. unfold list_part, info_part.
  destruct (has_id_list b), (info_processed b); reflexivity.
Qed.

Lemma fresh b cp allow l : snd (lnk_init (FromBytes b) cp allow) = Ok l -> made (object_of b allow l) (all_from b cp allow).
Proof.
  intros H. destruct (constructed_room _ _ _ _ H) as [HR Hb].
  assert (EI : lnk_init (FromBytes b) cp allow = process b cp allow) by (destruct b; [congruence|reflexivity]).
  rewrite EI, (process_room _ _ allow HR) in H. destruct HR as (H24 & L24 & HL).
  destruct (strings_any b cp H24 L24) as (found & cut & HW & HS).
  destruct (stopped cp b found) eqn:ES; [rewrite HS in H; discriminate|]. destruct HS as (sd & HS & HD & HE). rewrite HS in H. cbn [bind snd] in H.
  rewrite HE in H. destruct (extra_init_spec allow (dropN (string_data_end b) b)) as (blocks & r & HB & HX).
  destruct (extra_init allow (dropN (string_data_end b) b)) as [wx rx]. cbn [snd] in HX. subst rx. cbn [bind snd] in H.
  destruct (forallb (fun blk : N * bytes => 4 <=? lenN (snd blk)) blocks) eqn:EB.
  2:{ assert (EZ : snd (extras_size (map mk_block blocks ++ tail_blocks allow r)) = Err StructError).
      { apply extras_size_app_err. etransitivity; [apply extras_size_blocks|]. unfold bytes in *. now rewrite EB. }
      destruct (extras_size _) as [wz rz]. cbn [snd] in EZ. subst rz. discriminate. }
  assert (EZ : snd (extras_size (map mk_block blocks ++ tail_blocks allow r)) = Ok (sumN (map declared blocks) + tail_size allow r)).
  { apply extras_size_app; [|apply extras_size_tail]. etransitivity; [apply extras_size_blocks|]. unfold bytes in *. now rewrite EB. }
  destruct (extras_size _) as [wz rz]. cbn [snd] in EZ. subst rz. cbn [bind ret snd] in H. injection H as <-.
  unfold object_of. cbn [l_cp l_header l_target_index l_targets l_info l_string_data l_extras l_size].
  constructor; parts.
  - reflexivity.
  - split; [lia|reflexivity].
  - split; [exact HL|]. split; [reflexivity|]. unfold list_part. now destruct (has_id_list b).
  - unfold info_part. now destruct (info_processed b).
  - exists found, cut. now split.
  - exists found, cut, blocks, r. now repeat split.
  - rewrite lenN_dropN, (N.min_comm _ 4). exact (size_there b allow _ _ _ _ _ _ HW HB eq_refl).
Qed.

(** ** Histories *)
Definition step_to (g : origin) (a : act) (g' : origin) : Prop := comes_to g [a] g'.
Lemma do_act_made o g a g' : made o g -> comes_to g [a] g' -> made (snd (do_act o a)) g'.
Proof.
  intros HM HC. pose proof (m_given _ _ HM) as G.
  inversion HC as [|b cp allow b' acts g0 g0' EG HC'|b cp allow cp' acts g0 g0' EG HC'|b cp allow al' acts g0 g0' EG HC'
                   |b cp allow s acts g0 g0' EG HR HC'|a0 acts g0 g0' HA HC']; subst; inversion HC'; subst; rewrite ?EG in *.
  1-3: injection G as -> -> ->; destruct HM as [G' [LH H] T I S X Z]; constructor; cbn [do_act snd]; parts; try assumption; try reflexivity; now split.
  - injection G as -> -> ->. destruct (processed_to o g HM) as (s' & said & e & HR' & _ & _ & HM' & _).
    rewrite (reaches_det _ _ _ _ HR HR'). cbn [do_act]. destruct (process_again o). exact HM'.
  - destruct a; try contradiction; exact HM.
Qed.
Lemma comes_cons g a acts g2 : comes_to g (a :: acts) g2 <-> exists g1, comes_to g [a] g1 /\ comes_to g1 acts g2.
Proof.
  split.
  - intros HC. inversion HC as [|b cp allow b' acts0 g0 g0' EG HC'|b cp allow cp' acts0 g0 g0' EG HC'|b cp allow al' acts0 g0 g0' EG HC'
                   |b cp allow s acts0 g0 g0' EG HR HC'|a0 acts0 g0 g0' HA HC']; subst; eexists; (split; [|exact HC']).
    + exact (assigned _ _ _ _ _ _ _ EG (no_act _)).
    + exact (page_assigned _ _ _ _ _ _ _ EG (no_act _)).
    + exact (allow_assigned _ _ _ _ _ _ _ EG (no_act _)).
    + exact (processed _ _ _ _ _ _ _ EG HR (no_act _)).
    + exact (only_read _ _ _ _ HA (no_act _)).
  - intros (g1 & HC & HC2). inversion HC as [|b cp allow b' acts0 g0 g0' EG HC'|b cp allow cp' acts0 g0 g0' EG HC'|b cp allow al' acts0 g0 g0' EG HC'
                   |b cp allow s acts0 g0 g0' EG HR HC'|a0 acts0 g0 g0' HA HC']; subst; inversion HC'; subst.
    + exact (assigned _ _ _ _ _ _ _ EG HC2).
    + exact (page_assigned _ _ _ _ _ _ _ EG HC2).
    + exact (allow_assigned _ _ _ _ _ _ _ EG HC2).
    + exact (processed _ _ _ _ _ _ _ EG HR HC2).
    + exact (only_read _ _ _ _ HA HC2).
Qed.
Lemma comes_one_det g a g1 g2 : comes_to g [a] g1 -> comes_to g [a] g2 -> g1 = g2.
Proof.
  intros H1 H2. inversion H1 as [|b cp allow b' acts g0 g0' EG HC'|b cp allow cp' acts g0 g0' EG HC'|b cp allow al' acts g0 g0' EG HC'
                   |b cp allow s acts g0 g0' EG HR HC'|a0 acts g0 g0' HA HC']; subst; inversion HC'; subst;
  inversion H2 as [|? ? ? ? ? ? ? EG2 HC2|? ? ? ? ? ? ? EG2 HC2|? ? ? ? ? ? ? EG2 HC2
                   |? ? ? s2 ? ? ? EG2 HR2 HC2|? ? ? ? HA2 HC2]; subst; inversion HC2; subst; try contradiction; rewrite ?EG in *;
   try (injection EG2 as <- <- <-); try reflexivity.
  now rewrite (reaches_det _ _ _ _ HR HR2).
Qed.
Lemma comes_det acts : forall g g1 g2, comes_to g acts g1 -> comes_to g acts g2 -> g1 = g2.
Proof.
  induction acts as [|a acts IH]; intros g g1 g2 H1 H2.
  - inversion H1; inversion H2; congruence.
  - apply comes_cons in H1 as (k1 & A1 & B1). apply comes_cons in H2 as (k2 & A2 & B2).
    rewrite (comes_one_det _ _ _ _ A1 A2) in B1. exact (IH _ _ _ B1 B2).
Qed.
Lemma reaches_total b cp : exists s, reaches b cp s.
Proof.
  destruct (N.lt_ge_cases (lenN b) 4) as [L4|L4]; [exists Nowhere; now constructor|].
  destruct (N.lt_ge_cases (header_len b) 4) as [H4|H4]; [exists ToHeader; now constructor|].
  destruct (room_dec b) as [HR|HR]; [|exists ToList; now constructor]. assert (HR' := HR). destruct HR' as (H24 & L24 & HL).
  destruct (strings_any b cp H24 L24) as (found & cut & HW & _). pose proof (page_reflect b found) as HP.
  destruct (stopped cp b found) eqn:ES.
  { exists ToStrings. unfold stopped in ES. destruct cp; try discriminate. rewrite ES in HP. exact (reaches_strings _ _ _ _ _ HR eq_refl HW HP). }
  assert (HP' : cp = CpUnknown -> ~ page_needed b found).
  { intros EC. unfold stopped in ES. rewrite EC in ES. now rewrite ES in HP. }
  destruct (extra_init_spec true (dropN (string_data_end b) b)) as (blocks & r & HB & _). pose proof (readable_reflect blocks) as HRR.
  destruct (forallb (fun blk : N * bytes => 4 <=? lenN (snd blk)) blocks) eqn:EB; [exists ToTheEnd|exists ToSize].
  - exact (reaches_the_end _ _ _ _ _ _ _ HR HW HP' HB HRR).
  - exact (reaches_size _ _ _ _ _ _ _ HR HW HP' HB HRR).
Qed.
Lemma comes_total acts : forall g, exists g', comes_to g acts g'.
Proof.
  induction acts as [|a acts IH]; intros g; [exists g; constructor|].
  destruct (given g) as [[b cp] allow] eqn:EG.
  destruct a as [b'|cp'|al'| |all| |p| |].
  - edestruct IH as [g' H]. exists g'. exact (assigned _ _ _ _ _ _ _ EG H).
  - edestruct IH as [g' H]. exists g'. exact (page_assigned _ _ _ _ _ _ _ EG H).
  - edestruct IH as [g' H]. exists g'. exact (allow_assigned _ _ _ _ _ _ _ EG H).
  - destruct (reaches_total b cp) as [s HR]. destruct (IH (made_anew g s)) as [g' H]. exists g'. exact (processed _ _ _ _ _ _ _ EG HR H).
  - destruct (IH g) as [g' H]. exists g'. now apply only_read.
  - destruct (IH g) as [g' H]. exists g'. now apply only_read.
  - destruct (IH g) as [g' H]. exists g'. now apply only_read.
  - destruct (IH g) as [g' H]. exists g'. now apply only_read.
  - destruct (IH g) as [g' H]. exists g'. now apply only_read.
Qed.

Lemma do_all_app o acts : forall more, do_all o (acts ++ more) = (fst (do_all o acts) ++ fst (do_all (snd (do_all o acts)) more), snd (do_all (snd (do_all o acts)) more)).
Proof.
  revert o. induction acts as [|a acts IH]; intros o more; cbn [app do_all fst snd].
  - now destruct (do_all o more).
  - destruct (do_act o a) as [m o1]. rewrite IH. destruct (do_all o1 acts) as [ms o2]. cbn [fst snd]. now destruct (do_all o2 more).
Qed.
Lemma do_all_made acts : forall o g g', made o g -> comes_to g acts g' -> made (snd (do_all o acts)) g'.
Proof.
  induction acts as [|a acts IH]; intros o g g' HM HC.
  - inversion HC; subst. exact HM.
  - apply comes_cons in HC as (g1 & H1 & H2). pose proof (do_act_made _ _ _ _ HM H1) as HM1. specialize (IH _ _ _ HM1 H2).
    cbn [do_all]. destruct (do_act o a) as [m o1]. cbn [snd] in IH. now destruct (do_all o1 acts).
Qed.
(** The reply to [a] after [acts]. *)
Lemma last_reply o acts a : replies o (acts ++ [a]) = replies o acts ++ [fst (do_act (snd (do_all o acts)) a)].
Proof.
  unfold replies. rewrite do_all_app. cbn [fst do_all]. now destruct (do_act (snd (do_all o acts)) a).
Qed.
Lemma replies_of b cp allow l acts a g said r :
  snd (lnk_init (FromBytes b) cp allow) = Ok l -> comes_to (all_from b cp allow) acts g ->
  replies (object_of b allow l) (acts ++ [a]) = replies (object_of b allow l) acts ++ [(said, r)] <-> answers g a said r.
Proof.
  intros H HC. rewrite last_reply. pose proof (do_all_made _ _ _ _ (fresh _ _ _ _ H) HC) as HM.
  rewrite (answers_iff _ _ HM a said r). split; [|now intros ->].
  intros E. apply app_inj_tail in E. apply E.
Qed.

(** ** After a success *)
Lemma given_of o g : made o g -> given g = (o_indata o, o_cp o, o_allow o).
Proof. apply m_given. Qed.
Lemma as_new b cp allow l acts g b' cp' allow' l' more :
  snd (lnk_init (FromBytes b) cp allow) = Ok l -> comes_to (all_from b cp allow) acts g -> given g = (b', cp', allow') ->
  snd (lnk_init (FromBytes b') cp' allow') = Ok l' ->
  replies (object_of b allow l) (acts ++ Process :: more)
  = replies (object_of b allow l) acts ++ (fst (lnk_init (FromBytes b') cp' allow'), Ok Nothing) :: replies (object_of b' allow' l') more.
Proof.
  intros H HC EG H'. pose proof (do_all_made _ _ _ _ (fresh _ _ _ _ H) HC) as HM. pose proof (m_given _ _ HM) as G. rewrite EG in G.
  unfold replies. rewrite do_all_app. cbn [fst do_all do_act]. rewrite (again_new _ _ _ _ _ (eq_sym G) H').
  unfold fmap. cbn [bind ret fst]. rewrite app_nil_r. now destruct (do_all (object_of b' allow' l') more).
Qed.

(** ** Assignments alone *)
Definition same_parts (o1 o2 : object) : Prop :=
  o_header o1 = o_header o2 /\ o_index o1 = o_index o2 /\ o_targets o1 = o_targets o2 /\ o_info o1 = o_info o2
  /\ o_strings o1 = o_strings o2 /\ o_extras o1 = o_extras o2 /\ o_size o1 = o_size o2.
Lemma same_reads o1 o2 a : same_parts o1 o2 ->
  match a with Process => False | _ => True end ->
  fst (do_act o1 a) = fst (do_act o2 a) /\ same_parts (snd (do_act o1 a)) (snd (do_act o2 a)).
Proof.
  intros (H & HI & T & I & S & X & Z) HA.
  destruct a; try contradiction; cbn [do_act fst snd]; (split; [|unfold same_parts; parts; now repeat split]); try reflexivity;
    unfold object_report, object_command; rewrite ?object_json_eq, ?H, ?HI, ?T, ?I, ?S, ?X, ?Z; reflexivity.
Qed.
Definition reading (a : act) : bool := match a with Report _ | Size | Flag _ | Strings | Command => true | _ => false end.
Definition assigning (a : act) : bool := match a with Assign _ | AssignPage _ | AssignAllow _ => true | _ => false end.
Lemma assigning_same o acts : forallb assigning acts = true -> same_parts (snd (do_all o acts)) o.
Proof.
  revert o. induction acts as [|a acts IH]; intros o HA; [now repeat split|]. cbn [forallb] in HA. apply andb_true_iff in HA as [Ha HA].
  cbn [do_all]. destruct (do_act o a) as [m o1] eqn:E. specialize (IH o1 HA). destruct (do_all o1 acts) as [ms o2]. cbn [snd] in *.
  assert (S1 : same_parts o1 o) by (destruct a; try discriminate; injection E as <- <-; now repeat split).
  unfold same_parts in *. intuition congruence.
Qed.

Lemma assigning_replies o acts : forallb assigning acts = true -> fst (do_all o acts) = repeat (ret Nothing) (length acts).
Proof.
  revert o. induction acts as [|a acts IH]; intros o HA; [reflexivity|]. cbn [forallb] in HA. apply andb_true_iff in HA as [Ha HA].
  cbn [do_all length repeat]. destruct (do_act o a) as [m o1] eqn:E. specialize (IH o1 HA). destruct (do_all o1 acts) as [ms o2].
  cbn [fst] in *. rewrite IH. f_equal. destruct a; try discriminate; now injection E as <- <-.
Qed.
Lemma unread o h acts a : forallb assigning acts = true -> reading a = true ->
  exists x, replies o (h ++ [a]) = replies o h ++ [x] /\ replies o (h ++ acts ++ [a]) = replies o h ++ repeat (ret Nothing) (length acts) ++ [x].
Proof.
  intros HA Ha. exists (fst (do_act (snd (do_all o h)) a)). split; [apply last_reply|]. unfold replies. rewrite do_all_app. cbn [fst].
  rewrite do_all_app. cbn [fst]. rewrite (assigning_replies _ _ HA). do 2 f_equal.
  cbn [do_all]. pose proof (same_reads _ _ a (assigning_same (snd (do_all o h)) acts HA)) as HS.
  destruct (do_act (snd (do_all (snd (do_all o h)) acts)) a) as [m o1]. cbn [fst] in *. destruct HS as [-> _]; [now destruct a|reflexivity].
Qed.

(** ** What processing replies *)
Lemma process_like_new b cp allow l acts g b' cp' allow' :
  snd (lnk_init (FromBytes b) cp allow) = Ok l -> comes_to (all_from b cp allow) acts g -> given g = (b', cp', allow') -> b' <> [] ->
  replies (object_of b allow l) (acts ++ [Process])
  = replies (object_of b allow l) acts
    ++ [(fst (lnk_init (FromBytes b') cp' allow'), match snd (lnk_init (FromBytes b') cp' allow') with Ok _ => Ok Nothing | Err e => Err e end)].
Proof.
  intros H HC EG Hb. rewrite last_reply. pose proof (do_all_made _ _ _ _ (fresh _ _ _ _ H) HC) as HM. pose proof (m_given _ _ HM) as G. rewrite EG in G.
  injection G as E1 E2 E3. do 2 f_equal.
  assert (HK : construction b' cp' (fst (lnk_init (FromBytes b') cp' allow')) (failure (lnk_init (FromBytes b') cp' allow')))
    by (apply (construction_iff b' cp' allow'); now split).
  pose proof (process_answers _ _ HM (fst (lnk_init (FromBytes b') cp' allow')) (failure (lnk_init (FromBytes b') cp' allow'))) as HP.
  unfold prefixed in HP. rewrite HP; [|right; rewrite <- E1, <- E2; now split].
  unfold failure. now destruct (snd (lnk_init (FromBytes b') cp' allow')).
Qed.
Lemma process_empty b cp allow l acts g cp' allow' :
  snd (lnk_init (FromBytes b) cp allow) = Ok l -> comes_to (all_from b cp allow) acts g -> given g = ([], cp', allow') ->
  forall more, replies (object_of b allow l) (acts ++ Process :: more)
  = replies (object_of b allow l) acts ++ raise LnkParserError :: skipn (length acts) (replies (object_of b allow l) (acts ++ more)).
Proof.
  intros H HC EG more. pose proof (do_all_made _ _ _ _ (fresh _ _ _ _ H) HC) as HM. pose proof (m_given _ _ HM) as G. rewrite EG in G.
  injection G as E1 E2 E3. unfold replies. rewrite !do_all_app. cbn [fst do_all do_act].
  assert (HL : forall o as_, length (fst (do_all o as_)) = length as_).
  { intros o as_. revert o. induction as_ as [|x as_ IH]; intros o; [reflexivity|]. cbn [do_all]. destruct (do_act o x) as [m o1].
    specialize (IH o1). destruct (do_all o1 as_). cbn [fst length] in *. now rewrite IH. }
  rewrite <- (HL (object_of b allow l) acts), skipn_app, skipn_all, Nat.sub_diag. cbn [skipn app].
  rewrite (again_empty _ (eq_sym E1)). cbn [fmap bind raise]. now destruct (do_all (snd (do_all (object_of b allow l) acts)) more).
Qed.

Lemma same_some {A} (x y : A) : Some x = Some y -> x = y.
Proof. now intros [= ->]. Qed.
