(** * What is needed of a report for the readable one to be determined, and the parts of a run (C69) *)
From Verif Require Import ApiProofs ShapeProofs ReportProofs CommandProofs ReadableProofs MainProofs.
From Verif Require Import Lemmas Codec Utils Sha256 Header StringData Targets Info Extra LnkFile Json Report.
From Verif Require Import Spec SpecText SpecReport SpecCommand SpecReadable SpecItems SpecInfo SpecHeader SpecExtra SpecOutcome SpecEntries SpecBlocks SpecWhole SpecFailure SpecUnknown SpecJsonText SpecRun.
From Verif Require Import ConstructProofs FailureProofs UnknownProofs JsonTextProofs.

(** ** Opening *)

Lemma handle_bytes b cp allow : b <> [] -> lnk_init (FromHandle b) cp allow = lnk_init (FromBytes b) cp allow.
Proof. destruct b; [congruence|reflexivity]. Qed.
Lemma handle_empty cp allow : lnk_init (FromHandle []) cp allow = ([], Err LnkParserError).
Proof. reflexivity. Qed.
Lemma opened_iff b cp said e :
  opened b cp said e <-> fst (lnk_init (FromHandle b) cp true) = said /\ failure (lnk_init (FromHandle b) cp true) = e.
Proof.
  split.
  - intros [->|said' e' Hb H]; [split; reflexivity|]. rewrite handle_bytes by exact Hb.
    now apply construction_iff.
  - destruct b as [|x b].
    + intros [<- <-]. now apply opened_empty.
    + intros H. apply opened_as_constructed; [discriminate|]. now apply (construction_iff _ _ true).
Qed.

(** ** The command *)

Lemma body_loop q p : forall bs,
  argument_body q (repeat 92 bs ++ p)
    (let (out, n) := l2c_loop p bs in out ++ repeat 92 (if q then 2 * n else n)).
Proof.
  induction p as [|c p IH]; intros bs; cbn [l2c_loop].
  - rewrite app_nil_r. apply body_end.
  - destruct (c =? 92) eqn:E1.
    + apply N.eqb_eq in E1 as ->. specialize (IH (S bs)).
      replace (repeat 92 bs ++ 92 :: p) with (repeat 92 (S bs) ++ p); [exact IH|].
      cbn [repeat]. rewrite repeat_cons, <- app_assoc. reflexivity.
    + specialize (IH 0%nat). cbn [repeat app] in IH. destruct (c =? 34) eqn:E2.
      * apply N.eqb_eq in E2 as ->. destruct (l2c_loop p 0) as [out n].
        replace ((repeat 92 (bs * 2) ++ [92; 34] ++ out) ++ repeat 92 (if q then (2 * n)%nat else n))
          with (repeat 92 (2 * bs + 1) ++ 34 :: (out ++ repeat 92 (if q then (2 * n)%nat else n))).
        -- now apply body_mark.
        -- rewrite (Nat.mul_comm 2 bs), repeat_app, <- !app_assoc. reflexivity.
      * destruct (l2c_loop p 0) as [out n].
        replace ((repeat 92 bs ++ [c] ++ out) ++ repeat 92 (if q then (2 * n)%nat else n))
          with (repeat 92 bs ++ c :: (out ++ repeat 92 (if q then (2 * n)%nat else n))).
        -- apply body_other; [lia|lia|exact IH].
        -- rewrite <- !app_assoc. reflexivity.
Qed.
Lemma loop_run n : forall r bs, (forall r', r <> 92 :: r') -> l2c_loop (repeat 92 n ++ r) bs = l2c_loop r (n + bs).
Proof.
  induction n as [|n IH]; intros r bs H; [reflexivity|]. cbn [repeat app l2c_loop]. change (92 =? 92) with true. cbv iota.
  rewrite IH by exact H. f_equal. lia.
Qed.
Lemma body_exact q p t : argument_body q p t ->
  t = (let (out, n) := l2c_loop p 0 in out ++ repeat 92 (if q then 2 * n else n)).
Proof.
  induction 1 as [n|n r t H IH|n c r t H1 H2 H IH].
  - rewrite <- (app_nil_r (repeat 92 n)). rewrite loop_run by discriminate. cbn [l2c_loop app]. rewrite Nat.add_0_r. reflexivity.
  - rewrite loop_run by discriminate. cbn [l2c_loop]. change (34 =? 92) with false. change (34 =? 34) with true. cbv iota.
    destruct (l2c_loop r 0) as [out m]. rewrite IH, Nat.add_0_r, (Nat.mul_comm 2 n), repeat_app, <- !app_assoc. reflexivity.
  - rewrite loop_run by congruence. cbn [l2c_loop]. replace (c =? 92) with false by lia. replace (c =? 34) with false by lia.
    destruct (l2c_loop r 0) as [out m]. rewrite IH, Nat.add_0_r, <- !app_assoc. reflexivity.
Qed.
Lemma argument_iff p t : argument p t <-> t = list2cmdline1 p.
Proof.
  assert (M : existsb (N.eqb 32) p || existsb (N.eqb 9) p || (lenN p =? 0) = true <-> needs_marks p).
  { assert (X : forall c, existsb (N.eqb c) p = true <-> In c p).
    { intros c. rewrite existsb_exists. split.
      - intros (x & Hx & E). apply N.eqb_eq in E as ->. exact Hx.
      - intros H. exists c. split; [exact H|apply N.eqb_refl]. }
    rewrite !orb_true_iff, !X. unfold needs_marks.
    assert (L : (lenN p =? 0) = true <-> p = []).
    { destruct p; [tauto|]. rewrite lenN_cons. split; [lia|discriminate]. }
    rewrite L. tauto. }
  pose proof (body_loop true p 0) as BT. pose proof (body_loop false p 0) as BF. cbn [repeat app] in BT, BF.
  unfold list2cmdline1. destruct (existsb (N.eqb 32) p || existsb (N.eqb 9) p || (lenN p =? 0)) eqn:E.
  - assert (HM : needs_marks p) by now apply M. split.
    + intros [t' _ H|t' H _]; [|contradiction]. apply body_exact in H as ->. destruct (l2c_loop p 0) as [out n].
      cbn [app]. f_equal. rewrite <- !app_assoc. f_equal. replace (2 * n)%nat with (n + n)%nat by lia.
      now rewrite repeat_app, <- app_assoc.
    + intros ->. destruct (l2c_loop p 0) as [out n].
      replace ([34] ++ out ++ repeat 92 n ++ repeat 92 n ++ [34]) with (34 :: (out ++ repeat 92 (2 * n)) ++ [34]).
      * now apply argument_marked.
      * cbn [app]. f_equal. rewrite <- !app_assoc. f_equal. replace (2 * n)%nat with (n + n)%nat by lia.
        now rewrite repeat_app, <- app_assoc.
  - assert (HM : ~ needs_marks p) by (intros H; apply M in H; congruence). split.
    + intros [t' H _|t' _ H]; [contradiction|]. apply body_exact in H as ->. reflexivity.
    + intros ->. now apply argument_bare.
Qed.
Lemma command_of_iff po ao c : command_of po ao c <->
  c = join (s2t " ") (match po with Some p => [list2cmdline1 p] | None => [] end ++ match ao with Some a => [a] | None => [] end).
Proof.
  split.
  - intros [|p q H|a|p q a H]; try apply argument_iff in H as ->; reflexivity.
  - intros ->. destruct po as [p|], ao as [a|]; cbn [app join].
    + apply path_and_arguments. now apply argument_iff.
    + apply only_path. now apply argument_iff.
    + apply only_arguments.
    + apply no_command.
Qed.
Lemma target_run_iff b cp l r : usable cp -> snd (lnk_init (FromBytes b) cp true) = Ok l ->
  target_run b cp r <-> lnk_command l = ([], r).
Proof.
  intros Hcp Hl. split.
  - intros [found e cut HW HM|found e cut c HW H3 H5 HC].
    + rewrite (command_outcome b cp true l found e cut Hcp Hl HW).
      replace (missing b found 3 "relative_path" || missing b found 5 "command_line_arguments") with true; [reflexivity|].
      symmetry. now apply orb_true_iff.
    + rewrite (command_outcome b cp true l found e cut Hcp Hl HW), H3, H5. apply command_of_iff in HC as ->. reflexivity.
  - destruct (init_constructed b cp true l Hcp Hl) as [HC _].
    destruct (construct_full b cp true Hcp HC) as (l' & found & cut & wx & _ & HW & _).
    rewrite (command_outcome b cp true l found _ cut Hcp Hl HW).
    destruct (missing b found 3 "relative_path" || missing b found 5 "command_line_arguments") eqn:E; intros [= <-].
    + apply orb_true_iff in E. exact (string_missing _ _ _ _ _ HW E).
    + apply orb_false_iff in E as [E3 E5]. apply (command_built _ _ _ _ _ _ HW E3 E5). now apply command_of_iff.
Qed.

(** ** The readable report is determined *)

(** Every class is a text of the program. *)
Inductive classed : pyval -> Prop :=
| cl_none : classed PNone
| cl_int z : classed (PInt z)
| cl_str t : classed (PStr t)
| cl_date d : classed (PDate d)
| cl_list l : Forall classed l -> classed (PList l)
| cl_dict d : Forall (fun e => (fst e = "class"%string -> exists s, snd e = PS s) /\ classed (snd e)) d -> classed (PDict d).

Lemma s2t_bytes s : Forall (fun c => c < 256) (s2t s).
Proof. induction s as [|c s IH]; cbn [s2t]; constructor; [apply N_ascii_bounded|exact IH]. Qed.

Lemma once_nodup ks : NoDup (once ks).
Proof.
  induction ks as [|k ks IH]; cbn [once]; constructor.
  - intros H. apply filter_In in H as [_ H]. rewrite String.eqb_refl in H. discriminate.
  - now apply NoDup_filter.
Qed.
Lemma same_rows {A} (t1 t2 : list (string * A)) : map fst t1 = map fst t2 -> NoDup (map fst t1) ->
  (forall k, In k (map fst t1) -> exists w, In (k, w) t1 /\ In (k, w) t2) -> t1 = t2.
Proof.
  revert t2. induction t1 as [|[k v] t1 IH]; intros [|[k' v'] t2] HK HN H; cbn [map fst] in *; try discriminate; [reflexivity|].
  injection HK as <- HK. apply NoDup_cons_iff in HN as [N1 N2].
  assert (U : forall (t : list (string * A)) w, ~ In k (map fst t) -> ~ In (k, w) t) by (intros t w Hn Hi; apply Hn; exact (in_map fst _ _ Hi)).
  f_equal.
  - destruct (H k (or_introl eq_refl)) as (w & [E1|I1] & I2); [|exfalso; exact (U _ _ N1 I1)]. injection E1 as <-.
    destruct I2 as [E2|I2]; [now injection E2 as <-|]. exfalso. rewrite HK in N1. exact (U _ _ N1 I2).
  - apply IH; [exact HK|exact N2|]. intros j Hj. destruct (H j (or_intror Hj)) as (w & I1 & I2). exists w.
    destruct I1 as [[= <- <-]|I1]; [contradiction|]. destruct I2 as [[= <- <-]|I2]; [contradiction|]. now split.
Qed.
Lemma last_named {A} (f : string -> string) (d : list (string * A)) n : In n (map (fun e => f (fst e)) d) ->
  exists d1 k v d2, d = d1 ++ (k, v) :: d2 /\ f k = n /\ ~ In n (map (fun e => f (fst e)) d2).
Proof.
  induction d as [|[k v] d IH]; cbn [map fst In]; [contradiction|]. intros H.
  destruct (in_dec string_dec n (map (fun e => f (fst e)) d)) as [Hi|Hn].
  - destruct (IH Hi) as (d1 & j & w & d2 & -> & E & N). exists ((k, v) :: d1), j, w, d2. now repeat split.
  - destruct H as [H|H]; [|contradiction]. exists [], k, v, d. now repeat split.
Qed.
Lemma split_once {A} (d1 d2 d1' d2' : list (string * A)) k v v' : ~ In k (map fst d1) -> ~ In k (map fst d1') ->
  d1 ++ (k, v) :: d2 = d1' ++ (k, v') :: d2' -> d1 = d1' /\ v = v' /\ d2 = d2'.
Proof.
  revert d1'. induction d1 as [|e d1 IH]; intros [|e' d1'] H H' E; cbn [app map fst In] in *.
  - injection E as <- <-. auto.
  - injection E as <- _. exfalso. apply H'. now left.
  - injection E as -> _. exfalso. apply H. now left.
  - injection E as <- E. destruct (IH d1') as (-> & -> & ->); auto.
Qed.
Lemma dget_in k (d : dict) : dget k d = None <-> ~ In k (map fst d).
Proof.
  induction d as [|[j v] d IH]; cbn [dget map fst In]; [tauto|]. destruct (String.eqb k j) eqn:E.
  - apply String.eqb_eq in E as ->. split; [discriminate|]. intros H. exfalso. auto.
  - apply String.eqb_neq in E. rewrite IH. split; [intros H [->|Hi]; auto|auto].
Qed.

Definition determined (v : pyval) : Prop := forall top t1 t2, shown top v t1 -> shown top v t2 -> t1 = t2.
Lemma rows_determined d top t1 t2 : Forall (fun e => determined (snd e)) d -> dget "class" d = None ->
  shown top (PDict d) t1 -> shown top (PDict d) t2 -> t1 = t2.
Proof.
  intros HD HC H1 H2.
  inversion H1 as [| | | | |? ? r1 _ K1 R1|? ? d1 v d2 c t E _ _]; subst;
    [|exfalso; apply dget_in in HC; apply HC; rewrite map_app; apply in_or_app; right; now left].
  inversion H2 as [| | | | |? ? r2 _ K2 R2|? ? d1 v d2 c t E _ _]; subst;
    [|exfalso; apply dget_in in HC; apply HC; rewrite map_app; apply in_or_app; right; now left].
  f_equal. apply same_rows.
  - congruence.
  - rewrite K1. apply once_nodup.
  - intros n Hn. rewrite K1 in Hn. apply once_incl in Hn.
    destruct (last_named (shown_name top) d n Hn) as (d1 & k & v & d2 & E & <- & Hl).
    destruct (R1 _ _ _ _ E Hl) as (w & I1 & S1). destruct (R2 _ _ _ _ E Hl) as (w' & I2 & S2).
    rewrite Forall_forall in HD. assert (Ew : w = w').
    { apply (HD (k, v)) with (top := false); [rewrite E; apply in_or_app; right; now left|exact S1|exact S2]. }
    subst w'. now exists w.
Qed.
Lemma shown_determined T K v : well_formed T K v -> classed v -> determined v.
Proof.
  induction v as [|z|t|d|l IH|d IH] using value_induction; intros Hw Hc top t1 t2 H1 H2;
    [now inversion H1; inversion H2; subst|now inversion H1; inversion H2; subst|now inversion H1; inversion H2; subst
    |now inversion H1; inversion H2; subst| |].
  - apply wf_list in Hw. inversion Hc as [| | | |? Fc|]; subst.
    inversion H1 as [| | | |? ? r1 F1| |]; subst. inversion H2 as [| | | |? ? r2 F2| |]; subst. f_equal.
    clear H1 H2 Hc. revert r2 F2. induction F1 as [|v t vs ts Hv F1 IHF]; intros r2 F2; inversion F2 as [|? t' ? ts' Hv' F2']; subst; [reflexivity|].
    apply Forall_cons_iff in IH as [I1 I2], Hw as [W1 W2], Fc as [C1 C2].
    f_equal; [now apply (I1 W1 C1 false)|now apply IHF].
  - apply wf_dict in Hw as (HN & _ & Hw). inversion Hc as [| | | | |? Fc]; subst.
    assert (HD : Forall (fun e => determined (snd e)) d).
    { rewrite Forall_forall in *. intros e He. apply IH; [exact He|now apply Hw|now apply Fc]. }
    destruct (dget "class" d) as [x|] eqn:E.
    + inversion H1 as [| | | | |? ? ? X|? ? d1 v d2 c t Ed N1 S1]; [congruence|]. subst top0 d0 t1.
      inversion H2 as [| | | | |? ? ? X|? ? d1' v' d2' c' t' Ed' N2 S2]; [congruence|]. subst top0 d0 t2.
      assert (NN : forall (a : dict) w b, d = a ++ ("class"%string, w) :: b -> ~ In "class"%string (map fst (a ++ b))).
      { intros a w b Eab. rewrite Eab, map_app in HN. cbn [map fst] in HN. apply NoDup_remove_2 in HN. now rewrite map_app. }
      pose proof (NN _ _ _ Ed) as X1. pose proof (NN _ _ _ Ed') as X2.
      destruct (split_once d1 d2 d1' d2' "class" v v') as (<- & <- & <-).
      * intros Hi. apply X1. rewrite map_app. apply in_or_app. now left.
      * intros Hi. apply X2. rewrite map_app. apply in_or_app. now left.
      * congruence.
      * rewrite Forall_forall in Fc. destruct (Fc ("class"%string, v)) as [Fv _].
        { rewrite Ed. apply in_or_app. right. now left. }
        destruct (Fv eq_refl) as (s & Es). cbn [snd] in Es.
        pose proof (N1 _ Es (s2t_bytes s)) as E1. pose proof (N2 _ Es (s2t_bytes s)) as E2.
        assert (c = c') by (apply s2t_inj; congruence). subst c'.
        assert (t = t'); [|congruence]. apply (rows_determined (d1 ++ d2) false); try assumption.
        -- rewrite Forall_forall in *. intros e He. apply HD. rewrite Ed. apply in_app_iff in He as [He|He]; apply in_or_app; [now left|right; now right].
        -- apply dget_in, X1.
    + now apply (rows_determined d top).
Qed.
Lemma flags_shown_classed h a b : classed (flags_shown h a b).
Proof. unfold flags_shown. destruct (dget a h) as [[]|]; try constructor. destruct (dget b h) as [[]|]; constructor. Qed.
Lemma header_shown_classed h : classed (PDict h) -> classed (PDict (header_shown h)).
Proof.
  intros H. inversion H as [| | | | |? F]; subst. constructor. unfold header_shown. rewrite Forall_map.
  rewrite Forall_forall in *. intros e He. apply filter_In in He as [He _].
  destruct (String.eqb (fst e) "link_flags") eqn:E1; [|destruct (String.eqb (fst e) "file_flags") eqn:E2]; [| |now apply F]; cbn [fst snd];
    (split; [|apply flags_shown_classed]); apply String.eqb_eq in E1 || apply String.eqb_eq in E2; intros X; congruence.
Qed.
Lemma readable_determined d t1 t2 : well_formed anything any_keys (PDict d) -> classed (PDict d) ->
  readable d t1 -> readable d t2 -> t1 = t2.
Proof.
  intros Hw Hc (h & l1 & s1 & Eh & -> & L1 & S1) (h' & l2 & s2 & Eh' & -> & L2 & S2).
  rewrite Eh in Eh'. injection Eh' as <-.
  apply wf_dict in Hw as (_ & _ & Hw). inversion Hc as [| | | | |? F]; subst. rewrite Forall_forall in Hw, F.
  assert (Hi : In ("header"%string, PDict h) d) by (now apply dget_In in Eh).
  f_equal.
  - assert (X : PDict l1 = PDict l2); [|congruence].
    apply (shown_determined anything any_keys (PDict (header_shown h))) with (top := false); [| |exact L1|exact L2].
    + apply header_shown_wf. now apply Hw in Hi.
    + apply header_shown_classed. now apply F in Hi.
  - assert (HO : Forall (fun e => determined (snd e)) (others d)).
    { rewrite Forall_forall. intros e He. apply filter_In in He as [He _]. eapply shown_determined; [now apply Hw|now apply F]. }
    clear - S1 S2 HO. revert s2 S2. induction S1 as [|e s os s1 [K1 V1] S1 IH]; intros s2 S2; inversion S2 as [|? s' ? s2' [K2 V2] S2']; subst; [reflexivity|].
    apply Forall_cons_iff in HO as [O1 O2]. f_equal; [|now apply IH]. destruct s as [k v], s' as [k' v']; cbn [fst snd] in *.
    f_equal; [congruence|]. exact (O1 _ _ _ V1 V2).
Qed.

(** ** The classes of a report *)

Lemma cl_opt {A} (f : A -> pyval) o : (forall a, classed (f a)) -> classed (POpt f o).
Proof. intros H. destruct o; [apply H|constructor]. Qed.
Lemma cl_app (d1 d2 : dict) : classed (PDict d1) -> classed (PDict d2) -> classed (PDict (d1 ++ d2)).
Proof. intros H1 H2. inversion H1; inversion H2; subst. constructor. now apply Forall_app. Qed.
Lemma cl_cons k v (d : dict) : k <> "class"%string -> classed v -> classed (PDict d) -> classed (PDict ((k, v) :: d)).
Proof. intros Hk Hv Hd. inversion Hd; subst. constructor. constructor; [|assumption]. split; [intros E; now elim Hk|exact Hv]. Qed.
Lemma cl_class s (d : dict) : classed (PDict d) -> classed (PDict (("class"%string, PS s) :: d)).
Proof. intros Hd. inversion Hd; subst. constructor. constructor; [|assumption]. split; [intros _; now exists s|constructor]. Qed.
Lemma cl_empty : classed (PDict []).
Proof. constructor. constructor. Qed.
Lemma cl_dicts ds : Forall (fun d => classed (PDict d)) ds -> classed (PList (map PDict ds)).
Proof. intros H. constructor. now rewrite Forall_map. Qed.
Ltac cls :=
  repeat first
    [ apply cl_empty | apply cl_class | (apply cl_cons; [discriminate| |]) | apply cl_app
    | apply cl_int | apply cl_str | apply cl_none | apply cl_date
    | (apply cl_opt; intros ?) ].

Lemma file_entry_classed cp f : classed (PDict (file_entry_of cp f)).
Proof. unfold file_entry_of, PS, PN. cls. Qed.
Lemma entry_classed cp n f : classed (PDict (entry_of cp n f)).
Proof.
  unfold entry_of, PN. pose proof (file_entry_classed cp) as HF.
  assert (D : classed (PDict [("class", PS "Unknown"); ("size", PInt (Z.of_N (2 + n)))]%string)) by cls.
  set (t := num 1 0 f / 16 mod 8). clearbody t.
  repeat match goal with
  | |- classed (PDict (match ?x with _ => _ end)) => destruct x
  end; try exact D; try apply HF; cls; try (destruct (N.testbit _ _); cls; fail); try (destruct (cpl_comments_offset_of f =? 0); cls; fail); try apply HF.
Qed.
Lemma entries_classed cp r es w : entries_listed cp r es w -> Forall (fun d => classed (PDict d)) es.
Proof. induction 1; constructor; [apply entry_classed|assumption]. Qed.

Lemma header_classed h c a w : classed (PDict (header_report h c a w)).
Proof.
  unfold header_report, PN, PS. cls; unfold names_value; apply cl_list; rewrite Forall_map; apply Forall_forall; intros; apply cl_str.
Qed.
Lemma cl_if b d : classed (PDict d) -> classed (PDict (entry_if b d)).
Proof. intros H. destruct b; [exact H|apply cl_empty]. Qed.
Lemma local_classed cp raw : classed (PDict (local_entries cp raw)).
Proof.
  unfold local_entries, PN, PS. apply cl_app; [|apply cl_if; cls]. cls. match goal with |- context[if ?x then _ else _] => destruct x end; cls.
Qed.
Lemma network_classed cp raw : classed (PDict (network_entries cp raw)).
Proof.
  unfold network_entries, PN, PS. repeat apply cl_app; try (apply cl_if; cls); cls.
  all: destruct (N.testbit (num 4 (num 4 20 raw + 4) raw) 1); [|cls]; destruct (known_provider (num 4 (num 4 20 raw + 16) raw)); cls.
Qed.
Lemma info_classed cp network raw : classed (PDict (info_entries cp network raw)).
Proof.
  unfold info_entries. apply cl_app.
  - unfold common_entries, PN. repeat apply cl_app; try (apply cl_if; cls); cls.
  - apply cl_cons; [discriminate| |unfold PS; cls]. destruct network; [apply network_classed|apply local_classed].
Qed.

Lemma value_classed v d w : value_at v d w -> classed (PDict d).
Proof. intros [|]; unfold PS; cls. Qed.
Lemma property_classed n p d w : property_at n p d w -> classed (PDict d).
Proof. intros [d' w' _ _ H|d' w' _ _ H]; apply value_classed in H; unfold number_at, PN; cls; exact H. Qed.
Lemma each_classed {A} (P : A -> dict -> list warning -> Prop) l ds w : (forall a d w, P a d w -> classed (PDict d)) ->
  each P l ds w -> Forall (fun d => classed (PDict d)) ds.
Proof. intros HP. induction 1 as [|a l d ds w ws H _ IH]; constructor; [exact (HP _ _ _ H)|exact IH]. Qed.
Lemma storage_classed x d w : storage_at x d w -> classed (PDict d).
Proof.
  intros [named ps ds w' _ _ _ H]. apply each_classed in H; [|apply property_classed]. unfold number_at, guid_field, PN. cls.
  now apply cl_dicts.
Qed.
Lemma fixed_classed cp g raw d : fixed_report cp g raw = Some d -> classed (PDict d).
Proof.
  assert (D : classed (PDict [("extra_data_sha256"%string, PStr (sha256_hex (dropN 4 raw)))])) by cls.
  unfold fixed_report. intros H.
  repeat match type of H with
  | match ?x with _ => _ end = _ => destruct x
  end; try discriminate H; injection H as <-; try exact D; unfold number_at, integer_at, guid_field, PN; cls.
Qed.
Lemma block_classed cp g raw d w : block_read cp g raw d w -> classed (PDict d).
Proof.
  intros [d' H _|_ _|ss ds w' _ _ H|es w' _ H]; (apply cl_cons; [discriminate|unfold number_at, PN; cls|]).
  - exact (fixed_classed _ _ _ _ H).
  - unfold darwin_report. cls.
    destruct (feature_end _) as [n|]; [|cls].
    repeat match goal with |- classed (match ?x with _ => _ end) => destruct x end; cls.
  - apply each_classed in H; [|apply storage_classed]. cls. now apply cl_dicts.
  - apply entries_classed in H. cls. now apply cl_dicts.
Qed.
Lemma blocks_classed cp bs l w : blocks_read cp bs l w -> Forall (fun e => classed (PDict (snd e))) l.
Proof. induction 1 as [|g raw rest d w l ws H _ IH|]; [constructor| |assumption]. constructor; [exact (block_classed _ _ _ _ _ H)|exact IH]. Qed.
Lemma block_not_class g : block_name g <> "class"%string.
Proof.
  unfold block_name. repeat match goal with |- context[match ?x with _ => _ end] => destruct x end; discriminate.
Qed.
Lemma last_of_in k l d : last_of k l = Some d -> In (k, d) l.
Proof.
  induction l as [|[k' d'] l IH]; cbn [last_of]; [discriminate|]. destruct (last_of k l) as [x|].
  - intros [= ->]. right. now apply IH.
  - destruct (String.eqb k k') eqn:E; [|discriminate]. apply String.eqb_eq in E as ->. intros [= ->]. now left.
Qed.
Lemma first_seen_incl l : incl (first_seen l) l.
Proof.
  induction l as [|k l IH]; intros x Hx; [exact Hx|]. cbn [first_seen] in Hx. destruct Hx as [<-|Hx]; [now left|].
  apply filter_In in Hx as [Hx _]. right. now apply IH.
Qed.
Lemma collect_classed l : Forall (fun e => fst e <> "class"%string /\ classed (PDict (snd e))) l -> classed (PDict (collect l)).
Proof.
  intros H. constructor. unfold collect. rewrite Forall_map. apply Forall_forall. intros k Hk. cbn [fst snd].
  rewrite Forall_forall in H. split.
  - apply first_seen_incl, in_map_iff in Hk as ([k' d] & <- & Hi). destruct (H _ Hi) as [Hn _]. cbn [fst] in *. contradiction.
  - destruct (String.eqb k "UNKNOWN_BLOCK").
    + apply cl_dicts. apply Forall_forall. intros d Hd. unfold all_of in Hd. apply in_map_iff in Hd as (e & <- & He).
      apply filter_In in He as [He _]. now apply H.
    + destruct (last_of k l) as [d|] eqn:E; [|constructor]. apply last_of_in in E. now apply H in E.
Qed.
Lemma blocks_names cp bs l w : blocks_read cp bs l w -> Forall (fun e => fst e <> "class"%string) l.
Proof. induction 1 as [|g raw rest d w l ws _ _ IH|]; [constructor| |assumption]. constructor; [apply block_not_class|exact IH]. Qed.
Lemma found_names b fs p found e cut : string_walk b fs p found e cut ->
  forall k, In k (map fst found) -> In k (map (fun f => snd (fst f)) fs).
Proof.
  intros H. induction H as [p|i name limited fs p found e cut _ _ IH|i name limited fs p _ _
                            |i name limited fs p n found e cut _ _ _ _ IH]; intros k; cbn [map fst snd In]; intuition.
Qed.
Lemma whole_classed b cp allow d w : whole_report b cp allow d w -> classed (PDict d).
Proof.
  intros [h rest created accessed written items items_said found data_end cut blocks tail entries blocks_said info_raw network terminal sections
    _ _ _ _ _ HI _ _ HS _ HB _ _].
  assert (CI : Forall (fun d => classed (PDict d)) items).
  { destruct (has_id_list b); [exact (entries_classed _ _ _ _ HI)|]. destruct HI as [-> _]. constructor. }
  unfold PN. apply cl_app.
  { apply cl_cons; [discriminate|apply cl_int|]. apply cl_cons; [discriminate|apply header_classed|apply cl_empty]. }
  apply cl_app.
  - destruct (has_id_list b); [|apply cl_empty]. apply cl_cons; [discriminate| |apply cl_empty].
    apply cl_cons; [discriminate|apply cl_int|]. apply cl_cons; [discriminate|now apply cl_dicts|].
    apply cl_cons; [discriminate|apply cl_int|apply cl_empty].
  - apply cl_cons; [discriminate| |apply cl_cons; [discriminate| |apply cl_cons; [discriminate| |apply cl_empty]]].
    + destruct (info_processed b); [apply info_classed|apply cl_empty].
    + constructor. rewrite Forall_map. apply Forall_forall. intros f Hf. cbn [fst snd]. split; [|constructor].
      intros E. exfalso. apply (in_map fst) in Hf. rewrite E in Hf. apply (found_names _ _ _ _ _ _ HS) in Hf.
      vm_compute in Hf. intuition discriminate.
    + apply collect_classed. apply Forall_app. split.
      * pose proof (blocks_classed _ _ _ _ HB) as H1. pose proof (blocks_names _ _ _ _ HB) as H2.
        rewrite Forall_forall in *. intros e He. split; [now apply H2|now apply H1].
      * unfold behind_blocks. destruct (_ && _); constructor; [|constructor]. cbn [fst snd]. unfold PN. split; [discriminate|cls].
Qed.
Lemma abridged_classed out v : forall p, classed v -> classed (abridged out p v).
Proof.
  induction v as [|z|t|d|l IH|d IH] using value_induction; intros p Hc; try exact Hc.
  - rewrite abridged_list. inversion Hc as [| | | |? F|]; subst. constructor. generalize 0. clear Hc.
    induction l as [|v l IHl]; intros i; cbn [elements_from]; [constructor|].
    apply Forall_cons_iff in IH as [I1 I2], F as [F1 F2]. constructor; [now apply I1|now apply IHl].
  - rewrite abridged_dict. inversion Hc as [| | | | |? F]; subst. constructor. clear Hc.
    induction d as [|[k v] d IHd]; cbn [entries]; [constructor|].
    apply Forall_cons_iff in IH as [I1 I2], F as [[F0 F1] F2]. cbn [fst snd] in *. destruct (out _); [now apply IHd|].
    constructor; [|now apply IHd]. cbn [fst snd]. split; [|now apply I1].
    intros E. destruct (F0 E) as (s & ->). exists s. reflexivity.
Qed.

