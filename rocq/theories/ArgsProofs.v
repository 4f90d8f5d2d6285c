(** * The arguments of the program (C73) *)
From Verif Require Import Lemmas Utils Codec LnkFile Report Args SpecArgs.

(** ** Options by letter and by name *)
Definition say (a : action) : option saying :=
  match a with AHelp => Some SayHelp | ATarget => Some SayTarget | AJson => Some SayJson | ACp => None | AAll => Some SayAll end.
Definition letter_action (c : N) : option action :=
  if c =? 104 then Some AHelp else if c =? 116 then Some ATarget else if c =? 106 then Some AJson
  else if c =? 99 then Some ACp else if c =? 97 then Some AAll else None.
Lemma letter_iff c m : letter c m <-> exists a, letter_action c = Some a /\ say a = m.
Proof.
  unfold letter, switches, letter_action. cbn [In]. split.
  - intros [name H]. repeat (destruct H as [H|H]; [injection H as <- _ <-; eexists; split; [reflexivity|reflexivity]|]). destruct H.
  - intros (a & H & <-).
    destruct (N.eqb_spec c 104) as [->|_]; [injection H as <-; eexists; now left|].
    destruct (N.eqb_spec c 116) as [->|_]; [injection H as <-; eexists; right; now left|].
    destruct (N.eqb_spec c 106) as [->|_]; [injection H as <-; eexists; do 2 right; now left|].
    destruct (N.eqb_spec c 99) as [->|_]; [injection H as <-; eexists; do 3 right; now left|].
    destruct (N.eqb_spec c 97) as [->|_]; [injection H as <-; eexists; do 4 right; now left|discriminate H].
Qed.
Lemma no_letter_iff c : no_letter c <-> letter_action c = None.
Proof.
  unfold no_letter. split.
  - intros H. destruct (letter_action c) as [a|] eqn:E; [|reflexivity]. exfalso. apply (H (say a)). apply letter_iff. eauto.
  - intros H m HL. apply letter_iff in HL as (a & E & _). congruence.
Qed.
Lemma no_dash_letter : letter_action 45 = None. Proof. reflexivity. Qed.
Lemma no_eq_letter : letter_action 61 = None. Proof. reflexivity. Qed.
Lemma option_table : option_strings =
  [([45; 104], AHelp);
   ([45; 45; 104; 101; 108; 112], AHelp);
   ([45; 116], ATarget);
   ([45; 45; 116; 97; 114; 103; 101; 116], ATarget);
   ([45; 106], AJson);
   ([45; 45; 106; 115; 111; 110], AJson);
   ([45; 99], ACp);
   ([45; 45; 99; 111; 100; 101; 112; 97; 103; 101], ACp);
   ([45; 97], AAll);
   ([45; 45; 97; 108; 108], AAll)].
Proof. reflexivity. Qed.
Ltac tabled := rewrite option_table; cbn [find flat_map app fst text_eqb starts_with firstn];
  change (45 =? 45) with true; cbn [andb].
Lemma find_two c : find_option [45; c] = letter_action c.
Proof.
  destruct (N.eq_dec c 45) as [->|H]; [reflexivity|]. unfold find_option, letter_action. tabled.
  destruct (N.eqb_spec c 45) as [E|_]; [contradiction|]. cbn [andb]. rewrite !Bool.andb_true_r.
  destruct (c =? 104) eqn:E1; [reflexivity|]. destruct (c =? 116) eqn:E2; [reflexivity|]. destruct (c =? 106) eqn:E3; [reflexivity|].
  destruct (c =? 99) eqn:E4; [reflexivity|]. destruct (c =? 97) eqn:E5; reflexivity.
Qed.
Lemma find_three c d s : c <> 45 -> find_option (45 :: c :: d :: s) = None.
Proof.
  intros H. unfold find_option. tabled. destruct (N.eqb_spec c 45) as [E|_]; [contradiction|]. cbn [andb]. now rewrite !Bool.andb_false_r.
Qed.
Lemma tuples_short c s : c <> 45 -> s <> [] \/ letter_action c = None ->
  option_tuples (45 :: c :: s) = match letter_action c with Some a => [Found (Some a) [45; c] (Some []) (Some s)] | None => [] end.
Proof.
  intros H HS. unfold option_tuples. replace (c =? 45) with false by lia. tabled. rewrite (N.eqb_sym 45 c).
  replace (c =? 45) with false by lia. cbn [andb]. rewrite !Bool.andb_true_r, !(N.eqb_sym _ c).
  assert (HX : forall x, letter_action x <> None -> (c =? x) && starts_with s [] = false).
  { intros x Hx. destruct (N.eqb_spec c x) as [->|_]; [|reflexivity]. destruct HS as [HS|HS]; [|contradiction]. now destruct s. }
  rewrite (HX 104), (HX 116), (HX 106), (HX 99), (HX 97) by discriminate. clear HX. unfold letter_action.
  destruct (N.eqb_spec c 104) as [->|_]; [reflexivity|]. destruct (N.eqb_spec c 116) as [->|_]; [reflexivity|].
  destruct (N.eqb_spec c 106) as [->|_]; [reflexivity|]. destruct (N.eqb_spec c 99) as [->|_]; [reflexivity|].
  destruct (N.eqb_spec c 97) as [->|_]; reflexivity.
Qed.

(** ** Long options *)
Definition long_table : list (text * action) :=
  [([104; 101; 108; 112], AHelp); ([116; 97; 114; 103; 101; 116], ATarget); ([106; 115; 111; 110], AJson);
   ([99; 111; 100; 101; 112; 97; 103; 101], ACp); ([97; 108; 108], AAll)].
Definition long_of (p : text) : option action := option_map snd (find (fun e => starts_with p (fst e)) long_table).
Lemma starts_with_iff p w : starts_with p w = true <-> exists q, w = p ++ q.
Proof.
  revert w; induction p as [|c p IH]; intros w; cbn [starts_with].
  - split; [intros _; now exists w|reflexivity].
  - destruct w as [|d w]; [split; [discriminate|intros [q H]; discriminate H]|]. rewrite Bool.andb_true_iff, N.eqb_eq, IH. split.
    + intros [-> [q ->]]. now exists q.
    + intros [q [= -> ->]]. split; [reflexivity|now exists q].
Qed.
Lemma long_names : map (fun e => (s2t (snd (fst e)), snd e)) switches = map (fun e => (fst e, say (snd e))) long_table.
Proof. reflexivity. Qed.
Lemma long_unique p x a y b : p <> [] -> In (x, a) long_table -> In (y, b) long_table ->
  starts_with p x = true -> starts_with p y = true -> a = b.
Proof.
  intros Hp HX HY SX SY. destruct p as [|c p]; [contradiction|]. unfold long_table in HX, HY. cbn [In] in HX, HY.
  repeat (destruct HX as [HX|HX]; [injection HX as <- <-|]); [..|destruct HX];
    (repeat (destruct HY as [HY|HY]; [injection HY as <- <-|]); [..|destruct HY]); try reflexivity; exfalso;
    cbn [starts_with] in SX, SY; apply andb_prop in SX as [SX _]; apply andb_prop in SY as [SY _]; lia.
Qed.
Lemma long_iff p m : p <> [] -> (long_name p m <-> exists a, long_of p = Some a /\ say a = m).
Proof.
  intros Hp. unfold long_name, long_of. split.
  - intros (_ & c & name & q & Hin & E).
    assert (HL : In (s2t name, m) (map (fun e => (fst e, say (snd e))) long_table)).
    { rewrite <- long_names. apply in_map_iff. exists (c, name, m). now split. }
    apply in_map_iff in HL as ([x a] & E' & HL). cbn [fst snd] in E'. injection E' as -> <-.
    destruct (find _ long_table) as [[y b]|] eqn:F.
    + apply find_some in F as [F1 F2]. cbn [fst] in F2. exists b. split; [reflexivity|]. f_equal.
      eapply long_unique; [exact Hp|exact F1|exact HL|exact F2|]. apply starts_with_iff. eauto.
    + exfalso. eapply find_none in F; [|exact HL]. cbn [fst] in F. rewrite (proj2 (starts_with_iff p (s2t name))) in F; [discriminate F|eauto].
  - intros (a & H & <-). split; [exact Hp|]. destruct (find _ long_table) as [[y b]|] eqn:F; [|discriminate H]. injection H as ->.
    apply find_some in F as [F1 F2]. apply starts_with_iff in F2 as [q E]. cbn [fst] in E.
    assert (HL : In (y, say a) (map (fun e => (s2t (snd (fst e)), snd e)) switches)).
    { rewrite long_names. apply in_map_iff. exists (y, a). now split. }
    apply in_map_iff in HL as ([[c name] m] & E' & HL). cbn [fst snd] in E'. injection E' as <- ->. now exists c, name, q.
Qed.
Lemma no_long_iff p : p <> [] -> ((forall m, ~ long_name p m) <-> long_of p = None).
Proof.
  intros Hp. split.
  - intros H. destruct (long_of p) as [a|] eqn:E; [|reflexivity]. exfalso. apply (H (say a)). apply long_iff; eauto.
  - intros H m HL. apply long_iff in HL as (a & E & _); [congruence|exact Hp].
Qed.
Lemma find_none_long w : (forall e, In e option_strings -> text_eqb w (fst e) = false) -> find_option w = None.
Proof. intros H. unfold find_option. destruct (find _ _) as [e|] eqn:F; [|reflexivity]. apply find_some in F as [F1 F2]. now rewrite H in F2. Qed.
Lemma find_long p a : find_option (45 :: 45 :: p) = Some a -> long_of p = Some a /\ ~ In 61 p.
Proof.
  unfold find_option. destruct (find _ _) as [[s b]|] eqn:F; [|discriminate]. intros [= ->]. apply find_some in F as [F1 F2].
  cbn [fst] in F2. apply text_eqb_eq in F2. rewrite option_table in F1. cbn [In] in F1.
  repeat (destruct F1 as [F1|F1]; [injection F1 as <- <-; (discriminate F2 || (injection F2 as ->; split; [reflexivity|cbn [In]; lia]))|]).
  destruct F1.
Qed.
Lemma partition_none w : ~ In 61 w -> partition_eq w = (w, false, []).
Proof.
  induction w as [|c w IH]; [reflexivity|]. cbn [In partition_eq]. intros H. destruct (N.eqb_spec c 61) as [->|_]; [tauto|].
  rewrite IH by tauto. reflexivity.
Qed.
Lemma partition_some p v : ~ In 61 p -> partition_eq (p ++ 61 :: v) = (p, true, v).
Proof.
  induction p as [|c p IH]; [reflexivity|]. cbn [In app partition_eq]. intros H. destruct (N.eqb_spec c 61) as [->|_]; [tauto|].
  rewrite IH by tauto. reflexivity.
Qed.
Lemma split_eq w : ~ In 61 w \/ exists p v, ~ In 61 p /\ w = p ++ 61 :: v.
Proof.
  induction w as [|c w IH]; [now left|]. destruct (N.eq_dec c 61) as [->|H].
  - right. exists [], w. split; [intros []|reflexivity].
  - destruct IH as [IH|(p & v & H1 & ->)]; [left; cbn [In]; intuition congruence|]. right. exists (c :: p), v. split; [|reflexivity].
    cbn [In]. intuition congruence.
Qed.
(** What is behind the name: nothing or "=" and a value. *)
Definition with_value (p : text) (v : option text) : text := match v with Some t => p ++ 61 :: t | None => p end.
Lemma partition_with p v : ~ In 61 p ->
  partition_eq (45 :: 45 :: with_value p v) = (45 :: 45 :: p, match v with Some _ => true | None => false end, match v with Some t => t | None => [] end).
Proof.
  intros H. destruct v as [t|]; cbn [with_value].
  - change (45 :: 45 :: p ++ 61 :: t) with ((45 :: 45 :: p) ++ 61 :: t). apply partition_some. cbn [In]. intuition lia.
  - apply partition_none. cbn [In]. intuition lia.
Qed.
Ltac solve_long := cbn [N.eqb Pos.eqb andb app]; destruct (starts_with _ _); cbn [app option_map snd];
  [eexists (45 :: 45 :: _); split; [reflexivity|match goal with v : option text |- _ => destruct v end; reflexivity]|reflexivity].
Lemma tuples_long p v : ~ In 61 p -> p <> [] ->
  match long_of p with
  | Some a => exists s, single_dash s = false
      /\ option_tuples (45 :: 45 :: with_value p v) = [Found (Some a) s (match v with Some _ => Some [61] | None => None end) v]
  | None => option_tuples (45 :: 45 :: with_value p v) = []
  end.
Proof.
  intros H Hp. unfold option_tuples. rewrite partition_with by exact H. change (45 =? 45) with true. cbv iota.
  unfold long_of, long_table. cbn [find fst]. tabled. destruct p as [|c p]; [contradiction|]. cbn [starts_with].
  repeat change (45 =? 104) with false. repeat change (45 =? 116) with false. repeat change (45 =? 106) with false.
  repeat change (45 =? 99) with false. repeat change (45 =? 97) with false. cbn [andb app].
  destruct (N.eqb_spec c 104) as [->|_]; [solve_long|].
  destruct (N.eqb_spec c 116) as [->|_]; [solve_long|].
  destruct (N.eqb_spec c 106) as [->|_]; [solve_long|].
  destruct (N.eqb_spec c 99) as [->|_]; [solve_long|].
  destruct (N.eqb_spec c 97) as [->|_]; [solve_long|].
  reflexivity.
Qed.

(** ** Letters *)
Definition letters_of (a : action) (s : text) : letters :=
  match s with
  | [] => Follow [] a
  | c :: e => if c =? 61 then explicit_loop a true true e else explicit_loop a true false s
  end.
Definition say_act (x : action * option text) : list saying :=
  match say (fst x) with
  | Some m => [m]
  | None => [SayPage (match snd x with Some t => t | None => [] end)]
  end.
Definition means (l : letters) : option (list saying * bool) :=
  match l with
  | Bad => None
  | Done acts x => Some (flat_map say_act acts ++ (match x with [] => [] | _ => [SayUnknown] end), false)
  | Follow acts b => if takes_argument b then Some (flat_map say_act acts, true) else Some (flat_map say_act (acts ++ [(b, None)]), false)
  end.
Lemma loop_letters a c e1 : takes_argument a = false ->
  explicit_loop a true false (c :: e1) =
    if c =? 45 then Bad
    else match letter_action c with Some a' => and_before a (letters_of a' e1) | None => Done [(a, None)] [45 :: c :: e1] end.
Proof. intros H. cbn [explicit_loop]. rewrite H, find_two. reflexivity. Qed.
Lemma loop_eq a e : takes_argument a = false -> explicit_loop a true true e = Bad.
Proof. intros H. destruct e; cbn [explicit_loop]; now rewrite H. Qed.
Lemma loop_page single sep e : explicit_loop ACp single sep e = Done [(ACp, Some e)] [].
Proof. now destruct e. Qed.
Lemma switch_takes a m : say a = Some m -> takes_argument a = false.
Proof. now destruct a. Qed.
Lemma takes_page a : takes_argument a = true -> a = ACp.
Proof. now destruct a. Qed.
Lemma no_switch a : say a = None -> a = ACp.
Proof. now destruct a. Qed.
Lemma means_before a m l : say a = Some m ->
  means (and_before a l) = match means l with Some (x, n) => Some (m :: x, n) | None => None end.
Proof.
  intros H. destruct l as [|acts x|acts b]; cbn [and_before means]; [reflexivity| |].
  - cbn [flat_map]. unfold say_act at 1. cbn [fst]. rewrite H. reflexivity.
  - destruct (takes_argument b); cbn [app flat_map]; unfold say_act at 1; cbn [fst]; rewrite H; reflexivity.
Qed.
Lemma group_letters s l next : group s l next ->
  exists c s' a, s = c :: s' /\ letter_action c = Some a /\ means (letters_of a s') = Some (l, next).
Proof.
  induction 1 as [c m HL|c m s l next HL HG IH|c v HL Hv|c HL|c m x s HL HX H45 H61].
  - apply letter_iff in HL as (a & E & Hs). exists c, [], a. split; [reflexivity|]. split; [exact E|]. cbn [letters_of means].
    rewrite (switch_takes _ _ Hs). cbn [app flat_map]. unfold say_act. cbn [fst]. now rewrite Hs.
  - apply letter_iff in HL as (a & E & Hs). destruct IH as (d & s' & a' & -> & E' & HM). exists c, (d :: s'), a.
    split; [reflexivity|]. split; [exact E|]. cbn [letters_of].
    assert (Hd : d <> 61 /\ d <> 45). { split; intros ->; discriminate E'. }
    replace (d =? 61) with false by lia. rewrite loop_letters by (now apply (switch_takes _ m)). replace (d =? 45) with false by lia.
    rewrite E'. now rewrite (means_before _ _ _ Hs), HM.
  - apply letter_iff in HL as (a & E & Hs). apply no_switch in Hs as ->. exists c, v, ACp. split; [reflexivity|]. split; [exact E|].
    destruct v as [|d e]; [contradiction|]. cbn [letters_of page_of_tail]. rewrite !loop_page. destruct (d =? 61); reflexivity.
  - apply letter_iff in HL as (a & E & Hs). apply no_switch in Hs as ->. now exists c, [], ACp.
  - apply letter_iff in HL as (a & E & Hs). apply no_letter_iff in HX. exists c, (x :: s), a. split; [reflexivity|]. split; [exact E|].
    cbn [letters_of]. replace (x =? 61) with false by lia. rewrite loop_letters by (now apply (switch_takes _ m)).
    replace (x =? 45) with false by lia. rewrite HX. cbn [means flat_map app]. unfold say_act. cbn [fst]. now rewrite Hs.
Qed.
Lemma letters_group s : forall c a l next,
  letter_action c = Some a -> means (letters_of a s) = Some (l, next) -> group (c :: s) l next.
Proof.
  induction s as [|d s IH]; intros c a l next E HM.
  - cbn [letters_of means] in HM. destruct (say a) as [m|] eqn:Hs.
    + rewrite (switch_takes _ _ Hs) in HM. cbn [app flat_map] in HM. unfold say_act in HM. cbn [fst] in HM. rewrite Hs in HM.
      injection HM as <- <-. apply group_switch. apply letter_iff. eauto.
    + apply no_switch in Hs as ->. cbn in HM. injection HM as <- <-. apply group_page_next. apply letter_iff. eauto.
  - cbn [letters_of] in HM. destruct (say a) as [m|] eqn:Hs.
    + pose proof (switch_takes _ _ Hs) as HT. destruct (N.eqb_spec d 61) as [->|H61]; [rewrite loop_eq in HM by exact HT; discriminate HM|].
      rewrite loop_letters in HM by exact HT. destruct (N.eqb_spec d 45) as [->|H45]; [discriminate HM|].
      destruct (letter_action d) as [a'|] eqn:E'.
      * rewrite (means_before _ _ _ Hs) in HM. destruct (means (letters_of a' s)) as [[x n]|] eqn:HM'; [|discriminate HM].
        injection HM as <- <-. apply group_switches; [apply letter_iff; eauto|]. exact (IH _ _ _ _ E' HM').
      * cbn [means flat_map app] in HM. unfold say_act in HM. cbn [fst] in HM. rewrite Hs in HM. injection HM as <- <-.
        apply group_spoilt; [apply letter_iff; eauto|now apply no_letter_iff|exact H45|exact H61].
    + apply no_switch in Hs as ->. rewrite !loop_page in HM. 
      assert (HP : (l, next) = ([SayPage (page_of_tail (d :: s))], false)).
      { cbn [page_of_tail]. destruct (d =? 61); injection HM as <- <-; reflexivity. }
      injection HP as -> ->. apply group_page; [apply letter_iff; eauto|discriminate].
Qed.

Section Digits.
  Variable digit : N -> bool.
  Notation parse_optional := (parse_optional digit).

  (** ** Numbers *)
  Lemma digits_iff t : digits digit t <-> forallb digit t = true.
  Proof. unfold digits. now rewrite forallb_forall, Forall_forall. Qed.
  Lemma decimal_iff r : decimal digit r = true <-> exists t u, digits digit t /\ u <> [] /\ digits digit u /\ r = t ++ 46 :: u.
  Proof.
    induction r as [|c r IH]; cbn [decimal].
    - split; [discriminate|]. intros (t & u & _ & _ & _ & E). destruct t; discriminate E.
    - rewrite Bool.orb_true_iff, !Bool.andb_true_iff, N.eqb_eq, IH, <- digits_iff. split.
      + intros [[[-> HN] HD]|[HC (t & u & H1 & H2 & H3 & ->)]].
        * exists [], r. split; [constructor|]. split; [now destruct r|]. now split.
        * exists (c :: t), u. split; [now constructor|]. now repeat split.
      + intros (t & u & H1 & H2 & H3 & E). destruct t as [|d t].
        * injection E as -> ->. left. split; [split; [reflexivity|now destruct u]|exact H3].
        * injection E as -> ->. inversion_clear H1. right. split; [assumption|]. now exists t, u.
  Qed.
  Lemma exactly_iff w : exactly_number digit w = true <->
    (exists t, t <> [] /\ digits digit t /\ w = 45 :: t) \/ exists t u, digits digit t /\ u <> [] /\ digits digit u /\ w = 45 :: t ++ 46 :: u.
  Proof.
    destruct w as [|c r]; cbn [exactly_number].
    - split; [discriminate|]. intros [(t & _ & _ & E)|(t & u & _ & _ & _ & E)]; discriminate E.
    - rewrite Bool.andb_true_iff, Bool.orb_true_iff, Bool.andb_true_iff, N.eqb_eq, decimal_iff, <- digits_iff. split.
      + intros [-> [[HN HD]|(t & u & H1 & H2 & H3 & ->)]]; [left; exists r; split; [now destruct r|now split]|right; now exists t, u].
      + intros [(t & H1 & H2 & [= -> ->])|(t & u & H1 & H2 & H3 & [= -> ->])]; (split; [reflexivity|]);
          [left; split; [now destruct t|exact H2]|right; now exists t, u].
  Qed.
  Lemma number_iff w : number digit w <-> negative_number digit w = true.
  Proof.
    unfold number, negative_number. rewrite Bool.orb_true_iff. split.
    - intros (e & [-> | ->] & H).
      + left. apply exactly_iff. destruct H as [(t & H1 & H2 & ->)|(t & u & H1 & H2 & H3 & ->)]; rewrite ?app_nil_r; eauto 8.
      + right. assert (E : exists v, w = v ++ [10] /\ exactly_number digit v = true).
        { destruct H as [(t & H1 & H2 & ->)|(t & u & H1 & H2 & H3 & ->)].
          - exists (45 :: t). split; [reflexivity|]. apply exactly_iff. eauto 8.
          - exists (45 :: t ++ 46 :: u). split; [cbn; now rewrite <- app_assoc|]. apply exactly_iff. eauto 8. }
        destruct E as (v & -> & HV). rewrite rev_app_distr. cbn [rev app]. now rewrite rev_involutive.
    - intros [H|H].
      + apply exactly_iff in H. exists []. split; [now left|].
        destruct H as [(t & H1 & H2 & ->)|(t & u & H1 & H2 & H3 & ->)]; [left; exists t|right; exists t, u]; rewrite ?app_nil_r; auto.
      + destruct (rev w) as [|c r] eqn:E; [discriminate H|]. apply andb_prop in H as [HC H]. apply N.eqb_eq in HC as ->.
        assert (EW : w = rev r ++ [10]) by (rewrite <- (rev_involutive w), E; reflexivity).
        apply exactly_iff in H. exists [10]. split; [now right|].
        destruct H as [(t & H1 & H2 & ER)|(t & u & H1 & H2 & H3 & ER)]; rewrite ER in EW; [left; exists t|right; exists t, u];
          (split; [assumption|]); rewrite EW; cbn; rewrite <- ?app_assoc; auto.
  Qed.

  (** ** One word *)
  Definition spaced (w : text) : bool := existsb (N.eqb 32) w.
  Lemma spaced_iff w : spaced w = true <-> In 32 w.
  Proof. unfold spaced. rewrite existsb_exists. split; [intros (x & H & E); apply N.eqb_eq in E; now subst|intros H; exists 32; now split]. Qed.
  Definition unknown (w : text) : parsed :=
    if negative_number digit w then Positional else if spaced w then Positional else Optional (Found None w None None).
  Lemma parse_short c s : c <> 45 -> parse_optional (45 :: c :: s) =
    match letter_action c with
    | Some a =>
      Optional (match s with
                | [] => Found (Some a) [45; c] None None
                | d :: e => if d =? 61 then Found (Some a) [45; c] (Some [61]) (Some e) else Found (Some a) [45; c] (Some []) (Some s)
                end)
    | None => unknown (45 :: c :: s)
    end.
  Proof.
    intros Hc. unfold Args.parse_optional, unknown, spaced. change (45 =? 45) with true. cbn [negb].
    destruct s as [|d e].
    - rewrite find_two. destruct (letter_action c) as [a|] eqn:E; [reflexivity|].
      rewrite (tuples_short c []) by auto. rewrite E. cbn [partition_eq]. change (45 =? 61) with false. cbv iota.
      destruct (c =? 61); reflexivity.
    - rewrite find_three by exact Hc.
      assert (HP : exists p v sep, partition_eq (45 :: c :: d :: e) = (p, sep, v)
        /\ (if sep : bool then find_option p else None) = (if d =? 61 then letter_action c else None) /\ (d =? 61 = true -> letter_action c <> None -> v = e /\ p = [45; c])).
      { cbn [partition_eq]. change (45 =? 61) with false. cbv iota. destruct (N.eqb_spec c 61) as [->|C61].
        - do 3 eexists. split; [reflexivity|]. split; [destruct (d =? 61); reflexivity|]. intros _ H. now destruct H.
        - destruct (N.eqb_spec d 61) as [->|D61].
          + do 3 eexists. split; [reflexivity|]. split; [apply find_two|]. intros _ _. now split.
          + destruct (partition_eq e) as [[p s] q]. do 3 eexists. split; [reflexivity|].
            split; [destruct s; [now apply find_three|reflexivity]|discriminate]. }
      destruct HP as (p & v & sep & -> & -> & HV). rewrite tuples_short by (auto; now left).
      destruct (N.eqb_spec d 61) as [->|D61].
      + destruct (letter_action c) as [a|]; [|reflexivity]. destruct (HV eq_refl ltac:(discriminate)) as [-> ->]. reflexivity.
      + destruct (letter_action c); reflexivity.
  Qed.
  Lemma parse_long p v : ~ In 61 p -> p <> [] ->
    match long_of p with
    | Some a => exists s, single_dash s = false
        /\ parse_optional (45 :: 45 :: with_value p v) = Optional (Found (Some a) s (match v with Some _ => Some [61] | None => None end) v)
    | None => parse_optional (45 :: 45 :: with_value p v) = unknown (45 :: 45 :: with_value p v)
    end.
  Proof.
    intros H Hp. pose proof (tuples_long p v H Hp) as HT. unfold Args.parse_optional. change (45 =? 45) with true. cbn [negb].
    rewrite (partition_with p v H).
    destruct (find_option (45 :: 45 :: with_value p v)) as [a|] eqn:F.
    - apply find_long in F as [F HN]. destruct v as [t|]; [exfalso; apply HN; cbn [with_value]; apply in_or_app; right; now left|].
      cbn [with_value] in *. rewrite F. eexists. split; [|reflexivity]. reflexivity.
    - destruct (if match v with Some _ => true | None => false end then find_option (45 :: 45 :: p) else None) as [a|] eqn:F2.
      + destruct v as [t|]; [|discriminate F2]. pose proof (find_long _ _ F2) as [FL _]. rewrite FL in *. eexists. split; [|reflexivity]. reflexivity.
      + destruct (long_of p) as [a|].
        * destruct HT as (s & Hs & ->). exists s. now split.
        * rewrite HT. reflexivity.
  Qed.
  Lemma parse_ambiguous v : parse_optional (45 :: 45 :: 61 :: v) = Ambiguous.
  Proof.
    unfold Args.parse_optional. change (45 =? 45) with true. cbn [negb].
    replace (find_option (45 :: 45 :: 61 :: v)) with (@None action).
    2: { destruct (find_option _) as [a|] eqn:F; [|reflexivity]. apply find_long in F as [_ F]. exfalso. apply F. now left. }
    change (partition_eq (45 :: 45 :: 61 :: v)) with ([45; 45], true, v). cbv iota. change (find_option [45; 45]) with (@None action).
    unfold option_tuples. change (partition_eq (45 :: 45 :: 61 :: v)) with ([45; 45], true, v). change (45 =? 45) with true. cbv iota. tabled.
    reflexivity.
  Qed.

  Definition found_means (f : found_option) : option (list saying * bool) :=
    match f_action f with None => Some ([SayUnknown], false) | Some a => means (option_letters a f) end.
  Lemma short_means a c s : c <> 45 ->
    found_means (match s with
                 | [] => Found (Some a) [45; c] None None
                 | d :: e => if d =? 61 then Found (Some a) [45; c] (Some [61]) (Some e) else Found (Some a) [45; c] (Some []) (Some s)
                 end) = means (letters_of a s).
  Proof.
    intros Hc. destruct s as [|d e]; [reflexivity|]. unfold found_means, option_letters, letters_of.
    destruct (d =? 61); cbn [f_action f_explicit f_string f_sep single_dash nonempty_text]; replace (c =? 45) with false by lia; reflexivity.
  Qed.
  Lemma long_means a s v : single_dash s = false ->
    found_means (Found (Some a) s (match v with Some _ => Some [61] | None => None end) v) =
      match say a, v with
      | Some m, None => Some ([m], false)
      | Some _, Some _ => None
      | None, Some t => Some ([SayPage t], false)
      | None, None => Some ([], true)
      end.
  Proof.
    intros Hs. unfold found_means, option_letters. cbn [f_action f_explicit f_string f_sep]. rewrite Hs.
    destruct v as [t|]; [|now destruct a]. destruct a; cbn [say]; try (destruct t; reflexivity).
  Qed.
  Lemma word_cases w :
    w = [] \/ (exists c s, c <> 45 /\ w = c :: s) \/ w = [45] \/ (exists c s, c <> 45 /\ w = 45 :: c :: s) \/ w = [45; 45]
    \/ (exists v, w = 45 :: 45 :: 61 :: v) \/ exists p v, ~ In 61 p /\ p <> [] /\ w = 45 :: 45 :: with_value p v.
  Proof.
    destruct w as [|c w]; [now left|right]. destruct (N.eq_dec c 45) as [->|H]; [right|left; eauto].
    destruct w as [|c w]; [now left|right]. destruct (N.eq_dec c 45) as [->|H]; [right|left; eauto].
    destruct (split_eq w) as [H|(p & v & H & ->)].
    - destruct w as [|c w]; [now left|]. right. right. exists (c :: w), None. split; [exact H|]. split; [discriminate|reflexivity].
    - destruct p as [|c p]; [right; left; now exists v|]. right. right. exists (c :: p), (Some v). split; [exact H|]. split; [discriminate|reflexivity].
  Qed.
  Lemma with_value_inj p v p' v' : ~ In 61 p -> ~ In 61 p' -> with_value p v = with_value p' v' -> p = p' /\ v = v'.
  Proof.
    intros H H' E. assert (EP : partition_eq (45 :: 45 :: with_value p v) = partition_eq (45 :: 45 :: with_value p' v')) by now rewrite E.
    rewrite !partition_with in EP by assumption. injection EP as -> E1 E2. split; [reflexivity|].
    destruct v, v'; cbn in E1, E2; congruence.
  Qed.
  Lemma name_no_eq p m : long_name p m -> ~ In 61 p.
  Proof.
    intros (_ & c & name & q & Hin & E) H. assert (HX : In 61 (s2t name)) by (rewrite E; apply in_or_app; now left).
    unfold switches in Hin. cbn [In] in Hin.
    repeat (destruct Hin as [Hin|Hin]; [injection Hin as _ <- _; cbn in HX; repeat (destruct HX as [HX|HX]; [discriminate HX|]); destruct HX|]).
    destruct Hin.
  Qed.
  Lemma no_option_iff w : no_option w <->
    (exists c s, c <> 45 /\ w = 45 :: c :: s /\ letter_action c = None)
    \/ exists p v, ~ In 61 p /\ p <> [] /\ w = 45 :: 45 :: with_value p v /\ long_of p = None.
  Proof.
    split.
    - intros [c s Hc HL|p Hp H61 HL|p v Hp H61 HL].
      + left. exists c, s. apply no_letter_iff in HL. auto.
      + right. exists p, None. apply no_long_iff in HL; auto.
      + right. exists p, (Some v). apply no_long_iff in HL; auto.
    - intros [(c & s & Hc & -> & HL)|(p & [v|] & H61 & Hp & -> & HL)].
      + apply no_short; [exact Hc|now apply no_letter_iff].
      + apply no_long_value; [exact Hp|exact H61|now apply no_long_iff].
      + apply no_long; [exact Hp|exact H61|now apply no_long_iff].
  Qed.
  Lemma unknown_positional w : unknown w = Positional <-> number digit w \/ In 32 w.
  Proof.
    unfold unknown. rewrite number_iff, <- spaced_iff.
    destruct (negative_number digit w), (spaced w); intuition discriminate.
  Qed.
  Lemma unknown_optional w f : unknown w = Optional f <-> ~ number digit w /\ ~ In 32 w /\ f = Found None w None None.
  Proof.
    unfold unknown. rewrite number_iff, <- spaced_iff.
    destruct (negative_number digit w), (spaced w); intuition (try discriminate; try congruence).
  Qed.
  (** No option: the two views of it. *)
  Lemma no_option_parse w : no_option w -> parse_optional w = unknown w.
  Proof.
    rewrite no_option_iff. intros [(c & s & Hc & -> & HL)|(p & v & H61 & Hp & -> & HL)].
    - rewrite parse_short, HL by exact Hc. reflexivity.
    - pose proof (parse_long p v H61 Hp) as H. now rewrite HL in H.
  Qed.
  Lemma word_plain w : plain digit w <-> parse_optional w = Positional.
  Proof.
    split.
    - intros [->|[->|[(c & s & Hc & ->)|[HN HP]]]]; [reflexivity|reflexivity| |].
      + unfold Args.parse_optional. now replace (c =? 45) with false by lia.
      + rewrite (no_option_parse w HN). now apply unknown_positional.
    - intros H. unfold plain. destruct (word_cases w) as [->|[HC|[->|[(c & s & Hc & ->)|[->|[(v & ->)|(p & v & H61 & Hp & ->)]]]]]].
      + now left.
      + right. right. now left.
      + right. now left.
      + rewrite parse_short in H by exact Hc. destruct (letter_action c) eqn:E; [discriminate H|].
        do 3 right. split; [|now apply unknown_positional]. apply no_option_iff. left. eauto.
      + discriminate H.
      + rewrite parse_ambiguous in H. discriminate H.
      + pose proof (parse_long p v H61 Hp) as HL. destruct (long_of p) eqn:E.
        * destruct HL as (s & _ & HL). rewrite HL in H. discriminate H.
        * rewrite HL in H. do 3 right. split; [|now apply unknown_positional]. apply no_option_iff. right. exists p, v. auto.
  Qed.
  Lemma word_option w l next :
    option_word digit w l next <-> exists f, parse_optional w = Optional f /\ found_means f = Some (l, next).
  Proof.
    split.
    - intros [s l' n HG|p m HL|p v HL|p HL|w' HN H1 H2].
      + destruct (group_letters _ _ _ HG) as (c & s' & a & -> & E & HM).
        assert (Hc : c <> 45) by (intros ->; discriminate E). rewrite parse_short, E by exact Hc. eexists. split; [reflexivity|].
        now rewrite short_means.
      + pose proof (name_no_eq _ _ HL) as H61. pose proof (proj1 HL) as Hp. apply long_iff in HL as (a & E & Hs); [|exact Hp].
        pose proof (parse_long p None H61 Hp) as HP. rewrite E in HP. destruct HP as (s & HS & HP). eexists. split; [exact HP|].
        rewrite (long_means a s None HS), Hs. reflexivity.
      + pose proof (name_no_eq _ _ HL) as H61. pose proof (proj1 HL) as Hp. apply long_iff in HL as (a & E & Hs); [|exact Hp].
        pose proof (parse_long p (Some v) H61 Hp) as HP. rewrite E in HP. destruct HP as (s & HS & HP). eexists. split; [exact HP|].
        rewrite (long_means a s (Some v) HS), Hs. reflexivity.
      + pose proof (name_no_eq _ _ HL) as H61. pose proof (proj1 HL) as Hp. apply long_iff in HL as (a & E & Hs); [|exact Hp].
        pose proof (parse_long p None H61 Hp) as HP. rewrite E in HP. destruct HP as (s & HS & HP). eexists. split; [exact HP|].
        rewrite (long_means a s None HS), Hs. reflexivity.
      + rewrite (no_option_parse _ HN). eexists. split; [apply unknown_optional; repeat split; assumption|reflexivity].
    - intros (f & HP & HM). destruct (word_cases w) as [->|[(c & s & Hc & ->)|[->|[(c & s & Hc & ->)|[->|[(v & ->)|(p & v & H61 & Hp & ->)]]]]]].
      + discriminate HP.
      + unfold Args.parse_optional in HP. replace (c =? 45) with false in HP by lia. discriminate HP.
      + discriminate HP.
      + rewrite parse_short in HP by exact Hc. destruct (letter_action c) as [a|] eqn:E.
        * injection HP as <-. rewrite short_means in HM by exact Hc. apply short_options. now apply (letters_group s c a).
        * apply unknown_optional in HP as (H1 & H2 & ->). injection HM as <- <-. apply unknown_option; [|exact H1|exact H2].
          apply no_option_iff. left. eauto.
      + discriminate HP.
      + rewrite parse_ambiguous in HP. discriminate HP.
      + pose proof (parse_long p v H61 Hp) as HL. destruct (long_of p) as [a|] eqn:E.
        * destruct HL as (s & HS & HL). rewrite HL in HP. injection HP as <-. rewrite (long_means a s v HS) in HM.
          assert (HN : long_name p (say a)) by (apply long_iff; eauto).
          destruct (say a) as [m|], v as [t|]; try discriminate HM; injection HM as <- <-; cbn [with_value].
          -- now apply long_switch.
          -- now apply long_page.
          -- now apply long_page_next.
        * rewrite HL in HP. apply unknown_optional in HP as (H1 & H2 & ->). injection HM as <- <-. apply unknown_option; [|exact H1|exact H2].
          apply no_option_iff. right. exists p, v. auto.
  Qed.
  Lemma word_ambiguous w : parse_optional w = Ambiguous <-> w = [45; 45] \/ exists v, w = 45 :: 45 :: 61 :: v.
  Proof.
    split.
    - intros H. destruct (word_cases w) as [->|[(c & s & Hc & ->)|[->|[(c & s & Hc & ->)|[->|[(v & ->)|(p & v & H61 & Hp & ->)]]]]]].
      + discriminate H.
      + unfold Args.parse_optional in H. replace (c =? 45) with false in H by lia. discriminate H.
      + discriminate H.
      + rewrite parse_short in H by exact Hc. destruct (letter_action c); [discriminate H|]. unfold unknown in H.
        destruct (negative_number _ _); [discriminate H|destruct (spaced _); discriminate H].
      + now left.
      + right. now exists v.
      + pose proof (parse_long p v H61 Hp) as HL. destruct (long_of p).
        * destruct HL as (s & _ & HL). rewrite HL in H. discriminate H.
        * rewrite HL in H. unfold unknown in H. destruct (negative_number _ _); [discriminate H|destruct (spaced _); discriminate H].
    - intros [->|[v ->]]; [reflexivity|apply parse_ambiguous].
  Qed.

  (** ** The list of words, from left to right *)
  Inductive reading := Settings (l : list saying) | HelpNow | Wrong.
  Definition pre (l : list saying) (r : reading) : reading := match r with Settings m => Settings (l ++ m) | _ => r end.
  Definition is_help (s : saying) : bool := match s with SayHelp => true | _ => false end.
  Fixpoint read (ws : list text) : reading :=
    match ws with
    | [] => Settings []
    | w :: r =>
      if text_eqb w two_dashes then match r with [] => Settings [SayUnknown] | _ => Settings (map SayWord r) end
      else match parse_optional w with
      | Ambiguous => Wrong
      | Positional => if match r with [d] => text_eqb d two_dashes | _ => false end then Settings [SayWord w] else pre [SayWord w] (read r)
      | Optional f =>
        match found_means f with
        | None => Wrong
        | Some (l, false) => if existsb is_help l then HelpNow else pre l (read r)
        | Some (l, true) =>
          match r with
          | [] => Wrong
          | v :: r' =>
            match parse_optional v with
            | Positional => if existsb is_help l then HelpNow else pre (l ++ [SayPage v]) (read r')
            | _ => Wrong
            end
          end
        end
      end
    end.
  Lemma help_iff l : existsb is_help l = true <-> In SayHelp l.
  Proof.
    rewrite existsb_exists. split.
    - intros (s & H & E). destruct s; try discriminate E. exact H.
    - intros H. exists SayHelp. now split.
  Qed.
  Lemma no_help_iff l : existsb is_help l = false <-> ~ In SayHelp l.
  Proof. rewrite <- help_iff. destruct (existsb is_help l); intuition discriminate. Qed.
  Lemma pre_settings l r m : pre l r = Settings m <-> exists m', r = Settings m' /\ m = l ++ m'.
  Proof.
    destruct r; cbn [pre]; split; try discriminate.
    - intros [= <-]. eauto.
    - intros (m' & [= ->] & ->). reflexivity.
    - intros (m' & [=] & _).
    - intros (m' & [=] & _).
  Qed.
  Lemma pre_help l r : pre l r = HelpNow <-> r = HelpNow.
  Proof. destruct r; cbn [pre]; intuition discriminate. Qed.
  Lemma dashes_iff w : text_eqb w two_dashes = true <-> w = two_dashes.
  Proof. apply text_eqb_eq. Qed.
  Lemma plain_no_dashes w : parse_optional w = Positional -> text_eqb w two_dashes = false.
  Proof. intros H. destruct (text_eqb w two_dashes) eqn:E; [|reflexivity]. apply dashes_iff in E as ->. discriminate H. Qed.
  Lemma option_no_dashes w f : parse_optional w = Optional f -> text_eqb w two_dashes = false.
  Proof. intros H. destruct (text_eqb w two_dashes) eqn:E; [|reflexivity]. apply dashes_iff in E as ->. discriminate H. Qed.
  Lemma single_dashes (r : list text) : match r with [d] => text_eqb d two_dashes | _ => false end = true <-> r = [two_dashes].
  Proof.
    destruct r as [|d [|e r]]; [split; discriminate| |split; discriminate]. rewrite dashes_iff. split; [now intros ->|now intros [= ->]].
  Qed.
  Lemma single_dashes_not (r : list text) : r <> [two_dashes] -> match r with [d] => text_eqb d two_dashes | _ => false end = false.
  Proof.
    intros H. destruct (match r with [d] => text_eqb d two_dashes | _ => false end) eqn:E; [|reflexivity]. now apply single_dashes in E.
  Qed.
  Lemma word_no_help (ws : list text) : ~ In SayHelp (map SayWord ws).
  Proof. intros H. apply in_map_iff in H as (x & [=] & _). Qed.

  Lemma says_read ws l : says digit ws l -> ~ In SayHelp l -> read ws = Settings l.
  Proof.
    induction 1 as [|w l r m HO HS IH|w l v r m HO HP HS IH|w r m HP HR HS IH|w HP|w r|]; intros HH; cbn [read].
    - reflexivity.
    - apply word_option in HO as (f & HF & HM). rewrite (option_no_dashes _ _ HF), HF, HM.
      rewrite (proj2 (no_help_iff l)) by (intros H; apply HH, in_or_app; now left).
      rewrite IH; [reflexivity|]. intros H; apply HH, in_or_app; now right.
    - apply word_option in HO as (f & HF & HM). apply word_plain in HP. rewrite (option_no_dashes _ _ HF), HF, HM, HP.
      rewrite (proj2 (no_help_iff l)) by (intros H; apply HH, in_or_app; now left).
      rewrite IH; [cbn [pre]; now rewrite <- app_assoc|]. intros H; apply HH, in_or_app; right; now right.
    - apply word_plain in HP. rewrite (plain_no_dashes _ HP), HP, single_dashes_not by exact HR.
      rewrite IH; [reflexivity|]. intros H; apply HH; now right.
    - apply word_plain in HP. rewrite (plain_no_dashes _ HP), HP. reflexivity.
    - reflexivity.
    - reflexivity.
  Qed.
  Lemma help_read ws : says_help digit ws -> read ws = HelpNow.
  Proof.
    induction 1 as [w l r HO HI|w l v r HO HP HI|w l r HO HS IH|w l v r HO HP HS IH|w r HP HS IH]; cbn [read].
    - apply word_option in HO as (f & HF & HM). now rewrite (option_no_dashes _ _ HF), HF, HM, (proj2 (help_iff l) HI).
    - apply word_option in HO as (f & HF & HM). apply word_plain in HP. now rewrite (option_no_dashes _ _ HF), HF, HM, HP, (proj2 (help_iff l) HI).
    - apply word_option in HO as (f & HF & HM). rewrite (option_no_dashes _ _ HF), HF, HM, IH. now destruct (existsb is_help l).
    - apply word_option in HO as (f & HF & HM). apply word_plain in HP. rewrite (option_no_dashes _ _ HF), HF, HM, HP, IH.
      now destruct (existsb is_help l).
    - apply word_plain in HP. rewrite (plain_no_dashes _ HP), HP, single_dashes_not, IH; [reflexivity|].
      intros ->. discriminate IH.
  Qed.
  Lemma read_says n : forall ws, (length ws <= n)%nat ->
    (forall l, read ws = Settings l -> says digit ws l /\ ~ In SayHelp l) /\ (read ws = HelpNow -> says_help digit ws).
  Proof.
    induction n as [|n IH]; intros [|w r] Hn; try (cbn in Hn; lia).
    - split; [|discriminate]. intros l [= <-]. split; [constructor|intros []].
    - split; [|discriminate]. intros l [= <-]. split; [constructor|intros []].
    - cbn [length] in Hn. cbn [read]. destruct (text_eqb w two_dashes) eqn:E.
      { apply dashes_iff in E as ->. destruct r as [|x r]; (split; [|discriminate]); intros l [= <-].
        - split; [constructor|]. intros [[=]|[]].
        - split; [apply says_only_words|]. apply (word_no_help (x :: r)). }
      destruct (parse_optional w) as [|f|] eqn:EP.
      + apply word_plain in EP. destruct (match r with [d] => text_eqb d two_dashes | _ => false end) eqn:ED.
        * apply single_dashes in ED as ->. split; [|discriminate]. intros l [= <-]. split; [now constructor|]. intros [[=]|[]].
        * assert (HR : r <> [two_dashes]) by (intros ->; discriminate ED).
          destruct (IH r ltac:(lia)) as [IS IHH]. split.
          -- intros l H. apply pre_settings in H as (m & HE & ->). destruct (IS m HE) as [H1 H2]. split; [now apply says_word|].
             intros [[=]|H]. now apply H2.
          -- intros H. apply pre_help in H. apply help_behind_word; auto.
      + destruct (found_means f) as [[l [|]]|] eqn:EM; [| |split; discriminate].
        * assert (HO : option_word digit w l true) by (apply word_option; eauto).
          destruct r as [|v r]; [split; discriminate|]. destruct (parse_optional v) eqn:EV; [|split; discriminate|split; discriminate].
          apply word_plain in EV. destruct (existsb is_help l) eqn:EH.
          -- split; [discriminate|]. intros _. apply help_iff in EH. now apply (help_with_page digit w l).
          -- apply no_help_iff in EH. cbn [length] in Hn. destruct (IH r ltac:(lia)) as [IS IHH]. split.
             ++ intros m H. apply pre_settings in H as (m' & HE & ->). destruct (IS m' HE) as [H1 H2]. rewrite <- app_assoc. split.
                ** now apply says_page.
                ** intros H. apply in_app_or in H as [H|[H|H]]; [auto|discriminate H|auto].
             ++ intros H. apply pre_help in H. apply (help_behind_page digit w l); auto.
        * assert (HO : option_word digit w l false) by (apply word_option; eauto).
          destruct (existsb is_help l) eqn:EH.
          -- split; [discriminate|]. intros _. apply help_iff in EH. now apply (help_now digit w l).
          -- apply no_help_iff in EH. destruct (IH r ltac:(lia)) as [IS IHH]. split.
             ++ intros m H. apply pre_settings in H as (m' & HE & ->). destruct (IS m' HE) as [H1 H2]. split.
                ** now apply says_option.
                ** intros H. apply in_app_or in H as [H|H]; auto.
             ++ intros H. apply pre_help in H. apply (help_later digit w l); auto.
      + split; discriminate.
  Qed.
  Lemma read_settings ws l : read ws = Settings l <-> says digit ws l /\ ~ In SayHelp l.
  Proof.
    split.
    - apply (read_says (length ws) ws (le_n _)).
    - intros [H1 H2]. now apply says_read.
  Qed.
  Lemma read_help ws : read ws = HelpNow <-> says_help digit ws.
  Proof. split; [apply (read_says (length ws) ws (le_n _))|apply help_read]. Qed.

  Lemma classify_none ws : classify digit ws = None <-> ambiguous ws.
  Proof.
    split.
    - induction ws as [|w r IH]; [discriminate|]. cbn [classify]. change (s2t "--") with two_dashes. intros H.
      destruct (text_eqb w two_dashes) eqn:E; [discriminate H|].
      assert (HW : w <> two_dashes) by (intros ->; discriminate E).
      assert (HR : ambiguous r -> ambiguous (w :: r)).
      { intros (b & v & a & -> & HB). exists (w :: b), v, a. split; [reflexivity|]. intros [HX|HX]; [now apply HW|auto]. }
      destruct (parse_optional w) as [|f|] eqn:EP.
      + apply HR, IH. destruct (classify digit r); [discriminate H|reflexivity].
      + apply HR, IH. destruct (classify digit r); [discriminate H|reflexivity].
      + apply word_ambiguous in EP as [->|[v ->]]; [discriminate E|]. exists [], v, r. split; [reflexivity|intros []].
    - intros (b & v & a & -> & HB). induction b as [|w b IH].
      + cbn [app classify]. rewrite parse_ambiguous. reflexivity.
      + rewrite <- app_comm_cons. cbn [classify]. change (s2t "--") with two_dashes. assert (E : text_eqb w two_dashes = false).
        { destruct (text_eqb w two_dashes) eqn:E; [|reflexivity]. apply dashes_iff in E as ->. destruct HB. now left. }
        rewrite E, IH by (intros H; apply HB; now right). now destruct (parse_optional w).
  Qed.

  (** ** The loop of the parser *)
  Definition tell (ns : namespace) (s : saying) : namespace :=
    match s with
    | SayTarget => Ns (n_file ns) true (n_json ns) (n_cp ns) (n_all ns) (n_extras ns)
    | SayJson => Ns (n_file ns) (n_target ns) true (n_cp ns) (n_all ns) (n_extras ns)
    | SayAll => Ns (n_file ns) (n_target ns) (n_json ns) (n_cp ns) true (n_extras ns)
    | SayPage p => Ns (n_file ns) (n_target ns) (n_json ns) p (n_all ns) (n_extras ns)
    | SayHelp => ns
    | SayWord w => match n_file ns with None => set_file w ns | Some _ => add_extras [w] ns end
    | SayUnknown => add_extras [[]] ns
    end.
  Definition tell_all (l : list saying) (ns : namespace) : namespace := fold_left tell l ns.
  Definition ends (ns : namespace) : parsing :=
    match n_file ns, n_extras ns with Some _, [] => Namespace ns | _, _ => Refused end.
  Definition answer (r : reading) (ns : namespace) : parsing :=
    match r with Settings l => ends (tell_all l ns) | HelpNow => Helped | Wrong => Refused end.
  (** Which words were left over does not matter. *)
  Definition same (a b : namespace) : Prop :=
    n_file a = n_file b /\ n_target a = n_target b /\ n_json a = n_json b /\ n_cp a = n_cp b /\ n_all a = n_all b
    /\ (n_extras a = [] <-> n_extras b = []).
  Lemma same_refl a : same a a.
  Proof. unfold same. intuition. Qed.
  Lemma same_trans a b c : same a b -> same b c -> same a c.
  Proof. unfold same. intuition congruence. Qed.
  Lemma app_single (l : list text) x : l ++ [x] = [] <-> False.
  Proof. split; [|intros []]. intros H. apply app_eq_nil in H as [_ [=]]. Qed.
  Lemma tell_same s a b : same a b -> same (tell a s) (tell b s).
  Proof.
    intros (H1 & H2 & H3 & H4 & H5 & H6). destruct s; unfold same; cbn [tell n_file n_target n_json n_cp n_all n_extras add_extras];
      try (repeat split; try assumption; try reflexivity; apply H6).
    - rewrite H1. destruct (n_file b) eqn:E; cbn [set_file add_extras n_file n_target n_json n_cp n_all n_extras];
        rewrite ?app_single; repeat split; try assumption; try reflexivity; try congruence; tauto.
    - rewrite !app_single. repeat split; try assumption; tauto.
  Qed.
  Lemma tell_all_same l : forall a b, same a b -> same (tell_all l a) (tell_all l b).
  Proof. induction l as [|s l IH]; intros a b H; [exact H|]. cbn. apply IH. now apply tell_same. Qed.
  Lemma ends_same a b : same a b -> ends a = ends b.
  Proof.
    intros (H1 & H2 & H3 & H4 & H5 & H6). unfold ends. rewrite H1. destruct (n_file b) as [fb|] eqn:E; [|reflexivity].
    destruct a as [f t j c al x], b as [f' t' j' c' al' x']. cbn [n_file n_target n_json n_cp n_all n_extras] in *. subst.
    destruct x, x'; try reflexivity.
    - pose proof (proj1 H6 eq_refl) as HX. discriminate HX.
    - pose proof (proj2 H6 eq_refl) as HX. discriminate HX.
  Qed.
  Lemma answer_same r a b : same a b -> answer r a = answer r b.
  Proof. intros H. destruct r; [|reflexivity|reflexivity]. cbn [answer]. now apply ends_same, tell_all_same. Qed.
  Lemma answer_pre l r ns : answer (pre l r) ns = answer r (tell_all l ns).
  Proof. destruct r; [|reflexivity|reflexivity]. cbn [pre answer]. unfold tell_all. now rewrite fold_left_app. Qed.

  (** The actions of one option *)
  Definition full (acts : list (action * option text)) : Prop := Forall (fun x => takes_argument (fst x) = true -> snd x <> None) acts.
  Definition full_letters (l : letters) : Prop := match l with Bad => True | Done acts _ => full acts | Follow acts _ => full acts end.
  Lemma full_before a l : takes_argument a = false -> full_letters l -> full_letters (and_before a l).
  Proof.
    intros Ha. destruct l; cbn [full_letters and_before]; [auto| |]; intros H; constructor; try exact H; cbn; congruence.
  Qed.
  Lemma loop_full n : forall e a single sep, (length e <= n)%nat -> full_letters (explicit_loop a single sep e).
  Proof.
    assert (HD : forall a e x, full_letters (Done [(a, Some e)] x)) by (intros; repeat constructor; discriminate).
    induction n as [|n IH]; intros [|c e] a single sep Hn; try (cbn in Hn; lia); cbn [explicit_loop].
    - destruct (takes_argument a); [apply HD|]. now destruct single.
    - destruct (takes_argument a); [apply HD|]. now destruct single.
    - destruct (takes_argument a) eqn:EA; [apply HD|]. destruct single; [|exact I]. destruct (sep || (c =? 45)); [exact I|].
      destruct (find_option [45; c]) as [b|].
      + apply full_before; [exact EA|]. destruct e as [|c1 e2]; [constructor|].
        cbn [length] in Hn. destruct (c1 =? 61); apply IH; cbn [length]; lia.
      + repeat constructor. cbn. congruence.
  Qed.
  Lemma option_full a f : full_letters (option_letters a f).
  Proof. unfold option_letters. destruct (f_explicit f) as [e|]; [|constructor]. now apply (loop_full (length e)). Qed.
  Lemma take_all_help acts : forall ns, existsb is_help (flat_map say_act acts) = true -> take_all acts ns = None.
  Proof.
    induction acts as [|[a v] r IH]; intros ns H; [discriminate H|]. cbn [flat_map] in H. rewrite existsb_app in H. cbn [take_all].
    destruct a; cbn in H |- *; try reflexivity; now apply IH.
  Qed.
  Lemma take_all_tell acts : forall ns, full acts -> existsb is_help (flat_map say_act acts) = false ->
    take_all acts ns = Some (tell_all (flat_map say_act acts) ns).
  Proof.
    induction acts as [|[a v] r IH]; intros ns HF H; [reflexivity|]. cbn [flat_map] in H. rewrite existsb_app in H. cbn [take_all].
    inversion HF as [|? ? HV HR]; subst. cbn [fst snd] in HV.
    destruct a; cbn in H; try discriminate H; cbn [take flat_map]; unfold say_act at 1; cbn [say fst snd app];
      unfold tell_all; cbn [fold_left]; fold (tell_all (flat_map say_act r)); rewrite (IH _ HR H); try reflexivity.
    destruct v; [reflexivity|]. now destruct (HV eq_refl).
  Qed.
  Lemma tell_extras l : forall x ns, same (tell_all l (add_extras x ns)) (add_extras x (tell_all l ns)).
  Proof.
    induction l as [|s l IH]; intros x ns; [apply same_refl|]. unfold tell_all. cbn [fold_left].
    change (fold_left tell l) with (tell_all l). eapply same_trans; [|apply IH]. apply tell_all_same.
    destruct s; cbn [tell]; try apply same_refl.
    - destruct ns as [[f|] t j c a e]; cbn; [|apply same_refl].
      unfold same; cbn; repeat split; intros H; repeat (apply app_eq_nil in H as [H ?]); try discriminate;
        repeat match goal with H : _ ++ _ = [] |- _ => apply app_eq_nil in H as [? ?] end; discriminate.
    - unfold same; cbn; repeat split; intros H; repeat (apply app_eq_nil in H as [H ?]); try discriminate;
        repeat match goal with H : _ ++ _ = [] |- _ => apply app_eq_nil in H as [? ?] end; discriminate.
  Qed.
  Lemma extras_unknown x (ns : namespace) : x <> [] -> same (add_extras x ns) (tell ns SayUnknown).
  Proof.
    intros Hx. unfold same. cbn. repeat split; intros H; apply app_eq_nil in H as [_ H]; [now apply Hx in H|discriminate H].
  Qed.
  Lemma help_app l m : existsb is_help (l ++ m) = (existsb is_help l || existsb is_help m).
  Proof. apply existsb_app. Qed.

  (** One option, as the loop takes it *)
  Definition wordish (k : kind) : bool := match k with KA => true | _ => false end.
  Lemma consume_means w f rest ns :
    match found_means f with
    | None => consume_optional w f rest ns = Stop Refused
    | Some (l, false) =>
      if existsb is_help l then consume_optional w f rest ns = Stop Helped
      else exists ns', consume_optional w f rest ns = Go ns' rest /\ same ns' (tell_all l ns)
    | Some (l, true) =>
      match rest with
      | (v, KA) :: rest' =>
        if existsb is_help l then consume_optional w f rest ns = Stop Helped
        else exists ns', consume_optional w f rest ns = Go ns' rest' /\ same ns' (tell_all (l ++ [SayPage v]) ns)
      | _ => consume_optional w f rest ns = Stop Refused
      end
    end.
  Proof.
    unfold found_means, consume_optional. destruct (f_action f) as [a|]; cycle 1.
    { cbn [existsb is_help orb]. eexists. split; [reflexivity|]. now apply extras_unknown. }
    pose proof (option_full a f) as HF. destruct (option_letters a f) as [|acts x|acts b]; cbn [means]; [reflexivity| |].
    - cbn [full_letters] in HF. rewrite help_app.
      replace (existsb is_help match x with [] => [] | _ :: _ => [SayUnknown] end) with false by now destruct x. rewrite orb_false_r.
      destruct (existsb is_help (flat_map say_act acts)) eqn:EH.
      + now rewrite take_all_help.
      + rewrite take_all_tell by assumption. cbn [taken]. eexists. split; [reflexivity|].
        unfold tell_all at 2. rewrite fold_left_app. fold (tell_all (flat_map say_act acts) ns).
        eapply same_trans; [apply tell_extras|]. destruct x as [|y x].
        * cbn [fold_left]. unfold same, add_extras. cbn. rewrite app_nil_r. intuition.
        * cbn [fold_left]. apply extras_unknown. discriminate.
    - cbn [full_letters] in HF. destruct (takes_argument b) eqn:EB.
      + destruct rest as [|[v [|g|]] rest]; try reflexivity.
        assert (HB : b = ACp) by (destruct b; try discriminate EB; reflexivity). subst b.
        assert (HE : flat_map say_act (acts ++ [(ACp, Some v)]) = flat_map say_act acts ++ [SayPage v]) by (rewrite flat_map_app; reflexivity).
        destruct (existsb is_help (flat_map say_act acts)) eqn:EH.
        * rewrite take_all_help; [reflexivity|]. rewrite HE, help_app, EH. reflexivity.
        * rewrite take_all_tell, HE; [| |rewrite HE, help_app, EH; reflexivity].
          -- cbn [taken]. eexists. split; [reflexivity|apply same_refl].
          -- apply Forall_app. split; [exact HF|]. repeat constructor. discriminate.
      + destruct (existsb is_help (flat_map say_act (acts ++ [(b, None)]))) eqn:EH.
        * rewrite take_all_help by exact EH. reflexivity.
        * rewrite take_all_tell; [| |exact EH].
          -- cbn [taken]. eexists. split; [reflexivity|apply same_refl].
          -- apply Forall_app. split; [exact HF|]. repeat constructor. cbn. congruence.
  Qed.

  (** Behind the last option *)
  Lemma finish_ends l ns : finish l ns = ends (add_extras (map fst (snd (consume_positionals l ns))) (fst (consume_positionals l ns))).
  Proof. unfold finish, ends. destruct (consume_positionals l ns) as [ns1 l1]. reflexivity. Qed.
  Lemma add_nothing ns : add_extras [] ns = ns.
  Proof. destruct ns. unfold add_extras. cbn. now rewrite app_nil_r. Qed.
  Lemma add_twice x y ns : add_extras y (add_extras x ns) = add_extras (x ++ y) ns.
  Proof. unfold add_extras. cbn. now rewrite app_assoc. Qed.
  Lemma tell_words r : forall ns f, n_file ns = Some f -> tell_all (map SayWord r) ns = add_extras r ns.
  Proof.
    induction r as [|w r IH]; intros ns f H; [now rewrite add_nothing|]. unfold tell_all. cbn [map fold_left tell]. rewrite H.
    change (fold_left tell (map SayWord r)) with (tell_all (map SayWord r)). rewrite (IH _ f), add_twice; [reflexivity|exact H].
  Qed.
  Lemma extras_grow l : forall ns, n_extras ns <> [] -> ends (tell_all l ns) = Refused.
  Proof.
    induction l as [|s l IH]; intros ns H.
    - cbn. unfold ends. destruct (n_file ns), (n_extras ns); try reflexivity. now destruct H.
    - unfold tell_all. cbn [fold_left]. apply IH. destruct s; cbn; try exact H.
      + destruct (n_file ns); cbn; [|exact H]. now rewrite app_single.
      + now rewrite app_single.
  Qed.
  Lemma fst_words (r : list text) : map fst (map (fun x => (x, KA)) r) = r.
  Proof. rewrite map_map. apply map_id. Qed.
  Lemma no_option_words (r : list text) : existsb is_option (map (fun x => (x, KA)) r) = false.
  Proof. induction r; [reflexivity|exact IHr]. Qed.
  Lemma dashes_words (r : list text) : dashes (map (fun x => (x, KA)) r) = O.
  Proof. now destruct r. Qed.
  Lemma classify_dashes r : classify digit (two_dashes :: r) = Some ((two_dashes, KDash) :: map (fun x => (x, KA)) r).
  Proof. reflexivity. Qed.
  Lemma classify_plain w r : parse_optional w = Positional ->
    classify digit (w :: r) = match classify digit r with Some l => Some ((w, KA) :: l) | None => None end.
  Proof. intros H. cbn [classify]. change (s2t "--") with two_dashes. now rewrite (plain_no_dashes _ H), H. Qed.
  Lemma classify_option w f r : parse_optional w = Optional f ->
    classify digit (w :: r) = match classify digit r with Some l => Some ((w, KO f) :: l) | None => None end.
  Proof. intros H. cbn [classify]. change (s2t "--") with two_dashes. now rewrite (option_no_dashes _ _ H), H. Qed.
  (** The first word *)
  Lemma classify_cases w r l : classify digit (w :: r) = Some l ->
    (w = two_dashes /\ l = (two_dashes, KDash) :: map (fun x => (x, KA)) r)
    \/ (parse_optional w = Positional /\ exists lr, classify digit r = Some lr /\ l = (w, KA) :: lr)
    \/ (exists f, parse_optional w = Optional f /\ exists lr, classify digit r = Some lr /\ l = (w, KO f) :: lr).
  Proof.
    intros H. destruct (text_eqb w two_dashes) eqn:E.
    - apply dashes_iff in E as ->. rewrite classify_dashes in H. injection H as <-. now left.
    - right. destruct (parse_optional w) as [|f|] eqn:EP.
      + left. rewrite (classify_plain _ _ EP) in H. destruct (classify digit r) as [lr|]; [|discriminate H]. injection H as <-. eauto.
      + right. exists f. rewrite (classify_option _ _ _ EP) in H. destruct (classify digit r) as [lr|]; [|discriminate H]. injection H as <-. eauto.
      + exfalso. cbn [classify] in H. change (s2t "--") with two_dashes in H. rewrite E, EP in H. discriminate H.
  Qed.
  Lemma read_plain w r : parse_optional w = Positional -> r <> [two_dashes] -> read (w :: r) = pre [SayWord w] (read r).
  Proof. intros H HR. cbn [read]. now rewrite (plain_no_dashes _ H), H, single_dashes_not. Qed.
  Lemma read_dangling : read [two_dashes] = Settings [SayUnknown].
  Proof. reflexivity. Qed.
  Lemma finish_later ws : forall l ns f, n_file ns = Some f -> classify digit ws = Some l -> existsb is_option l = false ->
    finish l ns = answer (read ws) ns.
  Proof.
    intros l ns f HF HC HN. rewrite finish_ends. unfold consume_positionals. rewrite HF. cbn [fst snd].
    revert l ns HF HC HN. induction ws as [|w r IH]; intros l ns HF HC HN.
    - injection HC as <-. cbn [map]. now rewrite add_nothing.
    - assert (HX : forall x, x <> [] -> ends (add_extras x ns) = Refused).
      { intros x Hx. unfold ends, add_extras. cbn. destruct (n_file ns); [|reflexivity].
        destruct (n_extras ns ++ x) eqn:E; [|reflexivity]. apply app_eq_nil in E as [_ E]. now apply Hx in E. }
      apply classify_cases in HC as [(-> & ->)|[(HP & lr & HR & ->)|(g & HP & lr & HR & ->)]].
      + rewrite HX by discriminate. destruct r as [|x r].
        * rewrite read_dangling. unfold answer, tell_all. cbn [fold_left tell]. unfold ends, add_extras. cbn [n_file n_extras]. destruct (n_file ns); [|reflexivity].
          destruct (n_extras ns ++ [[]]) eqn:E; [now apply app_single in E|reflexivity].
        * change (read (two_dashes :: x :: r)) with (Settings (map SayWord (x :: r))). cbn [answer].
          rewrite (tell_words _ _ _ HF). symmetry. apply HX. discriminate.
      + rewrite HX by discriminate.
        assert (HW : n_extras (tell ns (SayWord w)) <> []) by (cbn [tell]; rewrite HF; cbn; now rewrite app_single).
        cbn [read]. rewrite (plain_no_dashes _ HP), HP. destruct (match r with [d] => _ | _ => _ end).
        * symmetry. exact (extras_grow [] _ HW).
        * rewrite answer_pre. change (tell_all [SayWord w] ns) with (tell ns (SayWord w)).
          cbn [existsb is_option snd orb] in HN.
          assert (HF' : n_file (tell ns (SayWord w)) = Some f) by (cbn [tell]; rewrite HF; exact HF).
          rewrite <- (IH lr _ HF' HR HN). symmetry. apply (extras_grow []). cbn [add_extras n_extras].
          intros E. apply app_eq_nil in E as [E _]. now apply HW in E.
      + discriminate HN.
  Qed.
  Lemma finish_read ws l ns : classify digit ws = Some l -> existsb is_option l = false -> finish l ns = answer (read ws) ns.
  Proof.
    intros HC HN. destruct (n_file ns) as [f|] eqn:HF; [now apply (finish_later ws l ns f)|].
    destruct ws as [|w r].
    { injection HC as <-. rewrite finish_ends. unfold consume_positionals. rewrite HF. cbn. now rewrite add_nothing. }
    apply classify_cases in HC as [(-> & ->)|[(HP & lr & HR & ->)|(g & HP & lr & HR & ->)]].
    - destruct r as [|x r].
      + rewrite finish_ends. unfold consume_positionals. rewrite HF, read_dangling. cbn. unfold ends. cbn. now rewrite HF.
      + rewrite finish_ends. unfold consume_positionals. rewrite HF.
        assert (HFC : file_count ((two_dashes, KDash) :: map (fun x => (x, KA)) (x :: r)) = 2%nat).
        { unfold file_count. cbn [map dashes skipn]. now rewrite dashes_words. }
        rewrite HFC. cbn [map firstn skipn fst]. change (remove_dashes [two_dashes; x]) with [x]. cbn [fst snd]. rewrite fst_words.
        change (read (two_dashes :: x :: r)) with (Settings (map SayWord (x :: r))). cbn [answer map].
        unfold tell_all. cbn [fold_left tell]. rewrite HF. fold (tell_all (map SayWord r) (set_file x ns)).
        now rewrite (tell_words _ _ x).
    - cbn [existsb is_option snd orb] in HN. rewrite finish_ends. unfold consume_positionals. rewrite HF.
      pose proof (plain_no_dashes _ HP) as HD.
      assert (HRD : forall k, remove_dashes (map fst (firstn (1 + k) ((w, KA) :: lr))) = w :: remove_dashes (map fst (firstn k lr))).
      { intros k. cbn [Nat.add firstn map fst remove_dashes]. change (s2t "--") with two_dashes. now rewrite HD. }
      assert (HFC : file_count ((w, KA) :: lr) = (1 + dashes lr)%nat) by reflexivity.
      rewrite HFC, HRD. change (skipn (1 + dashes lr) ((w, KA) :: lr)) with (skipn (dashes lr) lr).
      assert (HL : dashes lr = O \/ exists r2, r = two_dashes :: r2).
      { destruct r as [|x r2]; [injection HR as <-; now left|].
        apply classify_cases in HR as [(-> & ->)|[(HP2 & lr2 & HR2 & ->)|(g & HP2 & lr2 & HR2 & ->)]]; [right; eauto|now left|now left]. }
      destruct HL as [HL|[r2 ->]].
      + rewrite HL. cbn [firstn map remove_dashes skipn fst snd].
        assert (HR' : r <> [two_dashes]) by (intros ->; injection HR as <-; discriminate HL).
        rewrite (read_plain _ _ HP HR'), answer_pre. change (tell_all [SayWord w] ns) with (tell ns (SayWord w)). cbn [tell]. rewrite HF.
        rewrite <- (finish_later r lr (set_file w ns) w eq_refl HR HN), finish_ends. reflexivity.
      + rewrite classify_dashes in HR. injection HR as <-.
        cbn [dashes]. rewrite dashes_words. cbn [firstn map fst skipn]. change (remove_dashes [two_dashes]) with (@nil text). cbn [fst snd].
        rewrite fst_words. cbn [read]. rewrite HD, HP. destruct r2 as [|x r2].
        * change (text_eqb two_dashes two_dashes) with true. cbn iota. cbn [answer]. unfold tell_all. cbn [fold_left tell].
          rewrite HF, add_nothing. reflexivity.
        * cbn [text_eqb]. change (text_eqb two_dashes two_dashes) with true. cbn iota.
          rewrite answer_pre. change (tell_all [SayWord w] ns) with (tell ns (SayWord w)). cbn [tell answer]. rewrite HF.
          now rewrite (tell_words _ _ w).
    - discriminate HN.
  Qed.
  (** With FILE known, the words before an option are left over. *)
  Lemma skip_word fuel w l ns f : n_file ns = Some f -> existsb is_option l = true ->
    parse_loop fuel ((w, KA) :: l) ns = parse_loop fuel l (add_extras [w] ns).
  Proof.
    intros HF HO. destruct fuel as [|fuel]; [reflexivity|]. cbn [parse_loop]. cbn [existsb is_option snd orb]. rewrite HO.
    enough (HE : one_step ((w, KA) :: l) ns = one_step l (add_extras [w] ns)) by now rewrite HE.
    assert (HA : at_option ((w, KA) :: l) ns = at_option l (add_extras [w] ns)).
    { unfold at_option. cbn [to_option is_option snd fst]. destruct (to_option l) as [x l'].
      destruct l' as [|[v [|g|]] l']; rewrite ?add_twice; reflexivity. }
    assert (H1 : one_step ((w, KA) :: l) ns = at_option ((w, KA) :: l) ns).
    { unfold one_step, consume_positionals. rewrite HF. now rewrite Nat.ltb_irrefl. }
    rewrite H1, HA. unfold one_step, consume_positionals. cbn [add_extras n_file]. rewrite HF.
    destruct l as [|[v [|g|]] l]; [reflexivity| |reflexivity|]; now rewrite Nat.ltb_irrefl.
  Qed.
  Lemma loop_read n : forall ws l ns fuel, (length ws <= n)%nat -> classify digit ws = Some l -> (length l < fuel)%nat ->
    parse_loop fuel l ns = answer (read ws) ns.
  Proof.
    induction n as [|n IH]; intros ws l ns fuel Hn HC HL.
    - destruct ws; [|cbn in Hn; lia]. injection HC as <-. destruct fuel; [cbn in HL; lia|]. now apply finish_read.
    - destruct fuel as [|fuel]; [lia|]. destruct (existsb is_option l) eqn:HO; cycle 1.
      { cbn [parse_loop]. rewrite HO. now apply finish_read. }
      destruct ws as [|w r]; [injection HC as <-; discriminate HO|]. cbn [length] in Hn.
      apply classify_cases in HC as [(-> & ->)|[(HP & lr & HR & ->)|(g & HP & lr & HR & ->)]].
      + cbn [existsb is_option snd orb] in HO. rewrite no_option_words in HO. discriminate HO.
      + cbn [existsb is_option snd orb length] in HO, HL.
        assert (HR' : r <> [two_dashes]) by (intros ->; injection HR as <-; discriminate HO).
        rewrite (read_plain _ _ HP HR'), answer_pre. change (tell_all [SayWord w] ns) with (tell ns (SayWord w)). cbn [tell].
        destruct (n_file ns) as [f|] eqn:HF.
        * rewrite (skip_word _ _ _ _ f HF HO). apply IH; [lia|exact HR|lia].
        * cbn [parse_loop]. cbn [existsb is_option snd orb]. rewrite HO.
          assert (HD : dashes lr = O).
          { destruct r as [|x r2]; [injection HR as <-; reflexivity|].
            apply classify_cases in HR as [(-> & ->)|[(HP2 & lr2 & HR2 & ->)|(g & HP2 & lr2 & HR2 & ->)]]; [|reflexivity|reflexivity].
            cbn [existsb is_option snd orb] in HO. rewrite no_option_words in HO. discriminate HO. }
          assert (HS : one_step ((w, KA) :: lr) ns = Go (set_file w ns) lr).
          { unfold one_step, consume_positionals. rewrite HF.
            assert (HFC : file_count ((w, KA) :: lr) = 1%nat) by (change (file_count ((w, KA) :: lr)) with (1 + dashes lr)%nat; now rewrite HD).
            rewrite HFC. cbn [firstn map fst remove_dashes skipn]. change (s2t "--") with two_dashes. rewrite (plain_no_dashes _ HP).
            cbn [length]. now rewrite (proj2 (Nat.ltb_lt _ _) (Nat.lt_succ_diag_r _)). }
          rewrite HS. apply IH; [lia|exact HR|lia].
      + cbn [parse_loop existsb is_option snd orb]. change (one_step ((w, KO g) :: lr) ns) with (consume_optional w g lr (add_extras [] ns)).
        rewrite add_nothing. cbn [length] in HL. cbn [read]. rewrite (option_no_dashes _ _ HP), HP.
        pose proof (consume_means w g lr ns) as HM. destruct (found_means g) as [[m [|]]|]; [| |now rewrite HM].
        * destruct r as [|v r]; [injection HR as <-; now rewrite HM|].
          apply classify_cases in HR as [(-> & ->)|[(HP2 & lr2 & HR2 & ->)|(g2 & HP2 & lr2 & HR2 & ->)]].
          -- change (parse_optional two_dashes) with Ambiguous. now rewrite HM.
          -- rewrite HP2. destruct (existsb is_help m); [now rewrite HM|]. destruct HM as (ns' & -> & HS).
             rewrite answer_pre, <- (answer_same _ _ _ HS). cbn [length] in Hn, HL. apply IH; [lia|exact HR2|lia].
          -- rewrite HP2. now rewrite HM.
        * destruct (existsb is_help m); [now rewrite HM|]. destruct HM as (ns' & -> & HS).
          rewrite answer_pre, <- (answer_same _ _ _ HS). apply IH; [lia|exact HR|lia].
  Qed.
  Lemma parse_read ws : ~ ambiguous ws -> parse_args digit ws = answer (read ws) defaults.
  Proof.
    intros H. unfold parse_args. destruct (classify digit ws) as [l|] eqn:E; [|now apply classify_none in E].
    apply (loop_read (length ws) ws l); [lia|exact E|lia].
  Qed.

  (** ** What is asked for *)
  Lemma told_target l : forall ns, n_target (tell_all l ns) = true <-> n_target ns = true \/ In SayTarget l.
  Proof.
    induction l as [|s l IH]; intros ns; [cbn; tauto|]. unfold tell_all. cbn [fold_left In]. fold (tell_all l (tell ns s)). rewrite IH.
    destruct s; cbn [tell n_target add_extras]; try (intuition congruence). destruct (n_file ns); cbn; intuition congruence.
  Qed.
  Lemma told_json l : forall ns, n_json (tell_all l ns) = true <-> n_json ns = true \/ In SayJson l.
  Proof.
    induction l as [|s l IH]; intros ns; [cbn; tauto|]. unfold tell_all. cbn [fold_left In]. fold (tell_all l (tell ns s)). rewrite IH.
    destruct s; cbn [tell n_json add_extras]; try (intuition congruence). destruct (n_file ns); cbn; intuition congruence.
  Qed.
  Lemma told_all l : forall ns, n_all (tell_all l ns) = true <-> n_all ns = true \/ In SayAll l.
  Proof.
    induction l as [|s l IH]; intros ns; [cbn; tauto|]. unfold tell_all. cbn [fold_left In]. fold (tell_all l (tell ns s)). rewrite IH.
    destruct s; cbn [tell n_all add_extras]; try (intuition congruence). destruct (n_file ns); cbn; intuition congruence.
  Qed.
  Lemma told_page l : forall ns, n_cp (tell_all l ns) = last_page (n_cp ns) l.
  Proof.
    induction l as [|s l IH]; intros ns; [reflexivity|]. unfold tell_all. cbn [fold_left last_page]. fold (tell_all l (tell ns s)). rewrite IH.
    destruct s; cbn [tell n_cp add_extras]; try reflexivity. now destruct (n_file ns).
  Qed.
  Lemma told_later l : forall ns f, n_file ns = Some f ->
    n_file (tell_all l ns) = Some f /\ (n_extras (tell_all l ns) = [] <-> n_extras ns = [] /\ words_of l = [] /\ ~ In SayUnknown l).
  Proof.
    induction l as [|s l IH]; intros ns f HF; [cbn; intuition|]. unfold tell_all. cbn [fold_left]. fold (tell_all l (tell ns s)).
    assert (HF' : n_file (tell ns s) = Some f) by (destruct s; cbn [tell]; try exact HF; rewrite HF; exact HF).
    destruct (IH _ _ HF') as [H1 H2]. split; [exact H1|]. rewrite H2. unfold words_of. cbn [flat_map In].
    fold (words_of l). destruct s; cbn [tell n_extras add_extras app]; try (intuition congruence).
    - rewrite HF. cbn [add_extras n_extras]. rewrite app_single. intuition congruence.
    - rewrite app_single. intuition.
  Qed.
  Lemma told_first l : forall ns, n_file ns = None ->
    forall f, n_file (tell_all l ns) = Some f /\ n_extras (tell_all l ns) = [] <-> n_extras ns = [] /\ words_of l = [f] /\ ~ In SayUnknown l.
  Proof.
    induction l as [|s l IH]; intros ns HF f.
    { cbn. rewrite HF. intuition discriminate. }
    unfold tell_all. cbn [fold_left]. fold (tell_all l (tell ns s)). unfold words_of. cbn [flat_map In]. fold (words_of l).
    destruct s; try (rewrite IH by exact HF; cbn [tell n_extras add_extras app]; rewrite ?app_single; intuition congruence).
    cbn [tell]. rewrite HF. destruct (told_later l (set_file w ns) w eq_refl) as [H1 H2]. rewrite H1, H2. cbn [set_file n_extras app].
    intuition congruence.
  Qed.
  Definition request_of (f : text) (ns : namespace) : request := Request f (n_target ns) (n_json ns) (n_cp ns) (n_all ns).
  Definition namespace_of (q : request) : namespace := Ns (Some (q_file q)) (q_target q) (q_json q) (q_page q) (q_all q) [].
  Lemma ends_asks l q : ~ In SayHelp l -> ends (tell_all l defaults) = Namespace (namespace_of q) <-> asks l q.
  Proof.
    intros HH. pose proof (told_first l defaults eq_refl) as HW. pose proof (told_target l defaults) as HT.
    pose proof (told_json l defaults) as HJ. pose proof (told_all l defaults) as HA. pose proof (told_page l defaults) as HP.
    assert (HB : forall a b P, (a = true <-> false = true \/ P) -> (b = true <-> P) <-> a = b).
    { intros [|] [|] P H; intuition; try discriminate; try congruence. }
    unfold asks. destruct q as [f t j p a]. cbn [namespace_of q_file q_target q_json q_page q_all]. cbn [defaults n_target n_json n_all n_cp] in HT, HJ, HA, HP.
    rewrite (HB _ t _ HT), (HB _ j _ HJ), (HB _ a _ HA), <- HP. split.
    - intros H. unfold ends in H. destruct (n_file (tell_all l defaults)) as [g|] eqn:EF; [|discriminate H].
      destruct (n_extras (tell_all l defaults)) eqn:EX; [|discriminate H]. injection H as H. rewrite H in *. cbn in *.
      injection EF as <-. destruct (proj1 (HW f)) as (_ & H1 & H2); [now split|]. intuition.
    - intros (H1 & _ & H2 & H3 & H4 & H5 & H6). destruct (proj2 (HW f)) as [E1 E2]; [now split|].
      unfold ends. rewrite E1, E2. f_equal. clear - E1 E2 H3 H4 H5 H6.
      destruct (tell_all l defaults) as [f' t' j' c' a' x']. cbn [n_file n_target n_json n_cp n_all n_extras] in *. subst. reflexivity.
  Qed.
  Lemma ends_full l : ends (tell_all l defaults) = Refused \/ exists q, ends (tell_all l defaults) = Namespace (namespace_of q).
  Proof.
    unfold ends. destruct (tell_all l defaults) as [[f|] t j c a [|x e]]; cbn; auto. right. now exists (Request f t j c a).
  Qed.

  Lemma args_request argv q : parse_args digit argv = Namespace (namespace_of q) <-> ~ ambiguous argv /\ exists l, says digit argv l /\ asks l q.
  Proof.
    split.
    - intros H. assert (HA : ~ ambiguous argv).
      { intros HA. apply classify_none in HA. unfold parse_args in H. rewrite HA in H. discriminate H. }
      split; [exact HA|]. rewrite (parse_read _ HA) in H. destruct (read argv) as [l| |] eqn:E; try discriminate H.
      apply read_settings in E as [E1 E2]. exists l. split; [exact E1|]. now apply ends_asks.
    - intros (HA & l & HS & HQ). assert (HH : ~ In SayHelp l) by apply HQ.
      rewrite (parse_read _ HA), (proj2 (read_settings argv l)) by now split. now apply ends_asks.
  Qed.
  Lemma args_help argv : parse_args digit argv = Helped <-> ~ ambiguous argv /\ says_help digit argv.
  Proof.
    split.
    - intros H. assert (HA : ~ ambiguous argv).
      { intros HA. apply classify_none in HA. unfold parse_args in H. rewrite HA in H. discriminate H. }
      split; [exact HA|]. rewrite (parse_read _ HA) in H. apply read_help. destruct (read argv) as [l| |] eqn:E; [|reflexivity|discriminate H].
      cbn [answer] in H. destruct (ends_full l) as [HE|[q HE]]; rewrite HE in H; discriminate H.
    - intros [HA HS]. rewrite (parse_read _ HA), (proj2 (read_help argv) HS). reflexivity.
  Qed.
  Lemma args_full argv : parse_args digit argv = Helped \/ parse_args digit argv = Refused \/ exists q, parse_args digit argv = Namespace (namespace_of q).
  Proof.
    destruct (classify digit argv) eqn:E.
    - assert (HA : ~ ambiguous argv) by (intros HA; apply classify_none in HA; congruence). rewrite (parse_read _ HA).
      destruct (read argv) as [m| |]; cbn [answer]; auto. right. apply ends_full.
    - right. left. unfold parse_args. now rewrite E.
  Qed.
End Digits.
