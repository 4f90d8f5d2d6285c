(** * lnk_command and main (C43, C44, C49) *)
From Verif Require Import Lemmas PyTime Codec Utils Header StringData Targets Info Extra LnkFile Json Report.
From Verif Require Import Spec SpecText SpecCommand LayoutProofs ApiProofs WarnProofs ConstructProofs StringProofs.

Lemma split_backslashes k : forall rest n q a,
  split_from (repeat 92 k ++ rest) n q a = split_from rest (n + k) q a.
Proof.
  induction k as [|k IH]; intros rest n q a; cbn [repeat app]; [now rewrite Nat.add_0_r|].
  cbn [split_from]. change (92 =? 92) with true. cbv iota. rewrite IH. f_equal. lia.
Qed.

Definition more (a : option text) (x : text) : option text := match x with [] => a | _ => collect a x end.
Lemma more_more a x y : more (more a x) y = more a (x ++ y).
Proof.
  destruct x as [|c x]; [reflexivity|]. destruct y as [|d y]; cbn [more app]; [now rewrite app_nil_r|].
  unfold collect. destruct a; now rewrite <- ?app_assoc.
Qed.
Lemma collect_more a x y : collect (more a x) y = collect a (x ++ y).
Proof. destruct x; [reflexivity|]. unfold collect. cbn. destruct a; cbn; now rewrite <- ?app_assoc. Qed.
Lemma collect_is_more a x : x <> [] -> collect a x = more a x.
Proof. now destruct x. Qed.
Lemma repeat_add (n m : nat) : repeat 92 n ++ repeat 92 m = repeat 92 (n + m).
Proof. symmetry. apply repeat_app. Qed.

(** Splitting what the quoting loop produces. *)
Lemma split_loop q arg : (q = false -> existsb (N.eqb 32) arg || existsb (N.eqb 9) arg = false) ->
  forall bs, exists x, repeat 92 bs ++ arg = x ++ repeat 92 (snd (l2c_loop arg bs))
    /\ forall rest a, split_from (fst (l2c_loop arg bs) ++ rest) 0 q a = split_from rest 0 q (more a x).
Proof.
  induction arg as [|c arg IH]; intros Hq bs.
  - exists []. cbn. now rewrite app_nil_r.
  - assert (Hq' : q = false -> existsb (N.eqb 32) arg || existsb (N.eqb 9) arg = false).
    { intros H. specialize (Hq H). cbn [existsb] in Hq. destruct (existsb (N.eqb 32) arg), (existsb (N.eqb 9) arg); lia. }
    assert (Hc : q = false -> (c =? 32) || (c =? 9) = false).
    { intros H. specialize (Hq H). cbn [existsb] in Hq. lia. }
    specialize (IH Hq'). cbn [l2c_loop]. destruct (c =? 92) eqn:E1.
    + apply N.eqb_eq in E1. subst c. destruct (IH (S bs)) as (x & H1 & H2). exists x. split; [|exact H2].
      rewrite <- H1. cbn [repeat]. rewrite repeat_cons, <- app_assoc. reflexivity.
    + destruct (IH 0%nat) as (x & H1 & H2). destruct (l2c_loop arg 0) as [out b]. cbn [fst snd] in *.
      cbn [repeat app] in H1. destruct (c =? 34) eqn:E2.
      * apply N.eqb_eq in E2. subst c. exists (repeat 92 bs ++ 34 :: x). split.
        { rewrite H1, <- app_assoc. reflexivity. }
        intros rest a. cbn [fst]. rewrite <- app_assoc, split_backslashes. cbn [app split_from].
        change (92 =? 92) with true. cbv iota. change (34 =? 92) with false. change (34 =? 34) with true. cbv iota.
        replace (Nat.odd (S (0 + bs * 2))) with true.
        2: { symmetry. rewrite Nat.odd_succ, Nat.even_add, Nat.even_mul. now rewrite orb_true_r. }
        replace (S (0 + bs * 2) / 2)%nat with bs by (apply (Nat.div_unique _ 2 bs 1); lia).
        rewrite H2. f_equal. rewrite collect_is_more by (now destruct bs). rewrite more_more, <- app_assoc. reflexivity.
      * exists (repeat 92 bs ++ c :: x). split.
        { rewrite H1, <- app_assoc. reflexivity. }
        intros rest a. cbn [fst]. rewrite <- app_assoc, split_backslashes. cbn [app split_from].
        rewrite E1, E2. replace (negb q && ((c =? 32) || (c =? 9))) with false.
        2: { destruct q; [reflexivity|]. now rewrite Hc. }
        rewrite H2. f_equal. rewrite collect_is_more by (now destruct bs). rewrite more_more, <- app_assoc. reflexivity.
Qed.

(** What may follow the quoted argument: the end or a separator. *)
Definition separated (rest : text) : Prop := match rest with [] => True | c :: _ => c = 32 end.
Definition arguments_after (rest : text) : list text := match rest with [] => [] | _ :: r => arguments_of r end.

Lemma split_quoted p rest : separated rest ->
  arguments_of (list2cmdline1 p ++ rest) = p :: arguments_after rest.
Proof.
  intros Hs. unfold list2cmdline1.
  destruct (existsb (N.eqb 32) p || existsb (N.eqb 9) p || (lenN p =? 0)) eqn:Eq.
  - destruct (split_loop true p ltac:(discriminate) 0) as (x & H1 & H2). cbn [repeat app] in H1.
    destruct (l2c_loop p 0) as [out b]. cbn [fst snd] in *.
    unfold arguments_of. cbn [app split_from]. change (34 =? 92) with false. change (34 =? 34) with true.
    change (Nat.odd 0) with false. cbv iota. cbn [Nat.div Nat.divmod fst repeat negb andb].
    assert (E : split_from ((out ++ repeat 92 b ++ repeat 92 b ++ [34]) ++ rest) 0 true (collect None []) = p :: arguments_after rest).
    { rewrite <- !app_assoc, H2, !split_backslashes. cbn [app split_from].
      change (34 =? 92) with false. change (34 =? 34) with true. cbv iota.
      replace (Nat.odd (0 + b + b)) with false
        by (symmetry; rewrite <- Nat.negb_even, Nat.add_0_l, Nat.even_add; now destruct (Nat.even b)).
      replace ((0 + b + b) / 2)%nat with b by (apply (Nat.div_unique _ 2 b 0); lia).
      assert (EX : collect (more (collect None []) x) (repeat 92 b) = Some p).
      { rewrite collect_more, <- H1. reflexivity. }
      destruct rest as [|c r].
      - cbn [split_from with_backslashes]. rewrite EX. reflexivity.
      - cbn in Hs. subst c. change (true && (32 =? 34)) with false. cbv iota. rewrite EX.
        cbn [split_from]. change (32 =? 92) with false. change (32 =? 34) with false. cbv iota. reflexivity. }
    rewrite E. now destruct ((out ++ repeat 92 b ++ repeat 92 b ++ [34]) ++ rest).
  - apply orb_false_elim in Eq as [Eq El].
    destruct (split_loop false p (fun _ => Eq) 0) as (x & H1 & H2). cbn [repeat app] in H1.
    destruct (l2c_loop p 0) as [out b]. cbn [fst snd] in *.
    unfold arguments_of. rewrite <- !app_assoc, H2, split_backslashes.
    assert (EX : with_backslashes (0 + b) (more None x) = Some p).
    { cbn [Nat.add]. destruct b as [|b].
      - cbn [with_backslashes repeat] in *. rewrite app_nil_r in H1. subst x.
        destruct p; [discriminate|]. reflexivity.
      - cbn [with_backslashes]. rewrite collect_more, <- H1. reflexivity. }
    destruct rest as [|c r].
    + cbn [split_from]. rewrite EX. reflexivity.
    + cbn in Hs. subst c. cbn [split_from]. change (32 =? 92) with false. change (32 =? 34) with false. cbv iota.
      cbn [negb andb orb N.eqb]. rewrite EX. reflexivity.
Qed.

(** ** lnk_command *)

Lemma sd_get_found b cp found name sd :
  sd_data sd = map (entry (bit_set 7 b) cp) found -> sd_get name sd = text_of b cp found name.
Proof.
  unfold sd_get, text_of. intros ->. induction found as [|[k f] found IH]; [reflexivity|].
  cbn [map entry dget fst snd find]. destruct (String.eqb name k); [reflexivity|exact IH].
Qed.
Lemma text_of_found b cp found name :
  text_of b cp found name = None <-> existsb (fun f => String.eqb name (fst f)) found = false.
Proof.
  unfold text_of. induction found as [|[k f] found IH]; [now split|]. cbn [find existsb fst].
  destruct (String.eqb name k); [now split|exact IH].
Qed.
Lemma found_announced b found e cut i name limited :
  string_walk b string_fields (info_end b) found e cut -> In (i, name, limited) string_fields ->
  existsb (fun f => String.eqb name (fst f)) found = true -> bit_set i b = true.
Proof.
  intros HW Hin H. destruct (walk_keys _ _ _ _ _ _ HW) as (rest & HE & _).
  assert (HI : In name (map (fun f => snd (fst f)) (filter (fun f : N * string * bool => bit_set (fst (fst f)) b) string_fields))).
  { rewrite HE. apply in_or_app. left. apply existsb_exists in H as ([k f] & Hi & Hk). apply String.eqb_eq in Hk.
    cbn in Hk. subst k. apply in_map_iff. now exists (name, f). }
  apply in_map_iff in HI as ([[j n] lim] & E & Hf). cbn in E. subst n.
  apply filter_In in Hf as [Hf Hb]. cbn in Hb.
  assert (j = i); [|now subst].
  clear - Hin Hf. unfold string_fields in *. cbn in Hin, Hf.
  repeat match goal with H : _ \/ _ |- _ => destruct H as [H|H] end; try contradiction; congruence.
Qed.

(** The outcome, for every file that is accepted. *)
Lemma command_outcome b cp allow l found e cut :
  usable cp -> snd (lnk_init (FromBytes b) cp allow) = Ok l ->
  string_walk b string_fields (info_end b) found e cut ->
  lnk_command l
  = ([], if missing b found 3 "relative_path" || missing b found 5 "command_line_arguments" then Err TypeError
         else Ok (join (s2t " ")
           (match text_of b cp found "relative_path" with Some p => [list2cmdline1 p] | None => [] end
            ++ match text_of b cp found "command_line_arguments" with Some a => [a] | None => [] end))).
Proof.
  intros Hcp Hl HW. pose proof (predicates_of_flags b cp allow l Hl) as HF.
  destruct (init_constructed b cp allow l Hcp Hl) as [HC _].
  destruct (construct_full b cp allow Hcp HC) as (l' & found' & cut' & wx & HI & HW' & HD & _).
  rewrite HI in Hl. injection Hl as ->. destruct (string_walk_det _ _ _ _ _ _ _ _ _ HW HW') as (<- & _ & _). clear HW' HI.
  unfold lnk_command. rewrite (HF "HasRelativePath"%string 3) by (vm_compute; tauto).
  rewrite (HF "HasArguments"%string 5) by (vm_compute; tauto).
  rewrite !bind_ret_l, !(sd_get_found b cp found) by exact HD.
  unfold missing.
  pose proof (found_announced b found e cut 3 "relative_path" true HW) as A3.
  pose proof (found_announced b found e cut 5 "command_line_arguments" false HW) as A5.
  pose proof (text_of_found b cp found "relative_path") as T3.
  pose proof (text_of_found b cp found "command_line_arguments") as T5.
  specialize (A3 ltac:(cbn; tauto)). specialize (A5 ltac:(cbn; tauto)).
  set (p := text_of b cp found "relative_path") in *.
  set (a := text_of b cp found "command_line_arguments") in *. clearbody p a.
  set (e3 := existsb (fun f : string * bytes => String.eqb "relative_path" (fst f)) found) in *.
  set (e5 := existsb (fun f : string * bytes => String.eqb "command_line_arguments" (fst f)) found) in *. clearbody e3 e5.
  assert (E3 : e3 = match p with Some _ => true | None => false end).
  { destruct p, e3; try reflexivity; [now destruct T3 as [_ T3]; specialize (T3 eq_refl)|now destruct T3 as [T3 _]; specialize (T3 eq_refl)]. }
  assert (E5 : e5 = match a with Some _ => true | None => false end).
  { destruct a, e5; try reflexivity; [now destruct T5 as [_ T5]; specialize (T5 eq_refl)|now destruct T5 as [T5 _]; specialize (T5 eq_refl)]. }
  clear T3 T5. subst e3 e5.
  destruct p, a, (bit_set 3 b), (bit_set 5 b); cbn; try reflexivity;
    try (specialize (A3 eq_refl); discriminate); try (specialize (A5 eq_refl); discriminate).
Qed.

Lemma command_split b cp allow l found e cut c :
  usable cp -> snd (lnk_init (FromBytes b) cp allow) = Ok l ->
  string_walk b string_fields (info_end b) found e cut ->
  snd (lnk_command l) = Ok c ->
  arguments_of c
  = match text_of b cp found "relative_path" with Some p => [p] | None => [] end
    ++ match text_of b cp found "command_line_arguments" with Some a => arguments_of a | None => [] end.
Proof.
  intros Hcp Hl HW Hc. rewrite (command_outcome _ _ _ _ _ _ _ Hcp Hl HW) in Hc. cbn [snd] in Hc.
  destruct (missing b found 3 _ || missing b found 5 _); [discriminate|]. injection Hc as <-.
  destruct (text_of b cp found "relative_path") as [p|], (text_of b cp found "command_line_arguments") as [a|]; cbn [app join].
  - change (s2t " ") with [32]. rewrite split_quoted by reflexivity. reflexivity.
  - rewrite <- (app_nil_r (list2cmdline1 p)), split_quoted by exact I. reflexivity.
  - reflexivity.
  - reflexivity.
Qed.
Lemma command_verbatim b cp allow l found e cut c a :
  usable cp -> snd (lnk_init (FromBytes b) cp allow) = Ok l ->
  string_walk b string_fields (info_end b) found e cut ->
  snd (lnk_command l) = Ok c -> text_of b cp found "command_line_arguments" = Some a ->
  match text_of b cp found "relative_path" with
  | Some p => exists q, c = q ++ [32] ++ a /\ arguments_of q = [p]
  | None => c = a
  end.
Proof.
  intros Hcp Hl HW Hc Ha. rewrite (command_outcome _ _ _ _ _ _ _ Hcp Hl HW), Ha in Hc. cbn [snd] in Hc.
  destruct (missing b found 3 _ || missing b found 5 _); [discriminate|]. injection Hc as <-.
  destruct (text_of b cp found "relative_path") as [p|]; cbn [app join]; [|reflexivity].
  exists (list2cmdline1 p). split; [reflexivity|].
  rewrite <- (app_nil_r (list2cmdline1 p)), split_quoted by exact I. reflexivity.
Qed.
Lemma not_missing b found e cut i name limited :
  string_walk b string_fields (info_end b) found e cut -> In (i, name, limited) string_fields ->
  missing b found i name = true -> cut = true.
Proof.
  intros HW Hin H. destruct cut; [reflexivity|exfalso]. destruct (walk_keys _ _ _ _ _ _ HW) as (rest & HE & H0 & _).
  rewrite (H0 eq_refl), app_nil_r in HE. unfold missing in H. apply andb_true_iff in H as [Hb Hn].
  apply negb_true_iff in Hn. apply not_true_iff_false in Hn. apply Hn.
  assert (HI : In name (map fst found)).
  { rewrite <- HE. apply in_map_iff. exists (i, name, limited). split; [reflexivity|]. apply filter_In. now split. }
  apply in_map_iff in HI as ([k f] & Hk & Hi). cbn in Hk. subst k. apply existsb_exists. exists (name, f).
  split; [exact Hi|]. cbn. apply String.eqb_refl.
Qed.
Lemma command_raises b cp allow l found e cut :
  usable cp -> snd (lnk_init (FromBytes b) cp allow) = Ok l ->
  string_walk b string_fields (info_end b) found e cut ->
  fst (lnk_command l) = []
  /\ (snd (lnk_command l) = Err TypeError
      <-> missing b found 3 "relative_path" = true \/ missing b found 5 "command_line_arguments" = true)
  /\ (forall x, snd (lnk_command l) = Err x -> x = TypeError /\ cut = true).
Proof.
  intros Hcp Hl HW. rewrite (command_outcome _ _ _ _ _ _ _ Hcp Hl HW). cbn [fst snd].
  split; [reflexivity|]. split.
  - destruct (missing b found 3 _), (missing b found 5 _); cbn; split; intros H; try discriminate; auto. destruct H; discriminate.
  - intros x H. destruct (missing b found 3 _) eqn:E3; [|destruct (missing b found 5 _) eqn:E5]; cbn in H; try discriminate;
      injection H as <-; (split; [reflexivity|]).
    + eapply (not_missing b found e cut 3 _ true); [exact HW|cbn; tauto|exact E3].
    + eapply (not_missing b found e cut 5 _ false); [exact HW|cbn; tauto|exact E5].
Qed.
Lemma quoting p : arguments_of (list2cmdline1 p) = [p]
  /\ forall a, arguments_of (list2cmdline1 p ++ [32] ++ a) = p :: arguments_of a.
Proof.
  split.
  - rewrite <- (app_nil_r (list2cmdline1 p)), split_quoted by exact I. reflexivity.
  - intros a. rewrite split_quoted by reflexivity. reflexivity.
Qed.
