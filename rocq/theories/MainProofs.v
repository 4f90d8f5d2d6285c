(** * The command line program (C49) *)
From Verif Require Import Lemmas PyTime Codec Utils Header StringData Targets Info Extra LnkFile Json Report.
From Verif Require Import Spec SpecText SpecReport SpecCommand OutcomeProofs LayoutProofs ApiProofs ShapeProofs ReportProofs JsonProofs CommandProofs.

Lemma read_command c : Forall scalar c ->
  read_json (command_json c) = Some (JObject [(s2t "shortcut_target", JStr c)]).
Proof.
  intros H. unfold read_json, command_json.
  change (s2t "{" ++ json_string (s2t "shortcut_target") ++ s2t ": " ++ json_string c ++ s2t "}")
    with (123 :: json_string (s2t "shortcut_target") ++ s2t ": " ++ json_string c ++ s2t "}").
  set (r := json_string (s2t "shortcut_target") ++ s2t ": " ++ json_string c ++ s2t "}").
  assert (Hr : r = 34 :: flat_map json_char (s2t "shortcut_target") ++ 34 :: 58 :: 32 :: 34 :: flat_map json_char c ++ [34; 125]).
  { unfold r. rewrite json_string_app. f_equal. f_equal. cbn [s2t list_ascii_of_string map N_of_ascii N_of_digits app].
    rewrite json_string_app. reflexivity. }
  assert (HM : forall f, members (S (S (S f))) r = Some ([(s2t "shortcut_target", JStr c)], [])).
  { intros f. rewrite Hr. cbn [members skip_space]. change (is_space 34) with false. cbv iota.
    change (34 =? 34) with true. cbv iota. rewrite read_chars by apply s2t_scalar.
    cbn [skip_space]. change (is_space 58) with false. cbv iota. change (58 =? 58) with true. cbv iota.
    cbn [value skip_space]. change (is_space 32) with true. change (is_space 34) with false. cbv iota.
    change (34 =? 110) with false. change (34 =? 116) with false. change (34 =? 102) with false. change (34 =? 34) with true.
    cbv iota. change [34; 125] with (34 :: [125]). rewrite read_chars by assumption. reflexivity. }
  assert (HL : exists f, (2 * length (123%N :: r) + 1 = S (S (S (S f))))%nat).
  { rewrite Hr. cbn [length]. rewrite app_length. cbn [length]. eexists. rewrite Nat.add_1_r. cbn [Nat.mul Nat.add].
    rewrite !Nat.add_succ_r. reflexivity. }
  destruct HL as [f ->]. 
  remember (S (S (S f))) as g eqn:Eg. cbn [value skip_space]. change (is_space 123) with false. cbv iota.
  change (123 =? 110) with false. change (123 =? 116) with false. change (123 =? 102) with false.
  change (123 =? 34) with false. change (123 =? 45) with false. change (123 =? 91) with false. change (123 =? 123) with true. cbv iota.
  subst g. rewrite HM. rewrite Hr. reflexivity.
Qed.

(** The command consists of what the code page yields. *)
Lemma command_chars (P : N -> Prop) src cp allow l c :
  (forall x, scalar x -> P x) ->
  (forall c, tp_codec cp = Some c -> (forall b t, strict c b = Some t -> Forall P t) /\ (forall b, Forall P (replace c b))) ->
  snd (lnk_init src cp allow) = Ok l -> snd (lnk_command l) = Ok c -> Forall P c.
Proof.
  intros HS HP Hl Hc. destruct (init_strings _ _ _ _ Hl) as (_ & b & Hsd).
  assert (HF : forall k t, sd_get k (l_string_data l) = Some t -> Forall P t).
  { pose proof (g_strings (Forall P) (fun _ => True) (fun t H => Forall_impl P HS H) cp HP _ _ _ Hsd) as (_ & _ & HF).
    intros k t H. unfold sd_get in H. rewrite Forall_forall in HF.
    destruct (dget k (sd_data (l_string_data l))) as [v|] eqn:E; [|discriminate].
    assert (Hin : exists k', In (k', v) (sd_data (l_string_data l))).
    { clear - E. induction (sd_data (l_string_data l)) as [|[k' v'] d IH]; [discriminate|]. cbn [dget] in E.
      destruct (String.eqb k k'); [injection E as ->; exists k'; now left|]. destruct (IH E) as [k'' Hk]. exists k''. now right. }
    destruct Hin as [k' Hin]. specialize (HF _ Hin). cbn [snd] in HF. destruct v; try discriminate. injection H as <-. exact HF. }
  assert (HQ : forall p, Forall P p -> Forall P (list2cmdline1 p)).
  { intros p Hp. assert (HR : forall n, Forall P (repeat 92 n))
      by (intros n; apply Forall_forall; intros x Hx; apply repeat_spec in Hx; subst; apply HS; left; lia).
    assert (HLp : forall bs, Forall P (fst (l2c_loop p bs))).
    { induction Hp as [|x p Hx Hp IH]; intros bs; cbn [l2c_loop]; [constructor|].
      destruct (x =? 92); [apply IH|]. specialize (IH 0%nat). destruct (l2c_loop p 0) as [o n]. cbn [fst] in IH.
      destruct (x =? 34); cbn [fst app]; apply Forall_app; (split; [apply HR|]).
      - constructor; [apply HS; left; lia|]. constructor; [apply HS; left; lia|exact IH].
      - constructor; [exact Hx|exact IH]. }
    unfold list2cmdline1. specialize (HLp 0%nat). destruct (l2c_loop p 0) as [o n]. cbn [fst] in HLp.
    assert (H34 : Forall P [34]) by (constructor; [apply HS; left; lia|constructor]).
    destruct (_ || _); repeat (apply Forall_app; split); auto. }
  unfold lnk_command in Hc. apply snd_bind_Ok in Hc as (b1 & _ & Hc). apply snd_bind_Ok in Hc as (o1 & Ho & Hc).
  apply snd_bind_Ok in Hc as (b2 & _ & Hc).
  assert (HO : Forall (fun o => match o with Some t => Forall P t | None => True end)
    (o1 ++ (if b2 then [sd_get "command_line_arguments" (l_string_data l)] else []))).
  { apply Forall_app. split.
    - destruct b1; [|injection Ho as <-; constructor].
      destruct (sd_get "relative_path" (l_string_data l)) as [p|] eqn:E; [|discriminate]. injection Ho as <-.
      constructor; [|constructor]. apply HQ. exact (HF _ _ E).
    - destruct b2; [|constructor]. constructor; [|constructor].
      destruct (sd_get "command_line_arguments" (l_string_data l)) eqn:E; [|exact I]. exact (HF _ _ E). }
  set (os := o1 ++ _) in *. clearbody os.
  match type of Hc with context [match ?x with _ => _ end] => destruct x as [parts|] eqn:EA end; [|discriminate Hc].
  injection Hc as <-.
  assert (HPs : Forall (Forall P) parts).
  { revert parts EA. induction HO as [|o os H1 _ IH]; intros parts EA; cbn [all_some] in EA.
    - injection EA as <-. constructor.
    - destruct o as [t|]; [|discriminate EA].
      match type of EA with context [match ?x with _ => _ end] => destruct x end; [|discriminate EA].
      injection EA as <-. constructor; auto. }
  clear - HPs HS. induction HPs as [|t ts Ht Hts IH]; [constructor|]. destruct ts as [|u ts]; [exact Ht|].
  change (join (s2t " ") (t :: u :: ts)) with (t ++ s2t " " ++ join (s2t " ") (u :: ts)).
  repeat (apply Forall_app; split); auto. apply (Forall_impl P HS), s2t_scalar.
Qed.
Lemma command_scalar src cp allow l c :
  text_page (page_of cp) -> snd (lnk_init src cp allow) = Ok l -> snd (lnk_command l) = Ok c -> Forall scalar c.
Proof. intros HP. apply command_chars; [auto|]. exact (fun c => page_gives cp c HP). Qed.

Lemma main_raises content a e :
  snd (lnk_init (FromHandle content) (a_cp a) true) = Err e ->
  main content a = (fst (lnk_init (FromHandle content) (a_cp a) true), Err e).
Proof. unfold main. destruct (lnk_init _ _ _) as [w r]. cbn. intros ->. reflexivity. Qed.

Lemma main_target content json cp all l :
  snd (lnk_init (FromHandle content) cp true) = Ok l ->
  match snd (lnk_command l) with
  | Ok c => snd (main content (Args true json cp all)) = Ok (if json then OutCommandJson (command_json c) else OutCommand c)
  | Err e => snd (main content (Args true json cp all)) = Err e
  end.
Proof.
  unfold main. cbn [a_cp a_target a_json]. destruct (lnk_init _ _ _) as [w r]. cbn [snd]. intros ->. cbn.
  destruct (lnk_command l) as [w2 [c|e]]; reflexivity.
Qed.
Lemma main_json content cp all l :
  snd (lnk_init (FromHandle content) cp true) = Ok l ->
  match snd (get_json l all) with
  | Ok d => snd (main content (Args false true cp all)) = Ok (OutJson (print_json_text d))
  | Err e => snd (main content (Args false true cp all)) = Err e
  end.
Proof.
  unfold main. cbn [a_cp a_target a_json]. destruct (lnk_init _ _ _) as [w r]. cbn [snd]. intros ->. cbn.
  destruct (get_json l all) as [w2 [c|e]]; reflexivity.
Qed.
Lemma main_yaml content cp all l :
  snd (lnk_init (FromHandle content) cp true) = Ok l ->
  match snd (yaml_tree l all) with
  | Ok t => snd (main content (Args false false cp all)) = Ok (OutYaml t)
  | Err e => snd (main content (Args false false cp all)) = Err e
  end.
Proof.
  unfold main. cbn [a_cp a_target a_json]. destruct (lnk_init _ _ _) as [w r]. cbn [snd]. intros ->. cbn.
  destruct (yaml_tree l all) as [w2 [c|e]]; reflexivity.
Qed.

Lemma target_json content cp all l c :
  text_page (page_of cp) -> snd (lnk_init (FromHandle content) cp true) = Ok l -> snd (lnk_command l) = Ok c ->
  exists t, snd (main content (Args true true cp all)) = Ok (OutCommandJson t)
    /\ read_json t = Some (JObject [(s2t "shortcut_target", JStr c)]).
Proof.
  intros HP Hl Hc. exists (command_json c). pose proof (main_target content true cp all l Hl) as H. rewrite Hc in H.
  split; [exact H|]. apply read_command. exact (command_scalar _ _ _ _ _ HP Hl Hc).
Qed.
Lemma report_json content cp all l :
  text_page (page_of cp) -> snd (lnk_init (FromHandle content) cp true) = Ok l ->
  match snd (get_json l all) with
  | Ok d => exists t j, snd (main content (Args false true cp all)) = Ok (OutJson t)
              /\ read_json t = Some j /\ denotes j (PDict d) /\ ordered j /\ plain t
  | Err e => snd (main content (Args false true cp all)) = Err e
  end.
Proof.
  intros HP Hl. pose proof (main_json content cp all l Hl) as H.
  destruct (snd (get_json l all)) as [d|e] eqn:Hd; [|exact H].
  destruct (printed_json _ _ _ _ _ _ HP Hl Hd) as (j & H1 & H2 & H3).
  exists (print_json_text d), j. repeat split; try assumption. apply plain_dumps.
Qed.
