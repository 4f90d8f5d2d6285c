(** * The bytes on standard output (C77) *)
From Verif Require Import ShapeProofs MainProofs UnknownProofs RunProofs JsonTextProofs JsonProofs.
From Verif Require Import Lemmas Codec Utils LnkFile Json Report Readable Stdout.
From Verif Require Import Spec SpecText SpecReport SpecUnknown SpecJsonText SpecRun.
From Verif Require Import TextProofs IndentProofs.
From Verif Require Import SpecIndent SpecStdout.

Definition ends_of (windows : bool) (t : text) : text :=
  if windows then flat_map (fun c => if c =? 10 then [13; 10] else [c]) t else t.
Lemma line_ends_iff w t u : line_ends w t u <-> u = ends_of w t.
Proof.
  split.
  - induction 1 as [|t u H ->|c t u Hc H ->]; [now destruct w|now destruct w|].
    destruct w; [|reflexivity]. cbn [ends_of flat_map]. now replace (c =? 10) with false by lia.
  - intros ->. induction t as [|c t IH]; [destruct w; constructor|].
    replace (ends_of w (c :: t)) with ((if c =? 10 then if w then [13; 10] else [10] else [c]) ++ ends_of w t).
    + destruct (c =? 10) eqn:E; [apply N.eqb_eq in E as ->; now apply line_feed|]. apply other_char; [lia|exact IH].
    + destruct w; [reflexivity|]. destruct (c =? 10) eqn:E; [apply N.eqb_eq in E as ->|]; reflexivity.
Qed.
Lemma ends_app w t1 t2 : ends_of w (t1 ++ t2) = ends_of w t1 ++ ends_of w t2.
Proof. destruct w; [apply flat_map_app|reflexivity]. Qed.

Lemma all_some_iff {A} (l : list (option A)) r : Codec.all_some l = Some r <-> l = map Some r.
Proof.
  revert r. induction l as [|[x|] l IH]; intros [|y r]; cbn [Codec.all_some map]; try easy.
  - destruct (Codec.all_some l); easy.
  - destruct (Codec.all_some l) as [xs|] eqn:E.
    + split; [intros [= <- <-]; f_equal; now apply IH|]. intros [= <- H]. apply IH in H. now injection H as ->.
    + split; [easy|]. intros [= <- H]. apply IH in H. discriminate H.
Qed.
Lemma all_some_none {A} (l : list (option A)) : Codec.all_some l = None <-> In None l.
Proof.
  induction l as [|[x|] l IH]; cbn [Codec.all_some In]; [easy| |now split; [left|]].
  destruct (Codec.all_some l).
  - split; [easy|]. intros [H|H]; [easy|]. now apply IH in H.
  - split; [right; now apply IH|reflexivity].
Qed.
Lemma write_eq s t : write s t = option_map (@concat byte) (Codec.all_some (map (encode s) (ends_of (crlf s) t))).
Proof. reflexivity. Qed.
Lemma write_some s t b : write s t = Some b <-> encoded s t b.
Proof.
  rewrite write_eq. unfold encoded. split.
  - destruct (Codec.all_some (map (encode s) (ends_of (crlf s) t))) as [parts|] eqn:E; cbn [option_map]; intros H; [injection H as <-|discriminate H].
    apply all_some_iff in E. exists (ends_of (crlf s) t), parts. split; [now apply line_ends_iff|]. split; [|reflexivity].
    revert parts E. induction (ends_of (crlf s) t) as [|c u IH]; intros [|p parts]; cbn [map]; intros E; try discriminate E; [constructor|].
    injection E as E1 E2. constructor; [assumption|now apply IH].
  - intros (u & parts & Hu & HP & ->). apply line_ends_iff in Hu as <-. replace (Codec.all_some _) with (Some parts); [reflexivity|].
    symmetry. apply all_some_iff. induction HP as [|c p u parts H HP IH]; [reflexivity|]. cbn [map]. now rewrite H, IH.
Qed.
Lemma write_none s t : write s t = None <-> not_encodable s t.
Proof.
  rewrite write_eq. unfold not_encodable. split.
  - destruct (Codec.all_some _) as [parts|] eqn:E; cbn [option_map]; intros H; [discriminate H|]. clear H. apply all_some_none, in_map_iff in E as (c & E & H).
    exists (ends_of (crlf s) t), c. split; [now apply line_ends_iff|]. now split.
  - intros (u & c & Hu & H & E). apply line_ends_iff in Hu as <-. replace (Codec.all_some _) with (@None (list bytes)); [reflexivity|].
    symmetry. apply all_some_none, in_map_iff. now exists c.
Qed.
Lemma write_app s t1 t2 : write s (t1 ++ t2) = match write s t1, write s t2 with Some a, Some b => Some (a ++ b) | _, _ => None end.
Proof.
  rewrite !write_eq, ends_app, map_app.
  generalize (map (encode s) (ends_of (crlf s) t1)), (map (encode s) (ends_of (crlf s) t2)). intros l1 l2.
  induction l1 as [|[x|] l1 IH]; cbn [app Codec.all_some].
  - destruct (Codec.all_some l2); reflexivity.
  - destruct (Codec.all_some l1), (Codec.all_some l2), (Codec.all_some (l1 ++ l2)); cbn [option_map concat] in *; try congruence; try discriminate IH.
    injection IH as ->. now rewrite app_assoc.
  - reflexivity.
Qed.
Lemma print_one s t b : print s t = (b, true) <-> encoded s (t ++ [10]) b.
Proof.
  rewrite <- write_some, write_app. unfold print.
  destruct (write s t) as [b1|]; [|easy]. destruct (write s [10]) as [b2|]; [|easy]. split; [now intros [= <-]|now intros [= <-]].
Qed.
Lemma print_none s t b : print s t = (b, false) <-> not_encodable s t /\ b = [] \/ encoded s t b /\ not_encodable s [10].
Proof.
  rewrite <- !write_none, <- write_some. unfold print. destruct (write s t) as [b1|].
  - destruct (write s [10]) as [b2|].
    + split; [discriminate|]. intros [[H _]|[_ H]]; discriminate H.
    + split; [intros [= <-]; now right|]. intros [[H _]|[H _]]; [discriminate H|now injection H as ->].
  - split; [intros [= <-]; now left|]. intros [[_ ->]|[H _]]; [reflexivity|discriminate H].
Qed.
Lemma prints_iff s ts : forall b ok, print_all s ts = (b, ok) <-> prints s ts b ok.
Proof.
  induction ts as [|t ts IH]; intros b ok; cbn [print_all].
  - split; [intros [= <- <-]; apply all_printed|]. intros H. now inversion H.
  - destruct (print s t) as [b1 [|]] eqn:E.
    + destruct (print_all s ts) as [b2 ok2] eqn:E2. pose proof (proj1 (print_one s t b1) E) as HE. split.
      * intros [= <- <-]. apply text_printed; [assumption|]. now apply IH.
      * intros H. inversion H as [|? ? b1' more ? HE' HP|? ? HN|? ? ? HE' HN]; subst.
        -- apply print_one in HE'. rewrite E in HE'. injection HE' as <-. apply IH in HP. now injection HP as -> ->.
        -- exfalso. assert (HX : print s t = ([], false)) by (apply print_none; now left). congruence.
        -- exfalso. assert (HX : print s t = (b, false)) by (apply print_none; now right). congruence.
    + split.
      * intros [= <- <-]. apply print_none in E as [[HN ->]|[HE HN]]; [now apply text_refused|now apply end_refused].
      * intros H. inversion H as [|? ? b1' more ? HE' HP|? ? HN|? ? ? HE' HN]; subst.
        -- exfalso. apply print_one in HE'. congruence.
        -- assert (HX : print s t = ([], false)) by (apply print_none; now left). rewrite E in HX. now injection HX as ->.
        -- assert (HX : print s t = (b, false)) by (apply print_none; now right). rewrite E in HX. now injection HX as ->.
Qed.
Lemma put_out_iff dump o ts : put_out dump o ts <-> ts = texts dump o.
Proof.
  split.
  - intros [t|t|t|tree title body -> H]; try reflexivity. apply printed_iff in H. cbn [texts].
    apply app_inv_head in H. injection H as H. apply app_inv_tail in H. now subst.
  - intros ->. destruct o as [t|t|t|tree]; try constructor; [reflexivity|]. apply printed_iff. reflexivity.
Qed.
Lemma session_iff s dump content target json cp all said b e : usable cp -> python_page (page_of cp) ->
  session s dump content (Args target json cp all) = (said, (b, e)) <-> writes s dump content (Args target json cp all) said b e.
Proof.
  intros Hcp HP. unfold session. destruct (main content (Args target json cp all)) as [w [o|x]] eqn:EM.
  - destruct (print_all s (texts dump o)) as [b1 ok] eqn:EP. split.
    + intros [= <- <- <-]. eapply output_written; [now apply run_iff, EM|now apply put_out_iff|now apply prints_iff].
    + intros [said' x HR|said' o' ts b' ok' HR HO HT]; apply run_iff in HR; try assumption; rewrite EM in HR; [discriminate HR|].
      injection HR as <- <-. apply put_out_iff in HO as ->. apply prints_iff in HT. rewrite EP in HT. now injection HT as <- <-.
  - split.
    + intros [= <- <- <-]. apply nothing_written. now apply run_iff.
    + intros [said' x' HR|said' o' ts b' ok' HR HO HT]; apply run_iff in HR; try assumption; rewrite EM in HR; [|discriminate HR].
      now injection HR as <- <-.
Qed.

(** ** JSON *)
Lemma ascii_write s t : ascii_stream s -> Forall (fun c => c < 128) t -> write s t = Some (map n2b (ends_of (crlf s) t)).
Proof.
  intros HS HT. rewrite write_eq.
  assert (HE : Forall (fun c => c < 128) (ends_of (crlf s) t)).
  { destruct (crlf s); [|assumption]. cbn [ends_of]. induction HT as [|c t Hc HT IH]; [constructor|]. cbn [flat_map]. apply Forall_app. split; [|exact IH].
    destruct (c =? 10); repeat constructor; lia. }
  induction HE as [|c u Hc HE IH]; [reflexivity|]. cbn [map Codec.all_some]. rewrite (HS c Hc).
  destruct (Codec.all_some (map (encode s) u)) as [parts|]; [|discriminate IH]. cbn [option_map concat] in *. injection IH as ->. reflexivity.
Qed.
Lemma ascii_print s t : ascii_stream s -> Forall (fun c => c < 128) t -> print s t = (map n2b (ends_of (crlf s) (t ++ [10])), true).
Proof.
  intros HS HT. unfold print. rewrite !ascii_write by first [assumption | repeat constructor; lia]. now rewrite ends_app, map_app.
Qed.
Lemma plain_ascii t : plain t -> Forall (fun c => c < 128) t.
Proof. intros H. eapply Forall_impl; [|exact H]. intros c Hc. cbv beta in *. lia. Qed.
(** What -j prints, whatever the code page. *)
Definition json_text (o : output) (t : text) : Prop := o = OutCommandJson t \/ o = OutJson t.
Lemma json_output content target cp all w o : main content (Args target true cp all) = (w, Ok o) -> exists t, json_text o t /\ plain t.
Proof.
  unfold main. cbn [a_target a_json a_cp a_all]. destruct (lnk_init (FromHandle content) cp true) as [w1 [l|e]]; [|discriminate].
  cbn [bind]. destruct target.
  - destruct (lnk_command l) as [w2 [c|e]]; cbn [bind fst snd]; intros [= _ H]; try discriminate H. subst o.
    exists (command_json c). split; [now left|]. unfold command_json.
    assert (P : forall x, forallb (fun c => (c =? 10) || (32 <=? c) && (c <=? 126)) x = true -> plain x).
    { intros x Hx. apply Forall_forall. intros y Hy. rewrite forallb_forall in Hx. specialize (Hx y Hy). lia. }
    apply plain_app; [now apply P|]. apply plain_app; [apply plain_string|]. apply plain_app; [now apply P|].
    apply plain_app; [apply plain_string|now apply P].
  - destruct (get_json l all) as [w2 [d|e]]; cbn [bind fst snd]; intros [= _ H]; try discriminate H. subst o.
    exists (print_json_text d). split; [now right|]. apply plain_dumps.
Qed.
Lemma json_session s dump content target cp all w o : ascii_stream s -> main content (Args target true cp all) = (w, Ok o) ->
  exists t b, json_text o t /\ plain t /\ ascii_bytes (crlf s) (t ++ [10]) b
    /\ session s dump content (Args target true cp all) = (w, (b, Done)).
Proof.
  intros HS HM. destruct (json_output _ _ _ _ _ _ HM) as (t & Ht & HP). exists t, (map n2b (ends_of (crlf s) (t ++ [10]))).
  split; [assumption|]. split; [assumption|]. split; [exists (ends_of (crlf s) (t ++ [10])); split; [now apply line_ends_iff|reflexivity]|].
  unfold session. rewrite HM. destruct Ht as [-> | ->]; cbn [texts print_all]; rewrite (ascii_print s t HS (plain_ascii t HP));
    cbn [fst snd]; now rewrite app_nil_r.
Qed.
Lemma json_same s1 s2 dump1 dump2 content target cp all : ascii_stream s1 -> ascii_stream s2 -> crlf s1 = crlf s2 ->
  session s1 dump1 content (Args target true cp all) = session s2 dump2 content (Args target true cp all).
Proof.
  intros H1 H2 E. destruct (main content (Args target true cp all)) as [w [o|e]] eqn:EM.
  - destruct (json_session s1 dump1 _ _ _ _ _ _ H1 EM) as (t1 & b1 & T1 & _ & (u1 & B1 & ->) & ->).
    destruct (json_session s2 dump2 _ _ _ _ _ _ H2 EM) as (t2 & b2 & T2 & _ & (u2 & B2 & ->) & ->).
    apply line_ends_iff in B1 as ->. apply line_ends_iff in B2 as ->. rewrite E.
    replace t2 with t1; [reflexivity|]. destruct T1 as [-> | ->]; destruct T2 as [[= ->]|[= ->]]; reflexivity.
  - unfold session. now rewrite EM.
Qed.

Lemma session_main s dump content a w b e : session s dump content a = (w, (b, e)) ->
  (exists x, e = Raised x /\ b = [] /\ main content a = (w, Err x))
  \/ exists o ok, main content a = (w, Ok o) /\ print_all s (texts dump o) = (b, ok) /\ e = if ok then Done else NotEncodable.
Proof.
  unfold session. destruct (main content a) as [w' [o|x]].
  - destruct (print_all s (texts dump o)) as [b' ok] eqn:EP. intros [= <- <- <-]. right. now exists o, ok.
  - intros [= <- <- <-]. left. now exists x.
Qed.
Lemma json_written s dump content target cp all w b e : ascii_stream s ->
  session s dump content (Args target true cp all) = (w, (b, e)) ->
  (exists x, e = Raised x /\ b = [] /\ main content (Args target true cp all) = (w, Err x))
  \/ e = Done /\ exists o t, main content (Args target true cp all) = (w, Ok o) /\ json_text o t /\ ascii_bytes (crlf s) (t ++ [10]) b
      /\ Forall (fun c => c = 10 \/ 32 <= c <= 126) t.
Proof.
  intros HS H. destruct (session_main _ _ _ _ _ _ _ H) as [HE|(o & ok & HM & _)]; [now left|]. right.
  destruct (json_session s dump _ _ _ _ _ _ HS HM) as (t & b' & Ht & HP & HA & HE). rewrite H in HE. injection HE as <- <-.
  split; [reflexivity|]. exists o, t. split; [assumption|]. split; [assumption|]. split; [assumption|].
  eapply Forall_impl; [|exact HP]. intros c Hc. cbv beta in *. lia.
Qed.
Lemma ends_inj w : forall t u, ends_of w t = ends_of w u -> t = u.
Proof.
  destruct w; [|easy]. induction t as [|c t IH]; intros [|d u]; cbn [ends_of flat_map]; intros H.
  - reflexivity.
  - destruct (d =? 10); discriminate H.
  - destruct (c =? 10); discriminate H.
  - destruct (c =? 10) eqn:Ec, (d =? 10) eqn:Ed; cbn [app] in H.
    + injection H as H. apply N.eqb_eq in Ec, Ed. subst. f_equal. now apply IH.
    + injection H as Hd H. exfalso. destruct u as [|x u]; [discriminate H|]. cbn [flat_map] in H.
      destruct (x =? 10) eqn:Ex; [discriminate H|]. injection H as H _. lia.
    + injection H as Hd H. exfalso. destruct t as [|x t]; [discriminate H|]. cbn [flat_map] in H.
      destruct (x =? 10) eqn:Ex; [discriminate H|]. injection H as H _. lia.
    + injection H as -> H. f_equal. now apply IH.
Qed.
Lemma ends_forall (P : N -> Prop) w t : P 13 -> P 10 -> Forall P t -> Forall P (ends_of w t).
Proof.
  intros H1 H2 H. destruct w; [|assumption]. cbn [ends_of]. induction H as [|c t Hc HT IH]; [constructor|]. cbn [flat_map].
  apply Forall_app. split; [|exact IH]. destruct (c =? 10); repeat constructor; assumption.
Qed.
Lemma n2b_inj_ascii : forall t u, Forall (fun c => c < 128) t -> Forall (fun c => c < 128) u -> map n2b t = map n2b u -> t = u.
Proof.
  induction t as [|c t IH]; intros [|d u] Ht Hu H; try discriminate H; [reflexivity|]. inversion Ht; inversion Hu; subst.
  injection H as E1 E2. f_equal; [|now apply IH]. apply (f_equal b2n) in E1. rewrite !b2n_n2b in E1. lia.
Qed.
Lemma ascii_bytes_inj w t u b : Forall (fun c => c < 128) t -> Forall (fun c => c < 128) u ->
  ascii_bytes w t b -> ascii_bytes w u b -> t = u.
Proof.
  intros Ht Hu (x & Hx & ->) (y & Hy & E). apply line_ends_iff in Hx as ->, Hy as ->. apply (ends_inj w).
  apply n2b_inj_ascii; [apply ends_forall; (lia || assumption) ..|exact E].
Qed.
Lemma plain_line t : plain t -> Forall (fun c => c < 128) (t ++ [10]).
Proof. intros H. apply Forall_app. split; [now apply plain_ascii|repeat constructor; lia]. Qed.
Lemma json_recovered s1 s2 dump1 dump2 content1 content2 target cp1 cp2 all1 all2 w1 w2 b :
  ascii_stream s1 -> ascii_stream s2 -> crlf s1 = crlf s2 ->
  session s1 dump1 content1 (Args target true cp1 all1) = (w1, (b, Done)) ->
  session s2 dump2 content2 (Args target true cp2 all2) = (w2, (b, Done)) ->
  snd (main content1 (Args target true cp1 all1)) = snd (main content2 (Args target true cp2 all2)).
Proof.
  intros S1 S2 E H1 H2.
  destruct (json_written _ _ _ _ _ _ _ _ _ S1 H1) as [(x & Hx & _)|(_ & o1 & t1 & M1 & T1 & B1 & P1)]; [discriminate Hx|].
  destruct (json_written _ _ _ _ _ _ _ _ _ S2 H2) as [(x & Hx & _)|(_ & o2 & t2 & M2 & T2 & B2 & P2)]; [discriminate Hx|].
  rewrite M1, M2. cbn [snd]. rewrite E in B1.
  assert (t1 = t2) as <-.
  { apply (app_inv_tail [10]). eapply ascii_bytes_inj; [| |exact B1|exact B2]; apply plain_line; eapply Forall_impl; try eassumption; intros c Hc; cbv beta in *; lia. }
  assert (HK : forall o content cp all w t, main content (Args target true cp all) = (w, Ok o) -> json_text o t ->
    o = if target then OutCommandJson t else OutJson t).
  { intros o content cp all w t. unfold main. cbn [a_target a_json a_cp a_all]. destruct (lnk_init (FromHandle content) cp true) as [w' [l|e]]; [|discriminate].
    cbn [bind]. destruct target.
    - destruct (lnk_command l) as [w3 [c|e]]; cbn [bind fst snd]; intros [= _ <-] [H|H]; congruence.
    - destruct (get_json l all) as [w3 [c|e]]; cbn [bind fst snd]; intros [= _ <-] [H|H]; congruence. }
  now rewrite (HK _ _ _ _ _ _ M1 T1), (HK _ _ _ _ _ _ M2 T2).
Qed.

(** The text of -t -j has no line feed in it. *)
Definition visible (t : text) : Prop := Forall (fun c => 32 <= c <= 126) t.
Lemma visible_app a b : visible a -> visible b -> visible (a ++ b).
Proof. intros. now apply Forall_app. Qed.
Lemma visible_u n : visible (u_escape n).
Proof.
  apply visible_app; [repeat constructor; cbn; lia|]. apply visible_app.
  - apply Forall_forall. intros x Hx. apply repeat_spec in Hx. lia.
  - unfold visible. rewrite Forall_map. eapply Forall_impl; [|apply digits_aux_lt; [lia|constructor]].
    cbn beta. intros d Hd. unfold digit_char. destruct (d <? 10) eqn:E; lia.
Qed.
Lemma visible_char c : visible (json_char c).
Proof.
  unfold json_char.
  assert (P : forall a b, 32 <= a <= 126 -> 32 <= b <= 126 -> visible [a; b])
    by (intros; constructor; [lia|constructor; [lia|constructor]]).
  destruct (c =? 34); [apply P; lia|]. destruct (c =? 92); [apply P; lia|].
  destruct (c =? 10); [apply P; cbn; lia|]. destruct (c =? 13); [apply P; cbn; lia|].
  destruct (c =? 9); [apply P; cbn; lia|]. destruct (c =? 12); [apply P; cbn; lia|].
  destruct (c =? 8); [apply P; cbn; lia|].
  destruct ((32 <=? c) && (c <=? 126)) eqn:E; [constructor; [lia|constructor]|].
  destruct (c <? 65536); [apply visible_u|]. apply visible_app; apply visible_u.
Qed.
Lemma visible_string t : visible (json_string t).
Proof.
  apply visible_app; [repeat constructor; lia|]. apply visible_app; [|repeat constructor; lia].
  induction t as [|c t IH]; cbn [flat_map]; [constructor|]. apply visible_app; [apply visible_char|exact IH].
Qed.
Lemma visible_command c : visible (command_json c).
Proof.
  assert (P : forall x, forallb (fun c => (32 <=? c) && (c <=? 126)) x = true -> visible x).
  { intros x Hx. apply Forall_forall. intros y Hy. rewrite forallb_forall in Hx. specialize (Hx y Hy). lia. }
  unfold command_json. apply visible_app; [now apply P|]. apply visible_app; [apply visible_string|]. apply visible_app; [now apply P|].
  apply visible_app; [apply visible_string|now apply P].
Qed.
Lemma visible_ends w t : visible t -> ends_of w t = t.
Proof.
  intros H. destruct w; [|reflexivity]. cbn [ends_of]. induction H as [|c t Hc H IH]; [reflexivity|]. cbn [flat_map].
  replace (c =? 10) with false by lia. cbn [app]. now rewrite IH.
Qed.
Lemma target_json_line s dump content cp all w b : ascii_stream s ->
  session s dump content (Args true true cp all) = (w, (b, Done)) ->
  exists line, b = line ++ (if crlf s then [x0d; x0a] else [x0a]) /\ Forall (fun x => 32 <= b2n x <= 126) line.
Proof.
  intros HS H. destruct (json_written _ _ _ _ _ _ _ _ _ HS H) as [(x & Hx & _)|(_ & o & t & HM & HT & (u & Hu & ->) & _)]; [discriminate Hx|].
  assert (HV : visible t).
  { revert HM. unfold main. cbn [a_target a_json a_cp a_all]. destruct (lnk_init (FromHandle content) cp true) as [w' [l|e]]; [|discriminate].
    cbn [bind]. destruct (lnk_command l) as [w3 [c|e]]; cbn [bind fst snd]; intros [= _ <-]. destruct HT as [[= <-]|HT]; [apply visible_command|discriminate HT]. }
  apply line_ends_iff in Hu as ->. exists (map n2b t). rewrite ends_app, map_app, (visible_ends _ _ HV). split.
  - f_equal. now destruct (crlf s).
  - rewrite Forall_map. eapply Forall_impl; [|exact HV]. intros c Hc. cbv beta in *. rewrite b2n_n2b. lia.
Qed.

(** ** UTF-8 *)
Lemma utf8_ascii s : utf8_stream s -> ascii_stream s.
Proof.
  intros H c Hc. destruct (H c) as [H1 _]. rewrite H1 by (unfold scalar; lia). unfold utf8_char. now replace (c <? 0x80) with true by lia.
Qed.
Lemma utf8_write s t : utf8_stream s -> Forall scalar t -> write s t = Some (utf8 (ends_of (crlf s) t)).
Proof.
  intros HS HT. rewrite write_eq. assert (HE : Forall scalar (ends_of (crlf s) t)) by (apply ends_forall; try assumption; unfold scalar; lia).
  induction HE as [|c u Hc HE IH]; [reflexivity|].
  cbn [map Codec.all_some]. rewrite (proj1 (HS c) Hc). destruct (Codec.all_some (map (encode s) u)); [|discriminate IH].
  cbn [option_map concat] in *. injection IH as ->. reflexivity.
Qed.
Lemma utf8_print s t : utf8_stream s -> Forall scalar t -> print s t = (utf8 (ends_of (crlf s) (t ++ [10])), true).
Proof.
  intros HS HT. unfold print. rewrite !utf8_write; try assumption; [|repeat constructor; unfold scalar; lia].
  rewrite ends_app. unfold utf8. now rewrite flat_map_app.
Qed.
Lemma target_opened content cp all w c : main content (Args true false cp all) = (w, Ok (OutCommand c)) ->
  exists l, snd (lnk_init (FromHandle content) cp true) = Ok l /\ snd (lnk_command l) = Ok c.
Proof.
  unfold main. cbn [a_target a_json a_cp a_all]. destruct (lnk_init (FromHandle content) cp true) as [w' [l|e]]; [|discriminate].
  cbn [bind]. destruct (lnk_command l) as [w3 [c'|e]] eqn:EC; cbn [bind fst snd]; intros [= _ <-]. exists l. now rewrite EC.
Qed.
Lemma target_output content cp all w o : main content (Args true false cp all) = (w, Ok o) -> exists c, o = OutCommand c.
Proof.
  unfold main. cbn [a_target a_json a_cp a_all]. destruct (lnk_init (FromHandle content) cp true) as [w' [l|e]]; [|discriminate].
  cbn [bind]. destruct (lnk_command l) as [w3 [c'|e]] eqn:EC; cbn [bind fst snd]; intros [= _ <-]. now exists c'.
Qed.
Lemma target_utf8 s dump content cp all w c : utf8_stream s -> text_page (page_of cp) ->
  main content (Args true false cp all) = (w, Ok (OutCommand c)) ->
  exists u, line_ends (crlf s) (c ++ [10]) u /\ session s dump content (Args true false cp all) = (w, (utf8 u, Done)).
Proof.
  intros HS HP HM. destruct (target_opened _ _ _ _ _ HM) as (l & Hl & Hc). pose proof (command_scalar _ _ _ _ _ HP Hl Hc) as HC.
  exists (ends_of (crlf s) (c ++ [10])). split; [now apply line_ends_iff|]. unfold session. rewrite HM. cbn [texts print_all].
  rewrite (utf8_print s c HS HC). cbn [fst snd]. now rewrite app_nil_r.
Qed.
Lemma utf8_inj t u : Forall scalar t -> Forall scalar u -> utf8 t = utf8 u -> t = u.
Proof.
  intros Ht Hu E. assert (H1 : utf8_strict (utf8 t) = Some t) by (apply utf8_strict_spec; now split).
  assert (H2 : utf8_strict (utf8 t) = Some u) by (apply utf8_strict_spec; now split). rewrite H1 in H2. now injection H2.
Qed.
Lemma target_recovered s1 s2 dump1 dump2 content1 content2 cp1 cp2 all1 all2 w1 w2 b :
  utf8_stream s1 -> utf8_stream s2 -> crlf s1 = crlf s2 -> text_page (page_of cp1) -> text_page (page_of cp2) ->
  session s1 dump1 content1 (Args true false cp1 all1) = (w1, (b, Done)) ->
  session s2 dump2 content2 (Args true false cp2 all2) = (w2, (b, Done)) ->
  snd (main content1 (Args true false cp1 all1)) = snd (main content2 (Args true false cp2 all2)).
Proof.
  intros S1 S2 E P1 P2 H1 H2.
  destruct (session_main _ _ _ _ _ _ _ H1) as [(x & Hx & _)|(o1 & ok1 & M1 & _)]; [discriminate Hx|].
  destruct (session_main _ _ _ _ _ _ _ H2) as [(x & Hx & _)|(o2 & ok2 & M2 & _)]; [discriminate Hx|].
  destruct (target_output _ _ _ _ _ M1) as (c1 & ->). destruct (target_output _ _ _ _ _ M2) as (c2 & ->).
  destruct (target_utf8 s1 dump1 _ _ _ _ _ S1 P1 M1) as (u1 & U1 & E1). destruct (target_utf8 s2 dump2 _ _ _ _ _ S2 P2 M2) as (u2 & U2 & E2).
  rewrite H1 in E1. rewrite H2 in E2. injection E1 as E1. injection E2 as E2. apply line_ends_iff in U1 as ->, U2 as ->.
  rewrite M1, M2. cbn [snd]. do 2 f_equal. apply (app_inv_tail [10]). apply (ends_inj (crlf s1)).
  destruct (target_opened _ _ _ _ _ M1) as (l1 & L1 & C1). destruct (target_opened _ _ _ _ _ M2) as (l2 & L2 & C2).
  assert (HL : forall w c, Forall scalar c -> Forall scalar (ends_of w (c ++ [10]))).
  { intros w c Hc. apply ends_forall; [unfold scalar; lia ..|]. apply Forall_app. split; [assumption|repeat constructor; unfold scalar; lia]. }
  rewrite E at 2. apply utf8_inj; [apply HL, (command_scalar _ _ _ _ _ P1 L1 C1)|apply HL, (command_scalar _ _ _ _ _ P2 L2 C2)|congruence].
Qed.

(** ** Any stream that writes ASCII *)
Lemma ascii_end s : ascii_stream s -> ~ not_encodable s [10].
Proof. intros HS H. apply write_none in H. rewrite ascii_write in H; [discriminate H|assumption|repeat constructor; lia]. Qed.
Lemma target_exact s dump content cp all w c : ascii_stream s ->
  main content (Args true false cp all) = (w, Ok (OutCommand c)) ->
  (exists b, session s dump content (Args true false cp all) = (w, (b, Done)) /\ encoded s (c ++ [10]) b /\ ~ not_encodable s c)
  \/ session s dump content (Args true false cp all) = (w, ([], NotEncodable)) /\ not_encodable s c.
Proof.
  intros HS HM. unfold session. rewrite HM. cbn [texts print_all]. destruct (print s c) as [b [|]] eqn:EP.
  - left. exists (b ++ []). split; [reflexivity|]. rewrite app_nil_r. apply print_one in EP. split; [assumption|].
    intros HN. apply write_none in HN. apply write_some in EP. rewrite write_app, HN in EP. discriminate EP.
  - right. apply print_none in EP as [[HN ->]|[_ HN]]; [now split|]. now apply (ascii_end s) in HN.
Qed.
Lemma title_ascii : Forall (fun c => c < 128) (s2t "Windows Shortcut Information:").
Proof. apply Forall_forall. intros c Hc. cbn in Hc. intuition lia. Qed.
Lemma readable_exact s dump content cp all w tree b e : ascii_stream s ->
  main content (Args false false cp all) = (w, Ok (OutYaml tree)) ->
  session s dump content (Args false false cp all) = (w, (b, e)) ->
  exists first, ascii_bytes (crlf s) (s2t "Windows Shortcut Information:" ++ [10]) first
  /\ (e = NotEncodable /\ b = first /\ (exists t, SpecIndent.printed (dump tree) t /\ not_encodable s t)
     \/ e = Done /\ exists t, SpecIndent.printed (dump tree) t /\ encoded s t b).
Proof.
  intros HS HM H. revert H. unfold session. rewrite HM. cbn [texts]. set (title := s2t "Windows Shortcut Information:"). set (body := indent _ _).
  cbn [print_all]. unfold title at 1. rewrite (ascii_print s _ HS title_ascii). fold title.
  assert (HPr : SpecIndent.printed (dump tree) (title ++ [10] ++ body ++ [10])) by (apply printed_iff; reflexivity).
  assert (HT : write s (title ++ [10]) = Some (map n2b (ends_of (crlf s) (title ++ [10])))).
  { apply ascii_write; [assumption|]. apply Forall_app. split; [apply title_ascii|repeat constructor; lia]. }
  clearbody title body. intros H. exists (map n2b (ends_of (crlf s) (title ++ [10]))).
  split; [exists (ends_of (crlf s) (title ++ [10])); split; [now apply line_ends_iff|reflexivity]|].
  destruct (print s body) as [b1 [|]] eqn:EP; injection H as <- <-.
  - right. split; [reflexivity|]. exists (title ++ [10] ++ body ++ [10]). split; [assumption|]. apply write_some. apply print_one, write_some in EP.
    rewrite app_assoc, write_app, HT, EP. now rewrite app_nil_r.
  - left. apply print_none in EP as [[HN ->]|[_ HN]]; [|now apply (ascii_end s) in HN]. split; [reflexivity|]. rewrite !app_nil_r. split; [reflexivity|].
    exists (title ++ [10] ++ body ++ [10]). split; [assumption|]. apply write_none. apply write_none in HN. now rewrite app_assoc, write_app, HT, write_app, HN.
Qed.

(** With UTF-8 and characters only, every run that gets to printing prints everything. *)
Lemma joined_forall (P : N -> Prop) m ps t : joined m ps t -> Forall P t -> Forall (Forall P) ps.
Proof.
  induction 1 as [p|p ps t H IH]; intros HT; [now repeat constructor|].
  apply Forall_app in HT as [H1 HT]. apply Forall_app in HT as [_ HT]. constructor; [assumption|now apply IH].
Qed.
Lemma forall_joined (P : N -> Prop) m ps t : Forall P m -> joined m ps t -> Forall (Forall P) ps -> Forall P t.
Proof.
  intros Hm. induction 1 as [p|p ps t H IH]; intros HT; inversion HT; subst; [assumption|].
  apply Forall_app. split; [assumption|]. apply Forall_app. split; [assumption|now apply IH].
Qed.
Lemma printed_forall (P : N -> Prop) y t : (forall c, 32 <= c < 128 -> P c) -> P 10 -> Forall P y -> SpecIndent.printed y t -> Forall P t.
Proof.
  intros HA H10 HY (u & ls & ls' & (ps & J1 & _ & J2) & HL & HI & ->).
  assert (HT : Forall P (s2t "Windows Shortcut Information:")).
  { apply Forall_forall. intros c Hc. cbn in Hc. apply HA. intuition lia. }
  assert (HU : Forall P u) by (apply (forall_joined P [10] ps); [repeat constructor; assumption|exact J2|exact (joined_forall P _ _ _ J1 HY)]).
  apply Forall_app. split; [assumption|]. apply Forall_app. split; [now repeat constructor|]. apply Forall_app. split; [|now repeat constructor].
  apply lines_concat in HL. subst u. clear - HA HU HI. induction HI as [|line line' ls ls' H HI IH]; [constructor|]. cbn [concat] in *.
  apply Forall_app in HU as [H1 H2]. apply Forall_app. split; [|now apply IH]. destruct H as [[_ ->]|[_ ->]]; [assumption|].
  apply Forall_app. split; [|assumption]. repeat constructor; apply HA; lia.
Qed.
Lemma utf8_always s dump content target json cp all w b e : utf8_stream s -> text_page (page_of cp) ->
  (forall tree, Forall scalar (dump tree)) ->
  session s dump content (Args target json cp all) = (w, (b, e)) -> e <> NotEncodable.
Proof.
  intros HS HP HD H. destruct json.
  - destruct (json_written _ _ _ _ _ _ _ _ _ (utf8_ascii s HS) H) as [(x & -> & _)|(-> & _)]; discriminate.
  - destruct (session_main _ _ _ _ _ _ _ H) as [(x & -> & _)|(o & ok & HM & _)]; [discriminate|]. destruct target.
    + destruct (target_output _ _ _ _ _ HM) as (c & ->). destruct (target_utf8 s dump _ _ _ _ _ HS HP HM) as (u & _ & HE).
      rewrite H in HE. injection HE as _ ->. discriminate.
    + assert (exists tree, o = OutYaml tree) as (tree & ->).
      { revert HM. unfold main. cbn [a_target a_json a_cp a_all]. destruct (lnk_init (FromHandle content) cp true) as [w' [l|x]]; [|discriminate].
        cbn [bind]. destruct (yaml_tree l all) as [w3 [tree|x]]; cbn [bind fst snd]; intros [= _ <-]. now exists tree. }
      destruct (readable_exact s dump _ _ _ _ _ _ _ (utf8_ascii s HS) HM H) as (first & _ & [(_ & _ & t & HT & HN)|(-> & _)]); [|discriminate].
      exfalso. apply write_none in HN. rewrite utf8_write in HN; [discriminate HN|assumption|].
      eapply printed_forall; [| |apply (HD tree)|exact HT]; unfold scalar; intros; lia.
Qed.

Lemma session_said s dump content a : fst (session s dump content a) = fst (main content a).
Proof. unfold session. destruct (main content a) as [w [o|e]]; [|reflexivity]. now destruct (print_all s (texts dump o)). Qed.
Lemma unknown_session s dump content target json cp all :
  session s dump content (Args target json CpUnknown all) = session s dump content (Args target json cp all)
  \/ exists said more,
       session s dump content (Args target json CpUnknown all) = (said, ([], Raised LookupError))
       /\ fst (session s dump content (Args target json cp all)) = said ++ more.
Proof.
  destruct (UnknownProofs.unknown_main content target json cp all) as [H|(said & more & H & HM)].
  - left. unfold session. now rewrite H.
  - right. exists said, more. rewrite session_said. split; [unfold session; now rewrite H|assumption].
Qed.
