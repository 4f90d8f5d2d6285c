(** * Histories (property C58) *)
From Verif Require Import ReportProofs JsonProofs.
From Verif Require Import Lemmas Codec Header StringData LnkFile Json Report Readable Heap SpecHistory HeapProofs.

(** ** The dictionary of the link object *)
Lemma dset_strings k t d : strings_only d -> strings_only (dset k (PStr t) d).
Proof.
  induction 1 as [|[k' v] d H HF IH]; cbn [dset].
  - constructor; [now exists t|constructor].
  - destruct (String.eqb k k'); constructor; auto. now exists t.
Qed.
Lemma sd_loop_strings fs h cp raw : forall st sd, strings_only (sd_data st) -> snd (sd_loop fs h cp raw st) = Ok sd -> strings_only (sd_data sd).
Proof.
  induction fs as [|[[flag name] lim] fs IH]; intros st sd Hs H; cbn [sd_loop] in H; [injection H as <-; exact Hs|].
  destruct (has_flag flag h) as [w [[|]|e]].
  - destruct (sd_read h cp _ lim) as [w' [[t n]|e]].
    + destruct (sd_loop fs h cp raw _) as [w2 r] eqn:E. cbn [snd] in H. subst r.
      apply (IH (SD (dset name (PStr t) (sd_data st)) (sd_size st + n)) sd); [now apply dset_strings|now rewrite E].
    + destruct (is_struct_error e); cbn [snd] in H; [injection H as <-; exact Hs|discriminate].
  - now apply (IH st).
  - destruct (is_struct_error e); cbn [snd] in H; [injection H as <-; exact Hs|discriminate].
Qed.
Lemma init_strings_only src cp allow l : snd (lnk_init src cp allow) = Ok l -> strings_only (sd_data (l_string_data l)).
Proof.
  intros H. destruct (init_strings _ _ _ _ H) as (_ & b & Hsd). eapply sd_loop_strings; [|exact Hsd]. constructor.
Qed.
Lemma alloc_strings d h : strings_only d ->
  alloc (PDict d) h = (HRef (length h), h ++ [CDict (map (fun e => (fst e, match snd e with PStr t => HStr t | _ => HNone end)) d)]).
Proof.
  intros H. cbn [alloc]. match goal with |- context[(?f d h)] => set (elems := f) end.
  assert (E : elems d h = (map (fun e => (fst e, match snd e with PStr t => HStr t | _ => HNone end)) d, h)); [|now rewrite E].
  induction H as [|[k v] d [t Ht] _ IH]; [reflexivity|]. cbn in Ht. subst v. cbn [elems alloc]. cbn in IH |- *. now rewrite IH.
Qed.
Lemma obj_init_ok src cp allow h0 o h : snd (obj_init src cp allow h0) = Ok (o, h) ->
  snd (lnk_init src cp allow) = Ok (o_link o) /\ data_ok o h (length h0) /\ exists c, h = h0 ++ [c] /\ forall r, ~ inside c (HRef r).
Proof.
  unfold obj_init. intros H. apply snd_bind_Ok in H as (l & Hl & H). pose proof (init_strings_only _ _ _ _ Hl) as Hs.
  rewrite (alloc_strings _ h0 Hs) in H. cbn [ret snd] in H. injection H as <- <-. split; [exact Hl|]. split.
  - split; [reflexivity|]. split; [exact Hs|]. apply nth_error_last.
  - eexists. split; [reflexivity|]. intros r (k & Hin). apply in_map_iff in Hin as ([k' v] & E & _). cbn in E. destruct v; discriminate.
Qed.

(** ** Trees and reachability *)
Lemma tree_denotes h :
  (forall v p F, tree h v p F -> denotes h v p)
  /\ (forall vs ps F, trees h vs ps F -> Forall2 (denotes h) vs ps)
  /\ (forall ds d F, rows h ds d F -> Forall2 (fun x y => fst x = fst y /\ denotes h (snd x) (snd y)) ds d).
Proof. apply tree_ind3; intros; try (econstructor; eauto; fail); constructor; auto. Qed.
Lemma tree_reachable h :
  (forall v p F, tree h v p F -> forall r, reachable h v r -> In r F)
  /\ (forall vs ps F, trees h vs ps F -> forall x r, In x vs -> reachable h x r -> In r F)
  /\ (forall ds d F, rows h ds d F -> forall k x r, In (k, x) ds -> reachable h x r -> In r F).
Proof.
  apply tree_ind3; intros; try (match goal with H : reachable _ _ _ |- _ => now inversion H end); try contradiction.
  - inversion H2 as [|? c v s Hc Hi Hr]; subst; [now left|]. rewrite H in Hc. injection Hc as <-. right. eapply H1; eassumption.
  - inversion H2 as [|? c v s Hc Hi Hr]; subst; [now left|]. rewrite H in Hc. injection Hc as <-. destruct Hi as [k Hi]. right. eapply H1; eassumption.
  - apply in_or_app. destruct H3 as [<-|H3]; [left; auto|right; eauto].
  - apply in_or_app. destruct H3 as [E|H3]; [injection E as <- <-; left; auto|right; eauto].
Qed.
Lemma reachable_step h v r c s : reachable h v r -> nth_error h r = Some c -> inside c (HRef s) -> reachable h v s.
Proof.
  induction 1 as [r|r c' v s' Hc Hi Hr IH]; intros H1 H2.
  - eapply reachable_inside; [eassumption|eassumption|constructor].
  - eapply reachable_inside; [eassumption|eassumption|auto].
Qed.

(** ** Calls *)
Definition settled (h h' : heap) : Prop := (length h <= length h')%nat /\ forall r, (r < length h)%nat -> nth_error h' r = nth_error h r.
Definition learned (h : heap) (ah : answer * heap) : Prop := forall r, learns (snd ah) (fst ah) r -> (length h <= r < length (snd ah))%nat.
Lemma newly_learned h h' v p : newly h h' v p -> forall r, reachable h' v r -> (length h <= r < length h')%nat.
Proof.
  intros ((F & T & _ & B) & _) r Hr. pose proof (proj1 (tree_reachable h') _ _ _ T r Hr) as Hin. split; [now apply B|].
  exact (proj1 (bounds_all h') _ _ _ T r Hin).
Qed.
Lemma newly_denotes h h' v p : newly h h' v p -> denotes h' v p.
Proof. intros ((F & T & _) & _). exact (proj1 (tree_denotes h') _ _ _ T). Qed.
Lemma data_get_ok o h r k : data_ok o h r -> data_get o h k = sd_get k (l_string_data (o_link o)).
Proof.
  intros (E & S & C). unfold data_get, sd_get. rewrite E, C. clear E C.
  induction S as [|[k' v] d [t Ht] _ IH]; [reflexivity|]. cbn in Ht. subst v. cbn [map fst snd hget dget]. now destruct (String.eqb k k').
Qed.
Lemma command_heap_ok o h r : data_ok o h r -> command_heap o h = lnk_command (o_link o).
Proof. intros H. unfold command_heap, lnk_command. now rewrite !(data_get_ok o h r _ H). Qed.

Lemma agrees_outcome {A B} (R : A -> B -> Prop) (f : A -> answer * heap) (shows : heap -> answer -> B -> Prop) m n :
  agrees R m n -> (forall a b, R a b -> shows (snd (f a)) (fst (f a)) b) -> outcome_is shows (bind m (fun a => ret (f a))) n.
Proof.
  intros [H1 H2] H. unfold outcome_is. destruct m as [w [a|e]], n as [w' [b|e']]; cbn in *; try contradiction.
  - specialize (H a b H2). destruct (f a) as [x h]. cbn in *. rewrite app_nil_r. now split.
  - now split.
Qed.
Lemma call_report dump o all h r : data_ok o h r ->
  outcome_is shows_report (call_heap dump o (GetJson all) h) (get_json (o_link o) all).
Proof.
  intros H. unfold call_heap. eapply agrees_outcome; [eapply get_json_heap_ok, H|]. intros [v h'] d N. cbn. eapply newly_denotes, N.
Qed.
Lemma call_json dump o all h r : data_ok o h r ->
  outcome_is shows_text (call_heap dump o (PrintJson all) h) (d <- get_json (o_link o) all ;; ret (print_json_text d)).
Proof.
  intros H. unfold call_heap. eapply agrees_outcome; [eapply print_json_heap_ok, H|]. intros [v h'] d N. cbn. apply N.
Qed.
Lemma call_readable dump o all h r : data_ok o h r ->
  outcome_is shows_text (call_heap dump o (PrintReadable all) h) (print_lnk_file dump (o_link o) all).
Proof.
  intros H. unfold call_heap. eapply agrees_outcome; [eapply print_readable_heap_ok, H|]. intros [v h'] d N. cbn. apply N.
Qed.
Lemma call_command dump o h r : data_ok o h r -> outcome_is shows_text (call_heap dump o Command h) (lnk_command (o_link o)).
Proof.
  intros H. unfold call_heap. rewrite (command_heap_ok o h r H). unfold outcome_is.
  destruct (lnk_command (o_link o)) as [w [t|e]]; cbn; rewrite ?app_nil_r; now split.
Qed.
Lemma agrees_left {A B} (R : A -> B -> Prop) m n a : agrees R m n -> snd m = Ok a -> exists b, R a b.
Proof. intros [_ H] E. rewrite E in H. destruct (snd n) as [b|]; [now exists b|contradiction]. Qed.
Lemma call_settled dump o c h r a h' : data_ok o h r -> snd (call_heap dump o c h) = Ok (a, h') -> settled h h' /\ learned h (a, h').
Proof.
  intros Hd H. destruct c as [all|all|all|]; cbn [call_heap] in H; apply snd_bind_Ok in H as (x & Hx & H); injection H as <- <-.
  - destruct (agrees_left _ _ _ _ (get_json_heap_ok o all h r Hd) Hx) as (d & N). split; [apply N|]. intros s Hs. eapply newly_learned; eassumption.
  - destruct (agrees_left _ _ _ _ (print_json_heap_ok o all h r Hd) Hx) as (d & _ & N). split; [exact N|]. intros s [].
  - destruct (agrees_left _ _ _ _ (print_readable_heap_ok dump o all h r Hd) Hx) as (d & _ & N). split; [exact N|]. intros s [].
  - split; [split; [lia|reflexivity]|]. intros s [].
Qed.

(** ** The invariant of a history *)
Definition invariant (o : obj) (r : nat) (w : world) : Prop :=
  data_ok o (w_heap w) r /\ ~ w_known w r /\ (forall s, w_known w s -> (s < length (w_heap w))%nat)
  /\ forall s c x, w_known w s -> nth_error (w_heap w) s = Some c -> inside c (HRef x) -> w_known w x.
Lemma data_ok_lt o h r : data_ok o h r -> (r < length h)%nat.
Proof. intros (_ & _ & H). eapply nth_error_lt, H. Qed.
Lemma invariant_answer dump o r h K c a h' : invariant o r (World h K) -> snd (call_heap dump o c h) = Ok (a, h') ->
  invariant o r (World h' (fun s => K s \/ learns h' a s)).
Proof.
  intros (D & P & B & C) H. cbn [w_heap w_known] in *. destruct (call_settled _ _ _ _ _ _ _ D H) as [[L S] N].
  pose proof (data_ok_lt _ _ _ D) as Lr. repeat split; cbn [w_heap w_known].
  - apply D.
  - apply D.
  - rewrite S by exact Lr. apply D.
  - intros [G|G]; [now apply P|]. apply N in G. lia.
  - intros s [G|G]; [apply B in G; lia|]. apply N in G. cbn in G. lia.
  - intros s c' x [G|G] Hc Hi.
    + left. apply (C s c' x G); [|exact Hi]. rewrite <- (S s (B s G)). exact Hc.
    + right. destruct a as [v|t]; [|contradiction]. cbn in *. eapply reachable_step; eassumption.
Qed.
Lemma invariant_put o r h K s c : invariant o r (World h K) -> K s -> storable K c -> invariant o r (World (put h s c) K).
Proof.
  intros (D & P & B & C) Hs Hc. cbn [w_heap w_known] in *. repeat split; cbn [w_heap w_known].
  - apply D.
  - apply D.
  - rewrite put_other; [apply D|]. intros ->. now apply P.
  - exact P.
  - intros x Hx. rewrite put_length. now apply B.
  - intros x c' y Hx E Hi. destruct (Nat.eq_dec s x) as [<-|Ne].
    + rewrite put_same in E by (now apply B). injection E as <-. now apply Hc.
    + rewrite put_other in E by exact Ne. exact (C x c' y Hx E Hi).
Qed.
Lemma invariant_create o r h K c : invariant o r (World h K) -> storable K c ->
  invariant o r (World (h ++ [c]) (fun s => K s \/ s = length h)).
Proof.
  intros (D & P & B & C) Hc. cbn [w_heap w_known] in *. pose proof (data_ok_lt _ _ _ D) as Lr. repeat split; cbn [w_heap w_known].
  - apply D.
  - apply D.
  - rewrite nth_error_app1 by exact Lr. apply D.
  - intros [G|G]; [now apply P|lia].
  - intros s [G| ->]; rewrite app_length; cbn; [apply B in G; lia|lia].
  - intros s c' x [G| ->] E Hi; left.
    + rewrite nth_error_app1 in E by (now apply B). exact (C s c' x G E Hi).
    + rewrite nth_error_last in E. injection E as <-. now apply Hc.
Qed.
Lemma invariant_later dump o r spared w w' : later dump o spared w w' -> invariant o r w -> invariant o r w'.
Proof.
  induction 1 as [|h K c a h' w H _ IH|h K c e w H _ IH|h K s c w Hs _ Hc _ IH|h K c w Hc _ IH]; intros I; auto.
  - apply IH. eapply invariant_answer; eassumption.
  - apply IH. now apply invariant_put.
  - apply IH. now apply invariant_create.
Qed.
Lemma invariant_reached dump src cp allow o w : reached dump src cp allow o w ->
  snd (lnk_init src cp allow) = Ok (o_link o) /\ exists r, invariant o r w.
Proof.
  intros (h0 & h & Hc & Ho & HL). destruct (obj_init_ok _ _ _ _ _ _ Ho) as (Hl & D & c & -> & Hi). split; [exact Hl|].
  exists (length h0). apply (invariant_later _ _ _ _ _ _ HL). repeat split; cbn [w_heap w_known]; try apply D.
  - lia.
  - intros s Hs. rewrite app_length. lia.
  - intros s c' x Hs E Hx. rewrite nth_error_app1 in E by exact Hs. eapply Hc; eassumption.
Qed.

(** ** C58 *)
Theorem history_report dump src cp allow o w l : reached dump src cp allow o w -> snd (lnk_init src cp allow) = Ok l ->
  forall all, outcome_is shows_report (call_heap dump o (GetJson all) (w_heap w)) (get_json l all).
Proof.
  intros HR Hl all. destruct (invariant_reached _ _ _ _ _ _ HR) as (Hl' & r & D & _). rewrite Hl in Hl'. injection Hl' as ->. eapply call_report, D.
Qed.
Theorem history_json dump src cp allow o w l : reached dump src cp allow o w -> snd (lnk_init src cp allow) = Ok l ->
  forall all, outcome_is shows_text (call_heap dump o (PrintJson all) (w_heap w)) (d <- get_json l all ;; ret (print_json_text d)).
Proof.
  intros HR Hl all. destruct (invariant_reached _ _ _ _ _ _ HR) as (Hl' & r & D & _). rewrite Hl in Hl'. injection Hl' as ->. eapply call_json, D.
Qed.
Theorem history_readable dump src cp allow o w l : reached dump src cp allow o w -> snd (lnk_init src cp allow) = Ok l ->
  forall all, outcome_is shows_text (call_heap dump o (PrintReadable all) (w_heap w)) (print_lnk_file dump l all).
Proof.
  intros HR Hl all. destruct (invariant_reached _ _ _ _ _ _ HR) as (Hl' & r & D & _). rewrite Hl in Hl'. injection Hl' as ->. eapply call_readable, D.
Qed.
Theorem history_command dump src cp allow o w l : reached dump src cp allow o w -> snd (lnk_init src cp allow) = Ok l ->
  outcome_is shows_text (call_heap dump o Command (w_heap w)) (lnk_command l).
Proof.
  intros HR Hl. destruct (invariant_reached _ _ _ _ _ _ HR) as (Hl' & r & D & _). rewrite Hl in Hl'. injection Hl' as ->. eapply call_command, D.
Qed.
Lemma outcome_report_same m m' n : outcome_is shows_report m n -> outcome_is shows_report m' n -> same_outcome m m'.
Proof.
  intros [A1 A2] [B1 B2]. split; [congruence|]. destruct (snd n) as [x|e].
  - destruct (snd m) as [[a h]|]; [|contradiction]. destruct (snd m') as [[a' h']|]; [|contradiction].
    destruct a, a'; cbn in *; try contradiction. now exists (PDict x).
  - destruct (snd m) as [[a h]|]; [contradiction|]. destruct (snd m') as [[a' h']|]; [contradiction|]. congruence.
Qed.
Lemma outcome_text_same m m' n : outcome_is shows_text m n -> outcome_is shows_text m' n -> same_outcome m m'.
Proof.
  intros [A1 A2] [B1 B2]. split; [congruence|]. destruct (snd n) as [x|e].
  - destruct (snd m) as [[a h]|]; [|contradiction]. destruct (snd m') as [[a' h']|]; [|contradiction].
    destruct a, a'; cbn in *; try contradiction. congruence.
  - destruct (snd m) as [[a h]|]; [contradiction|]. destruct (snd m') as [[a' h']|]; [contradiction|]. congruence.
Qed.
Theorem history_same dump src cp allow o w o' w' c : reached dump src cp allow o w -> reached dump src cp allow o' w' ->
  same_outcome (call_heap dump o c (w_heap w)) (call_heap dump o' c (w_heap w')).
Proof.
  intros H H'. destruct (invariant_reached _ _ _ _ _ _ H) as (Hl & r & D & _).
  pose proof (history_report _ _ _ _ _ _ _ H Hl) as R1. pose proof (history_report _ _ _ _ _ _ _ H' Hl) as R2.
  pose proof (history_json _ _ _ _ _ _ _ H Hl) as J1. pose proof (history_json _ _ _ _ _ _ _ H' Hl) as J2.
  pose proof (history_readable _ _ _ _ _ _ _ H Hl) as P1. pose proof (history_readable _ _ _ _ _ _ _ H' Hl) as P2.
  pose proof (history_command _ _ _ _ _ _ _ H Hl) as C1. pose proof (history_command _ _ _ _ _ _ _ H' Hl) as C2.
  destruct c as [all|all|all|]; [eapply outcome_report_same|eapply outcome_text_same|eapply outcome_text_same|eapply outcome_text_same]; eauto.
Qed.
Theorem history_separate dump src cp allow o w c a h' : reached dump src cp allow o w ->
  snd (call_heap dump o c (w_heap w)) = Ok (a, h') ->
  (forall r, (r < length (w_heap w))%nat -> nth_error h' r = nth_error (w_heap w) r)
  /\ forall r, learns h' a r -> (length (w_heap w) <= r)%nat.
Proof.
  intros HR H. destruct (invariant_reached _ _ _ _ _ _ HR) as (Hl & r & D & _). destruct (call_settled _ _ _ _ _ _ _ D H) as [[L S] N].
  split; [exact S|]. intros s Hs. now apply N.
Qed.
Lemma denotes_frame h h' : forall p v, denotes h v p -> (forall r, reachable h v r -> nth_error h' r = nth_error h r) -> denotes h' v p.
Proof.
  induction p as [|z|t|d|l IH|d IH] using value_induction; intros v H A; inversion H as [| | | |r vs ps E F|r ds d' E F]; subst; try constructor.
  - apply denotes_list with vs; [rewrite A by constructor; exact E|].
    assert (A' : forall x, In x vs -> forall r', reachable h x r' -> nth_error h' r' = nth_error h r').
    { intros x Hx r' Hr'. apply A. eapply reachable_inside; [exact E|exact Hx|exact Hr']. }
    clear - IH F A'. induction F as [|x y xs ys Hxy F IHF]; constructor; apply Forall_cons_iff in IH as [I1 I2].
    + apply I1; [exact Hxy|]. apply A'. now left.
    + apply IHF; [exact I2|]. intros z Hz. apply A'. now right.
  - apply denotes_dict with ds; [rewrite A by constructor; exact E|].
    assert (A' : forall e, In e ds -> forall r', reachable h (snd e) r' -> nth_error h' r' = nth_error h r').
    { intros [k x] Hx r' Hr'. apply A. eapply reachable_inside; [exact E|exists k; exact Hx|exact Hr']. }
    clear - IH F A'. induction F as [|x y xs ys [Hk Hxy] F IHF]; constructor; apply Forall_cons_iff in IH as [I1 I2].
    + split; [exact Hk|]. apply I1; [exact Hxy|]. apply A'. now left.
    + apply IHF; [exact I2|]. intros z Hz. apply A'. now right.
Qed.
Lemma Forall2_in_left {A B} (R : A -> B -> Prop) l l' x : Forall2 R l l' -> In x l -> exists y, In y l' /\ R x y.
Proof.
  induction 1 as [|a b l l' H _ IH]; intros Hx; [contradiction|]. destruct Hx as [<-|Hx]; [exists b; split; [now left|exact H]|].
  destruct (IH Hx) as (y & Hy & G). exists y. split; [now right|exact G].
Qed.
Lemma denotes_bound h v p : denotes h v p -> forall r, reachable h v r -> (r < length h)%nat.
Proof.
  intros D r H. revert p D. induction H as [r|r c v s E Hi Hr IH]; intros p D.
  - inversion D; subst; eapply nth_error_lt; eassumption.
  - inversion D as [| | | |? vs ps E' F|? ds d' E' F]; subst; rewrite E in E'; injection E' as ->; cbn in Hi.
    + destruct (Forall2_in_left _ _ _ _ F Hi) as (p & _ & Hp). eapply IH, Hp.
    + destruct Hi as [k Hi]. destruct (Forall2_in_left _ _ _ _ F Hi) as (p & _ & _ & Hp). eapply IH, Hp.
Qed.
Lemma later_spared dump o spared w w' : later dump o spared w w' -> forall r, invariant o r w ->
  (forall s, spared s -> (s < length (w_heap w))%nat) -> forall s, spared s -> nth_error (w_heap w') s = nth_error (w_heap w) s.
Proof.
  induction 1 as [|h K c a h' w H _ IH|h K c e w H _ IH|h K x c w Hx Hn Hc _ IH|h K c w Hc _ IH]; intros r I B s Hs; cbn [w_heap] in *.
  - reflexivity.
  - destruct (call_settled _ _ _ _ _ _ _ (proj1 I) H) as [[L S] _]. cbn [w_heap] in *.
    rewrite (IH r (invariant_answer _ _ _ _ _ _ _ _ I H)); [apply S, B, Hs| |exact Hs]. intros y Hy. apply B in Hy. lia.
  - eapply IH; eauto.
  - rewrite (IH r (invariant_put _ _ _ _ _ _ I Hx Hc)); [| |exact Hs].
    + apply put_other. intros ->. now apply Hn.
    + intros y Hy. rewrite put_length. now apply B.
  - rewrite (IH r (invariant_create _ _ _ _ _ I Hc)); [| |exact Hs].
    + apply nth_error_app1, B, Hs.
    + intros y Hy. rewrite app_length. apply B in Hy. lia.
Qed.
Theorem history_kept dump src cp allow o w v p w' : reached dump src cp allow o w -> denotes (w_heap w) v p ->
  later dump o (reachable (w_heap w) v) w w' -> denotes (w_heap w') v p.
Proof.
  intros HR D HL. destruct (invariant_reached _ _ _ _ _ _ HR) as (_ & r & I). apply (denotes_frame (w_heap w)); [exact D|].
  apply (later_spared _ _ _ _ _ HL r I). now apply (denotes_bound _ _ p).
Qed.
