(** * Every schedule (property C70) *)
From Verif Require Import ReportProofs JsonProofs ReadableProofs HeapProofs HistoryProofs.
From Verif Require Import Lemmas Codec Header StringData LnkFile Json Report Readable Heap Threads.
From Verif Require Import SpecHistory SpecThreads ThreadProofs.
From Coq Require Import Permutation.

(** ** Requests *)
Definition tables (q : request) : list nat :=
  match q with Open _ _ _ => [] | Ask o _ => match o_data o with HRef t => [t] | _ => [] end end.
Definition report_reply (a : reply) (d : dict) (F : list nat) (h : heap) : Prop :=
  exists v, a = RAnswer (AReport v) /\ owns F h v (PDict d).
Definition text_reply (a : reply) (t : text) (F : list nat) (h : heap) : Prop := a = RAnswer (AText t).
Definition link_reply (a : reply) (l : lnk) (F : list nat) (h : heap) : Prop := exists o, a = ROpened o /\ is_object o l F h.
Definition outcome (dump : dict -> text) (q : request) : post reply :=
  match q with
  | Open src cp allow => meets link_reply [] (lnk_init src cp allow)
  | Ask o (GetJson all) => meets report_reply [] (get_json (o_link o) all)
  | Ask o (PrintJson all) => meets text_reply [] (d <- get_json (o_link o) all ;; ret (print_json_text d))
  | Ask o (PrintReadable all) => meets text_reply [] (print_lnk_file dump (o_link o) all)
  | Ask o Command => meets text_reply [] (lnk_command (o_link o))
  end.
Lemma meets_lasting {A B} T (R : A -> B -> list nat -> heap -> Prop) w n :
  (forall a b F h h', R a b F h -> steady (T ++ F) h h' -> R a b F h') -> lasting T (meets R w n).
Proof.
  intros H w' r F h h' [-> E] S. split; [reflexivity|]. destruct r as [a|e], (snd n) as [b|e']; auto. eapply H; eassumption.
Qed.
Lemma outcome_lasting dump q : lasting (tables q) (outcome dump q).
Proof.
  destruct q as [src cp allow|o [all|all|all|]]; cbn [outcome]; apply meets_lasting.
  - intros a l F h h' (o & -> & E & t & Hd & Ht) [_ S]. exists o. split; [reflexivity|]. split; [exact E|]. exists t. split; [|exact Ht].
    eapply data_ok_keep; [exact Hd|]. apply S, in_or_app. now right.
  - intros a d F h h' (v & -> & O) S. exists v. split; [reflexivity|]. eapply owns_steady; eassumption.
  - intros a t F h h' E _. exact E.
  - intros a t F h h' E _. exact E.
  - intros a t F h h' E _. exact E.
Qed.
Lemma meets_code {A B} T F h w (p : prog A) (n : M B) R (S : reply -> B -> list nat -> heap -> Prop) (f : A -> reply) :
  safe T F h w p (meets R w n) -> (forall a b F h, R a b F h -> S (f a) b F h) ->
  safe T F h w (x <~ p ;; Return (f x)) (meets S w n).
Proof.
  intros H HS. apply safe_then. eapply safe_because; [|exact H]. intros w' r F' h' [E1 E2]. destruct r as [a|e]; cbn [safe]; (split; [exact E1|]); destruct (snd n); auto.
Qed.
Lemma code_safe dump q h : (forall o c, q = Ask o c -> exists t, data_ok o h t) -> safe (tables q) [] h [] (code dump q) (outcome dump q).
Proof.
  destruct q as [src cp allow|o c]; intros H.
  - cbn [code outcome tables]. eapply meets_code; [apply safe_open|]. intros o l F h' HO. now exists o.
  - destruct (H o c eq_refl) as [t Hd]. assert (E : tables (Ask o c) = [t]) by (cbn [tables]; destruct Hd as (-> & _); reflexivity). rewrite E.
    destruct c as [all|all|all|]; cbn [code outcome].
    + eapply meets_code; [apply safe_get_json, Hd|]. intros v d F h' O. now exists v.
    + eapply meets_code; [apply safe_print_json, Hd|]. intros a b F h' ->. reflexivity.
    + eapply meets_code; [apply safe_readable, Hd|]. intros a b F h' ->. reflexivity.
    + eapply meets_code; [apply safe_command, Hd|]. intros a b F h' ->. reflexivity.
Qed.

(** ** One step of one call *)
Lemma safe_move {A} T F h ws (p : prog A) Q w h' p' : safe T F h ws p Q -> move h p w h' p' -> within F h -> NoDup F ->
  exists F', safe T F' h' (ws ++ w) p' Q /\ within F' h' /\ NoDup F' /\ (forall r, In r F' -> In r F \/ r = length h)
  /\ (length h <= length h')%nat /\ (forall r, (r < length h)%nat -> ~ In r F -> nth_error h' r = nth_error h r).
Proof.
  intros H Hm W N. destruct Hm as [h x p|h c k|h r k c Hc|h r f p c Hc|h k]; cbn [safe] in H.
  - exists F. repeat split; auto.
  - exists (length h :: F). rewrite app_nil_r. split; [apply H, steady_refl|]. repeat split.
    + intros r [<-|Hr]; rewrite app_length; cbn; [lia|]. apply W in Hr. lia.
    + constructor; [|exact N]. intros Hr. apply W in Hr. lia.
    + intros r [<-|Hr]; auto.
    + rewrite app_length. lia.
    + intros r Hr _. now apply nth_error_app1.
  - destruct H as (Hr & c' & Hc' & H). rewrite Hc in Hc'. injection Hc' as <-. rewrite app_nil_r. exists F. repeat split; auto.
  - destruct H as (Hr & c' & Hc' & H). rewrite Hc in Hc'. injection Hc' as <-. rewrite app_nil_r. exists F. split; [exact H|]. repeat split; auto.
    + intros x Hx. rewrite put_length. now apply W.
    + now rewrite put_length.
    + intros x Hx Hn. apply put_other. intros ->. now apply Hn.
  - rewrite app_nil_r. exists F. split; [apply H, steady_refl|]. repeat split; auto.
Qed.

(** ** The invariant *)
Definition owner (dump : dict -> text) (h : heap) (K : nat -> Prop) (L : list obj) (x : running) (F : list nat) : Prop :=
  safe (tables (asked x)) F h (given x) (rest x) (outcome dump (asked x)) /\ may_ask L (asked x).
Definition valid (dump : dict -> text) (s : state) : Prop :=
  exists Fs : list (list nat),
    Forall2 (owner dump (s_heap s) (s_known s) (s_links s)) (s_calls s) Fs
    /\ NoDup (concat Fs) /\ within (concat Fs) (s_heap s)
    /\ (forall r, In r (concat Fs) -> ~ s_known s r)
    /\ (forall o, In o (s_links s) -> (exists src cp allow, snd (lnk_init src cp allow) = Ok (o_link o))
          /\ exists t, data_ok o (s_heap s) t /\ ~ s_known s t /\ ~ In t (concat Fs))
    /\ (forall r, s_known s r -> (r < length (s_heap s))%nat)
    /\ (forall r c x, s_known s r -> nth_error (s_heap s) r = Some c -> inside c (HRef x) -> s_known s x).
Lemma concat_mid (A B : list (list nat)) F : Permutation (concat (A ++ F :: B)) (F ++ concat (A ++ B)).
Proof. rewrite !concat_app. cbn [concat]. rewrite !app_assoc. apply Permutation_app_tail, Permutation_app_comm. Qed.
Lemma data_ok_lt o h t : data_ok o h t -> (t < length h)%nat.
Proof. intros (_ & _ & H). eapply nth_error_lt. exact H. Qed.
(** Calls are not disturbed by what happens to objects that are not theirs. *)
Lemma owners_steady dump h K L K' L' h' cs Gs :
  Forall2 (owner dump h K L) cs Gs -> incl L L' ->
  (forall o, In o L -> exists t, data_ok o h t /\ nth_error h' t = nth_error h t) ->
  (length h <= length h')%nat -> (forall r, In r (concat Gs) -> nth_error h' r = nth_error h r) ->
  Forall2 (owner dump h' K' L') cs Gs.
Proof.
  intros HF HL HT Hl HG. induction HF as [|x G cs Gs [Hs Hm] _ IH]; constructor.
  - split.
    + eapply safe_steady; [apply outcome_lasting|exact Hs|]. split; [exact Hl|]. intros r Hr. apply in_app_or in Hr as [Hr|Hr].
      * unfold tables in Hr. destruct (asked x) as [|o c]; [contradiction|]. destruct (HT o Hm) as (t & (E & _) & Ht). rewrite E in Hr.
        destruct Hr as [<-|[]]. exact Ht.
      * apply HG. cbn [concat]. apply in_or_app. now left.
    + destruct (asked x); [exact I|]. now apply HL.
  - apply IH. intros r Hr. apply HG. cbn [concat]. apply in_or_app. now right.
Qed.
Lemma Forall2_mid {A B} (R : A -> B -> Prop) l1 x l2 Fs : Forall2 R (l1 ++ x :: l2) Fs ->
  exists F1 F F2, Fs = F1 ++ F :: F2 /\ Forall2 R l1 F1 /\ R x F /\ Forall2 R l2 F2.
Proof.
  intros H. apply Forall2_app_inv_l in H as (F1 & F' & H1 & H2 & ->). inversion H2 as [|? F ? F2 HR HF]; subst. now exists F1, F, F2.
Qed.
Lemma replies_owned dump h K L q ws a F : owner dump h K L (Running q ws (Return a)) F ->
  (forall r, taught h a r -> In r F) /\ (forall o, a = ROpened o -> (exists src cp allow, snd (lnk_init src cp allow) = Ok (o_link o)) /\ exists t, data_ok o h t /\ In t F).
Proof.
  intros [Hs _]. cbn [asked given rest safe] in Hs.
  destruct q as [src cp allow|o [all|all|all|]]; destruct Hs as [_ Hs].
  - destruct (snd (lnk_init src cp allow)) as [l|] eqn:El; [|contradiction]. destruct Hs as (o & -> & E & Ht). split; [intros r []|].
    intros o' [= <-]. split; [|exact Ht]. exists src, cp, allow. now rewrite El, E.
  - destruct (snd (get_json _ _)) as [d|]; [|contradiction]. destruct Hs as (v & -> & G & T & N & I). split; [|discriminate].
    intros r Hr. apply I. exact (proj1 (tree_reachable h) _ _ _ T r Hr).
  - destruct (snd _) as [t|]; [|contradiction]. rewrite Hs. split; [intros r []|discriminate].
  - destruct (snd _) as [t|]; [|contradiction]. rewrite Hs. split; [intros r []|discriminate].
  - destruct (snd _) as [t|]; [|contradiction]. rewrite Hs. split; [intros r []|discriminate].
Qed.
Lemma mid_facts (Fs1 : list (list nat)) F Fs2 : NoDup (concat (Fs1 ++ F :: Fs2)) -> NoDup F /\ NoDup (concat (Fs1 ++ Fs2)) /\ forall r, In r F -> ~ In r (concat (Fs1 ++ Fs2)).
Proof. intros N. eapply Permutation_NoDup in N; [|apply concat_mid]. now apply NoDup_app_inv in N. Qed.
Lemma mid_in (Fs1 : list (list nat)) F Fs2 r : In r (concat (Fs1 ++ F :: Fs2)) <-> In r F \/ In r (concat (Fs1 ++ Fs2)).
Proof.
  rewrite <- in_app_iff. split; apply Permutation_in; [apply concat_mid|apply Permutation_sym, concat_mid].
Qed.
Lemma valid_step dump s s' : step dump s s' -> valid dump s -> valid dump s'.
Proof.
  intros Hst (Fs & HF & N & W & D & HL & HK & HC). destruct Hst as [h K L c1 c2 q Hq|h K L c1 c2 q ws p w h' p' Hm|h K L c1 c2 q ws a|h K L c1 c2 q ws e|h K L cs r c Hr Hs|h K L cs c Hs];
    cbn [s_heap s_known s_links s_calls] in *; unfold valid; cbn [s_heap s_known s_links s_calls].
  - (* a call starts *)
    apply Forall2_app_inv_l in HF as (F1 & F2 & H1 & H2 & ->). exists (F1 ++ [] :: F2).
    assert (E : concat (F1 ++ [] :: F2) = concat (F1 ++ F2)) by (rewrite !concat_app; reflexivity). rewrite E.
    split; [|split; [exact N|split; [exact W|split; [exact D|split; [exact HL|split; [exact HK|exact HC]]]]]].
    apply Forall2_app; [exact H1|]. constructor; [|exact H2]. split; [|exact Hq]. cbn [asked given rest]. apply code_safe.
    intros o c ->. cbn in Hq. destruct (HL o Hq) as (_ & t & Hd & _). now exists t.
  - (* a call makes a step *)
    apply Forall2_mid in HF as (F1 & F & F2 & -> & H1 & [Hs Hq] & H2). cbn [asked given rest] in Hs, Hq.
    destruct (mid_facts _ _ _ N) as (NF & NR & DR). 
    assert (WF : within F h) by (intros r Hr; apply W, mid_in; now left).
    destruct (safe_move _ _ _ _ _ _ _ _ _ Hs Hm WF NF) as (F' & Hs' & WF' & NF' & IF & Ll & Ho).
    assert (Keep : forall r, (r < length h)%nat -> ~ In r F -> nth_error h' r = nth_error h r) by exact Ho.
    assert (HT : forall o, In o L -> exists t, data_ok o h t /\ nth_error h' t = nth_error h t).
    { intros o Ho'. destruct (HL o Ho') as (_ & t & Hd & _ & Ht). exists t. split; [exact Hd|]. apply Keep; [eapply data_ok_lt; exact Hd|].
      intros Hx. apply Ht, mid_in. now left. }
    assert (HG : forall r, In r (concat (F1 ++ F2)) -> nth_error h' r = nth_error h r).
    { intros r Hr. apply Keep; [apply W, mid_in; now right|]. intros Hx. exact (DR r Hx Hr). }
    exists (F1 ++ F' :: F2). split; [|split; [|split; [|split; [|split; [|split]]]]].
    + apply Forall2_app; [|constructor].
      * eapply owners_steady; [exact H1|apply incl_refl|exact HT|exact Ll|]. intros r Hr. apply HG. rewrite concat_app. apply in_or_app. now left.
      * split; [exact Hs'|exact Hq].
      * eapply owners_steady; [exact H2|apply incl_refl|exact HT|exact Ll|]. intros r Hr. apply HG. rewrite concat_app. apply in_or_app. now right.
    + eapply Permutation_NoDup; [apply Permutation_sym, concat_mid|]. apply NoDup_app; [exact NF'|exact NR|]. intros r Hr Hr'.
      apply IF in Hr as [Hr| ->]; [exact (DR r Hr Hr')|]. specialize (W (length h) ltac:(apply mid_in; now right)). lia.
    + intros r Hr. apply mid_in in Hr as [Hr|Hr]; [now apply WF'|]. specialize (W r ltac:(apply mid_in; now right)). lia.
    + intros r Hr Hk. apply mid_in in Hr as [Hr|Hr]; [|apply (D r); [apply mid_in; now right|exact Hk]].
      apply IF in Hr as [Hr| ->]; [apply (D r); [apply mid_in; now left|exact Hk]|]. apply HK in Hk. lia.
    + intros o Ho'. destruct (HL o Ho') as (Hi & t & Hd & Hk & Ht). split; [exact Hi|]. exists t. split; [|split; [exact Hk|]].
      * eapply data_ok_keep; [exact Hd|]. apply Keep; [eapply data_ok_lt; exact Hd|]. intros Hx. apply Ht, mid_in. now left.
      * intros Hx. apply mid_in in Hx as [Hx|Hx]; [|apply Ht, mid_in; now right].
        apply IF in Hx as [Hx| ->]; [apply Ht, mid_in; now left|]. apply data_ok_lt in Hd. lia.
    + intros r Hr. apply HK in Hr. lia.
    + intros r c x Hr Hc Hi. eapply HC; [exact Hr| |exact Hi]. rewrite <- Hc. symmetry. apply Keep; [now apply HK|].
      intros Hx. apply (D r); [apply mid_in; now left|exact Hr].
  - (* an answer *)
    apply Forall2_mid in HF as (F1 & F & F2 & -> & H1 & Ho & H2). destruct (mid_facts _ _ _ N) as (NF & NR & DR).
    destruct (replies_owned _ _ _ _ _ _ _ _ Ho) as [Hta Hop].
    assert (HT : forall o, In o L -> exists t, data_ok o h t /\ nth_error h t = nth_error h t).
    { intros o Ho'. destruct (HL o Ho') as (_ & t & Hd & _). now exists t. }
    assert (IL : incl L (with_link a L)) by (destruct a; [apply incl_tl, incl_refl|apply incl_refl]).
    exists (F1 ++ F2). split; [|split; [exact NR|split; [|split; [|split; [|split]]]]].
    + apply Forall2_app; (eapply owners_steady; [eassumption|exact IL|exact HT|lia|reflexivity]).
    + intros r Hr. apply W, mid_in. now right.
    + intros r Hr [Hk|Hk]; [apply (D r); [apply mid_in; now right|exact Hk]|]. apply Hta in Hk. exact (DR r Hk Hr).
    + intros o Ho'. assert (Old : In o L -> (exists src cp allow, snd (lnk_init src cp allow) = Ok (o_link o))
          /\ exists t, data_ok o h t /\ ~ (K t \/ taught h a t) /\ ~ In t (concat (F1 ++ F2))).
      { intros Hi. destruct (HL o Hi) as (Hs & t & Hd & Hk & Ht). split; [exact Hs|]. exists t. split; [exact Hd|]. split.
        - intros [Hx|Hx]; [now apply Hk|]. apply Ht, mid_in. left. now apply Hta.
        - intros Hx. apply Ht, mid_in. now right. }
      destruct a as [o'|a]; cbn [with_link] in Ho'; [|now apply Old]. destruct Ho' as [<-|Hi]; [|now apply Old].
      destruct (Hop o' eq_refl) as (Hs & t & Hd & Ht). split; [exact Hs|]. exists t. split; [exact Hd|]. split.
      * intros [Hx|[]]. apply (D t); [apply mid_in; now left|exact Hx].
      * now apply DR.
    + intros r [Hr|Hr]; [now apply HK|]. apply W, mid_in. left. now apply Hta.
    + intros r c x [Hr|Hr] Hc Hi; [left; eapply HC; eassumption|]. right. destruct a as [o'|[v|t]]; try contradiction. cbn in *.
      eapply reachable_step; eassumption.
  - (* an exception *)
    apply Forall2_mid in HF as (F1 & F & F2 & -> & H1 & Ho & H2). destruct (mid_facts _ _ _ N) as (NF & NR & DR).
    exists (F1 ++ F2). split; [now apply Forall2_app|]. split; [exact NR|]. split; [intros r Hr; apply W, mid_in; now right|].
    split; [intros r Hr; apply D, mid_in; now right|]. split; [|split; [exact HK|exact HC]].
    intros o Hi. destruct (HL o Hi) as (Hs & t & Hd & Hk & Ht). split; [exact Hs|]. exists t. split; [exact Hd|]. split; [exact Hk|].
    intros Hx. apply Ht, mid_in. now right.
  - (* a caller overwrites an object *)
    assert (Keep : forall x, x <> r -> nth_error (put h r c) x = nth_error h x) by (intros x Hx; apply put_other; congruence).
    exists Fs. split; [|split; [exact N|split; [|split; [exact D|split; [|split]]]]].
    + eapply owners_steady; [exact HF|apply incl_refl| |now rewrite put_length|].
      * intros o Hi. destruct (HL o Hi) as (_ & t & Hd & Hk & _). exists t. split; [exact Hd|]. apply Keep. intros ->. now apply Hk.
      * intros x Hx. apply Keep. intros ->. exact (D r Hx Hr).
    + intros x Hx. rewrite put_length. now apply W.
    + intros o Hi. destruct (HL o Hi) as (Hi' & t & Hd & Hk & Ht). split; [exact Hi'|]. exists t. split; [|now split].
      eapply data_ok_keep; [exact Hd|]. apply Keep. intros ->. now apply Hk.
    + intros x Hx. rewrite put_length. now apply HK.
    + intros x c' y Hx Hc Hi. destruct (Nat.eq_dec x r) as [->|Hne].
      * rewrite put_same in Hc by now apply HK. injection Hc as <-. now apply Hs.
      * rewrite Keep in Hc by exact Hne. eapply HC; eassumption.
  - (* a caller creates an object *)
    assert (Keep : forall x, (x < length h)%nat -> nth_error (h ++ [c]) x = nth_error h x) by (intros x Hx; now apply nth_error_app1).
    exists Fs. split; [|split; [exact N|split; [|split; [|split; [|split]]]]].
    + eapply owners_steady; [exact HF|apply incl_refl| |rewrite app_length; lia|].
      * intros o Hi. destruct (HL o Hi) as (_ & t & Hd & _). exists t. split; [exact Hd|]. apply Keep. eapply data_ok_lt; exact Hd.
      * intros x Hx. now apply Keep, W.
    + intros x Hx. rewrite app_length. apply W in Hx. lia.
    + intros x Hx [Hk| ->]; [exact (D x Hx Hk)|]. apply W in Hx. lia.
    + intros o Hi. destruct (HL o Hi) as (Hi' & t & Hd & Hk & Ht). split; [exact Hi'|]. exists t. split; [|split; [|exact Ht]].
      * eapply data_ok_keep; [exact Hd|]. apply Keep. eapply data_ok_lt; exact Hd.
      * intros [Hx| ->]; [now apply Hk|]. apply data_ok_lt in Hd. lia.
    + intros x [Hx| ->]; rewrite app_length; cbn; [apply HK in Hx|]; lia.
    + intros x c' y [Hx| ->] Hc Hi.
      * left. rewrite Keep in Hc by now apply HK. eapply HC; eassumption.
      * rewrite nth_error_last in Hc. injection Hc as <-. left. now apply Hs.
Qed.
Lemma happens_valid dump s : happens dump s -> valid dump s.
Proof.
  induction 1 as [h Hc|s s' _ IH Hs]; [|eapply valid_step; eassumption].
  exists []. cbn. split; [constructor|]. split; [constructor|]. split; [intros r []|]. split; [intros r []|]. split; [intros o []|]. split; [auto|].
  intros r c x _ H Hi. eapply Hc; eassumption.
Qed.

(** ** Consequences *)
Lemma Forall2_in {A B} (R : A -> B -> Prop) l l' x : Forall2 R l l' -> In x l -> exists y, In y l' /\ R x y.
Proof. induction 1 as [|a b l l' HR _ IH]; intros Hi; [contradiction|]. destruct Hi as [<-|Hi]; [exists b; split; [now left|exact HR]|]. destruct (IH Hi) as (y & Hy & Hr). exists y. split; [now right|exact Hr]. Qed.
Theorem schedule_right dump s x r : happens dump s -> In x (s_calls s) -> ended (rest x) r -> right dump (s_heap s) (asked x) (given x) r.
Proof.
  intros H Hi He. destruct (happens_valid _ _ H) as (Fs & HF & _). destruct (Forall2_in _ _ _ _ HF Hi) as (F & _ & [Hs _]).
  assert (HO : outcome dump (asked x) (given x) r F (s_heap s)) by (destruct r as [a|e]; cbn in He; rewrite He in Hs; exact Hs).
  destruct (asked x) as [src cp allow|o [all|all|all|]]; destruct HO as [E HO]; (split; [exact E|]); destruct r as [a|e];
    (match type of HO with match ?m with _ => _ end => destruct m as [y|e'] end); try contradiction; try exact HO.
  - destruct HO as (o & -> & El & _). exact El.
  - destruct HO as (v & -> & G & T & _). exact (proj1 (tree_denotes (s_heap s)) _ _ _ T).
  - rewrite HO. reflexivity.
  - rewrite HO. reflexivity.
  - rewrite HO. reflexivity.
Qed.
Theorem schedule_goes_on dump s x : happens dump s -> In x (s_calls s) ->
  (exists r, ended (rest x) r) \/ exists w h' p', move (s_heap s) (rest x) w h' p'.
Proof.
  intros H Hi. destruct (happens_valid _ _ H) as (Fs & HF & _). destruct (Forall2_in _ _ _ _ HF Hi) as (F & _ & [Hs _]).
  destruct (rest x) as [a|e|w p|c k|r k|r f p|k]; cbn [safe] in Hs.
  - left. now exists (Ok a).
  - left. now exists (Err e).
  - right. do 3 eexists. constructor.
  - right. do 3 eexists. constructor.
  - right. destruct Hs as (_ & c & Hc & _). do 3 eexists. eapply move_look. exact Hc.
  - right. destruct Hs as (_ & c & Hc & _). do 3 eexists. eapply move_change. exact Hc.
  - right. do 3 eexists. constructor.
Qed.
Theorem schedule_ends A : well_founded (@leads A).
Proof.
  intros p. induction p as [a|e|w p IH|c k IH|r k IH|r f p IH|k IH]; constructor; intros p' (h & w' & h' & Hm); inversion Hm; subst; auto.
Qed.
Theorem schedule_links dump s o : happens dump s -> In o (s_links s) -> exists src cp allow, snd (lnk_init src cp allow) = Ok (o_link o).
Proof. intros H Hi. destruct (happens_valid _ _ H) as (Fs & _ & _ & _ & _ & HL & _). apply (HL o Hi). Qed.
Theorem schedule_keeps dump h K L c1 c2 q ws p w h' p' r : happens dump (State h K L (c1 ++ Running q ws p :: c2)) ->
  move h p w h' p' -> K r -> nth_error h' r = nth_error h r.
Proof.
  intros H Hm Hr. destruct (happens_valid _ _ H) as (Fs & HF & N & W & D & HL & HK & HC). cbn [s_heap s_known s_links s_calls] in *.
  apply Forall2_mid in HF as (F1 & F & F2 & -> & H1 & [Hs Hq] & H2). cbn [asked given rest] in Hs. destruct (mid_facts _ _ _ N) as (NF & _).
  assert (WF : within F h) by (intros x Hx; apply W, mid_in; now left).
  destruct (safe_move _ _ _ _ _ _ _ _ _ Hs Hm WF NF) as (F' & _ & _ & _ & _ & _ & Ho). apply Ho; [now apply HK|].
  intros Hx. apply (D r); [apply mid_in; now left|exact Hr].
Qed.
Theorem schedule_apart dump h K L c1 c2 q ws a : happens dump (State h K L (c1 ++ Running q ws (Return a) :: c2)) ->
  forall r, taught h a r -> ~ K r /\ forall q' ws' a', In (Running q' ws' (Return a')) (c1 ++ c2) -> ~ taught h a' r.
Proof.
  intros H r Hr. destruct (happens_valid _ _ H) as (Fs & HF & N & W & D & _). cbn [s_heap s_known s_links s_calls] in *.
  apply Forall2_mid in HF as (F1 & F & F2 & -> & H1 & Ho & H2). destruct (mid_facts _ _ _ N) as (_ & _ & DR).
  destruct (replies_owned _ _ _ _ _ _ _ _ Ho) as [Ht _]. specialize (Ht r Hr). split; [apply D, mid_in; now left|].
  intros q' ws' a' Hi Hr'. destruct (Forall2_in _ _ _ _ (Forall2_app H1 H2) Hi) as (G & HG & Ho'). apply (DR r Ht).
  apply in_concat. exists G. split; [exact HG|]. destruct (replies_owned _ _ _ _ _ _ _ _ Ho') as [Ht' _]. now apply Ht'.
Qed.
