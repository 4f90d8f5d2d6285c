(** * Threads (property C70) *)
From Verif Require Import ReportProofs JsonProofs ReadableProofs HeapProofs HistoryProofs.
From Verif Require Import Lemmas Codec Header StringData Targets Info Extra LnkFile Json Report Readable Heap Threads.

(** ** Programs that keep to their own objects *)
Definition steady (S : list nat) (h h' : heap) : Prop :=
  (length h <= length h')%nat /\ forall r, In r S -> nth_error h' r = nth_error h r.
Lemma steady_refl S h : steady S h h.
Proof. now split. Qed.
Lemma steady_trans S h h1 h2 : steady S h h1 -> steady S h1 h2 -> steady S h h2.
Proof. intros [L1 A1] [L2 A2]. split; [lia|]. intros r Hr. rewrite A2, A1 by exact Hr. reflexivity. Qed.
Lemma steady_incl S T h h' : incl S T -> steady T h h' -> steady S h h'.
Proof. intros I [L A]. split; [exact L|]. intros r Hr. apply A, I, Hr. Qed.
Definition within (S : list nat) (h : heap) : Prop := forall r, In r S -> (r < length h)%nat.

(** [p] reads the objects [T] and its own [F] only, changes its own only, and whatever the others do
    meanwhile with other objects, it ends with [Q]. *)
Definition post (A : Type) : Type := list warning -> result A -> list nat -> heap -> Prop.
Fixpoint safe {A} (T F : list nat) (h : heap) (w : list warning) (p : prog A) (Q : post A) : Prop :=
  match p with
  | Return a => Q w (Ok a) F h
  | Raise e => Q w (Err e) F h
  | Warn x p => safe T F h (w ++ [x]) p Q
  | New c k => forall h', steady (T ++ F) h h' -> safe T (length h' :: F) (h' ++ [c]) w (k (length h')) Q
  | Look r k => In r (T ++ F) /\ exists c, nth_error h r = Some c /\ safe T F h w (k c) Q
  | Change r f p => In r F /\ exists c, nth_error h r = Some c /\ safe T F (put h r (f c)) w p Q
  | Bound k => forall h', steady (T ++ F) h h' -> safe T F h' w (k (S (length h'))) Q
  end.
Definition lasting {A} (T : list nat) (Q : post A) : Prop :=
  forall w r F h h', Q w r F h -> steady (T ++ F) h h' -> Q w r F h'.
Lemma steady_put S h h' r c : steady S h h' -> (r < length h)%nat -> steady S (put h r c) (put h' r c).
Proof.
  intros [L A] Hr. split; [rewrite !put_length; exact L|]. intros x Hx. destruct (Nat.eq_dec r x) as [<-|N].
  - rewrite !put_same by lia. reflexivity.
  - rewrite !put_other by exact N. now apply A.
Qed.
Lemma safe_steady {A} T Q (p : prog A) : lasting T Q -> forall F h h' w, safe T F h w p Q -> steady (T ++ F) h h' -> safe T F h' w p Q.
Proof.
  intros HQ. induction p as [a|e|x p IH|c k IH|r k IH|r f p IH|k IH]; intros F h h' w H S; cbn [safe] in *.
  - eapply HQ; eassumption.
  - eapply HQ; eassumption.
  - eapply IH; eassumption.
  - intros h2 S2. apply H. eapply steady_trans; eassumption.
  - destruct H as (Hr & c & Hc & H). split; [exact Hr|]. exists c. split; [|eapply IH; eassumption].
    destruct S as [_ S]. rewrite S by exact Hr. exact Hc.
  - destruct H as (Hr & c & Hc & H). split; [exact Hr|]. exists c. split.
    + destruct S as [_ S]. rewrite S by (apply in_or_app; now right). exact Hc.
    + eapply IH; [exact H|]. apply steady_put; [exact S|]. eapply nth_error_lt; exact Hc.
  - intros h2 S2. apply H. eapply steady_trans; eassumption.
Qed.
Lemma safe_then {A B} T (k : A -> prog B) Q (p : prog A) : forall F h w,
  safe T F h w p (fun w r F h => match r with Ok a => safe T F h w (k a) Q | Err e => Q w (Err e) F h end) ->
  safe T F h w (andthen p k) Q.
Proof.
  induction p as [a|e|x p IH|c q IH|r q IH|r f p IH|q IH]; intros F h w H; cbn [safe andthen] in *; auto.
  - destruct H as (Hr & c & Hc & H). split; [exact Hr|]. exists c. split; [exact Hc|auto].
  - destruct H as (Hr & c & Hc & H). split; [exact Hr|]. exists c. split; [exact Hc|auto].
Qed.
Lemma safe_because {A} T (Q Q' : post A) (p : prog A) : (forall w r F h, Q w r F h -> Q' w r F h) -> forall F h w,
  safe T F h w p Q -> safe T F h w p Q'.
Proof.
  intros HQ. induction p as [a|e|x p IH|c q IH|r q IH|r f p IH|q IH]; intros F h w H; cbn [safe] in *; auto.
  - destruct H as (Hr & c & Hc & H). split; [exact Hr|]. exists c. split; [exact Hc|auto].
  - destruct H as (Hr & c & Hc & H). split; [exact Hr|]. exists c. split; [exact Hc|auto].
Qed.

(** ** Pieces *)
Lemma safe_lift {A} T F h w (m : M A) (Q : post A) : Q (w ++ fst m) (snd m) F h -> safe T F h w (lift m) Q.
Proof.
  destruct m as [ws r]. unfold lift. cbn [fst snd]. revert w. induction ws as [|x ws IH]; intros w H; cbn [fold_right safe].
  - rewrite app_nil_r in H. now destruct r.
  - apply IH. rewrite <- app_assoc. exact H.
Qed.
Definition same_set (F G : list nat) : Prop := forall r, In r F <-> In r G.

(** After a piece of program the objects [G] are new and owned. *)
Definition grown (T F : list nat) (h : heap) (G F' : list nat) (h' : heap) : Prop :=
  NoDup G /\ (forall r, In r G -> (length h <= r < length h')%nat) /\ steady (T ++ F) h h' /\ same_set F' (G ++ F).
Lemma grown_refl T F h : grown T F h [] F h.
Proof. split; [constructor|]. split; [intros r []|]. split; [apply steady_refl|]. intros r. reflexivity. Qed.
Lemma grown_within T F h G F' h' : grown T F h G F' h' -> within (T ++ F) h -> within (T ++ F') h'.
Proof.
  intros (_ & B & [L _] & E) W r Hr. apply in_app_or in Hr as [Hr|Hr].
  - specialize (W r ltac:(apply in_or_app; now left)). lia.
  - apply E, in_app_or in Hr as [Hr|Hr]; [apply B in Hr; lia|]. specialize (W r ltac:(apply in_or_app; now right)). lia.
Qed.
Lemma grown_steady T F h G F' h' : grown T F h G F' h' -> steady (T ++ F) h h'.
Proof. intros (_ & _ & S & _). exact S. Qed.
Lemma grown_app T F h G F1 h1 G' F2 h2 : grown T F h G F1 h1 -> grown T F1 h1 G' F2 h2 -> grown T F h (G ++ G') F2 h2.
Proof.
  intros (N1 & B1 & S1 & E1) (N2 & B2 & S2 & E2). split; [|split; [|split]].
  - apply NoDup_app; [exact N1|exact N2|]. intros r H1 H2. apply B1 in H1. apply B2 in H2. lia.
  - destruct S1 as [L1 _], S2 as [L2 _]. intros r Hr. apply in_app_or in Hr as [Hr|Hr]; [apply B1 in Hr|apply B2 in Hr]; lia.
  - eapply steady_trans; [exact S1|]. eapply steady_incl; [|exact S2]. intros r Hr. apply in_or_app. apply in_app_or in Hr as [Hr|Hr]; [now left|right].
    apply E1, in_or_app. now right.
  - intros r. specialize (E1 r). specialize (E2 r). rewrite !in_app_iff in *. tauto.
Qed.
Lemma grown_tree T F h G F' h' v p K : grown T F h G F' h' -> tree h v p K -> incl K F -> tree h' v p K.
Proof. intros (_ & _ & [_ S] & _) H I. apply (tree_frame h _ _ _ H). intros r Hr. apply S, in_or_app. right. now apply I. Qed.
Lemma grown_own T F h G F' h' : grown T F h G F' h' -> incl G F'.
Proof. intros (_ & _ & _ & E) r Hr. apply E, in_or_app. now left. Qed.
Lemma grown_keep T F h G F' h' : grown T F h G F' h' -> incl F F'.
Proof. intros (_ & _ & _ & E) r Hr. apply E, in_or_app. now right. Qed.
(** A new object *)
Lemma grown_cell T F h G F' h' h2 c : within (T ++ F) h -> grown T F h G F' h' -> steady (T ++ F') h' h2 ->
  grown T F h (length h2 :: G) (length h2 :: F') (h2 ++ [c]).
Proof.
  intros W (N & B & S & E) S2. pose proof S2 as [L2 A2]. pose proof S as [L A]. split; [|split; [|split]].
  - constructor; [|exact N]. intros Hr. apply B in Hr. lia.
  - intros r [<-|Hr]; rewrite app_length; cbn; [lia|]. apply B in Hr. lia.
  - eapply steady_trans; [exact S|]. apply steady_trans with h2.
    + eapply steady_incl; [|exact S2]. intros r Hr. apply in_or_app. apply in_app_or in Hr as [Hr|Hr]; [now left|right]. apply E, in_or_app. now right.
    + split; [rewrite app_length; lia|]. intros r Hr. apply W in Hr. apply nth_error_app1. lia.
  - intros r. specialize (E r). cbn [In app]. rewrite E. tauto.
Qed.
Lemma steady_tree S h h' v p K : steady S h h' -> tree h v p K -> incl K S -> tree h' v p K.
Proof. intros [_ A] H I. apply (tree_frame h _ _ _ H). intros r Hr. apply A, I, Hr. Qed.
Lemma steady_trees S h h' v p K : steady S h h' -> trees h v p K -> incl K S -> trees h' v p K.
Proof. intros [_ A] H I. apply (trees_frame h _ _ _ H). intros r Hr. apply A, I, Hr. Qed.
Lemma steady_rows S h h' v p K : steady S h h' -> rows h v p K -> incl K S -> rows h' v p K.
Proof. intros [_ A] H I. apply (rows_frame h _ _ _ H). intros r Hr. apply A, I, Hr. Qed.

Definition builds T v := forall F h w (Q : post hval), within (T ++ F) h ->
  (forall G x h' F', tree h' x v G -> grown T F h G F' h' -> Q w (Ok x) F' h') -> safe T F h w (build v) Q.
Lemma safe_build T v : builds T v.
Proof.
  induction v as [|z|t|d|l IH|d IH] using value_induction; intros F h w Q W HQ;
    try (apply (HQ []); [constructor|apply grown_refl]).
  - cbn [build]. match goal with |- context[?f l] => set (elems := f) end.
    assert (E : forall l, Forall (builds T) l -> forall F h w (Q : post (list hval)), within (T ++ F) h ->
      (forall G xs h' F', trees h' xs l G -> grown T F h G F' h' -> Q w (Ok xs) F' h') -> safe T F h w (elems l) Q).
    { clear. induction l as [|v l IHl]; intros HF F h w Q W HQ.
      - apply (HQ []); [constructor|apply grown_refl].
      - apply Forall_cons_iff in HF as [Hv Hl]. change (elems (v :: l)) with (x <~ build v ;; xs <~ elems l ;; Return (x :: xs)).
        apply safe_then. apply Hv; [exact W|]. intros G x h1 F1 T1 G1. cbn beta iota.
        apply safe_then. apply (IHl Hl); [eapply grown_within; eassumption|]. intros G' xs h2 F2 T2 G2. cbn [safe]. 
        apply (HQ (G ++ G')); [|eapply grown_app; eassumption]. constructor; [|exact T2].
        eapply grown_tree; [exact G2|exact T1|]. eapply grown_own; exact G1. }
    apply safe_then. apply (E l IH); [exact W|]. intros G xs h1 F1 T1 G1. cbn [safe]. intros h2 S2.
    apply (HQ (length h2 :: G)); [|now apply (grown_cell T F h G F1 h1)].
    apply t_list with xs; [apply nth_error_last|]. apply trees_extend. eapply steady_trees; [exact S2|exact T1|].
    apply incl_appr. eapply grown_own; exact G1.
  - cbn [build]. match goal with |- context[?f d] => set (elems := f) end.
    assert (E : forall d, Forall (fun e : string * pyval => builds T (snd e)) d -> forall F h w (Q : post (list (string * hval))), within (T ++ F) h ->
      (forall G xs h' F', rows h' xs d G -> grown T F h G F' h' -> Q w (Ok xs) F' h') -> safe T F h w (elems d) Q).
    { clear. induction d as [|[k v] l IHl]; intros HF F h w Q W HQ.
      - apply (HQ []); [constructor|apply grown_refl].
      - apply Forall_cons_iff in HF as [Hv Hl]. change (elems ((k, v) :: l)) with (x <~ build v ;; xs <~ elems l ;; Return ((k, x) :: xs)).
        apply safe_then. apply Hv; [exact W|]. intros G x h1 F1 T1 G1. cbn beta iota.
        apply safe_then. apply (IHl Hl); [eapply grown_within; eassumption|]. intros G' xs h2 F2 T2 G2. cbn [safe]. 
        apply (HQ (G ++ G')); [|eapply grown_app; eassumption]. constructor; [|exact T2].
        eapply grown_tree; [exact G2|exact T1|]. eapply grown_own; exact G1. }
    apply safe_then. apply (E d IH); [exact W|]. intros G xs h1 F1 T1 G1. cbn [safe]. intros h2 S2.
    apply (HQ (length h2 :: G)); [|now apply (grown_cell T F h G F1 h1)].
    apply t_dict with xs; [apply nth_error_last|]. apply rows_extend. eapply steady_rows; [exact S2|exact T1|].
    apply incl_appr. eapply grown_own; exact G1.
Qed.

(** ** Changes *)
Lemma follow_in h q : forall v p G r, tree h v p G -> follow h v q = Some (HRef r) -> In r G.
Proof.
  induction q as [|s q IH]; intros v p G r H E; cbn [follow] in E.
  - injection E as ->. inversion H; now left.
  - inversion H as [| | | |r' vs ps K Hr Ht|r' ds d K Hr Ht]; subst; try discriminate; rewrite Hr in E; destruct s as [k|i]; try discriminate.
    + destruct (nth_error vs i) as [x|] eqn:Ex; [|discriminate].
      destruct (trees_split _ _ _ _ _ _ Ht Ex) as (ds1 & ds2 & d1 & p & d2 & F1 & Fx & F2 & -> & -> & -> & R1 & Tx & R2 & _).
      right. apply in_or_app. right. apply in_or_app. left. eapply IH; eassumption.
    + destruct (hget k ds) as [x|] eqn:Ex; [|discriminate].
      destruct (rows_split _ _ _ _ _ _ Ht Ex) as (ds1 & ds2 & d1 & p & d2 & F1 & Fx & F2 & -> & -> & -> & R1 & Tx & R2 & _).
      right. apply in_or_app. right. apply in_or_app. left. eapply IH; eassumption.
Qed.
Lemma safe_walk T F h w q : forall v p G (Q : post (option hval)), tree h v p G -> incl G F -> Q w (Ok (follow h v q)) F h -> safe T F h w (walk v q) Q.
Proof.
  induction q as [|s q IH]; intros v p G Q H I HQ; cbn [walk follow] in *; [exact HQ|].
  inversion H as [| | | |r' vs ps K Hr Ht|r' ds d K Hr Ht]; subst; try exact HQ; rewrite Hr in HQ; cbn [safe];
    (split; [apply in_or_app; right; apply I; now left|]).
  - exists (CList vs). split; [exact Hr|]. destruct s as [k|i]; [exact HQ|].
    destruct (nth_error vs i) as [x|] eqn:Ex; [|exact HQ].
    destruct (trees_split _ _ _ _ _ _ Ht Ex) as (ds1 & ds2 & d1 & p & d2 & F1 & Fx & F2 & -> & -> & -> & R1 & Tx & R2 & _).
    eapply IH; [exact Tx| |exact HQ]. intros y Hy. apply I. right. apply in_or_app. right. apply in_or_app. now left.
  - exists (CDict ds). split; [exact Hr|]. destruct s as [k|i]; [|exact HQ].
    destruct (hget k ds) as [x|] eqn:Ex; [|exact HQ].
    destruct (rows_split _ _ _ _ _ _ Ht Ex) as (ds1 & ds2 & d1 & p & d2 & F1 & Fx & F2 & -> & -> & -> & R1 & Tx & R2 & _).
    eapply IH; [exact Tx| |exact HQ]. intros y Hy. apply I. right. apply in_or_app. right. apply in_or_app. now left.
Qed.
Lemma put_id h : forall r c, nth_error h r = Some c -> put h r c = h.
Proof. induction h as [|x h IH]; intros [|r] c H; cbn in *; try discriminate; [congruence|]. now rewrite IH. Qed.
Lemma follow_lt h v p G q r : tree h v p G -> follow h v q = Some (HRef r) -> exists c, nth_error h r = Some c.
Proof.
  intros H E. pose proof (follow_in h q v p G r H E) as Hr. pose proof (proj1 (bounds_all h) _ _ _ H r Hr) as L.
  destruct (nth_error h r) as [c|] eqn:Ec; [now exists c|]. apply nth_error_None in Ec. lia.
Qed.
(** A value in own objects *)
Definition owns (F : list nat) (h : heap) (v : hval) (p : pyval) : Prop := exists G, tree h v p G /\ NoDup G /\ incl G F.
Lemma safe_change T F h w v p q f g (Q : post unit) : compat f g -> owns F h v p ->
  (forall h', owns F h' v (upd q g p) -> length h' = length h -> Q w (Ok tt) F h') -> safe T F h w (change_at v q f) Q.
Proof.
  intros C (G & H & N & I) HQ. unfold change_at. apply safe_then. eapply safe_walk; [exact H|exact I|]. cbn beta iota.
  destruct (tree_update f g C q h v p G H N) as (G' & H' & I' & N' & _).
  assert (HU : Q w (Ok tt) F (update h v q f)).
  { apply HQ; [exists G'; split; [exact H'|]; split; [exact N'|]; intros r Hr; now apply I, I'|apply update_frame]. }
  unfold update in HU. destruct (follow h v q) as [[| | | |r]|] eqn:E; try exact HU. cbn [safe].
  split; [apply I; eapply follow_in; eassumption|]. destruct (follow_lt _ _ _ _ _ _ H E) as [c Hc]. exists c. split; [exact Hc|].
  rewrite Hc in HU. destruct c as [ds|vs]; cbn [on_rows safe]; [exact HU|]. now rewrite put_id.
Qed.
Lemma safe_pops T F ks w v q (Q : post unit) : forall h p, owns F h v p ->
  (forall h', owns F h' v (upd q (pop_all ks) p) -> length h' = length h -> Q w (Ok tt) F h') -> safe T F h w (pops_at ks v q) Q.
Proof.
  induction ks as [|k ks IH]; intros h p H HQ; cbn [pops_at].
  - cbn [safe]. apply HQ; [|reflexivity]. unfold pop_all. cbn. rewrite upd_id. exact H.
  - apply safe_then. eapply safe_change; [apply compat_pop|exact H|]. intros h1 H1 L1. cbn beta iota. eapply IH; [exact H1|].
    intros h2 H2 L2. apply HQ; [|lia]. rewrite upd_upd in H2. erewrite upd_ext; [exact H2|]. reflexivity.
Qed.
Lemma safe_located T F h w v p s (Q : post bool) : owns F h v p -> Q w (Ok (plocation s p)) F h -> safe T F h w (located s v) Q.
Proof.
  intros (G & H & N & I) HQ. unfold located. apply safe_then. eapply safe_walk; [exact H|exact I|]. cbn [safe].
  rewrite <- (location_at_tree h v p G s H) in HQ. exact HQ.
Qed.
Lemma safe_count T F h w v p q (Q : post nat) : owns F h v p -> Q w (Ok (plength q p)) F h -> safe T F h w (count_at v q) Q.
Proof.
  intros (G & H & N & I) HQ. unfold count_at. apply safe_then. eapply safe_walk; [exact H|exact I|]. cbn beta iota.
  rewrite <- (length_at_tree h v p G q H) in HQ. unfold length_at in HQ. destruct (follow h v q) as [[| | | |r]|] eqn:E; try exact HQ.
  cbn [safe]. split; [apply in_or_app; right; apply I; eapply follow_in; eassumption|]. destruct (follow_lt _ _ _ _ _ _ H E) as [c Hc].
  exists c. split; [exact Hc|]. rewrite Hc in HQ. exact HQ.
Qed.
Lemma safe_items T F w v l (Q : post unit) : forall h p, owns F h v p ->
  (forall h', owns F h' v (fold_left (fun p i => upd [PKey "target"; PKey "items"; PElem i] (pop_all ["modification_time"%string]) p) l p) ->
     length h' = length h -> Q w (Ok tt) F h') -> safe T F h w (each_item v l) Q.
Proof.
  induction l as [|i l IH]; intros h p H HQ; cbn [each_item].
  - cbn [safe]. apply HQ; [exact H|reflexivity].
  - apply safe_then. eapply safe_pops; [exact H|]. intros h1 H1 L1. cbn beta iota. eapply IH; [exact H1|].
    intros h2 H2 L2. apply HQ; [exact H2|lia].
Qed.
Lemma safe_prune T F h w v p (Q : post unit) : owns F h v p ->
  (forall h', owns F h' v (prune_places p) -> length h' = length h -> Q w (Ok tt) F h') -> safe T F h w (prune_prog v) Q.
Proof.
  intros H HQ. unfold prune_prog.
  apply safe_then. eapply safe_pops; [exact H|]. intros h1 H1 L1. cbn beta iota.
  apply safe_then. eapply safe_pops; [exact H1|]. intros h2 H2 L2. cbn beta iota.
  apply safe_then. eapply safe_located; [exact H2|]. cbn beta iota.
  match type of H2 with owns _ _ _ ?x => set (p2 := x) in * end.
  match goal with |- context[if plocation "Local" p2 then pops_at ?ks v ?q else _] =>
    apply safe_then; assert (E : forall Q : post unit,
      (forall h', owns F h' v (if plocation "Local" p2 then upd q (pop_all ks) p2 else p2) -> length h' = length h2 -> Q w (Ok tt) F h') ->
      safe T F h2 w (if plocation "Local" p2 then pops_at ks v q else Return tt) Q)
  end.
  { intros Q2 HQ2. destruct (plocation "Local" p2); [eapply safe_pops; [exact H2|exact HQ2]|]. cbn [safe]. apply HQ2; [exact H2|reflexivity]. }
  apply E. clear E. intros h3 H3 L3. cbn beta iota.
  match type of H3 with owns _ _ _ ?x => set (p3 := x) in * end.
  apply safe_then. eapply safe_located; [exact H3|]. cbn beta iota.
  match goal with |- context[if plocation "Network" p3 then pops_at ?ks v ?q else _] =>
    apply safe_then; assert (E : forall Q : post unit,
      (forall h', owns F h' v (if plocation "Network" p3 then upd q (pop_all ks) p3 else p3) -> length h' = length h3 -> Q w (Ok tt) F h') ->
      safe T F h3 w (if plocation "Network" p3 then pops_at ks v q else Return tt) Q)
  end.
  { intros Q2 HQ2. destruct (plocation "Network" p3); [eapply safe_pops; [exact H3|exact HQ2]|]. cbn [safe]. apply HQ2; [exact H3|reflexivity]. }
  apply E. clear E. intros h4 H4 L4. cbn beta iota.
  match type of H4 with owns _ _ _ ?x => set (p4 := x) in * end.
  apply safe_then. eapply safe_pops; [exact H4|]. intros h5 H5 L5. cbn beta iota.
  apply safe_then. eapply safe_count; [exact H5|]. cbn beta iota.
  eapply safe_items; [exact H5|]. intros h6 H6 L6. apply HQ; [|lia]. exact H6.
Qed.

(** ** Outcomes against those of computations on values *)
Definition meets {A B} (R : A -> B -> list nat -> heap -> Prop) (w0 : list warning) (n : M B) : post A :=
  fun w r F h => w = w0 ++ fst n /\ match r, snd n with Ok a, Ok b => R a b F h | Err e, Err e' => e = e' | _, _ => False end.
Lemma meets_bind {A B C D} T F h w (p : prog A) (n : M B) R (k : A -> prog C) (g : B -> M D) S :
  safe T F h w p (meets R w n) ->
  (forall a b F' h' w', snd n = Ok b -> R a b F' h' -> safe T F' h' w' (k a) (meets S w' (g b))) ->
  safe T F h w (andthen p k) (meets S w (bind n g)).
Proof.
  intros H HK. apply safe_then. eapply safe_because; [|exact H]. intros w' r F' h' [-> E]. destruct n as [wn [b|e]]; cbn [fst snd bind] in *.
  - destruct r as [a|]; [|contradiction]. eapply safe_because; [|apply (HK a b F' h' (w ++ wn) eq_refl E)].
    intros w2 r2 F2 h2 [-> E2]. destruct (g b) as [wg rg]. cbn [fst snd] in *. split; [cbn [fst]; symmetry; apply app_assoc|exact E2].
  - destruct r as [|e']; [contradiction|]. subst e'. now split.
Qed.
Lemma meets_lift {A C D} T F h w (m : M A) (k : A -> prog C) (g : A -> M D) S :
  (forall a w', snd m = Ok a -> safe T F h w' (k a) (meets S w' (g a))) ->
  safe T F h w (andthen (lift m) k) (meets S w (bind m g)).
Proof.
  intros H. eapply meets_bind with (R := fun a b F' h' => b = a /\ F' = F /\ h' = h).
  - apply safe_lift. split; [reflexivity|]. destruct (snd m); auto.
  - intros a b F' h' w' E (-> & -> & ->). now apply H.
Qed.
Lemma meets_ret {A B} (R : A -> B -> list nat -> heap -> Prop) w a b F h : R a b F h -> meets R w (ret b) w (Ok a) F h.
Proof. intros H. split; [now rewrite app_nil_r|exact H]. Qed.

(** ** Reports *)
Lemma rows_set h k v p G2 : tree h v p G2 -> NoDup G2 -> forall ds d G, rows h ds d G -> NoDup G -> (forall r, In r G -> ~ In r G2) ->
  exists G', rows h (hset k v ds) (dset k p d) G' /\ incl G' (G ++ G2) /\ NoDup G'.
Proof.
  intros Tv N2. induction 1 as [|k' v' p' ds d Fv G Hv Hr IH]; intros N D.
  - exists (G2 ++ []). cbn. split; [constructor; [exact Tv|constructor]|]. rewrite app_nil_r. split; [apply incl_refl|exact N2].
  - apply NoDup_app_inv in N as (N1 & N' & D'). cbn [hset dset]. destruct (String.eqb k k').
    + exists (G2 ++ G). split; [now constructor|]. split.
      * intros r Hr'. apply in_app_or in Hr' as [Hr'|Hr']; rewrite !in_app_iff; tauto.
      * apply NoDup_app; [exact N2|exact N'|]. intros r H2 H1. apply (D r); [apply in_or_app; now right|exact H2].
    + destruct IH as (G' & R & I & N3); [exact N'|intros r Hr'; apply D, in_or_app; now right|].
      exists (Fv ++ G'). split; [now constructor|]. split.
      * intros r Hr'. apply in_app_or in Hr' as [Hr'|Hr']; [rewrite !in_app_iff; tauto|]. apply I, in_app_or in Hr'. rewrite !in_app_iff. tauto.
      * apply NoDup_app; [exact N1|exact N3|]. intros r H1 H2. apply I, in_app_or in H2 as [H2|H2]; [exact (D' r H1 H2)|].
        apply (D r); [apply in_or_app; now left|exact H2].
Qed.
(** The report [r], under construction, of the object [o] whose string table is [t] *)
Definition report (o : obj) (t : nat) (r : nat) (d : dict) (F : list nat) (h : heap) : Prop :=
  within ([t] ++ F) h /\ ~ In t F /\ data_ok o h t /\ owns F h (HRef r) (PDict d).
Lemma data_steady o t F h h' : data_ok o h t -> steady ([t] ++ F) h h' -> data_ok o h' t.
Proof. intros H [_ S]. eapply data_ok_keep; [exact H|]. apply S. now left. Qed.
Lemma safe_assign o t r d F h w k v p G2 (Q : post unit) : report o t r d F h ->
  tree h v p G2 -> NoDup G2 -> incl G2 F -> (forall G, tree h (HRef r) (PDict d) G -> incl G F -> forall x, In x G -> ~ In x G2) ->
  (forall h', report o t r (dset k p d) F h' -> Q w (Ok tt) F h') ->
  safe [t] F h w (assign r k v) Q.
Proof.
  intros (W & Ht & Hd & G & H & N & I) Tv N2 I2 D HQ. unfold assign. cbn [safe].
  specialize (D G H I). inversion H as [| | | | |r' ds d' K Hr Ts]; subst. inversion N as [|? ? Nr NK]; subst.
  split; [apply I; now left|]. exists (CDict ds). split; [exact Hr|]. cbn [on_rows]. apply HQ.
  assert (L : (r < length h)%nat) by (eapply nth_error_lt; exact Hr).
  destruct (rows_set h k v p G2 Tv N2 ds d K Ts NK) as (G' & R & IG & N'); [intros x Hx; apply D; now right|].
  assert (Nr' : ~ In r G'). { intros Hx. apply IG, in_app_or in Hx as [Hx|Hx]; [now apply Nr|]. apply (D r); [now left|exact Hx]. }
  split; [intros x Hx; rewrite put_length; now apply W|]. split; [exact Ht|]. split.
  - eapply data_ok_keep; [exact Hd|]. apply put_other. intros ->. apply Ht, I. now left.
  - exists (r :: G'). split; [|split].
    + eapply t_dict; [now apply put_same|]. apply (rows_frame h _ _ _ R). intros x Hx. apply put_other. intros ->. now apply Nr'.
    + constructor; [exact Nr'|exact N'].
    + intros x [<-|Hx]; [apply I; now left|]. apply IG, in_app_or in Hx as [Hx|Hx]; [apply I; now right|now apply I2].
Qed.
Lemma report_grown o t r d F h G F' h' : report o t r d F h -> grown [t] F h G F' h' -> report o t r d F' h'.
Proof.
  intros (W & Ht & Hd & K & H & N & I) Gr. split; [eapply grown_within; eassumption|]. split; [|split].
  - intros Hx. destruct Gr as (_ & B & _ & E). apply E, in_app_or in Hx as [Hx|Hx]; [|now apply Ht].
    apply B in Hx. specialize (W t ltac:(now left)). lia.
  - eapply data_steady; [exact Hd|]. eapply grown_steady; exact Gr.
  - exists K. split; [eapply grown_tree; eassumption|]. split; [exact N|]. intros x Hx. eapply grown_keep; [exact Gr|]. now apply I.
Qed.
Lemma footprint_unique h' :
  (forall v p A, tree h' v p A -> forall p' B, tree h' v p' B -> A = B)
  /\ (forall v p A, trees h' v p A -> forall p' B, trees h' v p' B -> A = B)
  /\ (forall v p A, rows h' v p A -> forall p' B, rows h' v p' B -> A = B).
Proof.
  apply tree_ind3; intros.
  - now inversion H.
  - now inversion H.
  - now inversion H.
  - now inversion H.
  - inversion H2 as [| | | |? vs2 ps2 F2 Hr2 Ht2|? ds2 d2 F2 Hr2 Ht2]; subst; [|congruence]. f_equal. rewrite H in Hr2. injection Hr2 as <-. eapply H1. exact Ht2.
  - inversion H2 as [| | | |? vs2 ps2 F2 Hr2 Ht2|? ds2 d2 F2 Hr2 Ht2]; subst; [congruence|]. f_equal. rewrite H in Hr2. injection Hr2 as <-. eapply H1. exact Ht2.
  - now inversion H.
  - inversion H3; subst. f_equal; [eapply H0|eapply H2]; eassumption.
  - now inversion H.
  - inversion H3; subst. f_equal; [eapply H0|eapply H2]; eassumption.
Qed.
Lemma safe_assign_new o t r d F h G F' h' w k v p (Q : post unit) : report o t r d F h -> grown [t] F h G F' h' -> tree h' v p G ->
  (forall h', report o t r (dset k p d) F' h' -> Q w (Ok tt) F' h') ->
  safe [t] F' h' w (assign r k v) Q.
Proof.
  intros R Gr Tv HQ. pose proof (report_grown _ _ _ _ _ _ _ _ _ R Gr) as R'. eapply safe_assign; [exact R'|exact Tv|apply Gr|eapply grown_own; exact Gr| |exact HQ].
  destruct R as (W & _ & _ & K & H & _ & I). intros G' H' I' x Hx Hx'.
  assert (E : G' = K).
  { pose proof (grown_tree _ _ _ _ _ _ _ _ _ Gr H I) as H2. clear - H' H2. 
    eapply (proj1 (footprint_unique h')); eassumption. }
  subst G'. apply I in Hx. apply Gr in Hx'. specialize (W x ltac:(apply in_or_app; now right)). lia.
Qed.
Lemma safe_section o t r d F h w k x (Q : post unit) : report o t r d F h ->
  (forall F' h', report o t r (dset k x d) F' h' -> Q w (Ok tt) F' h') ->
  safe [t] F h w (v <~ build x ;; assign r k v) Q.
Proof.
  intros R HQ. apply safe_then. apply safe_build; [apply R|]. intros G v h' F' Tv Gr. cbn beta iota.
  eapply safe_assign_new; [exact R|exact Gr|exact Tv|]. intros h2 R2. now apply HQ.
Qed.
Lemma safe_table o t r d F h w (Q : post hval) : report o t r d F h ->
  (forall G v F' h', grown [t] F h G F' h' -> tree h' v (PDict (sd_data (l_string_data (o_link o)))) G -> Q w (Ok v) F' h') ->
  safe [t] F h w (table_prog o) Q.
Proof.
  intros (W & Ht & Hd & _) HQ. unfold table_prog. destruct Hd as (-> & Hs & Hr). cbn [safe].
  split; [now left|]. eexists. split; [exact Hr|]. cbn beta iota. intros h' S. cbn [safe]. rewrite strings_filter by exact Hs.
  apply (HQ [length h']).
  - apply grown_cell with h; [exact W|apply grown_refl|exact S].
  - eapply t_dict; [apply nth_error_last|]. now apply rows_strings.
Qed.
Definition is_owned (v : hval) (d : dict) (F : list nat) (h : heap) : Prop := owns F h v (PDict d).
Lemma safe_get_json o t all h w : data_ok o h t -> safe [t] [] h w (get_json_prog o all) (meets is_owned w (get_json (o_link o) all)).
Proof.
  intros Hd. assert (W0 : within ([t] ++ []) h). { intros x [<-|[]]. eapply nth_error_lt. apply Hd. }
  unfold get_json_prog, get_json, full_json. cbv zeta. rewrite !bind_assoc. apply meets_lift. intros hd w1 _. clear w.
  apply safe_then. apply safe_build; [exact W0|]. intros G0 hdv h1 F1 T1 Gr1. cbn beta iota. cbn [safe]. intros h2 S2.
  assert (R : report o t (length h2) [("size", PN (l_size (o_link o))); ("header", PDict hd)]%string (length h2 :: F1) (h2 ++ [CDict [("size"%string, HInt (Z.of_N (l_size (o_link o)))); ("header"%string, hdv)]])).
  { pose proof (grown_cell [t] [] h G0 F1 h1 h2 (CDict [("size"%string, HInt (Z.of_N (l_size (o_link o)))); ("header"%string, hdv)]) W0 Gr1 S2) as Gr2.
    split; [eapply grown_within; [exact Gr2|exact W0]|]. split; [|split].
    - intros Hx. destruct Gr2 as (_ & B & _ & E). apply E, in_app_or in Hx as [Hx|[]]. apply B in Hx. specialize (W0 t ltac:(now left)). lia.
    - eapply data_steady; [exact Hd|]. eapply grown_steady; exact Gr2.
    - exists (length h2 :: G0). split; [|split].
      + eapply t_dict; [apply nth_error_last|]. apply rows_extend. unfold PN. change G0 with ([] ++ G0). constructor; [constructor|].
        rewrite <- (app_nil_r G0). constructor; [|constructor]. eapply steady_tree; [exact S2|exact T1|]. apply incl_appr. eapply grown_own; exact Gr1.
      + apply Gr2.
      + eapply grown_own. exact Gr2. }
  set (F2 := length h2 :: F1) in *. set (r := length h2) in *. match type of R with report _ _ _ _ _ ?x => set (h3 := x) in * end.
  clearbody F2 r h3. clear dependent h2. clear dependent h1. clear dependent h. 
  rewrite bind_assoc. set (d0 := [("size"%string, PN _); ("header"%string, PDict hd)]) in *.
  eapply meets_bind with (R := fun _ rs F h => report o t r (d0 ++ rs) F h /\ (rs = [] \/ exists x, rs = [("target"%string, x)])).
  { destruct (l_targets (o_link o)) as [tg|].
    - apply meets_lift. intros d w' _. eapply safe_section; [exact R|]. intros F' h' R'. apply meets_ret.
      split; [exact R'|right; now exists (PDict d)].
    - cbn [safe]. apply meets_ret. rewrite app_nil_r. split; [exact R|now left]. }
  clear w1. intros [] rs F4 h4 w4 _ [R4 Hrs]. rewrite bind_assoc.
  (* link_info *)
  apply safe_then. apply safe_build; [apply R4|]. intros G5 iv h5 F5 T5 Gr5. cbn beta iota.
  apply safe_then. eapply safe_assign_new; [exact R4|exact Gr5|exact T5|]. intros h6 R6. cbn beta iota.
  eapply meets_bind with (R := fun _ d F h => report o t r (dset "link_info" (PDict d) (d0 ++ rs)) F h).
  { destruct (l_info (o_link o)) as [[k raw]|].
    - match goal with |- safe _ _ _ _ ?p _ => remember p as pp eqn:Epp end.
      rewrite <- (bind_ret_r (info_dict (l_cp (o_link o)) k raw)). rewrite Epp. apply meets_lift. intros d w' _. eapply safe_section; [exact R6|]. intros F' h' R'. apply meets_ret.
      destruct Hrs as [->|[x ->]]; exact R'.
    - cbn [safe]. apply meets_ret. exact R6. }
  clear R4 R6 R. clear dependent h5. clear dependent h4. clear dependent h3. intros [] i F7 h7 w7 _ R7. rewrite bind_assoc.
  apply safe_then. eapply safe_table; [exact R7|]. intros G8 dv F8 h8 Gr8 T8. cbn beta iota.
  apply safe_then. eapply safe_assign_new; [exact R7|exact Gr8|exact T8|]. intros h9 R9. cbn beta iota.
  apply meets_lift. intros e w9 _. rewrite bind_ret_l.
  apply safe_then. apply safe_build; [apply R9|]. intros G10 ev h10 F10 T10 Gr10. cbn beta iota.
  apply safe_then. eapply safe_assign_new; [exact R9|exact Gr10|exact T10|]. intros h11 R11. cbn beta iota.
  set (full := dset "extra" (PDict e) _) in R11.
  assert (E : full = d0 ++ rs ++ [("link_info"%string, PDict i); ("data"%string, PDict (string_data_as_dict (l_string_data (o_link o)))); ("extra"%string, PDict e)]).
  { subst full. destruct Hrs as [->|[x ->]]; reflexivity. }
  rewrite E in R11. clear full E. apply safe_then. destruct all.
  - cbn [safe]. apply meets_ret. apply R11.
  - eapply safe_prune; [apply R11|]. intros h12 O12 _. cbn [safe]. apply meets_ret. rewrite prune_places_ok in O12. exact O12.
Qed.

(** ** Texts *)
Definition reads T n := forall F h w v p G (Q : post (option pyval)), tree h v p G -> incl G F -> (length G < n)%nat ->
  Q w (Ok (Some p)) F h -> safe T F h w (read_prog n v) Q.
Lemma safe_read T n : reads T n.
Proof.
  induction n as [|n IH]; intros F h w v p G Q H I L HQ; [lia|].
  destruct H as [| | | |r vs ps G Hr Ts|r ds d G Hr Ts]; try exact HQ; cbn [read_prog safe];
    (split; [apply in_or_app; right; apply I; now left|]); eexists; (split; [exact Hr|]); cbn beta iota; cbn [length] in L.
  - match goal with |- context[?f vs] => set (elems := f) end.
    assert (E : forall vs ps G (Q : post (list (option pyval))), trees h vs ps G -> incl G F -> (length G < n)%nat ->
       Q w (Ok (map Some ps)) F h -> safe T F h w (elems vs) Q).
    { clear - IH. induction vs as [|v vs IHl]; intros ps G Q H I L HQ; inversion H as [|? p ? ps' G1 G2 Hv Hs]; subst; [exact HQ|].
      rewrite app_length in L. change (elems (v :: vs)) with (x <~ read_prog n v ;; xs <~ elems vs ;; Return (x :: xs)).
      apply safe_then. eapply IH; [exact Hv|intros x Hx; apply I, in_or_app; now left|lia|]. cbn beta iota.
      apply safe_then. eapply IHl; [exact Hs|intros x Hx; apply I, in_or_app; now right|lia|]. exact HQ. }
    apply safe_then. eapply E; [exact Ts|intros x Hx; apply I; now right|lia|]. cbn [safe]. rewrite all_some_map. exact HQ.
  - match goal with |- context[?f ds] => set (elems := f) end.
    assert (E : forall vs ps G (Q : post (list (option (string * pyval)))), rows h vs ps G -> incl G F -> (length G < n)%nat ->
       Q w (Ok (map Some ps)) F h -> safe T F h w (elems vs) Q).
    { clear - IH. induction vs as [|[k v] vs IHl]; intros ps G Q H I L HQ; inversion H as [|? ? p ? ps' G1 G2 Hv Hs]; subst; [exact HQ|].
      rewrite app_length in L. change (elems ((k, v) :: vs)) with (x <~ read_prog n v ;; xs <~ elems vs ;; Return (option_map (pair k) x :: xs)).
      apply safe_then. eapply IH; [exact Hv|intros x Hx; apply I, in_or_app; now left|lia|]. cbn beta iota.
      apply safe_then. eapply IHl; [exact Hs|intros x Hx; apply I, in_or_app; now right|lia|]. exact HQ. }
    apply safe_then. eapply E; [exact Ts|intros x Hx; apply I; now right|lia|]. cbn [safe]. rewrite all_some_map. exact HQ.
Qed.
Definition is_it {A} (a b : A) (F : list nat) (h : heap) : Prop := a = b.
Lemma owns_steady T F h h' v p : owns F h v p -> steady (T ++ F) h h' -> owns F h' v p.
Proof. intros (G & H & N & I) S. exists G. split; [|now split]. eapply steady_tree; [exact S|exact H|]. now apply incl_appr. Qed.
Lemma owns_length F h v p : owns F h v p -> forall n, (length h <= n)%nat -> exists G, tree h v p G /\ NoDup G /\ incl G F /\ (length G < S n)%nat.
Proof. intros (G & H & N & I) n L. exists G. pose proof (footprint_length _ _ _ _ H N). repeat split; auto. lia. Qed.
Lemma safe_print_json o t all h w : data_ok o h t ->
  safe [t] [] h w (print_json_prog o all) (meets is_it w (d <- get_json (o_link o) all ;; ret (print_json_text d))).
Proof.
  intros Hd. unfold print_json_prog. eapply meets_bind; [apply safe_get_json, Hd|]. clear. intros v d F h w _ O. unfold is_owned in O. cbn [safe].
  intros h' S. pose proof (owns_steady _ _ _ _ _ _ O S) as O'. destruct (owns_length _ _ _ _ O' _ (le_n _)) as (G & H & N & I & L).
  apply safe_then. eapply safe_read; [exact H|exact I|exact L|]. cbn [safe]. now apply meets_ret.
Qed.
Lemma safe_table_get o t h F w k (Q : post (option text)) : data_ok o h t -> Q w (Ok (sd_get k (l_string_data (o_link o)))) F h ->
  safe [t] F h w (table_get o k) Q.
Proof.
  intros Hd HQ. rewrite <- (data_get_ok o h t k Hd) in HQ. unfold data_get in HQ. unfold table_get.
  destruct Hd as (Ho & Hs & Hr). rewrite Ho in *. cbn [safe]. split; [now left|]. eexists. split; [exact Hr|]. rewrite Hr in HQ. exact HQ.
Qed.
Lemma safe_command o t h w : data_ok o h t -> safe [t] [] h w (command_prog o) (meets is_it w (lnk_command (o_link o))).
Proof.
  intros Hd. unfold command_prog, lnk_command. cbv zeta. apply meets_lift. intros b w1 _.
  eapply meets_bind with (R := fun x y F' h' => x = y /\ data_ok o h' t).
  { destruct b.
    - apply safe_then. eapply safe_table_get; [exact Hd|]. cbn beta iota. destruct (sd_get _ _); cbn [safe]; [now apply meets_ret|].
      split; [now rewrite app_nil_r|reflexivity].
    - cbn [safe]. now apply meets_ret. }
  intros out1 ? F1 h1 w2 _ [-> Hd1]. apply meets_lift. intros b2 w3 _. apply safe_then.
  assert (E : forall (Q : post (list (option text))), Q w3 (Ok (if b2 then [sd_get "command_line_arguments" (l_string_data (o_link o))] else [])) F1 h1 ->
    safe [t] F1 h1 w3 (if b2 then a <~ table_get o "command_line_arguments" ;; Return [a] else Return []) Q).
  { intros Q HQ. destruct b2; [|exact HQ]. apply safe_then. eapply safe_table_get; [exact Hd1|]. exact HQ. }
  apply E. cbn beta iota. destruct (Codec.all_some _); cbn [safe]; [now apply meets_ret|]. split; [now rewrite app_nil_r|reflexivity].
Qed.
Definition nices T n := forall up F h w v p G (Q : post (option pyval)), tree h v p G -> NoDup G -> incl G F -> (length G < n)%nat ->
  (forall h', same_but G h h' -> Q w (Ok (Some (make_keys_nice up p))) F h') -> safe T F h w (nice_prog n up v) Q.
Lemma safe_nice_rows T n : nices T n -> forall elems,
  elems = (fix rows (ds : list (string * hval)) : prog (list (option (string * pyval))) :=
                        match ds with
                        | [] => Return []
                        | (k, v) :: ds => x <~ nice_prog n false v ;; xs <~ rows ds ;; Return (option_map (pair k) x :: xs)
                        end) ->
  forall F w vs h ps G (Q : post (list (option (string * pyval)))), rows h vs ps G -> NoDup G -> incl G F -> (length G < n)%nat ->
       (forall h', same_but G h h' -> Q w (Ok (map Some (map (on_value nice) ps))) F h') -> safe T F h w (elems vs) Q.
Proof.
  intros IH elems -> F w. induction vs as [|[k v] vs IHl]; intros h ps G Q H N I L HQ; inversion H as [|? ? p ? ps' G1 G2 Hv Hs]; subst; [apply HQ, same_but_refl|].
  rewrite app_length in L. apply NoDup_app_inv in N as (N1 & N2 & D). 
  apply safe_then. eapply IH; [exact Hv|exact N1|intros x Hx; apply I, in_or_app; now left|lia|]. intros h1 S1. cbn beta iota.
  assert (Hs1 : rows h1 vs ps' G2). { apply (rows_frame h _ _ _ Hs). intros r Hr. apply S1. intros Hf. exact (D r Hf Hr). }
  apply safe_then. eapply IHl; [exact Hs1|exact N2|intros x Hx; apply I, in_or_app; now right|lia|]. intros h2 S2. cbn beta iota. cbn [safe].
  apply HQ. eapply same_but_app; eassumption.
Qed.
Lemma safe_nice T n : nices T n.
Proof.
  induction n as [|n IH]; intros up F h w v p G Q H N I L HQ; [lia|].
  destruct H as [| | | |r vs ps G Hr Ts|r ds d G Hr Ts]; try (apply HQ, same_but_refl); cbn [nice_prog safe];
    (split; [apply in_or_app; right; apply I; now left|]); eexists; (split; [exact Hr|]); cbn beta iota; cbn [length] in L; inversion N as [|? ? Nr NG]; subst.
  - match goal with |- context[?f vs] => set (elems := f) end.
    assert (E : forall vs h ps G (Q : post (list (option pyval))), trees h vs ps G -> NoDup G -> incl G F -> (length G < n)%nat ->
       (forall h', same_but G h h' -> Q w (Ok (map Some (map (make_keys_nice false) ps))) F h') -> safe T F h w (elems vs) Q).
    { clear - IH. induction vs as [|v vs IHl]; intros h ps G Q H N I L HQ; inversion H as [|? p ? ps' G1 G2 Hv Hs]; subst; [apply HQ, same_but_refl|].
      rewrite app_length in L. apply NoDup_app_inv in N as (N1 & N2 & D). change (elems (v :: vs)) with (x <~ nice_prog n false v ;; xs <~ elems vs ;; Return (x :: xs)).
      apply safe_then. eapply IH; [exact Hv|exact N1|intros x Hx; apply I, in_or_app; now left|lia|]. intros h1 S1. cbn beta iota.
      assert (Hs1 : trees h1 vs ps' G2). { apply (trees_frame h _ _ _ Hs). intros r Hr. apply S1. intros Hf. exact (D r Hf Hr). }
      apply safe_then. eapply IHl; [exact Hs1|exact N2|intros x Hx; apply I, in_or_app; now right|lia|]. intros h2 S2. cbn beta iota. cbn [safe].
      apply HQ. eapply same_but_app; eassumption. }
    apply safe_then. eapply E; [exact Ts|exact NG|intros x Hx; apply I; now right|lia|]. intros h' S. cbn [safe]. rewrite all_some_map.
    apply HQ. eapply same_but_incl; [|exact S]. intros x Hx. now right.
  - match goal with |- context[match hget "class" ds with Some key => Change r _ (_ <~ ?f _ ;; _) | None => _ end] => set (elems := f) end.
    pose proof (safe_nice_rows T n IH elems eq_refl F w) as E. clearbody elems.
    pose proof (hget_rows _ _ _ _ "class" Ts) as HC. rewrite nice_dict in HQ. destruct (hget "class" ds) as [key|].
    + destruct HC as (p & G2 & Tk & HC). rewrite HC in HQ. destruct (rows_hpop _ _ _ _ "class" Ts NG) as (G' & R' & N2 & I' & L').
      cbn [safe]. split; [apply I; now left|]. exists (CDict ds). split; [exact Hr|]. cbn [on_rows].
      assert (R2 : rows (put h r (CDict (hpop "class" ds))) (hpop "class" ds) (dpop "class" d) G').
      { apply (rows_frame h _ _ _ R'). intros x Hx. apply put_other. intros ->. apply Nr, I', Hx. }
      apply safe_then. eapply E; [exact R2|exact N2|intros x Hx; apply I; right; now apply I'|lia|]. intros h' S. cbn [safe]. rewrite all_some_map.
      cbn [option_map]. rewrite (key_of_tree _ _ _ _ Tk), <- map_dpop, fold_put. apply HQ.
      apply (same_but_app [r] G _ (put h r (CDict (hpop "class" ds)))).
      * split; [apply put_length|]. intros x Hx. apply put_other. intros ->. apply Hx. now left.
      * eapply same_but_incl; [exact I'|exact S].
    + rewrite HC in HQ. apply safe_then. eapply E; [exact Ts|exact NG|intros x Hx; apply I; now right|lia|]. intros h' S. cbn [safe]. rewrite all_some_map.
      cbn [option_map]. rewrite fold_put. apply HQ. eapply same_but_incl; [|exact S]. intros x Hx. now right.
Qed.
Lemma safe_readable dump o t all h w : data_ok o h t ->
  safe [t] [] h w (print_readable_prog dump o all) (meets is_it w (print_lnk_file dump (o_link o) all)).
Proof.
  intros Hd. unfold print_readable_prog, print_lnk_file, yaml_tree. rewrite bind_assoc.
  eapply meets_bind; [apply safe_get_json, Hd|]. clear h w Hd. intros v d F h w _ O. unfold is_owned in O.
  apply safe_then. eapply safe_change; [apply (compat_pop "r_hotkey")|exact O|]. intros h1 O1 _. cbn beta iota.
  rewrite bind_assoc. apply meets_lift. intros lf w1 _.
  apply safe_then. eapply safe_change; [apply (compat_set "link_flags" lf)|exact O1|]. intros h2 O2 _. cbn beta iota.
  rewrite bind_assoc. apply meets_lift. intros ff w2 _.
  apply safe_then. eapply safe_change; [apply (compat_set "file_flags" ff)|exact O2|]. intros h3 O3 _. cbn beta iota.
  rewrite !upd_upd in O3. cbn [safe]. intros h4 S4. pose proof (owns_steady _ _ _ _ _ _ O3 S4) as O4.
  match type of O4 with owns _ _ _ ?x => set (p4 := x) in * end.
  cbv zeta. match goal with |- context[make_keys_nice true ?x] => assert (E4 : p4 = x) end.
  { subst p4. cbn [upd]. apply (f_equal PDict). apply dupd_ext. intros x. apply upd_nil_on_dict. }
  rewrite <- E4. clearbody p4. destruct (owns_length _ _ _ _ O4 _ (le_n _)) as (G & H & N & I & L).
  apply safe_then. eapply safe_nice; [exact H|exact N|exact I|exact L|]. intros h5 _. cbn beta iota.
  assert (R : forall e (m : M text), fst m = [] -> snd m = Err e -> safe [t] F h5 w2 (Raise e) (meets is_it w2 m)).
  { intros e m H1 H2. cbn [safe]. split; [now rewrite H1, app_nil_r|now rewrite H2]. }
  destruct (make_keys_nice true p4) as [| | | | |nice]; try now apply R.
  destruct (dget _ _) as [[| | | | |hd]|]; try now apply R. cbn [safe]. now apply meets_ret.
Qed.

(** ** The constructor *)
Lemma keys_distinct_set k v d : NoDup (map fst d) -> NoDup (map fst (dset k v d)).
Proof.
  intros N. rewrite dset_fst. destruct (existsb _ _) eqn:E; [now rewrite app_nil_r|].
  apply NoDup_app; [exact N|constructor; [intros []|constructor]|]. intros x Hx [<-|[]].
  assert (C : existsb (String.eqb k) (map fst d) = true); [|congruence]. apply existsb_exists. exists k. split; [exact Hx|apply String.eqb_refl].
Qed.
Lemma sd_loop_distinct fs h cp raw : forall st sd, NoDup (map fst (sd_data st)) -> snd (sd_loop fs h cp raw st) = Ok sd -> NoDup (map fst (sd_data sd)).
Proof.
  induction fs as [|[[flag name] lim] fs IH]; intros st sd Hs H; cbn [sd_loop] in H; [injection H as <-; exact Hs|].
  destruct (has_flag flag h) as [w [[|]|e]].
  - destruct (sd_read h cp _ lim) as [w' [[t n]|e]].
    + destruct (sd_loop fs h cp raw _) as [w2 r] eqn:E. cbn [snd] in H. subst r.
      apply (IH (SD (dset name (PStr t) (sd_data st)) (sd_size st + n)) sd); [now apply keys_distinct_set|now rewrite E].
    + destruct (is_struct_error e); cbn [snd] in H; [injection H as <-; exact Hs|discriminate].
  - now apply (IH st).
  - destruct (is_struct_error e); cbn [snd] in H; [injection H as <-; exact Hs|discriminate].
Qed.
Lemma init_distinct src cp allow l : snd (lnk_init src cp allow) = Ok l -> NoDup (map fst (sd_data (l_string_data l))).
Proof.
  intros H. destruct (init_strings _ _ _ _ H) as (_ & b & Hsd). eapply sd_loop_distinct; [|exact Hsd]. constructor.
Qed.
Definition table (d : dict) : list (string * hval) := map (fun e => (fst e, match snd e with PStr t => HStr t | _ => HNone end)) d.
Lemma hset_new k v ds : ~ In k (map fst ds) -> hset k v ds = ds ++ [(k, v)].
Proof.
  induction ds as [|[k' v'] ds IH]; intros H; [reflexivity|]. cbn in *. destruct (String.eqb_spec k k') as [<-|N]; [exfalso; apply H; now left|].
  rewrite IH; [reflexivity|]. intros Hx. apply H. now right.
Qed.
Lemma table_keys d : map fst (table d) = map fst d.
Proof. unfold table. rewrite map_map. reflexivity. Qed.
Lemma safe_assign_all T F w r (Q : post unit) d : In r F -> forall d0 h, nth_error h r = Some (CDict (table d0)) -> NoDup (map fst (d0 ++ d)) ->
  (forall h', nth_error h' r = Some (CDict (table (d0 ++ d))) -> Q w (Ok tt) F h') -> safe T F h w (assign_all r d) Q.
Proof.
  intros Hr. induction d as [|[k v] d IH]; intros d0 h Hh N HQ; cbn [assign_all].
  - cbn [safe]. apply HQ. now rewrite app_nil_r.
  - apply safe_then. unfold assign. cbn [safe]. split; [exact Hr|]. eexists. split; [exact Hh|]. cbn [on_rows].
    assert (Hk : ~ In k (map fst d0)).
    { rewrite map_app in N. apply NoDup_app_inv in N as (_ & _ & D). intros Hx. apply (D k Hx). now left. }
    apply IH with (d0 := d0 ++ [(k, v)]).
    + rewrite put_same by (eapply nth_error_lt; exact Hh). rewrite hset_new by (rewrite table_keys; exact Hk).
      unfold table. now rewrite map_app.
    + now rewrite <- app_assoc.
    + intros h' H'. apply HQ. now rewrite <- app_assoc in H'.
Qed.
Definition is_object (o : obj) (l : lnk) (F : list nat) (h : heap) : Prop := o_link o = l /\ exists t, data_ok o h t /\ In t F.
Lemma safe_open src cp allow h w : safe [] [] h w (open_prog src cp allow) (meets is_object w (lnk_init src cp allow)).
Proof.
  unfold open_prog. rewrite <- (bind_ret_r (lnk_init src cp allow)) at 2. apply meets_lift. intros l w1 Hl. cbn [safe]. intros h' _.
  apply safe_then. eapply safe_assign_all with (d0 := []); [now left|apply nth_error_last|eapply init_distinct; exact Hl|].
  intros h2 H2. cbn [safe]. apply meets_ret. split; [reflexivity|]. exists (length h'). split; [|now left].
  split; [reflexivity|]. split; [eapply init_strings_only; exact Hl|exact H2].
Qed.
