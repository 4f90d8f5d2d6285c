(** * Objects (property C58) *)
From Verif Require Import ReportProofs JsonProofs ReadableProofs.
From Verif Require Import Lemmas Codec Header StringData Targets Info Extra LnkFile Json Report Readable Heap.

(** ** Heaps *)
Lemma put_length h r c : length (put h r c) = length h.
Proof. revert r. induction h as [|x h IH]; intros [|r]; cbn; auto. Qed.
Lemma put_same h : forall r c, (r < length h)%nat -> nth_error (put h r c) r = Some c.
Proof. induction h as [|x h IH]; intros [|r] c H; cbn in *; try lia; [reflexivity|]. apply IH. lia. Qed.
Lemma put_other h : forall r c s, r <> s -> nth_error (put h r c) s = nth_error h s.
Proof. induction h as [|x h IH]; intros [|r] c [|s] H; cbn; try reflexivity; [congruence|]. apply IH. congruence. Qed.
Lemma nth_error_lt {A} (l : list A) i x : nth_error l i = Some x -> (i < length l)%nat.
Proof. intros H. apply nth_error_Some. congruence. Qed.

(** ** Trees of objects with their footprint *)
Inductive tree (h : heap) : hval -> pyval -> list nat -> Prop :=
| t_none : tree h HNone PNone []
| t_int z : tree h (HInt z) (PInt z) []
| t_str t : tree h (HStr t) (PStr t) []
| t_date d : tree h (HDate d) (PDate d) []
| t_list r vs ps F : nth_error h r = Some (CList vs) -> trees h vs ps F -> tree h (HRef r) (PList ps) (r :: F)
| t_dict r ds d F : nth_error h r = Some (CDict ds) -> rows h ds d F -> tree h (HRef r) (PDict d) (r :: F)
with trees (h : heap) : list hval -> list pyval -> list nat -> Prop :=
| ts_nil : trees h [] [] []
| ts_cons v p vs ps F G : tree h v p F -> trees h vs ps G -> trees h (v :: vs) (p :: ps) (F ++ G)
with rows (h : heap) : list (string * hval) -> list (string * pyval) -> list nat -> Prop :=
| rs_nil : rows h [] [] []
| rs_cons k v p vs ps F G : tree h v p F -> rows h vs ps G -> rows h ((k, v) :: vs) ((k, p) :: ps) (F ++ G).
Scheme tree_mut := Minimality for tree Sort Prop
with trees_mut := Minimality for trees Sort Prop
with rows_mut := Minimality for rows Sort Prop.
Combined Scheme tree_ind3 from tree_mut, trees_mut, rows_mut.

Lemma frame_all h :
  (forall v p F, tree h v p F -> forall h', (forall r, In r F -> nth_error h' r = nth_error h r) -> tree h' v p F)
  /\ (forall v p F, trees h v p F -> forall h', (forall r, In r F -> nth_error h' r = nth_error h r) -> trees h' v p F)
  /\ (forall v p F, rows h v p F -> forall h', (forall r, In r F -> nth_error h' r = nth_error h r) -> rows h' v p F).
Proof.
  apply tree_ind3; intros; try constructor; auto.
  - apply t_list with vs; [rewrite H2 by (now left); assumption|]. apply H1. intros. apply H2. now right.
  - apply t_dict with ds; [rewrite H2 by (now left); assumption|]. apply H1. intros. apply H2. now right.
  - apply H0. intros. apply H3, in_or_app. now left.
  - apply H2. intros. apply H3, in_or_app. now right.
  - apply H0. intros. apply H3, in_or_app. now left.
  - apply H2. intros. apply H3, in_or_app. now right.
Qed.
Definition tree_frame h := proj1 (frame_all h).
Definition trees_frame h := proj1 (proj2 (frame_all h)).
Definition rows_frame h := proj2 (proj2 (frame_all h)).
Lemma bounds_all h :
  (forall v p F, tree h v p F -> forall r, In r F -> (r < length h)%nat)
  /\ (forall v p F, trees h v p F -> forall r, In r F -> (r < length h)%nat)
  /\ (forall v p F, rows h v p F -> forall r, In r F -> (r < length h)%nat).
Proof.
  apply tree_ind3; intros; try contradiction.
  - destruct H2 as [<-|H2]; [eapply nth_error_lt; eassumption|auto].
  - destruct H2 as [<-|H2]; [eapply nth_error_lt; eassumption|auto].
  - apply in_app_or in H3 as [H3|H3]; auto.
  - apply in_app_or in H3 as [H3|H3]; auto.
Qed.
Lemma tree_extend h v p F x : tree h v p F -> tree (h ++ x) v p F.
Proof.
  intros H. apply (tree_frame h v p F H). intros r Hr. apply nth_error_app1. exact (proj1 (bounds_all h) _ _ _ H r Hr).
Qed.
Lemma trees_extend h v p F x : trees h v p F -> trees (h ++ x) v p F.
Proof. intros H. apply (trees_frame h v p F H). intros r Hr. apply nth_error_app1. exact (proj1 (proj2 (bounds_all h)) _ _ _ H r Hr). Qed.
Lemma rows_extend h v p F x : rows h v p F -> rows (h ++ x) v p F.
Proof. intros H. apply (rows_frame h v p F H). intros r Hr. apply nth_error_app1. exact (proj2 (proj2 (bounds_all h)) _ _ _ H r Hr). Qed.

Lemma NoDup_app {A} (a b : list A) : NoDup a -> NoDup b -> (forall x, In x a -> ~ In x b) -> NoDup (a ++ b).
Proof.
  induction 1 as [|x a Hx Ha IH]; intros Hb H; [exact Hb|]. cbn. constructor.
  - rewrite in_app_iff. intros [G|G]; [now apply Hx|]. apply (H x); [now left|exact G].
  - apply IH; [exact Hb|]. intros y Hy. apply H. now right.
Qed.
Lemma NoDup_app_inv {A} (a b : list A) : NoDup (a ++ b) -> NoDup a /\ NoDup b /\ forall x, In x a -> ~ In x b.
Proof.
  induction a as [|x a IH]; intros H; cbn in *.
  - split; [constructor|]. split; [exact H|]. intros y [].
  - inversion H as [|? ? Hx H']; subst. rewrite in_app_iff in Hx. destruct (IH H') as (Ha & Hb & Hd). split; [constructor; tauto|]. split; [exact Hb|].
    intros y [<-|Hy]; [tauto|now apply Hd].
Qed.

(** ** New objects *)
Definition grows (h : heap) (F : list nat) (h' : heap) : Prop :=
  (exists x, h' = h ++ x) /\ NoDup F /\ forall r, In r F -> (length h <= r < length h')%nat.
Lemma grows_refl h : grows h [] h.
Proof. split; [exists []; now rewrite app_nil_r|]. split; [constructor|]. intros r []. Qed.
Lemma grows_app h F h1 G h2 : grows h F h1 -> grows h1 G h2 -> grows h (F ++ G) h2.
Proof.
  intros ([x ->] & NF & BF) ([y ->] & NG & BG). split; [exists (x ++ y); now rewrite app_assoc|]. split.
  - apply NoDup_app; [exact NF|exact NG|]. intros r Hr Hr'. specialize (BF r Hr). specialize (BG r Hr'). lia.
  - intros r Hr. apply in_app_or in Hr as [Hr|Hr]; [specialize (BF r Hr)|specialize (BG r Hr)]; rewrite ?app_length in *; lia.
Qed.
Lemma grows_cell h F h1 c : grows h F h1 -> grows h (length h1 :: F) (h1 ++ [c]).
Proof.
  intros ([x ->] & NF & BF). split; [exists (x ++ [c]); now rewrite app_assoc|]. split.
  - constructor; [|exact NF]. intros Hr. specialize (BF _ Hr). lia.
  - intros r [<-|Hr]; [rewrite !app_length; cbn; lia|]. specialize (BF r Hr). rewrite !app_length in *. lia.
Qed.
Lemma nth_error_last {A} (l : list A) x : nth_error (l ++ [x]) (length l) = Some x.
Proof. rewrite nth_error_app2 by lia. now rewrite Nat.sub_diag. Qed.
Lemma alloc_tree v : forall h, exists F, tree (snd (alloc v h)) (fst (alloc v h)) v F /\ grows h F (snd (alloc v h)).
Proof.
  induction v as [|z|t|d|l IH|d IH] using value_induction; intros h;
    try (exists []; split; [constructor|apply grows_refl]).
  - cbn [alloc]. match goal with |- context[(?f l h)] => set (elems := f) end.
    assert (E : forall l, Forall (fun v => forall h, exists F, tree (snd (alloc v h)) (fst (alloc v h)) v F /\ grows h F (snd (alloc v h))) l ->
      forall h, exists F, trees (snd (elems l h)) (fst (elems l h)) l F /\ grows h F (snd (elems l h))).
    { clear. induction l as [|v l IHl]; intros HF h.
      - exists []. split; [constructor|apply grows_refl].
      - apply Forall_cons_iff in HF as [Hv Hl]. change (elems (v :: l) h) with (let '(x, h) := alloc v h in let '(xs, h) := elems l h in (x :: xs, h)).
        destruct (Hv h) as (F & T & G). destruct (alloc v h) as [x h1]. cbn [fst snd] in *.
        destruct (IHl Hl h1) as (F' & T' & G'). destruct (elems l h1) as [xs h2]. cbn [fst snd] in *.
        exists (F ++ F'). split; [|now apply grows_app with h1]. constructor; [|exact T'].
        destruct G' as ([y ->] & _). now apply tree_extend. }
    destruct (E l IH h) as (F & T & G). destruct (elems l h) as [vs h1]. cbn [fst snd] in *.
    exists (length h1 :: F). split; [|now apply grows_cell]. apply t_list with vs; [apply nth_error_last|now apply trees_extend].
  - cbn [alloc]. match goal with |- context[(?f d h)] => set (elems := f) end.
    assert (E : forall d, Forall (fun e : string * pyval => forall h, exists F, tree (snd (alloc (snd e) h)) (fst (alloc (snd e) h)) (snd e) F /\ grows h F (snd (alloc (snd e) h))) d ->
      forall h, exists F, rows (snd (elems d h)) (fst (elems d h)) d F /\ grows h F (snd (elems d h))).
    { clear. induction d as [|[k v] d IHd]; intros HF h.
      - exists []. split; [constructor|apply grows_refl].
      - apply Forall_cons_iff in HF as [Hv Hl]. change (elems ((k, v) :: d) h) with (let '(x, h) := alloc v h in let '(xs, h) := elems d h in ((k, x) :: xs, h)).
        cbn [snd] in Hv. destruct (Hv h) as (F & T & G). destruct (alloc v h) as [x h1]. cbn [fst snd] in *.
        destruct (IHd Hl h1) as (F' & T' & G'). destruct (elems d h1) as [xs h2]. cbn [fst snd] in *.
        exists (F ++ F'). split; [|now apply grows_app with h1]. constructor; [|exact T'].
        destruct G' as ([y ->] & _). now apply tree_extend. }
    destruct (E d IH h) as (F & T & G). destruct (elems d h) as [vs h1]. cbn [fst snd] in *.
    exists (length h1 :: F). split; [|now apply grows_cell]. apply t_dict with vs; [apply nth_error_last|now apply rows_extend].
Qed.

(** ** Updates in place *)
Fixpoint lupd (i : nat) (f : pyval -> pyval) (l : list pyval) : list pyval :=
  match l, i with
  | [], _ => []
  | v :: l, O => f v :: l
  | v :: l, S i => v :: lupd i f l
  end.
Fixpoint upd (q : list place) (g : dict -> dict) (p : pyval) : pyval :=
  match q, p with
  | [], PDict d => PDict (g d)
  | PKey k :: q, PDict d => PDict (dupd k (upd q g) d)
  | PElem i :: q, PList l => PList (lupd i (upd q g) l)
  | _, _ => p
  end.
Definition compat (f : list (string * hval) -> list (string * hval)) (g : dict -> dict) : Prop :=
  forall h ds d F, rows h ds d F -> NoDup F -> exists F', rows h (f ds) (g d) F' /\ incl F' F /\ NoDup F'.
Lemma rows_split h ds d F k x : rows h ds d F -> hget k ds = Some x ->
  exists ds1 ds2 d1 p d2 F1 Fx F2, ds = ds1 ++ (k, x) :: ds2 /\ d = d1 ++ (k, p) :: d2 /\ F = F1 ++ Fx ++ F2
  /\ rows h ds1 d1 F1 /\ tree h x p Fx /\ rows h ds2 d2 F2 /\ hget k ds1 = None /\ dget k d1 = None.
Proof.
  intros H Hk. revert F d H. induction ds as [|[k' v] ds IH]; intros F d H; [discriminate|].
  inversion H as [|? ? p ? ps Fx F2 Hv Hr]; subst. cbn in Hk. destruct (String.eqb_spec k k') as [<-|Hne].
  - injection Hk as ->. exists [], ds, [], p, ps, [], Fx, F2. repeat split; auto; constructor.
  - destruct (IH Hk _ _ Hr) as (ds1 & ds2 & d1 & p' & d2 & F1 & Fx' & F2' & -> & -> & -> & H1 & H2 & H3 & H4 & H5).
    exists ((k', v) :: ds1), ds2, ((k', p) :: d1), p', d2, (Fx ++ F1), Fx', F2'. rewrite <- !app_assoc.
    repeat split; auto; [now constructor| |]; cbn; destruct (String.eqb_spec k k'); congruence.
Qed.
Lemma rows_none h ds d F k : rows h ds d F -> hget k ds = None -> dget k d = None.
Proof.
  induction 1 as [|k' v p vs ps G G' _ _ IH]; [reflexivity|]. cbn. destruct (String.eqb k k'); [discriminate|exact IH].
Qed.
Lemma dupd_none k f d : dget k d = None -> dupd k f d = d.
Proof. induction d as [|[k' v] d IH]; [reflexivity|]. cbn. destruct (String.eqb k k'); [discriminate|]. intros H. now rewrite IH. Qed.
Lemma dupd_split k f d1 v d2 : dget k d1 = None -> dupd k f (d1 ++ (k, v) :: d2) = d1 ++ (k, f v) :: d2.
Proof.
  induction d1 as [|[k' w] d1 IH]; cbn; [now rewrite String.eqb_refl|]. destruct (String.eqb k k'); [discriminate|]. intros H. now rewrite IH.
Qed.
Lemma rows_app h a a' b b' F G : rows h a b F -> rows h a' b' G -> rows h (a ++ a') (b ++ b') (F ++ G).
Proof. induction 1 as [|k v p vs ps X Y Hv _ IH]; intros H; [exact H|]. cbn. rewrite <- app_assoc. constructor; auto. Qed.
Lemma trees_app h a a' b b' F G : trees h a b F -> trees h a' b' G -> trees h (a ++ a') (b ++ b') (F ++ G).
Proof. induction 1 as [|v p vs ps X Y Hv _ IH]; intros H; [exact H|]. cbn. rewrite <- app_assoc. constructor; auto. Qed.
Lemma trees_split h vs l F i x : trees h vs l F -> nth_error vs i = Some x ->
  exists vs1 vs2 l1 p l2 F1 Fx F2, vs = vs1 ++ x :: vs2 /\ l = l1 ++ p :: l2 /\ F = F1 ++ Fx ++ F2
  /\ trees h vs1 l1 F1 /\ tree h x p Fx /\ trees h vs2 l2 F2 /\ length vs1 = i /\ length l1 = i.
Proof.
  intros H Hi. revert F l H i Hi. induction vs as [|v vs IH]; intros F l H i Hi; [destruct i; discriminate|].
  inversion H as [|? p ? ps Fx F2 Hv Hr]; subst. destruct i as [|i].
  - injection Hi as ->. exists [], vs, [], p, ps, [], Fx, F2. repeat split; auto; constructor.
  - destruct (IH _ _ Hr i Hi) as (ds1 & ds2 & d1 & p' & d2 & F1 & Fx' & F2' & -> & -> & -> & H1 & H2 & H3 & H4 & H5).
    exists (v :: ds1), ds2, (p :: d1), p', d2, (Fx ++ F1), Fx', F2'. rewrite <- !app_assoc.
    repeat split; cbn; auto. now constructor.
Qed.
Lemma lupd_split i f l1 v l2 : length l1 = i -> lupd i f (l1 ++ v :: l2) = l1 ++ f v :: l2.
Proof. intros <-. induction l1 as [|w l1 IH]; [reflexivity|]. cbn. now rewrite IH. Qed.
Lemma trees_length h vs l F : trees h vs l F -> length vs = length l.
Proof. induction 1; cbn; congruence. Qed.
Lemma lupd_none i f l : (length l <= i)%nat -> lupd i f l = l.
Proof. revert i. induction l as [|v l IH]; intros [|i] H; cbn in *; try reflexivity; [lia|]. now rewrite IH by lia. Qed.

Lemma update_frame h v q f : length (update h v q f) = length h.
Proof. unfold update. destruct (follow h v q) as [[| | | |r]|]; try reflexivity. destruct (nth_error h r) as [[]|]; try reflexivity. apply put_length. Qed.
Lemma tree_update f g : compat f g -> forall q h v p F, tree h v p F -> NoDup F ->
  exists F', tree (update h v q f) v (upd q g p) F' /\ incl F' F /\ NoDup F'
  /\ forall r, ~ In r F -> nth_error (update h v q f) r = nth_error h r.
Proof.
  intros C. assert (Same : forall h v p F, tree h v p F -> NoDup F ->
     exists F', tree h v p F' /\ incl F' F /\ NoDup F' /\ forall r, ~ In r F -> nth_error h r = nth_error h r).
  { intros h v p F H N. exists F. repeat split; auto. apply incl_refl. }
  induction q as [|s q IH]; intros h v p F H N.
  - unfold update. cbn [follow]. inversion H; subst; try (now apply Same).
    + rewrite H0. now apply Same.
    + rewrite H0. inversion N as [|? ? Hr N']; subst.
      assert (Hlt : (r < length h)%nat) by (eapply nth_error_lt; eassumption).
      destruct (C h ds d F0 H1 N') as (F' & HF' & I' & N2).
      exists (r :: F'). split.
      { apply t_dict with (f ds); [now apply put_same|]. apply (rows_frame _ _ _ _ HF'). intros s Hs. apply put_other. intros <-. now apply Hr, I'. }
      split; [intros s [<-|Hs]; [now left|right; now apply I']|]. split; [constructor; [intros Hs; now apply Hr, I'|exact N2]|].
      intros s Hs. apply put_other. intros <-. apply Hs. now left.
  - assert (Skip : forall x, follow h v (s :: q) = None -> update h v (s :: q) x = h).
    { intros x E. unfold update. now rewrite E. }
    destruct s as [k|i]; inversion H; subst; try (rewrite Skip by reflexivity; now apply Same).
    + rewrite Skip by (cbn; now rewrite H0). now apply Same.
    + destruct (hget k ds) as [x|] eqn:Ek.
      * assert (E : update h (HRef r) (PKey k :: q) f = update h x q f) by (unfold update; cbn [follow]; now rewrite H0, Ek).
        rewrite E. cbn [upd]. destruct (rows_split _ _ _ _ _ _ H1 Ek) as (ds1 & ds2 & d1 & p & d2 & F1 & Fx & F2 & -> & -> & -> & R1 & T & R2 & _ & Hn).
        inversion N as [|? ? Hr N']; subst. apply NoDup_app_inv in N' as (N1 & N23 & D1). apply NoDup_app_inv in N23 as (Nx & N2 & D2).
        destruct (IH h x p Fx T Nx) as (F' & T' & I' & N'' & Fr). rewrite dupd_split by exact Hn.
        rewrite !in_app_iff in Hr.
        exists (r :: F1 ++ F' ++ F2). split.
        { apply t_dict with (ds1 ++ (k, x) :: ds2); [rewrite Fr; [exact H0|tauto]|]. apply rows_app.
          - apply (rows_frame _ _ _ _ R1). intros s Hs. apply Fr. intros Hx. apply (D1 s Hs), in_or_app. now left.
          - constructor; [exact T'|]. apply (rows_frame _ _ _ _ R2). intros s Hs. apply Fr. intros Hx. now apply (D2 s). }
        split; [intros s; rewrite !in_app_iff || cbn; cbn; rewrite !in_app_iff; intros Hs; specialize (I' s); tauto|].
        split.
        { constructor.
          - rewrite !in_app_iff. specialize (I' r). tauto.
          - apply NoDup_app; [exact N1| |].
            + apply NoDup_app; [exact N''|exact N2|]. intros s Hs. apply D2. now apply I'.
            + intros s Hs Hs'. apply (D1 s Hs). apply in_app_or in Hs' as [Hs'|Hs']; apply in_or_app; [left; now apply I'|now right]. }
        intros s Hs. apply Fr. intros Hx. apply Hs. right. rewrite !in_app_iff. tauto.
      * rewrite Skip by (cbn; now rewrite H0, Ek). cbn [upd]. rewrite dupd_none by (eapply rows_none; eassumption). now apply Same.
    + destruct (nth_error vs i) as [x|] eqn:Ek.
      * assert (E : update h (HRef r) (PElem i :: q) f = update h x q f) by (unfold update; cbn [follow]; now rewrite H0, Ek).
        rewrite E. cbn [upd]. destruct (trees_split _ _ _ _ _ _ H1 Ek) as (ds1 & ds2 & d1 & p & d2 & F1 & Fx & F2 & -> & -> & -> & R1 & T & R2 & _ & Hn).
        inversion N as [|? ? Hr N']; subst. apply NoDup_app_inv in N' as (N1 & N23 & D1). apply NoDup_app_inv in N23 as (Nx & N2 & D2).
        destruct (IH h x p Fx T Nx) as (F' & T' & I' & N'' & Fr). rewrite lupd_split by reflexivity.
        rewrite !in_app_iff in Hr.
        exists (r :: F1 ++ F' ++ F2). split.
        { apply t_list with (ds1 ++ x :: ds2); [rewrite Fr; [exact H0|tauto]|]. apply trees_app.
          - apply (trees_frame _ _ _ _ R1). intros s Hs. apply Fr. intros Hx. apply (D1 s Hs), in_or_app. now left.
          - constructor; [exact T'|]. apply (trees_frame _ _ _ _ R2). intros s Hs. apply Fr. intros Hx. now apply (D2 s). }
        split; [intros s; cbn; rewrite !in_app_iff; intros Hs; specialize (I' s); tauto|].
        split.
        { constructor.
          - rewrite !in_app_iff. specialize (I' r). tauto.
          - apply NoDup_app; [exact N1| |].
            + apply NoDup_app; [exact N''|exact N2|]. intros s Hs. apply D2. now apply I'.
            + intros s Hs Hs'. apply (D1 s Hs). apply in_app_or in Hs' as [Hs'|Hs']; apply in_or_app; [left; now apply I'|now right]. }
        intros s Hs. apply Fr. intros Hx. apply Hs. right. rewrite !in_app_iff. tauto.
      * rewrite Skip by (cbn; now rewrite H0, Ek). cbn [upd]. rewrite lupd_none; [now apply Same|].
        apply nth_error_None in Ek. rewrite (trees_length _ _ _ _ H1) in Ek. exact Ek.
    + rewrite Skip by (cbn; now rewrite H0). now apply Same.
Qed.

Lemma compat_pop k : compat (hpop k) (dpop k).
Proof.
  intros h ds d F H N. induction H as [|k' v p vs ps Fv G Hv Hr IH].
  - exists []. split; [constructor|]. split; [apply incl_refl|exact N].
  - apply NoDup_app_inv in N as (N1 & N2 & D). destruct (IH N2) as (F' & R & I & N'). cbn. destruct (String.eqb k k').
    + exists G. split; [exact Hr|]. split; [apply incl_appr, incl_refl|exact N2].
    + exists (Fv ++ F'). split; [now constructor|]. split; [apply incl_app_app; [apply incl_refl|exact I]|].
      apply NoDup_app; [exact N1|exact N'|]. intros s Hs Hs'. apply (D s Hs). now apply I.
Qed.
Lemma compat_set k t : compat (hset k (HStr t)) (dset k (PStr t)).
Proof.
  intros h ds d F H N. induction H as [|k' v p vs ps Fv G Hv Hr IH].
  - exists []. cbn. split; [exact (rs_cons h k (HStr t) (PStr t) [] [] [] [] (t_str h t) (rs_nil h))|]. split; [apply incl_refl|exact N].
  - apply NoDup_app_inv in N as (N1 & N2 & D). destruct (IH N2) as (F' & R & I & N'). cbn. destruct (String.eqb k k').
    + exists G. split; [exact (rs_cons h k' (HStr t) (PStr t) vs ps [] G (t_str h t) Hr)|]. split; [apply incl_appr, incl_refl|exact N2].
    + exists (Fv ++ F'). split; [now constructor|]. split; [apply incl_app_app; [apply incl_refl|exact I]|].
      apply NoDup_app; [exact N1|exact N'|]. intros s Hs Hs'. apply (D s Hs). now apply I.
Qed.

(** ** A value in new objects, the old ones being unchanged *)
Definition newly (h0 h : heap) (v : hval) (p : pyval) : Prop :=
  (exists F, tree h v p F /\ NoDup F /\ forall r, In r F -> (length h0 <= r)%nat)
  /\ (length h0 <= length h)%nat /\ forall r, (r < length h0)%nat -> nth_error h r = nth_error h0 r.
Lemma newly_update f g h0 h v p q : compat f g -> newly h0 h v p -> newly h0 (update h v q f) v (upd q g p).
Proof.
  intros C ((F & T & N & B) & L & O). destruct (tree_update f g C q h v p F T N) as (F' & T' & I & N' & Fr).
  split; [exists F'; split; [exact T'|]; split; [exact N'|]; intros r Hr; now apply B, I|].
  rewrite update_frame. split; [exact L|]. intros r Hr. rewrite Fr; [now apply O|]. intros Hi. apply B in Hi. lia.
Qed.

(** ** Composition of updates *)
Lemma dupd_ext k f g d : (forall v, f v = g v) -> dupd k f d = dupd k g d.
Proof. intros H. induction d as [|[k' v] d IH]; [reflexivity|]. cbn. now rewrite H, IH. Qed.
Lemma dupd_dupd k f g d : dupd k g (dupd k f d) = dupd k (fun v => g (f v)) d.
Proof. induction d as [|[k' v] d IH]; [reflexivity|]. cbn. destruct (String.eqb k k') eqn:E; cbn; rewrite E; [reflexivity|]. now rewrite IH. Qed.
Lemma dupd_id k d : dupd k (fun v => v) d = d.
Proof. induction d as [|[k' v] d IH]; [reflexivity|]. cbn. rewrite IH. now destruct (String.eqb k k'). Qed.
Lemma lupd_ext i f g l : (forall v, f v = g v) -> lupd i f l = lupd i g l.
Proof. intros H. revert i. induction l as [|v l IH]; intros [|i]; cbn; rewrite ?H, ?IH; reflexivity. Qed.
Lemma lupd_lupd i f g l : lupd i g (lupd i f l) = lupd i (fun v => g (f v)) l.
Proof. revert i. induction l as [|v l IH]; intros [|i]; cbn; rewrite ?IH; reflexivity. Qed.
Lemma lupd_id i l : lupd i (fun v => v) l = l.
Proof. revert i. induction l as [|v l IH]; intros [|i]; cbn; rewrite ?IH; reflexivity. Qed.
Lemma upd_upd q : forall g g' p, upd q g' (upd q g p) = upd q (fun d => g' (g d)) p.
Proof.
  induction q as [|[k|i] q IH]; intros g g' [| | | |l|d]; try reflexivity.
  - cbn. now rewrite dupd_dupd, (dupd_ext k _ _ _ (IH g g')).
  - cbn. now rewrite lupd_lupd, (lupd_ext i _ _ _ (IH g g')).
Qed.
Lemma upd_id q : forall p, upd q (fun d => d) p = p.
Proof.
  induction q as [|[k|i] q IH]; intros [| | | |l|d]; try reflexivity.
  - cbn. now rewrite (dupd_ext k _ (fun v => v)), dupd_id.
  - cbn. now rewrite (lupd_ext i _ (fun v => v)), lupd_id.
Qed.
Lemma upd_ext q g g' : (forall d, g d = g' d) -> forall p, upd q g p = upd q g' p.
Proof.
  intros H. induction q as [|[k|i] q IH]; intros [| | | |l|d]; try reflexivity; cbn.
  - now rewrite H.
  - now rewrite (dupd_ext k _ _ _ IH).
  - now rewrite (lupd_ext i _ _ _ IH).
Qed.
Lemma newly_pops h0 v q ks : forall h p, newly h0 h v p -> newly h0 (pops ks v q h) v (upd q (pop_all ks) p).
Proof.
  induction ks as [|k ks IH]; intros h p H.
  - unfold pops, pop_all. cbn. rewrite upd_id. exact H.
  - change (pops (k :: ks) v q h) with (pops ks v q (update h v q (hpop k))).
    replace (upd q (pop_all (k :: ks)) p) with (upd q (pop_all ks) (upd q (dpop k) p)) by (rewrite upd_upd; now apply upd_ext).
    apply IH. apply newly_update; [apply compat_pop|exact H].
Qed.

(** ** Reading places *)
Fixpoint pget (q : list place) (p : pyval) : option pyval :=
  match q with
  | [] => Some p
  | PKey k :: q => match p with PDict d => match dget k d with Some x => pget q x | None => None end | _ => None end
  | PElem i :: q => match p with PList l => match nth_error l i with Some x => pget q x | None => None end | _ => None end
  end.
Lemma follow_tree q : forall h v p F, tree h v p F ->
  match pget q p with
  | Some p' => exists x F', follow h v q = Some x /\ tree h x p' F'
  | None => follow h v q = None
  end.
Proof.
  induction q as [|[k|i] q IH]; intros h v p F H; [now exists v, F| |].
  - inversion H as [| | | |r vs ps G Hr Ht|r ds d G Hr Ht]; subst; cbn; rewrite ?Hr; try reflexivity.
    destruct (hget k ds) as [x|] eqn:E.
    + destruct (rows_split _ _ _ _ _ _ Ht E) as (ds1 & ds2 & d1 & p & d2 & F1 & Fx & F2 & -> & -> & -> & R1 & T & R2 & _ & Hn).
      replace (dget k (d1 ++ (k, p) :: d2)) with (Some p); [exact (IH _ _ _ _ T)|].
      clear - Hn. induction d1 as [|[k' w] d1 IH]; cbn in *; [now rewrite String.eqb_refl|]. destruct (String.eqb k k'); [discriminate|auto].
    + rewrite (rows_none _ _ _ _ _ Ht E). reflexivity.
  - inversion H as [| | | |r vs ps G Hr Ht|r ds d G Hr Ht]; subst; cbn; rewrite ?Hr; try reflexivity.
    destruct (nth_error vs i) as [x|] eqn:E.
    + destruct (trees_split _ _ _ _ _ _ Ht E) as (ds1 & ds2 & d1 & p & d2 & F1 & Fx & F2 & -> & -> & -> & R1 & T & R2 & _ & Hn).
      rewrite <- Hn. rewrite nth_error_app2, Nat.sub_diag by lia. cbn. exact (IH _ _ _ _ T).
    + apply nth_error_None in E. rewrite (trees_length _ _ _ _ Ht) in E. apply nth_error_None in E. now rewrite E.
Qed.
Definition plength (q : list place) (p : pyval) : nat := match pget q p with Some (PList l) => length l | _ => O end.
Definition plocation (s : string) (p : pyval) : bool :=
  match pget [PKey "link_info"; PKey "location"] p with Some (PStr t) => text_eqb t (s2t s) | _ => false end.
Lemma length_at_tree h v p F q : tree h v p F -> length_at h v q = plength q p.
Proof.
  intros H. pose proof (follow_tree q h v p F H) as G. unfold length_at, plength. destruct (pget q p) as [p'|]; [|now rewrite G].
  destruct G as (x & F' & -> & T). inversion T as [| | | |r vs ps X Hr Ht|r ds d X Hr Ht]; subst; rewrite ?Hr; try reflexivity.
  eapply trees_length; eassumption.
Qed.
Lemma location_at_tree h v p F s : tree h v p F -> location_at s h v = plocation s p.
Proof.
  intros H. pose proof (follow_tree [PKey "link_info"; PKey "location"] h v p F H) as G. unfold location_at, plocation.
  destruct (pget _ p) as [p'|]; [|now rewrite G].
  destruct G as (x & F' & -> & T). now inversion T.
Qed.

(** ** Pruning *)
Definition prune_places (p : pyval) : pyval :=
  let p := upd [PKey "header"] (pop_all ["header_size"; "reserved0"; "reserved1"; "reserved2"]) p in
  let p := upd [PKey "link_info"] (pop_all ["link_info_size"; "link_info_header_size"; "volume_id_offset"; "local_base_path_offset";
                 "common_network_relative_link_offset"; "common_path_suffix_offset"]) p in
  let p := if plocation "Local" p
           then upd [PKey "link_info"; PKey "location_info"] (pop_all ["volume_id_size"; "volume_label_offset"]) p else p in
  let p := if plocation "Network" p
           then upd [PKey "link_info"; PKey "location_info"]
                  (pop_all ["common_network_relative_link_size"; "net_name_offset"; "device_name_offset"]) p else p in
  let p := upd [PKey "target"] (pop_all ["index"; "size"]) p in
  fold_left (fun p i => upd [PKey "target"; PKey "items"; PElem i] (pop_all ["modification_time"]) p)
    (seq 0 (plength [PKey "target"; PKey "items"] p)) p.
Lemma newly_prune h0 h v p : newly h0 h v p -> newly h0 (prune_heap v h) v (prune_places p).
Proof.
  intros H. unfold prune_heap, prune_places. cbv zeta.
  match goal with |- context[upd [PKey "header"] ?g p] => pose proof (newly_pops h0 v [PKey "header"] _ h p H : newly h0 _ v (upd [PKey "header"] g p)) as H1 end.
  clear H. set (h1 := pops _ v [PKey "header"] h) in *. set (p1 := upd [PKey "header"] _ p) in *. clearbody h1 p1.
  match goal with |- context[upd [PKey "link_info"] ?g p1] => pose proof (newly_pops h0 v [PKey "link_info"] _ h1 p1 H1 : newly h0 _ v (upd [PKey "link_info"] g p1)) as H2 end.
  clear H1. set (h2 := pops _ v [PKey "link_info"] h1) in *. set (p2 := upd [PKey "link_info"] _ p1) in *. clearbody h2 p2.
  assert (L : forall h p s, newly h0 h v p -> location_at s h v = plocation s p) by (intros ? ? ? ((F & T & _) & _); eapply location_at_tree; exact T).
  rewrite (L h2 p2 "Local"%string H2).
  match goal with |- context[pops ?ks v ?q h2] => assert (H3 : newly h0 (if plocation "Local" p2 then pops ks v q h2 else h2) v
     (if plocation "Local" p2 then upd q (pop_all ks) p2 else p2)) by (destruct (plocation "Local" p2); [now apply newly_pops|exact H2]) end.
  clear H2. set (h3 := if plocation "Local" p2 then _ else h2) in *. set (p3 := if plocation "Local" p2 then _ else p2) in *. clearbody h3 p3.
  rewrite (L h3 p3 "Network"%string H3).
  match goal with |- context[pops ?ks v ?q h3] => assert (H4 : newly h0 (if plocation "Network" p3 then pops ks v q h3 else h3) v
     (if plocation "Network" p3 then upd q (pop_all ks) p3 else p3)) by (destruct (plocation "Network" p3); [now apply newly_pops|exact H3]) end.
  clear H3. set (h4 := if plocation "Network" p3 then _ else h3) in *. set (p4 := if plocation "Network" p3 then _ else p3) in *. clearbody h4 p4.
  pose proof (newly_pops h0 v [PKey "target"] ["index"; "size"]%string h4 p4 H4) as H5. clear H4.
  set (h5 := pops _ v [PKey "target"] h4) in *. set (p5 := upd [PKey "target"] _ p4) in *. clearbody h5 p5.
  replace (length_at h5 v [PKey "target"; PKey "items"]) with (plength [PKey "target"; PKey "items"] p5).
  2:{ destruct H5 as ((F & T & _) & _). symmetry. eapply length_at_tree. exact T. }
  generalize (seq 0 (plength [PKey "target"; PKey "items"] p5)). intros l. revert h5 p5 H5.
  induction l as [|i l IH]; intros h5 p5 H5; [exact H5|]. cbn [fold_left]. apply IH. now apply newly_pops.
Qed.
Lemma dget_split k d x : dget k d = Some x -> exists d1 d2, d = d1 ++ (k, x) :: d2 /\ dget k d1 = None.
Proof.
  induction d as [|[k' v] d IH]; [discriminate|]. cbn. destruct (String.eqb_spec k k') as [<-|Hne].
  - intros [= ->]. now exists [], d.
  - intros H. destruct (IH H) as (d1 & d2 & -> & Hn). exists ((k', v) :: d1), d2. split; [reflexivity|]. cbn. destruct (String.eqb_spec k k'); congruence.
Qed.
Lemma dget_app_none k d1 x d2 : dget k d1 = None -> dget k (d1 ++ (k, x) :: d2) = Some x.
Proof. induction d1 as [|[k' v] d1 IH]; cbn; [now rewrite String.eqb_refl|]. destruct (String.eqb k k'); [discriminate|exact IH]. Qed.
Lemma upd_nil_on_dict g v : upd [] g v = on_dict g v.
Proof. now destruct v. Qed.
(** [prune] below the key "link_info" *)
Definition prune_info_places (v : pyval) : pyval :=
  let loc s v := match pget [PKey "location"] v with Some (PStr t) => text_eqb t (s2t s) | _ => false end in
  let v := upd [] (pop_all ["link_info_size"; "link_info_header_size"; "volume_id_offset"; "local_base_path_offset";
                 "common_network_relative_link_offset"; "common_path_suffix_offset"]) v in
  let v := if loc "Local"%string v then upd [PKey "location_info"] (pop_all ["volume_id_size"; "volume_label_offset"]) v else v in
  if loc "Network"%string v
  then upd [PKey "location_info"] (pop_all ["common_network_relative_link_size"; "net_name_offset"; "device_name_offset"]) v else v.
Lemma prune_info_places_ok v : prune_info_places v = on_dict prune_info v.
Proof.
  destruct v as [| | | |l|d]; try reflexivity. unfold prune_info_places, on_dict, prune_info, location_is. cbv zeta. cbn [upd pget].
  set (d1 := pop_all _ d). clearbody d1.
  assert (Loc : forall s (d : dict), match match dget "location" d with Some x => Some x | None => None end with
                         | Some (PStr t) => text_eqb t (s2t s) | _ => false end
                       = match dget "location" d with Some (PStr t) => text_eqb t (s2t s) | _ => false end).
  { intros s e. now destruct (dget "location" e). }
  rewrite Loc.
  set (b := match dget "location" d1 with Some (PStr t) => text_eqb t (s2t "Local") | _ => false end).
  set (e1 := if b then dupd "location_info" (on_dict (pop_all ["volume_id_size"; "volume_label_offset"]%string)) d1 else d1).
  assert (E : (if b then PDict (dupd "location_info" (fun p => match p with PDict d => PDict (pop_all ["volume_id_size"; "volume_label_offset"]%string d) | _ => p end) d1)
                    else PDict d1) = PDict e1).
  { unfold e1. destruct b; [|reflexivity]. apply (f_equal PDict). apply dupd_ext. now intros []. }
  rewrite E. rewrite Loc. clearbody e1. clear. destruct (match dget "location" e1 with Some (PStr t) => _ | _ => _ end); [|reflexivity].
  apply (f_equal PDict). apply dupd_ext. now intros [].
Qed.
Lemma fold_items l : forall n, (n <= length l)%nat ->
  fold_left (fun p i => upd [PElem i] (pop_all ["modification_time"%string]) p) (seq 0 n) (PList l)
  = PList (map (on_dict (dpop "modification_time")) (firstn n l) ++ skipn n l).
Proof.
  induction n as [|n IH]; intros Hn; [reflexivity|]. rewrite seq_S, fold_left_app, IH by lia. cbn [fold_left plus upd].
  f_equal. destruct (skipn n l) as [|x r] eqn:E.
  { apply (f_equal (@length _)) in E. rewrite skipn_length in E. cbn in E. lia. }
  assert (L : length (map (on_dict (dpop "modification_time")) (firstn n l)) = n) by (rewrite map_length, firstn_length; lia).
  rewrite ?Nat.add_0_l. rewrite lupd_split by exact L.
  assert (Fn : firstn (S n) l = firstn n l ++ [x] /\ skipn (S n) l = r).
  { clear - E. revert n E. induction l as [|y l IH]; intros [|n] E; cbn in *; try discriminate.
    - now injection E as -> ->.
    - destruct (IH n E) as [-> H]. split; [reflexivity|exact H]. }
  destruct Fn as [-> ->]. rewrite map_app, <- app_assoc. cbn. now destruct x.
Qed.
Definition prune_target_places (v : pyval) : pyval :=
  let v := upd [] (pop_all ["index"; "size"]) v in
  fold_left (fun p i => upd [PKey "items"; PElem i] (pop_all ["modification_time"]) p) (seq 0 (plength [PKey "items"] v)) v.
Lemma prune_target_places_ok v : prune_target_places v = on_dict prune_target v.
Proof.
  destruct v as [| | | |l|d]; try reflexivity. unfold prune_target_places, prune_target, on_dict. cbv zeta. cbn [upd].
  set (d1 := pop_all _ d). clearbody d1. unfold plength. cbn [pget].
  destruct (dget "items" d1) as [x|] eqn:E; [|cbn; now rewrite dupd_none].
  destruct (dget_split _ _ _ E) as (a & b & -> & Hn). rewrite dupd_split by exact Hn.
  destruct x as [| | | |l|e]; try reflexivity. 
  transitivity (PDict (a ++ ("items"%string, fold_left (fun p i => upd [PElem i] (pop_all ["modification_time"%string]) p) (seq 0 (length l)) (PList l)) :: b)).
  - generalize (PList l). generalize (seq 0 (length l)). clear - Hn. intros js. induction js as [|i js IH]; intros p; [reflexivity|].
    cbn [fold_left]. rewrite <- IH. f_equal. cbn [upd]. now rewrite dupd_split.
  - rewrite fold_items by lia. now rewrite firstn_all, skipn_all, app_nil_r.
Qed.
Lemma prune_places_ok d : prune_places (PDict d) = PDict (prune d).
Proof.
  unfold prune_places, prune. cbv zeta. 
  replace (upd [PKey "header"] (pop_all ["header_size"; "reserved0"; "reserved1"; "reserved2"]%string) (PDict d))
    with (PDict (dupd "header" (on_dict (pop_all ["header_size"; "reserved0"; "reserved1"; "reserved2"]%string)) d)).
  2:{ cbn [upd]. apply (f_equal PDict). apply dupd_ext. intros v. symmetry. apply upd_nil_on_dict. }
  set (d1 := dupd "header" _ d). clearbody d1. clear d.
  (* link_info *)
  match goal with |- context[fold_left ?f (seq 0 (plength ?q (upd ?q' ?g ?p))) _] =>
    replace p with (PDict (dupd "link_info" (on_dict prune_info) d1)) end.
  2:{ destruct (dget "link_info" d1) as [x|] eqn:E.
      - destruct (dget_split _ _ _ E) as (a & b & -> & Hn). rewrite dupd_split by exact Hn. rewrite <- prune_info_places_ok.
        assert (U : forall q g y, upd (PKey "link_info" :: q) g (PDict (a ++ ("link_info"%string, y) :: b)) = PDict (a ++ ("link_info"%string, upd q g y) :: b)).
        { intros q g y. cbn [upd]. now rewrite dupd_split. }
        assert (L : forall s y, plocation s (PDict (a ++ ("link_info"%string, y) :: b))
                  = match pget [PKey "location"] y with Some (PStr t) => text_eqb t (s2t s) | _ => false end).
        { intros s y. unfold plocation. cbn [pget]. now rewrite dget_app_none. }
        unfold prune_info_places. cbv zeta. rewrite U, L.
        match goal with |- context[if ?c then upd ?q ?g ?y else ?z] => idtac end.
        set (y1 := upd [] _ x). clearbody y1.
        destruct (match pget [PKey "location"] y1 with Some (PStr t) => text_eqb t (s2t "Local") | _ => false end);
          rewrite ?U, L; match goal with |- context[if ?c then _ else _] => destruct c end; now rewrite ?U.
      - rewrite dupd_none by exact E.
        assert (U : forall q g, upd (PKey "link_info" :: q) g (PDict d1) = PDict d1) by (intros q g; cbn [upd]; now rewrite dupd_none).
        assert (L : forall s, plocation s (PDict d1) = false) by (intros s; unfold plocation; cbn [pget]; now rewrite E).
        now rewrite !U, !L. }
  set (d2 := dupd "link_info" _ d1). clearbody d2. clear d1.
  unfold dmem. destruct (dget "target" d2) as [x|] eqn:E.
  - destruct (dget_split _ _ _ E) as (a & b & -> & Hn). rewrite dupd_split by exact Hn. rewrite <- prune_target_places_ok.
    assert (U : forall q g y, upd (PKey "target" :: q) g (PDict (a ++ ("target"%string, y) :: b)) = PDict (a ++ ("target"%string, upd q g y) :: b)).
    { intros q g y. cbn [upd]. now rewrite dupd_split. }
    unfold prune_target_places. cbv zeta. rewrite U. set (y1 := upd [] _ x). clearbody y1.
    replace (plength [PKey "target"; PKey "items"] (PDict (a ++ ("target"%string, y1) :: b))) with (plength [PKey "items"] y1)
      by (unfold plength; cbn [pget]; now rewrite dget_app_none).
    generalize (seq 0 (plength [PKey "items"] y1)). intros l. revert y1. induction l as [|i l IH]; intros y1; [reflexivity|].
    cbn [fold_left]. rewrite <- IH. f_equal. apply U.
  - assert (U : forall q g, upd (PKey "target" :: q) g (PDict d2) = PDict d2) by (intros q g; cbn [upd]; now rewrite dupd_none).
    rewrite U. unfold plength. cbn [pget]. now rewrite E.
Qed.

(** ** Reports *)
Definition strings_only (d : dict) : Prop := Forall (fun e => exists t, snd e = PStr t) d.
Definition data_ok (o : obj) (h : heap) (r : nat) : Prop :=
  o_data o = HRef r /\ strings_only (sd_data (l_string_data (o_link o)))
  /\ nth_error h r = Some (CDict (map (fun e => (fst e, match snd e with PStr t => HStr t | _ => HNone end)) (sd_data (l_string_data (o_link o))))).
Lemma rows_strings d h : strings_only d -> rows h (map (fun e => (fst e, match snd e with PStr t => HStr t | _ => HNone end)) d) d [].
Proof.
  induction 1 as [|[k v] d [t Ht] _ IH]; [constructor|]. cbn in *. subst v. exact (rs_cons h k (HStr t) (PStr t) _ _ [] [] (t_str h t) IH).
Qed.
Lemma strings_filter d : strings_only d ->
  let ds := map (fun e => (fst e, match snd e with PStr t => HStr t | _ => HNone end)) d in
  filter (fun e => match snd e with HNone => false | _ => true end) ds = ds.
Proof. cbv zeta. induction 1 as [|[k v] d [t Ht] _ IH]; [reflexivity|]. cbn in *. subst v. now rewrite IH. Qed.
Lemma data_as_dict_ok o h r : data_ok o h r ->
  tree (snd (data_as_dict o h)) (fst (data_as_dict o h)) (PDict (sd_data (l_string_data (o_link o)))) [length h]
  /\ grows h [length h] (snd (data_as_dict o h)).
Proof.
  intros (Ho & Hs & Hr). unfold data_as_dict. cbn [follow]. rewrite Ho, Hr. rewrite strings_filter by exact Hs. cbn [fst snd]. split.
  - eapply t_dict; [apply nth_error_last|]. now apply rows_strings.
  - apply (grows_cell h [] h). apply grows_refl.
Qed.
Lemma data_ok_keep o h r h' : data_ok o h r -> nth_error h' r = nth_error h r -> data_ok o h' r.
Proof. intros (A & B & C) H. repeat split; auto. congruence. Qed.
Lemma grows_newly h h' F v p : tree h' v p F -> grows h F h' -> newly h h' v p.
Proof.
  intros T ([x ->] & N & B). split; [exists F; split; [exact T|]; split; [exact N|]; intros r Hr; apply B in Hr; lia|].
  split; [rewrite app_length; lia|]. intros r Hr. now apply nth_error_app1.
Qed.
Lemma grows_old h F h' r : grows h F h' -> (r < length h)%nat -> nth_error h' r = nth_error h r.
Proof. intros ([x ->] & _) Hr. now apply nth_error_app1. Qed.
Lemma grows_tree h F h' v p G : grows h F h' -> tree h v p G -> tree h' v p G.
Proof. intros ([x ->] & _). apply tree_extend. Qed.
Lemma grows_le h F h' : grows h F h' -> (length h <= length h')%nat.
Proof. intros ([x ->] & _). rewrite app_length. lia. Qed.

Definition full_heap (l : lnk) (o : obj) (hd : dict) (t : option dict) (i e : dict) (h : heap) : hval * heap :=
  let '(hdv, h) := alloc (PDict hd) h in
  let '(tv, h) := match t with
                  | Some d => let '(v, h) := alloc (PDict d) h in ([("target"%string, v)], h)
                  | None => ([], h)
                  end in
  let '(iv, h) := alloc (PDict i) h in
  let '(dv, h) := data_as_dict o h in
  let '(ev, h) := alloc (PDict e) h in
  let res := HRef (length h) in
  let h := h ++ [CDict ([("size", HInt (Z.of_N (l_size l))); ("header", hdv)]%string ++ tv
                        ++ [("link_info", iv); ("data", dv); ("extra", ev)]%string)] in
  (res, h).
Definition full_dict (l : lnk) (hd : dict) (t : option dict) (i e : dict) : dict :=
  ([("size", PN (l_size l)); ("header", PDict hd)]%string ++ (match t with Some d => [("target"%string, PDict d)] | None => [] end)
   ++ [("link_info", PDict i); ("data", PDict (sd_data (l_string_data l))); ("extra", PDict e)]%string).
Lemma full_heap_ok o hd t i e h r : data_ok o h r -> (r < length h)%nat ->
  exists F, tree (snd (full_heap (o_link o) o hd t i e h)) (fst (full_heap (o_link o) o hd t i e h)) (PDict (full_dict (o_link o) hd t i e)) F
  /\ grows h F (snd (full_heap (o_link o) o hd t i e h)).
Proof.
  intros Hd Hr. unfold full_heap.
  destruct (alloc_tree (PDict hd) h) as (F1 & T1 & G1). destruct (alloc (PDict hd) h) as [hdv h1]. cbn [fst snd] in *.
  set (m := match t with Some d => _ | None => _ end).
  assert (M : exists F, rows (snd m) (fst m) (match t with Some d => [("target"%string, PDict d)] | None => [] end) F /\ grows h1 F (snd m)).
  { subst m. destruct t as [d|].
    - destruct (alloc_tree (PDict d) h1) as (F & T & G). destruct (alloc (PDict d) h1) as [v h2]. cbn [fst snd] in *.
      exists (F ++ []). split; [constructor; [exact T|constructor]|now rewrite app_nil_r].
    - exists []. split; [constructor|apply grows_refl]. }
  destruct M as (F2 & T2 & G2). destruct m as [tv h2]. cbn [fst snd] in *.
  destruct (alloc_tree (PDict i) h2) as (F3 & T3 & G3). destruct (alloc (PDict i) h2) as [iv h3]. cbn [fst snd] in *.
  assert (L : (length h <= length h3)%nat) by (apply grows_le in G1, G2, G3; lia).
  assert (Hd3 : data_ok o h3 r).
  { apply (data_ok_keep o h); [exact Hd|]. pose proof (grows_le _ _ _ G1). pose proof (grows_le _ _ _ G2).
    rewrite (grows_old _ _ _ _ G3), (grows_old _ _ _ _ G2), (grows_old _ _ _ _ G1) by lia. reflexivity. }
  destruct (data_as_dict_ok o h3 r Hd3) as (T4 & G4). destruct (data_as_dict o h3) as [dv h4]. cbn [fst snd] in *.
  destruct (alloc_tree (PDict e) h4) as (F5 & T5 & G5). destruct (alloc (PDict e) h4) as [ev h5]. cbn [fst snd] in *.
  exists (length h5 :: (F1 ++ F2 ++ F3 ++ [length h3] ++ F5)). split.
  - eapply t_dict; [apply nth_error_last|]. apply rows_extend. unfold full_dict, PN. cbn [app].
    change (F1 ++ F2 ++ F3 ++ length h3 :: F5) with ([] ++ F1 ++ F2 ++ F3 ++ [length h3] ++ F5). constructor; [constructor|].
    constructor; [eapply grows_tree; [exact G5|]; eapply grows_tree; [exact G4|]; eapply grows_tree; [exact G3|]; eapply grows_tree; [exact G2|exact T1]|].
    apply rows_app.
    + destruct G3 as ([x3 ->] & _), G4 as ([x4 ->] & _), G5 as ([x5 ->] & _). now do 3 apply rows_extend.
    + constructor; [eapply grows_tree; [exact G5|]; eapply grows_tree; [exact G4|exact T3]|].
      constructor; [eapply grows_tree; [exact G5|exact T4]|].
      rewrite <- (app_nil_r F5). constructor; [exact T5|constructor].
  - apply grows_cell. eapply grows_app; [exact G1|]. eapply grows_app; [exact G2|]. eapply grows_app; [exact G3|]. eapply grows_app; [exact G4|exact G5].
Qed.
(** The outcome of a heap computation against that of its value. *)
Definition agrees {A B} (R : A -> B -> Prop) (m : M A) (n : M B) : Prop :=
  fst m = fst n /\ match snd m, snd n with Ok a, Ok b => R a b | Err e, Err e' => e = e' | _, _ => False end.
Lemma agrees_bind {A B C D} (R : A -> B -> Prop) (S : C -> D -> Prop) m n f g :
  agrees R m n -> (forall a b, snd m = Ok a -> snd n = Ok b -> R a b -> agrees S (f a) (g b)) -> agrees S (bind m f) (bind n g).
Proof.
  intros [H1 H2] H. destruct m as [w [a|e]], n as [w' [b|e']]; cbn in *; try contradiction; subst.
  - specialize (H a b eq_refl eq_refl H2). destruct (f a) as [w1 r1], (g b) as [w2 r2]. destruct H as [H3 H4]. cbn in *. subst. now split.
  - now split.
Qed.
Lemma agrees_refl {A} (m : M A) : agrees eq m m.
Proof. split; [reflexivity|]. now destruct (snd m). Qed.
Lemma get_json_heap_ok o all h r : data_ok o h r ->
  agrees (fun vh d => newly h (snd vh) (fst vh) (PDict d)) (get_json_heap o all h) (get_json (o_link o) all).
Proof.
  intros Hd. assert (Hr : (r < length h)%nat) by (eapply nth_error_lt; apply Hd).
  unfold get_json_heap, get_json, full_json. cbv zeta.
  rewrite !bind_assoc. apply agrees_bind with eq; [apply agrees_refl|]. intros hd ? _ _ <-.
  rewrite bind_assoc.
  apply agrees_bind with (fun (t : option dict) rs => rs = match t with Some d => [("target"%string, PDict d)] | None => [] end).
  { destruct (l_targets (o_link o)) as [t|].
    - apply agrees_bind with eq; [apply agrees_refl|]. intros d ? _ _ <-. now split.
    - now split. }
  intros t ? _ _ ->. rewrite bind_assoc. apply agrees_bind with eq; [apply agrees_refl|]. intros i ? _ _ <-.
  rewrite bind_assoc. apply agrees_bind with eq; [apply agrees_refl|]. intros e ? _ _ <-.
  rewrite bind_ret_l.
  destruct (full_heap_ok o hd t i e h r Hd Hr) as (F & T & G).
  pose proof (grows_newly _ _ _ _ _ T G) as N. unfold full_heap in N.
  destruct (alloc (PDict hd) h) as [hdv h1]. destruct (match t with Some d => _ | None => _ end) as [tv h2].
  destruct (alloc (PDict i) h2) as [iv h3]. destruct (data_as_dict o h3) as [dv h4]. destruct (alloc (PDict e) h4) as [ev h5].
  cbn [fst snd] in N. split; [reflexivity|]. cbn [snd fst ret].
  change (string_data_as_dict (l_string_data (o_link o))) with (sd_data (l_string_data (o_link o))).
  fold (full_dict (o_link o) hd t i e). destruct all; [exact N|]. rewrite <- prune_places_ok. now apply newly_prune.
Qed.

(** ** Texts *)
Lemma footprint_length h v p F : tree h v p F -> NoDup F -> (length F <= length h)%nat.
Proof.
  intros T N. rewrite <- (seq_length (length h) 0). apply NoDup_incl_length; [exact N|]. intros r Hr. apply in_seq.
  pose proof (proj1 (bounds_all h) _ _ _ T r Hr). lia.
Qed.
Lemma all_some_map {A} (l : list A) : all_some (map Some l) = Some l.
Proof. induction l as [|x l IH]; [reflexivity|]. cbn. now rewrite IH. Qed.
Lemma read_tree h :
  (forall v p F, tree h v p F -> forall n, (length F < n)%nat -> read n h v = Some p)
  /\ (forall vs ps F, trees h vs ps F -> forall n, (length F < n)%nat -> map (read n h) vs = map Some ps)
  /\ (forall ds d F, rows h ds d F -> forall n, (length F < n)%nat ->
        map (fun e => option_map (pair (fst e)) (read n h (snd e))) ds = map Some d).
Proof.
  apply tree_ind3; intros; try reflexivity; try (destruct n; [lia|reflexivity]).
  - destruct n as [|n]; [lia|]. cbn [read]. rewrite H, H1 by (cbn in H2; lia). now rewrite all_some_map.
  - destruct n as [|n]; [lia|]. cbn [read]. rewrite H, H1 by (cbn in H2; lia). now rewrite all_some_map.
  - rewrite app_length in H3. cbn [map]. now rewrite H0, H2 by lia.
  - rewrite app_length in H3. cbn [map fst snd]. now rewrite H0, H2 by lia.
Qed.
Lemma read_newly h0 h v p : newly h0 h v p -> read_all h v = Some p.
Proof.
  intros ((F & T & N & _) & _). apply (proj1 (read_tree h) _ _ _ T). pose proof (footprint_length _ _ _ _ T N). lia.
Qed.
Lemma print_json_heap_ok o all h r : data_ok o h r ->
  agrees (fun th t => fst th = t /\ (length h <= length (snd th))%nat /\ forall r, (r < length h)%nat -> nth_error (snd th) r = nth_error h r)
    (print_json_heap o all h) (d <- get_json (o_link o) all ;; ret (print_json_text d)).
Proof.
  intros Hd. unfold print_json_heap. eapply agrees_bind; [eapply get_json_heap_ok, Hd|]. intros [v h'] d _ _ N. cbn [fst snd] in N.
  rewrite (read_newly _ _ _ _ N). split; [reflexivity|]. cbn. split; [reflexivity|]. apply N.
Qed.

Lemma hget_rows h ds d F k : rows h ds d F ->
  match hget k ds with
  | Some x => exists p G, tree h x p G /\ dget k d = Some p
  | None => dget k d = None
  end.
Proof.
  induction 1 as [|k' v p vs ps F G T _ IH]; [reflexivity|]. cbn [hget dget]. destruct (String.eqb k k'); [now exists p, F|exact IH].
Qed.
Lemma rows_hpop h ds d F k : rows h ds d F -> NoDup F ->
  exists G, rows h (hpop k ds) (dpop k d) G /\ NoDup G /\ incl G F /\ (length G <= length F)%nat.
Proof.
  induction 1 as [|k' v p vs ps F G T R IH]; intros N; [exists []; repeat split; [constructor|constructor|intros ? []|lia]|].
  apply NoDup_app_inv in N as (NF & NG & D). cbn [hpop dpop]. destruct (String.eqb k k').
  - exists G. repeat split; [exact R|exact NG|now apply incl_appr, incl_refl|rewrite app_length; lia].
  - destruct (IH NG) as (G' & R' & N' & I' & L'). exists (F ++ G'). split; [now constructor|]. split.
    + apply NoDup_app; [exact NF|exact N'|]. intros x Hx Hx'. apply (D x Hx), I', Hx'.
    + split; [|rewrite !app_length; lia]. apply incl_app; [apply incl_appl, incl_refl|now apply incl_appr].
Qed.
Lemma map_dpop k d : dpop k (map (on_value nice) d) = map (on_value nice) (dpop k d).
Proof. induction d as [|[k' v] d IH]; [reflexivity|]. cbn [map on_value fst snd dpop]. destruct (String.eqb k k'); [reflexivity|]. cbn [map on_value fst snd]. now rewrite IH. Qed.
Lemma key_of_tree h v p F : tree h v p F -> key_of (match v with HStr t => PStr t | _ => PNone end) = key_of p.
Proof. now destruct 1. Qed.

Definition nice_row (n : nat) := fun '(rows, h) (e : string * hval) =>
  let '(x, h) := nice_heap n false (snd e) h in (rows ++ [option_map (pair (fst e)) x], h : heap).
Definition nice_elem (n : nat) := fun '(xs, h) v => let '(x, h) := nice_heap n false v h in (xs ++ [x], h : heap).
Definition same_but (F : list nat) (h h' : heap) : Prop := length h' = length h /\ forall r, ~ In r F -> nth_error h' r = nth_error h r.
Lemma same_but_refl F h : same_but F h h.
Proof. now split. Qed.
Lemma same_but_app F G h h1 h2 : same_but F h h1 -> same_but G h1 h2 -> same_but (F ++ G) h h2.
Proof. intros [L1 A1] [L2 A2]. split; [congruence|]. intros r Hr. rewrite in_app_iff in Hr. rewrite A2, A1 by tauto. reflexivity. Qed.
Lemma same_but_incl F G h h' : incl F G -> same_but F h h' -> same_but G h h'.
Proof. intros I [L A]. split; [exact L|]. intros r Hr. apply A. intros Hf. apply Hr, I, Hf. Qed.
Definition niced n := forall up h v p F, tree h v p F -> NoDup F -> (length F < n)%nat ->
  fst (nice_heap n up v h) = Some (make_keys_nice up p) /\ same_but F h (snd (nice_heap n up v h)).
Lemma nice_elems n : niced n -> forall vs ps h F, trees h vs ps F -> NoDup F -> (length F < n)%nat -> forall acc,
  fst (fold_left (nice_elem n) vs (acc, h)) = acc ++ map Some (map (make_keys_nice false) ps)
  /\ same_but F h (snd (fold_left (nice_elem n) vs (acc, h))).
Proof.
  intros IH. induction vs as [|v vs IHl]; intros ps h F T N L acc; inversion T as [|? p ? ps' F' G Tv Ts]; subst.
  - cbn. rewrite app_nil_r. split; [reflexivity|apply same_but_refl].
  - apply NoDup_app_inv in N as (NF & NG & D). rewrite app_length in L. cbn [fold_left]. unfold nice_elem at 2 4.
    destruct (IH false h v p F' Tv NF) as [E S]; [lia|]. destruct (nice_heap n false v h) as [x h1]. cbn [fst snd] in E, S. subst x.
    assert (Ts' : trees h1 vs ps' G). { apply (trees_frame h _ _ _ Ts). intros r Hr. apply S. intros Hf. exact (D r Hf Hr). }
    destruct (IHl ps' h1 G Ts' NG ltac:(lia) (acc ++ [Some (make_keys_nice false p)])) as [E2 S2]. split.
    + rewrite E2. rewrite <- app_assoc. reflexivity.
    + eapply same_but_app; eassumption.
Qed.
Lemma nice_rows n : niced n -> forall ds d h F, rows h ds d F -> NoDup F -> (length F < n)%nat -> forall acc,
  fst (fold_left (nice_row n) ds (acc, h)) = acc ++ map Some (map (on_value nice) d)
  /\ same_but F h (snd (fold_left (nice_row n) ds (acc, h))).
Proof.
  intros IH. induction ds as [|[k v] ds IHl]; intros d h F T N L acc; inversion T as [|? ? p ? d' F' G Tv Ts]; subst.
  - cbn. rewrite app_nil_r. split; [reflexivity|apply same_but_refl].
  - apply NoDup_app_inv in N as (NF & NG & D). rewrite app_length in L. cbn [fold_left]. unfold nice_row at 2 4. cbn [fst snd].
    destruct (IH false h v p F' Tv NF) as [E S]; [lia|]. destruct (nice_heap n false v h) as [x h1]. cbn [fst snd] in E, S. subst x.
    assert (Ts' : rows h1 ds d' G). { apply (rows_frame h _ _ _ Ts). intros r Hr. apply S. intros Hf. exact (D r Hf Hr). }
    destruct (IHl d' h1 G Ts' NG ltac:(lia) (acc ++ [option_map (pair k) (Some (make_keys_nice false p))])) as [E2 S2]. split.
    + rewrite E2. rewrite <- app_assoc. reflexivity.
    + eapply same_but_app; eassumption.
Qed.
Lemma nice_tree n : niced n.
Proof.
  induction n as [|n IH]; intros up h v p F T N L; [lia|].
  destruct T as [| | | |r vs ps F Hr Ts|r ds d F Hr Ts]; try (split; [reflexivity|apply same_but_refl]).
  - cbn [nice_heap]. rewrite Hr. fold (nice_elem n). inversion N as [|? ? _ N']; subst.
    destruct (nice_elems n IH vs ps h F Ts N' ltac:(cbn in L; lia) []) as [E S]. destruct (fold_left (nice_elem n) vs ([], h)) as [xs h'].
    cbn [fst snd] in *. subst xs. rewrite app_nil_l, all_some_map. split; [reflexivity|]. eapply same_but_incl; [|exact S]. intros x Hx. now right.
  - cbn [nice_heap]. rewrite Hr. fold (nice_row n). inversion N as [|? ? Nr N']; subst. rewrite nice_dict.
    pose proof (hget_rows _ _ _ _ "class" Ts) as HC. destruct (hget "class" ds) as [key|].
    + destruct HC as (p & G & Tk & ->). destruct (rows_hpop _ _ _ _ "class" Ts N') as (G' & R' & N2 & I' & L').
      assert (R2 : rows (put h r (CDict (hpop "class" ds))) (hpop "class" ds) (dpop "class" d) G').
      { apply (rows_frame h _ _ _ R'). intros x Hx. apply put_other. intros ->. apply Nr, I', Hx. }
      destruct (nice_rows n IH _ _ _ _ R2 N2 ltac:(cbn in L; lia) []) as [E S].
      destruct (fold_left (nice_row n) (hpop "class" ds) ([], put h r (CDict (hpop "class" ds)))) as [xs h']. cbn [fst snd] in *. subst xs.
      rewrite app_nil_l, all_some_map. split.
      * rewrite map_dpop, fold_put, (key_of_tree _ _ _ _ Tk). reflexivity.
      * apply (same_but_app [r] F _ (put h r (CDict (hpop "class" ds)))).
        -- split; [apply put_length|]. intros x Hx. apply put_other. intros ->. apply Hx. now left.
        -- eapply same_but_incl; [exact I'|exact S].
    + rewrite HC. destruct (nice_rows n IH _ _ _ _ Ts N' ltac:(cbn in L; lia) []) as [E S].
      destruct (fold_left (nice_row n) ds ([], h)) as [xs h']. cbn [fst snd] in *. subst xs.
      rewrite app_nil_l, all_some_map. split; [now rewrite fold_put|]. eapply same_but_incl; [|exact S]. intros x Hx. now right.
Qed.
Lemma print_readable_heap_ok dump o all h r : data_ok o h r ->
  agrees (fun th t => fst th = t /\ (length h <= length (snd th))%nat /\ forall r, (r < length h)%nat -> nth_error (snd th) r = nth_error h r)
    (print_readable_heap dump o all h) (print_lnk_file dump (o_link o) all).
Proof.
  intros Hd. unfold print_readable_heap, print_lnk_file, yaml_tree. rewrite bind_assoc.
  eapply agrees_bind; [eapply get_json_heap_ok, Hd|]. intros [v h1] d _ _ N1. cbn [fst snd] in N1.
  apply (newly_update _ _ _ _ _ _ [PKey "header"] (compat_pop "r_hotkey")) in N1.
  rewrite bind_assoc. apply agrees_bind with eq; [apply agrees_refl|]. intros lf ? _ _ <-.
  apply (newly_update _ _ _ _ _ _ [PKey "header"] (compat_set "link_flags" lf)) in N1.
  rewrite bind_assoc. apply agrees_bind with eq; [apply agrees_refl|]. intros ff ? _ _ <-.
  apply (newly_update _ _ _ _ _ _ [PKey "header"] (compat_set "file_flags" ff)) in N1.
  rewrite !upd_upd in N1. 
  match type of N1 with newly _ ?x _ _ => set (h4 := x) in * end.
  match type of N1 with newly _ _ _ ?x => set (p4 := x) in * end.
  cbv zeta. match goal with |- context[make_keys_nice true ?x] => assert (E4 : p4 = x) end.
  { subst p4. cbn [upd]. apply (f_equal PDict). apply dupd_ext. intros x. apply upd_nil_on_dict. }
  rewrite <- E4. clearbody h4 p4. destruct N1 as ((F & T & ND & B) & L & O).
  pose proof (footprint_length _ _ _ _ T ND) as LF.
  destruct (nice_tree (S (length h4)) true h4 v p4 F T ND ltac:(lia)) as [En Sn].
  destruct (nice_heap (S (length h4)) true v h4) as [nice h5]. cbn [fst snd] in *. subst nice.
  destruct (make_keys_nice true p4) as [| | | | |nice]; try now split.
  destruct (dget _ _) as [[| | | | |hd]|]; try now split. split; [reflexivity|]. cbn. split; [reflexivity|].
  destruct Sn as [L5 S5]. split; [lia|]. intros x Hx. rewrite S5; [now apply O|]. intros Hf. apply B in Hf. lia.
Qed.
