(** * Two runs with different code pages (C47) *)
From Verif Require Import Lemmas PyTime Codec Utils Sha256 Header StringData Targets Info Extra LnkFile.
From Verif Require Import Spec SpecHeader SpecTime SpecText SpecItems SpecExtra SpecInfo SpecReport SpecPages.
From Verif Require Import OutcomeProofs LayoutProofs CoreProofs HeaderProofs ApiProofs TextProofs ConstructProofs StringProofs
  ItemProofs InfoProofs ReportProofs.

Section Pages.
  Variables cp1 cp2 : cp_arg.
  Hypothesis U1 : usable cp1.
  Hypothesis U2 : usable cp2.

  (** The same error, or related values. *)
  Definition both {A} (R : A -> A -> Prop) (m1 m2 : M A) : Prop :=
    match snd m1, snd m2 with
    | Ok a, Ok b => R a b
    | Err e, Err e' => e = e'
    | _, _ => False
    end.
  Lemma both_ret {A} (R : A -> A -> Prop) a b : R a b -> both R (ret a) (ret b).
  Proof. intros H. exact H. Qed.
  Lemma both_same {A} (R : A -> A -> Prop) m : (forall a, R a a) -> both R m m.
  Proof. intros H. unfold both. destruct (snd m); [apply H|reflexivity]. Qed.
  Lemma both_bind {A B} (Q : A -> A -> Prop) (R : B -> B -> Prop) m1 m2 f1 f2 :
    both Q m1 m2 -> (forall a b, Q a b -> both R (f1 a) (f2 b)) -> both R (bind m1 f1) (bind m2 f2).
  Proof.
    unfold both. destruct m1 as [w1 [a|e]], m2 as [w2 [b|e']]; cbn [snd bind]; try contradiction.
    - intros HQ HF. specialize (HF a b HQ). destruct (f1 a) as [v1 r1], (f2 b) as [v2 r2]. exact HF.
    - intros -> _. reflexivity.
  Qed.
  (** The first part does not depend on the code page. *)
  Lemma both_then {A B} (R : B -> B -> Prop) (m : M A) f1 f2 :
    (forall a, both R (f1 a) (f2 a)) -> both R (bind m f1) (bind m f2).
  Proof.
    intros H. apply (both_bind eq); [now apply both_same|]. intros a b ->. apply H.
  Qed.
  Lemma both_try {A} (R : A -> A -> Prop) m1 m2 sel h1 h2 :
    both R m1 m2 -> both R h1 h2 -> both R (try_except m1 sel h1) (try_except m2 sel h2).
  Proof.
    unfold both, try_except. destruct m1 as [w1 [a|e]], m2 as [w2 [b|e']]; cbn [snd]; try contradiction; [auto|].
    intros -> H. destruct (sel e'); [|reflexivity]. destruct h1 as [v1 r1], h2 as [v2 r2]. exact H.
  Qed.

  Inductive alike : path -> pyval -> pyval -> Prop :=
  | alike_same p v : alike p v v
  | alike_text p v1 v2 : page_string p = true -> two_readings cp1 cp2 v1 v2 -> alike p v1 v2
  | alike_list p l1 l2 :
      length l1 = length l2 ->
      (forall n v1 v2, nth_error l1 n = Some v1 -> nth_error l2 n = Some v2 ->
                       alike (p ++ [Element (N.of_nat n)]) v1 v2) ->
      alike p (PList l1) (PList l2)
  | alike_dict p d1 d2 :
      Forall2 (fun e1 e2 => fst e1 = fst e2 /\ alike (p ++ [Key (fst e1)]) (snd e1) (snd e2)) d1 d2 ->
      alike p (PDict d1) (PDict d2).

  Definition entry_alike (p : path) (e1 e2 : string * pyval) : Prop :=
    fst e1 = fst e2 /\ alike (p ++ [Key (fst e1)]) (snd e1) (snd e2).
  Definition dict_alike (p : path) : dict -> dict -> Prop := Forall2 (entry_alike p).
  Lemma entry_same p e : entry_alike p e e.
  Proof. split; [reflexivity|constructor]. Qed.
  Lemma dict_same p d : dict_alike p d d.
  Proof. induction d; constructor; [apply entry_same|assumption]. Qed.
  Lemma dict_app p a1 a2 b1 b2 : dict_alike p a1 a2 -> dict_alike p b1 b2 -> dict_alike p (a1 ++ b1) (a2 ++ b2).
  Proof. apply Forall2_app. Qed.
  Definition texts_alike (t1 t2 : text) : Prop := exists body, t1 = decoded cp1 body /\ t2 = decoded cp2 body.
  (** The same text, or two readings. *)
  Definition maybe_alike (t1 t2 : text) : Prop := t1 = t2 \/ texts_alike t1 t2.
  Lemma alike_maybe p t1 t2 : page_string p = true -> maybe_alike t1 t2 -> alike p (PStr t1) (PStr t2).
  Proof. intros Hk [-> |(body & -> & ->)]; [constructor|]. apply alike_text; [exact Hk|]. now exists body. Qed.
  Definition opt_alike (o1 o2 : option text) : Prop :=
    match o1, o2 with Some a, Some b => maybe_alike a b | None, None => True | _, _ => False end.
  Lemma alike_opt p o1 o2 : page_string p = true -> opt_alike o1 o2 -> alike p (POpt PStr o1) (POpt PStr o2).
  Proof. destruct o1, o2; cbn [opt_alike POpt]; try contradiction; [apply alike_maybe|]. intros _ _. constructor. Qed.

  (** ** Reading strings *)
  Lemma field_decoded cp f : field_text cp f = decoded cp (before_nul f).
  Proof. unfold field_text, decoded. destruct (before_nul f); reflexivity. Qed.
  Lemma fields_alike f : maybe_alike (field_text cp1 f) (field_text cp2 f).
  Proof. right. exists (before_nul f). now rewrite !field_decoded. Qed.
  Lemma both_read f : both maybe_alike (read_string cp1 f) (read_string cp2 f).
  Proof. rewrite !read_string_field by assumption. apply fields_alike. Qed.
  Lemma both_chars p : both maybe_alike (chars_to_string cp1 p) (chars_to_string cp2 p).
  Proof.
    assert (H : forall cp, usable cp -> snd (chars_to_string cp p) = Ok (decoded cp p)).
    { intros cp Hu. unfold chars_to_string, decoded, page_text, page_of. destruct p as [|x p]; [reflexivity|].
      destruct cp as [|c|]; cbn [tp_codec]; [| |now destruct Hu];
        (destruct (strict _ _); [reflexivity|]; destruct (utf8_strict _); reflexivity). }
    unfold both. rewrite !H by assumption. right. now exists p.
  Qed.
  Definition strings_alike (i1 i2 : list (M text)) : Prop := Forall2 (both maybe_alike) i1 i2.
  Lemma both_strings f : strings_alike (read_strings cp1 f) (read_strings cp2 f).
  Proof. unfold read_strings. induction (split_nul [] f); constructor; [apply both_chars|assumption]. Qed.
  Lemma both_next i1 i2 : strings_alike i1 i2 ->
    both (fun r1 r2 => maybe_alike (fst r1) (fst r2) /\ strings_alike (snd r1) (snd r2)) (next_string i1) (next_string i2).
  Proof.
    intros [|m1 m2 j1 j2 H1 H2]; [reflexivity|]. cbn [next_string]. apply (both_bind maybe_alike); [exact H1|].
    intros a b Hab. apply both_ret. now split.
  Qed.

  Lemma both_weaken {A} (R S : A -> A -> Prop) m1 m2 : both R m1 m2 -> (forall a b, R a b -> S a b) -> both S m1 m2.
  Proof. unfold both. intros H HS. destruct (snd m1), (snd m2); auto. Qed.

  (** ** Items *)
  Definition item_place (p : path) : Prop := forall r, page_string (p ++ r) = item_string r.
  Lemma target_place i : item_place [Key "target"; Key "items"; Element i].
  Proof. intros r. reflexivity. Qed.
  Lemma shell_place i : item_place [Key "extra"; Key "SHELL_ITEM_IDENTIFIER_BLOCK"; Key "id_list"; Element i].
  Proof. intros r. reflexivity. Qed.

  Ltac entries_alike :=
    unfold dict_alike; repeat first [apply Forall2_nil | apply Forall2_cons]; try apply entry_same;
    (split; [reflexivity|]); cbn [fst snd].

  Lemma both_fs p rt : page_string (p ++ [Key "primary_name"]) = true ->
    both (dict_alike p) (fs_as_item cp1 rt) (fs_as_item cp2 rt).
  Proof.
    intros Hp. unfold fs_as_item. do 4 (apply both_then; intros ?).
    apply (both_bind maybe_alike).
    - unfold fs_primary_name. cbv zeta. apply both_then. intros [|]; [apply both_same; now left|apply both_read].
    - intros t1 t2 Ht. apply both_ret. cbn [app base_item]. entries_alike. now apply alike_maybe.
  Qed.
  Lemma both_mc p rt : item_place p -> both (dict_alike p) (mc_as_item cp1 rt) (mc_as_item cp2 rt).
  Proof.
    intros Hp. unfold mc_as_item. do 2 (apply both_then; intros ?). destruct a0.
    - apply (both_bind maybe_alike); [apply both_read|]. intros t1 t2 Ht. apply both_ret. cbn [app base_item].
      entries_alike. apply alike_maybe; [now rewrite Hp|assumption].
    - apply both_same. apply dict_same.
  Qed.
  Lemma both_cpl p rt : item_place p -> both (dict_alike p) (cpl_as_item cp1 rt) (cpl_as_item cp2 rt).
  Proof.
    intros Hp. unfold cpl_as_item. apply both_then. intros sg.
    apply (both_bind maybe_alike).
    { unfold cpl_file_path. cbv zeta. destruct (cpl_is_unicode rt); [apply both_same; now left|apply both_read]. }
    intros a1 a2 Ha. apply (both_bind maybe_alike).
    { unfold cpl_name_string. cbv zeta. apply both_then. intros o.
      destruct (cpl_is_unicode rt); [apply both_same; now left|apply both_read]. }
    intros b1 b2 Hb. apply (both_bind maybe_alike).
    { unfold cpl_comments. cbv zeta. apply both_then. intros o. destruct (o =? 0); [apply both_same; now left|].
      destruct (cpl_is_unicode rt); [apply both_same; now left|apply both_read]. }
    intros c1 c2 Hc. apply both_ret. cbn [app base_item].
    entries_alike; (apply alike_maybe; [now rewrite Hp|assumption]).
  Qed.
  Lemma both_uf p rt : item_place p -> both (dict_alike p) (uf_as_item cp1 rt) (uf_as_item cp2 rt).
  Proof.
    intros Hp. unfold uf_as_item. cbv zeta. apply both_then. intros inner.
    apply (both_bind (dict_alike (p ++ [Key "file_entry"]))).
    { apply both_fs. rewrite <- app_assoc. now rewrite Hp. }
    intros d1 d2 Hd. do 4 (apply both_then; intros ?). apply both_ret. cbn [app base_item].
    entries_alike. now apply alike_dict.
  Qed.

  Definition targets_alike (t1 t2 : target) : Prop :=
    t_class t1 = t_class t2 /\ t_raw t1 = t_raw t2 /\ t_raw_target t1 = t_raw_target t2
    /\ maybe_alike (t_location t1) (t_location t2)
    /\ opt_alike (t_description t1) (t_description t2) /\ opt_alike (t_comments t1) (t_comments t2).
  Lemma both_nl rt : both (fun s1 s2 => maybe_alike (fst (fst s1)) (fst (fst s2))
      /\ opt_alike (snd (fst s1)) (snd (fst s2)) /\ opt_alike (snd s1) (snd s2))
    (nl_init_strings cp1 rt) (nl_init_strings cp2 rt).
  Proof.
    unfold nl_init_strings. cbv zeta.
    eapply both_bind; [apply both_next, both_strings|]. intros [t1 i1] [t2 i2] [Ht Hi]. cbn [fst snd] in *.
    apply both_then. intros hd.
    assert (step : forall (c : bool) j1 j2, strings_alike j1 j2 ->
      both (fun r1 r2 : option text * list (M text) => opt_alike (fst r1) (fst r2) /\ strings_alike (snd r1) (snd r2))
        (if c then r <- next_string j1 ;; ret (Some (fst r), snd r) else ret (None, j1))
        (if c then r <- next_string j2 ;; ret (Some (fst r), snd r) else ret (None, j2))).
    { intros [|] j1 j2 Hj; [|apply both_ret; split; [exact I|exact Hj]].
      eapply both_bind; [apply both_next, Hj|]. intros r1 r2 [H1 H2]. apply both_ret. now split. }
    eapply both_bind; [apply (step hd), Hi|]. intros [d1 j1] [d2 j2] [Hd Hj]. cbn [fst snd] in *.
    apply both_then. intros hc.
    eapply both_bind; [apply (step hc), Hj|]. intros r1 r2 [Hc _]. apply both_ret. cbn [fst snd]. auto.
  Qed.
  Lemma both_init c raw : both targets_alike (target_init c cp1 raw) (target_init c cp2 raw).
  Proof.
    unfold target_init. apply both_then. intros rt.
    assert (same : forall t, targets_alike t t).
    { intros t. repeat split; [now left|destruct (t_description t)|destruct (t_comments t)]; cbn; try exact I; now left. }
    destruct c; try (apply both_same, same).
    eapply both_bind; [apply both_nl|]. intros [[a1 b1] c1] [[a2 b2] c2] (Ha & Hb & Hc). apply both_ret. now repeat split.
  Qed.
  Lemma both_item p t1 t2 : item_place p -> targets_alike t1 t2 ->
    both (dict_alike p) (as_item cp1 t1) (as_item cp2 t2).
  Proof.
    intros Hp (Hc & Hr & Ht & Hl & Hd & Hm). unfold as_item. rewrite <- Hc, <- Hr, <- Ht.
    destruct (t_class t1); try (apply both_same, dict_same).
    - now apply both_cpl.
    - now apply both_mc.
    - apply both_fs. now rewrite Hp.
    - unfold nl_as_item. cbv zeta. rewrite <- Ht. do 2 (apply both_then; intros ?). apply both_ret. cbn [app base_item].
      entries_alike; [apply alike_maybe|apply alike_opt|apply alike_opt]; try assumption; now rewrite Hp.
    - now apply both_uf.
  Qed.
  Lemma both_generator {A} (R : A -> A -> Prop) m1 m2 : both R m1 m2 -> both R (in_generator m1) (in_generator m2).
  Proof.
    unfold both, in_generator. destruct m1 as [w1 [a|e]], m2 as [w2 [b|e']]; cbn [snd]; try contradiction; [auto|].
    intros ->. destruct e'; reflexivity.
  Qed.
  Lemma both_next_target rest : both (fun r1 r2 =>
      match r1, r2 with
      | Some (t1, s1), Some (t2, s2) => targets_alike t1 t2 /\ s1 = s2
      | None, None => True
      | _, _ => False
      end) (next_target cp1 rest) (next_target cp2 rest).
  Proof.
    unfold next_target. apply both_generator. destruct rest as [|x rest]; [apply both_ret; exact I|].
    apply both_then. intros [c|]; [|apply both_ret; exact I].
    eapply both_bind; [apply both_init|]. intros t1 t2 Ht. apply both_then. intros size. apply both_ret. now split.
  Qed.
  Definition items_alike (p : path) (l1 l2 : list pyval) : Prop :=
    Forall2 (fun v1 v2 => forall i, alike (p ++ [Element i]) v1 v2) l1 l2.
  Lemma both_items p : (forall i, item_place (p ++ [Element i])) -> forall fuel rest,
    both (items_alike p) (items_loop fuel cp1 rest) (items_loop fuel cp2 rest).
  Proof.
    intros Hp. induction fuel as [|fuel IH]; intros rest; [reflexivity|]. cbn [items_loop].
    eapply both_bind; [apply both_next_target|]. intros [[t1 s1]|] [[t2 s2]|]; try contradiction; [|intros _; constructor].
    intros [Ht <-]. apply (both_bind (items_alike p)).
    - apply both_try.
      + apply (both_bind (fun d1 d2 => forall i, dict_alike (p ++ [Element i]) d1 d2)).
        * assert (H : forall i, both (dict_alike (p ++ [Element i])) (as_item cp1 t1) (as_item cp2 t2)).
          { intros i. now apply both_item. }
          unfold both in *. destruct (snd (as_item cp1 t1)), (snd (as_item cp2 t2)); try apply (H 0). exact H.
        * intros d1 d2 Hd. apply both_ret. constructor; [|constructor]. intros i. apply alike_dict. exact (Hd i).
      + destruct Ht as [Hc _]. rewrite Hc. apply both_same. intros l. induction l; constructor; [constructor|assumption].
    - intros a1 a2 Ha. apply (both_bind (items_alike p)); [apply IH|]. intros b1 b2 Hb. apply both_ret. now apply Forall2_app.
  Qed.
  Lemma Forall2_length {A B} (R : A -> B -> Prop) l1 l2 : Forall2 R l1 l2 -> length l1 = length l2.
  Proof. intros H. induction H; cbn; congruence. Qed.
  Lemma Forall2_nth {A B} (R : A -> B -> Prop) l1 l2 : Forall2 R l1 l2 ->
    forall n a b, nth_error l1 n = Some a -> nth_error l2 n = Some b -> R a b.
  Proof.
    intros H. induction H as [|x y l1 l2 Hxy Hl IH]; intros n a b Ha Hb; [now destruct n|].
    destruct n as [|n]; cbn [nth_error] in *; [congruence|]. eapply IH; eassumption.
  Qed.
  Lemma nth_error_ext {A} (l1 : list A) : forall l2, length l1 = length l2 ->
    (forall n, nth_error l1 n = nth_error l2 n) -> l1 = l2.
  Proof.
    induction l1 as [|x l1 IH]; intros [|y l2] Hl Hn; try discriminate; [reflexivity|].
    pose proof (Hn 0%nat) as H0. cbn in H0. injection H0 as ->. f_equal. apply IH; [cbn in Hl; congruence|].
    intros n. exact (Hn (S n)).
  Qed.
  Lemma items_list p l1 l2 : items_alike p l1 l2 -> alike p (PList l1) (PList l2).
  Proof.
    intros H. apply alike_list; [eapply Forall2_length; eassumption|]. intros n a b Ha Hb.
    exact (Forall2_nth _ _ _ H n a b Ha Hb _).
  Qed.

  (** ** Dictionaries *)
  Lemma both_fields p rows1 rows2 :
    Forall2 (fun r1 r2 => fst r1 = fst r2 /\  both (alike (p ++ [Key (fst r1)])) (snd r1) (snd r2)) rows1 rows2 ->
    both (dict_alike p) (fields rows1) (fields rows2).
  Proof.
    intros H. induction H as [|[k1 m1] [k2 m2] r1 r2 [Hk Hm] Hr IH]; [apply both_ret; constructor|].
    cbn [fields fst snd] in *. subst k2. eapply both_bind; [exact Hm|]. intros v1 v2 Hv.
    eapply both_bind; [exact IH|]. intros d1 d2 Hd. apply both_ret. constructor; [now split|exact Hd].
  Qed.
  Lemma both_value p m : both (alike p) m m.
  Proof. apply both_same. constructor. Qed.
  Ltac rows_alike :=
    apply both_fields; unfold base_fields; cbn [app]; repeat first [apply Forall2_nil | apply Forall2_cons];
    (split; [reflexivity|]); cbn [fst snd]; try apply both_value.
  Lemma both_str_field p i j raw : page_string p = true -> both (alike p) (str_field cp1 i j raw) (str_field cp2 i j raw).
  Proof.
    intros Hp. unfold str_field. apply (both_bind maybe_alike); [apply both_read|]. intros t1 t2 Ht. apply both_ret.
    now apply alike_maybe.
  Qed.
  Lemma both_extra e :
    both (dict_alike [Key "extra"; Key (extra_name (ex_class e))]) (extra_as_dict cp1 e) (extra_as_dict cp2 e).
  Proof.
    unfold extra_as_dict. cbv zeta. destruct (ex_class e); try (apply both_same, dict_same).
    - unfold environment_dict. rows_alike. now apply both_str_field.
    - unfold tracker_dict. rows_alike. now apply both_str_field.
    - unfold darwin_dict. rows_alike. now apply both_str_field.
    - unfold environment_dict. rows_alike. now apply both_str_field.
    - unfold shim_dict. rows_alike. apply (both_bind maybe_alike); [apply both_read|]. intros t1 t2 Ht. apply both_ret.
      now apply alike_maybe.
    - unfold shell_item_dict. rows_alike. apply both_then. intros size.
      eapply both_bind; [unfold items_of; apply (both_items [Key "extra"; Key "SHELL_ITEM_IDENTIFIER_BLOCK"; Key "id_list"]);
                         intros i; apply shell_place|].
      intros l1 l2 Hl. apply both_ret. now apply items_list.
  Qed.
  Lemma alike_dset p k v1 v2 d1 d2 : alike (p ++ [Key k]) v1 v2 -> dict_alike p d1 d2 ->
    dict_alike p (dset k v1 d1) (dset k v2 d2).
  Proof.
    intros Hv H. induction H as [|[k1 w1] [k2 w2] d1 d2 [Hk Hw] Hd IH]; [constructor; [now split|constructor]|].
    cbn [dset fst snd] in *. subst k2. destruct (String.eqb k k1) eqn:E.
    - apply String.eqb_eq in E. subst k1. constructor; [now split|exact Hd].
    - constructor; [now split|exact IH].
  Qed.
  Lemma alike_dmem p k d1 d2 : dict_alike p d1 d2 -> dmem k d1 = dmem k d2.
  Proof.
    intros H. unfold dmem. induction H as [|[k1 w1] [k2 w2] d1 d2 [Hk Hw] Hd IH]; [reflexivity|].
    cbn [dget fst snd] in *. subst k2. destruct (String.eqb k k1); [reflexivity|exact IH].
  Qed.
  Lemma alike_dupd p k f g d1 d2 : (forall v1 v2, alike (p ++ [Key k]) v1 v2 -> alike (p ++ [Key k]) (f v1) (g v2)) ->
    dict_alike p d1 d2 -> dict_alike p (dupd k f d1) (dupd k g d2).
  Proof.
    intros Hv H. induction H as [|[k1 w1] [k2 w2] d1 d2 [Hk Hw] Hd IH]; [constructor|].
    cbn [dupd fst snd] in *. subst k2. destruct (String.eqb k k1) eqn:E.
    - apply String.eqb_eq in E. subst k1. constructor; [split; [reflexivity|now apply Hv]|exact Hd].
    - constructor; [now split|exact IH].
  Qed.
  Lemma alike_list_inv p v1 v2 : page_string p = false -> alike p v1 v2 ->
    match v1, v2 with
    | PList l1, PList l2 =>
      length l1 = length l2
      /\ (forall n a b, nth_error l1 n = Some a -> nth_error l2 n = Some b -> alike (p ++ [Element (N.of_nat n)]) a b)
    | PDict d1, PDict d2 => dict_alike p d1 d2
    | _, _ => v1 = v2
    end.
  Proof.
    intros Hp H. destruct H as [p v|p v1 v2 H _|p l1 l2 H1 H2|p d1 d2 H]; [|congruence|now split|exact H].
    destruct v; try reflexivity; [|apply dict_same]. split; [reflexivity|]. intros n a b Ha Hb.
    rewrite Ha in Hb. injection Hb as <-. constructor.
  Qed.
  Lemma both_add d1 d2 e : dict_alike [Key "extra"] d1 d2 ->
    both (dict_alike [Key "extra"]) (add_block cp1 d1 e) (add_block cp2 d2 e).
  Proof.
    intros Hd. unfold add_block. cbv zeta. pose proof (both_extra e) as HE.
    assert (H : both (dict_alike [Key "extra"])
      (try_except (d <- extra_as_dict cp1 e ;; ret (dset (extra_name (ex_class e)) (PDict d) d1))
         is_struct_or_value_error (warn (WExtraBlock (extra_name (ex_class e))) ;;; ret d1))
      (try_except (d <- extra_as_dict cp2 e ;; ret (dset (extra_name (ex_class e)) (PDict d) d2))
         is_struct_or_value_error (warn (WExtraBlock (extra_name (ex_class e))) ;;; ret d2))).
    { apply both_try; [|apply both_then; intros _; now apply both_ret].
      eapply both_bind; [exact HE|]. intros a1 a2 Ha. apply both_ret. apply alike_dset; [now apply alike_dict|assumption]. }
    destruct (ex_class e) eqn:Ec; try exact H. clear H. rewrite (alike_dmem _ _ _ _ Hd).
    set (n := extra_name UnknownExtra) in *.
    assert (H : dict_alike [Key "extra"] (if dmem n d2 then d1 else dset n (PList []) d1)
                                         (if dmem n d2 then d2 else dset n (PList []) d2)).
    { destruct (dmem n d2); [assumption|]. apply alike_dset; [constructor|assumption]. }
    apply both_try; [|apply both_then; intros _; now apply both_ret].
    unfold extra_as_dict. cbv zeta. rewrite Ec. apply both_then. intros a. apply both_ret.
    apply alike_dupd; [|exact H]. intros v1 v2 Hv. pose proof (alike_list_inv ([Key "extra"] ++ [Key n]) v1 v2 eq_refl Hv) as HI.
    destruct v1, v2; try discriminate HI; try exact Hv. destruct HI as [Hl HI]. apply alike_list.
    - rewrite !app_length. cbn. lia.
    - intros i x y Hx Hy. destruct (Nat.lt_ge_cases i (length l)) as [Hi|Hi].
      + rewrite nth_error_app1 in Hx by assumption. rewrite nth_error_app1 in Hy by lia. now apply HI.
      + rewrite nth_error_app2 in Hx by assumption. rewrite nth_error_app2 in Hy by lia. rewrite <- Hl in Hy.
        rewrite Hx in Hy. injection Hy as <-. constructor.
  Qed.
  Lemma both_extras l : forall d1 d2, dict_alike [Key "extra"] d1 d2 ->
    both (dict_alike [Key "extra"]) (extras_loop cp1 d1 l) (extras_loop cp2 d2 l).
  Proof.
    induction l as [|e l IH]; intros d1 d2 Hd; [now apply both_ret|]. cbn [extras_loop].
    eapply both_bind; [apply both_add, Hd|]. intros a1 a2 Ha. now apply IH.
  Qed.

  (** ** LinkInfo *)
  Hypothesis V1 : visible cp1.
  Hypothesis V2 : visible cp2.
  Lemma ucons_some c o : ucons c o <> Some [].
  Proof. destruct o; discriminate. Qed.
  Lemma utf8_some body : body <> [] -> utf8_strict body <> Some [].
  Proof.
    destruct body as [|a r]; [easy|]. intros _. cbn [utf8_strict].
    repeat match goal with
           | |- ucons _ _ <> _ => apply ucons_some
           | |- None <> _ => discriminate
           | |- (if ?c then _ else _) <> _ => destruct c
           | |- match ?l with [] => _ | _ :: _ => _ end <> _ => destruct l
           end.
  Qed.
  Lemma visible_decoded cp body : visible cp -> decoded cp body = [] <-> body = [].
  Proof.
    intros HV. destruct body as [|x r]; [easy|]. split; [|discriminate]. intros H. exfalso.
    cbn [decoded] in H. destruct (HV (x :: r)) as [H1 H2]; [discriminate|]. unfold page_text in H.
    destruct (strict _ _) as [t|]; [subst t; now destruct H1|].
    destruct (utf8_strict (x :: r)) eqn:E; [|now apply H2].
    subst t. revert E. now apply utf8_some.
  Qed.
  Lemma truthy_alike o1 o2 : opt_alike o1 o2 -> truthy_text o1 = truthy_text o2.
  Proof.
    destruct o1 as [a|], o2 as [b|]; cbn [opt_alike]; try contradiction; [|reflexivity].
    intros [-> |(body & -> & ->)]; [reflexivity|]. destruct body as [|x r]; [reflexivity|].
    pose proof (visible_decoded cp1 (x :: r) V1) as [H1 _]. pose proof (visible_decoded cp2 (x :: r) V2) as [H2 _].
    destruct (decoded cp1 (x :: r)); [now specialize (H1 eq_refl)|].
    destruct (decoded cp2 (x :: r)); [now specialize (H2 eq_refl)|]. reflexivity.
  Qed.
  Ltac reads := eapply both_bind; [apply both_read|]; intros ? ? ?; now apply both_ret.
  Lemma both_base raw : both opt_alike (local_base_path cp1 raw) (local_base_path cp2 raw).
  Proof. unfold local_base_path. apply both_then. intros o. destruct (o =? 0); [now apply both_ret|]. apply both_then. intros n. reads. Qed.
  Lemma both_suffix raw : both opt_alike (common_path_suffix cp1 raw) (common_path_suffix cp2 raw).
  Proof. unfold common_path_suffix. apply both_then. intros o. destruct (o =? 0); [now apply both_ret|]. apply both_then. intros n. reads. Qed.
  Lemma both_label raw : both opt_alike (volume_label cp1 raw) (volume_label cp2 raw).
  Proof. unfold volume_label. apply both_then. intros [|]; [now apply both_ret|]. do 2 (apply both_then; intros ?). reads. Qed.
  Lemma both_net raw : both opt_alike (net_name cp1 raw) (net_name cp2 raw).
  Proof. unfold net_name. apply both_then. intros n. destruct (20 <? n); [now apply both_ret|]. do 2 (apply both_then; intros ?). reads. Qed.
  Lemma both_device raw : both opt_alike (device_name cp1 raw) (device_name cp2 raw).
  Proof. unfold device_name. apply both_then. intros n. destruct (20 <? n); [now apply both_ret|]. do 2 (apply both_then; intros ?). reads. Qed.
  Lemma both_optional p m1 m2 : page_string p = true -> both opt_alike m1 m2 ->
    both (alike p) (t <- m1 ;; ret (POpt PStr t)) (t <- m2 ;; ret (POpt PStr t)).
  Proof. intros Hp H. eapply both_bind; [exact H|]. intros o1 o2 Ho. apply both_ret. now apply alike_opt. Qed.
  Lemma both_when p t1 t2 r1 r2 : both eq t1 t2 -> both (dict_alike p) r1 r2 -> both (dict_alike p) (when t1 r1) (when t2 r2).
  Proof.
    intros Ht Hr. unfold when. eapply both_bind; [exact Ht|]. intros b ? <-. destruct b; [exact Hr|]. apply both_ret. constructor.
  Qed.
  Lemma both_truthy m1 m2 : both opt_alike m1 m2 -> both eq (t <- m1 ;; ret (truthy_text t)) (t <- m2 ;; ret (truthy_text t)).
  Proof. intros H. eapply both_bind; [exact H|]. intros o1 o2 Ho. apply both_ret. now apply truthy_alike. Qed.
  Lemma both_eq {A} (m : M A) : both eq m m.
  Proof. now apply both_same. Qed.
  Definition loc : path := [Key "link_info"; Key "location_info"].
  Lemma both_local raw : both (dict_alike loc) (local_info_dict cp1 raw) (local_info_dict cp2 raw).
  Proof.
    unfold local_info_dict. apply (both_bind (dict_alike loc)).
    - rows_alike. apply both_optional; [reflexivity|apply both_label].
    - intros d1 d2 Hd. apply both_then. intros d. apply both_ret. apply dict_app; [exact Hd|apply dict_same].
  Qed.
  Lemma both_network raw : both (dict_alike loc) (network_info_dict cp1 raw) (network_info_dict cp2 raw).
  Proof.
    unfold network_info_dict. do 4 (apply both_then; intros ?).
    apply (both_bind (dict_alike loc)).
    { apply both_when; [apply both_truthy, both_net|]. rows_alike. apply both_optional; [reflexivity|apply both_net]. }
    intros n1 n2 Hn. apply (both_bind (dict_alike loc)).
    { apply both_when; [apply both_truthy, both_device|]. rows_alike. apply both_optional; [reflexivity|apply both_device]. }
    intros m1 m2 Hm. apply both_ret. repeat apply dict_app; try apply dict_same; assumption.
  Qed.
  Lemma both_info k raw : both (dict_alike [Key "link_info"]) (info_dict cp1 k raw) (info_dict cp2 k raw).
  Proof.
    unfold info_dict. apply both_then. intros d.
    apply (both_bind (dict_alike [Key "link_info"])).
    { apply both_when; [apply both_eq|]. rows_alike. apply both_optional; [reflexivity|apply both_base]. }
    intros a1 a2 Ha. apply (both_bind (dict_alike [Key "link_info"])).
    { apply both_when; [apply both_eq|]. rows_alike. apply both_optional; [reflexivity|apply both_suffix]. }
    intros b1 b2 Hb. do 2 (apply both_then; intros ?).
    apply (both_bind (dict_alike loc)); [destruct k; [apply both_local|apply both_network]|].
    intros l1 l2 Hl. apply both_ret. repeat apply dict_app; try apply dict_same; try assumption.
    entries_alike. now apply alike_dict.
  Qed.

  (** ** Two constructed objects *)
  Variable b : bytes.
  Variable allow : bool.
  Lemma walk_names fs p found e cut : string_walk b fs p found e cut ->
    forall k, In k (map fst found) -> In k (map (fun f => snd (fst f)) fs).
  Proof.
    intros H. induction H as [p|i name limited fs p found e cut _ _ IH|i name limited fs p _ _
                              |i name limited fs p n found e cut _ _ _ _ IH]; intros k; cbn [map fst snd In]; intuition.
  Qed.
  Lemma data_alike l1 l2 :
    snd (lnk_init (FromBytes b) cp1 allow) = Ok l1 -> snd (lnk_init (FromBytes b) cp2 allow) = Ok l2 ->
    dict_alike [Key "data"] (sd_data (l_string_data l1)) (sd_data (l_string_data l2))
    /\ (bit_set 7 b = true -> sd_data (l_string_data l1) = sd_data (l_string_data l2)).
  Proof.
    intros E1 E2. destruct (init_constructed _ _ _ _ U1 E1) as [Hc _].
    destruct (construct_full b cp1 allow U1 Hc) as (m1 & f1 & c1 & w1 & I1 & W1 & D1 & _).
    destruct (construct_full b cp2 allow U2 Hc) as (m2 & f2 & c2 & w2 & I2 & W2 & D2 & _).
    rewrite I1 in E1. rewrite I2 in E2. injection E1 as ->. injection E2 as ->.
    destruct (string_walk_det _ _ _ _ _ _ _ _ _ W1 W2) as (<- & _ & _).
    rewrite D1, D2. split.
    - pose proof (walk_names _ _ _ _ _ W1) as HN. clear -HN.
      induction f1 as [|[k s] f IH]; cbn [map]; [constructor|]. constructor; [|apply IH; intros j Hj; apply HN; now right].
      split; [reflexivity|]. cbn [entry fst snd]. unfold stored_text. destruct (bit_set 7 b); [constructor|].
      apply alike_maybe; [|apply fields_alike].
      specialize (HN k (or_introl eq_refl)). cbn in HN. repeat destruct HN as [<- |HN]; try reflexivity. destruct HN.
    - intros ->. apply map_ext. intros [k s]. reflexivity.
  Qed.
  Lemma both_full l1 l2 :
    snd (lnk_init (FromBytes b) cp1 allow) = Ok l1 -> snd (lnk_init (FromBytes b) cp2 allow) = Ok l2 ->
    l_size l1 = l_size l2
    /\ both (dict_alike []) (full_json l1) (full_json l2).
  Proof.
    intros E1 E2. destruct (data_alike _ _ E1 E2) as [HD _].
    destruct (init_constructed _ _ _ _ U1 E1) as [_ (C1 & H1 & T1 & G1 & I1 & _ & b1 & r1 & W1 & X1 & S1)].
    destruct (init_constructed _ _ _ _ U2 E2) as [_ (C2 & H2 & T2 & G2 & I2 & _ & b2 & r2 & W2 & X2 & S2)].
    destruct (block_walk_det _ _ _ _ _ W1 W2) as [<- <-]. cbv zeta in S1, S2.
    assert (HS : l_size l1 = l_size l2) by congruence. split; [exact HS|].
    unfold full_json. rewrite H1, H2. apply both_then. intros h.
    apply (both_bind (dict_alike [])).
    { rewrite G1, G2. destruct (has_id_list b); [|apply both_ret; constructor].
      apply (both_bind (dict_alike [Key "target"])).
      - unfold target_dict. rewrite C1, C2, T1, T2. rows_alike. unfold targets_as_list, items_of.
        eapply both_bind; [apply (both_items [Key "target"; Key "items"]); intros i; apply target_place|].
        intros i1 i2 Hi. apply both_ret. now apply items_list.
      - intros d1 d2 Hd. apply both_ret. entries_alike. now apply alike_dict. }
    intros t1 t2 Ht. apply (both_bind (dict_alike [Key "link_info"])).
    { rewrite C1, C2, I1, I2. destruct (info_processed b); [apply both_info|apply both_ret; constructor]. }
    intros i1 i2 Hi. cbv zeta. rewrite C1, C2, X1, X2. apply (both_bind (dict_alike [Key "extra"])).
    { unfold extras_as_dict. apply both_extras. constructor. }
    intros x1 x2 Hx. apply both_ret. rewrite HS.
    apply dict_app; [apply dict_same|]. apply dict_app; [exact Ht|].
    entries_alike; now apply alike_dict.
  Qed.

  (** ** The abridged report *)
  Lemma alike_abridged out v1 : forall p v2, alike p v1 v2 -> alike p (abridged out p v1) (abridged out p v2).
  Proof.
    induction v1 as [|z|t|d|l IH|d IH] using value_induction; intros p v2 H.
    1-4: (inversion H; subst; [constructor|];
          match goal with X : two_readings _ _ _ _ |- _ => destruct X as (? & ? & ?) end; subst; apply alike_text; [assumption|];
          cbn [abridged]; eexists; split; [|reflexivity]; congruence).
    - inversion H as [p' v|p' v1 v2' Hp Hr|p' l1 l2 Hl Hn|]; subst; [constructor| |].
      { destruct Hr as (? & ? & ?). discriminate. }
      rewrite !abridged_list. clear H.
      assert (HG : forall i, (forall n a c, nth_error l n = Some a -> nth_error l2 n = Some c ->
                              alike (p ++ [Element (i + N.of_nat n)]) a c) ->
        length (elements_from out p i l) = length (elements_from out p i l2)
        /\ forall n a c, nth_error (elements_from out p i l) n = Some a -> nth_error (elements_from out p i l2) n = Some c ->
                         alike (p ++ [Element (i + N.of_nat n)]) a c).
      { intros i Hi. split.
        - clear -Hl. revert i l2 Hl. induction l as [|x l IH]; intros i [|y l2] Hl; try discriminate; [reflexivity|].
          cbn [elements_from length] in *. f_equal. apply IH. congruence.
        - intros n a c. rewrite !nth_elements. intros Ha Hc.
          destruct (nth_error l n) as [a'|] eqn:Ea; [|discriminate]. destruct (nth_error l2 n) as [c'|] eqn:Ec; [|discriminate].
          cbn [option_map] in *. injection Ha as <-. injection Hc as <-.
          rewrite Forall_forall in IH. apply IH; [eapply nth_error_In; eassumption|]. now apply (Hi n). }
      destruct (HG 0 Hn) as [L N]. now apply alike_list.
    - inversion H as [p' v|p' v1 v2' Hp Hr| |p' d1 d2 Hd]; subst; [constructor| |].
      { destruct Hr as (? & ? & ?). discriminate. }
      rewrite !abridged_dict. apply alike_dict. clear H.
      induction Hd as [|[k1 w1] [k2 w2] d1 d2 [Hk Hw] Hd IHd]; [constructor|]. cbn [fst snd] in *. subst k2.
      apply Forall_cons_iff in IH as [IH1 IH2]. cbn [entries]. destruct (out (p ++ [Key k1])); [now apply IHd|].
      constructor; [|now apply IHd]. split; [reflexivity|]. cbn [fst snd]. now apply IH1.
  Qed.

  (** ** Position by position *)
  Lemma alike_at q : forall p v1 v2, alike p v1 v2 ->
    match at_path q v1, at_path q v2 with
    | None, None => True
    | Some a, Some c => alike (p ++ q) a c
    | _, _ => False
    end.
  Proof.
    induction q as [|s q IH]; intros p v1 v2 H; cbn [at_path]; [now rewrite app_nil_r|].
    assert (HC : match child s v1, child s v2 with
                 | None, None => True | Some a, Some c => alike (p ++ [s]) a c | _, _ => False end).
    { destruct H as [p v|p v1 v2 _ (? & -> & ->)|p l1 l2 Hl Hn|p d1 d2 Hd].
      - destruct (child s v); [constructor|exact I].
      - destruct s; exact I.
      - destruct s as [k|i]; [exact I|]. cbn [child].
        destruct (nth_error l1 (N.to_nat i)) as [a|] eqn:Ea, (nth_error l2 (N.to_nat i)) as [c|] eqn:Ec; try exact I.
        + pose proof (Hn _ _ _ Ea Ec) as HX. now rewrite Nnat.N2Nat.id in HX.
        + apply nth_error_None in Ec. assert (nth_error l1 (N.to_nat i) <> None) by congruence.
          apply nth_error_Some in H. lia.
        + apply nth_error_None in Ea. assert (nth_error l2 (N.to_nat i) <> None) by congruence.
          apply nth_error_Some in H. lia.
      - destruct s as [k|i]; [|exact I]. cbn [child].
        induction Hd as [|[k1 w1] [k2 w2] d1 d2 [Hk Hw] Hd IHd]; [exact I|]. cbn [fst snd dget] in *. subst k2.
        destruct (String.eqb k k1) eqn:E; [|exact IHd]. apply String.eqb_eq in E. now subst k1. }
    destruct (child s v1) as [a|], (child s v2) as [c|]; try contradiction; [|exact I].
    specialize (IH _ _ _ HC). rewrite <- app_assoc in IH. exact IH.
  Qed.
  (** Where no code-page string is below, the values are the same. *)
  Lemma alike_quiet v1 : forall p v2, (forall q, page_string (p ++ q) = false) -> alike p v1 v2 -> v1 = v2.
  Proof.
    induction v1 as [|z|t|d|l IH|d IH] using value_induction; intros p v2 Hp H;
      pose proof (Hp []) as Hp0; rewrite app_nil_r in Hp0; pose proof (alike_list_inv _ _ _ Hp0 H) as HI; try exact HI.
    - destruct v2 as [| | | |l2|]; try exact HI. destruct HI as [Hl HI]. clear H. f_equal. rewrite Forall_forall in IH.
      apply nth_error_ext; [exact Hl|]. intros n. destruct (nth_error l n) as [x|] eqn:Ex.
      + destruct (nth_error l2 n) as [y|] eqn:Ey.
        * f_equal. apply (IH x (nth_error_In _ _ Ex) (p ++ [Element (N.of_nat n)])); [|now apply HI].
          intros q. rewrite <- app_assoc. apply Hp.
        * apply nth_error_None in Ey. assert (Hx : nth_error l n <> None) by congruence. apply nth_error_Some in Hx. lia.
      + symmetry. apply nth_error_None. apply nth_error_None in Ex. lia.
    - destruct v2 as [| | | | |d2]; try exact HI. clear H. f_equal.
      induction HI as [|[k1 w1] [k2 w2] d1 d2 [Hk Hw] Hd IHd]; [reflexivity|]. cbn [fst snd] in *. subst k2.
      apply Forall_cons_iff in IH as [IH1 IH2]. f_equal; [|now apply IHd]. f_equal.
      apply (IH1 (p ++ [Key k1])); [|exact Hw]. intros q. rewrite <- app_assoc. apply Hp.
  Qed.
  Lemma alike_untouched d1 d2 p : dict_alike [] d1 d2 -> (forall q, page_string (p ++ q) = false) ->
    at_path p (PDict d1) = at_path p (PDict d2).
  Proof.
    intros H Hp. pose proof (alike_at p [] (PDict d1) (PDict d2) (alike_dict _ _ _ H)) as HA. cbn [app] in HA.
    destruct (at_path p (PDict d1)) as [a|], (at_path p (PDict d2)) as [c|]; try contradiction; [|reflexivity].
    f_equal. now apply (alike_quiet a p c).
  Qed.
  Lemma alike_same_but d1 d2 : dict_alike [] d1 d2 -> same_but_pages cp1 cp2 d1 d2.
  Proof.
    intros H q. pose proof (alike_at q [] (PDict d1) (PDict d2) (alike_dict _ _ _ H)) as HA. cbn [app] in HA.
    destruct (at_path q (PDict d1)) as [a|], (at_path q (PDict d2)) as [c|]; try contradiction; [|exact I].
    destruct HA as [p v|p v1 v2 Hp Hr|p l1 l2 Hl Hn|p e1 e2 Hd].
    - destruct v; auto.
    - destruct Hr as (body & -> & ->). right. split; [exact Hp|]. now exists body.
    - exact Hl.
    - clear -Hd. induction Hd as [|e1 e2 d1 d2 [Hk _] Hd IH]; [reflexivity|]. cbn [map]. congruence.
  Qed.
End Pages.

(** The theorem. *)
Lemma pages_only b cp1 cp2 allow :
  usable cp1 -> usable cp2 -> visible cp1 -> visible cp2 ->
  match snd (lnk_init (FromBytes b) cp1 allow), snd (lnk_init (FromBytes b) cp2 allow) with
  | Err e1, Err e2 => e1 = e2
  | Ok l1, Ok l2 =>
    l_size l1 = l_size l2
    /\ forall all,
         match snd (get_json l1 all), snd (get_json l2 all) with
         | Err e1, Err e2 => e1 = e2
         | Ok d1, Ok d2 =>
           same_but_pages cp1 cp2 d1 d2
           /\ (forall p, (forall q, page_string (p ++ q) = false) -> at_path p (PDict d1) = at_path p (PDict d2))
           /\ (bit_set 7 b = true -> dget "data" d1 = dget "data" d2)
         | _, _ => False
         end
  | _, _ => False
  end.
Proof.
  intros U1 U2 V1 V2.
  destruct (snd (lnk_init (FromBytes b) cp1 allow)) as [l1|e1] eqn:E1, (snd (lnk_init (FromBytes b) cp2 allow)) as [l2|e2] eqn:E2.

  - destruct (both_full cp1 cp2 U1 U2 V1 V2 b allow l1 l2 E1 E2) as [HS HF]. split; [exact HS|].
    assert (HD : forall d1 d2, snd (full_json l1) = Ok d1 -> snd (full_json l2) = Ok d2 ->
                               bit_set 7 b = true -> dget "data" d1 = dget "data" d2).
    { intros d1 d2 F1 F2 Hu. destruct (data_alike cp1 cp2 U1 U2 b allow l1 l2 E1 E2) as [_ HD].
      assert (G : forall l d, snd (full_json l) = Ok d -> dget "data" d = Some (PDict (sd_data (l_string_data l)))).
      { intros l d F. destruct (report_sections l d) as (? & ? & ? & _ & _ & _ & _ & _ & HG & _); [|exact HG].
        unfold get_json. destruct (full_json l) as [w [g|e]]; [|discriminate]. exact F. }
      rewrite (G _ _ F1), (G _ _ F2). now rewrite (HD Hu). }
    assert (HT : match snd (get_json l1 true), snd (get_json l2 true) with
                 | Err e1, Err e2 => e1 = e2
                 | Ok d1, Ok d2 => dict_alike cp1 cp2 [] d1 d2 /\ (bit_set 7 b = true -> dget "data" d1 = dget "data" d2)
                 | _, _ => False
                 end).
    { unfold get_json, both in *. destruct (full_json l1) as [w1 [d1|e1]], (full_json l2) as [w2 [d2|e2]];
        cbn [snd bind ret] in *; auto. }
    intros [|].
    + destruct (snd (get_json l1 true)), (snd (get_json l2 true)); try exact HT. destruct HT as [H1 H2].
      split; [now apply alike_same_but|]. split; [|exact H2]. intros p. now apply (alike_untouched cp1 cp2).
    + destruct (report_abridged l1) as [_ A1], (report_abridged l2) as [_ A2].
      destruct (snd (get_json l1 true)) as [f1|], (snd (get_json l2 true)) as [f2|]; try contradiction;
        destruct (snd (get_json l1 false)) as [s1|], (snd (get_json l2 false)) as [s2|]; try contradiction; [|congruence].
      destruct HT as [H1 H2]. rewrite abridged_dict in A1, A2. injection A1 as ->. injection A2 as ->.
      assert (HA : dict_alike cp1 cp2 [] (entries left_out [] f1) (entries left_out [] f2)).
      { pose proof (alike_abridged cp1 cp2 left_out (PDict f1) [] (PDict f2) (alike_dict _ _ _ _ _ H1)) as HA.
        rewrite !abridged_dict in HA. exact (alike_list_inv _ _ [] _ _ eq_refl HA). }
      split; [now apply alike_same_but|]. split.
      * intros p. now apply (alike_untouched cp1 cp2).
      * intros Hu. rewrite !dget_entries. now rewrite (H2 Hu).
  - destruct (init_constructed _ _ _ _ U1 E1) as [Hc _].
    destruct (construct_full b cp2 allow U2 Hc) as (m2 & f2 & c2 & w2 & I2 & _). rewrite I2 in E2. discriminate.
  - destruct (init_constructed _ _ _ _ U2 E2) as [Hc _].
    destruct (construct_full b cp1 allow U1 Hc) as (m1 & f1 & c1 & w1 & I1 & _). rewrite I1 in E1. discriminate.
  - destruct b as [|x b]; [cbn in E1, E2; congruence|].
    rewrite (init_process (FromBytes (x :: b)) cp1 allow (x :: b)) in E1 by (auto; discriminate).
    rewrite (init_process (FromBytes (x :: b)) cp2 allow (x :: b)) in E2 by (auto; discriminate).
    destruct (process_outcome (x :: b) cp1 allow) as [(_ & l & F & _)|(_ & F)]; try assumption; try discriminate; [congruence|].
    destruct (process_outcome (x :: b) cp2 allow) as [(_ & l & G & _)|(_ & G)]; try assumption; try discriminate; congruence.
Qed.

Lemma single_byte_visible f : visible (CpCodec (event_codec (map f))).
Proof.
  intros [|x r] H; [easy|]. cbn [page_of event_codec strict replace map all_some replaced]. split; [|discriminate].
  destruct (f x); [|discriminate]. destruct (all_some _); discriminate.
Qed.
Lemma default_visible : visible CpNone.
Proof. exact (single_byte_visible cp1252_char). Qed.
