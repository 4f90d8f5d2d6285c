(** * Every report is well formed (property C56) *)
From Verif Require Import Lemmas PyTime Codec Utils Sha256 Header StringData Targets Info Extra LnkFile Json Report.
From Verif Require Import SpecText SpecTime SpecReport TextProofs TimeProofs OutcomeProofs.

(** ** What a computation returns *)

Definition gives {A} (P : A -> Prop) (m : M A) : Prop := forall a, snd m = Ok a -> P a.

Lemma gives_ret {A} (P : A -> Prop) a : P a -> gives P (ret a).
Proof. intros H x [= <-]. exact H. Qed.
Lemma gives_raise {A} (P : A -> Prop) e : gives P (raise e).
Proof. intros x [=]. Qed.
Lemma gives_any {A} (m : M A) : gives (fun _ => True) m.
Proof. intros x _. exact I. Qed.
Lemma gives_bind {A B} (Q : A -> Prop) (P : B -> Prop) (m : M A) (f : A -> M B) :
  gives Q m -> (forall a, Q a -> gives P (f a)) -> gives P (bind m f).
Proof. intros Hm Hf b H. apply snd_bind_Ok in H as (a & Ha & H). exact (Hf a (Hm a Ha) b H). Qed.
Lemma gives_try {A} (P : A -> Prop) m sel h : gives P m -> gives P h -> gives P (try_except m sel h).
Proof.
  intros Hm Hh a. unfold try_except. destruct m as [w [x|e]]; [exact (Hm a)|].
  destruct (sel e); [|discriminate]. destruct h as [w' r]. exact (Hh a).
Qed.
Lemma gives_impl {A} (P Q : A -> Prop) m : (forall a, P a -> Q a) -> gives P m -> gives Q m.
Proof. intros H Hm a Ha. apply H, Hm, Ha. Qed.
Lemma gives_mapM {A B} (P : B -> Prop) (f : A -> M B) l :
  (forall a, gives P (f a)) -> gives (Forall P) (mapM f l).
Proof.
  intros H. induction l as [|x l IH]; cbn [mapM]; [apply gives_ret; constructor|].
  apply (gives_bind P); [apply H|]. intros y Hy. apply (gives_bind (Forall P)); [exact IH|].
  intros ys Hys. apply gives_ret. now constructor.
Qed.

(** ** ASCII texts *)

Definition ascii_only (t : text) : Prop := Forall (fun c => c < 256) t.
Lemma ascii_scalar t : ascii_only t -> Forall scalar t.
Proof. apply Forall_impl. unfold scalar. intros; lia. Qed.
Lemma s2t_ascii s : ascii_only (s2t s).
Proof.
  unfold ascii_only, s2t. induction s as [|c s IH]; cbn [list_ascii_of_string map]; constructor; [|exact IH].
  apply N_ascii_bounded.
Qed.
Lemma app_ascii a b : ascii_only a -> ascii_only b -> ascii_only (a ++ b).
Proof. intros. now apply Forall_app. Qed.
Lemma digits_aux_lt base fuel : 0 < base -> forall n acc,
  Forall (fun d => d < base) acc -> Forall (fun d => d < base) (digits_aux base fuel n acc).
Proof.
  intros Hb. induction fuel as [|f IH]; intros n acc H; cbn [digits_aux]; [exact H|].
  destruct (n <? base) eqn:E; [constructor; [lia|exact H]|].
  apply IH. constructor; [apply N.mod_lt; lia|exact H].
Qed.
Lemma digits_ascii u base n : 0 < base <= 16 -> ascii_only (map (digit_char u) (digits base n)).
Proof.
  intros Hb. unfold ascii_only. rewrite Forall_map.
  eapply Forall_impl; [|apply digits_aux_lt; [lia|constructor]].
  cbn beta. intros d Hd. unfold digit_char. destruct (d <? 10), u; lia.
Qed.
Lemma pad0_ascii w t : ascii_only t -> ascii_only (pad0 w t).
Proof.
  intros H. unfold pad0. apply app_ascii; [|exact H].
  induction (w - length t)%nat; cbn [repeat]; constructor; [lia|assumption].
Qed.
Lemma hexX_ascii w n : ascii_only (hexX w n).
Proof. apply pad0_ascii, digits_ascii. lia. Qed.
Lemma hexx_ascii w n : ascii_only (hexx w n).
Proof. apply pad0_ascii, digits_ascii. lia. Qed.
Lemma hexX_Z_ascii w z : ascii_only (hexX_Z w z).
Proof.
  unfold hexX_Z. destruct (z <? 0)%Z; [|apply hexX_ascii]. constructor; [lia|apply hexX_ascii].
Qed.
Lemma hex_text_ascii n : ascii_only (hex_text n).
Proof. apply app_ascii; [apply s2t_ascii|apply hexx_ascii]. Qed.
Lemma bytes_hex_ascii b : ascii_only (bytes_hex b).
Proof.
  unfold bytes_hex. induction b as [|x b IH]; cbn [flat_map]; [constructor|].
  apply app_ascii; [apply hexx_ascii|exact IH].
Qed.
Lemma sha_ascii b : ascii_only (sha256_hex b).
Proof.
  unfold sha256_hex. induction (sha_blocks _ _ _) as [|x l IH]; cbn [flat_map]; [constructor|].
  apply app_ascii; [apply hexx_ascii|exact IH].
Qed.
Lemma Forall_takeN {A} (P : A -> Prop) n l : Forall P l -> Forall P (takeN n l).
Proof. intros H. rewrite <- (take_drop n l) in H. now apply Forall_app in H. Qed.
Lemma Forall_dropN {A} (P : A -> Prop) n l : Forall P l -> Forall P (dropN n l).
Proof. intros H. rewrite <- (take_drop n l) in H. now apply Forall_app in H. Qed.
Lemma Forall_slice {A} (P : A -> Prop) i j l : Forall P l -> Forall P (slice i j l).
Proof. intros H. now apply Forall_takeN, Forall_dropN. Qed.

(** ** Distinct keys *)

(** [j] and [k] look the same in the readable report. *)
Definition collide (j k : string) : bool :=
  String.eqb (nice_id j false) (nice_id k false) || String.eqb (nice_id j true) (nice_id k true).
(** [j] comes before [k]: they look different, or [j] is [k] prefixed by "r_"; the raw hot
    key, which the readable report leaves out, is the one exception. *)
Definition in_order (j k : string) : bool :=
  negb (collide j k) || String.eqb j (String.append "r_" k) || (String.eqb j "hotkey" && String.eqb k "r_hotkey").
Fixpoint unconfused (ks : list string) : bool :=
  match ks with [] => true | j :: r => forallb (in_order j) r && unconfused r end.
(** No two keys look the same. *)
Definition separate (ks : list string) : bool :=
  forallb (fun j => forallb (fun k => String.eqb j k || negb (collide j k)) ks) ks.
Fixpoint distinct (ks : list string) : bool :=
  match ks with [] => true | k :: r => negb (existsb (String.eqb k) r) && distinct r end.

Lemma distinct_NoDup ks : distinct ks = true -> NoDup ks.
Proof.
  induction ks as [|k r IH]; cbn [distinct]; intros H; [constructor|].
  apply andb_prop in H as [H1 H2]. constructor; [|now apply IH]. intros Hi.
  apply negb_true_iff in H1. rewrite <- not_true_iff_false in H1. apply H1.
  apply existsb_exists. exists k. split; [exact Hi|apply String.eqb_refl].
Qed.
Lemma unconfused_separate ks ks' : NoDup ks' -> incl ks' ks -> separate ks = true -> unconfused ks' = true.
Proof.
  intros HN Hi H. unfold separate in H. rewrite forallb_forall in H.
  induction HN as [|j r Hj HN IH]; cbn [unconfused]; [reflexivity|].
  rewrite IH by (intros k Hk; apply Hi; now right). rewrite andb_true_r. apply forallb_forall. intros k Hk.
  specialize (H j (Hi j (or_introl eq_refl))). rewrite forallb_forall in H. specialize (H k (Hi k (or_intror Hk))).
  unfold in_order. destruct (String.eqb j k) eqn:E; [apply String.eqb_eq in E; subst; contradiction|].
  cbn in H. rewrite H. reflexivity.
Qed.

(** ** Well-formed dictionaries *)

Section Shape.
  Variable T : text -> Prop.
  Variable K : list string -> Prop.
  Hypothesis HT : forall t, Forall scalar t -> T t.
  Hypothesis HK : forall ks, unconfused ks = true -> K ks.
  Notation wf := (well_formed T K).

  Lemma wf_list l : wf (PList l) <-> Forall wf l.
  Proof.
    cbn. induction l as [|v l IH]; [split; constructor|]. rewrite IH. split.
    - intros [H1 H2]. now constructor.
    - intros H. now inversion H.
  Qed.
  Lemma wf_dict d : wf (PDict d) <-> NoDup (map fst d) /\ K (map fst d) /\ Forall (fun e => wf (snd e)) d.
  Proof.
    cbn. apply and_iff_compat_l, and_iff_compat_l.
    induction d as [|[k v] d IH]; [split; constructor|]. rewrite IH. split.
    - intros [H1 H2]. now constructor.
    - intros H. now inversion H.
  Qed.
  Lemma wf_keys ks d : map fst d = ks -> distinct ks = true -> unconfused ks = true ->
    Forall (fun e => wf (snd e)) d -> wf (PDict d).
  Proof. intros <- H1 H2 H. apply wf_dict. split; [now apply distinct_NoDup|]. split; [now apply HK|exact H]. Qed.

  (** Dictionaries filled key by key, with keys of [ks]. *)
  Definition filled (ks : list string) (d : dict) : Prop :=
    NoDup (map fst d) /\ incl (map fst d) ks /\ Forall (fun e => wf (snd e)) d.
  Lemma filled_wf ks d : separate ks = true -> filled ks d -> wf (PDict d).
  Proof.
    intros H (H1 & H2 & H3). apply wf_dict. split; [exact H1|]. split; [|exact H3].
    apply HK. now apply (unconfused_separate ks).
  Qed.
  Lemma filled_nil ks : filled ks [].
  Proof. repeat split; [constructor|intros x []|constructor]. Qed.
  Lemma dset_keys k v d j : In j (map fst (dset k v d)) <-> j = k \/ In j (map fst d).
  Proof.
    induction d as [|[k' v'] d IH]; cbn [dset map fst In]; [intuition|].
    destruct (String.eqb k k') eqn:E; cbn [map fst In].
    - apply String.eqb_eq in E. subst k'. intuition.
    - rewrite IH. intuition.
  Qed.
  Lemma filled_dset ks k v d : In k ks -> wf v -> filled ks d -> filled ks (dset k v d).
  Proof.
    intros Hk Hv (H1 & H2 & H3). repeat split.
    - clear H2 H3. induction d as [|[k' v'] d IH]; cbn [dset map fst]; [constructor; [intros []|constructor]|].
      inversion H1; subst. destruct (String.eqb k k') eqn:E; cbn [map fst]; constructor; auto.
      rewrite dset_keys. apply String.eqb_neq in E. intuition congruence.
    - intros j. rewrite dset_keys. intros [->|Hj]; [exact Hk|now apply H2].
    - clear H1 H2. induction d as [|[k' v'] d IH]; cbn [dset]; [now constructor|].
      inversion H3; subst. destruct (String.eqb k k'); constructor; auto.
  Qed.
  Lemma dupd_keys k f d : map fst (dupd k f d) = map fst d.
  Proof.
    induction d as [|[k' v'] d IH]; cbn [dupd map fst]; [reflexivity|].
    destruct (String.eqb k k'); cbn [map fst]; [reflexivity|now rewrite IH].
  Qed.
  Lemma filled_dupd ks k f d : (forall v, wf v -> wf (f v)) -> filled ks d -> filled ks (dupd k f d).
  Proof.
    intros Hf (H1 & H2 & H3). unfold filled. rewrite dupd_keys. repeat split; try assumption.
    clear H1 H2. induction d as [|[k' v'] d IH]; cbn [dupd]; [constructor|].
    inversion H3; subst. cbn [snd] in *. destruct (String.eqb k k'); constructor; cbn [snd]; auto.
  Qed.

  Definition rows_wf (rows : list (string * M pyval)) : Prop := Forall (fun r => gives wf (snd r)) rows.
  Lemma gives_fields rows : rows_wf rows ->
    gives (fun d => map fst d = map fst rows /\ Forall (fun e => wf (snd e)) d) (fields rows).
  Proof.
    induction rows as [|[k m] rows IH]; intros H; cbn [fields].
    - apply gives_ret. now split.
    - inversion H; subst. apply (gives_bind wf); [assumption|]. intros v Hv.
      eapply gives_bind; [now apply IH|]. intros d [Hd1 Hd2]. apply gives_ret.
      cbn [map fst]. split; [now rewrite Hd1|now constructor].
  Qed.
  Lemma gives_fields_dict rows : distinct (map fst rows) = true -> unconfused (map fst rows) = true -> rows_wf rows ->
    gives (fun d => wf (PDict d)) (fields rows).
  Proof.
    intros H1 H2 H. eapply gives_impl; [|now apply gives_fields]. intros d [Hk Hd]. cbn beta. now apply (wf_keys _ d Hk).
  Qed.
  Lemma gives_when b rows : rows_wf rows ->
    gives (fun d => (d = [] \/ map fst d = map fst rows) /\ Forall (fun e => wf (snd e)) d) (when b (fields rows)).
  Proof.
    intros H. unfold when. eapply gives_bind; [apply gives_any|]. intros [|] _.
    - eapply gives_impl; [|now apply gives_fields]. intros d [H1 H2]. auto.
    - apply gives_ret. auto.
  Qed.

  Lemma wf_int z : wf (PInt z). Proof. exact I. Qed.
  Lemma wf_num n : wf (PN n). Proof. exact I. Qed.
  Lemma wf_none : wf PNone. Proof. exact I. Qed.
  Lemma wf_scalars t : Forall scalar t -> wf (PStr t). Proof. apply HT. Qed.
  Lemma wf_ascii t : ascii_only t -> wf (PStr t). Proof. intros. now apply HT, ascii_scalar. Qed.
  Lemma wf_name s : wf (PS s). Proof. apply wf_ascii, s2t_ascii. Qed.
  Lemma wf_names l : wf (PList (map PS l)).
  Proof. apply wf_list. rewrite Forall_map. apply Forall_forall. intros; apply wf_name. Qed.
  Lemma wf_opt {A} (f : A -> pyval) o : (forall a, o = Some a -> wf (f a)) -> wf (POpt f o).
  Proof. destruct o; intros H; [now apply H|exact I]. Qed.

  (** ** Primitive readings *)

  Definition opt_date (o : option datetime) : Prop := wf (POpt PDate o).
  Lemma make_date y m d h mi s us t : make_datetime y m d h mi s us = Some t -> valid_datetime t.
  Proof.
    intros H. destruct (make_datetime_valid y m d h mi s us) as [_ H2].
    unfold valid_datetime, valid_date in *. cbn [dt_year dt_month dt_day dt_hour dt_min dt_sec dt_us] in *.
    unfold make_datetime in H. destruct ((_ && _)%bool) eqn:E; [|discriminate]. injection H as <-.
    cbn [dt_year dt_month dt_day dt_hour dt_min dt_sec dt_us].
    rewrite days_in_month_same in E by lia. lia.
  Qed.
  Lemma g_filetime b : gives opt_date (parse_filetime b).
  Proof.
    unfold parse_filetime. eapply gives_bind; [apply gives_any|]. intros n _.
    destruct (n =? 0)%Z; [now apply gives_ret|].
    destruct (fromtimestamp_utc _ _) as [t|] eqn:E.
    - apply gives_ret. unfold opt_date. cbn. unfold fromtimestamp_utc in E.
      destruct (timestamp_to_sec_us _ _) as [sec us]. destruct (civil_of_days _) as [[y m] d].
      exact (make_date _ _ _ _ _ _ _ _ E).
    - eapply gives_bind; [apply gives_any|]. intros. now apply gives_ret.
  Qed.
  Lemma g_dostime b : gives opt_date (parse_dostime b).
  Proof.
    unfold parse_dostime. eapply gives_bind; [apply gives_any|]. intros n _.
    destruct (n =? 0); [now apply gives_ret|].
    destruct (make_datetime _ _ _ _ _ _ _) as [t|] eqn:E.
    - apply gives_ret. exact (make_date _ _ _ _ _ _ _ _ E).
    - eapply gives_bind; [apply gives_any|]. intros. now apply gives_ret.
  Qed.
  Lemma g_uuid b : gives ascii_only (parse_uuid b).
  Proof.
    unfold parse_uuid. eapply gives_bind; [apply gives_any|]. intros _ _.
    eapply gives_bind; [apply gives_any|]. intros _ _. apply gives_ret.
    repeat (apply app_ascii; [first [apply hexX_ascii|apply s2t_ascii]|]). apply hexX_ascii.
  Qed.
  Lemma g_must_be_text n e P m : gives P m -> gives P (must_be_text n e m).
  Proof.
    intros H. unfold must_be_text. eapply gives_bind; [exact H|]. intros a Ha.
    eapply gives_bind; [apply gives_any|]. intros _ _. now apply gives_ret.
  Qed.
  Lemma g_quad t : gives ascii_only (quad_to_hex t).
  Proof.
    unfold quad_to_hex. eapply gives_bind; [apply gives_any|]. intros z _. apply gives_ret, hexX_Z_ascii.
  Qed.
  Lemma g_packed t : gives ascii_only (parse_packed_uuid t).
  Proof.
    unfold parse_packed_uuid. do 4 (eapply gives_bind; [apply g_quad|]; intros ? ?). apply gives_ret.
    assert (Hq : ascii_only (a ++ a0 ++ a1 ++ a2)) by (repeat apply app_ascii; assumption).
    repeat (apply app_ascii; [first [apply s2t_ascii|now apply Forall_slice]|]). now apply Forall_slice.
  Qed.
  Lemma g_wide b : gives (Forall scalar) (read_unicode_string b).
  Proof. intros t H. destruct (wide_total b) as (t' & H' & Hs & _). pose proof (eq_trans (eq_sym H) H') as [= ->]. exact Hs. Qed.
  Lemma g_hot_key raw : gives ascii_only (hot_key raw).
  Proof.
    unfold hot_key. destruct (slice 64 66 raw) as [|a [|b [|c r]]]; try apply gives_raise.
    destruct (assocN (b2n b) HOTKEY_VALUES_HIGH), (assocN (b2n a) HOTKEY_VALUES_LOW); apply gives_ret; try apply bytes_hex_ascii.
    repeat (apply app_ascii; [first [apply s2t_ascii|apply bytes_hex_ascii]|]). apply s2t_ascii.
  Qed.
  Lemma ascii_replace_scalar b : Forall scalar (ascii_replace b).
  Proof.
    unfold ascii_replace, replaced. rewrite map_map, Forall_map. apply Forall_forall. intros x _.
    unfold ascii_char, scalar. destruct (b2n x <? 128) eqn:E; lia.
  Qed.

  (** ** Code-page strings *)

  Section Page.
    Variable cp : cp_arg.
    Hypothesis HP : forall c, tp_codec cp = Some c ->
      (forall b t, strict c b = Some t -> T t) /\ (forall b, T (replace c b)).

    Lemma g_chars b : gives T (chars_to_string cp b).
    Proof.
      unfold chars_to_string. destruct b as [|x b]; [apply gives_ret, HT; constructor|].
      destruct (tp_codec cp) as [c|]; [|apply gives_raise]. destruct (HP c eq_refl) as [H1 H2].
      destruct (strict c (x :: b)) as [t|] eqn:E; [apply gives_ret; eauto|].
      destruct (utf8_strict (x :: b)) as [t|] eqn:E8.
      - apply gives_ret, HT. now apply utf8_strict_inv in E8.
      - eapply gives_bind; [apply gives_any|]. intros _ _. apply gives_ret, H2.
    Qed.
    Lemma g_string b : gives T (read_string cp b).
    Proof.
      rewrite read_string_eq. destruct (split_nul [] b); [apply gives_raise|apply g_chars].
    Qed.

    (** Follow the code; a returned text has a known shape, other intermediate results
        are arbitrary. *)
    Ltac gstep :=
      lazymatch goal with
      | |- gives _ (ret _) => apply gives_ret
      | |- gives _ (raise _) => apply gives_raise
      | |- gives _ (read_string _ _) => apply g_string
      | |- gives _ (read_unicode_string _) => apply g_wide
      | |- gives _ (parse_uuid _) => apply g_uuid
      | |- gives _ (bind (read_string _ _) _) => eapply gives_bind; [apply g_string|intros ? ?]
      | |- gives _ (bind (read_unicode_string _) _) => eapply gives_bind; [apply g_wide|intros ? ?]
      | |- gives _ (bind (parse_uuid _) _) => eapply gives_bind; [apply g_uuid|intros ? ?]
      | |- gives _ (bind (parse_packed_uuid _) _) => eapply gives_bind; [apply g_packed|intros ? ?]
      | |- gives _ (bind (parse_dostime _) _) => eapply gives_bind; [apply g_dostime|intros ? ?]
      | |- gives _ (bind (parse_filetime _) _) => eapply gives_bind; [apply g_filetime|intros ? ?]
      | |- gives _ (bind (hot_key _) _) => eapply gives_bind; [apply g_hot_key|intros ? ?]
      | |- gives _ (bind (must_be_text _ _ (parse_uuid _)) _) =>
          eapply gives_bind; [apply g_must_be_text, g_uuid|intros ? ?]
      | |- gives _ (bind (bind _ _) _) => rewrite bind_assoc
      | |- gives _ (bind (ret _) _) => rewrite bind_ret_l
      | |- gives _ (bind (if ?b then _ else _) _) => destruct b
      | |- gives _ (bind _ _) => eapply gives_bind; [apply gives_any|intros ? _]
      | |- gives _ (if ?b then _ else _) => destruct b
      | |- gives _ (match ?x with _ => _ end) => destruct x
      end.
    Ltac leaf :=
      solve [ exact I | assumption | now apply HT | now apply wf_ascii
            | apply wf_ascii, hex_text_ascii | apply wf_ascii, sha_ascii | apply wf_name | apply wf_names
            | apply HT; constructor
            | now apply wf_scalars, Forall_slice
            | apply wf_scalars, ascii_replace_scalar
            | apply wf_opt; intros ? [= <-]; leaf | apply wf_opt; intros ? _; leaf
            | apply wf_ascii; apply app_ascii; [apply s2t_ascii|apply hexX_ascii] ].
    Ltac rows := repeat (apply Forall_cons; [cbn [snd]|]); [..|apply Forall_nil].
    Ltac entries := apply (wf_keys _ _ eq_refl); [reflexivity|reflexivity|
                      repeat (apply Forall_cons; [cbn [snd]|]); [..|apply Forall_nil]].

    (** ** Header *)
    Lemma g_header h : gives (fun d => wf (PDict d)) (header_dict h).
    Proof.
      apply gives_fields_dict; [reflexivity|reflexivity|]. rows;
        unfold link_cls_id, creation_time, access_time, write_time; repeat gstep; leaf.
    Qed.

    (** ** Items *)
    Lemma g_fs rt : gives (fun d => wf (PDict d)) (fs_as_item cp rt).
    Proof.
      unfold fs_as_item, fs_modification_time, fs_primary_name.
      do 4 gstep. rewrite bind_assoc. gstep. destruct a3; gstep; gstep; entries; leaf.
    Qed.

    Definition strings_ok (t : target) : Prop :=
      T (t_location t) /\ wf (POpt PStr (t_description t)) /\ wf (POpt PStr (t_comments t)).
    Lemma g_item t : strings_ok t -> gives (fun d => wf (PDict d)) (as_item cp t).
    Proof.
      intros (H1 & H2 & H3). unfold as_item. destruct (t_class t);
        unfold cpl_as_item, cpl_file_path, cpl_name_string, cpl_comments, cat_as_item, rf_as_item, mc_as_item,
          nl_as_item, cpanel_as_item, uf_as_item, unknown_as_item; try apply g_fs.
      11:{ gstep. eapply gives_bind; [apply g_fs|]. intros entry Hentry. repeat gstep. entries; leaf. }
      all: repeat gstep; entries; leaf.
    Qed.

    Lemma g_next it : Forall (gives T) it -> gives (fun r => T (fst r) /\ Forall (gives T) (snd r)) (next_string it).
    Proof.
      intros H. unfold next_string. destruct it as [|m it]; [apply gives_raise|]. inversion H; subst.
      eapply gives_bind; [eassumption|]. intros t Ht. now apply gives_ret.
    Qed.
    Lemma g_target_init c b : gives strings_ok (target_init c cp b).
    Proof.
      unfold target_init. eapply gives_bind; [apply gives_any|]. intros rt _.
      assert (H0 : strings_ok (Target c b rt [] None None)).
      { repeat split; try exact I. apply HT. constructor. }
      destruct c; try (apply gives_ret; exact H0). clear H0.
      unfold nl_init_strings. rewrite bind_assoc.
      eapply gives_bind.
      { apply g_next. unfold read_strings. rewrite Forall_map. apply Forall_forall. intros x _. apply g_chars. }
      intros [t1 it1] [H1 Hit1]. cbn [fst snd] in *.
      rewrite bind_assoc. eapply gives_bind; [apply gives_any|]. intros hd _.
      rewrite bind_assoc.
      apply (gives_bind (fun r => wf (POpt PStr (fst r)) /\ Forall (gives T) (snd r))).
      { destruct hd; [|now apply gives_ret]. eapply gives_bind; [now apply g_next|]. intros [t it] [Ht Hit].
        now apply gives_ret. }
      intros [t2 it2] [H2 Hit2]. cbn [fst snd] in *.
      rewrite bind_assoc. eapply gives_bind; [apply gives_any|]. intros hc _.
      rewrite bind_assoc.
      apply (gives_bind (fun r => wf (POpt PStr (fst r)) /\ Forall (gives T) (snd r))).
      { destruct hc; [|now apply gives_ret]. eapply gives_bind; [now apply g_next|]. intros [t it] [Ht Hit].
        now apply gives_ret. }
      intros [t3 it3] [H3 _]. rewrite bind_ret_l. apply gives_ret. now repeat split.
    Qed.
    Lemma g_next_target b : gives (fun r => match r with Some (t, _) => strings_ok t | None => True end) (next_target cp b).
    Proof.
      unfold next_target.
      assert (Hg : forall (P : option (target * bytes) -> Prop) m, gives P m -> gives P (in_generator m)).
      { intros P m H a. destruct m as [w [x|[]]]; cbn; try discriminate. exact (H a). }
      apply Hg. destruct b as [|x b]; [now apply gives_ret|].
      eapply gives_bind; [apply gives_any|]. intros [c|] _; [|now apply gives_ret].
      eapply gives_bind; [apply g_target_init|]. intros t Ht.
      eapply gives_bind; [apply gives_any|]. intros n _. now apply gives_ret.
    Qed.
    Lemma g_items_loop fuel : forall b, gives (Forall wf) (items_loop fuel cp b).
    Proof.
      induction fuel as [|fuel IH]; intros b; cbn [items_loop]; [apply gives_raise|].
      eapply gives_bind; [apply g_next_target|]. intros [[t r]|] Ht; [|apply gives_ret; constructor].
      apply (gives_bind (Forall wf)).
      { apply gives_try.
        - eapply gives_bind; [now apply g_item|]. intros d Hd. apply gives_ret. constructor; [exact Hd|constructor].
        - eapply gives_bind; [apply gives_any|]. intros _ _. apply gives_ret. constructor. }
      intros item Hi. eapply gives_bind; [apply IH|]. intros items His. apply gives_ret. now apply Forall_app.
    Qed.
    Lemma g_items b : gives (fun l => wf (PList l)) (items_of cp b).
    Proof. eapply gives_impl; [|apply g_items_loop]. intros l H. now apply wf_list. Qed.

    (** ** LinkInfo *)
    Lemma wf_entries (l1 l2 : dict) : Forall (fun e => wf (snd e)) l1 -> Forall (fun e => wf (snd e)) l2 ->
      Forall (fun e => wf (snd e)) (l1 ++ l2).
    Proof. intros. now apply Forall_app. Qed.

    Lemma g_opt_string (b : bytes) (c : bool) :
      gives (fun o => wf (POpt PStr o)) (if c then t <- read_string cp b ;; ret (Some t) else ret None).
    Proof. destruct c; repeat gstep; leaf. Qed.

    Ltac finish_keys :=
      repeat match goal with H : _ \/ _ |- _ => destruct H as [->|?] end;
      rewrite ?map_app; repeat match goal with H : map fst _ = _ |- _ => rewrite H end.

    Lemma g_local raw : gives (fun d => wf (PDict d)) (local_info_dict cp raw).
    Proof.
      unfold local_info_dict. eapply gives_bind; [apply gives_fields; rows|].
      all: try (unfold drive_serial_number, volume_label; repeat gstep; leaf).
      intros d [Hd1 Hd2]. eapply gives_bind; [apply gives_when; rows|].
      all: try (unfold volume_label_unicode; repeat gstep; leaf).
      intros d2 [Hk2 Hd3]. apply gives_ret.
      eapply wf_keys; [rewrite map_app, Hd1; reflexivity| | |now apply wf_entries];
        destruct Hk2 as [-> | ->]; reflexivity.
    Qed.
    Lemma g_network raw : gives (fun d => wf (PDict d)) (network_info_dict cp raw).
    Proof.
      unfold network_info_dict. eapply gives_bind; [apply gives_fields; rows|].
      all: try (unfold r_network_provider_type; repeat gstep; leaf).
      intros d [Hd1 Hd]. eapply gives_bind; [apply gives_when; rows|].
      all: try (repeat gstep; leaf).
      intros d2 [Hk2 Hd2]. eapply gives_bind; [apply gives_when; rows|].
      all: try (unfold net_name_unicode; repeat gstep; leaf).
      intros d3 [Hk3 Hd3]. eapply gives_bind; [apply gives_when; rows|].
      all: try (unfold device_name_unicode; repeat gstep; leaf).
      intros d4 [Hk4 Hd4]. eapply gives_bind; [apply gives_when; rows|].
      all: try (unfold net_name; repeat gstep; leaf).
      intros d5 [Hk5 Hd5]. eapply gives_bind; [apply gives_when; rows|].
      all: try (unfold device_name; repeat gstep; leaf).
      intros d6 [Hk6 Hd6]. apply gives_ret.
      eapply wf_keys; [rewrite !map_app, Hd1; reflexivity| | |repeat apply wf_entries; assumption];
        destruct Hk2 as [-> | ->], Hk3 as [-> | ->], Hk4 as [-> | ->], Hk5 as [-> | ->], Hk6 as [-> | ->]; reflexivity.
    Qed.
    Lemma g_info k raw : gives (fun d => wf (PDict d)) (info_dict cp k raw).
    Proof.
      unfold info_dict. eapply gives_bind; [apply gives_fields; rows|].
      all: try (repeat gstep; leaf).
      intros d [Hd1 Hd]. eapply gives_bind; [apply gives_when; rows|].
      all: try (unfold local_base_path; repeat gstep; leaf).
      intros d2 [Hk2 Hd2]. eapply gives_bind; [apply gives_when; rows|].
      all: try (unfold common_path_suffix; repeat gstep; leaf).
      intros d3 [Hk3 Hd3]. eapply gives_bind; [apply gives_when; rows|].
      all: try (unfold local_base_path_unicode; repeat gstep; leaf).
      intros d4 [Hk4 Hd4]. eapply gives_bind; [apply gives_when; rows|].
      all: try (unfold common_path_suffix_unicode; repeat gstep; leaf).
      intros d5 [Hk5 Hd5]. apply (gives_bind (fun d => wf (PDict d))).
      { destruct k; [apply g_local|apply g_network]. }
      intros li Hli. apply gives_ret.
      eapply wf_keys; [rewrite !map_app, Hd1; reflexivity| | |repeat apply wf_entries; try assumption].
      3:{ constructor; [exact Hli|]. constructor; [apply wf_name|constructor]. }
      all: destruct Hk2 as [-> | ->], Hk3 as [-> | ->], Hk4 as [-> | ->], Hk5 as [-> | ->]; reflexivity.
    Qed.

    (** ** Extra data *)
    Lemma wf_dicts ds : Forall (fun d => wf (PDict d)) ds -> wf (PList (map PDict ds)).
    Proof. intros H. apply wf_list. now rewrite Forall_map. Qed.
    Lemma g_tv raw : gives wf (tv_value raw).
    Proof. unfold tv_value. repeat gstep; leaf. Qed.
    Lemma g_property_type n : gives wf (property_type_name n).
    Proof. unfold property_type_name. repeat gstep; leaf. Qed.
    Lemma g_integer_name raw : gives (fun d => wf (PDict d)) (integer_name_dict raw).
    Proof.
      apply gives_fields_dict; [reflexivity|reflexivity|]. rows.
      3: apply g_tv. 3: gstep; apply g_property_type. all: unfold u32_field; repeat gstep; leaf.
    Qed.
    Lemma g_string_name raw : gives (fun d => wf (PDict d)) (string_name_dict raw).
    Proof.
      apply gives_fields_dict; [reflexivity|reflexivity|]. rows.
      4: gstep; apply g_tv. 4: gstep; gstep; apply g_property_type. all: repeat gstep; leaf.
    Qed.
    Lemma g_storage raw : gives (fun d => wf (PDict d)) (storage_dict raw).
    Proof.
      apply gives_fields_dict; [reflexivity|reflexivity|]. rows.
      4:{ gstep. destruct a as [b vs]. eapply gives_bind.
          - apply gives_mapM. intros x. destruct b; [apply g_string_name|apply g_integer_name].
          - intros ds Hds. apply gives_ret. now apply wf_dicts. }
      all: unfold u32_field, ps_format_id; repeat gstep; leaf.
    Qed.
    Lemma g_feature raw : gives (fun o => wf (POpt PStr o)) (feature_name raw).
    Proof. unfold feature_name, darwin_data_unicode. repeat gstep; leaf. Qed.
    Lemma g_component raw : gives (fun o => wf (POpt PStr o)) (component_id raw).
    Proof. unfold component_id, darwin_data_unicode. repeat gstep; leaf. Qed.
    Lemma g_product raw : gives ascii_only (product_code_id raw).
    Proof. unfold product_code_id. gstep. apply g_packed. Qed.

    Lemma g_extra e : gives (fun d => wf (PDict d)) (extra_as_dict cp e).
    Proof.
      unfold extra_as_dict. destruct (ex_class e);
        (apply gives_fields_dict; [reflexivity|reflexivity|]; unfold base_fields; cbn [app]; rows);
        unfold u32_field, u16_field, i16_field, uuid_field, str_field, ustr_field, darwin_data_unicode;
        try (repeat gstep; leaf).
      - eapply gives_bind; [apply g_product|]. intros t Ht. apply gives_ret. leaf.
      - eapply gives_bind; [apply g_feature|]. intros t Ht. apply gives_ret. leaf.
      - eapply gives_bind; [apply g_component|]. intros t Ht. apply gives_ret. leaf.
      - gstep. eapply gives_bind; [apply gives_mapM; intros x; apply g_storage|].
        intros ds Hds. apply gives_ret. now apply wf_dicts.
      - gstep. eapply gives_bind; [apply g_items|]. intros l Hl. apply gives_ret. exact Hl.
    Qed.
    Definition block_names : list string :=
      map extra_name [Environment; Console; DistributedTracker; CodePage; SpecialFolder; Darwin; Icon;
                      ShimLayer; Metadata; KnownFolder; ShellItem; UnknownExtra; Terminal].
    Lemma block_name_in c : In (extra_name c) block_names.
    Proof. apply in_map. destruct c; cbn; tauto. Qed.
    Lemma g_add_block res e : filled block_names res -> gives (filled block_names) (add_block cp res e).
    Proof.
      intros H. unfold add_block.
      assert (H1 : gives (filled block_names)
        (try_except (d <- extra_as_dict cp e ;; ret (dset (extra_name (ex_class e)) (PDict d) res))
           is_struct_or_value_error (warn (WExtraBlock (extra_name (ex_class e))) ;;; ret res))).
      { apply gives_try.
        - eapply gives_bind; [apply g_extra|]. intros d Hd. apply gives_ret.
          apply filled_dset; [apply block_name_in|exact Hd|exact H].
        - gstep. now apply gives_ret. }
      destruct (ex_class e); try exact H1. clear H1.
      assert (H1 : filled block_names
        (if dmem (extra_name UnknownExtra) res then res else dset (extra_name UnknownExtra) (PList []) res)).
      { destruct (dmem _ _); [exact H|]. apply filled_dset; [apply (block_name_in UnknownExtra)|exact I|exact H]. }
      cbv zeta. apply gives_try.
      - eapply gives_bind; [apply g_extra|]. intros d Hd. apply gives_ret. apply filled_dupd; [|exact H1].
        intros [] Hv; try exact Hv. apply wf_list in Hv. apply wf_list. apply Forall_app. split; [exact Hv|].
        constructor; [exact Hd|constructor].
      - gstep. now apply gives_ret.
    Qed.
    Lemma g_extras l : forall res, filled block_names res -> gives (filled block_names) (extras_loop cp res l).
    Proof.
      induction l as [|e l IH]; intros res H; cbn [extras_loop]; [now apply gives_ret|].
      eapply gives_bind; [now apply g_add_block|]. intros r Hr. now apply IH.
    Qed.

    (** ** StringData *)
    Definition string_names : list string := map (fun f => snd (fst f)) sd_fields.
    Lemma g_sd_read h b limit : gives (fun r => T (fst r)) (sd_read h cp b limit).
    Proof.
      unfold sd_read. gstep. gstep. apply (gives_bind T).
      - destruct a0; [eapply gives_impl; [apply HT|apply g_wide]|apply g_string].
      - intros t Ht. now apply gives_ret.
    Qed.
    Lemma g_sd_loop h raw fs : incl (map (fun f => snd (fst f)) fs) string_names -> forall st,
      filled string_names (sd_data st) ->
      gives (fun st => filled string_names (sd_data st)) (sd_loop fs h cp raw st).
    Proof.
      induction fs as [|[[f n] lim] fs IH]; intros Hi st Hst; cbn [sd_loop]; [now apply gives_ret|].
      assert (Hi' : incl (map (fun f => snd (fst f)) fs) string_names) by (intros x Hx; apply Hi; now right).
      destruct (has_flag f h) as [w [[|]|e]].
      - pose proof (g_sd_read h (dropN (sd_size st) raw) lim) as Hr.
        destruct (sd_read _ _ _ _) as [w1 [[t len]|e]].
        + specialize (Hr _ eq_refl). cbn [fst] in Hr.
          specialize (IH Hi' (SD (dset n (PStr t) (sd_data st)) (sd_size st + len))).
          destruct (sd_loop _ _ _ _ _) as [w2 r]. intros a Ha. apply IH; [|exact Ha].
          cbn [sd_data]. apply filled_dset; [apply Hi; now left|exact Hr|exact Hst].
        + destruct (is_struct_error e); intros a [= <-]. exact Hst.
      - now apply IH.
      - destruct (is_struct_error e); intros a [= <-]. exact Hst.
    Qed.
    Lemma g_strings h b : gives (fun st => filled string_names (sd_data st)) (string_data_init h cp b).
    Proof. unfold string_data_init. apply g_sd_loop; [apply incl_refl|apply filled_nil]. Qed.

    (** ** The whole report *)
    Lemma g_full l : l_cp l = cp -> filled string_names (sd_data (l_string_data l)) ->
      gives (fun d => wf (PDict d)) (full_json l).
    Proof.
      intros Hcp Hsd. unfold full_json. rewrite Hcp.
      eapply gives_bind; [apply g_header|]. intros h Hh.
      apply (gives_bind (fun d => (map fst d = [] \/ map fst d = ["target"%string]) /\ Forall (fun e => wf (snd e)) d)).
      { destruct (l_targets l) as [t|]; [|apply gives_ret; split; [now left|constructor]].
        unfold target_dict, targets_as_list. rewrite Hcp.
        eapply gives_bind; [apply gives_fields_dict; [reflexivity|reflexivity|rows]|].
        - repeat gstep; leaf.
        - eapply gives_bind; [apply g_items|]. intros items Hi. apply gives_ret. exact Hi.
        - gstep. leaf.
        - intros d Hd. apply gives_ret. split; [now right|]. constructor; [exact Hd|constructor]. }
      intros t [Ht1 Ht2].
      apply (gives_bind (fun d => wf (PDict d))).
      { destruct (l_info l) as [[k raw]|]; [apply g_info|]. apply gives_ret.
        apply (wf_keys [] [] eq_refl); [reflexivity|reflexivity|constructor]. }
      intros i Hi. eapply gives_bind; [apply g_extras, filled_nil|]. intros e He. apply gives_ret.
      eapply wf_keys; [rewrite !map_app; reflexivity| | |].
      1,2: destruct Ht1 as [-> | ->]; reflexivity.
      repeat apply wf_entries; try assumption; repeat (apply Forall_cons; [cbn [snd]|]); try apply Forall_nil; try assumption.
      - exact I.
      - apply (filled_wf string_names); [reflexivity|exact Hsd].
      - apply (filled_wf block_names); [reflexivity|exact He].
    Qed.
  End Page.
End Shape.
