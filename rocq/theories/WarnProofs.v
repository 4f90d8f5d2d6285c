(** * Which warnings can be emitted where (for C06)

    Only the header's accessors emit the warnings about prescribed header values; of the rest
    of the code only the tracker block checks prescribed values (Length and Version). *)
From Verif Require Import Lemmas PyTime Codec Utils Sha256 Header StringData Targets Info Extra LnkFile.
From Verif Require Import Spec SpecHeader OutcomeProofs LayoutProofs CoreProofs FormatProofs EncProofs HeaderProofs ApiProofs.

(** Not a warning about a header field. *)
Definition ordinary (w : warning) : Prop :=
  match w with WMustBe s => s = "length"%string \/ s = "version"%string | _ => True end.
Definition warns {A} (m : M A) : Prop := Forall ordinary (fst m).

Lemma warns_ret {A} (a : A) : warns (ret a). Proof. constructor. Qed.
Lemma warns_raise {A} e : warns (@raise A e). Proof. constructor. Qed.
Lemma warns_warn w : ordinary w -> warns (warn w). Proof. intros H. constructor; [exact H|constructor]. Qed.
Lemma warns_bind {A B} (m : M A) (f : A -> M B) : warns m -> (forall a, warns (f a)) -> warns (bind m f).
Proof.
  unfold warns, bind. destruct m as [w [a|e]]; cbn [fst]; intros Hm Hf; [|exact Hm].
  specialize (Hf a). destruct (f a) as [w' r]. cbn [fst] in *. apply Forall_app. now split.
Qed.
Lemma warns_bind' {A B} (m : M A) (f : A -> M B) : warns m -> (forall a, snd m = Ok a -> warns (f a)) -> warns (bind m f).
Proof.
  unfold warns, bind. destruct m as [w [a|e]]; cbn [fst snd]; intros Hm Hf; [|exact Hm].
  specialize (Hf a eq_refl). destruct (f a) as [w' r]. cbn [fst] in *. apply Forall_app. now split.
Qed.
Lemma warns_try {A} (m : M A) sel h : warns m -> warns h -> warns (try_except m sel h).
Proof.
  unfold warns, try_except. destruct m as [w [a|e]]; cbn [fst]; intros Hm Hh; [exact Hm|].
  destruct (sel e); [|exact Hm]. destruct h as [w' r]. cbn [fst] in *. apply Forall_app. now split.
Qed.
Lemma warns_mapM {A B} (f : A -> M B) l : (forall a, warns (f a)) -> warns (mapM f l).
Proof.
  intros H. induction l as [|x l IH]; cbn [mapM]; [apply warns_ret|].
  apply warns_bind; [apply H|]. intros b. apply warns_bind; [apply IH|]. intros; apply warns_ret.
Qed.
Lemma warns_fields rows : (forall k m, In (k, m) rows -> warns m) -> warns (fields rows).
Proof.
  induction rows as [|[k m] rows IH]; intros H; cbn [fields]; [apply warns_ret|].
  apply warns_bind; [apply (H k m); now left|]. intros v.
  apply warns_bind; [apply IH; intros k' m' Hi; apply (H k' m'); now right|]. intros; apply warns_ret.
Qed.

Create HintDb warns.
Ltac head t := lazymatch t with ?f _ => head f | _ => t end.
Ltac wstep :=
  lazymatch goal with
  | |- ordinary _ => exact I
  | |- warns (ret _) => apply warns_ret
  | |- warns (raise _) => apply warns_raise
  | |- warns (warn _) => apply warns_warn
  | |- warns (bind _ _) => apply warns_bind; [|intros ?]
  | |- warns (try_except _ _ _) => apply warns_try
  | |- warns (mapM _ _) => apply warns_mapM; intros ?
  | |- warns (fields _) =>
      apply warns_fields; let k := fresh "key" in let m := fresh "m" in let Hin := fresh "Hin" in
      intros k m Hin; cbn [In app base_fields] in Hin; repeat (destruct Hin as [[= <- <-]|Hin]); [..|contradiction]
  | |- warns (if ?b then _ else _) => destruct b
  | |- warns ((if ?b then _ else _) _) => destruct b
  | |- warns ([], _) => constructor
  | |- warns (match ?x with _ => _ end) => destruct x
  | |- warns ?m => let h := head m in unfold h
  end.
Ltac wsolve := repeat first [ solve [auto 3 with warns nocore] | wstep ].

Lemma w_unpack n b : warns (unpack_le n b). Proof. wsolve. Qed.
#[export] Hint Resolve w_unpack : warns.
Lemma w_parse_uuid b : warns (parse_uuid b). Proof. wsolve. Qed.
Lemma w_parse_filetime b : warns (parse_filetime b). Proof. wsolve. Qed.
Lemma w_parse_dostime b : warns (parse_dostime b). Proof. wsolve. Qed.
#[export] Hint Resolve w_parse_uuid w_parse_filetime w_parse_dostime : warns.
Lemma w_has_flag n raw : warns (has_flag n raw). Proof. wsolve. Qed.
Lemma w_chars_to_string cp b : warns (chars_to_string cp b). Proof. wsolve. Qed.
Lemma w_uchars_to_string b : warns (uchars_to_string b). Proof. wsolve. Qed.
#[export] Hint Resolve w_has_flag w_chars_to_string w_uchars_to_string : warns.
Lemma w_read_string cp b : warns (read_string cp b).
Proof. rewrite read_string_eq. wsolve. Qed.
Lemma w_read_unicode_string b : warns (read_unicode_string b).
Proof. rewrite read_unicode_string_eq. wsolve. Qed.
#[export] Hint Resolve w_read_string w_read_unicode_string : warns.

Lemma w_next_string it : (forall m, In m it -> warns m) -> warns (next_string it).
Proof.
  intros H. unfold next_string. destruct it as [|m it]; [apply warns_raise|].
  apply warns_bind; [apply H; now left|intros; apply warns_ret].
Qed.
Lemma w_nl_init_strings cp rt : warns (nl_init_strings cp rt).
Proof.
  assert (Hall : forall m, In m (read_strings cp (dropN 3 rt)) -> warns m).
  { intros m Hm. unfold read_strings in Hm. apply in_map_iff in Hm as (x & <- & _). apply w_chars_to_string. }
  unfold nl_init_strings. apply warns_bind'; [now apply w_next_string|]. intros [t1 it1] H1.
  apply next_string_rest in H1 as [m1 E1]. cbn [snd] in E1. rewrite E1 in Hall.
  assert (Hall1 : forall m, In m it1 -> warns m) by (intros m Hm; apply Hall; now right).
  apply warns_bind; [wsolve|]. intros hd. apply warns_bind'.
  { destruct hd; [|apply warns_ret]. apply warns_bind; [now apply w_next_string|]. intros; apply warns_ret. }
  intros [t2 it2] H2.
  assert (Hall2 : forall m, In m it2 -> warns m).
  { destruct hd.
    - apply snd_bind_Ok in H2 as ([t' it'] & H2 & [= _ <-]). apply next_string_rest in H2 as [m2 E2].
      cbn in E2. subst it1. intros m Hm. apply Hall1. now right.
    - injection H2 as _ <-. assumption. }
  apply warns_bind; [wsolve|]. intros hc. apply warns_bind; [|intros; apply warns_ret].
  destruct hc; [|apply warns_ret]. apply warns_bind; [now apply w_next_string|]. intros; apply warns_ret.
Qed.
#[export] Hint Resolve w_nl_init_strings : warns.
Lemma w_as_item cp t : warns (as_item cp t).
Proof. wsolve. Qed.
#[export] Hint Resolve w_as_item : warns.
Lemma w_in_generator {A} (m : M A) : warns m -> warns (in_generator m).
Proof. unfold warns, in_generator. destruct m as [w [a|[]]]; intros H; exact H. Qed.
Lemma w_next_target cp b : warns (next_target cp b).
Proof. unfold next_target. apply w_in_generator. wsolve. Qed.
#[export] Hint Resolve w_next_target : warns.
Lemma w_items_loop fuel cp b : warns (items_loop fuel cp b).
Proof. revert b; induction fuel as [|f IH]; intros b; cbn [items_loop]; wsolve. Qed.
#[export] Hint Resolve w_items_loop : warns.
Lemma w_items_of cp b : warns (items_of cp b).
Proof. apply w_items_loop. Qed.
Lemma w_sized_suffixes fuel b : warns (sized_suffixes fuel b).
Proof. revert b; induction fuel as [|f IH]; intros b; cbn [sized_suffixes]; wsolve. Qed.
Lemma w_quad_loop q i z : warns (quad_loop q i z).
Proof. revert z; induction i as [|i IH]; intros z; cbn [quad_loop]; wsolve. Qed.
#[export] Hint Resolve w_items_of w_sized_suffixes w_quad_loop : warns.
Lemma w_must_be_N s n m : ordinary (WMustBe s) -> warns m -> warns (must_be_N s n m).
Proof. intros Hs Hm. unfold must_be_N. apply warns_bind; [exact Hm|]. intros a. destruct (a =? n); wsolve. Qed.
Lemma w_extra_as_dict cp e : warns (extra_as_dict cp e).
Proof.
  unfold extra_as_dict. destruct (ex_class e).
  all: repeat first [ solve [auto 3 with warns nocore]
    | lazymatch goal with |- warns (must_be_N _ _ _) => apply w_must_be_N; [cbn; auto|] end | wstep ].
Qed.
#[export] Hint Resolve w_extra_as_dict : warns.
Lemma w_extras_as_dict cp l : warns (extras_as_dict cp l).
Proof.
  unfold extras_as_dict. generalize (@nil (string * pyval)).
  induction l as [|e l IH]; intros res; cbn [extras_loop]; wsolve.
Qed.
Lemma w_info_dict cp k raw : warns (info_dict cp k raw).
Proof. wsolve. Qed.
Lemma w_target_dict l t : warns (target_dict l t).
Proof. wsolve. Qed.
#[export] Hint Resolve w_extras_as_dict w_info_dict w_target_dict : warns.

(** All of the report except the header. *)
Lemma get_json_warnings l all w d :
  header_dict (l_header l) = (w, Ok d) ->
  exists others, fst (get_json l all) = w ++ others /\ Forall ordinary others.
Proof.
  intros H. unfold get_json, full_json. rewrite bind_assoc, H, bind_Ok. cbn [fst].
  eexists. split; [reflexivity|].
  match goal with |- Forall ordinary (fst ?m) => change (warns m) end.
  rewrite bind_assoc. apply warns_bind; [destruct (l_targets l); wsolve|]. intros.
  rewrite bind_assoc. apply warns_bind; [destruct (l_info l) as [[? ?]|]; wsolve|]. intros.
  rewrite bind_assoc. apply warns_bind; [wsolve|]. intros. wsolve.
Qed.


Lemma w_sd_read header cp b limit : warns (sd_read header cp b limit).
Proof. wsolve. Qed.
Lemma w_sd_loop fs header cp raw st : warns (sd_loop fs header cp raw st).
Proof.
  revert st; induction fs as [|[[flag name] limit] fs IH]; intros st; cbn [sd_loop]; [apply warns_ret|].
  pose proof (w_has_flag flag header) as HF. unfold warns in HF.
  destruct (has_flag flag header) as [w [[]|e]]; cbn [fst] in HF.
  - pose proof (w_sd_read header cp (dropN (sd_size st) raw) limit) as HR. unfold warns in HR.
    destruct (sd_read _ _ _ _) as [w' [[t n]|e]]; cbn [fst] in HR.
    + specialize (IH (SD (dset name (PStr t) (sd_data st)) (sd_size st + n))). unfold warns in IH.
      destruct (sd_loop _ _ _ _ _) as [w2 r]. unfold warns. cbn [fst] in *. apply Forall_app. now split.
    + unfold warns. destruct (is_struct_error e); cbn [fst]; [|assumption]. apply Forall_app. split; [assumption|].
      repeat constructor.
  - apply IH.
  - unfold warns. destruct (is_struct_error e); cbn [fst]; [|assumption]. apply Forall_app. split; [assumption|].
    repeat constructor.
Qed.
Lemma w_extra_loop fuel rest : warns (extra_loop fuel rest).
Proof.
  revert rest; induction fuel as [|f IH]; intros rest; cbn [extra_loop]; [apply warns_raise|].
  destruct rest as [|x r]; [apply warns_ret|].
  assert (HF : warns (ef_item_size (x :: r))) by wsolve. unfold warns in HF.
  destruct (ef_item_size (x :: r)) as [w [n|e]]; cbn [fst] in HF.
  - wsolve.
  - unfold warns. destruct (is_struct_error e); cbn [fst]; [|assumption]. apply Forall_app. split; [assumption|].
    repeat constructor.
Qed.
Lemma w_extras_size l : warns (extras_size l).
Proof. induction l as [|e l IH]; cbn [extras_size]; wsolve. Qed.
#[export] Hint Resolve w_sd_loop w_extra_loop w_extras_size : warns.

(** Of the header, the constructor checks HeaderSize only (twice). *)
Lemma init_warnings h rest cp allow :
  wf_header h ->
  exists others, fst (lnk_init (FromBytes (encode_header h ++ rest)) cp allow) = size_warning h ++ size_warning h ++ others
    /\ Forall ordinary others.
Proof.
  intros Hwf. set (b := encode_header h ++ rest).
  assert (HB : exists x b0, b = x :: b0). { unfold b, encode_header, enc32, enc16. cbn [app]. eauto. }
  destruct HB as (x & b0 & HB). rewrite HB. cbn [lnk_init]. rewrite <- HB. unfold process.
  assert (E1 : header_init b = (size_warning h, Ok (takeN (h_size h) b))).
  { rewrite HB. cbn [header_init]. rewrite <- HB. unfold header_size.
    assert (ES : unpack_u32 (slice 0 4 b) = ret (h_size h)).
    { unfold b, encode_header. rewrite <- app_assoc. slices. apply unpack_enc32. apply Hwf. }
    rewrite ES. rewrite must_be_N_ret, bind_Ok. unfold ret. rewrite app_nil_r. reflexivity. }
  rewrite E1, bind_Ok. cbn [fst]. pose proof (hp_size h rest Hwf) as E2. fold b in E2. rewrite E2, bind_Ok. cbn [fst].
  eexists. split; [reflexivity|].
  match goal with |- Forall ordinary (fst ?m) => change (warns m) end. wsolve.
Qed.

(** C06: each prescribed value of the header warns iff it is violated. *)
Lemma in_must_be w s ok : In w (must_be s ok) <-> w = WMustBe s /\ ok = false.
Proof. unfold must_be. destruct ok; cbn; split; intuition congruence. Qed.
Lemma ordinary_not w l : Forall ordinary l -> ~ ordinary w -> ~ In w l.
Proof. intros H N I. rewrite Forall_forall in H. apply N, H, I. Qed.
Lemma filetime_warnings b : Forall ordinary (fst (parse_filetime b)).
Proof. apply w_parse_filetime. Qed.

Lemma clsid_text : guid_text link_clsid = link_clsid_text. Proof. vm_compute. reflexivity. Qed.

Lemma header_warnings h rest cp allow l all :
  wf_header h -> snd (lnk_init (FromBytes (encode_header h ++ rest)) cp allow) = Ok l ->
  (In (WMustBe "size") (fst (get_json l all)) <-> h_size h <> 76)
  /\ (In (WMustBe "link_cls_id") (fst (get_json l all)) <-> h_clsid h <> link_clsid)
  /\ (In (WMustBe "reserved0") (fst (get_json l all)) <-> h_res1 h <> 0)
  /\ (In (WMustBe "reserved1") (fst (get_json l all)) <-> h_res2 h <> 0)
  /\ (In (WMustBe "reserved2") (fst (get_json l all)) <-> h_res3 h <> 0).
Proof.
  intros Hwf Hl. apply init_header in Hl as (_ & _ & Hl). rewrite header_len_encode in Hl by assumption.
  destruct (parse_filetime_total (h_ctime h) ltac:(apply Hwf)) as (wc & c & Hc).
  destruct (parse_filetime_total (h_atime h) ltac:(apply Hwf)) as (wa & a & Ha).
  destruct (parse_filetime_total (h_wtime h) ltac:(apply Hwf)) as (ww & w & Hw).
  pose proof (hp_dict h rest Hwf _ _ _ _ _ _ Hc Ha Hw) as HD. rewrite <- Hl in HD.
  apply (get_json_warnings l all) in HD as (others & -> & HO).
  pose proof (filetime_warnings (enci64 (h_ctime h))) as FC. rewrite Hc in FC. cbn [fst] in FC.
  pose proof (filetime_warnings (enci64 (h_atime h))) as FA. rewrite Ha in FA. cbn [fst] in FA.
  pose proof (filetime_warnings (enci64 (h_wtime h))) as FW. rewrite Hw in FW. cbn [fst] in FW.
  unfold clsid_warning, size_warning, reserved_warnings. rewrite !in_app_iff, !in_must_be.
  assert (OUT : forall s l, Forall ordinary l -> s <> "length"%string -> s <> "version"%string -> ~ In (WMustBe s) l).
  { intros s l' HF H1 H2. apply ordinary_not; [assumption|]. cbn. intuition. }
  assert (CL : text_eqb (guid_text (h_clsid h)) link_clsid_text = false <-> h_clsid h <> link_clsid).
  { rewrite text_eqb_neq, <- clsid_text. destruct Hwf as (_ & _ & HL & _). split; intros H E; apply H; [now rewrite E|].
    now apply guid_text_inj in E. }
  rewrite CL.
  repeat split; intros H.
  all: try (repeat match goal with
    | H : _ \/ _ |- _ => destruct H as [H|H]
    | H : _ /\ _ |- _ => destruct H
    | H : WMustBe _ = WMustBe _ |- _ => discriminate H
    | H : In (WMustBe ?s) ?l |- _ => exfalso; apply (OUT s l); [assumption|discriminate|discriminate|exact H]
    end; solve [assumption | now apply N.eqb_neq]).
  all: try apply N.eqb_neq in H; intuition.
Qed.
Lemma constructor_warnings h rest cp allow :
  wf_header h ->
  (In (WMustBe "size") (fst (lnk_init (FromBytes (encode_header h ++ rest)) cp allow)) <-> h_size h <> 76).
Proof.
  intros Hwf. destruct (init_warnings h rest cp allow Hwf) as (others & -> & HO).
  unfold size_warning. rewrite !in_app_iff, in_must_be, <- N.eqb_neq. split.
  - intros [[_ H]|[[_ H]|H]]; try assumption. exfalso. revert H. apply ordinary_not; [assumption|].
    cbn. intros [H|H]; discriminate H.
  - intros H. left. now split.
Qed.
