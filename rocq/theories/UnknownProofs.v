(** * A code page that does not exist (C66) *)
From Verif Require Import Lemmas PyTime Codec Utils Sha256 Header StringData Targets Info Extra LnkFile Report.
From Verif Require Import Spec SpecText SpecUnknown.
From Verif Require Import OutcomeProofs LayoutProofs CoreProofs TextProofs ConstructProofs.

Section Unknown.
  Variable cp : cp_arg.

  (** The same, or stopped by a LookupError. *)
  Definition stops_at_most {A} (m1 m2 : M A) : Prop :=
    m1 = m2 \/ exists w w' r, m1 = (w, Err LookupError) /\ m2 = (w ++ w', r).
  Notation "m1 '<~' m2" := (stops_at_most m1 m2) (at level 70).

  Lemma sm_same {A} (m : M A) : m <~ m.
  Proof. now left. Qed.
  Lemma sm_bind {A B} (m1 m2 : M A) (f1 f2 : A -> M B) : m1 <~ m2 -> (forall a, f1 a <~ f2 a) -> bind m1 f1 <~ bind m2 f2.
  Proof.
    intros [->|(w & w' & r & -> & ->)] HF.
    - destruct m2 as [w [a|e]]; [|now left]. destruct (HF a) as [E|(v & v' & r & E1 & E2)].
      + left. rewrite !bind_Ok. now rewrite E.
      + right. rewrite !bind_Ok, E1, E2. cbn [fst snd]. exists (w ++ v), v', r. now rewrite app_assoc.
    - right. destruct r as [a|e].
      + rewrite bind_Ok. exists w. eexists. eexists. split; [reflexivity|]. now rewrite <- app_assoc.
      + exists w, w'. eexists. split; reflexivity.
  Qed.
  Lemma sm_try {A} (m1 m2 : M A) sel h : sel LookupError = false -> m1 <~ m2 -> try_except m1 sel h <~ try_except m2 sel h.
  Proof.
    intros HS [->|(w & w' & r & -> & ->)]; [now left|]. right. cbn [try_except]. rewrite HS. destruct r as [a|e].
    - exists w, w'. eexists. split; reflexivity.
    - destruct (sel e); [|exists w, w'; eexists; split; reflexivity]. destruct h as [v r]. exists w. eexists. eexists.
      split; [reflexivity|]. now rewrite <- app_assoc.
  Qed.
  Lemma sm_generator {A} (m1 m2 : M A) : m1 <~ m2 -> in_generator m1 <~ in_generator m2.
  Proof.
    intros [->|(w & w' & r & -> & ->)]; [now left|]. right. cbn [in_generator]. exists w, w'.
    destruct r as [a|[]]; eexists; split; reflexivity.
  Qed.
  Definition row_stops (r1 r2 : string * M pyval) : Prop := fst r1 = fst r2 /\ snd r1 <~ snd r2.
  Lemma sm_fields rows1 rows2 : Forall2 row_stops rows1 rows2 -> fields rows1 <~ fields rows2.
  Proof.
    induction 1 as [|[k1 m1] [k2 m2] rows1 rows2 [HK HM] _ IH]; [apply sm_same|]. cbn [fst snd] in *. subst k2. cbn [fields].
    apply sm_bind; [assumption|]. intros a. apply sm_bind; [assumption|]. intros d. apply sm_same.
  Qed.

  (** ** Strings *)
  Lemma sm_chars s : chars_to_string CpUnknown s <~ chars_to_string cp s.
  Proof.
    unfold chars_to_string. destruct s as [|x s]; [apply sm_same|]. right. cbn [tp_codec].
    match goal with |- exists w w' r, _ /\ ?m = _ => destruct m as [w' r]; now exists [], w', r end.
  Qed.
  Lemma sm_strings f : Forall2 stops_at_most (read_strings CpUnknown f) (read_strings cp f).
  Proof. unfold read_strings. induction (split_nul [] f); constructor; [apply sm_chars|assumption]. Qed.
  Lemma sm_read f : read_string CpUnknown f <~ read_string cp f.
  Proof.
    unfold read_string. destruct (sm_strings f) as [|m1 m2 i1 i2 H1 H2]; [apply sm_same|]. cbn [next_string].
    destruct H1 as [->|(w & w' & r & -> & ->)].
    - left. destruct m2 as [w [a|e]]; reflexivity.
    - right. destruct r as [a|e].
      + exists w, w'. eexists. split; [reflexivity|]. cbn. rewrite !app_nil_r. reflexivity.
      + exists w, w'. eexists. split; reflexivity.
  Qed.

  Ltac rows := apply sm_fields; repeat (apply Forall2_cons; [split; [reflexivity|]; cbn [snd]|]); try apply Forall2_nil.
  Ltac step :=
    first [apply sm_same | apply sm_read | assumption
          | apply sm_bind; [|intros ?]
          | progress cbv zeta
          | match goal with
            | |- (if ?x then _ else _) <~ _ => destruct x
            | |- (match ?x with _ => _ end) <~ _ => destruct x
            end ].
  Ltac go := repeat step.

  (** ** Items *)
  Lemma sm_fs rt : fs_as_item CpUnknown rt <~ fs_as_item cp rt.
  Proof. unfold fs_as_item, fs_primary_name. go. Qed.
  Lemma sm_mc rt : mc_as_item CpUnknown rt <~ mc_as_item cp rt.
  Proof. unfold mc_as_item. go. Qed.
  Lemma sm_cpl rt : cpl_as_item CpUnknown rt <~ cpl_as_item cp rt.
  Proof. unfold cpl_as_item, cpl_file_path, cpl_name_string, cpl_comments. go. Qed.
  Lemma sm_uf rt : uf_as_item CpUnknown rt <~ uf_as_item cp rt.
  Proof. unfold uf_as_item. cbv zeta. apply sm_bind; [apply sm_same|intros ?]. apply sm_bind; [apply sm_fs|intros ?]. apply sm_same. Qed.
  Lemma sm_item t : as_item CpUnknown t <~ as_item cp t.
  Proof.
    unfold as_item. cbv zeta. destruct (t_class t); try apply sm_same; [apply sm_cpl|apply sm_mc|apply sm_fs|apply sm_uf].
  Qed.

  (** The generator of a network location: two texts and the rest of the generator. *)
  Definition next_stops (m1 m2 : M (text * list (M text))) : Prop :=
    (exists w t i1 i2, m1 = (w, Ok (t, i1)) /\ m2 = (w, Ok (t, i2)) /\ Forall2 stops_at_most i1 i2)
    \/ (exists w e, m1 = (w, Err e) /\ m2 = (w, Err e))
    \/ exists w w' r, m1 = (w, Err LookupError) /\ m2 = (w ++ w', r).
  Lemma sm_next i1 i2 : Forall2 stops_at_most i1 i2 -> next_stops (next_string i1) (next_string i2).
  Proof.
    intros [|m1 m2 j1 j2 H1 H2]; [right; left; now exists [], StopIteration|]. cbn [next_string].
    destruct H1 as [->|(w & w' & r & -> & ->)].
    - destruct m2 as [w [a|e]]; [left|right; left].
      + exists w, a, j1, j2. cbn. rewrite app_nil_r. now repeat split.
      + exists w, e. now split.
    - right. right. destruct r as [a|e]; cbn; exists w, w'; eexists; (split; [reflexivity|]); [now rewrite app_nil_r|reflexivity].
  Qed.
  Lemma sm_then {B} m1 m2 (f1 f2 : text * list (M text) -> M B) : next_stops m1 m2 ->
    (forall t i1 i2, Forall2 stops_at_most i1 i2 -> f1 (t, i1) <~ f2 (t, i2)) -> bind m1 f1 <~ bind m2 f2.
  Proof.
    intros [(w & t & i1 & i2 & -> & -> & HI)|[(w & e & -> & ->)|(w & w' & r & -> & ->)]] HF.
    - rewrite !bind_Ok. destruct (HF t i1 i2 HI) as [->|(v & v' & r & -> & ->)]; [apply sm_same|]. right. cbn [fst snd].
      exists (w ++ v), v', r. now rewrite app_assoc.
    - apply sm_same.
    - right. destruct r as [a|e].
      + rewrite bind_Ok. exists w. eexists. eexists. split; [reflexivity|]. now rewrite <- app_assoc.
      + exists w, w'. eexists. split; reflexivity.
  Qed.
  Lemma sm_nl rt : nl_init_strings CpUnknown rt <~ nl_init_strings cp rt.
  Proof.
    unfold nl_init_strings. cbv zeta. apply sm_then; [apply sm_next, sm_strings|]. intros t i1 i2 HI.
    apply sm_bind; [apply sm_same|]. intros [|].
    - rewrite !bind_assoc. apply sm_then; [now apply sm_next|]. intros t2 j1 j2 HJ. rewrite !bind_ret_l. cbn [fst snd].
      apply sm_bind; [apply sm_same|]. intros [|]; [|apply sm_same].
      rewrite !bind_assoc. apply sm_then; [now apply sm_next|]. intros t3 k1 k2 _. rewrite !bind_ret_l. apply sm_same.
    - rewrite !bind_ret_l. apply sm_bind; [apply sm_same|]. intros [|]; [|apply sm_same].
      rewrite !bind_assoc. apply sm_then; [now apply sm_next|]. intros t3 k1 k2 _. rewrite !bind_ret_l. apply sm_same.
  Qed.
  Lemma sm_target c raw : target_init c CpUnknown raw <~ target_init c cp raw.
  Proof.
    unfold target_init. apply sm_bind; [apply sm_same|]. intros rt. destruct c; try apply sm_same.
    apply sm_bind; [apply sm_nl|]. intros [[a b] c]. apply sm_same.
  Qed.
  Lemma sm_items_loop fuel rest : items_loop fuel CpUnknown rest <~ items_loop fuel cp rest.
  Proof.
    revert rest; induction fuel as [|fuel IH]; intros rest; [apply sm_same|]. cbn [items_loop]. apply sm_bind.
    - unfold next_target. apply sm_generator. destruct rest as [|x rest]; [apply sm_same|].
      apply sm_bind; [apply sm_same|]. intros [c|]; [|apply sm_same]. apply sm_bind; [apply sm_target|]. intros t. apply sm_same.
    - intros [[t rest']|]; [|apply sm_same]. apply sm_bind.
      + apply sm_try; [reflexivity|]. apply sm_bind; [apply sm_item|]. intros d. apply sm_same.
      + intros item. apply sm_bind; [apply IH|]. intros items. apply sm_same.
  Qed.
  Lemma sm_items rest : items_of CpUnknown rest <~ items_of cp rest.
  Proof. apply sm_items_loop. Qed.

  (** ** The link info *)
  Lemma sm_when t r1 r2 : r1 <~ r2 -> when t r1 <~ when t r2.
  Proof. intros H. unfold when. apply sm_bind; [apply sm_same|]. intros [|]; [assumption|apply sm_same]. Qed.
  Lemma sm_suffix raw : common_path_suffix CpUnknown raw <~ common_path_suffix cp raw.
  Proof. unfold common_path_suffix. go. Qed.
  Lemma sm_base raw : local_base_path CpUnknown raw <~ local_base_path cp raw.
  Proof. unfold local_base_path. go. Qed.
  Lemma sm_label raw : volume_label CpUnknown raw <~ volume_label cp raw.
  Proof. unfold volume_label. go. Qed.
  Lemma sm_net raw : net_name CpUnknown raw <~ net_name cp raw.
  Proof. unfold net_name. go. Qed.
  Lemma sm_device raw : device_name CpUnknown raw <~ device_name cp raw.
  Proof. unfold device_name. go. Qed.
  Lemma sm_one {A} k (m1 m2 : M A) (f : A -> pyval) : m1 <~ m2 -> fields [(k, x <- m1 ;; ret (f x))] <~ fields [(k, x <- m2 ;; ret (f x))].
  Proof. intros H. rows. apply sm_bind; [assumption|]. intros a. apply sm_same. Qed.
  Lemma sm_local raw : local_info_dict CpUnknown raw <~ local_info_dict cp raw.
  Proof.
    unfold local_info_dict. apply sm_bind; [|intros d; apply sm_same]. rows; try apply sm_same.
    apply sm_bind; [apply sm_label|]. intros t. apply sm_same.
  Qed.
  Lemma sm_network raw : network_info_dict CpUnknown raw <~ network_info_dict cp raw.
  Proof.
    unfold network_info_dict. do 4 (apply sm_bind; [apply sm_same|intros ?]).
    apply sm_bind; [|intros ?; apply sm_bind; [|intros ?; apply sm_same]].
    - unfold when. apply sm_bind; [apply sm_bind; [apply sm_net|intros ?; apply sm_same]|]. intros [|]; [|apply sm_same]. apply sm_one, sm_net.
    - unfold when. apply sm_bind; [apply sm_bind; [apply sm_device|intros ?; apply sm_same]|]. intros [|]; [|apply sm_same]. apply sm_one, sm_device.
  Qed.
  Lemma sm_info k raw : info_dict CpUnknown k raw <~ info_dict cp k raw.
  Proof.
    unfold info_dict. apply sm_bind; [apply sm_same|intros ?].
    apply sm_bind; [apply sm_when, sm_one, sm_base|intros ?]. apply sm_bind; [apply sm_when, sm_one, sm_suffix|intros ?].
    do 2 (apply sm_bind; [apply sm_same|intros ?]). apply sm_bind; [|intros ?; apply sm_same].
    destruct k; [apply sm_local|apply sm_network].
  Qed.

  (** ** The extra blocks *)
  Lemma sm_str i j raw : str_field CpUnknown i j raw <~ str_field cp i j raw.
  Proof. unfold str_field. go. Qed.
  Lemma sm_extra e : extra_as_dict CpUnknown e <~ extra_as_dict cp e.
  Proof.
    unfold extra_as_dict. cbv zeta. destruct (ex_class e); try apply sm_same.
    - unfold environment_dict. rows; first [apply sm_str|apply sm_same].
    - unfold environment_dict. rows; first [apply sm_str|apply sm_same].
    - unfold tracker_dict. rows; first [apply sm_same|apply sm_str].
    - unfold darwin_dict. rows; first [apply sm_same|apply sm_str].
    - unfold shim_dict. rows; [apply sm_same|]. apply sm_bind; [apply sm_read|intros ?; apply sm_same].
    - unfold shell_item_dict. rows; [apply sm_same|]. apply sm_bind; [apply sm_same|intros ?].
      apply sm_bind; [apply sm_items|intros ?; apply sm_same].
  Qed.
  Lemma sm_add res e : add_block CpUnknown res e <~ add_block cp res e.
  Proof.
    unfold add_block. cbv zeta. destruct (ex_class e); (apply sm_try; [reflexivity|]; apply sm_bind; [apply sm_extra|intros ?; apply sm_same]).
  Qed.
  Lemma sm_extras l res : extras_loop CpUnknown res l <~ extras_loop cp res l.
  Proof.
    revert res; induction l as [|e l IH]; intros res; [apply sm_same|]. cbn [extras_loop]. apply sm_bind; [apply sm_add|]. intros r. apply IH.
  Qed.

  (** ** Whole reports *)
  Definition with_page (c : cp_arg) (l : lnk) : lnk :=
    Lnk c (l_header l) (l_target_index l) (l_targets l) (l_info l) (l_string_data l) (l_extras l) (l_size l).
  Lemma sm_target_dict l t : target_dict (with_page CpUnknown l) t <~ target_dict (with_page cp l) t.
  Proof.
    unfold target_dict, targets_as_list. cbn [l_cp with_page l_target_index]. rows; try apply sm_same.
    apply sm_bind; [apply sm_items|intros ?; apply sm_same].
  Qed.
  Lemma sm_json l all : get_json (with_page CpUnknown l) all <~ get_json (with_page cp l) all.
  Proof.
    rewrite !get_json_middle. unfold middle_json. cbn [with_page l_cp l_header l_targets l_info l_string_data l_extras l_size].
    apply sm_bind.
    - apply sm_bind; [apply sm_same|intros h]. apply sm_bind.
      + destruct (l_targets l) as [t|]; [|apply sm_same]. apply sm_bind; [apply sm_target_dict|intros ?; apply sm_same].
      + intros t. apply sm_bind; [|intros ?; apply sm_same]. destruct (l_info l) as [[k raw]|]; [apply sm_info|apply sm_same].
    - intros m. apply sm_bind; [apply sm_extras|intros ?; apply sm_same].
  Qed.

  (** ** The constructor and the command line *)
  Lemma sm_bind_k {A B C} (m1 m2 : M A) (f1 f2 : A -> M B) (F G : B -> M C) :
    m1 <~ m2 -> (forall a, bind (f1 a) F <~ bind (f2 a) G) -> bind (bind m1 f1) F <~ bind (bind m2 f2) G.
  Proof. intros H1 H2. rewrite !bind_assoc. now apply sm_bind. Qed.
  Lemma sm_sd_read header raw limit : sd_read header CpUnknown raw limit <~ sd_read header cp raw limit.
  Proof. unfold sd_read. go. Qed.
  Lemma sm_sd_loop fs header raw st : sd_loop fs header CpUnknown raw st <~ sd_loop fs header cp raw st.
  Proof.
    revert st; induction fs as [|[[flag name] limit] fs IH]; intros st; [apply sm_same|]. cbn [sd_loop].
    destruct (has_flag flag header) as [w0 [[|]|e]]; [|apply IH|apply sm_same].
    destruct (sm_sd_read header (dropN (sd_size st) raw) limit) as [->|(w & w' & r & -> & ->)].
    - destruct (sd_read header cp _ limit) as [w [[t n]|e]]; [|apply sm_same].
      match goal with |- context [sd_loop fs header CpUnknown raw ?s] => destruct (IH s) as [->|(v & v' & r & -> & ->)]; [apply sm_same|] end.
      right. exists (w ++ v), v', r. now rewrite app_assoc.
    - right. cbn [is_struct_error]. destruct r as [[t n]|e].
      + match goal with |- context [sd_loop fs header cp raw ?s] => destruct (sd_loop fs header cp raw s) as [v r] end.
        exists w. eexists. eexists. split; [reflexivity|]. now rewrite <- app_assoc.
      + destruct (is_struct_error e).
        * exists w. eexists. eexists. split; [reflexivity|]. now rewrite <- app_assoc.
        * exists w, w'. eexists. split; reflexivity.
  Qed.
  Lemma sm_process {C} b allow (F G : lnk -> M C) :
    (forall l, F (with_page CpUnknown l) <~ G (with_page cp l)) ->
    bind (process b CpUnknown allow) F <~ bind (process b cp allow) G.
  Proof.
    intros HF. unfold process. apply sm_bind_k; [apply sm_same|intros h]. apply sm_bind_k; [apply sm_same|intros i].
    cbv zeta. apply sm_bind_k; [apply sm_same|intros ht]. apply sm_bind_k; [apply sm_same|intros [t i2]].
    apply sm_bind_k; [apply sm_same|intros hi]. apply sm_bind_k; [apply sm_same|intros [inf i3]].
    apply sm_bind_k; [apply sm_sd_loop|intros sd]. apply sm_bind_k; [apply sm_same|intros ex].
    apply sm_bind_k; [apply sm_same|intros es]. rewrite !bind_ret_l.
    match goal with |- F (Lnk _ ?h ?ti ?t ?i ?s ?e ?z) <~ _ => exact (HF (Lnk cp h ti t i s e z)) end.
  Qed.
  Lemma sm_init {C} src allow (F G : lnk -> M C) :
    (forall l, F (with_page CpUnknown l) <~ G (with_page cp l)) ->
    bind (lnk_init src CpUnknown allow) F <~ bind (lnk_init src cp allow) G.
  Proof. intros HF. destruct src as [b|b]; destruct b; cbn [lnk_init]; first [now apply sm_process|apply sm_same]. Qed.
  Lemma sm_main content t j a : main content (Args t j CpUnknown a) <~ main content (Args t j cp a).
  Proof.
    unfold main. cbn [a_cp a_target a_json a_all]. apply sm_init. intros l. destruct t; [apply sm_same|]. destruct j.
    - apply sm_bind; [apply sm_json|intros ?; apply sm_same].
    - apply sm_bind; [|intros ?; apply sm_same]. unfold yaml_tree. apply sm_bind; [apply sm_json|intros ?; apply sm_same].
  Qed.
End Unknown.

(** ** Every outcome of the constructor *)
Definition page_neededb (b : bytes) (found : list (string * bytes)) : bool :=
  negb (bit_set 7 b) && existsb (fun f => match before_nul (snd f) with [] => false | _ => true end) found.

Lemma read_unknown f :
  read_string CpUnknown f = match before_nul f with [] => ret [] | _ => raise LookupError end.
Proof.
  rewrite read_string_eq. destruct (split_nul_first f []) as [r ->]. cbn [app]. unfold chars_to_string.
  destruct (before_nul f); reflexivity.
Qed.

Lemma sd_read_unknown header raw limit u :
  has_flag "IsUnicode" header = ret u -> 2 <= lenN raw ->
  sd_read header CpUnknown raw limit
  = if u then sd_read header CpNone raw limit
    else match before_nul (slice 2 (2 + chars_read limit (num 2 0 raw)) raw) with
         | [] => sd_read header CpNone raw limit
         | _ => raise LookupError
         end.
Proof.
  intros Hu HL. unfold sd_read. rewrite unpack_u16_0. replace (2 <=? lenN raw) with true by lia.
  rewrite !bind_ret_l, Hu, !bind_ret_l. destruct u; [reflexivity|]. cbv zeta.
  match goal with |- context [slice 2 (2 + ?l) raw] => set (len := l) end.
  replace (chars_read limit (num 2 0 raw)) with len.
  2:{ unfold len, chars_read. destruct limit; cbn [andb]; [|lia]. destruct (260 <? num 2 0 raw) eqn:E; lia. }
  rewrite read_unknown, read_string_field by discriminate. unfold field_warning, field_text.
  destruct (before_nul _); reflexivity.
Qed.

Lemma sd_loop_unknown header b ie fs slots st found e cut :
  has_flag "IsUnicode" header = ret (bit_set 7 b) ->
  Forall2 (fun f s => has_flag (fst (fst f)) header = ret (bit_set (fst (fst s)) b)
                      /\ snd (fst f) = snd (fst s) /\ snd f = snd s) fs slots ->
  string_walk b slots (ie + sd_size st) found e cut ->
  sd_loop fs header CpUnknown (dropN ie b) st
  = if page_neededb b found then ([], Err LookupError) else sd_loop fs header CpNone (dropN ie b) st.
Proof.
  intros Hu HF. revert st found.
  induction HF as [|[[fl name] lim] [[i name'] lim'] fs slots (H1 & H2 & H3) HF IH]; intros st found HW.
  - inversion HW; subst. unfold page_neededb. cbn [existsb]. now rewrite andb_false_r.
  - cbn [fst snd] in H1, H2, H3. subst lim' name'. cbn [sd_loop]. rewrite H1. unfold ret.
    inversion HW as [|? ? ? ? ? ? ? ? HB HW'|? ? ? ? ? HB HL|? ? ? ? ? n fd ? ? HB HL HN HW']; subst; rewrite HB.
    + now apply IH.
    + unfold page_neededb. cbn [existsb]. rewrite andb_false_r.
      unfold sd_read. rewrite unpack_u16_0, !lenN_dropN. replace (2 <=? lenN b - ie - sd_size st) with false by lia. reflexivity.
    + rewrite (sd_read_unknown header _ lim _ Hu) by (rewrite !lenN_dropN; lia).
      rewrite (sd_read_full header CpNone _ lim _ ltac:(discriminate) Hu) by (rewrite !lenN_dropN; lia). cbn zeta.
      rewrite !num_dropN, !N.add_0_r, !slice_dropN.
      set (n := chars_read lim (num 2 (ie + sd_size st) b)) in *.
      unfold page_neededb, char_width in *. destruct (bit_set 7 b) eqn:EU; cbn [negb andb].
      * rewrite IH with (found := fd).
        -- reflexivity.
        -- cbn [sd_size]. replace (ie + (sd_size st + (2 + n * 2))) with (ie + sd_size st + 2 + n * 2) by lia. exact HW'.
      * cbn [existsb snd].
        assert (EF : slice (ie + (sd_size st + 2)) (ie + (sd_size st + (2 + n))) b
                     = slice (ie + sd_size st + 2) (ie + sd_size st + 2 + n * 1) b) by (f_equal; lia).
        rewrite EF. destruct (before_nul (slice (ie + sd_size st + 2) (ie + sd_size st + 2 + n * 1) b)) as [|x r] eqn:EB; [|reflexivity].
        cbn [orb]. rewrite IH with (found := fd).
        -- cbn [negb andb]. unfold stored_warning, field_warning.
           replace (slice (ie + (sd_size st + 2)) (ie + (sd_size st + (2 + n * 1))) b)
             with (slice (ie + sd_size st + 2) (ie + sd_size st + 2 + n * 1) b) by (f_equal; lia). rewrite EB.
           destruct (existsb _ fd); reflexivity.
        -- cbn [sd_size]. replace (ie + (sd_size st + (2 + n * 1))) with (ie + sd_size st + 2 + n * 1) by lia. exact HW'.
Qed.

Definition stopped (cp : cp_arg) (b : bytes) (found : list (string * bytes)) : bool :=
  match cp with CpUnknown => page_neededb b found | _ => false end.

Lemma page_unneeded b found :
  page_neededb b found = false ->
  flat_map (entry_warning (bit_set 7 b) CpUnknown) found = flat_map (entry_warning (bit_set 7 b) CpNone) found
  /\ map (entry (bit_set 7 b) CpUnknown) found = map (entry (bit_set 7 b) CpNone) found.
Proof.
  unfold page_neededb. destruct (bit_set 7 b); [intros _; split; reflexivity|]. cbn [negb andb].
  induction found as [|f found IH]; [split; reflexivity|]. cbn [existsb]. intros H. apply orb_false_iff in H as [H1 H2].
  destruct (IH H2) as [I1 I2]. cbn [flat_map map]. rewrite I1, I2.
  unfold entry_warning at 1 3, entry at 1 3, stored_warning, stored_text, field_warning, field_text.
  destruct (before_nul (snd f)); [split; reflexivity|discriminate].
Qed.

Lemma strings_any b cp :
  24 <= header_len b -> 24 <= lenN b ->
  exists found cut, string_walk b string_fields (info_end b) found (string_data_end b) cut
    /\ if stopped cp b found
       then string_data_init (takeN (header_len b) b) cp (dropN (info_end b) b) = raise LookupError
       else exists sd, string_data_init (takeN (header_len b) b) cp (dropN (info_end b) b)
              = (flat_map (entry_warning (bit_set 7 b) cp) found ++ (if cut then [WStringData] else []), Ok sd)
            /\ sd_data sd = map (entry (bit_set 7 b) cp) found /\ info_end b + sd_size sd = string_data_end b.
Proof.
  intros H1 H2.
  assert (HK : usable cp -> stopped cp b = fun _ => false) by (intros H; destruct cp; [reflexivity|reflexivity|now destruct H]).
  assert (HU : usable cp \/ cp = CpUnknown) by (destruct cp; [now left|now left|now right]).
  destruct HU as [HU| ->].
  - rewrite HK by assumption. now apply string_data_full.
  - destruct (string_data_full b CpNone ltac:(discriminate) H1 H2) as (found & cut & HW & sd & HS & HD & HE).
    exists found, cut. split; [assumption|]. cbn [stopped].
    assert (HL : string_data_init (takeN (header_len b) b) CpUnknown (dropN (info_end b) b)
                 = if page_neededb b found then ([], Err LookupError)
                   else string_data_init (takeN (header_len b) b) CpNone (dropN (info_end b) b)).
    { assert (HF : forall name i, In (name, i) used_flags -> has_flag name (takeN (header_len b) b) = ret (bit_set i b))
        by (intros name i Hin; now apply has_flag_bit).
      unfold string_data_init. apply sd_loop_unknown with (slots := string_fields) (e := string_data_end b) (cut := cut).
      - apply HF. cbn. auto 10.
      - unfold sd_fields, string_fields. repeat constructor; cbn [fst snd]; apply HF; cbn; auto 10.
      - cbn [sd_size]. rewrite N.add_0_r. exact HW. }
    rewrite HL. destruct (page_neededb b found) eqn:EN; [reflexivity|].
    destruct (page_unneeded b found EN) as [-> ->]. exists sd. auto.
Qed.

Lemma header_size_full raw :
  4 <= lenN raw -> header_size raw = (if num 4 0 raw =? 76 then [] else [WMustBe "size"], Ok (num 4 0 raw)).
Proof.
  intros H. rewrite (surjective_pairing (header_size raw)), header_size_fst, header_size_snd by assumption.
  now replace (4 <=? lenN raw) with true by lia.
Qed.
Lemma header_size_cut raw : lenN raw < 4 -> header_size raw = raise StructError.
Proof. intros H. unfold header_size, must_be_N. rewrite unpack_u32_0. now replace (4 <=? lenN raw) with false by lia. Qed.
Lemma process_start b cp allow :
  4 <= lenN b ->
  process b cp allow
  = if 4 <=? N.min (header_len b) (lenN b)
    then bind (size_warning_of b ++ size_warning_of b, Ok tt) (fun _ =>
      has_targets <- has_flag "HasTargetIDList" (takeN (header_len b) b) ;;
      r <- (if has_targets : bool then
              t <- targets_init (dropN (header_len b) b) ;;
              size <- targets_size (tg_raw t) ;;
              ret (Some t, header_len b + size)
            else ret (None, header_len b)) ;;
      let (targets, index) := r in
      has_info <- (i <- has_flag "HasLinkInfo" (takeN (header_len b) b) ;;
                   if i : bool then f <- has_flag "ForceNoLinkInfo" (takeN (header_len b) b) ;; ret (negb f)
                   else ret false) ;;
      r <- (if has_info : bool then
              let raw := dropN index b in
              c <- info_class raw ;;
              match c with
              | Some k => size <- info_size raw ;; ret (Some (k, raw), index + size)
              | None => ret (None, index)
              end
            else ret (None, index)) ;;
      let (info, index) := r in
      sd <- string_data_init (takeN (header_len b) b) cp (dropN index b) ;;
      let index := index + sd_size sd in
      extras <- extra_init allow (dropN index b) ;;
      extras_sz <- extras_size extras ;;
      let index := index + extras_sz in
      let index := index + N.min (lenN (dropN index b)) 4 in
      ret (Lnk cp (takeN (header_len b) b) (header_len b + 2) targets info sd extras index))
    else (size_warning_of b, Err StructError).
Proof.
  intros HL. unfold process. destruct b as [|x0 b0]; [cbn in HL; lia|]. set (b := x0 :: b0) in *.
  change (header_init b) with (size <- header_size b ;; ret (takeN size b)).
  rewrite header_size_full by assumption. fold (header_len b). fold (size_warning_of b).
  rewrite bind_assoc. rewrite bind_Ok, bind_ret_l.
  destruct (4 <=? N.min (header_len b) (lenN b)) eqn:E4.
  - rewrite header_size_full by (rewrite lenN_takeN; lia). rewrite num_takeN by lia. fold (header_len b). fold (size_warning_of b).
    rewrite !bind_Ok. cbn [fst snd]. rewrite app_assoc. reflexivity.
  - rewrite header_size_cut by (rewrite lenN_takeN; lia). cbn [bind raise fst snd]. now rewrite app_nil_r.
Qed.

Lemma process_room b cp allow :
  room b ->
  process b cp allow
  = bind (size_warning_of b ++ size_warning_of b ++ info_warning b, Ok tt) (fun _ =>
      sd <- string_data_init (takeN (header_len b) b) cp (dropN (info_end b) b) ;;
      extras <- extra_init allow (dropN (info_end b + sd_size sd) b) ;;
      extras_sz <- extras_size extras ;;
      let index := info_end b + sd_size sd + extras_sz in
      ret (Lnk cp (takeN (header_len b) b) (header_len b + 2)
             (if has_id_list b
              then Some (Targets (dropN (header_len b) b) (slice 2 (num 2 (header_len b) b + 2) (dropN (header_len b) b)))
              else None)
             (if info_processed b
              then Some (if N.testbit (num 4 (id_list_end b + 8) b) 0 then Local else Network, dropN (id_list_end b) b)
              else None) sd extras (index + N.min (lenN (dropN index b)) 4))).
Proof.
  intros (H24 & HL24 & HI). rewrite process_start by lia. replace (4 <=? N.min (header_len b) (lenN b)) with true by lia.
  assert (HF : forall name i, In (name, i) used_flags ->
                 has_flag name (takeN (header_len b) b) = ret (bit_set i b)).
  { intros name i Hin. apply has_flag_bit; [assumption|lia|lia]. }
  rewrite (HF _ 0) by (cbn; auto 12). rewrite bind_ret_l. fold (has_id_list b).
  rewrite id_list_step.
  2:{ destruct (has_id_list b) eqn:E; [right; auto|now left]. }
  rewrite bind_ret_l.
  rewrite (HF _ 1) by (cbn; auto 12). rewrite bind_ret_l.
  assert (EF : (if bit_set 1 b then f <- has_flag "ForceNoLinkInfo" (takeN (header_len b) b);; ret (negb f)
                else ret false) = ret (bit_set 1 b && negb (bit_set 8 b))).
  { destruct (bit_set 1 b); [|reflexivity]. rewrite (HF _ 8) by (cbn; auto 12). reflexivity. }
  rewrite EF, bind_ret_l. clear EF.
  cbv zeta. rewrite info_step. rewrite !bind_Ok. cbn [fst snd]. now rewrite <- !app_assoc.
Qed.

Lemma page_reflect b found : if page_neededb b found then page_needed b found else ~ page_needed b found.
Proof.
  unfold page_neededb. destruct (bit_set 7 b) eqn:E7; cbn [negb andb]; [intros [H _]; congruence|].
  destruct (existsb _ found) eqn:E.
  - split; [assumption|]. apply existsb_exists in E as ([name f] & HI & HB). exists name, f. split; [assumption|].
    cbn [snd] in HB. destruct (before_nul f); [discriminate|discriminate].
  - intros (_ & name & f & HI & HB).
    assert (existsb (fun f : string * bytes => match before_nul (snd f) with [] => false | _ :: _ => true end) found = true); [|congruence].
    apply existsb_exists. exists (name, f). split; [assumption|]. cbn [snd]. destruct (before_nul f); [now destruct HB|reflexivity].
Qed.
Lemma readable_reflect blocks :
  if forallb (fun blk : N * bytes => 4 <=? lenN (snd blk)) blocks then sizes_readable blocks else ~ sizes_readable blocks.
Proof.
  unfold sizes_readable. destruct (forallb _ blocks) eqn:E.
  - apply Forall_forall. intros blk HI. rewrite forallb_forall in E. apply N.leb_le. exact (E blk HI).
  - intros H. assert (forallb (fun blk : N * bytes => 4 <=? lenN (snd blk)) blocks = true); [|congruence].
    apply forallb_forall. intros blk HI. rewrite Forall_forall in H. apply N.leb_le. exact (H blk HI).
Qed.

Definition failure {A} (m : M A) : option exn := match snd m with Ok _ => None | Err e => Some e end.

Lemma construction_of b cp allow :
  construction b cp (fst (lnk_init (FromBytes b) cp allow)) (failure (lnk_init (FromBytes b) cp allow)).
Proof.
  destruct (N.eq_dec (lenN b) 0) as [E0|E0].
  { destruct b; [now apply no_data|rewrite lenN_cons in E0; lia]. }
  assert (EP : lnk_init (FromBytes b) cp allow = process b cp allow) by (destruct b; [now destruct E0|reflexivity]).
  rewrite EP. clear EP.
  destruct (N.lt_ge_cases (lenN b) 4) as [L4|L4].
  { assert (E : process b cp allow = raise StructError).
    { unfold process. destruct b as [|x0 b0]; [now destruct E0|].
      change (header_init (x0 :: b0)) with (size <- header_size (x0 :: b0) ;; ret (takeN size (x0 :: b0))).
      now rewrite header_size_cut. }
    rewrite E. apply no_size. lia. }
  destruct (N.lt_ge_cases (header_len b) 4) as [H4|H4].
  { rewrite process_start by assumption. replace (4 <=? N.min (header_len b) (lenN b)) with false by lia. now apply tiny_header. }
  assert (HR : room b \/ ~ room b).
  { unfold room. destruct (N.lt_ge_cases (header_len b) 24); [right; intros (? & ? & _); lia|].
    destruct (N.lt_ge_cases (lenN b) 24); [right; intros (? & ? & _); lia|].
    destruct (has_id_list b); [|left; repeat split; [assumption|assumption|discriminate]].
    destruct (N.lt_ge_cases (lenN b) (header_len b + 2)); [right; intros (_ & _ & HH); specialize (HH eq_refl); lia|].
    left. auto. }
  destruct HR as [HR|HR].
  2:{ assert (E : process b cp allow = (size_warning_of b ++ size_warning_of b, Err StructError)); [|rewrite E; now apply no_room].
      rewrite process_start by assumption. replace (4 <=? N.min (header_len b) (lenN b)) with true by lia.
      destruct (N.lt_ge_cases (N.min (header_len b) (lenN b)) 24) as [L24|L24].
      { rewrite has_flag_short by (rewrite lenN_takeN; lia). rewrite bind_Ok. cbn [bind raise fst snd]. now rewrite app_nil_r. }
      rewrite (has_flag_bit "HasTargetIDList" 0) by first [lia|cbn; auto 12].
      rewrite bind_ret_l. fold (has_id_list b). unfold room in HR.
      destruct (has_id_list b); [|exfalso; apply HR; repeat split; [lia|lia|discriminate]].
      assert (LI : lenN b < header_len b + 2).
      { apply N.nle_gt. intros HH. apply HR. repeat split; [lia|lia|auto]. }
      unfold targets_init, targets_size, id_list_size. rewrite unpack_u16_0, lenN_dropN.
      replace (2 <=? lenN b - header_len b) with false by lia. rewrite bind_Ok. cbn [bind raise fst snd]. now rewrite app_nil_r. }
  rewrite process_room by assumption. rewrite bind_Ok.
  assert (HR' := HR). destruct HR' as (H24 & L24 & _).
  destruct (strings_any b cp H24 L24) as (found & cut & HW & HS).
  pose proof (page_reflect b found) as HP.
  destruct (stopped cp b found) eqn:ES.
  - rewrite HS. cbn [bind raise fst snd failure]. rewrite app_nil_r.
    destruct cp; try discriminate. cbn [stopped] in ES. rewrite ES in HP.
    now apply no_page with found (string_data_end b) cut.
  - destruct HS as (sd & HS & _ & HE). rewrite HS, bind_Ok, HE.
    assert (HP' : cp = CpUnknown -> ~ page_needed b found).
    { intros ->. cbn [stopped] in ES. now rewrite ES in HP. }
    destruct (extra_init_spec allow (dropN (string_data_end b) b)) as (blocks & r & HB & HX).
    pose proof (extra_init_fst allow (dropN (string_data_end b) b)) as HXF.
    rewrite (surjective_pairing (extra_init allow (dropN (string_data_end b) b))), HX, bind_Ok.
    set (wx := fst (extra_init allow (dropN (string_data_end b) b))) in *. unfold failure. cbn [fst snd].
    pose proof (readable_reflect blocks) as HRR. pose proof (extras_size_fst (map mk_block blocks ++ tail_blocks allow r)) as HZF.
    assert (EF : forall f : N -> M lnk, (forall n, fst (f n) = []) -> fst (bind (extras_size (map mk_block blocks ++ tail_blocks allow r)) f) = []).
    { intros f Hf. rewrite fst_bind, HZF. cbn [app]. destruct (snd (extras_size _)); [apply Hf|reflexivity]. }
    rewrite EF by reflexivity. rewrite snd_bind.
    match goal with |- construction _ _ (?a ++ ?w) _ => replace (a ++ w) with
      (size_warning_of b ++ size_warning_of b ++ info_warning b
       ++ flat_map (fun f => stored_warning (bit_set 7 b) cp (snd f)) found ++ (if cut then [WStringData] else []) ++ wx) end.
    2:{ rewrite app_nil_r, <- !app_assoc. reflexivity. }
    apply walked with (string_data_end b) blocks r; try assumption.
    destruct (forallb _ blocks) eqn:EB.
    + rewrite (extras_size_app _ _ (sumN (map declared blocks)) (tail_size allow r)); [left; split; [assumption|reflexivity]| |apply extras_size_tail].
      etransitivity; [apply extras_size_blocks|]. unfold bytes in *. now rewrite EB.
    + rewrite (extras_size_app_err _ _ StructError); [right; split; [assumption|reflexivity]|].
      etransitivity; [apply extras_size_blocks|]. unfold bytes in *. now rewrite EB.
Qed.

Lemma construction_det b cp w1 e1 w2 e2 : construction b cp w1 e1 -> construction b cp w2 e2 -> w1 = w2 /\ e1 = e2.
Proof.
  intros H1 H2; inversion H1; subst; inversion H2; subst; try (now split);
    try (exfalso; unfold room in *; intuition lia); try (exfalso; tauto).
  all: match goal with HA : string_walk _ _ _ ?f1 ?p1 ?c1, HB : string_walk _ _ _ ?f2 ?p2 ?c2 |- _ =>
         destruct (string_walk_det _ _ _ _ _ _ _ _ _ HA HB) as (-> & -> & ->) end; try tauto.
  match goal with HA : walk_warnings _ _, HB : walk_warnings _ _ |- _ => rewrite (walk_warnings_det _ _ _ HA HB) end.
  match goal with HA : block_walk _ _ _, HB : block_walk _ _ _ |- _ => destruct (block_walk_det _ _ _ _ _ HA HB) as [<- <-] end.
  split; [reflexivity|]. intuition congruence.
Qed.

Lemma construction_iff b cp allow said e :
  fst (lnk_init (FromBytes b) cp allow) = said /\ failure (lnk_init (FromBytes b) cp allow) = e <-> construction b cp said e.
Proof.
  split; [intros [<- <-]; apply construction_of|]. intros H.
  exact (construction_det _ _ _ _ _ _ (construction_of b cp allow) H).
Qed.

Lemma init_page src cp allow l : snd (lnk_init src cp allow) = Ok l -> l_cp l = cp.
Proof.
  destruct src as [b|b]; cbn [lnk_init]; [now apply process_cp|]. destruct b; [discriminate|now apply process_cp].
Qed.
Lemma same_but_page c l1 l2 : with_page c l1 = with_page c l2 -> forall c', with_page c' l1 = with_page c' l2.
Proof. intros H c'. unfold with_page in *. injection H as -> -> -> -> -> -> ->. reflexivity. Qed.
Lemma with_own_page l : with_page (l_cp l) l = l.
Proof. now destruct l. Qed.

Lemma unknown_report src cp allow l all :
  snd (lnk_init src CpUnknown allow) = Ok l ->
  exists l', lnk_init src cp allow = (fst (lnk_init src CpUnknown allow), Ok l') /\ l_size l' = l_size l
    /\ (get_json l all = get_json l' all
        \/ exists said more, get_json l all = (said, Err LookupError) /\ fst (get_json l' all) = said ++ more).
Proof.
  intros Hl. assert (Hc := init_page _ _ _ _ Hl).
  pose proof (sm_init cp src allow (fun l => ret (with_page CpNone l)) (fun l => ret (with_page CpNone l)) ltac:(intros; apply sm_same)) as HS.
  rewrite (surjective_pairing (lnk_init src CpUnknown allow)), Hl, bind_Ok in HS. cbn [ret fst snd] in HS. rewrite app_nil_r in HS.
  destruct HS as [HS|(w & w' & r & HS & _)]; [|discriminate].
  destruct (lnk_init src cp allow) as [w [l'|e]] eqn:E; [|discriminate]. rewrite bind_Ok in HS. cbn [ret fst snd] in HS. rewrite app_nil_r in HS.
  injection HS as HW HR. exists l'. rewrite <- HW. split; [reflexivity|].
  assert (HL : with_page CpNone l = with_page CpNone l') by (unfold with_page; congruence).
  assert (Hc' : l_cp l' = cp) by (apply init_page with src allow; now rewrite E).
  split; [change (l_size (with_page CpNone l') = l_size (with_page CpNone l)); now rewrite HL|].
  assert (E1 : l = with_page CpUnknown l') by (rewrite <- (same_but_page _ _ _ HL), <- Hc; symmetry; apply with_own_page).
  assert (E2 : l' = with_page cp l') by (rewrite <- Hc'; symmetry; apply with_own_page).
  assert (E3 : get_json l' all = get_json (with_page cp l') all) by now rewrite <- E2.
  rewrite E1, E3.
  destruct (sm_json cp l' all) as [HJ|(v & v' & r & HJ1 & HJ2)]; [now left|right]. exists v, v'. rewrite HJ1, HJ2. now split.
Qed.
Lemma unknown_main content t j cp a :
  main content (Args t j CpUnknown a) = main content (Args t j cp a)
  \/ exists said more, main content (Args t j CpUnknown a) = (said, Err LookupError)
       /\ fst (main content (Args t j cp a)) = said ++ more.
Proof.
  destruct (sm_main cp content t j a) as [H|(w & w' & r & H1 & H2)]; [now left|right]. exists w, w'. rewrite H1, H2. now split.
Qed.
Lemma unknown_string f :
  (before_nul f = [] -> read_string CpUnknown f = ret []) /\ (before_nul f <> [] -> read_string CpUnknown f = raise LookupError).
Proof. rewrite read_unknown. split; [intros ->; reflexivity|]. destruct (before_nul f); [now intros []|reflexivity]. Qed.
