(** * The readable report (C45) *)
From Verif Require Import Lemmas PyTime Codec Utils Header StringData Targets Info Extra LnkFile Json Report.
From Verif Require Import SpecText SpecReport SpecReadable OutcomeProofs ApiProofs ShapeProofs ReportProofs JsonProofs.

(** ** Names *)

Notation chars := list_ascii_of_string.
Lemma chars_map f s : chars (map_string f s) = map f (chars s).
Proof. induction s as [|c s IH]; cbn; [reflexivity|]. now rewrite IH. Qed.
Lemma chars_inj s t : chars s = chars t -> s = t.
Proof. intros H. rewrite <- (string_of_list_ascii_of_string s), H. apply string_of_list_ascii_of_string. Qed.
Lemma chars_bare k : chars (strip_r k) = bare k.
Proof.
  unfold bare, strip_r. destruct k as [|[[] [] [] [] [] [] [] []] k]; try reflexivity; destruct k as [|b k]; try reflexivity.
  destruct b as [[] [] [] [] [] [] [] []]; reflexivity.
Qed.
Lemma blank_char c : (if Ascii.eqb c "_" then " "%char else c) = blank c.
Proof. destruct c as [[] [] [] [] [] [] [] []]; reflexivity. Qed.
Lemma big_same c : Ascii.eqb (to_big c) c = negb (small c).
Proof. destruct c as [[] [] [] [] [] [] [] []]; reflexivity. Qed.
Lemma chars_under s : chars (underscores_to_spaces s) = map blank (chars s).
Proof. unfold underscores_to_spaces. rewrite chars_map. apply map_ext. intros c. apply blank_char. Qed.
Lemma upper_same s : String.eqb (upper s) s = negb (existsb small (chars s)).
Proof.
  induction s as [|c s IH]; [reflexivity|]. cbn [upper map_string list_ascii_of_string existsb String.eqb].
  change (upper_char c) with (to_big c). rewrite big_same. unfold upper in IH.
  destruct (small c); cbn [negb orb]; [reflexivity|exact IH].
Qed.
Lemma heading_chars k : chars (heading k) = map (fun c => blank (to_big c)) (bare k).
Proof. unfold heading. apply list_ascii_of_string_of_list_ascii. Qed.
Lemma nice_heading k : chars (underscores_to_spaces (upper (strip_r k))) = map (fun c => blank (to_big c)) (bare k).
Proof. rewrite chars_under. unfold upper. rewrite chars_map, map_map, chars_bare. reflexivity. Qed.
Lemma nice_name k top : nice_id k top = shown_name top k.
Proof.
  apply chars_inj. unfold nice_id, shown_name. destruct top; cbn [orb].
  - now rewrite nice_heading, heading_chars.
  - rewrite upper_same, chars_bare. unfold label. rewrite <- chars_bare. destruct (chars (strip_r k)) as [|c r] eqn:E.
    + cbn [existsb negb]. rewrite nice_heading, <- chars_bare, E. reflexivity.
    + destruct (existsb small (c :: r)) eqn:ES; cbn [negb].
      * rewrite list_ascii_of_string_of_list_ascii, chars_under.
        destruct (strip_r k) as [|c' s]; [discriminate|]. cbn [list_ascii_of_string] in E. injection E as -> <-.
        cbn [capitalize list_ascii_of_string map]. unfold lower. rewrite chars_map, map_map. reflexivity.
      * rewrite nice_heading, heading_chars. reflexivity.
Qed.

(** ** Collecting the entries *)

Definition put (top : bool) (res : dict) (e : string * pyval) : dict := dset (shown_name top (fst e)) (snd e) res.
Lemma fold_put top rows acc :
  fold_left (fun res e => dset (nice_id (fst e) top) (snd e) res) rows acc = fold_left (put top) rows acc.
Proof. revert acc. induction rows as [|e rows IH]; intros acc; cbn [fold_left]; [reflexivity|]. unfold put at 2. rewrite nice_name. apply IH. Qed.

Definition fresh (ks : list string) (x : string) : bool := negb (existsb (String.eqb x) ks).
Lemma dset_fst k v d : map fst (dset k v d) = map fst d ++ (if existsb (String.eqb k) (map fst d) then [] else [k]).
Proof.
  induction d as [|[k' v'] d IH]; cbn [dset map fst existsb]; [reflexivity|].
  destruct (String.eqb k k') eqn:E; cbn [orb map fst app].
  - now rewrite app_nil_r.
  - now rewrite IH.
Qed.
Lemma filter_filter {A} (f g : A -> bool) l : filter f (filter g l) = filter (fun x => g x && f x) l.
Proof. induction l as [|x l IH]; cbn; [reflexivity|]. destruct (g x); cbn; destruct (f x); now rewrite IH. Qed.
Lemma put_keys top rows : forall acc,
  map fst (fold_left (put top) rows acc)
  = map fst acc ++ filter (fresh (map fst acc)) (once (map (fun e => shown_name top (fst e)) rows)).
Proof.
  induction rows as [|[k v] rows IH]; intros acc; cbn [fold_left map once filter fst]; [now rewrite app_nil_r|].
  rewrite IH. unfold put. cbn [fst snd]. rewrite dset_fst. set (n := shown_name top k).
  set (ks := map fst acc). unfold fresh at 2. destruct (existsb (String.eqb n) ks) eqn:E; cbn [negb].
  - rewrite app_nil_r. f_equal. rewrite filter_filter. apply filter_ext. intros x. unfold fresh.
    destruct (String.eqb x n) eqn:Ex; [|reflexivity]. apply String.eqb_eq in Ex. subst x. rewrite E. reflexivity.
  - rewrite <- app_assoc. cbn [app]. do 2 f_equal. rewrite filter_filter. apply filter_ext. intros x. unfold fresh.
    rewrite existsb_app. cbn [existsb]. rewrite orb_false_r, negb_orb. apply andb_comm.
Qed.
Lemma dget_dset k v d j : dget j (dset k v d) = if String.eqb j k then Some v else dget j d.
Proof.
  induction d as [|[k' v'] d IH]; cbn [dset dget]; [reflexivity|].
  destruct (String.eqb k k') eqn:E; cbn [dget].
  - apply String.eqb_eq in E. subst k'. destruct (String.eqb j k); reflexivity.
  - rewrite IH. destruct (String.eqb j k') eqn:E2; [|reflexivity]. apply String.eqb_eq in E2. subst k'.
    destruct (String.eqb j k) eqn:E3; [|reflexivity]. apply String.eqb_eq in E3. subst k. rewrite String.eqb_refl in E. discriminate.
Qed.
Lemma dget_In k v d : dget k d = Some v -> In (k, v) d.
Proof.
  induction d as [|[k' v'] d IH]; cbn [dget]; [discriminate|]. destruct (String.eqb k k') eqn:E; intros H.
  - apply String.eqb_eq in E. subst k'. injection H as ->. now left.
  - right. now apply IH.
Qed.
Lemma put_others top rows : forall acc j,
  ~ In j (map (fun e => shown_name top (fst e)) rows) -> dget j (fold_left (put top) rows acc) = dget j acc.
Proof.
  induction rows as [|[k v] rows IH]; intros acc j Hj; cbn [fold_left]; [reflexivity|]. cbn [map fst In] in Hj.
  rewrite IH by tauto. unfold put. cbn [fst snd]. rewrite dget_dset.
  destruct (String.eqb j (shown_name top k)) eqn:E; [|reflexivity]. apply String.eqb_eq in E. subst. tauto.
Qed.
Lemma put_last top r1 k v r2 acc :
  ~ In (shown_name top k) (map (fun e => shown_name top (fst e)) r2) ->
  dget (shown_name top k) (fold_left (put top) (r1 ++ (k, v) :: r2) acc) = Some v.
Proof.
  intros H. rewrite fold_left_app. cbn [fold_left]. rewrite put_others by exact H. unfold put. cbn [fst snd].
  rewrite dget_dset, String.eqb_refl. reflexivity.
Qed.

(** ** make_keys_nice *)

Definition nice := make_keys_nice false.
Lemma nice_dict top d :
  make_keys_nice top (PDict d)
  = match dget "class" d with
    | Some key => PDict [(key_of key, PDict (fold_left (put false) (dpop "class" (map (on_value nice) d)) []))]
    | None => PDict (fold_left (put top) (map (on_value nice) d) [])
    end.
Proof.
  cbn [make_keys_nice].
  assert (H : forall d : dict, (fix rows (d : dict) : list (string * pyval) :=
              match d with [] => [] | (k, v) :: r => (k, make_keys_nice false v) :: rows r end) d
              = map (on_value nice) d).
  { clear. induction d as [|[k v] d IH]; cbn [map on_value fst snd]; [reflexivity|]. now rewrite IH. }
  rewrite H. destruct (dget "class" d); rewrite fold_put; reflexivity.
Qed.

Lemma map_split {A B} (f : A -> B) l b1 x b2 : map f l = b1 ++ x :: b2 ->
  exists a1 a a2, l = a1 ++ a :: a2 /\ map f a1 = b1 /\ f a = x /\ map f a2 = b2.
Proof.
  revert b1. induction l as [|a l IH]; intros [|y b1] H; cbn in H; try discriminate.
  - injection H as H1 H2. exists [], a, l. now repeat split.
  - injection H as H1 H2. destruct (IH b1 H2) as (a1 & a' & a2 & -> & E1 & E2 & E3).
    exists (a :: a1), a', a2. repeat split; cbn; congruence.
Qed.

Lemma put_shown top d : dget "class" d = None ->
  Forall (fun e => shown false (snd e) (nice (snd e))) d ->
  shown top (PDict d) (PDict (fold_left (put top) (map (on_value nice) d) [])).
Proof.
  intros Hc H. constructor; [exact Hc| |].
  - rewrite put_keys. cbn [map app]. rewrite map_map.
    assert (E : forall l, filter (fresh []) l = l) by (induction l as [|x l IH]; cbn; [reflexivity|now rewrite IH]).
    apply E.
  - intros d1 k v d2 -> Hk. exists (nice v). split.
    + apply dget_In. rewrite map_app. cbn [map]. apply put_last. rewrite map_map. exact Hk.
    + rewrite Forall_forall in H. apply (H (k, v)). apply in_or_app. right. now left.
Qed.

Lemma dpop_split k v d : dget k d = Some v -> NoDup (map fst d) ->
  exists d1 d2, d = d1 ++ (k, v) :: d2 /\ dpop k d = d1 ++ d2 /\ dget k (d1 ++ d2) = None.
Proof.
  induction d as [|[k' v'] d IH]; cbn [dget dpop map fst]; [discriminate|]. intros H HN. inversion HN as [|? ? Hn HN']; subst.
  destruct (String.eqb k k') eqn:E.
  - apply String.eqb_eq in E. subst k'. injection H as ->. exists [], d. repeat split.
    cbn [app]. destruct (dget k d) as [w|] eqn:Ed; [|reflexivity]. apply dget_In in Ed. exfalso. apply Hn.
    apply in_map_iff. now exists (k, w).
  - destruct (IH H HN') as (d1 & d2 & -> & E2 & E3). exists ((k', v') :: d1), d2. cbn [app dget]. rewrite E2, E, E3. auto.
Qed.
Lemma dpop_map k (f : pyval -> pyval) d : dpop k (map (on_value f) d) = map (on_value f) (dpop k d).
Proof.
  induction d as [|[k' v'] d IH]; cbn [map on_value dpop fst snd]; [reflexivity|].
  destruct (String.eqb k k'); [reflexivity|]. cbn [map on_value fst snd]. now rewrite <- IH.
Qed.
Lemma key_text s : Forall (fun c => c < 256) s -> s2t (key_of (PStr s)) = s.
Proof.
  intros H. unfold key_of, s2t. rewrite list_ascii_of_string_of_list_ascii, map_map.
  induction H as [|c s Hc _ IH]; cbn [map]; [reflexivity|]. now rewrite N_ascii_embedding, IH.
Qed.

Lemma nice_shown T K v : well_formed T K v -> forall top, shown top v (make_keys_nice top v).
Proof.
  induction v as [|z|t|d|l IH|d IH] using value_induction; intros H top; try constructor.
  - apply wf_list in H. rewrite Forall_forall in *.
    assert (G : forall l', incl l' l -> Forall2 (shown false) l' (map (make_keys_nice false) l')).
    { induction l' as [|v l' IHl]; intros Hi; cbn [map]; constructor.
      - apply IH; [apply Hi; now left|]. apply H, Hi. now left.
      - apply IHl. intros x Hx. apply Hi. now right. }
    apply G, incl_refl.
  - apply wf_dict in H as (HN & _ & H).
    assert (G : Forall (fun e => shown false (snd e) (nice (snd e))) d).
    { rewrite Forall_forall in *. intros e He. apply IH; [exact He|]. now apply H. }
    rewrite nice_dict. destruct (dget "class" d) as [c|] eqn:E; [|now apply put_shown].
    destruct (dpop_split _ _ _ E HN) as (d1 & d2 & Ed & Ep & Ec). rewrite dpop_map, Ep.
    eapply shown_class; [exact Ed| |].
    + intros s -> Hs. now apply key_text.
    + apply put_shown; [exact Ec|]. rewrite Ed in G. apply Forall_app in G as [G1 G2]. apply Forall_app.
      inversion G2; now split.
Qed.

(** ** The header *)

(** What the report keeps of the header. *)
Definition pruned_header (all : bool) (h : dict) : dict :=
  if all then h else pop_all ["header_size"; "reserved0"; "reserved1"; "reserved2"] h.

Lemma no_warning_u32 b : fst (unpack_u32 b) = [].
Proof. unfold unpack_u32, unpack_le. now destruct (_ =? _). Qed.
Lemma pair_ok {A} (m : M A) x : fst m = [] -> snd m = Ok x -> m = ret x.
Proof. destruct m as [w r]. cbn. now intros -> ->. Qed.

Lemma header_entries raw h : snd (header_dict raw) = Ok h ->
  exists n m g v4 v5 v6 v7 v8 v9 v10 v11 v14 v15 v16 v17,
    r_link_flags raw = ret n /\ r_file_flags raw = ret m /\
    h = [("guid"%string, g); ("r_link_flags"%string, PN n); ("r_file_flags"%string, PN m); ("creation_time"%string, v4);
         ("accessed_time"%string, v5); ("modified_time"%string, v6); ("file_size"%string, v7); ("icon_index"%string, v8);
         ("windowstyle"%string, v9); ("hotkey"%string, v10); ("r_hotkey"%string, v11);
         ("link_flags"%string, PList (map PS (flag_names LINK_FLAG_MASK n)));
         ("file_flags"%string, PList (map PS (flag_names FILE_FLAG_MASK m)));
         ("header_size"%string, v14); ("reserved0"%string, v15); ("reserved1"%string, v16); ("reserved2"%string, v17)].
Proof.
  intros H. unfold header_dict in H. pose proof (fields_keys _ _ H) as HK. cbn [map fst] in HK.
  destruct (fields_dget _ _ "r_link_flags" _ H eq_refl) as (v1 & Hv1 & E1).
  destruct (fields_dget _ _ "r_file_flags" _ H eq_refl) as (v2 & Hv2 & E2).
  destruct (fields_dget _ _ "link_flags" _ H eq_refl) as (v3 & Hv3 & E3).
  destruct (fields_dget _ _ "file_flags" _ H eq_refl) as (v4 & Hv4 & E4).
  clear H.
  apply snd_bind_Ok in Hv1 as (n & Hn & [= <-]). apply snd_bind_Ok in Hv2 as (m & Hm & [= <-]).
  apply pair_ok in Hn; [|apply no_warning_u32]. apply pair_ok in Hm; [|apply no_warning_u32].
  unfold link_flags in Hv3. unfold file_flags in Hv4. rewrite Hn in Hv3. rewrite Hm in Hv4.
  rewrite !bind_ret_l in Hv3, Hv4. injection Hv3 as <-. injection Hv4 as <-.
  repeat match goal with
         | HK : map fst ?h = _ :: _ |- _ =>
           let k := fresh "k" in let v := fresh "v" in let r := fresh "r" in
           destruct h as [|[k v] r]; [discriminate HK|]; cbn [map fst] in HK; injection HK as -> HK
         | HK : map fst ?h = [] |- _ => apply map_eq_nil in HK; subst h
         end.
  cbn [dget String.eqb Ascii.eqb Bool.eqb] in E1, E2, E3, E4.
  injection E1 as ->. injection E2 as ->. injection E3 as ->. injection E4 as ->.
  do 15 eexists. split; [exact Hn|]. split; [exact Hm|]. reflexivity.
Qed.

Lemma bars_join names : join (s2t " | ") names = bars names.
Proof.
  induction names as [|x [|y names] IH]; [reflexivity|reflexivity|].
  change (join (s2t " | ") (x :: y :: names)) with (x ++ s2t " | " ++ join (s2t " | ") (y :: names)).
  now rewrite IH.
Qed.
Lemma texts_PS names : texts (map PS names) = map s2t names.
Proof. unfold texts. now rewrite map_map. Qed.
Lemma flags_lines n names : format_flags n names = flags_line (Z.of_N n) (texts (map PS names)).
Proof.
  unfold format_flags, flags_line. rewrite bars_join, texts_PS. f_equal.
  destruct n as [|n]; reflexivity.
Qed.

Definition lines_header (raw : bytes) (n m : N) (h : dict) : dict :=
  dset "file_flags" (PStr (format_flags m (flag_names FILE_FLAG_MASK m)))
    (dset "link_flags" (PStr (format_flags n (flag_names LINK_FLAG_MASK n))) (dpop "r_hotkey" h)).
Lemma header_lines raw h all : snd (header_dict raw) = Ok h ->
  exists n m, r_link_flags raw = ret n /\ r_file_flags raw = ret m
    /\ lines_header raw n m (pruned_header all h) = header_shown (pruned_header all h)
    /\ map fst (header_shown (pruned_header all h))
       = filter (fun k => negb (String.eqb k "r_hotkey"))
           (map fst (pruned_header all h))
    /\ dget "class" (header_shown (pruned_header all h)) = None
    /\ forallb (fun k => negb (String.prefix empty_line k)) (map (fun e => label (fst e)) (header_shown (pruned_header all h))) = true.
Proof.
  intros H. destruct (header_entries _ _ H) as (n & m & g & v4 & v5 & v6 & v7 & v8 & v9 & v10 & v11 & v14 & v15 & v16 & v17 & Hn & Hm & ->).
  exists n, m. split; [exact Hn|]. split; [exact Hm|]. unfold lines_header. rewrite !flags_lines.
  destruct all; (split; [reflexivity|split; [reflexivity|split; reflexivity]]).
Qed.

(** ** The sections *)

Lemma report_shape l all d : snd (get_json l all) = Ok d ->
  exists h t i e, snd (header_dict (l_header l)) = Ok h /\ (t = [] \/ exists x, t = [("target"%string, x)])
    /\ d = [("size"%string, PN (l_size l)); ("header"%string, PDict (pruned_header all h))] ++ t ++
           [("link_info"%string, PDict i); ("data"%string, PDict (string_data_as_dict (l_string_data l))); ("extra"%string, PDict e)].
Proof.
  unfold get_json, full_json. intros H. apply snd_bind_Ok in H as (r & H & E). injection E as <-.
  apply snd_bind_Ok in H as (h & Hh & H). apply snd_bind_Ok in H as (t & Ht & H).
  apply snd_bind_Ok in H as (i & Hi & H). apply snd_bind_Ok in H as (e & He & [= <-]).
  assert (HT : t = [] \/ exists x, t = [("target"%string, PDict x)]).
  { destruct (l_targets l); [|left; now injection Ht as <-]. apply snd_bind_Ok in Ht as (x & _ & [= <-]). right. now exists x. }
  exists h. destruct all; cbn [pruned_header].
  - exists t, i, e. split; [exact Hh|]. split; [|reflexivity]. destruct HT as [->|[x ->]]; [now left|right; eauto].
  - destruct HT as [->|[x ->]].
    + exists [], (prune_info i), e. split; [exact Hh|]. split; [now left|reflexivity].
    + exists [("target"%string, PDict (prune_target x))], (prune_info i), e. split; [exact Hh|]. split; [right; eauto|reflexivity].
Qed.

Lemma dset_new k v d : ~ In k (map fst d) -> dset k v d = d ++ [(k, v)].
Proof.
  induction d as [|[k' v'] d IH]; cbn [dset map fst In app]; intros H; [reflexivity|].
  destruct (String.eqb k k') eqn:E; [apply String.eqb_eq in E; subst; tauto|]. rewrite IH by tauto. reflexivity.
Qed.
Lemma dset_all_new r : forall d, NoDup (map fst r) -> (forall k, In k (map fst r) -> ~ In k (map fst d)) ->
  fold_left (fun res e => dset (fst e) (snd e) res) r d = d ++ r.
Proof.
  induction r as [|[k v] r IH]; intros d HN Hd; cbn [fold_left]; [now rewrite app_nil_r|].
  cbn [map fst] in HN, Hd. inversion HN; subst. cbn [fst snd]. rewrite dset_new by (apply Hd; now left).
  rewrite IH; [now rewrite <- app_assoc|assumption|]. intros j Hj. rewrite map_app, in_app_iff. cbn [map fst In].
  intros [Hi|[<-|[]]]; [exact (Hd j (or_intror Hj) Hi)|contradiction].
Qed.

Lemma once_incl ks : incl (once ks) ks.
Proof.
  induction ks as [|k ks IH]; intros x Hx; [exact Hx|]. cbn [once] in Hx. destruct Hx as [<-|Hx]; [now left|].
  apply filter_In in Hx as [Hx _]. right. now apply IH.
Qed.

Lemma header_shown_wf h : well_formed anything any_keys (PDict h) -> well_formed anything any_keys (PDict (header_shown h)).
Proof.
  intros H. apply wf_dict in H as (HN & _ & H). apply wf_dict. unfold header_shown. rewrite map_map. split; [|split; [exact I|]].
  - match goal with |- NoDup (map ?f ?x) => replace (map f x) with (map fst x) end.
    + clear H. induction h as [|e h IH]; cbn [filter map]; [constructor|]. cbn [map] in HN. inversion HN as [|? ? H1 H2]; subst.
      destruct (negb _); [|now apply IH]. cbn [map]. constructor; [|now apply IH].
      intros Hi. apply H1. apply in_map_iff in Hi as (x & <- & Hx). apply filter_In in Hx as [Hx _]. now apply in_map.
    + apply map_ext. intros e. destruct (String.eqb _ _); [reflexivity|]. now destruct (String.eqb _ _).
  - rewrite Forall_map. rewrite Forall_forall in *. intros e He. apply filter_In in He as [He _].
    destruct (String.eqb _ _); [|destruct (String.eqb _ _)]; cbn [snd]; [| |now apply H];
      unfold flags_shown; destruct (dget _ _) as [[]|]; try exact I; destruct (dget _ _) as [[]|]; exact I.
Qed.

Lemma yaml_shown src cp allow l all d :
  snd (lnk_init src cp allow) = Ok l -> snd (get_json l all) = Ok d ->
  exists h lines sections,
    dget "header" d = Some (PDict h)
    /\ yaml_tree l all = (fst (get_json l all), Ok (lines ++ sections))
    /\ shown false (PDict (header_shown h)) (PDict lines)
    /\ Forall2 (fun e s => fst s = String.append empty_line (heading (fst e)) /\ shown false (snd e) (snd s)) (others d) sections.
Proof.
  intros Hl Hd.
  pose proof (report_wf anything any_keys src cp allow l all d (fun _ _ => I) (fun _ _ => I) (any_page cp) Hl Hd) as HW.
  destruct (report_shape _ _ _ Hd) as (h & t & i & e & Hh & Ht & Ed).
  destruct (header_lines _ _ all Hh) as (n & m & Hn & Hm & HL & HF & HC & HP).
  set (h' := pruned_header all h) in *. exists h'.
  assert (Wh : well_formed anything any_keys (PDict h')).
  { apply wf_dict in HW as (_ & _ & HW). rewrite Forall_forall in HW. apply (HW ("header"%string, PDict h')).
    rewrite Ed. right. now left. }
  apply header_shown_wf in Wh.
  assert (Sh : shown false (PDict (header_shown h')) (make_keys_nice false (PDict (header_shown h')))) by (eapply nice_shown; eassumption).
  rewrite nice_dict, HC in Sh. set (lines := fold_left (put false) (map (on_value nice) (header_shown h')) []) in *.
  exists lines, (map (fun e => (String.append empty_line (heading (fst e)), nice (snd e))) (others d)).
  split; [rewrite Ed; reflexivity|]. split; [|split; [exact Sh|]].
  2:{ apply wf_dict in HW as (_ & _ & HW). assert (HO : Forall (fun e => well_formed anything any_keys (snd e)) (others d)).
      { rewrite Forall_forall in *. intros x Hx. apply filter_In in Hx as [Hx _]. now apply HW. }
      clear - HO. induction HO as [|x r Hx _ IH]; cbn [map]; constructor; [|exact IH]. split; [reflexivity|].
      eapply nice_shown; eassumption. }
  unfold yaml_tree. destruct (get_json l all) as [w r]. cbn [snd] in Hd. subst r. cbn [bind].
  unfold format_linkFlags, format_fileFlags, link_flags, file_flags. rewrite Hn, Hm, !bind_ret_l.
  assert (EH : dupd "header" (on_dict (fun h => dset "file_flags" (PStr (format_flags m (flag_names FILE_FLAG_MASK m)))
             (dset "link_flags" (PStr (format_flags n (flag_names LINK_FLAG_MASK n))) (dpop "r_hotkey" h)))) d
           = [("size"%string, PN (l_size l)); ("header"%string, PDict (header_shown h'))] ++ t ++
           [("link_info"%string, PDict i); ("data"%string, PDict (string_data_as_dict (l_string_data l))); ("extra"%string, PDict e)]).
  { rewrite Ed. unfold lines_header in HL. cbn [app dupd String.eqb Ascii.eqb Bool.eqb on_dict]. rewrite HL. reflexivity. }
  rewrite EH. cbv zeta. clear EH.
  assert (EL : nice (PDict (header_shown h')) = PDict lines) by (unfold nice; rewrite nice_dict, HC; reflexivity).
  assert (HN : forall r, NoDup (map fst r) -> Forall (fun k => String.prefix empty_line k = true) (map fst r) ->
             fold_left (fun res e => dset (fst e) (snd e) res) r lines = lines ++ r).
  { intros r Hr HA. apply dset_all_new; [exact Hr|]. intros k Hk Hk'.
    unfold lines in Hk'. rewrite put_keys in Hk'. cbn [map app] in Hk'. apply filter_In in Hk' as [Hk' _].
    apply once_incl in Hk'. rewrite map_map in Hk'. rewrite forallb_forall in HP. apply HP in Hk'.
    rewrite Forall_forall in HA. rewrite (HA k Hk) in Hk'. discriminate. }
  clearbody lines. clear - Ed EL HN Ht. rewrite nice_dict.
  assert (E1 : shown_name true "size" = "SIZE"%string) by reflexivity.
  assert (E2 : shown_name true "header" = "HEADER"%string) by reflexivity.
  assert (E3 : shown_name true "target" = "TARGET"%string) by reflexivity.
  assert (E4 : shown_name true "link_info" = "LINK INFO"%string) by reflexivity.
  assert (E5 : shown_name true "data" = "DATA"%string) by reflexivity.
  assert (E6 : shown_name true "extra" = "EXTRA"%string) by reflexivity.
  rewrite Ed. destruct Ht as [->|[x ->]];
    cbn [app dget String.eqb Ascii.eqb Bool.eqb map on_value fst snd fold_left]; unfold put, on_value; cbn [fst snd];
    rewrite ?E1, ?E2, ?E3, ?E4, ?E5, ?E6;
    cbn [dset String.eqb Ascii.eqb Bool.eqb map fst snd String.append placeholder dget dpop]; rewrite EL, HN;
    try (cbn [ret bind]; rewrite ?app_nil_r; reflexivity).
  all: try (cbn [map fst]; repeat constructor; cbn [In]; intros HI; repeat destruct HI as [HI|HI]; discriminate || contradiction).
  all: repeat constructor.
Qed.

Lemma yaml_raises l all e : snd (get_json l all) = Err e -> yaml_tree l all = (fst (get_json l all), Err e).
Proof. unfold yaml_tree. destruct (get_json l all) as [w r]. cbn [snd fst]. intros ->. reflexivity. Qed.

Lemma unconfused_split ks : unconfused ks = true -> names_collide_only_raw ks.
Proof.
  intros H ks1 j ks2 k ks3 top -> E. revert H. induction ks1 as [|x ks1 IH]; cbn [app unconfused].
  - rewrite andb_true_iff. intros [H _]. rewrite forallb_forall in H.
    assert (Hk : In k (ks2 ++ k :: ks3)) by (apply in_or_app; right; now left). specialize (H k Hk). unfold in_order, collide in H.
    rewrite !orb_true_iff, andb_true_iff, !String.eqb_eq, negb_true_iff, orb_false_iff in H.
    destruct H as [[[H1 H2]|H]|H]; [|now left|now right]. exfalso. rewrite !nice_name in H1, H2.
    destruct top; rewrite E, String.eqb_refl in *; discriminate.
  - rewrite andb_true_iff. intros [_ H]. now apply IH.
Qed.

Lemma report_names src cp allow l all d :
  snd (lnk_init src cp allow) = Ok l -> snd (get_json l all) = Ok d ->
  well_formed (fun _ => True) names_collide_only_raw (PDict d).
Proof.
  intros Hl Hd. exact (report_wf (fun _ => True) names_collide_only_raw src cp allow l all d (fun _ _ => I) unconfused_split
    (fun _ _ => conj (fun _ _ _ => I) (fun _ => I)) Hl Hd).
Qed.
