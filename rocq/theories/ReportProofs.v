(** * The abridged report (property C41) *)
From Verif Require Import Lemmas PyTime Codec Utils Header StringData Targets Info Extra LnkFile Json Report.
From Verif Require Import SpecText SpecTime SpecReport OutcomeProofs CoreProofs ApiProofs ShapeProofs.

(** ** Induction on report values *)

Section Induction.
  Variable P : pyval -> Prop.
  Hypothesis H_none : P PNone.
  Hypothesis H_int : forall z, P (PInt z).
  Hypothesis H_str : forall t, P (PStr t).
  Hypothesis H_date : forall d, P (PDate d).
  Hypothesis H_list : forall l, Forall P l -> P (PList l).
  Hypothesis H_dict : forall d : dict, Forall (fun e => P (snd e)) d -> P (PDict d).
  Fixpoint value_induction (v : pyval) : P v :=
    match v with
    | PNone => H_none
    | PInt z => H_int z
    | PStr t => H_str t
    | PDate d => H_date d
    | PList l => H_list l ((fix go (l : list pyval) : Forall P l :=
                              match l with
                              | [] => Forall_nil P
                              | v :: r => Forall_cons v (value_induction v) (go r)
                              end) l)
    | PDict d => H_dict d ((fix go (d : dict) : Forall (fun e => P (snd e)) d :=
                              match d with
                              | [] => Forall_nil _
                              | (k, v) :: r => Forall_cons (P := fun e => P (snd e)) (k, v) (value_induction v) (go r)
                              end) d)
    end.
End Induction.

(** ** Abridging *)

Section Abridge.
  Variable out : path -> bool.
  Fixpoint elements_from (p : path) (i : N) (l : list pyval) : list pyval :=
    match l with
    | [] => []
    | v :: r => abridged out (p ++ [Element i]) v :: elements_from p (i + 1) r
    end.
  Fixpoint entries (p : path) (d : dict) : dict :=
    match d with
    | [] => []
    | (k, v) :: r =>
      if out (p ++ [Key k]) then entries p r else (k, abridged out (p ++ [Key k]) v) :: entries p r
    end.
  Lemma abridged_list p l : abridged out p (PList l) = PList (elements_from p 0 l).
  Proof.
    cbn. f_equal. generalize 0. induction l as [|v l IH]; intros i; cbn; [reflexivity|]. now rewrite IH.
  Qed.
  Lemma abridged_dict p d : abridged out p (PDict d) = PDict (entries p d).
  Proof.
    cbn. f_equal. induction d as [|[k v] d IH]; cbn; [reflexivity|]. destruct (out _); now rewrite IH.
  Qed.

  (** Nothing below [p] is left out. *)
  Definition quiet (p : path) : Prop := forall q, q <> [] -> out (p ++ q) = false.
  Lemma quiet_step p s : quiet p -> quiet (p ++ [s]).
  Proof. intros H q Hq. rewrite <- app_assoc. apply H. discriminate. Qed.
  Lemma quiet_same v : forall p, quiet p -> abridged out p v = v.
  Proof.
    induction v as [|z|t|d|l IH|d IH] using value_induction; intros p Hp; try reflexivity.
    - rewrite abridged_list. f_equal. generalize 0. induction l as [|v l IHl]; intros i; cbn; [reflexivity|].
      inversion IH as [|? ? H1 H2]; subst. rewrite H1 by now apply quiet_step. now rewrite IHl.
    - rewrite abridged_dict. f_equal. induction d as [|[k v] d IHd]; cbn [entries]; [reflexivity|].
      inversion IH as [|? ? H1 H2]; subst. cbn [snd] in H1.
      rewrite Hp by discriminate. rewrite H1 by now apply quiet_step. now rewrite IHd.
  Qed.
  Lemma entries_app p d1 d2 : entries p (d1 ++ d2) = entries p d1 ++ entries p d2.
  Proof.
    induction d1 as [|[k v] d1 IH]; cbn [app entries]; [reflexivity|]. destruct (out _); cbn [app]; now rewrite IH.
  Qed.
  (** When only direct entries are left out, abridging filters. *)
  Lemma entries_filter p d :
    (forall k, In k (map fst d) -> out (p ++ [Key k]) = false -> quiet (p ++ [Key k])) ->
    entries p d = filter (fun e => negb (out (p ++ [Key (fst e)]))) d.
  Proof.
    induction d as [|[k v] d IH]; intros H; cbn [entries filter fst]; [reflexivity|].
    rewrite IH by (intros j Hj; apply H; now right).
    destruct (out (p ++ [Key k])) eqn:E; cbn [negb]; [reflexivity|].
    rewrite quiet_same; [reflexivity|]. apply H; [now left|exact E].
  Qed.

  (** The value at a position of the abridged report. *)
  Lemma dget_entries p d k :
    dget k (entries p d) =
      if out (p ++ [Key k]) then None else option_map (abridged out (p ++ [Key k])) (dget k d).
  Proof.
    induction d as [|[j v] d IH]; cbn [entries dget]; [now destruct (out _)|].
    destruct (String.eqb k j) eqn:E.
    - apply String.eqb_eq in E. subst j. destruct (out (p ++ [Key k])) eqn:Eo; [exact IH|].
      cbn [dget]. now rewrite String.eqb_refl.
    - destruct (out (p ++ [Key j])); [exact IH|]. cbn [dget]. now rewrite E.
  Qed.
  Lemma nth_elements p l : forall i n,
    nth_error (elements_from p i l) n = option_map (abridged out (p ++ [Element (i + N.of_nat n)])) (nth_error l n).
  Proof.
    induction l as [|v l IH]; intros i n; cbn [elements_from]; [now destruct n|].
    destruct n as [|n]; cbn [nth_error].
    - change (N.of_nat 0) with 0. now rewrite N.add_0_r.
    - rewrite IH. now replace (i + 1 + N.of_nat n) with (i + N.of_nat (S n)) by lia.
  Qed.
  Lemma at_abridged q : forall p v,
    at_path q (abridged out p v) =
      if hidden out p q then None else option_map (abridged out (p ++ q)) (at_path q v).
  Proof.
    induction q as [|s q IH]; intros p v; cbn [at_path hidden]; [now rewrite app_nil_r|].
    destruct s as [k|i].
    - destruct v as [| | | | |d]; try (cbn; now destruct (_ || _)).
      rewrite abridged_dict. cbn [child]. rewrite dget_entries. destruct (out (p ++ [Key k])); [reflexivity|].
      cbn [orb]. destruct (dget k d) as [v|]; cbn [option_map]; [|now destruct (hidden _ _ _)].
      rewrite IH. now rewrite <- app_assoc.
    - destruct v as [| | | |l|]; try (cbn; now destruct (hidden _ _ _)).
      rewrite abridged_list. cbn [child]. rewrite nth_elements.
      rewrite N.add_0_l, Nnat.N2Nat.id.
      destruct (nth_error l (N.to_nat i)) as [v|]; cbn [option_map]; [|now destruct (hidden _ _ _)].
      rewrite IH. now rewrite <- app_assoc.
  Qed.

  Lemma entries_keys p d k : In k (map fst (entries p d)) -> In k (map fst d).
  Proof.
    induction d as [|[j v] d IH]; cbn [entries]; [intros []|].
    destruct (out _); cbn [map fst In]; intuition.
  Qed.
  Lemma abridged_wf T v : forall p, well_formed T (fun ks => unconfused ks = true) v ->
    well_formed T (fun ks => unconfused ks = true) (abridged out p v).
  Proof.
    induction v as [|z|t|d|l IH|d IH] using value_induction; intros p H; try exact H.
    - rewrite abridged_list. apply wf_list in H. apply wf_list. generalize 0.
      induction l as [|v l IHl]; intros i; cbn; [constructor|].
      inversion IH; inversion H; subst. constructor; auto.
    - rewrite abridged_dict. apply wf_dict in H as (H1 & H2 & H3). apply wf_dict. repeat split.
      + clear -H1. induction d as [|[k v] d IHd]; cbn [entries]; [constructor|].
        inversion H1; subst. destruct (out _); [auto|]. cbn [map fst]. constructor; [|auto].
        intros Hi. now apply entries_keys in Hi.
      + clear -H2. induction d as [|[k v] d IHd]; cbn [entries]; [reflexivity|].
        cbn [map fst unconfused] in H2. apply andb_true_iff in H2 as [H2 H3].
        destruct (out _); [auto|]. cbn [map fst unconfused]. rewrite (IHd H3), andb_true_r.
        rewrite forallb_forall in *. intros j Hj. apply H2. now apply entries_keys in Hj.
      + clear H1 H2. induction d as [|[k v] d IHd]; cbn [entries]; [constructor|].
        inversion IH; inversion H3; subst. destruct (out _); [auto|]. constructor; cbn [snd] in *; auto.
  Qed.
End Abridge.

(** ** Removing keys *)

Lemma dpop_absent k d : ~ In k (map fst d) -> dpop k d = d.
Proof.
  induction d as [|[j v] d IH]; cbn [dpop map fst In]; intros H; [reflexivity|].
  destruct (String.eqb k j) eqn:E; [apply String.eqb_eq in E; subst; tauto|]. rewrite IH; tauto.
Qed.
Lemma dpop_filter k d : NoDup (map fst d) -> dpop k d = filter (fun e => negb (String.eqb (fst e) k)) d.
Proof.
  induction d as [|[j v] d IH]; cbn [dpop filter map fst]; intros H; [reflexivity|]. inversion H; subst.
  rewrite (String.eqb_sym j k). destruct (String.eqb k j) eqn:E; cbn [negb]; [|now rewrite IH].
  apply String.eqb_eq in E. subst j. rewrite <- IH by assumption. symmetry. now apply dpop_absent.
Qed.
Lemma filter_NoDup (f : string * pyval -> bool) d : NoDup (map fst d) -> NoDup (map fst (filter f d)).
Proof.
  induction d as [|e d IH]; cbn [filter map]; intros H; [constructor|]. inversion H; subst.
  destruct (f e); cbn [map]; [|auto]. constructor; [|auto].
  intros Hi. apply in_map_iff in Hi as (x & Hx & Hi). apply filter_In in Hi as [Hi _].
  rewrite <- Hx in *. apply H2. now apply in_map.
Qed.
Lemma filter_filter {A} (f g : A -> bool) l : filter f (filter g l) = filter (fun x => g x && f x) l.
Proof.
  induction l as [|x l IH]; cbn [filter]; [reflexivity|]. destruct (g x) eqn:E; cbn [filter andb]; now rewrite IH.
Qed.
Lemma pop_all_filter ks : forall d, NoDup (map fst d) ->
  pop_all ks d = filter (fun e => negb (existsb (String.eqb (fst e)) ks)) d.
Proof.
  unfold pop_all. induction ks as [|k ks IH]; intros d H; cbn [fold_left existsb].
  - clear H. induction d as [|e d IHd]; cbn; [reflexivity|]. now f_equal.
  - rewrite IH by now rewrite dpop_filter by assumption; apply filter_NoDup.
    rewrite dpop_filter by assumption. rewrite filter_filter. apply filter_ext. intros e. now rewrite negb_orb.
Qed.
Lemma filter_absent ks ks' (d : dict) :
  (forall k, In k ks' -> ~ In k (map fst d)) ->
  filter (fun e => negb (existsb (String.eqb (fst e)) (ks ++ ks'))) d =
  filter (fun e => negb (existsb (String.eqb (fst e)) ks)) d.
Proof.
  intros H. induction d as [|[k v] d IH]; cbn [filter fst]; [reflexivity|].
  rewrite IH by (intros j Hj Hi; apply (H j Hj); now right).
  rewrite existsb_app. replace (existsb (String.eqb k) ks') with false; [now rewrite orb_false_r|].
  symmetry. apply not_true_iff_false. intros E. apply existsb_exists in E as (j & Hj & E).
  apply String.eqb_eq in E. subst j. apply (H k Hj). now left.
Qed.

(** ** [get_json(get_all=False)] *)

Notation "'wf'" := (well_formed (fun _ => True) (fun _ => True)) (only parsing).

Lemma filter_same {A} (f g : A -> bool) l : (forall x, f x = g x) -> filter f l = filter g l.
Proof. intros H. now apply filter_ext. Qed.

Ltac paths := intros q Hq; destruct q as [|[?|?] [|[?|?] [|[?|?] [|? ?]]]]; try (now destruct Hq); try reflexivity.
Lemma quiet_header k : quiet left_out [Key "header"; Key k].
Proof. paths. Qed.
Lemma quiet_info k : k <> "location_info"%string -> quiet left_out [Key "link_info"; Key k].
Proof. intros Hk. apply String.eqb_neq in Hk. paths. cbn. now rewrite Hk. Qed.
Lemma quiet_location k : quiet left_out [Key "link_info"; Key "location_info"; Key k].
Proof. paths. Qed.
Lemma quiet_target k : k <> "items"%string -> quiet left_out [Key "target"; Key k].
Proof. intros Hk. apply String.eqb_neq in Hk. paths. cbn. now rewrite Hk. Qed.
Lemma quiet_item i k : quiet left_out [Key "target"; Key "items"; Element i; Key k].
Proof. paths. Qed.
Lemma quiet_section k : k <> "header"%string -> k <> "link_info"%string -> k <> "target"%string ->
  quiet left_out [Key k].
Proof.
  intros H1 H2 H3. apply String.eqb_neq in H1, H2, H3. paths; cbn; now rewrite ?H1, ?H2, ?H3.
Qed.

Definition header_out := ["header_size"; "reserved0"; "reserved1"; "reserved2"]%string.
Definition info_out :=
  ["link_info_size"; "link_info_header_size"; "volume_id_offset"; "local_base_path_offset";
   "common_network_relative_link_offset"; "common_path_suffix_offset"]%string.
Definition local_out := ["volume_id_size"; "volume_label_offset"]%string.
Definition network_out := ["common_network_relative_link_size"; "net_name_offset"; "device_name_offset"]%string.
Definition target_out := ["index"; "size"]%string.
Lemma out_header k : left_out ([Key "header"] ++ [Key k]) = existsb (String.eqb k) header_out.
Proof. cbn. now rewrite !orb_false_r. Qed.
Lemma out_info k : left_out ([Key "link_info"] ++ [Key k]) = existsb (String.eqb k) info_out.
Proof. cbn. now rewrite !orb_false_r. Qed.
Lemma out_location k :
  left_out ([Key "link_info"; Key "location_info"] ++ [Key k]) = existsb (String.eqb k) (local_out ++ network_out).
Proof. cbn. now rewrite !orb_false_r. Qed.
Lemma out_target k : left_out ([Key "target"] ++ [Key k]) = existsb (String.eqb k) target_out.
Proof. cbn. now rewrite !orb_false_r. Qed.

Lemma header_entries h : NoDup (map fst h) -> PDict (pop_all header_out h) = abridged left_out [Key "header"] (PDict h).
Proof.
  intros H. rewrite abridged_dict. f_equal. rewrite pop_all_filter by assumption.
  rewrite entries_filter by (intros; apply quiet_header). apply filter_same. intros e. now rewrite out_header.
Qed.
Lemma location_entries li : NoDup (map fst li) ->
  abridged left_out [Key "link_info"; Key "location_info"] (PDict li)
  = PDict (filter (fun e => negb (existsb (String.eqb (fst e)) (local_out ++ network_out))) li).
Proof.
  intros H. rewrite abridged_dict. f_equal.
  rewrite entries_filter by (intros; apply quiet_location). apply filter_same. intros e. now rewrite out_location.
Qed.
Lemma local_location li : NoDup (map fst li) -> (forall k, In k network_out -> ~ In k (map fst li)) ->
  PDict (pop_all local_out li) = abridged left_out [Key "link_info"; Key "location_info"] (PDict li).
Proof. intros H1 H2. rewrite location_entries by assumption. now rewrite filter_absent, pop_all_filter. Qed.
Lemma network_location li : NoDup (map fst li) -> (forall k, In k local_out -> ~ In k (map fst li)) ->
  PDict (pop_all network_out li) = abridged left_out [Key "link_info"; Key "location_info"] (PDict li).
Proof.
  intros H1 H2. rewrite location_entries by assumption. rewrite pop_all_filter by assumption.
  rewrite <- (filter_absent network_out local_out) by assumption. f_equal. apply filter_same. intros e. f_equal.
  rewrite !existsb_app. apply orb_comm.
Qed.

(** The last two entries of a LinkInfo section. *)
Lemma dupd_last (d : dict) k f v tail : ~ In k (map fst d) ->
  dupd k f (d ++ (k, v) :: tail) = d ++ (k, f v) :: tail.
Proof.
  induction d as [|[j w] d IH]; cbn [app dupd map fst In]; intros H; [now rewrite String.eqb_refl|].
  destruct (String.eqb k j) eqn:E; [apply String.eqb_eq in E; subst; tauto|]. rewrite IH; tauto.
Qed.
Lemma dget_last (d : dict) k v tail : ~ In k (map fst d) -> dget k (d ++ (k, v) :: tail) = Some v.
Proof.
  induction d as [|[j w] d IH]; cbn [app dget map fst In]; intros H; [now rewrite String.eqb_refl|].
  destruct (String.eqb k j) eqn:E; [apply String.eqb_eq in E; subst; tauto|]. rewrite IH; tauto.
Qed.
Lemma not_in_filter (f : string * pyval -> bool) k d : ~ In k (map fst d) -> ~ In k (map fst (filter f d)).
Proof.
  intros H Hi. apply H. apply in_map_iff in Hi as (e & He & Hi). apply filter_In in Hi as [Hi _].
  rewrite <- He. now apply in_map.
Qed.

Lemma info_entries d li (local : bool) :
  let s := (if local then "Local" else "Network")%string in
  NoDup (map fst (d ++ [("location_info"%string, PDict li); ("location"%string, PS s)])) ->
  NoDup (map fst li) ->
  (forall k, In k (if local then network_out else local_out) -> ~ In k (map fst li)) ->
  PDict (prune_info (d ++ [("location_info"%string, PDict li); ("location"%string, PS s)]))
  = abridged left_out [Key "link_info"] (PDict (d ++ [("location_info"%string, PDict li); ("location"%string, PS s)])).
Proof.
  cbv zeta. intros Hd Hli Hk. rewrite abridged_dict. f_equal. unfold prune_info.
  fold info_out local_out network_out. rewrite pop_all_filter by assumption.
  rewrite filter_app. set (d' := filter _ d).
  change (filter _ [(_, PDict li); (_, _)])
    with [("location_info"%string, PDict li); ("location"%string, PS (if local then "Local" else "Network"))].
  rewrite map_app in Hd. cbn [map fst] in Hd.
  assert (N1 : ~ In "location_info"%string (map fst d)).
  { intros Hi. apply NoDup_remove_2 in Hd. apply Hd. apply in_or_app. now left. }
  assert (N2 : ~ In "location"%string (map fst d)).
  { intros Hi. apply NoDup_remove_1 in Hd. apply NoDup_remove_2 in Hd. apply Hd. apply in_or_app. now left. }
  assert (N1' : ~ In "location_info"%string (map fst d')) by now apply not_in_filter.
  assert (N2' : ~ In "location"%string (map fst d')) by now apply not_in_filter.
  assert (Ed : entries left_out [Key "link_info"] d = d').
  { rewrite entries_filter.
    - apply filter_same. intros e. now rewrite out_info.
    - intros k Hi _. apply quiet_info. intros ->. contradiction. }
  rewrite entries_app, Ed. cbn [entries]. rewrite !out_info.
  change (existsb _ info_out) with false. change (existsb (String.eqb "location") info_out) with false.
  cbv iota.
  rewrite (quiet_same left_out (PS _)) by (apply quiet_info; discriminate).
  assert (G : forall r v s, location_is r (d' ++ [("location_info"%string, v); ("location"%string, PS s)])
                            = text_eqb (s2t s) (s2t r)).
  { intros r v s. unfold location_is. change ([("location_info"%string, v); ("location"%string, PS s)])
      with ([("location_info"%string, v)] ++ ("location"%string, PS s) :: []).
    rewrite app_assoc. rewrite dget_last; [reflexivity|].
    rewrite map_app, in_app_iff. cbn. intros [Hi|[Hi|[]]]; [tauto|discriminate]. }
  cbv zeta. destruct local; rewrite G.
  - change (text_eqb _ _) with true. cbv iota. rewrite dupd_last by assumption. rewrite G.
    change (text_eqb _ _) with false. cbv iota. cbn [on_dict]. now rewrite local_location.
  - change (text_eqb _ _) with false. cbv iota. rewrite G.
    change (text_eqb _ _) with true. cbv iota. rewrite dupd_last by assumption.
    cbn [on_dict]. now rewrite network_location.
Qed.

(** ** The keys of the LinkInfo variants *)

Definition anything (t : text) : Prop := True.
Definition any_keys (ks : list string) : Prop := True.
Lemma any_page (cp : cp_arg) c : tp_codec cp = Some c ->
  (forall b t, strict c b = Some t -> anything t) /\ (forall b, anything (replace c b)).
Proof. intros _. split; intros; exact I. Qed.
Lemma dict_distinct d : well_formed anything any_keys (PDict d) -> NoDup (map fst d).
Proof. intros H. now apply wf_dict in H. Qed.

Lemma fields_keys rows d : snd (fields rows) = Ok d -> map fst d = map fst rows.
Proof.
  revert d. induction rows as [|[k m] rows IH]; cbn [fields]; intros d H; [now injection H as <-|].
  apply snd_bind_Ok in H as (v & _ & H). apply snd_bind_Ok in H as (d' & Hd & [= <-]).
  cbn [map fst]. now rewrite (IH d' Hd).
Qed.
Lemma when_keys b rows d : snd (when b (fields rows)) = Ok d -> incl (map fst d) (map fst rows).
Proof.
  unfold when. intros H. apply snd_bind_Ok in H as ([|] & _ & H).
  - rewrite (fields_keys _ _ H). apply incl_refl.
  - injection H as <-. intros k [].
Qed.
Definition absent (ks ks' : list string) : bool := forallb (fun k => negb (existsb (String.eqb k) ks')) ks.
Lemma absent_spec ks ks' k : absent ks ks' = true -> In k ks -> ~ In k ks'.
Proof.
  unfold absent. rewrite forallb_forall. intros H Hk Hi. specialize (H k Hk).
  apply negb_true_iff in H. rewrite <- not_true_iff_false in H. apply H. apply existsb_exists.
  exists k. split; [exact Hi|apply String.eqb_refl].
Qed.
Lemma local_keys cp raw d : snd (local_info_dict cp raw) = Ok d -> forall k, In k network_out -> ~ In k (map fst d).
Proof.
  unfold local_info_dict. intros H k Hk. apply snd_bind_Ok in H as (d1 & H1 & H).
  apply snd_bind_Ok in H as (d2 & H2 & [= <-]). apply fields_keys in H1. apply when_keys in H2.
  rewrite map_app, H1. rewrite in_app_iff. intros [Hi|Hi]; [|apply H2 in Hi]; revert Hi; apply (absent_spec network_out);
    (reflexivity || assumption).
Qed.
Lemma network_keys cp raw d : snd (network_info_dict cp raw) = Ok d -> forall k, In k local_out -> ~ In k (map fst d).
Proof.
  unfold network_info_dict. intros H k Hk. apply snd_bind_Ok in H as (d1 & H1 & H). apply fields_keys in H1.
  apply snd_bind_Ok in H as (d2 & H2 & H). apply snd_bind_Ok in H as (d3 & H3 & H).
  apply snd_bind_Ok in H as (d4 & H4 & H). apply snd_bind_Ok in H as (d5 & H5 & H).
  apply snd_bind_Ok in H as (d6 & H6 & [= <-]). apply when_keys in H2, H3, H4, H5, H6.
  rewrite !map_app, H1, !in_app_iff.
  intros [Hi|[Hi|[Hi|[Hi|[Hi|Hi]]]]]; [|apply H2 in Hi|apply H3 in Hi|apply H4 in Hi|apply H5 in Hi|apply H6 in Hi];
    revert Hi; apply (absent_spec local_out); (reflexivity || assumption).
Qed.

Lemma info_pruned cp k raw d : snd (info_dict cp k raw) = Ok d ->
  PDict (prune_info d) = abridged left_out [Key "link_info"] (PDict d).
Proof.
  intros H. pose proof (g_info anything any_keys (fun _ _ => I) (fun _ _ => I) cp (any_page cp) k raw d H) as Hwf.
  cbn beta in Hwf. apply dict_distinct in Hwf.
  unfold info_dict in H. apply snd_bind_Ok in H as (d1 & _ & H).
  apply snd_bind_Ok in H as (d2 & _ & H). apply snd_bind_Ok in H as (d3 & _ & H).
  apply snd_bind_Ok in H as (d4 & _ & H). apply snd_bind_Ok in H as (d5 & _ & H).
  apply snd_bind_Ok in H as (li & Hli & E). injection E as <-. revert Hwf. rewrite !app_assoc. intros Hwf.
  destruct k.
  - apply (info_entries _ li true); [exact Hwf| |].
    + apply dict_distinct. exact (g_local anything any_keys (fun _ _ => I) (fun _ _ => I) cp (any_page cp) raw li Hli).
    + exact (local_keys cp raw li Hli).
  - apply (info_entries _ li false); [exact Hwf| |].
    + apply dict_distinct. exact (g_network anything any_keys (fun _ _ => I) (fun _ _ => I) cp (any_page cp) raw li Hli).
    + exact (network_keys cp raw li Hli).
Qed.

Lemma items_pruned l : Forall (well_formed anything any_keys) l ->
  PList (map (on_dict (dpop "modification_time")) l) = abridged left_out [Key "target"; Key "items"] (PList l).
Proof.
  intros H. rewrite abridged_list. f_equal. generalize 0. induction l as [|v l IH]; intros i; cbn [map elements_from]; [reflexivity|].
  inversion H as [|? ? H1 H2]; subst. rewrite <- (IH H2). f_equal. destruct v as [| | | |vs|d]; try reflexivity.
  - cbn [on_dict]. symmetry. rewrite abridged_list. f_equal. generalize 0 as j. clear.
    induction vs as [|v vs IH]; intros j; cbn [elements_from]; [reflexivity|]. rewrite IH. f_equal.
    apply quiet_same. paths.
  - cbn [on_dict app]. rewrite abridged_dict. f_equal. rewrite dpop_filter by now apply dict_distinct.
    rewrite entries_filter by (intros; apply quiet_item). apply filter_same. intros [k v]. reflexivity.
Qed.
Lemma target_pruned l t d : snd (target_dict l t) = Ok d ->
  PDict (prune_target d) = abridged left_out [Key "target"] (PDict d).
Proof.
  unfold target_dict. cbn [fields]. intros H. apply snd_bind_Ok in H as (s & _ & H).
  apply snd_bind_Ok in H as (d1 & H1 & [= <-]). apply snd_bind_Ok in H1 as (it & Hit & H1).
  apply snd_bind_Ok in H1 as (d2 & H2 & [= <-]). apply snd_bind_Ok in H2 as (ix & Hix & H2).
  apply snd_bind_Ok in H2 as (d3 & [= <-] & [= <-]).
  apply snd_bind_Ok in Hit as (items & Hitems & [= <-]).
  unfold targets_as_list in Hitems.
  pose proof (g_items anything any_keys (fun _ _ => I) (fun _ _ => I) (l_cp l) (any_page _) _ items Hitems) as Hwf.
  cbn beta in Hwf. apply wf_list in Hwf.
  rewrite abridged_dict. unfold prune_target. cbn [pop_all fold_left dpop String.eqb Ascii.eqb Bool.eqb].
  cbn -[left_out abridged]. rewrite items_pruned by assumption. reflexivity.
Qed.

(** ** The theorem *)

Lemma pruned l d : snd (full_json l) = Ok d -> PDict (prune d) = abridged left_out [] (PDict d).
Proof.
  unfold full_json. intros H. apply snd_bind_Ok in H as (h & Hh & H).
  apply snd_bind_Ok in H as (t & Ht & H). apply snd_bind_Ok in H as (i & Hi & H).
  apply snd_bind_Ok in H as (e & He & E). injection E as <-.
  assert (EH : PDict (pop_all header_out h) = abridged left_out [Key "header"] (PDict h)).
  { apply header_entries, dict_distinct.
    exact (g_header anything any_keys (fun _ _ => I) (fun _ _ => I) (l_header l) h Hh). }
  assert (EI : PDict (prune_info i) = abridged left_out [Key "link_info"] (PDict i)).
  { destruct (l_info l) as [[k raw]|]; [exact (info_pruned _ _ _ _ Hi)|]. injection Hi as <-. reflexivity. }
  assert (ED : abridged left_out [Key "data"] (PDict (string_data_as_dict (l_string_data l)))
               = PDict (string_data_as_dict (l_string_data l)))
    by (apply quiet_same, quiet_section; discriminate).
  assert (EE : abridged left_out [Key "extra"] (PDict e) = PDict e)
    by (apply quiet_same, quiet_section; discriminate).
  rewrite abridged_dict. f_equal.
  destruct (l_targets l) as [tg|].
  - apply snd_bind_Ok in Ht as (td & Htd & [= <-]). apply target_pruned in Htd.
    cbn [app entries]. change (left_out ([] ++ [Key _])) with false. cbv iota. cbn [app].
    rewrite ED, EE, <- EI, <- EH, <- Htd. reflexivity.
  - injection Ht as <-. cbn [app entries]. change (left_out ([] ++ [Key _])) with false. cbv iota. cbn [app].
    rewrite ED, EE, <- EI, <- EH. reflexivity.
Qed.

Lemma report_abridged l :
  fst (get_json l false) = fst (get_json l true)
  /\ match snd (get_json l true), snd (get_json l false) with
     | Ok full, Ok short => PDict short = abridged left_out [] (PDict full)
     | Err e, Err e' => e' = e
     | _, _ => False
     end.
Proof.
  unfold get_json. pose proof (pruned l) as HP. destruct (full_json l) as [w [d|e]].
  - split; [reflexivity|]. exact (HP d eq_refl).
  - now split.
Qed.

Lemma leaves_kept l full short q v :
  snd (get_json l true) = Ok full -> snd (get_json l false) = Ok short ->
  (forall d, v <> PDict d) -> (forall vs, v <> PList vs) ->
  at_path q (PDict full) = Some v ->
  at_path q (PDict short) = if hidden left_out [] q then None else Some v.
Proof.
  intros Hf Hs H1 H2 Hq. destruct (report_abridged l) as [_ H]. rewrite Hf, Hs in H. rewrite H, at_abridged, Hq.
  destruct (hidden left_out [] q); [reflexivity|]. cbn [option_map app]. f_equal.
  destruct v as [|z|t|d|vs|d]; try reflexivity; [now destruct (H2 vs)|now destruct (H1 d)].
Qed.
