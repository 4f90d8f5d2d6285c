(** * What the printed JSON text keeps of a report (property C84) *)
From Verif Require Import ApiProofs ShapeProofs ReportProofs CommandProofs ReadableProofs MainProofs ClassProofs.
From Verif Require Import Lemmas Codec Utils Sha256 Header StringData Targets Info Extra LnkFile Json Report.
From Verif Require Import Spec SpecText SpecTime SpecReport SpecItems SpecInfo SpecHeader SpecExtra SpecOutcome SpecEntries SpecBlocks SpecWhole.
From Verif Require Import JsonProofs JsonTextProofs WholeProofs SpecPrinted.
From Coq Require Import Permutation.

(** ** Times stand under their keys only, and nothing else does *)

Definition no_date (v : pyval) : Prop := forall t, v <> PDate t.
Definition fits_key (k : string) (v : pyval) : Prop :=
  if is_time k then v = PNone \/ exists t, v = PDate t else no_date v.
Inductive dated : pyval -> Prop :=
| dd_none : dated PNone
| dd_int z : dated (PInt z)
| dd_str t : dated (PStr t)
| dd_date t : dated (PDate t)
| dd_list l : Forall (fun v => no_date v /\ dated v) l -> dated (PList l)
| dd_dict d : Forall (fun e => fits_key (fst e) (snd e) /\ dated (snd e)) d -> dated (PDict d).

(** ** Times to the second *)

Lemma two_digits z : (0 <= z <= 99)%Z -> (10 * (Z.of_N (Z.to_N (48 + z / 10)) - 48) + (Z.of_N (Z.to_N (48 + z mod 10)) - 48))%Z = z.
Proof. intros H. rewrite !Z2N.id by lia. lia. Qed.
Lemma time_of_iso t : valid_datetime t -> time_of (iso8601 t) = DT (dt_year t) (dt_month t) (dt_day t) (dt_hour t) (dt_min t) (dt_sec t) 0.
Proof.
  intros (HY & HD & HH & HM & HS & _).
  assert (M : (1 <= dt_month t <= 12)%Z) by (destruct HD; lia).
  assert (D : (1 <= dt_day t <= 31)%Z).
  { destruct HD as [_ HD]. unfold month_length in HD. repeat match type of HD with context[if ?b then _ else _] => destruct b end; lia. }
  unfold time_of, digits, iso8601, two.
  change (N.to_nat 0) with 0%nat. change (N.to_nat 2) with 2%nat. change (N.to_nat 5) with 5%nat. change (N.to_nat 8) with 8%nat. change (N.to_nat 11) with 11%nat. change (N.to_nat 14) with 14%nat. change (N.to_nat 17) with 17%nat.
  cbn [app nth]. rewrite !two_digits by lia. f_equal. lia.
Qed.
Lemma iso_second t t' : valid_datetime t -> valid_datetime t' -> iso8601 t = iso8601 t' -> to_the_second t = to_the_second t'.
Proof. intros H H' E. apply (f_equal time_of) in E. rewrite !time_of_iso in E by assumption. injection E. unfold to_the_second. congruence. Qed.
Lemma second_iso t t' : to_the_second t = to_the_second t' -> iso8601 t = iso8601 t'.
Proof. unfold to_the_second, iso8601. intros [= -> -> -> -> -> ->]. reflexivity. Qed.
Lemma key_of_s2t s : key_of (s2t s) = s.
Proof.
  induction s as [|a s IH]; [reflexivity|]. unfold key_of, s2t in *. cbn [list_ascii_of_string map fold_right]. rewrite IH.
  now rewrite ascii_N_embedding.
Qed.

(** ** Values with a JSON value in common say the same *)

Lemma denotes_same T K v : well_formed T K v -> dated v -> forall w j k, well_formed T K w -> dated w -> fits_key k v -> fits_key k w ->
  denotes j v -> denotes j w -> same v w.
Proof.
  induction v as [|z|t|d|l IH|d IH] using value_induction; intros Hw Hc v' j k Hw' Hc' Hk Hk' Hj Hj'.
  - inversion Hj; subst. inversion Hj'; subst. constructor.
  - inversion Hj; subst. inversion Hj'; subst. constructor.
  - inversion Hj; subst. inversion Hj'; subst; [constructor|]. exfalso. unfold fits_key in *. destruct (is_time k).
    + destruct Hk as [|[? ?]]; discriminate.
    + now apply (Hk' d).
  - inversion Hj; subst. clear Hj. remember (JStr (iso8601 d)) as t eqn:Et. destruct Hj' as [| |t'|d'| |]; try discriminate Et.
    + exfalso. unfold fits_key in *. destruct (is_time k); [destruct Hk' as [|[? ?]]; discriminate|now apply (Hk d)].
    + assert (X : iso8601 d' = iso8601 d) by congruence. constructor. apply iso_second; [exact Hw|exact Hw'|now symmetry].
  - inversion Hj as [| | | |js vs F|]; subst. inversion Hj' as [| | | |js' vs' F'|]; subst.
    apply wf_list in Hw. apply wf_list in Hw'. inversion Hc as [| | | |? C|]; subst. inversion Hc' as [| | | |? C'|]; subst.
    constructor. clear Hj Hj' Hc Hc' Hk Hk'. revert vs' F' Hw' C'.
    induction F as [|j v js vs Hjv F IHF]; intros vs' F' Hw' C'; inversion F' as [|? v' ? vs2 Hjv' F2]; subst; constructor.
    + apply Forall_cons_iff in IH as [I1 _], Hw as [W1 _], Hw' as [W1' _], C as [[C1 C2] _], C' as [[C1' C2'] _].
      now apply (I1 W1 C2 v' j ""%string).
    + apply Forall_cons_iff in IH as [_ I2], Hw as [_ W2], Hw' as [_ W2'], C as [_ C], C' as [_ C']. now apply IHF.
  - inversion Hj as [| | | | |ms ? d1 HP F]; subst. inversion Hj' as [| | | | |ms' d2 d2' HP' F']; subst.
    apply wf_dict in Hw as (_ & _ & Hw). apply wf_dict in Hw' as (_ & _ & Hw').
    inversion Hc as [| | | | |? C]; subst. inversion Hc' as [| | | | |? C']; subst.
    assert (E : Forall2 (fun e e' : string * pyval => fst e = fst e' /\ same (snd e) (snd e')) d1 d2').
    { apply (Permutation_Forall HP) in IH. apply (Permutation_Forall HP) in Hw. apply (Permutation_Forall HP') in Hw'.
      apply (Permutation_Forall HP) in C. apply (Permutation_Forall HP') in C'.
      clear - IH Hw Hw' C C' F F'. revert d2' F' Hw' C'.
      induction F as [|m e ms d1 [H1 H2] F IHF]; intros d2' F' Hw' C'; inversion F' as [|? e' ? d3 [H1' H2'] F2]; subst; constructor.
      - apply Forall_cons_iff in IH as [I1 _], Hw as [W1 _], Hw' as [W1' _], C as [[C1 C2] _], C' as [[C1' C2'] _].
        assert (EK : fst e = fst e') by (apply s2t_inj; congruence). split; [exact EK|]. rewrite <- EK in C1'.
        now apply (I1 W1 C2 (snd e') (snd m) (fst e)).
      - apply Forall_cons_iff in IH as [_ I2], Hw as [_ W2], Hw' as [_ W2'], C as [_ C], C' as [_ C']. now apply IHF. }
    destruct (Permutation_Forall2 (Permutation_sym HP) E) as (r & Hr & Fr).
    apply (same_dict _ _ r); [now rewrite HP'|exact Fr].
Qed.
Lemma same_denotes v : forall w j, same v w -> denotes j v -> denotes j w.
Proof.
  induction v as [|z|t|d|l IH|d IH] using value_induction; intros w j Hs Hj.
  - inversion Hs; subst. exact Hj.
  - inversion Hs; subst. exact Hj.
  - inversion Hs; subst. exact Hj.
  - inversion Hs as [| | |? t' E| |]; subst. inversion Hj; subst. rewrite (second_iso _ _ E). constructor.
  - inversion Hs as [| | | |? l' S|]; subst. inversion Hj as [| | | |js ? F|]; subst. constructor. clear Hs Hj.
    revert js F. induction S as [|v v' l l' S1 S IHS]; intros js F; inversion F as [|j ? js' ? F1 F2]; subst; constructor.
    + apply Forall_cons_iff in IH as [I1 _]. now apply I1.
    + apply Forall_cons_iff in IH as [_ I2]. now apply IHS.
  - inversion Hs as [| | | | |? d' r HP S]; subst. inversion Hj as [| | | | |ms ? d1 HP1 F]; subst.
    destruct (Permutation_Forall2 HP1 S) as (r2 & Hr & S2). apply (denotes_dict _ _ r2); [now rewrite HP|].
    apply (Permutation_Forall HP1) in IH. clear - IH S2 F. revert r2 S2.
    induction F as [|m e ms d1 [H1 H2] F IHF]; intros r2 S2; inversion S2 as [|? e' ? r3 [K1 K2] S3]; subst; constructor.
    + apply Forall_cons_iff in IH as [I1 _]. split; [congruence|]. now apply I1.
    + apply Forall_cons_iff in IH as [_ I2]. now apply IHF.
Qed.
Lemma denotes_back T K v : well_formed T K v -> dated v -> forall j k, fits_key k v -> denotes j v -> same v (back k j).
Proof.
  induction v as [|z|t|d|l IH|d IH] using value_induction; intros Hw Hc j k Hk Hj.
  - inversion Hj; subst. constructor.
  - inversion Hj; subst. constructor.
  - inversion Hj; subst. cbn [back]. unfold fits_key in Hk. destruct (is_time k); [|constructor].
    destruct Hk as [|[? ?]]; discriminate.
  - inversion Hj; subst. cbn [back]. unfold fits_key in Hk. destruct (is_time k); [|now elim (Hk d)].
    constructor. now rewrite time_of_iso.
  - inversion Hj as [| | | |js vs F|]; subst. apply wf_list in Hw. inversion Hc as [| | | |? C|]; subst.
    cbn [back]. constructor. clear Hj Hc Hk.
    induction F as [|j v js vs Hjv F IHF]; cbn [map]; constructor.
    + apply Forall_cons_iff in IH as [I1 _], Hw as [W1 _], C as [[C1 C2] _]. now apply I1.
    + apply Forall_cons_iff in IH as [_ I2], Hw as [_ W2], C as [_ C]. now apply IHF.
  - inversion Hj as [| | | | |ms ? d1 HP F]; subst. apply wf_dict in Hw as (_ & _ & Hw). inversion Hc as [| | | | |? C]; subst.
    cbn [back].
    set (f := fun m : text * json => (key_of (fst m), back (key_of (fst m)) (snd m))).
    assert (E : Forall2 (fun e e' : string * pyval => fst e = fst e' /\ same (snd e) (snd e')) d1 (map f ms)).
    { apply (Permutation_Forall HP) in IH. apply (Permutation_Forall HP) in Hw. apply (Permutation_Forall HP) in C.
      clear - IH Hw C F. induction F as [|m e ms d1 [H1 H2] F IHF]; cbn [map]; constructor.
      - apply Forall_cons_iff in IH as [I1 _], Hw as [W1 _], C as [[C1 C2] _].
        unfold f. cbn [fst snd]. rewrite H1, key_of_s2t. split; [reflexivity|]. now apply I1.
      - apply Forall_cons_iff in IH as [_ I2], Hw as [_ W2], C as [_ C]. now apply IHF. }
    destruct (Permutation_Forall2 (Permutation_sym HP) E) as (r & Hr & Fr).
    exact (same_dict _ _ r Hr Fr).
Qed.
(** ** The times of a report *)

Lemma no_opt {A} (f : A -> pyval) o : (forall a, no_date (f a)) -> no_date (POpt f o).
Proof. intros H. destruct o; [apply H|intros t; discriminate]. Qed.
Ltac no_date_tac := first [ (intros ?; discriminate) | (apply no_opt; intros ? ?; discriminate)
  | (intros ?; repeat match goal with |- match ?x with _ => _ end <> _ => destruct x end; discriminate) ].
Lemma dd_opt {A} (f : A -> pyval) o : (forall a, dated (f a)) -> dated (POpt f o).
Proof. intros H. destruct o; [apply H|constructor]. Qed.
Lemma dd_app (d1 d2 : dict) : dated (PDict d1) -> dated (PDict d2) -> dated (PDict (d1 ++ d2)).
Proof. intros H1 H2. inversion H1; inversion H2; subst. constructor. now apply Forall_app. Qed.
Lemma dd_plain k v (d : dict) : is_time k = false -> no_date v -> dated v -> dated (PDict d) -> dated (PDict ((k, v) :: d)).
Proof. intros Hk Hn Hv Hd. inversion Hd; subst. constructor. constructor; [|assumption]. split; [|exact Hv]. unfold fits_key. cbn [fst snd]. now rewrite Hk. Qed.
Lemma dd_time k o (d : dict) : is_time k = true -> dated (PDict d) -> dated (PDict ((k, POpt PDate o) :: d)).
Proof.
  intros Hk Hd. inversion Hd; subst. constructor. constructor; [|assumption]. unfold fits_key. cbn [fst snd]. rewrite Hk.
  destruct o as [t|]; cbn [POpt]; (split; [|constructor]); [right; now exists t|now left].
Qed.
Lemma dd_empty : dated (PDict []).
Proof. constructor. constructor. Qed.
Lemma dd_dicts ds : Forall (fun d => dated (PDict d)) ds -> dated (PList (map PDict ds)).
Proof. intros H. constructor. rewrite Forall_map. rewrite Forall_forall in *. intros d Hd. split; [intros t; discriminate|now apply H]. Qed.
Lemma dd_cons k v (d : dict) : is_time k = false /\ no_date v -> dated v -> dated (PDict d) -> dated (PDict ((k, v) :: d)).
Proof. intros [Hk Hn]. now apply dd_plain. Qed.
Ltac dts :=
  repeat first
    [ apply dd_empty | (apply dd_time; [reflexivity|]) | (apply dd_plain; [reflexivity|no_date_tac| |]) | apply dd_app
    | apply dd_int | apply dd_str | apply dd_none
    | (apply dd_opt; intros ?) ].
Lemma file_entry_dated cp f : dated (PDict (file_entry_of cp f)).
Proof. unfold file_entry_of, PS, PN. dts. Qed.
Lemma entry_dated cp n f : dated (PDict (entry_of cp n f)).
Proof.
  unfold entry_of, PN. pose proof (file_entry_dated cp) as HF.
  assert (D : dated (PDict [("class", PS "Unknown"); ("size", PInt (Z.of_N (2 + n)))]%string)) by dts.
  set (t := num 1 0 f / 16 mod 8). clearbody t.
  repeat match goal with
  | |- dated (PDict (match ?x with _ => _ end)) => destruct x
  end; try exact D; try apply HF; dts; try (destruct (N.testbit _ _); dts; fail); try (destruct (cpl_comments_offset_of f =? 0); dts; fail); try apply HF.
Qed.
Lemma entries_dated cp r es w : entries_listed cp r es w -> Forall (fun d => dated (PDict d)) es.
Proof. induction 1; constructor; [apply entry_dated|assumption]. Qed.

Lemma header_dated h c a w : dated (PDict (header_report h c a w)).
Proof.
  unfold header_report, PN, PS. dts; unfold names_value; apply dd_list; rewrite Forall_map; apply Forall_forall; intros; (split; [intros t; discriminate|apply dd_str]).
Qed.
Lemma dd_if b d : dated (PDict d) -> dated (PDict (entry_if b d)).
Proof. intros H. destruct b; [exact H|apply dd_empty]. Qed.
Lemma local_dated cp raw : dated (PDict (local_entries cp raw)).
Proof.
  unfold local_entries, PN, PS. apply dd_app; [|apply dd_if; dts]. dts. match goal with |- context[if ?x then _ else _] => destruct x end; dts.
Qed.
Lemma network_dated cp raw : dated (PDict (network_entries cp raw)).
Proof.
  unfold network_entries, PN, PS. repeat apply dd_app; try (apply dd_if; dts); dts.
  all: destruct (N.testbit (num 4 (num 4 20 raw + 4) raw) 1); [|dts]; destruct (known_provider (num 4 (num 4 20 raw + 16) raw)); dts.
Qed.
Lemma info_dated cp network raw : dated (PDict (info_entries cp network raw)).
Proof.
  unfold info_entries. apply dd_app.
  - unfold common_entries, PN. repeat apply dd_app; try (apply dd_if; dts); dts.
  - apply dd_cons; [split; [reflexivity|no_date_tac]| |unfold PS; dts]. destruct network; [apply network_dated|apply local_dated].
Qed.

Lemma value_dated v d w : value_at v d w -> dated (PDict d).
Proof. intros [|]; unfold PS; dts. Qed.
Lemma property_dated n p d w : property_at n p d w -> dated (PDict d).
Proof. intros [d' w' _ _ H|d' w' _ _ H]; apply value_dated in H; unfold number_at, PN; dts; exact H. Qed.
Lemma each_dated {A} (P : A -> dict -> list warning -> Prop) l ds w : (forall a d w, P a d w -> dated (PDict d)) ->
  each P l ds w -> Forall (fun d => dated (PDict d)) ds.
Proof. intros HP. induction 1 as [|a l d ds w ws H _ IH]; constructor; [exact (HP _ _ _ H)|exact IH]. Qed.
Lemma storage_dated x d w : storage_at x d w -> dated (PDict d).
Proof.
  intros [named ps ds w' _ _ _ H]. apply each_dated in H; [|apply property_dated]. unfold number_at, guid_field, PN. dts.
  now apply dd_dicts.
Qed.
Lemma fixed_dated cp g raw d : fixed_report cp g raw = Some d -> dated (PDict d).
Proof.
  assert (D : dated (PDict [("extra_data_sha256"%string, PStr (sha256_hex (dropN 4 raw)))])) by dts.
  unfold fixed_report. intros H.
  repeat match type of H with
  | match ?x with _ => _ end = _ => destruct x
  end; try discriminate H; injection H as <-; try exact D; unfold number_at, integer_at, guid_field, PN; dts.
Qed.
Lemma block_dated cp g raw d w : block_read cp g raw d w -> dated (PDict d).
Proof.
  intros [d' H _|_ _|ss ds w' _ _ H|es w' _ H]; (apply dd_cons; [split; [reflexivity|no_date_tac]|unfold number_at, PN; dts|]).
  - exact (fixed_dated _ _ _ _ H).
  - unfold darwin_report. dts.
    destruct (feature_end _) as [n|]; [|dts].
    repeat match goal with |- dated (match ?x with _ => _ end) => destruct x end; dts.
  - apply each_dated in H; [|apply storage_dated]. dts. now apply dd_dicts.
  - apply entries_dated in H. dts. now apply dd_dicts.
Qed.
Lemma blocks_dated cp bs l w : blocks_read cp bs l w -> Forall (fun e => dated (PDict (snd e))) l.
Proof. induction 1 as [|g raw rest d w l ws H _ IH|]; [constructor| |assumption]. constructor; [exact (block_dated _ _ _ _ _ H)|exact IH]. Qed.
Lemma block_no_time g : is_time (block_name g) = false.
Proof.
  unfold block_name. repeat match goal with |- is_time (match ?x with _ => _ end) = _ => destruct x end; reflexivity.
Qed.
Lemma collect_dated l : Forall (fun e => is_time (fst e) = false /\ dated (PDict (snd e))) l -> dated (PDict (collect l)).
Proof.
  intros H. constructor. unfold collect. rewrite Forall_map. apply Forall_forall. intros k Hk. cbn [fst snd].
  rewrite Forall_forall in H. split.
  - apply first_seen_incl, in_map_iff in Hk as ([k' d] & <- & Hi). destruct (H _ Hi) as [Hn _]. cbn [fst] in *.
    unfold fits_key. rewrite Hn. destruct (String.eqb _ _); [intros t; discriminate|]. destruct (last_of _ _); intros t; discriminate.
  - destruct (String.eqb k "UNKNOWN_BLOCK").
    + apply dd_dicts. apply Forall_forall. intros d Hd. unfold all_of in Hd. apply in_map_iff in Hd as (e & <- & He).
      apply filter_In in He as [He _]. now apply H.
    + destruct (last_of k l) as [d|] eqn:E; [|constructor]. apply last_of_in in E. now apply H in E.
Qed.
Lemma blocks_untimed cp bs l w : blocks_read cp bs l w -> Forall (fun e => is_time (fst e) = false) l.
Proof. induction 1 as [|g raw rest d w l ws _ _ IH|]; [constructor| |assumption]. constructor; [apply block_no_time|exact IH]. Qed.
Lemma whole_dated b cp allow d w : whole_report b cp allow d w -> dated (PDict d).
Proof.
  intros [h rest created accessed written items items_said found data_end cut blocks tail entries blocks_said info_raw network terminal sections
    _ _ _ _ _ HI _ _ HS _ HB _ _].
  assert (CI : Forall (fun d => dated (PDict d)) items).
  { destruct (has_id_list b); [exact (entries_dated _ _ _ _ HI)|]. destruct HI as [-> _]. constructor. }
  unfold PN. apply dd_app.
  { apply dd_cons; [split; [reflexivity|no_date_tac]|apply dd_int|]. apply dd_cons; [split; [reflexivity|no_date_tac]|apply header_dated|apply dd_empty]. }
  apply dd_app.
  - destruct (has_id_list b); [|apply dd_empty]. apply dd_cons; [split; [reflexivity|no_date_tac]| |apply dd_empty].
    apply dd_cons; [split; [reflexivity|no_date_tac]|apply dd_int|]. apply dd_cons; [split; [reflexivity|no_date_tac]|now apply dd_dicts|].
    apply dd_cons; [split; [reflexivity|no_date_tac]|apply dd_int|apply dd_empty].
  - apply dd_cons; [split; [reflexivity|no_date_tac]| |apply dd_cons; [split; [reflexivity|no_date_tac]| |apply dd_cons; [split; [reflexivity|no_date_tac]| |apply dd_empty]]].
    + destruct (info_processed b); [apply info_dated|apply dd_empty].
    + constructor. rewrite Forall_map. apply Forall_forall. intros f Hf. cbn [fst snd]. split; [|constructor].
      apply (in_map fst) in Hf. apply (found_names _ _ _ _ _ _ HS) in Hf. unfold fits_key.
      replace (is_time (fst f)) with false; [intros t; discriminate|].
      cbn [map fst snd string_fields In] in Hf. destruct Hf as [<-|[<-|[<-|[<-|[<-|[]]]]]]; reflexivity.
    + apply collect_dated. apply Forall_app. split.
      * pose proof (blocks_dated _ _ _ _ HB) as H1. pose proof (blocks_untimed _ _ _ _ HB) as H2.
        rewrite Forall_forall in *. intros e He. split; [now apply H2|now apply H1].
      * unfold behind_blocks. destruct (_ && _); constructor; [|constructor]. cbn [fst snd]. unfold PN. split; [reflexivity|dts].
Qed.
Lemma abridged_fits out p v k : fits_key k v -> fits_key k (abridged out p v).
Proof.
  unfold fits_key, no_date. destruct (is_time k).
  - intros [->|[t ->]]; [now left|right; now exists t].
  - intros H t. destruct v as [|z|x|d|l|d]; try discriminate. exact (H t).
Qed.
Lemma abridged_dated out v : forall p, dated v -> dated (abridged out p v).
Proof.
  induction v as [|z|t|d|l IH|d IH] using value_induction; intros p Hc; try exact Hc.
  - rewrite abridged_list. inversion Hc as [| | | |? F|]; subst. constructor. generalize 0. clear Hc.
    induction l as [|v l IHl]; intros i; cbn [elements_from]; [constructor|].
    apply Forall_cons_iff in IH as [I1 I2], F as [[F0 F1] F2]. constructor; [|now apply IHl].
    split; [|now apply I1]. exact (abridged_fits out _ v EmptyString F0).
  - rewrite abridged_dict. inversion Hc as [| | | | |? F]; subst. constructor. clear Hc.
    induction d as [|[k v] d IHd]; cbn [entries]; [constructor|].
    apply Forall_cons_iff in IH as [I1 I2], F as [[F0 F1] F2]. cbn [fst snd] in *. destruct (out _); [now apply IHd|].
    constructor; [|now apply IHd]. cbn [fst snd]. split; [|now apply I1]. now apply abridged_fits.
Qed.

(** ** Any report *)

Lemma any_source src cp allow l : snd (lnk_init src cp allow) = Ok l -> exists b, snd (lnk_init (FromBytes b) cp allow) = Ok l.
Proof.
  destruct src as [b|b]; intros H; exists b; [|exact H]. destruct b as [|c b]; [|exact H]. cbn in H. discriminate.
Qed.
Lemma report_dated src cp allow l all d : usable cp -> snd (lnk_init src cp allow) = Ok l -> snd (get_json l all) = Ok d -> dated (PDict d).
Proof.
  intros HU Hl Hd. apply any_source in Hl as (b & Hl).
  assert (Full : forall d, snd (get_json l true) = Ok d -> dated (PDict d)).
  { intros d' H. destruct (get_json l true) as [w r] eqn:E. cbn [snd] in H. subst r.
    exact (whole_dated _ _ _ _ _ (whole_reported _ _ _ _ _ _ HU Hl E)). }
  destruct all; [now apply Full|]. destruct (report_abridged l) as [_ H]. rewrite Hd in H.
  destruct (snd (get_json l true)) as [full|e] eqn:E; [|contradiction]. rewrite H. apply abridged_dated. now apply Full.
Qed.
Lemma printed_same src1 cp1 allow1 l1 all1 d1 src2 cp2 allow2 l2 all2 d2 :
  usable cp1 -> text_page (page_of cp1) -> snd (lnk_init src1 cp1 allow1) = Ok l1 -> snd (get_json l1 all1) = Ok d1 ->
  usable cp2 -> text_page (page_of cp2) -> snd (lnk_init src2 cp2 allow2) = Ok l2 -> snd (get_json l2 all2) = Ok d2 ->
  print_json_text d1 = print_json_text d2 <-> same (PDict d1) (PDict d2).
Proof.
  intros U1 HP1 H1 D1 U2 HP2 H2 D2. rewrite (same_reports _ _ _ _ _ _ _ _ _ _ _ _ HP1 H1 D1 HP2 H2 D2).
  pose proof (report_dated _ _ _ _ _ _ U1 H1 D1) as T1. pose proof (report_dated _ _ _ _ _ _ U2 H2 D2) as T2.
  pose proof (report_wf (Forall scalar) (fun _ => True) src1 cp1 allow1 l1 all1 d1
      (fun _ H => H) (fun _ _ => I) (fun c => page_gives cp1 c HP1) H1 D1) as W1.
  pose proof (report_wf (Forall scalar) (fun _ => True) src2 cp2 allow2 l2 all2 d2
      (fun _ H => H) (fun _ _ => I) (fun c => page_gives cp2 c HP2) H2 D2) as W2.
  split.
  - intros (j & J1 & J2). apply (denotes_same _ _ _ W1 T1 _ j EmptyString W2 T2); try assumption; intros t; discriminate.
  - intros S. exists (json_of (PDict d1)). assert (J : denotes (json_of (PDict d1)) (PDict d1)) by apply json_of_denotes.
    split; [exact J|]. exact (same_denotes _ _ _ S J).
Qed.
Lemma printed_back src cp allow l all d j :
  usable cp -> text_page (page_of cp) -> snd (lnk_init src cp allow) = Ok l -> snd (get_json l all) = Ok d ->
  read_json (print_json_text d) = Some j -> same (PDict d) (back "" j).
Proof.
  intros U HP Hl Hd Hj. pose proof (report_dated _ _ _ _ _ _ U Hl Hd) as T.
  pose proof (report_wf (Forall scalar) (fun _ => True) src cp allow l all d
      (fun _ H => H) (fun _ _ => I) (fun c => page_gives cp c HP) Hl Hd) as W.
  destruct (printed_json src cp allow l all d HP Hl Hd) as (j' & Hj' & J & _).
  rewrite Hj in Hj'. injection Hj' as <-. apply (denotes_back _ _ _ W T); [intros t; discriminate|exact J].
Qed.

(** ** Positions *)

Lemma forall2_in {A B} (R : A -> B -> Prop) l l' a : Forall2 R l l' -> In a l -> exists b, In b l' /\ R a b.
Proof.
  induction 1 as [|x y l l' H F IH]; [intros []|]. intros [<-|Hi]; [exists y; split; [now left|exact H]|].
  destruct (IH Hi) as (b & Hb & Hr). exists b. split; [now right|exact Hr].
Qed.
Lemma nodup_dget k v (d : dict) : NoDup (map fst d) -> In (k, v) d -> dget k d = Some v.
Proof.
  induction d as [|[k' v'] d IH]; intros HN Hi; [destruct Hi|]. cbn [map fst dget] in *. apply NoDup_cons_iff in HN as [H1 H2].
  destruct Hi as [[= -> ->]|Hi]; [now rewrite String.eqb_refl|].
  destruct (String.eqb k k') eqn:E; [|now apply IH]. apply String.eqb_eq in E. subst k'. elim H1. now apply (in_map fst) in Hi.
Qed.
Lemma same_child T K v w s x : well_formed T K w -> same v w -> child s v = Some x ->
  exists y, child s w = Some y /\ same x y /\ well_formed T K y.
Proof.
  intros Hw Hs Hx. destruct s as [k|i], v as [| | | |l|d]; try discriminate Hx; cbn [child] in Hx.
  - inversion Hs as [| | | | |? d' r HP F]; subst. apply wf_dict in Hw as (HN & _ & Hw). cbn [child].
    apply dget_In in Hx. destruct (forall2_in _ _ _ _ F Hx) as ([k' y] & Hy & E & S). cbn [fst snd] in *. subst k'.
    apply (Permutation_in _ (Permutation_sym HP)) in Hy. exists y. split; [now apply nodup_dget|]. split; [exact S|].
    rewrite Forall_forall in Hw. now apply Hw in Hy.
  - inversion Hs as [| | | |? l' F|]; subst. apply wf_list in Hw. cbn [child]. revert Hx. generalize (N.to_nat i). clear Hs.
    induction F as [|v v' l l' S F IH]; intros n Hx; [now destruct n|]. apply Forall_cons_iff in Hw as [W1 W2].
    destruct n as [|n]; cbn [nth_error] in *; [|now apply IH]. injection Hx as <-. exists v'. auto.
Qed.
Lemma same_at T K p : forall v w x, well_formed T K w -> same v w -> at_path p v = Some x -> exists y, at_path p w = Some y /\ same x y.
Proof.
  induction p as [|s p IH]; intros v w x Hw Hs Hx; cbn [at_path] in *.
  - injection Hx as <-. now exists w.
  - destruct (child s v) as [c|] eqn:E; [|discriminate]. destruct (same_child _ _ _ _ _ _ Hw Hs E) as (c' & -> & Hc & Hw').
    exact (IH _ _ _ Hw' Hc Hx).
Qed.
Lemma printed_at src1 cp1 allow1 l1 all1 d1 src2 cp2 allow2 l2 all2 d2 p x :
  usable cp1 -> text_page (page_of cp1) -> snd (lnk_init src1 cp1 allow1) = Ok l1 -> snd (get_json l1 all1) = Ok d1 ->
  usable cp2 -> text_page (page_of cp2) -> snd (lnk_init src2 cp2 allow2) = Ok l2 -> snd (get_json l2 all2) = Ok d2 ->
  print_json_text d1 = print_json_text d2 ->
  at_path p (PDict d1) = Some x -> exists y, at_path p (PDict d2) = Some y /\ same x y.
Proof.
  intros U1 HP1 H1 D1 U2 HP2 H2 D2 E. apply (printed_same _ _ _ _ _ _ _ _ _ _ _ _ U1 HP1 H1 D1 U2 HP2 H2 D2) in E.
  pose proof (report_wf (Forall scalar) (fun _ => True) src2 cp2 allow2 l2 all2 d2
      (fun _ H => H) (fun _ _ => I) (fun c => page_gives cp2 c HP2) H2 D2) as W2.
  exact (same_at _ _ _ _ _ _ W2 E).
Qed.
