(** * Items one by one (C71) *)
From Verif Require Import Lemmas PyTime Codec Utils Sha256 Header StringData Targets Info Extra LnkFile.
From Verif Require Import Spec SpecText SpecHeader SpecTime SpecItems SpecInfo SpecExtra SpecOutcome SpecEntries SpecBlocks.
From Verif Require Import OutcomeProofs LayoutProofs CoreProofs FormatProofs EncProofs TextProofs TimeProofs HeaderProofs StringProofs ApiProofs.
From Verif Require Import ItemProofs ExtraProofs ExtraListProofs InfoProofs HeaderFileProofs ExactProofs EntryProofs AnyBlockProofs TriedProofs.
From Verif Require Import Walk SpecWalk.

Lemma class_network_iff ty : ty < 256 -> class_for ty = NetworkLocation <-> ty / 16 mod 8 = 4.
Proof. intros Hlt. pattern ty. apply by_bytes; [|assumption]. intros b. destruct b; vm_compute; split; congruence. Qed.
Lemma class_name ty : ty < 256 -> target_name (class_for ty) = class_of_type ty.
Proof. intros Hlt. pattern ty. apply by_bytes; [|assumption]. intros b. destruct b; vm_compute; reflexivity. Qed.
Lemma class_unknown_says ty : ty < 256 -> ty / 16 mod 8 <> 4 ->
  unless_known (documented_class ty) (WItemType ty) = match class_for ty with UnknownTarget => [WItemType ty] | _ => [] end.
Proof. intros Hlt. pattern ty. apply by_bytes; [|assumption]. intros b. destruct b; vm_compute; congruence. Qed.
Lemma not_four {A} (n : N) (x y : A) : n <> 4 -> match n with 4 => x | _ => y end = y.
Proof. intros H. destruct n as [|p]; [reflexivity|]. do 3 (destruct p as [p|p|]; try reflexivity). now destruct H. Qed.

Section Items.
  Variable cp : cp_arg.
  Hypothesis Hcp : usable cp.

  Lemma made_shown fields : made_says cp fields ++ shown_says cp fields = entry_says cp fields.
  Proof.
    unfold made_says, shown_says. cbv zeta. set (ty := num 1 0 fields).
    destruct (N.eq_dec (ty / 16 mod 8) 4) as [E|E].
    - rewrite E. unfold entry_says. cbv zeta. fold ty. rewrite E. now rewrite <- !app_assoc.
    - rewrite !not_four by assumption. assert (Hlt : ty < 256) by apply num1_lt.
      rewrite class_unknown_says by assumption. pose proof (class_name ty Hlt) as HN. unfold class_of_type in HN.
      destruct (class_for ty) eqn:EC; cbn [app]; destruct (documented_class ty) as [s|] eqn:ED; try reflexivity;
        try (exfalso; revert HN; vm_compute; discriminate).
      + exfalso. pose proof (class_unknown_says ty Hlt E) as HU. rewrite EC, ED in HU. discriminate HU.
      + unfold entry_says. cbv zeta. fold ty. etransitivity; [|symmetry; exact (choice_class ty _ _ _ _ _ _ _ _ _ _ _ _ _ Hlt)].
        rewrite EC. reflexivity.
  Qed.

  Lemma type_of rest : item_there rest -> num 1 0 (fields_at rest) = num 1 2 rest.
  Proof.
    intros [L Hn]. unfold fields_at. revert Hn. generalize (num 2 0 rest). intros n Hn.
    unfold num, slice. rewrite dropN_0, takeN_takeN. f_equal. f_equal. lia.
  Qed.
  Lemma next_there rest : item_there rest ->
    next_target cp rest
    = in_generator (c <- class_step (num 1 2 rest) ;; t <- target_init c cp rest ;; ret (Some (t, dropN (num 2 0 rest) rest))).
  Proof.
    intros [L Hn].
    assert (E2 : unpack_le 2 (slice 0 2 rest) = ret (num 2 0 rest)) by (apply read_at; lia).
    assert (E4 : unpack_le 1 (slice 2 3 rest) = ret (num 1 2 rest)) by (apply read_at; lia).
    unfold next_target, tf_target_class, tf_item_size, tf_item_type, unpack_u16, unpack_u8.
    destruct rest as [|x r] eqn:ER; [cbn in L; lia|]. rewrite <- ER in *.
    rewrite E2, !bind_ret_l, E4, !bind_ret_l. apply N.eqb_neq in Hn. rewrite Hn. cbv zeta. rewrite bind_assoc.
    f_equal. fold (class_step (num 1 2 rest)). destruct (class_step (num 1 2 rest)) as [w [c|e]]; [|reflexivity].
    cbn [bind]. rewrite bind_ret_l. destruct (target_init c cp rest) as [w' [t|e]]; reflexivity.
  Qed.
  Lemma base_there rest : item_there rest -> target_base_init rest = ret (fields_at rest).
  Proof. intros [L Hn]. unfold target_base_init, target_size, unpack_u16. rewrite read_at by lia. now rewrite bind_ret_l. Qed.

  Lemma network_there rest : item_there rest -> network_item rest ->
    class_step (num 1 2 rest) = ([], Ok NetworkLocation).
  Proof.
    intros HT HN. rewrite class_says by apply num1_lt. apply class_network_iff in HN; [|apply num1_lt]. now rewrite HN.
  Qed.
  Lemma network_error rest e : network_item rest -> error_at rest = e ->
    after_all (needs 3 (fields_at rest))
      (if nuls (dropN 3 (fields_at rest)) <? extra_strings (num 1 2 (fields_at rest)) then Some RuntimeError else None) = e.
  Proof. unfold network_item, error_at, item_error. now intros ->. Qed.

  (** The generator. *)
  Lemma comes_end rest : rest = [] \/ 2 <= lenN rest /\ num 2 0 rest = 0 -> next_target cp rest = ([], Ok None).
  Proof.
    intros [->|[L Hz]]; [reflexivity|]. unfold next_target, tf_target_class, tf_item_size, unpack_u16.
    destruct rest as [|x r]; [reflexivity|]. rewrite read_at by lia. rewrite !bind_ret_l, Hz. reflexivity.
  Qed.
  Lemma comes_cut rest : lenN rest = 1 \/ lenN rest = 2 /\ num 2 0 rest <> 0 -> next_target cp rest = ([], Err StructError).
  Proof.
    intros H. unfold next_target, tf_target_class, tf_item_size, tf_item_type, unpack_u16, unpack_u8.
    destruct rest as [|x r]; [cbn in H; lia|]. destruct H as [H|[H Hn]].
    - now rewrite cut_at by lia.
    - rewrite !read_at by lia. rewrite !bind_ret_l. apply N.eqb_neq in Hn. rewrite Hn. now rewrite cut_at by lia.
  Qed.
  Lemma comes_network rest e : item_there rest -> network_item rest -> error_at rest = Some e ->
    next_target cp rest = (entry_tried cp (fields_at rest), Err e).
  Proof.
    intros HT HN He. rewrite next_there, network_there, bind_Ok by assumption. unfold target_init.
    rewrite base_there, bind_ret_l by assumption. pose proof (network_error _ _ HN He) as HF.
    rewrite network_tried by congruence.
    rewrite (entry_tried_class cp (num 1 2 rest)) by (apply num1_lt || now apply type_of).
    rewrite (proj2 (class_network_iff _ (num1_lt 2 rest)) HN).
    unfold needs in HF. destruct (lenN (fields_at rest) <? 3); cbn [after_all] in HF.
    - injection HF as <-. reflexivity.
    - destruct (_ <? _) in HF; [|discriminate HF]. injection HF as <-. reflexivity.
  Qed.
  Lemma item_made rest : item_there rest -> (network_item rest -> error_at rest = None) ->
    exists t, next_target cp rest = (made_says cp (fields_at rest), Ok (Some (t, dropN (num 2 0 rest) rest)))
      /\ t_class t = class_for (num 1 2 rest) /\ t_raw t = rest
      /\ forall said r, item_shown cp rest said r -> as_item cp t = (said, r).
  Proof.
    intros HT HE. pose proof HT as [L Hn]. pose proof (type_of rest HT) as Hty. set (ty := num 1 2 rest) in *.
    assert (Hlt : ty < 256) by apply num1_lt.
    destruct (N.eq_dec (ty / 16 mod 8) 4) as [HN|HN].
    - specialize (HE HN). destruct (item_says cp Hcp rest L Hn HE) as (t & w1 & w2 & H1 & H2 & H3). fold (fields_at rest) in H2, H3.
      pose proof (network_error _ _ HN HE) as HF. unfold needs in HF.
      destruct (N.ltb_spec (lenN (fields_at rest)) 3) as [HL|HL]; [discriminate HF|]. cbn [after_all] in HF.
      destruct (_ <? _) eqn:EX in HF; [discriminate HF|].
      pose proof (network_says cp Hcp (fields_at rest) HL EX) as HS.
      assert (HX : exists loc desc com, next_target cp rest
        = (made_says cp (fields_at rest), Ok (Some (Target NetworkLocation rest (fields_at rest) loc desc com, dropN (num 2 0 rest) rest)))).
      { do 3 eexists. rewrite next_there, network_there, bind_Ok by assumption. unfold target_init.
        rewrite base_there, bind_ret_l, HS, !bind_Ok by assumption. cbn [bind fst snd ret in_generator app].
        rewrite ?app_nil_r. unfold made_says. cbv zeta. rewrite Hty, HN. reflexivity. }
      destruct HX as (loc & desc & com & HX). rewrite HX in H1. injection H1 as <- <-.
      eexists. split; [exact HX|]. split; [symmetry; now apply class_network_iff|]. split; [reflexivity|].
      rewrite <- made_shown in H3. apply app_inv_head in H3. subst w2.
      intros said r [_|e He]; [exact H2|]. rewrite HE in He. discriminate He.
    - assert (HC : class_for ty <> NetworkLocation) by (intros E; apply HN; now apply class_network_iff).
      assert (HX : next_target cp rest
        = (made_says cp (fields_at rest), Ok (Some (Target (class_for ty) rest (fields_at rest) [] None None, dropN (num 2 0 rest) rest)))).
      { rewrite next_there by assumption. fold ty. rewrite class_says, bind_Ok by assumption. unfold target_init.
        rewrite base_there, bind_ret_l by assumption.
        unfold made_says. cbv zeta. rewrite Hty, not_four, class_unknown_says by assumption.
        destruct (class_for ty); try reflexivity. now destruct HC. }
      eexists. split; [exact HX|]. split; [reflexivity|]. split; [reflexivity|].
      intros said r [He|e He].
      + destruct (item_says cp Hcp rest L Hn He) as (t & w1 & w2 & H1 & H2 & H3). fold (fields_at rest) in H2, H3.
        rewrite HX in H1. injection H1 as <- <-. rewrite <- made_shown in H3. apply app_inv_head in H3. now subst w2.
      + destruct (item_tried cp Hcp rest e L Hn He) as [H1|(t & rr & H1 & H2)]; rewrite HX in H1; [discriminate H1|].
        injection H1 as _ <- _. exact H2.
  Qed.
  Lemma shown_total rest : exists said r, item_shown cp rest said r.
  Proof. destruct (error_at rest) as [e|] eqn:E; do 2 eexists; [exact (item_malformed cp rest e E)|exact (item_good cp rest E)]. Qed.

  (** What [comes_to] says of the generator. *)
  Definition step_of (rest : bytes) (said : list warning) (e : option exn) (g : generator) (m : M target) : Prop :=
    match e with
    | Some e => g = Ended /\ m = (said, Err e)
    | None => g = Suspended (dropN (num 2 0 rest) rest) /\ exists t, m = (said, Ok t)
        /\ t_class t = class_for (num 1 2 rest) /\ t_raw t = rest /\ item_there rest
        /\ forall said r, item_shown cp rest said r -> as_item cp t = (said, r)
    end.
  Lemma comes_step rest said e : comes_to cp rest said e ->
    step_of rest said e (fst (generator_next cp (Suspended rest))) (snd (generator_next cp (Suspended rest))).
  Proof.
    intros [H|H|x HT HN HE|HT HE]; cbn [generator_next].
    - rewrite comes_end by assumption. now split.
    - rewrite comes_cut by assumption. now split.
    - rewrite (comes_network _ x) by assumption. now split.
    - destruct (item_made rest HT HE) as (t & H1 & H2 & H3 & H4). rewrite H1. split; [reflexivity|]. exists t. now repeat split; try apply HT.
  Qed.
  Lemma comes_total rest : exists said e, comes_to cp rest said e.
  Proof.
    destruct rest as [|x r] eqn:ER; [do 2 eexists; apply at_the_end; now left|]. rewrite <- ER.
    assert (L1 : 1 <= lenN rest) by (subst rest; rewrite lenN_cons; lia). clear ER x r.
    destruct (N.eq_dec (lenN rest) 1) as [E1|E1]; [do 2 eexists; apply at_a_cut; now left|].
    destruct (N.eq_dec (num 2 0 rest) 0) as [E0|E0]; [do 2 eexists; apply at_the_end; right; split; [lia|assumption]|].
    destruct (N.eq_dec (lenN rest) 2) as [E2|E2]; [do 2 eexists; apply at_a_cut; now right|].
    assert (HT : item_there rest) by (split; [lia|assumption]).
    destruct (N.eq_dec (num 1 2 rest / 16 mod 8) 4) as [HN|HN], (error_at rest) as [e|] eqn:EE.
    - do 2 eexists. now apply (at_a_bad_network cp rest e).
    - do 2 eexists. now apply at_an_item.
    - do 2 eexists. apply at_an_item; [assumption|]. intros H. now destruct HN.
    - do 2 eexists. apply at_an_item; [assumption|]. intros H. now destruct HN.
  Qed.
  Lemma comes_det rest s1 e1 s2 e2 : comes_to cp rest s1 e1 -> comes_to cp rest s2 e2 -> s1 = s2 /\ e1 = e2.
  Proof.
    intros H1 H2. apply comes_step in H1, H2. unfold step_of in *.
    destruct e1 as [x1|], e2 as [x2|].
    - destruct H1 as [_ H1], H2 as [_ H2]. rewrite H1 in H2. now injection H2 as -> ->.
    - destruct H1 as [_ H1], H2 as (_ & t & H2 & _). rewrite H1 in H2. discriminate H2.
    - destruct H1 as (_ & t & H1 & _), H2 as [_ H2]. rewrite H1 in H2. discriminate H2.
    - destruct H1 as (_ & t & H1 & _), H2 as (_ & t' & H2 & _). rewrite H1 in H2. now injection H2 as -> ->.
  Qed.
  Lemma further_det k rest t1 t2 : further cp k rest t1 -> further cp k rest t2 -> t1 = t2.
  Proof. intros H. revert t2. induction H as [rest|k rest said t1 _ _ IH]; intros t2 H2; inversion H2; subst; auto. Qed.
  Lemma further_last k rest there said : further cp k rest there -> comes_to cp there said None ->
    further cp (S k) rest (dropN (num 2 0 there) there).
  Proof.
    intros H HC. induction H as [rest|k rest said' t1 H1 _ IH].
    - econstructor; [exact HC|constructor].
    - econstructor; [exact H1|]. now apply IH.
  Qed.
  Lemma further_before j k rest there : further cp k rest there -> (j < k)%nat ->
    exists t said, further cp j rest t /\ comes_to cp t said None.
  Proof.
    intros H. revert j. induction H as [rest|k rest said t1 H1 H2 IH]; intros j Hj; [lia|].
    destruct j as [|j]; [exists rest, said; split; [constructor|assumption]|].
    destruct (IH j) as (t & s & Ht & Hs); [lia|]. exists t, s. split; [|assumption]. econstructor; eassumption.
  Qed.
  Lemma further_not_past j k rest t1 said e there :
    further cp j rest t1 -> comes_to cp t1 said (Some e) -> (j < k)%nat -> ~ further cp k rest there.
  Proof.
    intros H1 HC Hj H2. destruct (further_before j k rest there H2 Hj) as (t & s & Ht & Hs).
    rewrite (further_det _ _ _ _ H1 Ht) in HC. destruct (comes_det _ _ _ _ _ HC Hs) as [_ HX]. discriminate HX.
  Qed.

  (** An iterator that has been asked [k] times. *)
  Definition got_ok (list_ : bytes) (got : list target) : Prop :=
    forall i t, nth_error got i = Some t -> exists there said,
      further cp i list_ there /\ comes_to cp there said None
      /\ t_class t = class_for (num 1 2 there) /\ t_raw t = there /\ item_there there
      /\ forall said r, item_shown cp there said r -> as_item cp t = (said, r).
  Inductive asked (list_ : bytes) (k : nat) : generator -> list target -> Prop :=
  | asked_on there got : further cp k list_ there -> length got = k -> got_ok list_ got -> asked list_ k (Suspended there) got
  | asked_over j there said e got :
      (j < k)%nat -> further cp j list_ there -> comes_to cp there said (Some e) -> length got = j -> got_ok list_ got ->
      asked list_ k Ended got.
  Lemma asked_start list_ : asked list_ 0 (Suspended list_) [].
  Proof. apply asked_on; [constructor|reflexivity|]. intros [|i] t H; discriminate H. Qed.
  Lemma got_more list_ got there said t :
    got_ok list_ got -> further cp (length got) list_ there -> comes_to cp there said None ->
    t_class t = class_for (num 1 2 there) -> t_raw t = there -> item_there there ->
    (forall said r, item_shown cp there said r -> as_item cp t = (said, r)) -> got_ok list_ (got ++ [t]).
  Proof.
    intros HG HF HC H1 H2 H3 H4 i t' Hi. destruct (Nat.lt_ge_cases i (length got)) as [L|L].
    - rewrite nth_error_app1 in Hi by assumption. now apply HG.
    - rewrite nth_error_app2 in Hi by assumption. destruct (i - length got)%nat as [|m] eqn:E; [|destruct m; discriminate Hi].
      injection Hi as <-. assert (i = length got) as -> by lia. exists there, said. tauto.
  Qed.
  Lemma asked_next list_ k g got : asked list_ k g got ->
    match generator_next cp g with
    | (g', (w, Ok t)) => next_gives cp list_ k w None /\ asked list_ (S k) g' (got ++ [t])
    | (g', (w, Err e)) => next_gives cp list_ k w (Some e) /\ asked list_ (S k) g' got
    end.
  Proof.
    intros [there got' HF HL HG|j there said e got' Hj HF HC HL HG].
    - destruct (comes_total there) as (said & e & HC). pose proof (comes_step _ _ _ HC) as HS.
      destruct (generator_next cp (Suspended there)) as [g' m]. cbn [fst snd] in HS. unfold step_of in HS. destruct e as [e|].
      + destruct HS as [-> ->]. split; [now apply next_comes with there|]. apply (asked_over list_ (S k) k there said e); (lia || assumption).
      + destruct HS as [-> (t & -> & H1 & H2 & H3 & H4)]. split; [now apply next_comes with there|]. apply asked_on.
        * now apply further_last with said.
        * rewrite app_length. cbn. lia.
        * subst k. now apply (got_more list_ got' there said).
    - cbn [generator_next raise]. split; [now apply next_over with j there said e|]. apply (asked_over list_ (S k) j there said e); auto.
  Qed.
  Lemma next_det list_ k s1 e1 s2 e2 : next_gives cp list_ k s1 e1 -> next_gives cp list_ k s2 e2 -> s1 = s2 /\ e1 = e2.
  Proof.
    intros [t1 s1' x1 F1 C1|j1 t1 s1' x1 L1 F1 C1] [t2 s2' x2 F2 C2|j2 t2 s2' x2 L2 F2 C2].
    - rewrite (further_det _ _ _ _ F1 F2) in C1. now apply (comes_det _ _ _ _ _ C1 C2).
    - exfalso. now apply (further_not_past _ _ _ _ _ _ _ F2 C2 L2 F1).
    - exfalso. now apply (further_not_past _ _ _ _ _ _ _ F1 C1 L1 F2).
    - now split.
  Qed.

  (** What it has given. *)
  Lemma asked_got list_ k g got i : asked list_ k g got ->
    match nth_error got i with
    | Some t => exists there said, (i < k)%nat /\ further cp i list_ there /\ comes_to cp there said None
        /\ t_class t = class_for (num 1 2 there) /\ t_raw t = there /\ item_there there
        /\ forall said r, item_shown cp there said r -> as_item cp t = (said, r)
    | None => forall there said, (i < k)%nat -> further cp i list_ there -> ~ comes_to cp there said None
    end.
  Proof.
    intros H. assert (HL : (length got <= k)%nat /\ got_ok list_ got) by (destruct H; split; (lia || assumption)).
    destruct HL as [HL HG]. destruct (nth_error got i) as [t|] eqn:E.
    - destruct (HG i t E) as (there & said & HX). exists there, said. split; [|exact HX].
      assert (HI : (i < length got)%nat) by (apply nth_error_Some; congruence). lia.
    - apply nth_error_None in E. intros there said Hi HF HC. destruct H as [th got' F1 L1 G1|j th s e got' J1 F1 C1 L1 G1]; [lia|].
      destruct (Nat.eq_dec i j) as [->|NE].
      + rewrite (further_det _ _ _ _ HF F1) in HC. destruct (comes_det _ _ _ _ _ HC C1) as [_ HX]. discriminate HX.
      + assert (j < i)%nat as Hji by lia. now apply (further_not_past _ _ _ _ _ _ _ F1 C1 Hji HF).
  Qed.
  Lemma size_there rest : item_there rest -> target_size rest = ret (num 2 0 rest).
  Proof. intros [L _]. unfold target_size, unpack_u16. now rewrite read_at by lia. Qed.
End Items.
