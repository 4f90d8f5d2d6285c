(** * Sizes and terminal data (C17, C18, C20) *)
From Verif Require Import Lemmas PyTime Codec Utils Sha256 Header StringData Targets Info Extra LnkFile.
From Verif Require Import Spec OutcomeProofs LayoutProofs.

Lemma init_process src cp allow b :
  (src = FromBytes b \/ src = FromHandle b) -> b <> [] -> lnk_init src cp allow = process b cp allow.
Proof. intros [-> | ->] Hb; [|reflexivity]. destruct b; [contradiction|reflexivity]. Qed.

Lemma init_nonempty src cp allow b l :
  (src = FromBytes b \/ src = FromHandle b) -> snd (lnk_init src cp allow) = Ok l -> b <> [].
Proof. intros [-> | ->] H ->; discriminate. Qed.

Lemma terminates src cp allow all :
  snd (l <- lnk_init src cp allow ;; get_json l all) <> Err OutOfFuel.
Proof.
  rewrite snd_bind.
  destruct src as [[|x b]|[|x b]]; try discriminate.
  all: unfold lnk_init.
  all: assert (HP : raises (init_exn cp) (process (x :: b) cp allow)) by (apply r_process; discriminate).
  all: destruct (process (x :: b) cp allow) as [w [l|e]]; cbn [snd];
    [intros H; destruct (r_get_json l all _ H) as [?|[?|[?|[? _]]]]; discriminate|].
  all: intros [= ->]; destruct (HP _ eq_refl) as [?|[? _]]; discriminate.
Qed.

Lemma lnk_init_outcome src b cp allow :
  (src = FromBytes b \/ src = FromHandle b) -> b <> [] -> usable cp ->
  ((exists l, snd (lnk_init src cp allow) = Ok l) <-> constructible b)
  /\ (~ constructible b -> snd (lnk_init src cp allow) = Err StructError).
Proof.
  intros Hs Hb Hcp. rewrite (init_process _ _ _ b Hs Hb).
  destruct (process_outcome b cp allow Hb Hcp) as [[HC (l & Hl & _)]|[HC HE]].
  - split; [split; [trivial|eauto]|contradiction].
  - split; [split; [intros [l Hl]; congruence|contradiction]|trivial].
Qed.

Lemma process_empty_handle cp allow : snd (lnk_init (FromHandle []) cp allow) = Err LnkParserError.
Proof. reflexivity. Qed.

(** ** Size *)

Lemma walk_total_len r blocks r' : block_walk r blocks r' -> sizes_readable blocks -> 4 < lenN r' ->
  exists skipped, lenN r = sumN (map declared blocks) + skipped + lenN r'
                  /\ (skipped = 0 \/ lenN r' + skipped < 8).
Proof.
  intros H. induction H as [r _|r bs r' Hl Hn H IH|r bs r' Hl Hn H IH]; intros HR H4.
  - exists 0. cbn. split; [lia|now left].
  - destruct (IH HR H4) as (sk & HL & HS). pose proof (lenN_dropN (num 4 0 r) r) as HD.
    rewrite HL in HD. exists (num 4 0 r + sk). split; lia.
  - inversion HR as [|? ? HR1 HR2]; subst. destruct (IH HR2 H4) as (sk & HL & HS).
    pose proof (lenN_dropN (num 4 0 r) r) as HD. rewrite HL in HD. exists sk. split; [|assumption].
    cbn [map sumN fold_right]. unfold declared at 1. cbn [snd] in *. rewrite lenN_takeN in HR1.
    fold (sumN (map declared bs)). rewrite num_takeN by lia. lia.
Qed.

(** ** Data after the terminal block *)

Lemma dset_absent k v d : dget k d = None -> dset k v d = d ++ [(k, v)].
Proof.
  induction d as [|[k' v'] d IH]; [reflexivity|]. cbn [dget dset app].
  destruct (String.eqb k k') eqn:E; [discriminate|]. intros H. now rewrite IH.
Qed.
Lemma dget_dupd_other k k' f d : k <> k' -> dget k (dupd k' f d) = dget k d.
Proof.
  intros Hk. induction d as [|[k2 v2] d IH]; [reflexivity|]. cbn [dupd].
  destruct (String.eqb k' k2) eqn:E; cbn [dget].
  - apply String.eqb_eq in E. subst k2. destruct (String.eqb k k') eqn:E2; [|reflexivity].
    apply String.eqb_eq in E2. contradiction.
  - now rewrite IH.
Qed.

Lemma extra_name_inj c c' : extra_name c = extra_name c' -> c = c'.
Proof. destruct c, c'; intros H; (reflexivity || discriminate H). Qed.

Lemma try_except_inv {A} (m : M A) sel h a :
  snd (try_except m sel h) = Ok a -> snd m = Ok a \/ (exists e, snd m = Err e /\ sel e = true) /\ snd h = Ok a.
Proof.
  destruct m as [w [x|e]]; cbn; [now left|]. destruct (sel e) eqn:E; [|discriminate].
  destruct h as [w' r]; cbn. intros ->. right. split; [now exists e|reflexivity].
Qed.

(** A block only touches its own entry. *)
Lemma add_block_other cp res e res' k :
  snd (add_block cp res e) = Ok res' -> k <> extra_name (ex_class e) -> dget k res' = dget k res.
Proof.
  intros H Hk. unfold add_block in H.
  assert (Hs : forall v, dget k (dset (extra_name (ex_class e)) v res) = dget k res)
    by (intros; now apply dget_dset_other).
  destruct (ex_class e) eqn:EC;
    try (apply try_except_inv in H as [H|[_ H]];
         [apply snd_bind_Ok in H as (d & _ & [= <-]); apply Hs|injection H as <-; reflexivity]).
  set (res1 := if dmem (extra_name UnknownExtra) res then res else dset (extra_name UnknownExtra) (PList []) res) in *.
  assert (H1 : dget k res1 = dget k res) by (unfold res1; destruct (dmem _ _); [reflexivity|apply Hs]).
  apply try_except_inv in H as [H|[_ H]].
  - apply snd_bind_Ok in H as (d & _ & [= <-]). rewrite dget_dupd_other by assumption. exact H1.
  - injection H as <-. exact H1.
Qed.

Lemma extras_loop_other cp res l res' k :
  snd (extras_loop cp res l) = Ok res' -> (forall e, In e l -> k <> extra_name (ex_class e)) ->
  dget k res' = dget k res.
Proof.
  revert res; induction l as [|e l IH]; intros res H Hk; cbn [extras_loop] in H; [now injection H as <-|].
  apply snd_bind_Ok in H as (r1 & H1 & H). rewrite (IH r1 H) by (intros; apply Hk; now right).
  apply (add_block_other cp res e); [assumption|apply Hk; now left].
Qed.

Lemma extras_loop_app cp res l1 l2 :
  extras_loop cp res (l1 ++ l2) = (r <- extras_loop cp res l1 ;; extras_loop cp r l2).
Proof.
  revert res; induction l1 as [|e l1 IH]; intros res; cbn [app extras_loop]; [now rewrite bind_ret_l|].
  rewrite bind_assoc. apply bind_ext. intros; apply IH.
Qed.

Definition terminal_entry (r : bytes) : dict :=
  [("TERMINAL_BLOCK", PDict [("size", PN (lenN r)); ("appended_data_sha256", PStr (sha256_hex (dropN 4 r)))])].

Definition tail_entries (allow : bool) (r : bytes) : dict :=
  if allow && (4 <? lenN r) && (num 4 0 r =? 0) then terminal_entry r else [].

Lemma mk_blocks_not_terminal blocks e : In e (map mk_block blocks) -> ex_class e <> Terminal.
Proof. intros H. apply in_map_iff in H as (blk & <- & _). apply sig_class_not_terminal. Qed.

Lemma extras_tail cp blocks allow r :
  extras_as_dict cp (map mk_block blocks ++ tail_blocks allow r)
  = (d <- extras_as_dict cp (map mk_block blocks) ;; ret (d ++ tail_entries allow r)).
Proof.
  unfold extras_as_dict, tail_blocks, tail_entries.
  destruct (allow && (4 <? lenN r) && (num 4 0 r =? 0)) eqn:E.
  - rewrite extras_loop_app.
    assert (HK : forall d, snd (extras_loop cp [] (map mk_block blocks)) = Ok d -> dget "TERMINAL_BLOCK" d = None).
    { intros d Hd. rewrite (extras_loop_other _ _ _ _ "TERMINAL_BLOCK" Hd); [reflexivity|].
      intros e He Hn. apply (mk_blocks_not_terminal _ _ He).
      change "TERMINAL_BLOCK"%string with (extra_name Terminal) in Hn. symmetry. now apply extra_name_inj. }
    destruct (extras_loop cp [] (map mk_block blocks)) as [w [d|e]]; [|reflexivity].
    specialize (HK d eq_refl). cbn [bind extras_loop].
    unfold add_block. cbn [ex_class extra_name extra_as_dict ex_raw].
    unfold terminal_dict, terminal_size. cbn [fields bind ret try_except app].
    rewrite dset_absent by assumption. unfold terminal_entry. cbn [app].
    replace (4 + lenN (dropN 4 r)) with (lenN r) by (rewrite lenN_dropN; lia). reflexivity.
  - rewrite app_nil_r. destruct (extras_loop cp [] (map mk_block blocks)) as [w [d|e]]; cbn; rewrite ?app_nil_r; reflexivity.
Qed.

(** The report without its size and its extra data. *)
Definition middle_json (l : lnk) : M dict :=
  h <- header_dict (l_header l) ;;
  t <- (match l_targets l with
        | Some t => d <- target_dict l t ;; ret [("target", PDict d)]
        | None => ret []
        end) ;;
  i <- (match l_info l with
        | Some (k, raw) => info_dict (l_cp l) k raw
        | None => ret []
        end) ;;
  ret ([("header", PDict h)] ++ t ++ [("link_info", PDict i); ("data", PDict (sd_data (l_string_data l)))]).

Lemma full_json_middle l :
  full_json l = (m <- middle_json l ;; e <- extras_as_dict (l_cp l) (l_extras l) ;;
                 ret (("size", PN (l_size l)) :: m ++ [("extra", PDict e)])).
Proof.
  unfold full_json, middle_json. rewrite !bind_assoc. apply bind_ext. intros h.
  rewrite !bind_assoc. apply bind_ext. intros t. rewrite !bind_assoc. apply bind_ext. intros i.
  rewrite bind_ret_l. apply bind_ext. intros e. cbn [app]. unfold string_data_as_dict.
  rewrite <- app_assoc. reflexivity.
Qed.

Lemma dupd_wrap k f s m e : k <> "size"%string -> k <> "extra"%string ->
  dupd k f (("size"%string, s) :: m ++ [("extra"%string, e)]) = ("size"%string, s) :: dupd k f m ++ [("extra"%string, e)].
Proof.
  intros H1 H2. cbn [dupd]. apply String.eqb_neq in H1. rewrite H1. f_equal.
  induction m as [|[k' v'] m IH]; cbn [app dupd].
  - apply String.eqb_neq in H2. now rewrite H2.
  - destruct (String.eqb k k'); [reflexivity|]. cbn [app]. now rewrite IH.
Qed.
Lemma dget_wrap k s m e : k <> "size"%string -> k <> "extra"%string ->
  dget k (("size"%string, s) :: m ++ [("extra"%string, e)]) = dget k m.
Proof.
  intros H1 H2. cbn [dget]. apply String.eqb_neq in H1. rewrite H1.
  induction m as [|[k' v'] m IH]; cbn [app dget].
  - apply String.eqb_neq in H2. now rewrite H2.
  - now rewrite IH.
Qed.

(** Pruning leaves size and extra data alone. *)
Definition prune_middle (m : dict) : dict :=
  let m := dupd "header" (on_dict (pop_all ["header_size"; "reserved0"; "reserved1"; "reserved2"]%string)) m in
  let m := dupd "link_info" (on_dict prune_info) m in
  if dmem "target" m then dupd "target" (on_dict prune_target) m else m.

Lemma prune_wrap s m e :
  prune (("size"%string, s) :: m ++ [("extra"%string, e)]) = ("size"%string, s) :: prune_middle m ++ [("extra"%string, e)].
Proof.
  unfold prune, prune_middle. cbv zeta. rewrite !dupd_wrap by discriminate. unfold dmem.
  rewrite dget_wrap by discriminate. destruct (dget _ _); [|reflexivity].
  reflexivity.
Qed.

Lemma get_json_middle l all :
  get_json l all = (m <- middle_json l ;; e <- extras_as_dict (l_cp l) (l_extras l) ;;
                    ret (("size", PN (l_size l)) :: (if all then m else prune_middle m) ++ [("extra", PDict e)])).
Proof.
  unfold get_json. rewrite full_json_middle, bind_assoc. apply bind_ext. intros m.
  rewrite bind_assoc. apply bind_ext. intros e. rewrite bind_ret_l. f_equal. destruct all; [reflexivity|].
  apply prune_wrap.
Qed.

Lemma terminal_report b cp l1 l2 all :
  usable cp -> snd (lnk_init (FromBytes b) cp true) = Ok l1 -> snd (lnk_init (FromBytes b) cp false) = Ok l2 ->
  exists blocks r, block_walk (dropN (string_data_end b) b) blocks r /\
  ((exists e, snd (get_json l1 all) = Err e /\ snd (get_json l2 all) = Err e) \/
   (exists middle extra,
      snd (get_json l1 all) = Ok (("size"%string, PN (l_size l1)) :: middle
                                  ++ [("extra"%string, PDict (extra ++ tail_entries true r))])
      /\ snd (get_json l2 all) = Ok (("size"%string, PN (l_size l2)) :: middle ++ [("extra"%string, PDict extra)])
      /\ dget "TERMINAL_BLOCK" extra = None)).
Proof.
  intros Hcp H1 H2.
  assert (Hb : b <> []) by (intros ->; discriminate).
  rewrite (init_process _ _ _ b) in H1 by auto. rewrite (init_process _ _ _ b) in H2 by auto.
  apply process_constructed in H1 as [_ (A1 & A2 & A3 & A4 & A5 & A6 & blocks & r & HW & A7 & A8)]; [|assumption..].
  apply process_constructed in H2 as [_ (B1 & B2 & B3 & B4 & B5 & B6 & blocks2 & r2 & HW2 & B7 & B8)]; [|assumption..].
  destruct (block_walk_det _ _ _ _ _ HW HW2) as [<- <-]. exists blocks, r. split; [assumption|].
  assert (EM : middle_json l1 = middle_json l2).
  { assert (ES : l_string_data l1 = l_string_data l2) by (rewrite A2, <- B2, B6 in A6; congruence).
    unfold middle_json. rewrite A1, A2, A4, A5, B1, B2, B4, B5, ES.
    unfold target_dict. rewrite A1, B1, A3, B3. reflexivity. }
  rewrite !get_json_middle, EM, A1, B1, A7, B7, !extras_tail.
  cbn [tail_entries andb]. destruct (middle_json l2) as [w [m|e]]; [|left; exists e; split; reflexivity].
  pose proof (extras_loop_other cp [] (map mk_block blocks)) as HK. unfold extras_as_dict.
  destruct (extras_loop cp [] (map mk_block blocks)) as [w' [x|e]]; [|left; exists e; split; reflexivity].
  right. exists (if all then m else prune_middle m), x. cbn [bind ret snd]. rewrite app_nil_r.
  split; [reflexivity|]. split; [reflexivity|].
  rewrite (HK x "TERMINAL_BLOCK"%string eq_refl); [reflexivity|].
  intros e He Hn. apply (mk_blocks_not_terminal _ _ He).
  change "TERMINAL_BLOCK"%string with (extra_name Terminal) in Hn. symmetry. now apply extra_name_inj.
Qed.

(** ** Size and length *)

Lemma size_sum b cp allow l :
  usable cp -> snd (lnk_init (FromBytes b) cp allow) = Ok l ->
  exists blocks r, block_walk (dropN (string_data_end b) b) blocks r /\
    let e := string_data_end b + sumN (map declared blocks) + tail_size allow r in
    l_size l = e + N.min 4 (lenN b - e).
Proof.
  intros Hcp H. assert (Hb : b <> []) by (intros ->; discriminate).
  rewrite (init_process _ _ _ b) in H by auto.
  apply process_constructed in H as [_ (A1 & A2 & A3 & A4 & A5 & A6 & blocks & r & HW & A7 & A8)]; [|assumption..].
  exists blocks, r. split; assumption.
Qed.

Lemma size_terminal b cp l blocks r :
  usable cp -> snd (lnk_init (FromBytes b) cp true) = Ok l ->
  block_walk (dropN (string_data_end b) b) blocks r -> 4 < lenN r -> l_size l = lenN b.
Proof.
  intros Hcp H HW Hr. assert (Hb : b <> []) by (intros ->; discriminate).
  rewrite (init_process _ _ _ b) in H by auto.
  apply process_constructed in H as [(_ & _ & _ & HC) (A1 & A2 & A3 & A4 & A5 & A6 & blocks2 & r2 & HW2 & A7 & A8)]; [|assumption..].
  destruct (block_walk_det _ _ _ _ _ HW HW2) as [<- <-].
  destruct (walk_total_len _ _ _ HW (HC _ _ HW) Hr) as (sk & HL & HS).
  rewrite lenN_dropN in HL. cbn zeta in A8. unfold tail_size in A8.
  destruct (block_walk_stop _ _ _ HW) as [Hs|Hs]; [lia|].
  rewrite Hs in A8. cbn [andb] in A8. replace (4 <? lenN r) with true in A8 by lia. rewrite N.eqb_refl in A8. cbn [andb] in A8. lia.
Qed.

Lemma size_bound b cp allow l blocks r :
  usable cp -> snd (lnk_init (FromBytes b) cp allow) = Ok l ->
  block_walk (dropN (string_data_end b) b) blocks r ->
  string_data_end b + sumN (map declared blocks) <= lenN b -> l_size l <= lenN b.
Proof.
  intros Hcp H HW Hle. destruct (size_sum b cp allow l Hcp H) as (blocks2 & r2 & HW2 & HS). cbn zeta in HS.
  destruct (block_walk_det _ _ _ _ _ HW HW2) as [<- <-].
  destruct (allow && (4 <? lenN r) && (num 4 0 r =? 0)) eqn:E.
  - destruct allow; [|discriminate].
    assert (4 < lenN r) by (destruct (4 <? lenN r) eqn:E2; [lia|discriminate]).
    rewrite (size_terminal b cp l blocks r); auto; lia.
  - unfold tail_size in HS. rewrite E in HS. lia.
Qed.

(** ** The command line program also terminates *)
From Verif Require Import Report.

Lemma main_terminates content a : snd (main content a) <> Err OutOfFuel.
Proof.
  intros H. unfold main in H. apply snd_bind_Err in H as [H|(l & Hl & H)].
  { unfold lnk_init in H. destruct content as [|x b]; [discriminate|].
    destruct (r_process (x :: b) (a_cp a) true) with (1 := ltac:(discriminate) : x :: b <> []) (e := OutOfFuel)
      as [?|[? _]]; [assumption|discriminate..]. }
  assert (HG : forall all, snd (get_json l all) <> Err OutOfFuel).
  { intros all HG. destruct (r_get_json l all _ HG) as [?|[?|[?|[? _]]]]; discriminate. }
  assert (HF : forall f, raises (fun e => e = StructError) (has_flag f (l_header l))) by (intros; rsolve).
  destruct (a_target a); [|destruct (a_json a)].
  - apply snd_bind_Err in H as [H|(? & _ & H)]; [|destruct (a_json a); discriminate].
    unfold lnk_command in H. apply snd_bind_Err in H as [H|(p & _ & H)]; [now apply HF in H|].
    apply snd_bind_Err in H as [H|(o & _ & H)].
    { destruct p; [|discriminate]. destruct (sd_get _ _); discriminate. }
    apply snd_bind_Err in H as [H|(q & _ & H)]; [now apply HF in H|].
    destruct (all_some _); discriminate.
  - apply snd_bind_Err in H as [H|(? & _ & H)]; [now apply HG in H|discriminate].
  - apply snd_bind_Err in H as [H|(? & _ & H)]; [|discriminate].
    unfold yaml_tree in H. apply snd_bind_Err in H as [H|(res & _ & H)]; [now apply HG in H|].
    assert (H1 : raises (fun e => e = StructError) (format_linkFlags (l_header l)))
      by (unfold format_linkFlags; rsolve).
    assert (H2 : raises (fun e => e = StructError) (format_fileFlags (l_header l)))
      by (unfold format_fileFlags, r_file_flags; rsolve).
    apply snd_bind_Err in H as [H|(f1 & _ & H)]; [now apply H1 in H|].
    apply snd_bind_Err in H as [H|(f2 & _ & H)]; [now apply H2 in H|].
    destruct (make_keys_nice _ _); try discriminate.
    destruct (dget _ _) as [[]|]; discriminate.
Qed.

Lemma init_cp b cp allow l : snd (lnk_init (FromBytes b) cp allow) = Ok l -> l_cp l = cp.
Proof. destruct b as [|x b]; [discriminate|]. apply process_cp. Qed.
