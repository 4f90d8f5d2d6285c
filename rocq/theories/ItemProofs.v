(** * ID lists (C29-C34) *)
From Verif Require Import Lemmas Codec Utils Header Targets Extra LnkFile Spec SpecText SpecTime SpecItems.
From Verif Require Import EncProofs FormatProofs OutcomeProofs LayoutProofs TimeProofs TextProofs ApiProofs.

(** ** One step of the walk *)

Definition class_step (ty : N) : M target_class :=
  let masked := N.land ty 0x70 in
  if existsb (N.eqb masked) [0x20; 0x30; 0x40] then get_shell_item_classes masked else get_shell_item_classes ty.
Definition tclass (ty : N) : target_class := match snd (class_step ty) with Ok c => c | Err _ => UnknownTarget end.

Lemma class_step_byte b :
  class_step (b2n b) = (unless_known (documented_class (b2n b)) (WItemType (b2n b)), Ok (tclass (b2n b)))
  /\ target_name (tclass (b2n b)) = class_of_type (b2n b).
Proof. destruct b; vm_compute; split; reflexivity. Qed.
Lemma class_step_spec ty : ty < 256 ->
  class_step ty = (unless_known (documented_class ty) (WItemType ty), Ok (tclass ty))
  /\ target_name (tclass ty) = class_of_type ty.
Proof.
  intros H. pose proof (class_step_byte (n2b ty)) as E. rewrite b2n_n2b, N.mod_small in E by assumption. exact E.
Qed.
Lemma item_type_lt body : item_type body < 256.
Proof. destruct body; [reflexivity|apply b2n_lt]. Qed.

Lemma lenN_encode_item body : lenN (encode_item body) = lenN body + 2.
Proof. unfold encode_item. rewrite lenN_app, lenN_enc16. lia. Qed.

Section Step.
  Variables (body next : bytes).
  Hypothesis Hfit : item_fits body.

  Lemma item_size_read : unpack_u16 (slice 0 2 (encode_item body ++ next)) = ret (lenN body + 2).
  Proof.
    unfold encode_item. rewrite <- app_assoc. rewrite slice_here_n by reflexivity. apply unpack_enc16. apply Hfit.
  Qed.
  Lemma item_type_read : tf_item_type (encode_item body ++ next) = ret (item_type body).
  Proof.
    destruct Hfit as [Hne _]. unfold tf_item_type, encode_item. rewrite <- app_assoc.
    rewrite (slice_skip_n 2 3 2) by (reflexivity || lia). change (2 - 2) with 0. change (3 - 2) with 1.
    destruct body as [|x r]; [contradiction|]. change ((x :: r) ++ next) with ([x] ++ (r ++ next)).
    rewrite slice_here_n by reflexivity. unfold unpack_u8. rewrite unpack_le_ok by reflexivity.
    cbn [le_val item_type]. now rewrite N.mul_0_r, N.add_0_r.
  Qed.
  Lemma item_class_read :
    tf_target_class (encode_item body ++ next) = (c <- class_step (item_type body) ;; ret (Some c)).
  Proof.
    unfold tf_target_class, tf_item_size. rewrite item_size_read, bind_ret_l.
    replace (lenN body + 2 =? 0) with false by lia. rewrite item_type_read, bind_ret_l. reflexivity.
  Qed.
  Lemma item_raw_target : target_base_init (encode_item body ++ next) = ret (body ++ takeN 2 next).
  Proof.
    unfold target_base_init, target_size. rewrite item_size_read, bind_ret_l. f_equal.
    unfold encode_item. rewrite <- app_assoc. rewrite (slice_skip_n 2 _ 2) by (reflexivity || lia).
    replace (2 - 2) with 0 by reflexivity. replace (2 + (lenN body + 2) - 2) with (lenN body + 2) by lia.
    rewrite slice_0, takeN_app_ge by lia. now replace (lenN body + 2 - lenN body) with 2 by lia.
  Qed.
  Lemma item_drop : dropN (lenN body + 2) (encode_item body ++ next) = next.
  Proof. apply dropN_app_exact. apply lenN_encode_item. Qed.
End Step.

(** What one item contributes, given the two bytes after it. *)
Definition item_step (cp : cp_arg) (body ahead : bytes) : M (list pyval) :=
  t <- in_generator (c <- class_step (item_type body) ;; target_init c cp (encode_item body ++ ahead)) ;;
  try_except (d <- as_item cp t ;; ret [PDict d]) is_key_error
             (warn (WTarget (target_name (t_class t))) ;;; ret []).

Lemma in_generator_ret {A B} (m : M A) (f : A -> B) :
  in_generator (a <- m ;; ret (f a)) = (a <- in_generator m ;; ret (f a)).
Proof. destruct m as [w [a|e]]; [reflexivity|]. destruct e; reflexivity. Qed.

(** [as_item] sees the raw bytes only through the item's size. *)
Definition same_target (t u : target) : Prop :=
  t_class t = t_class u /\ target_size (t_raw t) = target_size (t_raw u) /\ t_raw_target t = t_raw_target u
  /\ t_location t = t_location u /\ t_description t = t_description u /\ t_comments t = t_comments u.
Lemma as_item_same cp t u : same_target t u -> as_item cp t = as_item cp u.
Proof.
  destruct t as [c raw rt a b d], u as [c' raw' rt' a' b' d']. unfold same_target.
  cbn [t_class t_raw t_raw_target t_location t_description t_comments]. intros (-> & Hs & -> & -> & -> & ->).
  unfold as_item. cbn [t_class t_raw t_raw_target]. destruct c'; try reflexivity.
  unfold unknown_as_item. now rewrite Hs.
Qed.

Definition same_result {A B} (R : A -> B -> Prop) (m : M A) (m' : M B) : Prop :=
  fst m = fst m' /\ match snd m, snd m' with Ok a, Ok b => R a b | Err e, Err e' => e = e' | _, _ => False end.
Lemma same_bind {A B C} (R : A -> B -> Prop) (m : M A) (m' : M B) (f : A -> M C) (g : B -> M C) :
  same_result R m m' -> (forall a b, R a b -> f a = g b) -> bind m f = bind m' g.
Proof.
  destruct m as [w [a|e]], m' as [w' [b|e']]; unfold same_result; cbn [fst snd]; intros [-> H] Hf; try contradiction.
  - rewrite !bind_Ok. now rewrite (Hf a b H).
  - now subst e'.
Qed.
Lemma same_in_generator {A B} (R : A -> B -> Prop) (m : M A) (m' : M B) :
  same_result R m m' -> same_result R (in_generator m) (in_generator m').
Proof.
  destruct m as [w [a|e]], m' as [w' [b|e']]; unfold same_result; cbn [fst snd]; intros [-> H]; try contradiction.
  - now split.
  - subst e'. destruct e; split; reflexivity.
Qed.

Lemma target_init_ahead cp body next : item_fits body -> forall c,
  same_result same_target (target_init c cp (encode_item body ++ next))
                          (target_init c cp (encode_item body ++ takeN 2 next)).
Proof.
  intros Hfit c. unfold target_init. rewrite !item_raw_target by assumption. rewrite !bind_ret_l.
  rewrite takeN_takeN. change (N.min 2 2) with 2.
  assert (ES : target_size (encode_item body ++ next) = target_size (encode_item body ++ takeN 2 next))
    by (unfold target_size; now rewrite !item_size_read).
  assert (HR : forall a b d, same_target
     (Target c (encode_item body ++ next) (body ++ takeN 2 next) a b d)
     (Target c (encode_item body ++ takeN 2 next) (body ++ takeN 2 next) a b d)).
  { intros. unfold same_target. cbn [t_class t_raw t_raw_target t_location t_description t_comments]. auto 10. }
  destruct c; try (split; [reflexivity|apply HR]).
  destruct (nl_init_strings cp _) as [w [[[l d] m]|e]]; (split; [reflexivity|]); cbn; [apply HR|reflexivity].
Qed.

Lemma match_nonempty {A B} (r : list A) (x y : B) : r <> [] -> match r with [] => x | _ => y end = y.
Proof. now destruct r. Qed.
Lemma items_loop_step fuel cp body next : item_fits body ->
  items_loop (S fuel) cp (encode_item body ++ next)
  = (x <- item_step cp body (takeN 2 next) ;; l <- items_loop fuel cp next ;; ret (x ++ l)).
Proof.
  intros Hfit. cbn [items_loop]. unfold next_target, item_step.
  set (raw := encode_item body ++ next). assert (Hraw : raw <> []) by (unfold raw, encode_item, enc16; discriminate).
  assert (E : (match raw with
               | [] => ret None
               | _ => c <- tf_target_class raw ;;
                      match c with
                      | None => ret None
                      | Some c => t <- target_init c cp raw ;; size <- tf_item_size raw ;; ret (Some (t, dropN size raw))
                      end
               end)
             = (t <- (c <- class_step (item_type body) ;; target_init c cp raw) ;; ret (Some (t, next)))).
  { rewrite match_nonempty by assumption. unfold raw. clear Hraw.
    rewrite item_class_read by assumption. rewrite !bind_assoc. apply bind_ext. intros c.
    rewrite bind_ret_l. apply bind_ext. intros t. unfold tf_item_size. rewrite item_size_read, bind_ret_l by assumption.
    now rewrite item_drop. }
  rewrite E. clear E. rewrite in_generator_ret, !bind_assoc. unfold raw.
  eapply (same_bind same_target).
  - apply same_in_generator.
    destruct (class_step (item_type body)) as [w [c|e]]; [|split; reflexivity].
    rewrite !bind_Ok. destruct (target_init_ahead cp body next Hfit c) as [HF HS].
    split; cbn [fst snd]; [now rewrite HF|exact HS].
  - intros t u HTU. rewrite bind_ret_l. rewrite (as_item_same cp t u HTU).
    destruct HTU as [-> _]. reflexivity.
Qed.

(** Fuel beyond the length of the input changes nothing. *)
Lemma items_loop_fuel cp : forall f f' b, (length b < f)%nat -> (length b < f')%nat -> items_loop f cp b = items_loop f' cp b.
Proof.
  induction f as [|f IH]; intros [|f'] b H H'; try lia. cbn [items_loop].
  destruct (next_target cp b) as [w [[[t rest]|]|e]] eqn:E; [|reflexivity|reflexivity].
  rewrite !bind_Ok.
  assert (HN : snd (next_target cp b) = Ok (Some (t, rest))) by now rewrite E.
  apply next_target_size in HN as (n & _ & Hn & -> & Hb).
  rewrite (IH f' (dropN n b)); [reflexivity| |].
  - pose proof (lenN_dropN n b) as L. unfold lenN in *. destruct b; [contradiction|]. cbn [length] in *. lia.
  - pose proof (lenN_dropN n b) as L. unfold lenN in *. destruct b; [contradiction|]. cbn [length] in *. lia.
Qed.

Lemma items_of_step cp body next : item_fits body ->
  items_of cp (encode_item body ++ next)
  = (x <- item_step cp body (takeN 2 next) ;; l <- items_of cp next ;; ret (x ++ l)).
Proof.
  intros Hfit. unfold items_of. rewrite items_loop_step by assumption. apply bind_ext. intros x.
  rewrite (items_loop_fuel cp _ (S (length next)) next); [reflexivity| |lia].
  rewrite app_length. unfold encode_item. rewrite app_length. cbn. lia.
Qed.
Lemma items_of_terminal cp junk : items_of cp (enc16 0 ++ junk) = ret [].
Proof.
  unfold items_of. cbn [items_loop]. unfold next_target. rewrite match_nonempty by discriminate.
  unfold tf_target_class, tf_item_size. rewrite slice_here_n, unpack_enc16 by reflexivity. reflexivity.
Qed.
Lemma items_of_nil cp : items_of cp [] = ret [].
Proof. reflexivity. Qed.

(** Every item gives exactly one entry, of the class of its type byte. *)
Definition not_key (e : exn) : Prop := e <> KeyError.
Lemma as_item_not_key cp t : raises not_key (as_item cp t).
Proof. apply r_as_item; unfold not_key; intros; discriminate. Qed.
Lemma as_item_class cp t d : snd (as_item cp t) = Ok d -> dget "class" d = Some (PS (target_name (t_class t))).
Proof.
  unfold as_item. destruct (t_class t);
  unfold cpl_as_item, cat_as_item, rf_as_item, mc_as_item, nl_as_item, fs_as_item, cpanel_as_item, uf_as_item, unknown_as_item;
  intros H;
  repeat match type of H with
  | snd (bind _ _) = Ok _ => apply snd_bind_Ok in H as (? & _ & H)
  | snd (if ?b then _ else _) = Ok _ => destruct b
  end; injection H as <-; reflexivity.
Qed.
Lemma target_init_class c cp raw t : snd (target_init c cp raw) = Ok t -> t_class t = c.
Proof.
  unfold target_init. intros H. apply snd_bind_Ok in H as (rt & _ & H).
  destruct c; try (injection H as <-; reflexivity).
  apply snd_bind_Ok in H as ([[a b] d] & _ & H). injection H as <-. reflexivity.
Qed.
Lemma try_ok {A} (m : M A) sel h a : snd m = Ok a -> try_except m sel h = m.
Proof. destruct m as [w [x|e]]; [reflexivity|discriminate]. Qed.
Lemma try_err {A} (m : M A) sel h w e : m = (w, Err e) -> sel e = false -> try_except m sel h = m.
Proof. intros -> H. unfold try_except. now rewrite H. Qed.

Lemma try_as_item cp t h :
  try_except (d <- as_item cp t ;; ret [PDict d]) is_key_error h = (d <- as_item cp t ;; ret [PDict d]).
Proof.
  destruct (as_item cp t) as [w [d|e]] eqn:E; [reflexivity|].
  eapply try_err; [reflexivity|]. pose proof (as_item_not_key cp t) as R.
  assert (e <> KeyError) by (apply R; now rewrite E). now destruct e.
Qed.
Lemma item_step_eq cp body ahead :
  item_step cp body ahead
  = (t <- in_generator (c <- class_step (item_type body) ;; target_init c cp (encode_item body ++ ahead)) ;;
     d <- as_item cp t ;; ret [PDict d]).
Proof. unfold item_step. apply bind_ext. intros t. apply try_as_item. Qed.

Lemma in_generator_ok {A} (m : M A) a : snd (in_generator m) = Ok a -> snd m = Ok a.
Proof. destruct m as [w [x|[]]]; cbn; congruence. Qed.
Lemma item_step_entry cp body ahead l :
  snd (item_step cp body ahead) = Ok l ->
  exists d, l = [PDict d] /\ dget "class" d = Some (PS (class_of_type (item_type body))).
Proof.
  rewrite item_step_eq. intros H. apply snd_bind_Ok in H as (t & Ht & H). apply snd_bind_Ok in H as (d & Hd & H).
  injection H as <-. exists d. split; [reflexivity|]. apply in_generator_ok in Ht.
  destruct (class_step_spec (item_type body) (item_type_lt body)) as [EC EN]. rewrite EC, bind_Ok in Ht. cbn [snd] in Ht.
  apply target_init_class in Ht. apply as_item_class in Hd. rewrite Ht, EN in Hd. exact Hd.
Qed.

Lemma items_split cp pre : Forall item_fits pre -> forall next l,
  snd (items_of cp (flat_map encode_item pre ++ next)) = Ok l ->
  exists l1 l2, l = l1 ++ l2 /\ length l1 = length pre /\ snd (items_of cp next) = Ok l2
    /\ Forall2 (fun body e => exists d, e = PDict d /\ dget "class" d = Some (PS (class_of_type (item_type body)))) pre l1.
Proof.
  induction 1 as [|body pre Hb _ IH]; intros next l H.
  - exists [], l. repeat split; auto.
  - cbn [flat_map] in H. rewrite <- app_assoc, items_of_step in H by assumption.
    apply snd_bind_Ok in H as (x & Hx & H). apply snd_bind_Ok in H as (l' & Hl & H). injection H as <-.
    apply item_step_entry in Hx as (d & -> & Hd). apply IH in Hl as (l1 & l2 & -> & HL & Hn & HF).
    exists (PDict d :: l1), l2. split; [reflexivity|]. split; [cbn; now rewrite HL|]. split; [assumption|].
    constructor; [now exists d|assumption].
Qed.

(** The entry of an item depends on its bytes and the next two. *)
Lemma items_ahead cp body next1 next2 e1 l1 e2 l2 :
  item_fits body -> takeN 2 next1 = takeN 2 next2 ->
  snd (items_of cp (encode_item body ++ next1)) = Ok (e1 :: l1) ->
  snd (items_of cp (encode_item body ++ next2)) = Ok (e2 :: l2) -> e1 = e2.
Proof.
  intros Hfit HT H1 H2. rewrite items_of_step in H1, H2 by assumption. rewrite HT in H1.
  apply snd_bind_Ok in H1 as (x1 & Hx1 & H1). apply snd_bind_Ok in H1 as (? & _ & H1).
  apply snd_bind_Ok in H2 as (x2 & Hx2 & H2). apply snd_bind_Ok in H2 as (? & _ & H2).
  rewrite Hx1 in Hx2. injection Hx2 as <-. apply item_step_entry in Hx1 as (d & -> & _).
  injection H1 as <- _. injection H2 as <- _. reflexivity.
Qed.

(** ** Well-formed items *)

Ltac drop1 :=
  match goal with
  | |- context [dropN 0 ?a] => rewrite (dropN_0 a)
  | |- context [dropN ?i (?a ++ ?b)] =>
    with_len a ltac:(fun H => rewrite (dropN_skip_n i _ a b H) by lia; off_norm)
  end.
Ltac drops := repeat drop1.

Lemma stored_nul u cp body rest : zbody u body -> stored_text u cp (zstring u body ++ rest) = stored_text u cp body
  /\ stored_warning u cp (zstring u body ++ rest) = stored_warning u cp body.
Proof.
  unfold zbody, stored_text, stored_warning, zstring. destruct u.
  - intros [He Hb]. unfold wide_text, wide_warning. rewrite <- app_assoc. cbn [app].
    rewrite before_nul_unit_cut by assumption. now split.
  - intros Hn. unfold field_text, field_warning. rewrite <- app_assoc. cbn [app].
    rewrite before_nul_cut. now split.
Qed.
Lemma read_stored (u : bool) cp b : usable cp ->
  (if u then read_unicode_string b else read_string cp b) = (stored_warning u cp b, Ok (stored_text u cp b)).
Proof. intros H. destruct u; [apply read_unicode_field|now apply read_string_field]. Qed.
Lemma read_zstring (u : bool) cp body rest : usable cp -> zbody u body ->
  (if u then read_unicode_string (zstring u body ++ rest) else read_string cp (zstring u body ++ rest))
  = (stored_warning u cp body, Ok (stored_text u cp body)).
Proof. intros Hcp Hz. rewrite read_stored by assumption. destruct (stored_nul u cp body rest Hz) as [-> ->]. reflexivity. Qed.

Lemma fs_folder_byte b :
  get_item_shell_fs_folder (N.land (b2n b) 0x0F) = (flags_warning (b2n b), Ok (flags_text (b2n b))).
Proof. destruct b; vm_compute; reflexivity. Qed.
Lemma fs_folder ty : ty < 256 -> get_item_shell_fs_folder (N.land ty 0x0F) = (flags_warning ty, Ok (flags_text ty)).
Proof. intros H. pose proof (fs_folder_byte (n2b ty)) as E. rewrite b2n_n2b, N.mod_small in E by assumption. exact E. Qed.

Lemma encode_fat_read o : (forall t, o = Some t -> fat_representable t) -> parse_dostime (encode_fat o) = ret o.
Proof.
  destruct o as [t|]; intros H.
  - destruct (H t eq_refl) as (H1 & H2 & H3 & H4). now apply dostime_round_trip.
  - reflexivity.
Qed.
Lemma encode_fat_len o : lenN (encode_fat o) = 4.
Proof. now destruct o. Qed.
#[export] Hint Resolve encode_fat_len : lens.

Lemma bind_pair {A B} w (a : A) (f : A -> M B) w' b : f a = (w', Ok b) -> bind (w, Ok a) f = (w ++ w', Ok b).
Proof. intros H. rewrite bind_Ok, H. reflexivity. Qed.

Lemma testbit_mask n i m : m = 2 ^ i -> negb (N.land n m =? 0) = N.testbit n i.
Proof. intros ->. rewrite land_pow2_eq0. apply negb_involutive. Qed.

Lemma entry_spec cp e tail : usable cp -> wf_entry e ->
  fs_as_item cp (entry_body e ++ tail) = (entry_warnings cp e, Ok (entry_report cp e)).
Proof.
  intros Hcp (Hty & Hsz & Hat & Htm & Hnm). unfold fs_as_item, entry_body.
  unfold fs_flags, class_type_indicator, fs_file_size, fs_modification_time, fs_file_attribute_flags, fs_primary_name,
    has_unicode_strings, class_type_indicator. rewrite <- !app_assoc. slices. drops.
  rewrite unpack_enc8 by assumption. rewrite !bind_ret_l, fs_folder by assumption.
  unfold entry_warnings. eapply bind_pair.
  rewrite unpack_enc32, bind_ret_l by assumption. rewrite encode_fat_read, bind_ret_l by assumption.
  rewrite unpack_enc16, bind_ret_l by assumption.
  rewrite (testbit_mask _ 2) by reflexivity. fold (fe_unicode e).
  rewrite read_zstring by assumption. rewrite bind_Ok. cbn [fst snd ret]. rewrite app_nil_r. reflexivity.
Qed.

Lemma item_step_plain cp body ahead c w w' d :
  item_fits body -> class_step (item_type body) = (w, Ok c) -> c <> NetworkLocation ->
  as_item cp (Target c (encode_item body ++ ahead) (body ++ takeN 2 ahead) [] None None) = (w', Ok d) ->
  item_step cp body ahead = (w ++ w', Ok [PDict d]).
Proof.
  intros Hfit HC Hc HA. rewrite item_step_eq, HC, bind_Ok. unfold target_init.
  rewrite item_raw_target, bind_ret_l by assumption.
  assert (E : (match c with
               | NetworkLocation => s <- nl_init_strings cp (body ++ takeN 2 ahead) ;;
                   (let '(location, description, comments) := s in
                    ret (Target c (encode_item body ++ ahead) (body ++ takeN 2 ahead) location description comments))
               | _ => ret (Target c (encode_item body ++ ahead) (body ++ takeN 2 ahead) [] None None)
               end) = ret (Target c (encode_item body ++ ahead) (body ++ takeN 2 ahead) [] None None))
    by (destruct c; try reflexivity; now destruct Hc).
  rewrite E. cbn [fst snd ret]. rewrite app_nil_r. cbn [in_generator]. apply bind_pair. rewrite HA, bind_Ok.
  cbn [fst snd ret]. now rewrite app_nil_r.
Qed.

Lemma item_step_network cp body ahead w w' w'' l de co d :
  item_fits body -> class_step (item_type body) = (w, Ok NetworkLocation) ->
  nl_init_strings cp (body ++ takeN 2 ahead) = (w', Ok (l, de, co)) ->
  as_item cp (Target NetworkLocation (encode_item body ++ ahead) (body ++ takeN 2 ahead) l de co) = (w'', Ok d) ->
  item_step cp body ahead = (w ++ w' ++ w'', Ok [PDict d]).
Proof.
  intros Hfit HC HN HA. rewrite item_step_eq, HC, bind_Ok. unfold target_init.
  rewrite item_raw_target, bind_ret_l, HN, bind_Ok by assumption. cbn [fst snd ret]. rewrite app_nil_r.
  cbn [in_generator]. rewrite app_assoc. apply bind_pair. rewrite HA, bind_Ok. cbn [fst snd ret]. now rewrite app_nil_r.
Qed.

(** Facts about all bytes, for a number below 256. *)
Lemma by_bytes (P : N -> Prop) : (forall b, P (b2n b)) -> forall n, n < 256 -> P n.
Proof. intros H n Hn. specialize (H (n2b n)). now rewrite b2n_n2b, N.mod_small in H. Qed.

Lemma class_volume : forall ty, ty < 256 -> (ty / 16 mod 8 =? 2) = true -> class_step ty = ret MyComputer.
Proof. intros ty Hlt. pattern ty. apply by_bytes; [|assumption]. intros b. destruct b; vm_compute; (reflexivity || discriminate). Qed.
Lemma class_file : forall ty, ty < 256 -> (ty / 16 mod 8 =? 3) = true -> class_step ty = ret ShellFSFolder.
Proof. intros ty Hlt. pattern ty. apply by_bytes; [|assumption]. intros b. destruct b; vm_compute; (reflexivity || discriminate). Qed.
Lemma class_network : forall ty, ty < 256 -> (ty / 16 mod 8 =? 4) = true -> class_step ty = ret NetworkLocation.
Proof. intros ty Hlt. pattern ty. apply by_bytes; [|assumption]. intros b. destruct b; vm_compute; (reflexivity || discriminate). Qed.
Lemma class_unknown : forall ty, ty < 256 -> documented_class ty = None -> class_step ty = ([WItemType ty], Ok UnknownTarget).
Proof. intros ty Hlt. pattern ty. apply by_bytes; [|assumption]. intros b. destruct b; vm_compute; (reflexivity || discriminate). Qed.
Lemma volume_flags : forall ty, ty < 256 ->
  hex_text (N.land ty 0x0F) = s2t "0x" ++ [nth (N.to_nat (ty mod 16)) hex_lower 0]
  /\ negb (N.land (N.land ty 0x0F) 0x01 =? 0) = N.testbit ty 0.
Proof. intros ty Hlt. pattern ty. apply by_bytes; [|assumption]. intros b. destruct b; vm_compute; split; reflexivity. Qed.
Lemma sort_index_spec : forall n, n < 256 ->
  get_sort_index n = (unless_known (sort_name n) (WSortIndex n), Ok (or_unknown (sort_name n))).
Proof. intros ty Hlt. pattern ty. apply by_bytes; [|assumption]. intros b. destruct b; vm_compute; reflexivity. Qed.
Lemma category_spec id :
  match assocN id CATEGORIES with
  | None => warn (WCategory id) ;;; ret "Unknown"%string
  | Some s => ret s
  end = (unless_known (category_name id) (WCategory id), Ok (or_unknown (category_name id))).
Proof.
  destruct (N.lt_ge_cases id 12) as [H|H].
  - assert (E : forall n, n < 256 -> n < 12 ->
       match assocN n CATEGORIES with
       | None => warn (WCategory n) ;;; ret "Unknown"%string
       | Some s => ret s
       end = (unless_known (category_name n) (WCategory n), Ok (or_unknown (category_name n))))
      by (intros n Hlt; pattern n; apply by_bytes; [|assumption]; intros b; destruct b; vm_compute; (reflexivity || discriminate)).
    apply E; lia.
  - assert (assocN id CATEGORIES = None) as ->.
    { unfold CATEGORIES, assocN. repeat match goal with |- context [id =? ?k] => replace (id =? k) with false by lia end. reflexivity. }
    assert (category_name id = None) as ->.
    { unfold category_name. destruct id as [|p]; [lia|]. do 4 (destruct p as [p|p|]; try reflexivity; try (exfalso; lia)). }
    reflexivity.
Qed.

Ltac item_start := rewrite <- !app_assoc; slices.
Lemma item_type_enc8 ty r : ty < 256 -> item_type (enc8 ty ++ r) = ty.
Proof. intros H. unfold enc8. cbn [app item_type]. rewrite b2n_n2b. now apply N.mod_small. Qed.

Lemma root_spec ty sort guid rest cp ahead : wf_item (IRoot ty sort guid rest) -> item_fits (item_body (IRoot ty sort guid rest)) ->
  item_step cp (item_body (IRoot ty sort guid rest)) ahead
  = (item_warnings cp (IRoot ty sort guid rest), Ok [PDict (item_report cp (IRoot ty sort guid rest))]).
Proof.
  cbn [wf_item item_body item_warnings item_report]. intros (Hty & Hs & Hg) Hfit.
  rewrite <- (app_nil_l (unless_known _ _)). apply item_step_plain with (c := RootFolder).
  - assumption.
  - rewrite item_type_enc8 by lia. destruct Hty as [-> | ->]; reflexivity.
  - discriminate.
  - unfold as_item. cbn [t_class t_raw_target]. unfold rf_as_item, rf_sort_index_value.
    item_start. rewrite unpack_enc8, !bind_ret_l by assumption. rewrite sort_index_spec by assumption.
    rewrite bind_Ok. cbv beta. rewrite !bind_ret_l, parse_uuid_guid, bind_ret_l by assumption. cbn [fst snd ret].
    now rewrite app_nil_r.
Qed.

Lemma volume_spec ty name rest cp ahead : usable cp -> wf_item (IVolume ty name rest) -> item_fits (item_body (IVolume ty name rest)) ->
  item_step cp (item_body (IVolume ty name rest)) ahead
  = (item_warnings cp (IVolume ty name rest), Ok [PDict (item_report cp (IVolume ty name rest))]).
Proof.
  intros Hcp. cbn [wf_item item_body item_warnings item_report]. intros (Hty & Hk & Hb & Hn) Hfit.
  rewrite <- (app_nil_l (field_warning _ _)). apply item_step_plain with (c := MyComputer).
  - assumption.
  - rewrite item_type_enc8 by lia. apply class_volume; lia.
  - discriminate.
  - unfold as_item. cbn [t_class t_raw_target]. unfold mc_as_item, mc_has_name, mc_flags, class_type_indicator.
    item_start. rewrite unpack_enc8, !bind_ret_l by assumption. destruct (volume_flags ty Hty) as [-> ->]. rewrite Hb.
    rewrite read_string_field by assumption. rewrite bind_Ok. cbn [fst snd ret]. now rewrite app_nil_r.
Qed.

Lemma volume_id_spec ty unk guid rest cp ahead : wf_item (IVolumeId ty unk guid rest) -> item_fits (item_body (IVolumeId ty unk guid rest)) ->
  item_step cp (item_body (IVolumeId ty unk guid rest)) ahead
  = (item_warnings cp (IVolumeId ty unk guid rest), Ok [PDict (item_report cp (IVolumeId ty unk guid rest))]).
Proof.
  cbn [wf_item item_body item_warnings item_report]. intros (Hty & Hk & Hb & Hn) Hfit.
  change (@nil warning) with (@nil warning ++ []). apply item_step_plain with (c := MyComputer).
  - assumption.
  - rewrite item_type_enc8 by lia. apply class_volume; lia.
  - discriminate.
  - unfold as_item. cbn [t_class t_raw_target]. unfold mc_as_item, mc_has_name, mc_flags, class_type_indicator.
    item_start. rewrite unpack_enc8, !bind_ret_l by assumption. destruct (volume_flags ty Hty) as [-> ->]. rewrite Hb.
    rewrite parse_uuid_guid, bind_ret_l by assumption. reflexivity.
Qed.

Lemma file_spec e cp ahead : usable cp -> wf_item (IFile e) -> item_fits (item_body (IFile e)) ->
  item_step cp (item_body (IFile e)) ahead = (item_warnings cp (IFile e), Ok [PDict (item_report cp (IFile e))]).
Proof.
  intros Hcp. cbn [wf_item item_body item_warnings item_report]. intros (Hwf & Hk) Hfit.
  rewrite <- (app_nil_l (entry_warnings _ _)). apply item_step_plain with (c := ShellFSFolder).
  - assumption.
  - unfold entry_body. rewrite item_type_enc8 by apply Hwf. apply class_file; [apply Hwf|lia].
  - discriminate.
  - unfold as_item. cbn [t_class t_raw_target]. now apply entry_spec.
Qed.

Lemma cpanel_spec ty unk guid rest cp ahead : wf_item (IControlPanel ty unk guid rest) -> item_fits (item_body (IControlPanel ty unk guid rest)) ->
  item_step cp (item_body (IControlPanel ty unk guid rest)) ahead
  = (item_warnings cp (IControlPanel ty unk guid rest), Ok [PDict (item_report cp (IControlPanel ty unk guid rest))]).
Proof.
  cbn [wf_item item_body item_warnings item_report]. intros (Hty & Hu & Hg) Hfit.
  change (@nil warning) with (@nil warning ++ []). apply item_step_plain with (c := ControlPanel).
  - assumption.
  - rewrite item_type_enc8 by lia. destruct Hty as [-> | ->]; reflexivity.
  - discriminate.
  - unfold as_item. cbn [t_class t_raw_target]. unfold cpanel_as_item.
    item_start. rewrite parse_uuid_guid, bind_ret_l by assumption. reflexivity.
Qed.

Lemma category_item_spec unk sig id rest cp ahead : wf_item (ICategory unk sig id rest) -> item_fits (item_body (ICategory unk sig id rest)) ->
  item_step cp (item_body (ICategory unk sig id rest)) ahead
  = (item_warnings cp (ICategory unk sig id rest), Ok [PDict (item_report cp (ICategory unk sig id rest))]).
Proof.
  cbn [wf_item item_body item_warnings item_report]. intros (Hs & Hid) Hfit.
  rewrite <- (app_nil_l (unless_known _ _)). apply item_step_plain with (c := ControlPanelCategory).
  - assumption.
  - rewrite item_type_enc8 by lia. reflexivity.
  - discriminate.
  - unfold as_item. cbn [t_class t_raw_target]. unfold cat_as_item, cat_category, cat_id.
    item_start. rewrite unpack_enc32, !bind_ret_l by assumption. rewrite category_spec, bind_Ok.
    cbn [fst snd ret]. now rewrite app_nil_r.
Qed.

Lemma other_spec ty rest cp ahead : wf_item (IOther ty rest) -> item_fits (item_body (IOther ty rest)) ->
  item_step cp (item_body (IOther ty rest)) ahead
  = (item_warnings cp (IOther ty rest), Ok [PDict (item_report cp (IOther ty rest))]).
Proof.
  cbn [wf_item item_body item_warnings item_report]. intros (Hty & H) Hfit.
  destruct H as [H|H].
  - rewrite H. cbn [unless_known]. change [WItemType ty] with ([WItemType ty] ++ []).
    apply item_step_plain with (c := UnknownTarget).
    + assumption.
    + rewrite item_type_enc8 by lia. now apply class_unknown.
    + discriminate.
    + unfold as_item. cbn [t_class t_raw]. unfold unknown_as_item, target_size.
      rewrite item_size_read, bind_ret_l by assumption. rewrite lenN_app, lenN_enc8.
      replace (1 + lenN rest + 2) with (lenN rest + 3) by lia. reflexivity.
  - assert (Hc : exists c, class_step ty = ret c /\ In c [CompressedFolder; Internet; Printers; CommonPlacesFolder]
                /\ documented_class ty = Some (target_name c)).
    { cbn in H. destruct H as [<-|[<-|[<-|[<-|[]]]]]; eexists; (split; [reflexivity|split; [cbn; auto 10|reflexivity]]). }
    destruct Hc as (c & Hc & Hin & Hd). rewrite Hd. cbn [unless_known].
    change (@nil warning) with (@nil warning ++ []). apply item_step_plain with (c := c).
    + assumption.
    + now rewrite item_type_enc8.
    + intros ->. cbn in Hin. intuition discriminate.
    + unfold as_item. cbn [t_class]. cbn in Hin. destruct Hin as [<-|[<-|[<-|[<-|[]]]]]; reflexivity.
Qed.

(** Strings read one after the other. *)
Lemma split_nul_z body rest : ~ In x00 body -> forall c, split_nul c (zstring false body ++ rest) = (c ++ body) :: split_nul [] rest.
Proof.
  unfold zstring. induction body as [|x body IH]; intros Hn c.
  - cbn. now rewrite app_nil_r.
  - cbn [app split_nul]. destruct (Byte.eqb x x00) eqn:E.
    + apply byte_eqb_eq in E. exfalso. apply Hn. now left.
    + rewrite IH by (intros H; apply Hn; now right). now rewrite <- app_assoc.
Qed.
Lemma chars_field cp body : usable cp -> ~ In x00 body ->
  chars_to_string cp body = (field_warning cp body, Ok (field_text cp body)).
Proof.
  intros Hcp Hn. rewrite <- read_string_field by assumption. rewrite read_string_eq.
  destruct (split_nul_first body []) as [r E]. rewrite E. cbn [app]. now rewrite before_nul_all.
Qed.
Lemma next_z cp body rest : usable cp -> ~ In x00 body ->
  next_string (read_strings cp (zstring false body ++ rest))
  = (field_warning cp body, Ok (field_text cp body, read_strings cp rest)).
Proof.
  intros Hcp Hn. unfold read_strings. rewrite split_nul_z by assumption. cbn [map next_string app].
  rewrite chars_field, bind_Ok by assumption. cbn [fst snd ret]. now rewrite app_nil_r.
Qed.
Lemma next_opt cp o rest : usable cp -> opt_zbody false o ->
  (if is_some o then r <- next_string (read_strings cp (opt_z false o ++ rest)) ;; ret (Some (fst r), snd r)
   else ret (None, read_strings cp (opt_z false o ++ rest)))
  = (opt_warning false cp o, Ok (option_map (field_text cp) o, read_strings cp rest)).
Proof.
  intros Hcp Ho. destruct o as [body|]; cbn [is_some opt_z opt_warning option_map].
  - rewrite next_z, bind_Ok by assumption. cbn [fst snd ret]. now rewrite app_nil_r.
  - reflexivity.
Qed.

Lemma network_spec ty unk content location de co rest cp ahead : usable cp ->
  let it := INetwork ty unk content location de co rest in
  wf_item it -> item_fits (item_body it) ->
  item_step cp (item_body it) ahead = (item_warnings cp it, Ok [PDict (item_report cp it)]).
Proof.
  intros Hcp. cbn [wf_item item_body item_warnings item_report]. intros (Hty & Hk & Hc & Hl & Hd & Hm & H7 & H6) Hfit.
  assert (HW : forall a b c d : list warning, a ++ b ++ c ++ d = [] ++ (a ++ b ++ c) ++ d) by (intros; now rewrite <- !app_assoc).
  rewrite HW. eapply item_step_network.
  - assumption.
  - rewrite item_type_enc8 by lia. apply class_network; lia.
  - unfold nl_init_strings, nl_has_description, nl_has_comments, nl_content_flags.
    item_start. drops. rewrite unpack_enc8, !bind_ret_l by assumption.
    rewrite (testbit_mask _ 7), (testbit_mask _ 6) by reflexivity. rewrite H7, H6.
    rewrite next_z by assumption. eapply bind_pair. cbv beta iota.
    rewrite !bind_ret_l. rewrite next_opt by assumption. eapply bind_pair. cbv beta iota. rewrite ?bind_ret_l.
    rewrite next_opt by assumption. rewrite bind_Ok. cbn [fst snd ret]. rewrite app_nil_r. reflexivity.
  - unfold as_item. cbn [t_class t_raw_target t_location t_description t_comments]. unfold nl_as_item.
    cbn [t_class t_raw_target t_location t_description t_comments]. unfold nl_flags, nl_content_flags.
    item_start. rewrite !unpack_enc8, !bind_ret_l by assumption. rewrite fs_folder by assumption.
    rewrite bind_Ok. cbn [fst snd ret]. rewrite app_nil_r. reflexivity.
Qed.

Lemma lenN_zstring u body : lenN (zstring u body) = lenN body + (if u then 2 else 1).
Proof. unfold zstring. rewrite lenN_app. destruct u; reflexivity. Qed.

Lemma hexX_enc32 n : fits32 n -> hexX 8 n = flat_map hex_of_byte (rev (enc32 n)).
Proof.
  intros H. rewrite <- hexX_be_val by discriminate. rewrite <- le_be_val, le_val_enc32 by assumption. reflexivity.
Qed.

Lemma dropN_pieces i n (a b c : bytes) : dropN i a = b ++ c -> lenN b = n -> dropN (i + n) a = c.
Proof. intros H Hn. rewrite <- dropN_dropN, H. now apply dropN_app_exact. Qed.

Lemma cpl_page_spec unk sig path name co rest cp ahead : usable cp ->
  let it := ICplPage unk sig path name co rest in
  wf_item it -> item_fits (item_body it) ->
  item_step cp (item_body it) ahead = (item_warnings cp it, Ok [PDict (item_report cp it)]).
Proof.
  intros Hcp. cbn [wf_item item_body item_warnings item_report]. intros (Hs & Hne & Hp & Hn & Hc) Hfit.
  rewrite <- (app_nil_l (field_warning cp path ++ _)). apply item_step_plain with (c := ControlPanelCPL).
  - assumption.
  - rewrite item_type_enc8 by lia. reflexivity.
  - discriminate.
  - unfold as_item. cbn [t_class t_raw_target]. destruct Hfit as [_ HL].
    rewrite !lenN_app, !lenN_zstring, !lenN_enc8, !lenN_enc32, !lenN_enc16 in HL. change (lenN [unk]) with 1 in HL.
    assert (HD : forall s, co = Some s -> lenN (opt_z false co) = lenN s + 1) by (intros s ->; apply lenN_zstring).
    rewrite <- !app_assoc.
    set (rt := enc8 0 ++ _).
    assert (EU : cpl_is_unicode rt = false).
    { unfold cpl_is_unicode. destruct (lenN rt <? 22); [reflexivity|]. unfold rt. drops.
      unfold zstring. destruct path as [|x path]; [contradiction|]. cbn [app].
      apply byte_eqb_neq. intros ->. apply Hp. now left. }
    assert (ED : dropN 10 rt = zstring false path ++ zstring false name ++ opt_z false co ++ rest ++ takeN 2 ahead)
      by (unfold rt; drops; reflexivity).
    unfold cpl_as_item, cpl_signature, cpl_file_path, cpl_name_string, cpl_comments, cpl_name_offset, cpl_comments_offset,
      cpl_strings_start. rewrite EU.
    assert (E1 : slice 2 6 rt = enc32 sig) by (unfold rt; slices; reflexivity).
    assert (E2 : slice 6 8 rt = enc16 (cpl_name_at false path)) by (unfold rt; slices; reflexivity).
    assert (E3 : slice 8 10 rt = enc16 (cpl_comments_at false path name co)) by (unfold rt; slices; reflexivity).
    rewrite E1, E2, E3, ED. rewrite unpack_enc32, bind_ret_l by assumption.
    pose proof (read_zstring false cp path) as RP. cbv iota in RP. rewrite RP by assumption. eapply bind_pair.
    rewrite unpack_enc16 by (unfold cpl_name_at, fits16; lia). rewrite bind_ret_l.
    assert (EN : dropN (10 + cpl_name_at false path) rt = zstring false name ++ opt_z false co ++ rest ++ takeN 2 ahead).
    { eapply dropN_pieces; [exact ED|]. rewrite lenN_zstring. unfold cpl_name_at. rewrite N.div_1_r. reflexivity. }
    rewrite EN. pose proof (read_zstring false cp name) as RN. cbv iota in RN. rewrite RN by assumption. eapply bind_pair.
    rewrite unpack_enc16.
    2:{ unfold cpl_comments_at, fits16. destruct co as [s|]; [specialize (HD s eq_refl)|]; lia. }
    rewrite bind_ret_l. destruct co as [s|].
    + replace (cpl_comments_at false path name (Some s) =? 0) with false by (unfold cpl_comments_at; lia).
      assert (EC : dropN (10 + cpl_comments_at false path name (Some s)) rt = zstring false s ++ rest ++ takeN 2 ahead).
      { unfold cpl_comments_at. rewrite !N.div_1_r, N.add_assoc. eapply dropN_pieces.
        - assert (EA : cpl_name_at false path = lenN path + 1) by (unfold cpl_name_at; now rewrite N.div_1_r).
          rewrite EA in EN. exact EN.
        - apply lenN_zstring. }
      rewrite EC. pose proof (read_zstring false cp s) as RC. cbv iota in RC. rewrite RC by assumption.
      rewrite bind_Ok. cbn [fst snd ret]. rewrite app_nil_r, hexX_enc32 by assumption. reflexivity.
    + cbn [cpl_comments_at]. change (0 =? 0) with true. cbv iota. rewrite bind_ret_l. rewrite hexX_enc32 by assumption. reflexivity.
Qed.

Lemma half_even n : N.even n = true -> n / 2 * 2 = n.
Proof. intros H. apply N.even_spec in H as [k ->]. lia. Qed.

Lemma cpl_unicode_spec unk sig gap1 gap2 path name co rest cp ahead : usable cp ->
  let it := ICplUnicode unk sig gap1 gap2 path name co rest in
  wf_item it -> item_fits (item_body it) ->
  item_step cp (item_body it) ahead = (item_warnings cp it, Ok [PDict (item_report cp it)]).
Proof.
  intros Hcp. cbn [wf_item item_body item_warnings item_report]. intros (Hs & Hg1 & Hg2 & Hp & Hn & Hc) Hfit.
  rewrite <- (app_nil_l (wide_warning path ++ _)). apply item_step_plain with (c := ControlPanelCPL).
  - assumption.
  - rewrite item_type_enc8 by lia. reflexivity.
  - discriminate.
  - unfold as_item. cbn [t_class t_raw_target]. destruct Hfit as [_ HL].
    rewrite !lenN_app, !lenN_zstring, !lenN_enc8, !lenN_enc32, !lenN_enc16 in HL. change (lenN [unk]) with 1 in HL.
    assert (HD : forall s, co = Some s -> lenN (opt_z true co) = lenN s + 2) by (intros s ->; apply lenN_zstring).
    pose proof (half_even _ (proj1 Hp)) as EP. pose proof (half_even _ (proj1 Hn)) as ENm.
    rewrite <- !app_assoc.
    set (rt := enc8 0 ++ _).
    assert (EU : cpl_is_unicode rt = true).
    { unfold cpl_is_unicode. replace (lenN rt <? 22) with false.
      - unfold rt. drops. reflexivity.
      - unfold rt. rewrite !lenN_app, !lenN_enc8, !lenN_enc32, !lenN_enc16, Hg1, Hg2. change (lenN [unk]) with 1. change (lenN [x00]) with 1. lia. }
    assert (ED : dropN 22 rt = zstring true path ++ zstring true name ++ opt_z true co ++ rest ++ takeN 2 ahead)
      by (unfold rt; drops; reflexivity).
    unfold cpl_as_item, cpl_signature, cpl_file_path, cpl_name_string, cpl_comments, cpl_name_offset, cpl_comments_offset,
      cpl_strings_start. rewrite EU.
    assert (E1 : slice 2 6 rt = enc32 sig) by (unfold rt; slices; reflexivity).
    assert (E2 : slice 18 20 rt = enc16 (cpl_name_at true path)) by (unfold rt; slices; reflexivity).
    assert (E3 : slice 20 22 rt = enc16 (cpl_comments_at true path name co)) by (unfold rt; slices; reflexivity).
    rewrite E1, E2, E3, ED. rewrite unpack_enc32, bind_ret_l by assumption.
    pose proof (read_zstring true cp path) as RP. cbv iota in RP. rewrite RP by assumption. eapply bind_pair.
    rewrite unpack_enc16 by (unfold cpl_name_at, fits16; lia). rewrite bind_ret_l.
    assert (EA : cpl_name_at true path * 2 = lenN path + 2) by (unfold cpl_name_at; lia).
    assert (EN : dropN (22 + cpl_name_at true path * 2) rt = zstring true name ++ opt_z true co ++ rest ++ takeN 2 ahead).
    { rewrite EA. eapply dropN_pieces; [exact ED|]. apply lenN_zstring. }
    rewrite EN. pose proof (read_zstring true cp name) as RN. cbv iota in RN. rewrite RN by assumption. eapply bind_pair.
    rewrite unpack_enc16.
    2:{ unfold cpl_comments_at, fits16. destruct co as [s|]; [specialize (HD s eq_refl)|]; lia. }
    rewrite bind_ret_l. destruct co as [s|].
    + replace (cpl_comments_at true path name (Some s) =? 0) with false by (unfold cpl_comments_at; lia).
      assert (EC : dropN (22 + cpl_comments_at true path name (Some s) * 2) rt = zstring true s ++ rest ++ takeN 2 ahead).
      { replace (22 + cpl_comments_at true path name (Some s) * 2) with (22 + (lenN path + 2) + (lenN name + 2))
          by (unfold cpl_comments_at; lia).
        rewrite EA in EN. eapply dropN_pieces; [exact EN|]. apply lenN_zstring. }
      rewrite EC. pose proof (read_zstring true cp s) as RC. cbv iota in RC. rewrite RC by assumption.
      rewrite bind_Ok. cbn [fst snd ret]. rewrite app_nil_r, hexX_enc32 by assumption. reflexivity.
    + cbn [cpl_comments_at]. change (0 =? 0) with true. cbv iota. rewrite bind_ret_l. rewrite hexX_enc32 by assumption. reflexivity.
Qed.

Lemma ascii_replace_map b : ascii_replace b = map (fun x => if b2n x <? 128 then b2n x else 0xFFFD) b.
Proof. unfold ascii_replace, replaced. rewrite map_map. apply map_ext. intros x. unfold ascii_char. now destruct (_ <? _). Qed.

Lemma users_spec unk sig e gap class_id folder_id rest cp ahead : usable cp ->
  let it := IUsersFiles unk sig e gap class_id folder_id rest in
  wf_item it -> item_fits (item_body it) ->
  item_step cp (item_body it) ahead = (item_warnings cp it, Ok [PDict (item_report cp it)]).
Proof.
  intros Hcp. cbn [wf_item item_body item_warnings item_report]. intros (He & Hs & Hc & Hf) Hfit.
  rewrite <- (app_nil_l (entry_warnings _ _)). apply item_step_plain with (c := UsersFilesFolder).
  - assumption.
  - rewrite item_type_enc8 by lia. reflexivity.
  - discriminate.
  - unfold as_item. cbn [t_class t_raw_target]. destruct Hfit as [_ HL].
    rewrite !lenN_app, !lenN_encode_item, !lenN_enc8, !lenN_enc16 in HL. change (lenN [unk]) with 1 in HL.
    assert (Hfe : item_fits (entry_body e)) by (split; [discriminate|lia]).
    set (inner := sig ++ encode_item (entry_body e) ++ gap).
    assert (HI : lenN inner < 65536) by (unfold inner; rewrite !lenN_app, lenN_encode_item; lia).
    assert (EB : (enc8 116 ++ [unk] ++ enc16 (lenN inner) ++ sig ++ encode_item (entry_body e) ++ gap ++ class_id ++ folder_id ++ rest) ++ takeN 2 ahead
                 = (enc8 116 ++ [unk] ++ enc16 (lenN inner) ++ inner) ++ class_id ++ folder_id ++ rest ++ takeN 2 ahead)
      by (unfold inner; rewrite <- !app_assoc; reflexivity).
    unfold uf_as_item, uf_delegate_offset, uf_inner_data_size. rewrite EB.
    assert (HA : lenN (enc8 116 ++ [unk] ++ enc16 (lenN inner) ++ inner) = 4 + lenN inner)
      by (rewrite !lenN_app, lenN_enc8, lenN_enc16; change (lenN [unk]) with 1; lia).
    set (rt := (enc8 116 ++ _) ++ _).
    assert (E1 : slice 2 4 rt = enc16 (lenN inner)) by (unfold rt; rewrite <- !app_assoc; slices; reflexivity).
    assert (E2 : slice 4 8 rt = sig) by (unfold rt, inner; rewrite <- !app_assoc; slices; reflexivity).
    assert (E3 : dropN 8 rt = encode_item (entry_body e) ++ gap ++ class_id ++ folder_id ++ rest ++ takeN 2 ahead)
      by (unfold rt, inner; rewrite <- !app_assoc; drops; reflexivity).
    assert (E4 : slice (4 + lenN inner) (4 + lenN inner + 16) rt = class_id).
    { unfold rt. rewrite (slice_skip_n _ _ _ _ _ HA) by lia.
      replace (4 + lenN inner - (4 + lenN inner)) with 0 by lia.
      replace (4 + lenN inner + 16 - (4 + lenN inner)) with 16 by lia. now apply slice_here_n. }
    assert (E5 : slice (4 + lenN inner + 16) (4 + lenN inner + 16 + 16) rt = folder_id).
    { unfold rt. rewrite (slice_skip_n _ _ _ _ _ HA) by lia.
      replace (4 + lenN inner + 16 - (4 + lenN inner)) with 16 by lia.
      replace (4 + lenN inner + 16 + 16 - (4 + lenN inner)) with 32 by lia. slices. reflexivity. }
    rewrite E1, E2, E3. rewrite item_raw_target, bind_ret_l by assumption.
    rewrite entry_spec by assumption. rewrite bind_Ok. cbv beta.
    rewrite unpack_enc16 by assumption. rewrite !bind_ret_l. rewrite E4, parse_uuid_guid, bind_ret_l by assumption.
    rewrite !bind_ret_l, E5, parse_uuid_guid, bind_ret_l by assumption. cbn [fst snd ret]. rewrite app_nil_r, ascii_replace_map. reflexivity.
Qed.

Lemma item_spec cp it ahead : usable cp -> wf_item it -> item_fits (item_body it) ->
  item_step cp (item_body it) ahead = (item_warnings cp it, Ok [PDict (item_report cp it)]).
Proof.
  intros Hcp. destruct it.
  - apply root_spec.
  - now apply volume_spec.
  - apply volume_id_spec.
  - now apply file_spec.
  - now apply network_spec.
  - apply cpanel_spec.
  - apply category_item_spec.
  - now apply cpl_page_spec.
  - now apply cpl_unicode_spec.
  - now apply users_spec.
  - apply other_spec.
Qed.

Lemma items_spec cp its junk : usable cp -> Forall wf_item its -> Forall (fun it => item_fits (item_body it)) its ->
  items_of cp (encode_items (map item_body its) ++ junk)
  = (flat_map (item_warnings cp) its, Ok (map (fun it => PDict (item_report cp it)) its)).
Proof.
  intros Hcp. induction its as [|it its IH]; intros HW HF.
  - unfold encode_items. cbn [map flat_map app]. apply items_of_terminal.
  - inversion_clear HW. inversion_clear HF. unfold encode_items in *. cbn [map flat_map].
    rewrite <- !app_assoc, items_of_step by assumption. rewrite item_spec by assumption.
    apply bind_pair. rewrite app_assoc, IH, bind_Ok by assumption. cbn [fst snd ret map app]. now rewrite app_nil_r.
Qed.

(** ** Network locations with missing strings (C33) *)

Lemma split_nul_count b : forall c, lenN (split_nul c b) = 1 + nuls b.
Proof.
  induction b as [|x b IH]; intros c; [reflexivity|]. cbn [split_nul]. unfold nuls in *. cbn [filter].
  assert (E : Byte.eqb x00 x = Byte.eqb x x00).
  { destruct (Byte.eqb x x00) eqn:H1, (Byte.eqb x00 x) eqn:H2; auto.
    - apply byte_eqb_eq in H1. apply byte_eqb_neq in H2. congruence.
    - apply byte_eqb_eq in H2. apply byte_eqb_neq in H1. congruence. }
  rewrite E. destruct (Byte.eqb x x00).
  - rewrite !lenN_cons. now rewrite IH.
  - apply IH.
Qed.
Lemma chars_total cp b : usable cp -> exists w t, chars_to_string cp b = (w, Ok t).
Proof.
  intros Hcp. unfold chars_to_string. destruct b as [|x b]; [now exists [], []|].
  destruct cp as [|c|]; [| |now destruct Hcp]; cbn [tp_codec];
  destruct (strict _ _); try (now eexists _, _); destruct (utf8_strict _); now eexists _, _.
Qed.
Lemma next_strings cp l : usable cp ->
  (l = [] -> next_string (map (chars_to_string cp) l) = raise StopIteration)
  /\ (forall c r, l = c :: r -> exists w t, next_string (map (chars_to_string cp) l) = (w, Ok (t, map (chars_to_string cp) r))).
Proof.
  intros Hcp. split; [now intros ->|]. intros c r ->. cbn [map next_string].
  destruct (chars_total cp c Hcp) as (w & t & ->). rewrite bind_Ok. now eexists _, _.
Qed.

Lemma network_strings cp rt : usable cp -> 3 <= lenN rt ->
  let content := b2n (nth 2 rt x00) in
  if nuls (dropN 3 rt) <? extra_strings content
  then snd (nl_init_strings cp rt) = Err StopIteration
  else exists s, snd (nl_init_strings cp rt) = Ok s.
Proof.
  intros Hcp HL. destruct rt as [|b0 [|b1 [|b2 rt]]]; [cbn in HL; lia ..|].
  cbn [nth]. set (content := b2n b2).
  assert (EF : unpack_u8 (slice 2 3 (b0 :: b1 :: b2 :: rt)) = ret content).
  { change (b0 :: b1 :: b2 :: rt) with ([b0; b1] ++ [b2] ++ rt). slices. unfold unpack_u8.
    rewrite unpack_le_ok by reflexivity. cbn [le_val]. now rewrite N.mul_0_r, N.add_0_r. }
  assert (ED : dropN 3 (b0 :: b1 :: b2 :: rt) = rt).
  { change (b0 :: b1 :: b2 :: rt) with ([b0; b1; b2] ++ rt). drops. reflexivity. }
  unfold nl_init_strings, nl_has_description, nl_has_comments, nl_content_flags. rewrite EF, ED, !bind_ret_l.
  rewrite (testbit_mask _ 7), (testbit_mask _ 6) by reflexivity.
  unfold read_strings. pose proof (split_nul_count rt []) as HC.
  destruct (split_nul [] rt) as [|s1 l1] eqn:E1; [cbn in HC; lia|].
  destruct (proj2 (next_strings cp _ Hcp) s1 l1 eq_refl) as (w1 & t1 & ->). rewrite bind_Ok. cbv beta iota. cbn [snd].
  rewrite !bind_ret_l. rewrite lenN_cons in HC. unfold extra_strings.
  destruct (N.testbit content 7), (N.testbit content 6).
  - destruct l1 as [|s2 l2].
    + cbn in HC. replace (nuls rt <? 1 + 1) with true by lia.
      destruct (next_strings cp [] Hcp) as [-> _]; reflexivity.
    + destruct (proj2 (next_strings cp _ Hcp) s2 l2 eq_refl) as (w2 & t2 & ->). rewrite !bind_Ok. cbv beta iota. cbn [fst snd ret].
      rewrite ?bind_ret_l, ?bind_Ok. cbn [fst snd]. rewrite lenN_cons in HC. destruct l2 as [|s3 l3].
      * cbn in HC. replace (nuls rt <? 1 + 1) with true by lia. destruct (next_strings cp [] Hcp) as [-> _]; reflexivity.
      * rewrite lenN_cons in HC. replace (nuls rt <? 1 + 1) with false by lia.
        destruct (proj2 (next_strings cp _ Hcp) s3 l3 eq_refl) as (w3 & t3 & ->). eexists. reflexivity.
  - destruct l1 as [|s2 l2].
    + cbn in HC. replace (nuls rt <? 1 + 0) with true by lia. destruct (next_strings cp [] Hcp) as [-> _]; reflexivity.
    + rewrite lenN_cons in HC. replace (nuls rt <? 1 + 0) with false by lia.
      destruct (proj2 (next_strings cp _ Hcp) s2 l2 eq_refl) as (w2 & t2 & ->). eexists. reflexivity.
  - rewrite ?bind_ret_l. destruct l1 as [|s2 l2].
    + cbn in HC. replace (nuls rt <? 0 + 1) with true by lia. destruct (next_strings cp [] Hcp) as [-> _]; reflexivity.
    + rewrite lenN_cons in HC. replace (nuls rt <? 0 + 1) with false by lia.
      destruct (proj2 (next_strings cp _ Hcp) s2 l2 eq_refl) as (w2 & t2 & ->). eexists. reflexivity.
  - replace (nuls rt <? 0 + 0) with false by lia. eexists. reflexivity.
Qed.

Lemma u8_at i rt : i < lenN rt -> unpack_u8 (slice i (i + 1) rt) = ret (b2n (nth (N.to_nat i) rt x00)).
Proof.
  intros H. unfold unpack_u8.
  assert (E : slice i (i + 1) rt = [nth (N.to_nat i) rt x00]).
  { unfold slice. rewrite dropN_skipn, takeN_firstn. replace (N.to_nat (i + 1 - i)) with 1%nat by lia.
    unfold lenN in H. assert (HN : (N.to_nat i < length rt)%nat) by lia. revert HN. generalize (N.to_nat i). clear H i.
    induction rt as [|x rt IH]; intros [|n] Hn; cbn [length] in Hn; try lia; [reflexivity|]. cbn [skipn nth]. apply IH. lia. }
  rewrite E, unpack_le_ok by reflexivity. cbn [le_val]. now rewrite N.mul_0_r, N.add_0_r.
Qed.

Lemma network_as_item cp t : t_class t = NetworkLocation -> 3 <= lenN (t_raw_target t) -> exists d, snd (as_item cp t) = Ok d.
Proof.
  intros HC HL. unfold as_item. rewrite HC. unfold nl_as_item, nl_flags, nl_content_flags.
  pose proof (u8_at 0 (t_raw_target t) ltac:(lia)) as E0. pose proof (u8_at 2 (t_raw_target t) ltac:(lia)) as E2.
  change (0 + 1) with 1 in E0. change (2 + 1) with 3 in E2. rewrite E0, E2, !bind_ret_l.
  unfold get_item_shell_fs_folder. destruct (find _ _) as [[k n]|]; eexists; reflexivity.
Qed.

Lemma network_outcome cp body next : usable cp -> item_fits body -> item_type body / 16 mod 8 = 4 ->
  3 <= lenN (body ++ takeN 2 next) ->
  let rt := body ++ takeN 2 next in
  if nuls (dropN 3 rt) <? extra_strings (b2n (nth 2 rt x00))
  then snd (items_of cp (encode_item body ++ next)) = Err RuntimeError
  else exists d, dget "class" d = Some (PS "Network location")
       /\ snd (items_of cp (encode_item body ++ next))
          = match snd (items_of cp next) with Ok l => Ok (PDict d :: l) | Err e => Err e end.
Proof.
  intros Hcp Hfit Hty HL rt. pose proof (network_strings cp rt Hcp HL) as HN. cbv zeta in HN.
  rewrite items_of_step by assumption.
  assert (ES : item_step cp body (takeN 2 next)
    = (t <- in_generator (s <- nl_init_strings cp rt ;;
                          (let '(l, de, co) := s in ret (Target NetworkLocation (encode_item body ++ takeN 2 next) rt l de co))) ;;
       d <- as_item cp t ;; ret [PDict d])).
  { rewrite item_step_eq, class_network by (try apply item_type_lt; lia). rewrite bind_ret_l.
    unfold target_init. rewrite item_raw_target, bind_ret_l by assumption. rewrite takeN_takeN. reflexivity. }
  destruct (nuls (dropN 3 rt) <? _).
  - rewrite ES. destruct (nl_init_strings cp rt) as [w [s|e]]; cbn [snd] in HN; [discriminate|]. injection HN as ->. reflexivity.
  - destruct HN as [[[l de] co] HN].
    destruct (item_step cp body (takeN 2 next)) as [w [x|e]] eqn:EX.
    + assert (HX : snd (item_step cp body (takeN 2 next)) = Ok x) by now rewrite EX.
      apply item_step_entry in HX as (d & -> & Hd). exists d. split.
      * rewrite Hd. unfold class_of_type, documented_class. now rewrite Hty.
      * rewrite bind_Ok. cbn [snd]. rewrite snd_bind. destruct (snd (items_of cp next)); reflexivity.
    + exfalso. assert (HX := f_equal snd ES). cbn [snd] in HX. symmetry in HX. clear ES.
      destruct (nl_init_strings cp rt) as [w' [s|e']]; cbn [snd] in HN; [|discriminate].
      injection HN as ->. rewrite bind_Ok in HX. cbn [in_generator fst snd ret] in HX.
      rewrite bind_Ok in HX. cbn [snd] in HX.
      match type of HX with context [as_item cp ?t] => destruct (network_as_item cp t eq_refl HL) as [d Hd] end.
      rewrite snd_bind, Hd in HX. discriminate.
Qed.

(** ** In a file *)

Lemma target_in_file b cp allow l d idl :
  usable cp -> snd (lnk_init (FromBytes b) cp allow) = Ok l -> snd (get_json l true) = Ok d ->
  has_id_list b = true -> lenN idl < 65536 -> holds b (header_len b) (enc16 (lenN idl) ++ idl) ->
  exists t items,
    reported_target d = Some t /\ reported_items d = Some items /\ snd (items_of cp idl) = Ok items
    /\ dget "size" t = Some (PN (lenN idl)) /\ dget "index" t = Some (PN (header_len b + 2)).
Proof.
  intros Hcp Hl Hd Hid Hlen HH. apply init_constructed in Hl as [_ HC]; [|assumption].
  destruct HC as (Hc & _ & Hi & Ht & _). rewrite Hid in Ht.
  apply report_sections in Hd as (h & i & e & _ & _ & HT & _). rewrite Ht in HT.
  destruct HT as (td & HTD & HG). unfold reported_items, reported_target. rewrite HG.
  apply holds_drop in HH as [after HH].
  assert (EN : num 2 (header_len b) b = lenN idl).
  { unfold num. rewrite HH. rewrite <- app_assoc, takeN_app_exact by reflexivity. now apply le_val_enc16. }
  assert (ER : slice 2 (num 2 (header_len b) b + 2) (dropN (header_len b) b) = idl).
  { rewrite EN, HH, <- app_assoc. rewrite (slice_skip_n 2 _ 2) by (reflexivity || lia). change (2 - 2) with 0.
    replace (lenN idl + 2 - 2) with (lenN idl) by lia. now apply slice_here. }
  rewrite ER in HTD. unfold target_dict in HTD. cbn [tg_raw tg_raw_targets] in HTD.
  destruct (fields_dget _ _ "items" _ HTD eq_refl) as (vi & Hvi & Gi).
  destruct (fields_dget _ _ "size" _ HTD eq_refl) as (vs & Hvs & Gs).
  destruct (fields_dget _ _ "index" _ HTD eq_refl) as (vx & Hvx & Gx).
  unfold targets_as_list in Hvi. cbn [tg_raw_targets] in Hvi. rewrite Hc in Hvi.
  apply snd_bind_Ok in Hvi as (items & Hit & E). injection E as <-.
  exists td, items. split; [reflexivity|]. rewrite Gi. split; [reflexivity|]. split; [assumption|].
  rewrite Gs, Gx. injection Hvx as <-. rewrite Hi. split; [|reflexivity].
  unfold id_list_size in Hvs. rewrite HH, <- app_assoc, slice_here_n, unpack_enc16, bind_ret_l in Hvs by (assumption || reflexivity).
  now injection Hvs as <-.
Qed.

(** ** Only the type byte gives the warning about unknown types (C30) *)
Definition not_type (w : warning) : Prop := match w with WItemType _ => False | _ => True end.
Definition quiet {A} (m : M A) : Prop := Forall not_type (fst m).
Lemma quiet_ret {A} (a : A) : quiet (ret a). Proof. constructor. Qed.
Lemma quiet_raise {A} e : quiet (@raise A e). Proof. constructor. Qed.
Lemma quiet_warn w : not_type w -> quiet (warn w). Proof. intros H. constructor; [exact H|constructor]. Qed.
Lemma quiet_bind {A B} (m : M A) (f : A -> M B) : quiet m -> (forall a, quiet (f a)) -> quiet (bind m f).
Proof.
  unfold quiet, bind. destruct m as [w [a|e]]; cbn [fst]; intros Hm Hf; [|exact Hm].
  specialize (Hf a). destruct (f a) as [w' r]. cbn [fst] in *. apply Forall_app. now split.
Qed.
Create HintDb quiet.
Ltac fhead t := lazymatch t with ?f _ => fhead f | _ => t end.
Ltac qstep :=
  lazymatch goal with
  | |- not_type _ => exact I
  | |- quiet (ret _) => apply quiet_ret
  | |- quiet (raise _) => apply quiet_raise
  | |- quiet (warn _) => apply quiet_warn
  | |- quiet (bind _ _) => apply quiet_bind; [|intros ?]
  | |- quiet (if ?b then _ else _) => destruct b
  | |- quiet ([], _) => constructor
  | |- quiet (match ?x with _ => _ end) => destruct x
  | |- quiet ?m => let h := fhead m in unfold h
  end.
Ltac qsolve := repeat first [ solve [auto 3 with quiet nocore] | qstep ].
Lemma q_unpack n b : quiet (unpack_le n b). Proof. qsolve. Qed.
#[export] Hint Resolve q_unpack : quiet.
Lemma q_parse_uuid b : quiet (parse_uuid b). Proof. qsolve. Qed.
Lemma q_parse_dostime b : quiet (parse_dostime b). Proof. qsolve. Qed.
Lemma q_chars cp b : quiet (chars_to_string cp b). Proof. qsolve. Qed.
Lemma q_uchars b : quiet (uchars_to_string b). Proof. qsolve. Qed.
#[export] Hint Resolve q_parse_uuid q_parse_dostime q_chars q_uchars : quiet.
Lemma q_read_string cp b : quiet (read_string cp b). Proof. rewrite read_string_eq. qsolve. Qed.
Lemma q_read_unicode b : quiet (read_unicode_string b). Proof. rewrite read_unicode_string_eq. qsolve. Qed.
#[export] Hint Resolve q_read_string q_read_unicode : quiet.
Lemma q_as_item cp t : quiet (as_item cp t). Proof. qsolve. Qed.
Lemma q_next_map cp l : quiet (next_string (map (chars_to_string cp) l)).
Proof. destruct l; cbn [map next_string]; qsolve. Qed.
Lemma q_nl cp rt : quiet (nl_init_strings cp rt).
Proof.
  unfold nl_init_strings, read_strings. generalize (split_nul [] (dropN 3 rt)). intros l.
  assert (HB : forall {B} l (f : text * list (M text) -> M B),
            (forall t l', quiet (f (t, map (chars_to_string cp) l'))) -> quiet (bind (next_string (map (chars_to_string cp) l)) f)).
  { intros B l0 f Hf. destruct l0 as [|c l0]; cbn [map next_string]; [apply quiet_raise|].
    rewrite bind_assoc. apply quiet_bind; [apply q_chars|]. intros t. rewrite bind_ret_l. apply Hf. }
  apply HB. intros t1 l1. apply quiet_bind; [qsolve|]. intros hd.
  assert (HI : forall {B} (c : bool) l (f : option text * list (M text) -> M B),
            (forall t l', quiet (f (t, map (chars_to_string cp) l'))) ->
            quiet (bind (if c then r <- next_string (map (chars_to_string cp) l) ;; ret (Some (fst r), snd r)
                         else ret (None, map (chars_to_string cp) l)) f)).
  { intros B c l0 f Hf. destruct c.
    - rewrite bind_assoc. apply HB. intros t l'. rewrite bind_ret_l. apply Hf.
    - rewrite bind_ret_l. apply Hf. }
  apply HI. intros t2 l2. apply quiet_bind; [qsolve|]. intros hc. apply HI. intros t3 l3. apply quiet_ret.
Qed.
#[export] Hint Resolve q_as_item q_nl : quiet.

Lemma item_step_warnings cp body ahead :
  exists w, Forall not_type w
    /\ fst (item_step cp body ahead) = unless_known (documented_class (item_type body)) (WItemType (item_type body)) ++ w.
Proof.
  rewrite item_step_eq. destruct (class_step_spec (item_type body) (item_type_lt body)) as [EC _]. rewrite EC, bind_Ok.
  assert (HQ : quiet (target_init (tclass (item_type body)) cp (encode_item body ++ ahead))) by qsolve.
  destruct (target_init _ _ _) as [w [t|e]]; cbn [fst snd in_generator] in *.
  - rewrite bind_Ok. cbn [fst]. rewrite <- app_assoc. eexists. split; [|reflexivity].
    apply Forall_app. split; [exact HQ|]. assert (Q : quiet (d <- as_item cp t ;; ret [PDict d])) by qsolve. exact Q.
  - exists w. split; [exact HQ|]. destruct e; reflexivity.
Qed.

Lemma item_type_warning cp body : item_fits body -> forall n,
  In (WItemType n) (fst (items_of cp (encode_item body ++ enc16 0)))
  <-> n = item_type body /\ documented_class (item_type body) = None.
Proof.
  intros Hfit n. rewrite items_of_step by assumption. destruct (item_step_warnings cp body (takeN 2 (enc16 0))) as (w & Hw & E).
  assert (EF : fst (x <- item_step cp body (takeN 2 (enc16 0)) ;; l <- items_of cp (enc16 0) ;; ret (x ++ l))
               = fst (item_step cp body (takeN 2 (enc16 0)))).
  { destruct (item_step cp body (takeN 2 (enc16 0))) as [w' [x|e]]; [|reflexivity]. rewrite bind_Ok. cbn [fst].
    rewrite <- (app_nil_r (enc16 0)), items_of_terminal. cbn [bind ret fst]. now rewrite !app_nil_r. }
  rewrite EF, E. rewrite in_app_iff.
  assert (HN : ~ In (WItemType n) w) by (intros Hin; rewrite Forall_forall in Hw; exact (Hw _ Hin)).
  destruct (documented_class (item_type body)); cbn [unless_known In]; split.
  - intros [[]|H]; contradiction.
  - intros [_ H]. discriminate.
  - intros [[H|[]]|H]; [injection H as <-; auto|contradiction].
  - intros [-> _]. now left; left.
Qed.

(** ** Statements used in the properties *)
Lemma one_entry_each b cp allow l d bodies junk :
  usable cp -> snd (lnk_init (FromBytes b) cp allow) = Ok l -> snd (get_json l true) = Ok d ->
  has_id_list b = true -> Forall item_fits bodies ->
  lenN (encode_items bodies ++ junk) < 65536 ->
  holds b (header_len b) (enc16 (lenN (encode_items bodies ++ junk)) ++ encode_items bodies ++ junk) ->
  exists items, reported_items d = Some items
    /\ map entry_class items = map (fun body => Some (PS (class_of_type (item_type body)))) bodies.
Proof.
  intros Hcp Hl Hd Hid HF HL HH. destruct (target_in_file b cp allow l d _ Hcp Hl Hd Hid HL HH) as (t & items & _ & HR & HI & _).
  exists items. split; [assumption|]. unfold encode_items in HI. rewrite <- app_assoc in HI.
  apply items_split in HI as (l1 & l2 & -> & _ & HN & HF2); [|assumption]. rewrite items_of_terminal in HN. injection HN as <-.
  rewrite app_nil_r. clear - HF2. induction HF2 as [|body e bodies l1 (d & -> & Hd) _ IH]; [reflexivity|].
  cbn [map entry_class]. now rewrite IH, Hd.
Qed.
Lemma own_position cp pre next l : Forall item_fits pre ->
  snd (items_of cp (flat_map encode_item pre ++ next)) = Ok l ->
  exists l1 l2, l = l1 ++ l2 /\ length l1 = length pre /\ snd (items_of cp next) = Ok l2.
Proof. intros HF H. apply items_split in H as (l1 & l2 & ? & ? & ? & _); [|assumption]. now exists l1, l2. Qed.
Lemma after_terminal cp bodies junk : Forall item_fits bodies ->
  items_of cp (encode_items bodies ++ junk) = items_of cp (encode_items bodies).
Proof.
  unfold encode_items. induction 1 as [|body bodies Hb _ IH]; cbn [flat_map].
  - cbn [app]. rewrite items_of_terminal. now rewrite <- (app_nil_r (enc16 0)), items_of_terminal.
  - rewrite <- !app_assoc. rewrite !items_of_step by assumption. rewrite <- app_assoc in IH. rewrite IH.
    f_equal. f_equal. rewrite app_assoc. apply takeN_app_le. rewrite lenN_app, lenN_enc16. lia.
Qed.
Lemma items_in_file b cp allow l d its :
  usable cp -> snd (lnk_init (FromBytes b) cp allow) = Ok l -> snd (get_json l true) = Ok d ->
  has_id_list b = true -> Forall wf_item its -> Forall (fun it => item_fits (item_body it)) its ->
  lenN (encode_items (map item_body its)) < 65536 ->
  holds b (header_len b) (encode_id_list (map item_body its)) ->
  reported_target d = Some [("size", PN (lenN (encode_items (map item_body its))));
                            ("items", PList (map (fun it => PDict (item_report cp it)) its));
                            ("index", PN (header_len b + 2))]%string.
Proof.
  intros Hcp Hl Hd Hid HW HF HL HH.
  apply init_constructed in Hl as [_ HC]; [|assumption].
  destruct HC as (Hc & _ & Hi & Ht & _). rewrite Hid in Ht.
  apply report_sections in Hd as (h & i & e & _ & _ & HT & _). rewrite Ht in HT.
  destruct HT as (td & HTD & HG). unfold reported_target. rewrite HG. f_equal.
  set (idl := encode_items (map item_body its)) in *. unfold encode_id_list in HH. fold idl in HH.
  apply holds_drop in HH as [after HH].
  assert (EN : num 2 (header_len b) b = lenN idl).
  { unfold num. rewrite HH. rewrite <- app_assoc, takeN_app_exact by reflexivity. now apply le_val_enc16. }
  assert (ER : slice 2 (num 2 (header_len b) b + 2) (dropN (header_len b) b) = idl).
  { rewrite EN, HH, <- app_assoc. rewrite (slice_skip_n 2 _ 2) by (reflexivity || lia). change (2 - 2) with 0.
    replace (lenN idl + 2 - 2) with (lenN idl) by lia. now apply slice_here. }
  rewrite ER in HTD. unfold target_dict in HTD. cbn [tg_raw tg_raw_targets] in HTD.
  cbn [fields] in HTD. unfold id_list_size, targets_as_list in HTD. cbn [tg_raw_targets] in HTD.
  rewrite HH, <- app_assoc, slice_here_n, unpack_enc16 in HTD by (assumption || reflexivity).
  rewrite !bind_ret_l, Hc in HTD.
  pose proof (items_spec cp its [] Hcp HW HF) as HS. rewrite app_nil_r in HS. fold idl in HS. rewrite HS in HTD.
  rewrite Hi in HTD. rewrite bind_Ok in HTD. cbn [ret bind snd fst] in HTD. now injection HTD as <-.
Qed.
Lemma item_local cp : exists f, forall body next, item_fits body ->
  items_of cp (encode_item body ++ next) = (x <- f body (takeN 2 next) ;; l <- items_of cp next ;; ret (x ++ l)).
Proof. exists (item_step cp). intros. now apply items_of_step. Qed.

(** ** Names of flags that are never reported (C53) *)
Definition flag_never (v : option pyval) : Prop :=
  v <> Some (PS "Is Unicode share") /\ v <> Some (PS "Has CLSID").
Lemma flags_text_never ty : ty < 256 -> flag_never (Some (PS (flags_text ty))).
Proof.
  intros H. pattern ty. apply by_bytes; [|assumption]. intros b. unfold flag_never.
  destruct b; vm_compute; split; discriminate.
Qed.
Lemma u8_lt b n : snd (unpack_u8 b) = Ok n -> n < 256.
Proof.
  unfold unpack_u8, unpack_le. destruct (lenN b =? 1) eqn:E; [|discriminate]. apply N.eqb_eq in E.
  intros [= <-]. pose proof (le_val_lt b) as H. rewrite E in H. exact H.
Qed.
Lemma fs_folder_never m s : snd (flags <- unpack_u8 m ;; get_item_shell_fs_folder (N.land flags 0x0F)) = Ok s -> flag_never (Some (PS s)).
Proof.
  intros H. apply snd_bind_Ok in H as (n & Hn & H). apply u8_lt in Hn. rewrite fs_folder in H by assumption.
  injection H as <-. now apply flags_text_never.
Qed.
Lemma as_item_flags cp t d : snd (as_item cp t) = Ok d -> flag_never (dget "flags" d).
Proof.
  unfold as_item. destruct (t_class t);
  unfold cpl_as_item, cat_as_item, rf_as_item, mc_as_item, cpanel_as_item, uf_as_item, unknown_as_item;
  intros H;
  try (repeat match type of H with
  | snd (bind _ _) = Ok _ => apply snd_bind_Ok in H as (? & _ & H)
  | snd (if ?b then _ else _) = Ok _ => destruct b
  end; injection H as <-; split; discriminate).
  - unfold fs_as_item in H. apply snd_bind_Ok in H as (s & Hs & H). apply fs_folder_never in Hs.
    repeat match type of H with
    | snd (bind _ _) = Ok _ => apply snd_bind_Ok in H as (? & _ & H)
    end. injection H as <-. exact Hs.
  - unfold nl_as_item in H. apply snd_bind_Ok in H as (s & Hs & H). apply fs_folder_never in Hs.
    repeat match type of H with
    | snd (bind _ _) = Ok _ => apply snd_bind_Ok in H as (? & _ & H)
    end. injection H as <-. exact Hs.
Qed.
Lemma items_entries cp (P : dict -> Prop) : (forall t d, snd (as_item cp t) = Ok d -> P d) ->
  forall fuel idl l, snd (items_loop fuel cp idl) = Ok l -> Forall (fun e => exists d, e = PDict d /\ P d) l.
Proof.
  intros HP. induction fuel as [|fuel IH]; intros idl l H; [discriminate|]. cbn [items_loop] in H.
  apply snd_bind_Ok in H as ([[t rest]|] & _ & H); [|injection H as <-; constructor].
  apply snd_bind_Ok in H as (x & Hx & H). apply snd_bind_Ok in H as (l' & Hl & H). injection H as <-.
  rewrite try_as_item in Hx. apply snd_bind_Ok in Hx as (d & Hd & Hx). injection Hx as <-.
  constructor; [exists d; split; [reflexivity|now apply (HP t)]|now apply (IH rest)].
Qed.
Lemma items_flags cp idl l d : snd (items_of cp idl) = Ok l -> In (PDict d) l -> flag_never (dget "flags" d).
Proof.
  intros H Hin. apply (items_entries cp (fun d => flag_never (dget "flags" d)) (as_item_flags cp)) in H.
  rewrite Forall_forall in H. destruct (H _ Hin) as (d' & [= <-] & HP). exact HP.
Qed.
Lemma class_of_entry cp body next e l : item_fits body ->
  snd (items_of cp (encode_item body ++ next)) = Ok (e :: l) ->
  entry_class e = Some (PS (class_of_type (item_type body))).
Proof.
  intros Hfit H. rewrite <- (app_nil_r (encode_item body)) in H.
  change (encode_item body ++ []) with (flat_map encode_item [body]) in H.
  apply (items_split cp [body]) in H as (l1 & l2 & E & HL & _ & HF); [|constructor; [exact Hfit|constructor]].
  inversion HF as [|? ? ? ? (d & Hy & Hd) HF']; subst. injection E as -> _. exact Hd.
Qed.
