(** * Basic facts about the Python primitives of Py.v *)
From Coq Require Export Lia ZifyBool ZifyNat ZifyN.
From Verif Require Export Py.
Ltac Zify.zify_post_hook ::= Z.div_mod_to_equations.

(** ** Lengths, slices *)

Lemma lenN_nil {A} : lenN (@nil A) = 0.
Proof. reflexivity. Qed.
Lemma lenN_cons {A} (x : A) l : lenN (x :: l) = 1 + lenN l.
Proof. unfold lenN. cbn [length]. lia. Qed.
Lemma lenN_app {A} (a b : list A) : lenN (a ++ b) = lenN a + lenN b.
Proof. unfold lenN. rewrite app_length. lia. Qed.
Lemma lenN_map {A B} (f : A -> B) l : lenN (map f l) = lenN l.
Proof. unfold lenN. now rewrite map_length. Qed.
Lemma lenN_0 {A} (l : list A) : lenN l = 0 -> l = [].
Proof. destruct l; [reflexivity|]. rewrite lenN_cons. lia. Qed.

Lemma takeN_nil {A} n : takeN n (@nil A) = [].
Proof. reflexivity. Qed.
Lemma dropN_nil {A} n : dropN n (@nil A) = [].
Proof. reflexivity. Qed.
Lemma slice_nil {A} i j : slice i j (@nil A) = [].
Proof. reflexivity. Qed.

Lemma takeN_firstn {A} n (l : list A) : takeN n l = firstn (N.to_nat n) l.
Proof.
  revert n; induction l as [|x l IH]; intros n; cbn [takeN].
  - now rewrite firstn_nil.
  - destruct (n =? 0) eqn:E.
    + apply N.eqb_eq in E. subst. reflexivity.
    + apply N.eqb_neq in E. rewrite IH.
      replace (N.to_nat n) with (S (N.to_nat (N.pred n))) by lia. reflexivity.
Qed.
Lemma dropN_skipn {A} n (l : list A) : dropN n l = skipn (N.to_nat n) l.
Proof.
  revert n; induction l as [|x l IH]; intros n; cbn [dropN].
  - now rewrite skipn_nil.
  - destruct (n =? 0) eqn:E.
    + apply N.eqb_eq in E. subst. reflexivity.
    + apply N.eqb_neq in E. rewrite IH.
      replace (N.to_nat n) with (S (N.to_nat (N.pred n))) by lia. reflexivity.
Qed.

Lemma takeN_0 {A} (l : list A) : takeN 0 l = [].
Proof. now rewrite takeN_firstn. Qed.
Lemma dropN_0 {A} (l : list A) : dropN 0 l = l.
Proof. now rewrite dropN_skipn. Qed.
Lemma takeN_all {A} n (l : list A) : lenN l <= n -> takeN n l = l.
Proof. intros H. rewrite takeN_firstn. apply firstn_all2. unfold lenN in H. lia. Qed.
Lemma dropN_all {A} n (l : list A) : lenN l <= n -> dropN n l = [].
Proof. intros H. rewrite dropN_skipn. apply skipn_all2. unfold lenN in H. lia. Qed.
Lemma lenN_takeN {A} n (l : list A) : lenN (takeN n l) = N.min n (lenN l).
Proof. rewrite takeN_firstn. unfold lenN. rewrite firstn_length. lia. Qed.
Lemma lenN_dropN {A} n (l : list A) : lenN (dropN n l) = lenN l - n.
Proof. rewrite dropN_skipn. unfold lenN. rewrite skipn_length. lia. Qed.
Lemma lenN_slice {A} i j (l : list A) : lenN (slice i j l) = N.min (j - i) (lenN l - i).
Proof. unfold slice. rewrite lenN_takeN, lenN_dropN. lia. Qed.

Lemma dropN_dropN {A} n m (l : list A) : dropN n (dropN m l) = dropN (m + n) l.
Proof.
  revert m; induction l as [|x l IH]; intros m; cbn [dropN]; [reflexivity|].
  destruct (m =? 0) eqn:E.
  - apply N.eqb_eq in E. subst m. rewrite N.add_0_l. cbn [dropN]. reflexivity.
  - apply N.eqb_neq in E. rewrite IH.
    destruct (m + n =? 0) eqn:E2; [apply N.eqb_eq in E2; lia|].
    f_equal. lia.
Qed.

Lemma takeN_app_exact {A} n (a b : list A) : lenN a = n -> takeN n (a ++ b) = a.
Proof.
  intros H. rewrite takeN_firstn. unfold lenN in H. subst n. rewrite Nnat.Nat2N.id.
  rewrite firstn_app, firstn_all, Nat.sub_diag. cbn. apply app_nil_r.
Qed.
Lemma dropN_app_exact {A} n (a b : list A) : lenN a = n -> dropN n (a ++ b) = b.
Proof.
  intros H. rewrite dropN_skipn. unfold lenN in H. subst n. rewrite Nnat.Nat2N.id.
  rewrite skipn_app, skipn_all, Nat.sub_diag. reflexivity.
Qed.
Lemma dropN_app_ge {A} n (a b : list A) : lenN a <= n -> dropN n (a ++ b) = dropN (n - lenN a) b.
Proof.
  intros H. rewrite !dropN_skipn, skipn_app. unfold lenN in *.
  rewrite skipn_all2 by lia. cbn [app]. f_equal. lia.
Qed.
Lemma dropN_app_le {A} n (a b : list A) : n <= lenN a -> dropN n (a ++ b) = dropN n a ++ b.
Proof.
  intros H. rewrite !dropN_skipn, skipn_app. unfold lenN in *.
  replace (N.to_nat n - length a)%nat with 0%nat by lia. reflexivity.
Qed.
Lemma takeN_app_le {A} n (a b : list A) : n <= lenN a -> takeN n (a ++ b) = takeN n a.
Proof.
  intros H. rewrite !takeN_firstn, firstn_app. unfold lenN in *.
  replace (N.to_nat n - length a)%nat with 0%nat by lia. cbn. apply app_nil_r.
Qed.
Lemma takeN_app_ge {A} n (a b : list A) :
  lenN a <= n -> takeN n (a ++ b) = a ++ takeN (n - lenN a) b.
Proof.
  intros H. rewrite !takeN_firstn, firstn_app. unfold lenN in *.
  rewrite firstn_all2 by lia. f_equal. f_equal. lia.
Qed.
Lemma take_drop {A} n (l : list A) : takeN n l ++ dropN n l = l.
Proof. rewrite takeN_firstn, dropN_skipn. apply firstn_skipn. Qed.

Lemma slice_skip {A} i j (a b : list A) :
  lenN a <= i -> slice i j (a ++ b) = slice (i - lenN a) (j - lenN a) b.
Proof.
  intros H. unfold slice. rewrite dropN_app_ge by assumption.
  destruct (N.le_gt_cases j i) as [Hj|Hj].
  - replace (j - i) with 0 by lia. replace (j - lenN a - (i - lenN a)) with 0 by lia.
    now rewrite !takeN_0.
  - f_equal. lia.
Qed.
Lemma slice_here {A} j (a b : list A) : lenN a = j -> slice 0 j (a ++ b) = a.
Proof. intros H. unfold slice. rewrite dropN_0, N.sub_0_r. now apply takeN_app_exact. Qed.
Lemma slice_here_end {A} j (a : list A) : lenN a <= j -> slice 0 j a = a.
Proof. intros H. unfold slice. rewrite dropN_0, N.sub_0_r. now apply takeN_all. Qed.
Lemma slice_within {A} i j (a b : list A) : j <= lenN a -> slice i j (a ++ b) = slice i j a.
Proof.
  intros H. unfold slice. destruct (N.le_gt_cases j i) as [Hj|Hj].
  - replace (j - i) with 0 by lia. now rewrite !takeN_0.
  - rewrite dropN_app_le by lia. apply takeN_app_le. rewrite lenN_dropN. lia.
Qed.
Lemma slice_empty {A} i j (l : list A) : j <= i -> slice i j l = [].
Proof. intros H. unfold slice. replace (j - i) with 0 by lia. apply takeN_0. Qed.
Lemma slice_full {A} j (l : list A) : lenN l <= j -> slice 0 j l = l.
Proof. apply slice_here_end. Qed.
Lemma slice_past {A} i j (l : list A) : lenN l <= i -> slice i j l = [].
Proof. intros H. unfold slice. rewrite dropN_all by assumption. apply takeN_nil. Qed.
Lemma slice_0 {A} j (l : list A) : slice 0 j l = takeN j l.
Proof. unfold slice. now rewrite dropN_0, N.sub_0_r. Qed.
Lemma slice_dropN {A} i j n (l : list A) : slice i j (dropN n l) = slice (n + i) (n + j) l.
Proof. unfold slice. rewrite dropN_dropN. f_equal. lia. Qed.

Lemma takeN_takeN {A} n m (l : list A) : takeN n (takeN m l) = takeN (N.min n m) l.
Proof. rewrite !takeN_firstn, firstn_firstn. f_equal. lia. Qed.
Lemma dropN_takeN {A} n m (l : list A) : dropN n (takeN m l) = takeN (m - n) (dropN n l).
Proof.
  rewrite !takeN_firstn, !dropN_skipn. rewrite skipn_firstn_comm. f_equal. lia.
Qed.
Lemma slice_takeN {A} i j m (l : list A) : slice i j (takeN m l) = slice i (N.min j m) l.
Proof.
  unfold slice. rewrite dropN_takeN, takeN_takeN. f_equal. lia.
Qed.
Lemma slice_takeN_le {A} i j m (l : list A) : j <= m -> slice i j (takeN m l) = slice i j l.
Proof. intros H. rewrite slice_takeN. f_equal. lia. Qed.

(** ** Bytes *)

Lemma b2n_lt b : b2n b < 256.
Proof. unfold b2n. apply (Byte.to_N_bounded b) || (pose proof (Byte.to_N_bounded b); lia). Qed.
Lemma b2n_n2b n : b2n (n2b n) = n mod 256.
Proof.
  unfold b2n, n2b. destruct (Byte.of_N (n mod 256)) as [b|] eqn:E.
  - now apply Byte.to_of_N in E.
  - apply Byte.of_N_None_iff in E. exfalso. assert (n mod 256 < 256) by (apply N.mod_lt; lia). lia.
Qed.
Lemma n2b_b2n b : n2b (b2n b) = b.
Proof.
  unfold n2b, b2n. pose proof (Byte.to_N_bounded b).
  rewrite N.mod_small by lia. now rewrite Byte.of_to_N.
Qed.
Lemma b2n_inj a b : b2n a = b2n b -> a = b.
Proof. intros H. rewrite <- (n2b_b2n a), <- (n2b_b2n b). now rewrite H. Qed.
Lemma byte_eqb_eq a b : Byte.eqb a b = true <-> a = b.
Proof. split; intros H; [now apply Byte.byte_dec_bl|now apply Byte.byte_dec_lb]. Qed.
Lemma byte_eqb_neq a b : Byte.eqb a b = false <-> a <> b.
Proof.
  destruct (Byte.eqb a b) eqn:E; split; intros H; try reflexivity; try discriminate.
  - exfalso. apply H. now apply byte_eqb_eq.
  - intros ->. assert (Byte.eqb b b = true) by now apply byte_eqb_eq. congruence.
Qed.

(** Statements about one byte can be checked on all 256 of them. *)
Definition all_bytes : list byte := map n2b (map N.of_nat (seq 0 256)).
Lemma all_bytes_complete b : In b all_bytes.
Proof.
  unfold all_bytes. rewrite map_map. apply in_map_iff. exists (N.to_nat (b2n b)). split.
  - rewrite Nnat.N2Nat.id. apply n2b_b2n.
  - apply in_seq. pose proof (b2n_lt b). lia.
Qed.
Lemma forall_bytes (P : byte -> bool) : forallb P all_bytes = true -> forall b, P b = true.
Proof. intros H b. rewrite forallb_forall in H. apply H, all_bytes_complete. Qed.

(** ** Little-endian numbers *)

Lemma le_val_app a b : le_val (a ++ b) = le_val a + 256 ^ lenN a * le_val b.
Proof.
  induction a as [|x a IH]; cbn [le_val app].
  - change (256 ^ lenN []) with 1. lia.
  - rewrite lenN_cons, IH, N.pow_add_r. change (256 ^ 1) with 256. ring.
Qed.
Lemma le_val_lt b : le_val b < 256 ^ lenN b.
Proof.
  induction b as [|x b IH]; cbn [le_val].
  - reflexivity.
  - rewrite lenN_cons, N.pow_add_r. change (256 ^ 1) with 256. pose proof (b2n_lt x). nia.
Qed.
Lemma le_val_inj a b : lenN a = lenN b -> le_val a = le_val b -> a = b.
Proof.
  revert b; induction a as [|x a IH]; intros [|y b] HL HV;
    rewrite ?lenN_cons, ?lenN_nil in HL; try lia; [reflexivity|].
  cbn [le_val] in HV. pose proof (b2n_lt x). pose proof (b2n_lt y).
  assert (b2n x = b2n y) by lia. assert (le_val a = le_val b) by lia.
  f_equal; [now apply b2n_inj|apply IH; [lia|assumption]].
Qed.

(** ** The exception / warning monad *)

Lemma bind_ret_l {A B} (a : A) (f : A -> M B) : bind (ret a) f = f a.
Proof. unfold bind, ret. destruct (f a). reflexivity. Qed.
Lemma bind_Ok {A B} w (a : A) (f : A -> M B) : bind (w, Ok a) f = (w ++ fst (f a), snd (f a)).
Proof. unfold bind. destruct (f a). reflexivity. Qed.
Lemma bind_raise {A B} e (f : A -> M B) : bind (raise e) f = raise e.
Proof. reflexivity. Qed.
Lemma bind_Err {A B} w e (f : A -> M B) : bind (w, Err e) f = (w, Err e).
Proof. reflexivity. Qed.
Lemma bind_ret_r {A} (m : M A) : bind m ret = m.
Proof. destruct m as [w [a|e]]; cbn; rewrite ?app_nil_r; reflexivity. Qed.
Lemma bind_assoc {A B C} (m : M A) (f : A -> M B) (g : B -> M C) :
  bind (bind m f) g = bind m (fun a => bind (f a) g).
Proof.
  destruct m as [w [a|e]]; cbn; [|reflexivity].
  destruct (f a) as [w' [b|e]]; cbn; [|reflexivity].
  destruct (g b); cbn. now rewrite app_assoc.
Qed.
Lemma bind_ext {A B} (m : M A) (f g : A -> M B) : (forall a, f a = g a) -> bind m f = bind m g.
Proof. intros H. destruct m as [w [a|e]]; cbn; [now rewrite H|reflexivity]. Qed.
Lemma bind_warn {B} w (f : unit -> M B) : bind (warn w) f = (w :: fst (f tt), snd (f tt)).
Proof. unfold bind, warn. now destruct (f tt). Qed.
Lemma snd_bind {A B} (m : M A) (f : A -> M B) :
  snd (bind m f) = match snd m with Ok a => snd (f a) | Err e => Err e end.
Proof. destruct m as [w [a|e]]; cbn; [destruct (f a)|]; reflexivity. Qed.
Lemma snd_bind_Ok {A B} (m : M A) (f : A -> M B) b :
  snd (bind m f) = Ok b -> exists a, snd m = Ok a /\ snd (f a) = Ok b.
Proof.
  destruct m as [w [a|e]]; cbn; [|discriminate].
  destruct (f a) as [w' r] eqn:E; cbn. intros ->. exists a. split; [reflexivity|now rewrite E].
Qed.
Lemma snd_bind_Err {A B} (m : M A) (f : A -> M B) e :
  snd (bind m f) = Err e -> snd m = Err e \/ exists a, snd m = Ok a /\ snd (f a) = Err e.
Proof.
  destruct m as [w [a|e']]; cbn.
  - destruct (f a) as [w' r] eqn:E; cbn. intros ->. right. exists a. split; [reflexivity|now rewrite E].
  - intros [= ->]. now left.
Qed.

(** [raises P m]: the only exceptions [m] can raise satisfy [P]. *)
Definition raises {A} (P : exn -> Prop) (m : M A) : Prop := forall e, snd m = Err e -> P e.
Lemma raises_ret {A} P (a : A) : raises P (ret a).
Proof. intros e H. discriminate. Qed.
Lemma raises_raise {A} (P : exn -> Prop) e : P e -> raises P (@raise A e).
Proof. intros H e' [= <-]. assumption. Qed.
Lemma raises_warn (P : exn -> Prop) w : raises P (warn w).
Proof. intros e H. discriminate. Qed.
Lemma raises_bind {A B} P (m : M A) (f : A -> M B) :
  raises P m -> (forall a, raises P (f a)) -> raises P (bind m f).
Proof. intros Hm Hf e H. apply snd_bind_Err in H as [H|(a & _ & H)]; [now apply Hm|now apply (Hf a)]. Qed.
Lemma raises_bind' {A B} P (m : M A) (f : A -> M B) :
  raises P m -> (forall a, snd m = Ok a -> raises P (f a)) -> raises P (bind m f).
Proof. intros Hm Hf e H. apply snd_bind_Err in H as [H|(a & Ha & H)]; [now apply Hm|now apply (Hf a)]. Qed.
Lemma raises_weaken {A} (P Q : exn -> Prop) (m : M A) : (forall e, P e -> Q e) -> raises P m -> raises Q m.
Proof. intros H Hm e He. apply H, Hm, He. Qed.
Lemma raises_try {A} (P : exn -> Prop) (m : M A) sel h :
  raises (fun e => sel e = false -> P e) m -> raises P h -> raises P (try_except m sel h).
Proof.
  intros Hm Hh e. destruct m as [w [a|e']]; cbn; [discriminate|].
  destruct (sel e') eqn:E.
  - destruct h as [w' r]; cbn. intros ->. now apply Hh.
  - cbn. intros [= ->]. now apply Hm.
Qed.
Lemma raises_mapM {A B} P (f : A -> M B) l : (forall a, raises P (f a)) -> raises P (mapM f l).
Proof.
  intros H. induction l as [|x l IH]; cbn [mapM]; [apply raises_ret|].
  apply raises_bind; [apply H|]. intros b. apply raises_bind; [apply IH|]. intros; apply raises_ret.
Qed.

(** Values: [m] returns [a], possibly with warnings. *)
Definition returns {A} (m : M A) (a : A) : Prop := snd m = Ok a.

Lemma unpack_le_ok n b : lenN b = n -> unpack_le n b = ret (le_val b).
Proof. intros H. unfold unpack_le. now rewrite H, N.eqb_refl. Qed.
Lemma unpack_le_bad n b : lenN b <> n -> unpack_le n b = raise StructError.
Proof. intros H. unfold unpack_le. apply N.eqb_neq in H. now rewrite H. Qed.
Lemma raises_unpack_le (P : exn -> Prop) n b : P StructError -> raises P (unpack_le n b).
Proof. intros H. unfold unpack_le. destruct (_ =? _); [apply raises_ret|now apply raises_raise]. Qed.

(** ** Text *)

Lemma text_eqb_eq a b : text_eqb a b = true <-> a = b.
Proof.
  revert b; induction a as [|x a IH]; intros [|y b]; cbn [text_eqb]; try (split; congruence).
  - rewrite andb_true_iff, N.eqb_eq, IH. split; [intros [-> ->]; reflexivity|now intros [= -> ->]].
Qed.
Lemma text_eqb_refl a : text_eqb a a = true.
Proof. now apply text_eqb_eq. Qed.
Lemma text_eqb_neq a b : text_eqb a b = false <-> a <> b.
Proof.
  destruct (text_eqb a b) eqn:E; split; intros H; try reflexivity; try discriminate.
  - exfalso. apply H. now apply text_eqb_eq.
  - intros ->. rewrite text_eqb_refl in E. discriminate.
Qed.

(** ** Dictionaries *)

Lemma dget_dset_same k v d : dget k (dset k v d) = Some v.
Proof.
  induction d as [|[k' v'] d IH]; cbn [dset dget]; [now rewrite String.eqb_refl|].
  destruct (String.eqb k k') eqn:E; cbn [dget]; rewrite E; [reflexivity|assumption].
Qed.
Lemma dget_dset_other k k' v d : k <> k' -> dget k (dset k' v d) = dget k d.
Proof.
  intros H. induction d as [|[k2 v2] d IH]; cbn [dset dget].
  - destruct (String.eqb k k') eqn:E; [apply String.eqb_eq in E; contradiction|reflexivity].
  - destruct (String.eqb k' k2) eqn:E; cbn [dget].
    + apply String.eqb_eq in E. subst k2.
      destruct (String.eqb k k') eqn:E; [apply String.eqb_eq in E; contradiction|reflexivity].
    + destruct (String.eqb k k2); [reflexivity|assumption].
Qed.
