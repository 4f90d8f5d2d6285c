(** * The model's SHA-256 is the one of FIPS 180-4 (property C48) *)
From Coq Require Import Sorting.Sorted.
From Verif Require Import Lemmas Sha256 Spec SpecSha.
From Verif Require Import EncProofs ExtraFileProofs LayoutProofs.

(** ** Constants *)
Definition primeb (p : N) : bool :=
  (2 <=? p) && forallb (fun d => negb (p mod N.of_nat d =? 0)) (seq 2 (N.to_nat p - 2)).
Lemma primeb_prime p : primeb p = true <-> prime p.
Proof.
  unfold primeb, prime. rewrite andb_true_iff, N.leb_le, forallb_forall. split; intros [H1 H2]; (split; [exact H1|]).
  - intros d Hd Hp Hm. specialize (H2 (N.to_nat d)). rewrite N2Nat.id, Hm in H2.
    assert (HI : In (N.to_nat d) (seq 2 (N.to_nat p - 2))) by (apply in_seq; lia). specialize (H2 HI). discriminate.
  - intros d Hd. apply in_seq in Hd. apply negb_true_iff, N.eqb_neq. apply H2; lia.
Qed.
Definition primes64 : list N := map N.of_nat (filter (fun n => primeb (N.of_nat n)) (seq 0 312)).
Lemma primes64_first : first_primes primes64.
Proof.
  split.
  - assert (H : forall l, (fix up (l : list N) := match l with x :: (y :: _) as r => (x <? y) && up r | _ => true end) l = true ->
              Sorted N.lt l).
    { induction l as [|x [|y l] IH]; intros H; [constructor|constructor; constructor|].
      apply andb_true_iff in H as [H1 H2]. constructor; [now apply IH|]. constructor. now apply N.ltb_lt. }
    apply Sorted_StronglySorted; [intros a b c; apply N.lt_trans|]. apply H. vm_compute. reflexivity.
  - intros p. replace (last primes64 0) with 311 by (vm_compute; reflexivity).
    unfold primes64. rewrite in_map_iff. split.
    + intros (n & <- & Hn). apply filter_In in Hn as [Hn Hp]. apply primeb_prime in Hp. apply in_seq in Hn. split; [exact Hp|lia].
    + intros [Hp Hl]. exists (N.to_nat p). split; [apply N2Nat.id|]. apply filter_In. rewrite N2Nat.id.
      split; [apply in_seq; lia|now apply primeb_prime].
Qed.
(** Integer roots by bisection, checked afterwards. *)
Fixpoint root_search (e target : N) (bits : nat) (r : N) : N :=
  match bits with
  | O => r
  | S n => let r' := r + 2 ^ N.of_nat n in root_search e target n (if r' ^ e <=? target then r' else r)
  end.
Definition root_ok (e p k : N) : bool :=
  let target := p * 2 ^ (32 * e) in
  let r := root_search e target 48 0 in
  (r ^ e <=? target) && (target <? (r + 1) ^ e) && (k =? r mod 2 ^ 32).
Lemma root_ok_bits e p k : root_ok e p k = true -> root_bits e p k.
Proof.
  unfold root_ok, root_bits. cbv zeta. rewrite !andb_true_iff, N.leb_le, N.ltb_lt, N.eqb_eq. intros [[H1 H2] H3].
  eexists. split; [split; eassumption|exact H3].
Qed.
Lemma roots_forall e ps ks : length ps = length ks -> forallb (fun p => root_ok e (fst p) (snd p)) (combine ps ks) = true ->
  Forall2 (root_bits e) ps ks.
Proof.
  revert ks. induction ps as [|p ps IH]; intros [|k ks] HL H; try discriminate; [constructor|].
  cbn [combine forallb] in H. apply andb_true_iff in H as [H1 H2]. constructor; [now apply root_ok_bits|].
  apply IH; [now injection HL|exact H2].
Qed.
Lemma sha_constants : constants sha_k sha_h0.
Proof.
  exists primes64. split; [exact primes64_first|]. split; [vm_compute; reflexivity|].
  split; apply roots_forall; vm_compute; reflexivity.
Qed.

(** ** Words *)
Definition is_word (n : N) : Prop := n < modulus.
Lemma lor_disjoint a b n : a < 2 ^ n -> N.lor a (b * 2 ^ n) = a + b * 2 ^ n.
Proof.
  intros Ha. assert (H : N.land a (b * 2 ^ n) = 0).
  { apply N.bits_inj_0. intros i. rewrite N.land_spec. destruct (N.lt_ge_cases i n) as [Hi|Hi].
    - rewrite N.mul_pow2_bits_low by assumption. apply andb_false_r.
    - replace (N.testbit a i) with false; [reflexivity|]. symmetry. rewrite <- (N.mod_small a (2 ^ n)) by assumption.
      now apply N.mod_pow2_bits_high. }
  rewrite <- N.lxor_lor by assumption. symmetry. now apply N.add_nocarry_lxor.
Qed.
Lemma rotr_rotate n x : 0 < n < 32 -> is_word x -> rotr n x = rotate n x.
Proof.
  intros Hn Hx. unfold rotr, rotate, w32, is_word in *. change 4294967296 with (2 ^ 32). change modulus with (2 ^ 32) in Hx.
  rewrite N.shiftr_div_pow2, N.shiftl_mul_pow2.
  replace ((x * 2 ^ (32 - n)) mod 2 ^ 32) with ((x mod 2 ^ n) * 2 ^ (32 - n)).
  2:{ replace (2 ^ 32) with (2 ^ n * 2 ^ (32 - n)) by (rewrite <- N.pow_add_r; f_equal; lia).
      rewrite N.mul_mod_distr_r; [reflexivity| |]; apply N.pow_nonzero; discriminate. }
  apply lor_disjoint. apply N.div_lt_upper_bound; [apply N.pow_nonzero; discriminate|].
  rewrite <- N.pow_add_r. now replace (n + (32 - n)) with 32 by lia.
Qed.
Lemma ch_Ch x y z : is_word x -> ch x y z = Ch x y z.
Proof.
  intros Hx. unfold ch, Ch. f_equal. f_equal. unfold complement, is_word in *.
  change 0xffffffff with (N.ones 32). change (N.lxor x (N.ones 32)) with (N.lnot x 32).
  destruct (N.eq_dec x 0) as [-> |H0]; [reflexivity|].
  rewrite N.lnot_sub_low; [reflexivity|]. apply N.log2_lt_pow2; [lia|exact Hx].
Qed.
Lemma maj_Maj x y z : maj x y z = Maj x y z.
Proof. reflexivity. Qed.
Lemma bsig0_Sigma0 x : is_word x -> bsig0 x = Sigma0 x.
Proof. intros H. unfold bsig0, Sigma0, xor3. rewrite !rotr_rotate by (assumption || lia). reflexivity. Qed.
Lemma bsig1_Sigma1 x : is_word x -> bsig1 x = Sigma1 x.
Proof. intros H. unfold bsig1, Sigma1, xor3. rewrite !rotr_rotate by (assumption || lia). reflexivity. Qed.
Lemma ssig0_sigma0 x : is_word x -> ssig0 x = sigma0 x.
Proof. intros H. unfold ssig0, sigma0, xor3, shr. rewrite !rotr_rotate, N.shiftr_div_pow2 by (assumption || lia). reflexivity. Qed.
Lemma ssig1_sigma1 x : is_word x -> ssig1 x = sigma1 x.
Proof. intros H. unfold ssig1, sigma1, xor3, shr. rewrite !rotr_rotate, N.shiftr_div_pow2 by (assumption || lia). reflexivity. Qed.
Lemma add32_plus a b : add32 a b = plus a b.
Proof. reflexivity. Qed.
Lemma plus_word a b : is_word (plus a b).
Proof. apply N.mod_lt. discriminate. Qed.

(** ** The message schedule *)
Definition new_word (w : list N) : N := add32 (add32 (ssig1 (nth 14 w 0)) (nth 9 w 0)) (add32 (ssig0 (nth 1 w 0)) (nth 0 w 0)).
Definition slide (w : list N) : list N := match w with [] => [] | w0 :: r => r ++ [new_word w] end.
Definition window (w : list N) (t : nat) : list N := Nat.iter t slide w.
Definition W (w : list N) (t : nat) : N := nth 0 (window w t) 0.
Lemma slide_len w : length w = 16%nat -> length (slide w) = 16%nat.
Proof. destruct w; [discriminate|]. cbn. intros [= H]. rewrite app_length, H. reflexivity. Qed.
Lemma window_len w t : length w = 16%nat -> length (window w t) = 16%nat.
Proof. intros H. induction t as [|t IH]; [exact H|]. cbn. now apply slide_len. Qed.
Lemma window_nth w i : forall t, length w = 16%nat -> (i < 16)%nat -> nth i (window w t) 0 = W w (t + i).
Proof.
  induction i as [|i IH]; intros t Hl Hi; [now rewrite Nat.add_0_r|].
  replace (t + S i)%nat with (S t + i)%nat by lia. rewrite <- IH by (assumption || lia).
  change (window w (S t)) with (slide (window w t)). pose proof (window_len w t Hl) as HL.
  destruct (window w t) as [|w0 r]; [discriminate|]. cbn [slide nth]. rewrite app_nth1; [reflexivity|]. cbn in HL. lia.
Qed.
Lemma W_next w t : length w = 16%nat ->
  W w (t + 16) = add32 (add32 (ssig1 (W w (t + 14))) (W w (t + 9))) (add32 (ssig0 (W w (t + 1))) (W w t)).
Proof.
  intros Hl. replace (t + 16)%nat with (S t + 15)%nat by lia. rewrite <- window_nth by (assumption || lia).
  rewrite <- !(window_nth w _ t) by (assumption || lia). replace (W w t) with (nth 0 (window w t) 0) by reflexivity.
  change (window w (S t)) with (slide (window w t)). pose proof (window_len w t Hl) as HL.
  destruct (window w t) as [|w0 r]; [discriminate|]. cbn [slide]. rewrite app_nth2 by (cbn in HL; lia).
  replace (15 - length r)%nat with 0%nat by (cbn in HL; lia). reflexivity.
Qed.
Lemma window_slide w t : window (slide w) t = window w (S t).
Proof. induction t as [|t IH]; [reflexivity|]. change (window (slide w) (S t)) with (slide (window (slide w) t)). now rewrite IH. Qed.
Lemma schedule_W fuel : forall w, length w = 16%nat -> schedule fuel w = map (W w) (seq 0 fuel).
Proof.
  induction fuel as [|fuel IH]; intros w Hl; [reflexivity|]. cbn [schedule seq map].
  destruct w as [|w0 r]; [discriminate|]. cbv zeta. f_equal.
  change (r ++ [add32 (add32 (ssig1 (nth 14 (w0 :: r) 0)) (nth 9 (w0 :: r) 0)) (add32 (ssig0 (nth 1 (w0 :: r) 0)) w0)])
    with (slide (w0 :: r)).
  rewrite IH by now apply slide_len. rewrite <- seq_shift, map_map. apply map_ext. intros t.
  unfold W. now rewrite window_slide.
Qed.
Lemma words_be_nth b : forall k, lenN b = 4 * N.of_nat k -> length (words_be b) = k
  /\ forall t, (t < k)%nat -> nth t (words_be b) 0 = block_word b t.
Proof.
  intros k. revert b. induction k as [|k IH]; intros b Hb.
  - destruct b; [|rewrite lenN_cons in Hb; lia]. split; [reflexivity|]. intros t Ht. lia.
  - destruct b as [|x0 [|x1 [|x2 [|x3 b]]]]; rewrite ?lenN_cons in Hb; try (change (lenN (@nil byte)) with 0 in Hb; lia).
    destruct (IH b) as [H1 H2]; [lia|]. cbn [words_be length]. split; [now rewrite H1|].
    intros [|t] Ht; cbn [nth].
    + unfold block_word. replace (slice _ _ _) with [x0; x1; x2; x3]; [reflexivity|].
      change [x0; x1; x2; x3] with (x0 :: x1 :: x2 :: x3 :: []). rewrite <- (takeN_0 b). reflexivity.
    + rewrite H2 by lia. unfold block_word. f_equal. f_equal. unfold slice.
      replace (4 * N.of_nat (S t)) with (4 + 4 * N.of_nat t) by lia.
      rewrite <- dropN_dropN. change (dropN 4 (x0 :: x1 :: x2 :: x3 :: b)) with (dropN 0 b). rewrite dropN_0. f_equal. lia.
Qed.
Lemma block_word_word b t : is_word (block_word b t).
Proof. apply (num_lt 4). Qed.

Section Block.
Variable block : bytes.
Hypothesis Hblock : lenN block = 64.
Let ws := words_be block.
Lemma ws_len : length ws = 16%nat.
Proof. now apply (words_be_nth block 16). Qed.
Lemma W_word t : is_word (W ws t).
Proof.
  destruct (Nat.lt_ge_cases t 16) as [H|H].
  - change (W ws t) with (W ws (0 + t)). rewrite <- (window_nth ws t 0 ws_len H). change (window ws 0) with ws.
    unfold ws. destruct (words_be_nth block 16 Hblock) as [_ ->]; [|assumption]. apply block_word_word.
  - replace t with (t - 16 + 16)%nat by lia. rewrite W_next by apply ws_len. apply plus_word.
Qed.
Lemma W_schedule : message_schedule block (W ws).
Proof.
  split.
  - intros t Ht. change (W ws t) with (W ws (0 + t)). rewrite <- (window_nth ws t 0 ws_len Ht). now apply (words_be_nth block 16).
  - intros t Ht. replace (t - 2)%nat with (t - 16 + 14)%nat by lia. replace (t - 7)%nat with (t - 16 + 9)%nat by lia.
    replace (t - 15)%nat with (t - 16 + 1)%nat by lia. replace (W ws t) with (W ws (t - 16 + 16)) by (f_equal; lia).
    rewrite W_next by apply ws_len. rewrite <- ssig0_sigma0, <- ssig1_sigma1 by apply W_word. reflexivity.
Qed.
Lemma schedule_unique w : message_schedule block w -> forall t, (t < 64)%nat -> w t = W ws t.
Proof.
  intros [H1 H2] t. destruct W_schedule as [G1 G2]. induction t as [t IH] using lt_wf_ind. intros Ht.
  destruct (Nat.lt_ge_cases t 16) as [H|H]; [now rewrite H1, G1|].
  rewrite H2, G2 by lia. rewrite !IH by lia. reflexivity.
Qed.
End Block.

(** ** Rounds *)
Definition state_list (s : state) : list N := let '(a, b, c, d, e, f, g, i) := s in [a; b; c; d; e; f; g; i].
Lemma state_of_list h s : state_of h s <-> h = state_list s.
Proof. destruct s as [[[[[[[a b] c] d] e] f] g] i]. reflexivity. Qed.
Lemma state_list_inj s s' : state_list s = state_list s' -> s = s'.
Proof.
  destruct s as [[[[[[[a b] c] d] e] f] g] i], s' as [[[[[[[a' b'] c'] d'] e'] f'] g'] i']. cbn. now intros [= -> -> -> -> -> -> -> ->].
Qed.
Lemma list_state h : length h = 8%nat -> exists s, h = state_list s.
Proof.
  do 8 (destruct h as [|? h]; [discriminate|]). destruct h; [|discriminate]. intros _.
  eexists (_, _, _, _, _, _, _, _). reflexivity.
Qed.
Definition words (s : state) : Prop := Forall is_word (state_list s).
Lemma one_round_words k w s : words s -> words (one_round k w s).
Proof.
  destruct s as [[[[[[[a b] c] d] e] f] g] i]. unfold words. cbn. rewrite !Forall_cons_iff. intros H.
  repeat split; try tauto; apply plus_word.
Qed.
Lemma sha_round_one k w s : words s -> sha_round (state_list s) (k, w) = state_list (one_round k w s).
Proof.
  destruct s as [[[[[[[a b] c] d] e] f] g] i]. unfold words. cbn [state_list sha_round one_round fst snd].
  rewrite !Forall_cons_iff. intros (Ha & Hb & Hc & Hd & He & _). cbv zeta. rewrite ch_Ch, maj_Maj, bsig0_Sigma0, bsig1_Sigma1 by assumption.
  replace (add32 (add32 (add32 i (Sigma1 e)) (add32 (Ch e f g) k)) w) with ((i + Sigma1 e + Ch e f g + k + w) mod modulus); [reflexivity|].
  unfold add32, w32. change 4294967296 with modulus. rewrite <- (N.add_mod (i + Sigma1 e) (Ch e f g + k)) by discriminate.
  rewrite N.add_mod_idemp_l by discriminate. f_equal. lia.
Qed.
Fixpoint rounds_fun (ks : list N) (w : nat -> N) (s : state) (t : nat) : option state :=
  match t with
  | O => Some s
  | S t => match rounds_fun ks w s t, nth_error ks t with Some u, Some k => Some (one_round k (w t) u) | _, _ => None end
  end.
Lemma rounds_rounds_fun ks w s t u : rounds ks w s t u <-> rounds_fun ks w s t = Some u.
Proof.
  split.
  - induction 1 as [|t u k _ IH Hk]; [reflexivity|]. cbn. now rewrite IH, Hk.
  - revert u. induction t as [|t IH]; intros u; cbn; [intros [= ->]; constructor|].
    destruct (rounds_fun ks w s t) as [u'|]; [|discriminate]. destruct (nth_error ks t) as [k|] eqn:E; [|discriminate].
    intros [= <-]. constructor; auto.
Qed.
Lemma combine_app {A B} (l1 l2 : list A) (m1 m2 : list B) : length l1 = length m1 ->
  combine (l1 ++ l2) (m1 ++ m2) = combine l1 m1 ++ combine l2 m2.
Proof. revert m1. induction l1 as [|x l1 IH]; intros [|y m1] H; try discriminate; [reflexivity|]. cbn. f_equal. apply IH. now injection H. Qed.
Lemma rounds_fold ks w s : words s -> forall t, (t <= length ks)%nat ->
  exists u, rounds ks w s t u /\ words u
  /\ fold_left sha_round (combine (firstn t ks) (map w (seq 0 t))) (state_list s) = state_list u.
Proof.
  intros Hs. induction t as [|t IH]; intros Ht.
  - exists s. split; [constructor|]. split; [exact Hs|reflexivity].
  - destruct IH as (u & Hu & Hw & Hf); [lia|].
    destruct (nth_error ks t) as [k|] eqn:Hk; [|apply nth_error_None in Hk; lia].
    exists (one_round k (w t) u). split; [now constructor|]. split; [now apply one_round_words|].
    replace (firstn (S t) ks) with (firstn t ks ++ [k]).
    2:{ clear -Hk. revert t Hk. induction ks as [|x ks IH]; intros [|t] Hk; try discriminate; [now injection Hk as ->|].
        cbn in *. f_equal. now apply IH. }
    rewrite seq_S, map_app. rewrite combine_app by (rewrite firstn_length, map_length, seq_length; lia).
    rewrite fold_left_app, Hf. cbn. now apply sha_round_one.
Qed.

(** ** Blocks *)
Lemma lenN_length {A} (l : list A) : lenN l = N.of_nat (length l).
Proof. reflexivity. Qed.
Lemma sha_k_length : length sha_k = 64%nat.
Proof. reflexivity. Qed.
Lemma sha_block_next h block : lenN block = 64 -> length h = 8%nat -> Forall is_word h ->
  next_hash sha_k block h (sha_block h block).
Proof.
  intros Hb Hl Hw. destruct (list_state h Hl) as [s ->].
  destruct (rounds_fold sha_k (W (words_be block)) s Hw 64) as (u & Hu & _ & Hf); [reflexivity|].
  exists (W (words_be block)), s, u, (state_list u). split; [now apply W_schedule|]. split; [now apply state_of_list|].
  split; [exact Hu|]. split; [now apply state_of_list|]. unfold sha_block. cbv zeta.
  rewrite schedule_W by now apply ws_len. change (firstn 64 sha_k) with sha_k in Hf. rewrite Hf. reflexivity.
Qed.
Lemma rounds_ext ks w w' s t : (forall i, (i < t)%nat -> w i = w' i) -> forall u, rounds ks w s t u -> rounds ks w' s t u.
Proof.
  intros H u Hu. induction Hu as [|t u k _ IH Hk]; [constructor|]. rewrite H by lia. constructor; [|exact Hk]. apply IH. intros i Hi. apply H. lia.
Qed.
Lemma next_hash_unique ks block h a b : lenN block = 64 -> next_hash ks block h a -> next_hash ks block h b -> a = b.
Proof.
  intros Hb (w & s & s' & u & Hm & Hs & Hr & Hu & ->) (w2 & s2 & s2' & u2 & Hm2 & Hs2 & Hr2 & Hu2 & ->).
  apply state_of_list in Hs, Hs2, Hu, Hu2. subst. apply state_list_inj in Hs2 as <-.
  apply (rounds_ext _ _ w) in Hr2.
  - apply rounds_rounds_fun in Hr, Hr2. rewrite Hr in Hr2. now injection Hr2 as <-.
  - intros i Hi. rewrite (schedule_unique _ Hb _ Hm), (schedule_unique _ Hb _ Hm2) by assumption. reflexivity.
Qed.
Lemma hashes_unique ks h m a : hashes ks h m a -> forall b, hashes ks h m b -> a = b.
Proof.
  induction 1 as [h|h h' h'' block rest Hb Hn _ IH]; intros b Hx.
  - inversion Hx as [|? ? ? bl r Hl ? ? E]; [reflexivity|]. destruct bl; [discriminate Hl|discriminate].
  - inversion Hx as [? E1|h1 h2 h3 bl r Hl Hn' Hr E1]; subst.
    + destruct block; [discriminate Hb|discriminate].
    + assert (E : bl = block /\ r = rest).
      { assert (takeN 64 (bl ++ r) = takeN 64 (block ++ rest)) as T by now f_equal.
        rewrite !takeN_app_exact in T by congruence. subst. split; [reflexivity|]. now apply app_inv_head in H. }
      destruct E as [-> ->]. apply IH. now rewrite (next_hash_unique _ _ _ _ _ Hb Hn Hn').
Qed.
Lemma sha_blocks_hashes fuel : forall h m, (length m <= fuel)%nat -> lenN m mod 64 = 0 -> length h = 8%nat -> Forall is_word h ->
  hashes sha_k h m (sha_blocks fuel h m).
Proof.
  induction fuel as [|fuel IH]; intros h m Hf Hm Hl Hw.
  - destruct m; [constructor|cbn in Hf; lia].
  - destruct m as [|x m]; [constructor|]. cbn [sha_blocks]. set (p := x :: m) in *.
    assert (Hp : lenN p = N.of_nat (length p)) by apply lenN_length.
    assert (64 <= length p)%nat by (subst p; cbn [length] in *; pose proof (N.mod_small (lenN (x :: m)) 64); lia).
    rewrite <- (firstn_skipn 64 p) at 1.
    assert (Hb : lenN (firstn 64 p) = 64) by (rewrite lenN_length, firstn_length; lia).
    apply hash_block with (h' := sha_block h (firstn 64 p)); [exact Hb|now apply sha_block_next|].
    destruct (sha_block_words h (firstn 64 p) Hl) as [H1 H2]. apply IH; [rewrite skipn_length; lia| |exact H1|exact H2].
    rewrite lenN_length, skipn_length. rewrite Hp in Hm. replace (N.of_nat (length p - 64)) with (N.of_nat (length p) - 64) by lia.
    apply N.mod_divide in Hm as [q Hq]; [|discriminate]. rewrite Hq. replace (q * 64 - 64) with ((q - 1) * 64) by lia.
    apply N.mod_mul. discriminate.
Qed.

(** ** Padding *)
Lemma big_length n : map (fun i => n2b (N.shiftr n (8 * i))) [7; 6; 5; 4; 3; 2; 1; 0] = rev (enc64 n).
Proof.
  unfold enc64, enc32, enc16, enc8. cbn [map app rev]. rewrite !N.div_div by discriminate. rewrite !N.shiftr_div_pow2.
  change (2 ^ (8 * 0)) with 1. rewrite N.div_1_r. reflexivity.
Qed.
Lemma num_all w b : lenN b = w -> num w 0 b = le_val b.
Proof. intros <-. unfold num. now rewrite dropN_0, takeN_all by lia. Qed.
Lemma pad_length m z (len : bytes) : lenN len = 8 ->
  lenN (m ++ x80 :: repeat x00 z ++ rev len) = lenN m + 1 + N.of_nat z + 8.
Proof.
  intros H. rewrite lenN_app, lenN_cons, lenN_app. rewrite !lenN_length, rev_length, repeat_length in *. lia.
Qed.
Lemma sha_pad_padded m : 8 * lenN m < 2 ^ 64 -> padded m (sha_pad m).
Proof.
  intros Hm. exists (N.to_nat ((119 - lenN m mod 64) mod 64)), (enc64 (8 * lenN m)). unfold sha_pad. cbv zeta.
  rewrite big_length. cbn [app]. split; [reflexivity|]. split; [reflexivity|].
  split; [rewrite num_all by reflexivity; now apply le_val_enc64|].
  rewrite pad_length by reflexivity. rewrite N2Nat.id. pose proof (N.mod_lt (119 - lenN m mod 64) 64 ltac:(discriminate)).
  split; [|lia]. pose proof (N.mod_lt (lenN m) 64 ltac:(discriminate)). pose proof (N.div_mod (lenN m) 64 ltac:(discriminate)).
  pose proof (N.div_mod (119 - lenN m mod 64) 64 ltac:(discriminate)).
  set (q := lenN m / 64) in *. set (r := lenN m mod 64) in *. set (q' := (119 - r) / 64) in *. set (z := (119 - r) mod 64) in *.
  assert (q' <= 1) by (apply N.lt_succ_r, N.div_lt_upper_bound; lia).
  replace (lenN m + 1 + z + 8) with ((q + 2 - q') * 64) by lia. apply N.mod_mul. discriminate.
Qed.
Lemma padded_unique m p p' : padded m p -> padded m p' -> p = p'.
Proof.
  intros (z & len & -> & Hl & Hn & Hm & Hz) (z' & len' & -> & Hl' & Hn' & Hm' & Hz').
  rewrite num_all in Hn, Hn' by assumption.
  assert (len = len') as <- by (apply le_val_inj; congruence). rewrite pad_length in Hm, Hm' by assumption.
  replace z' with z; [reflexivity|]. apply N.mod_divide in Hm as [q Hq]; [|discriminate]. apply N.mod_divide in Hm' as [q' Hq']; [|discriminate].
  assert (q = q') by lia. lia.
Qed.

(** ** The constants are determined *)
Lemma sorted_ext l : forall l', StronglySorted N.lt l -> StronglySorted N.lt l' -> (forall x, In x l <-> In x l') -> l = l'.
Proof.
  induction l as [|x l IH]; intros [|y l'] H H' E; [reflexivity|destruct (proj2 (E y)); now left|destruct (proj1 (E x)); now left|].
  apply StronglySorted_inv in H as [H Hx]. apply StronglySorted_inv in H' as [H' Hy]. rewrite Forall_forall in Hx, Hy.
  assert (x = y) as <-.
  { destruct (proj1 (E x) (or_introl eq_refl)) as [->|Hi]; [reflexivity|]. destruct (proj2 (E y) (or_introl eq_refl)) as [->|Hj]; [reflexivity|].
    specialize (Hx _ Hj). specialize (Hy _ Hi). lia. }
  f_equal. apply IH; try assumption. intros z. split; intros Hz.
  - destruct (proj1 (E z) (or_intror Hz)) as [<-|]; [|assumption]. specialize (Hx _ Hz). lia.
  - destruct (proj2 (E z) (or_intror Hz)) as [<-|]; [|assumption]. specialize (Hy _ Hz). lia.
Qed.
Lemma sorted_nodup l : StronglySorted N.lt l -> NoDup l.
Proof.
  induction 1 as [|x l _ IH Hx]; constructor; [|assumption]. rewrite Forall_forall in Hx. intros Hi. specialize (Hx _ Hi). lia.
Qed.
Lemma first_primes_unique ps ps' : first_primes ps -> first_primes ps' -> length ps = length ps' -> ps = ps'.
Proof.
  assert (W : forall ps ps', first_primes ps -> first_primes ps' -> length ps = length ps' -> last ps 0 <= last ps' 0 -> ps = ps').
  { intros l l' [S H] [S' H'] HL Hle. apply sorted_ext; [assumption..|].
    assert (HI : incl l l') by (intros x Hx; apply H in Hx as [Hp Hx]; apply H'; split; [assumption|lia]).
    intros x. split; [apply HI|]. apply NoDup_length_incl; [now apply sorted_nodup|lia|exact HI]. }
  intros H H' HL. destruct (N.le_ge_cases (last ps 0) (last ps' 0)); [now apply W|symmetry; now apply W].
Qed.
Lemma root_bits_unique e p k k' : root_bits e p k -> root_bits e p k' -> k = k'.
Proof.
  intros (r & [H1 H2] & ->) (r' & [H1' H2'] & ->). f_equal. destruct (N.lt_trichotomy r r') as [H|[H|H]]; [|exact H|].
  - pose proof (N.pow_le_mono_l (r + 1) r' e ltac:(lia)). lia.
  - pose proof (N.pow_le_mono_l (r' + 1) r e ltac:(lia)). lia.
Qed.
Lemma roots_unique e ps ks : Forall2 (root_bits e) ps ks -> forall ks', Forall2 (root_bits e) ps ks' -> ks = ks'.
Proof.
  induction 1 as [|p k ps ks Hk _ IH]; intros ks' H'; inversion H'; subst; [reflexivity|]. f_equal; [|now apply IH].
  eapply root_bits_unique; eassumption.
Qed.
Lemma constants_unique ks hs : constants ks hs -> ks = sha_k /\ hs = sha_h0.
Proof.
  intros (ps & H1 & H2 & H3 & H4). destruct sha_constants as (ps' & G1 & G2 & G3 & G4).
  assert (ps = ps') as <- by (apply first_primes_unique; congruence).
  split; eapply roots_unique; eassumption.
Qed.

(** ** The digest *)
Lemma h0_words : Forall is_word sha_h0.
Proof. repeat constructor. Qed.
Lemma sha256_hex_digest m : 8 * lenN m < 2 ^ 64 -> sha256_digest m (sha256_hex m).
Proof.
  intros Hm. pose proof (sha_pad_padded m Hm) as Hp. exists sha_k, sha_h0, (sha_pad m), (sha_blocks (length (sha_pad m)) sha_h0 (sha_pad m)).
  split; [exact sha_constants|]. split; [exact Hp|]. split; [|reflexivity].
  destruct Hp as (z & len & _ & _ & _ & H64 & _). apply sha_blocks_hashes; [reflexivity|exact H64|reflexivity|exact h0_words].
Qed.
Lemma sha256_digest_unique m t t' : sha256_digest m t -> sha256_digest m t' -> t = t'.
Proof.
  intros (ks & hs & p & h & Hc & Hp & Hh & ->) (ks' & hs' & p' & h' & Hc' & Hp' & Hh' & ->).
  apply constants_unique in Hc as [-> ->], Hc' as [-> ->]. pose proof (padded_unique _ _ _ Hp Hp') as <-.
  now rewrite (hashes_unique _ _ _ _ Hh _ Hh').
Qed.
Lemma sha256_digest_iff m t : 8 * lenN m < 2 ^ 64 -> sha256_digest m t <-> t = sha256_hex m.
Proof.
  intros Hm. split; [|intros ->; now apply sha256_hex_digest].
  intros H. eapply sha256_digest_unique; [exact H|]. now apply sha256_hex_digest.
Qed.
