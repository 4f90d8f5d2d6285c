(** * print_json (property C42) *)
From Verif Require Import Lemmas PyTime Codec Utils Header StringData Targets Info Extra LnkFile Json Report.
From Verif Require Import SpecText SpecTime SpecReport FormatProofs OutcomeProofs ShapeProofs ReportProofs.

(** ** Numbers *)

Definition shift (n d : N) : N := n * 10 + d.
Lemma digits_aux_value fuel : forall n acc, n < 10 ^ N.of_nat fuel -> (0 < fuel)%nat ->
  fold_left shift (digits_aux 10 fuel n acc) 0 = fold_left shift acc n.
Proof.
  induction fuel as [|f IH]; intros n acc H H0; [lia|]. cbn [digits_aux]. destruct (n <? 10) eqn:E.
  - reflexivity.
  - rewrite Nnat.Nat2N.inj_succ, N.pow_succ_r' in H.
    rewrite IH.
    + cbn [fold_left]. f_equal. unfold shift. pose proof (N.div_mod n 10). lia.
    + apply N.div_lt_upper_bound; lia.
    + destruct f; [|lia]. cbn in H. lia.
Qed.
Lemma digits_aux_head fuel : forall n acc, n < 10 ^ N.of_nat fuel -> (0 < fuel)%nat ->
  exists d D, digits_aux 10 fuel n acc = d :: D ++ acc /\ (d <> 0 \/ (n = 0 /\ D = [])).
Proof.
  induction fuel as [|f IH]; intros n acc H H0; [lia|]. cbn [digits_aux]. destruct (n <? 10) eqn:E.
  - exists n, []. split; [reflexivity|]. destruct (n =? 0) eqn:E0; [right; split; [lia|reflexivity]|left; lia].
  - rewrite Nnat.Nat2N.inj_succ, N.pow_succ_r' in H.
    destruct (IH (n / 10) (n mod 10 :: acc)) as (d & D & HD & HC).
    + apply N.div_lt_upper_bound; lia.
    + destruct f; [|lia]. cbn in H. lia.
    + exists d, (D ++ [n mod 10]). rewrite HD, <- app_assoc. split; [reflexivity|].
      destruct HC as [HC|[HC _]]; [now left|]. exfalso. lia.
Qed.
Lemma size_10 n : n < 10 ^ N.of_nat (S (N.size_nat n)).
Proof. eapply N.lt_le_trans; [apply size_nat_bound|]. apply N.pow_le_mono_l. lia. Qed.

Lemma digit_char_10 u d : d < 10 -> digit_char u d = 48 + d.
Proof. intros H. unfold digit_char. replace (d <? 10) with true by lia. reflexivity. Qed.
Lemma decimal_map l : forall n, Forall (fun d => d < 10) l ->
  fold_left (fun n c => n * 10 + (c - 48)) (map (digit_char false) l) n = fold_left shift l n.
Proof.
  induction l as [|d l IH]; intros n H; cbn [map fold_left]; [reflexivity|]. inversion H; subst.
  rewrite IH by assumption. f_equal. rewrite digit_char_10 by assumption. unfold shift. lia.
Qed.
Definition ends_number (r : text) : Prop :=
  match r with [] => True | c :: _ => is_digit c = false /\ existsb (N.eqb c) [46; 69; 101] = false end.
Lemma span_digits_app l r : Forall (fun d => d < 10) l -> ends_number r ->
  span_digits (map (digit_char false) l ++ r) = (map (digit_char false) l, r).
Proof.
  intros H Hr. induction l as [|d l IH]; cbn [map app].
  - destruct r as [|c r]; [reflexivity|]. cbn [span_digits]. destruct Hr as [-> _]. reflexivity.
  - inversion H; subst. cbn [span_digits].
    replace (is_digit (digit_char false d)) with true
      by (symmetry; rewrite digit_char_10 by assumption; unfold is_digit; lia).
    now rewrite IH.
Qed.
Lemma natural_dec n r : ends_number r -> natural (dec_text n ++ r) = Some (n, r).
Proof.
  intros Hr. unfold natural, dec_text.
  assert (HL : Forall (fun d => d < 10) (digits 10 n)) by (apply digits_aux_lt; [lia|constructor]).
  rewrite span_digits_app by assumption.
  assert (HV : decimal (map (digit_char false) (digits 10 n)) = n).
  { unfold decimal. rewrite decimal_map by assumption. unfold digits.
    rewrite digits_aux_value; [reflexivity|apply size_10|lia]. }
  destruct (digits_aux_head (S (N.size_nat n)) n [] (size_10 n)) as (d & D & HD & HC); [lia|].
  fold (digits 10 n) in HD. rewrite app_nil_r in HD. rewrite HD in *. apply Forall_cons_iff in HL as [Hd HD'].
  cbn [map]. cbn [map] in HV. rewrite digit_char_10 in * by assumption.
  assert (HN : forall (X Y : option (N * text)),
    match 48 + d :: map (digit_char false) D with 48 :: _ :: _ => X | _ => Y end = Y).
  { intros X Y. destruct HC as [HC|[_ ->]].
    - destruct d as [|p]; [congruence|].
      assert (K : 48 + N.pos p <> 48) by lia. destruct (48 + N.pos p) as [|q]; [reflexivity|].
      destruct q as [q|q|]; try reflexivity; destruct q as [q|q|]; try reflexivity; destruct q as [q|q|]; try reflexivity;
      destruct q as [q|q|]; try reflexivity; destruct q as [q|q|]; try reflexivity; destruct q as [q|q|]; try reflexivity.
      congruence.
    - cbn [map]. destruct (48 + d) as [|q]; [reflexivity|].
      destruct q as [q|q|]; try reflexivity; destruct q as [q|q|]; try reflexivity; destruct q as [q|q|]; try reflexivity;
      destruct q as [q|q|]; try reflexivity; destruct q as [q|q|]; try reflexivity; destruct q as [q|q|]; reflexivity. }
  specialize (HN None (match r with c :: _ => if existsb (N.eqb c) [46; 69; 101] then None else Some (n, r) | [] => Some (n, r) end)).
  destruct r as [|c r].
  - etransitivity; [|exact HN]. rewrite HV. reflexivity.
  - destruct Hr as [_ Hr]. rewrite Hr in HN. etransitivity; [|exact HN]. rewrite HV, Hr. reflexivity.
Qed.

(** ** Strings *)

Lemma hex_value_char d : d < 16 -> hex_value (digit_char false d) = Some d.
Proof.
  intros H. assert (E : forallb (fun i => match hex_value (digit_char false i) with Some j => N.eqb i j | None => false end)
    (map N.of_nat (seq 0 16)) = true) by reflexivity.
  rewrite forallb_forall in E. specialize (E d).
  destruct (hex_value (digit_char false d)) as [j|].
  - f_equal. symmetry. apply N.eqb_eq, E. apply in_map_iff. exists (N.to_nat d). split; [lia|]. apply in_seq. lia.
  - exfalso. discriminate E. apply in_map_iff. exists (N.to_nat d). split; [lia|]. apply in_seq. lia.
Qed.
Lemma read_u n r : n < 65536 ->
  string_body (u_escape n ++ r)
  = match string_body r with Some (s, r') => Some (join_units n s, r') | None => None end.
Proof.
  intros H. unfold u_escape. rewrite hexx_fixd by (cbn; lia). cbn [fixd app map].
  set (a := n / 16 / 16 / 16 mod 16). set (b := n / 16 / 16 mod 16). set (c := n / 16 mod 16). set (d := n mod 16).
  assert (Ha : a < 16) by (apply N.mod_lt; lia). assert (Hb : b < 16) by (apply N.mod_lt; lia).
  assert (Hc : c < 16) by (apply N.mod_lt; lia). assert (Hd : d < 16) by (apply N.mod_lt; lia).
  change (s2t "\u") with [92; 117]. cbn [app string_body].
  change (92 =? 34) with false. change (92 =? 92) with true. change (117 =? 117) with true. cbv iota.
  unfold hex4. rewrite !hex_value_char by assumption.
  replace (((a * 16 + b) * 16 + c) * 16 + d) with n; [reflexivity|]. unfold a, b, c, d. clear - H.
  rewrite (N.mod_small (n / 16 / 16 / 16)).
  - pose proof (N.div_mod n 16). pose proof (N.div_mod (n / 16) 16). pose proof (N.div_mod (n / 16 / 16) 16). lia.
  - rewrite !N.div_div by lia. apply N.div_lt_upper_bound; lia.
Qed.

Lemma string_body_quote r : string_body (34 :: r) = Some ([], r).
Proof. reflexivity. Qed.
Lemma join_plain u t : high_surrogate u = false -> join_units u t = u :: t.
Proof. intros H. destruct t; cbn [join_units]; [reflexivity|]. now rewrite H. Qed.
Lemma read_char c r s r' : scalar c -> string_body r = Some (s, r') ->
  string_body (json_char c ++ r) = Some (c :: s, r').
Proof.
  intros Hc Hr. unfold json_char.
  destruct (c =? 34) eqn:E1; [apply N.eqb_eq in E1; subst; cbn; now rewrite Hr|].
  destruct (c =? 92) eqn:E2; [apply N.eqb_eq in E2; subst; cbn; now rewrite Hr|].
  destruct (c =? 10) eqn:E3; [apply N.eqb_eq in E3; subst; cbn; now rewrite Hr|].
  destruct (c =? 13) eqn:E4; [apply N.eqb_eq in E4; subst; cbn; now rewrite Hr|].
  destruct (c =? 9) eqn:E5; [apply N.eqb_eq in E5; subst; cbn; now rewrite Hr|].
  destruct (c =? 12) eqn:E6; [apply N.eqb_eq in E6; subst; cbn; now rewrite Hr|].
  destruct (c =? 8) eqn:E7; [apply N.eqb_eq in E7; subst; cbn; now rewrite Hr|].
  destruct ((32 <=? c) && (c <=? 126)) eqn:E8.
  { cbn [app string_body]. rewrite E1, E2. replace (c <? 32) with false by lia. now rewrite Hr. }
  destruct (c <? 65536) eqn:E9.
  - rewrite read_u by lia. rewrite Hr, join_plain; [reflexivity|]. unfold high_surrogate, scalar in *. lia.
  - set (n := c - 65536) in *. assert (Hn : n < 1048576) by (unfold n, scalar in *; lia).
    rewrite <- app_assoc.
    assert (Hq : n / 1024 < 1024) by (apply N.div_lt_upper_bound; lia).
    assert (Hm : n mod 1024 < 1024) by (apply N.mod_lt; lia).
    rewrite (N.mod_small (n / 1024)) by assumption.
    rewrite !read_u by lia. rewrite Hr.
    rewrite (join_plain (56320 + _)) by (unfold high_surrogate; lia). cbn [join_units].
    replace (high_surrogate (55296 + n / 1024)) with true by (unfold high_surrogate; lia).
    replace (low_surrogate (56320 + n mod 1024)) with true by (unfold low_surrogate; lia). cbn [andb].
    do 3 f_equal. pose proof (N.div_mod n 1024). subst n. lia.
Qed.
Lemma read_chars t r : Forall scalar t -> string_body (flat_map json_char t ++ 34 :: r) = Some (t, r).
Proof.
  intros H. induction H as [|c t Hc _ IH]; cbn [flat_map app]; [apply string_body_quote|].
  rewrite <- app_assoc. now apply read_char.
Qed.

(** ** Dates *)

Lemma pad0_dec n w : n < 10 ^ N.of_nat w -> (0 < w)%nat ->
  pad0 w (dec_text n) = map (digit_char false) (fixd 10 w n).
Proof.
  intros H Hw. destruct (digits_fixd 10 n w) as [H1 H2]; [lia|assumption|assumption|].
  unfold pad0, dec_text. rewrite map_length, <- H2, map_app, map_repeat'. reflexivity.
Qed.
Lemma pad_two z : (0 <= z < 100)%Z -> pad_dec 2 z = two z.
Proof.
  intros H. unfold pad_dec, decZ_text. replace (z <? 0)%Z with false by lia. rewrite pad0_dec by (cbn; lia).
  cbn [fixd app map]. rewrite !digit_char_10 by (apply N.mod_lt; lia). unfold two.
  assert (Z.abs_N z / 10 < 10) by (apply N.div_lt_upper_bound; lia).
  rewrite (N.mod_small (Z.abs_N z / 10)) by assumption.
  f_equal; [|f_equal]; lia.
Qed.
Lemma pad_four z : (0 <= z < 10000)%Z -> pad_dec 4 z = two (z / 100) ++ two (z mod 100).
Proof.
  intros H. unfold pad_dec, decZ_text. replace (z <? 0)%Z with false by lia. rewrite pad0_dec by (cbn; lia).
  cbn [fixd app map]. rewrite !digit_char_10 by (apply N.mod_lt; lia). unfold two. cbn [app].
  rewrite !N.div_div by lia. cbn [N.mul Pos.mul].
  assert (Ez : z = Z.of_N (Z.abs_N z)) by lia. rewrite Ez at 5 6 7 8. clear Ez.
  assert (Hn : Z.abs_N z < 10000) by lia. generalize dependent (Z.abs_N z). clear. intros n Hn.
  assert (D : forall x, Z.to_N (48 + Z.of_N x) = 48 + x) by (intros; lia).
  change 100%Z with (Z.of_N 100). change 10%Z with (Z.of_N 10).
  repeat first [rewrite <- N2Z.inj_div | rewrite <- N2Z.inj_mod]. rewrite !D.
  repeat apply (f_equal2 cons); f_equal; lia.
Qed.
Lemma isoformat_iso d : valid_datetime d -> isoformat d = iso8601 d.
Proof.
  intros (Hy & (Hm & Hd) & Hh & Hmi & Hs & _).
  unfold isoformat, iso8601.
  assert (Hd' : (dt_day d < 100)%Z) by (unfold month_length in Hd; destruct (leap_year (dt_year d)); repeat match type of Hd with context [if ?b then _ else _] => destruct b end; lia).
  rewrite pad_four by lia. rewrite (pad_two (dt_month d)) by lia. rewrite (pad_two (dt_day d)) by lia.
  rewrite (pad_two (dt_hour d)) by lia. rewrite (pad_two (dt_min d)) by lia. rewrite (pad_two (dt_sec d)) by lia.
  rewrite <- !app_assoc. reflexivity.
Qed.

(** ** Key order *)

Lemma leb_before a : forall b, String.leb a b = true -> before (s2t a) (s2t b).
Proof.
  unfold String.leb. induction a as [|x a IH]; intros [|y b]; cbn; try exact (fun _ => I); [discriminate|].
  unfold Ascii.compare. destruct (N.compare_spec (N_of_ascii x) (N_of_ascii y)) as [E|E|E]; intros H.
  - right. split; [exact E|now apply IH].
  - now left.
  - discriminate.
Qed.
Lemma leb_false a b : String.leb a b = false -> String.leb b a = true.
Proof. intros H. destruct (String.leb_total a b) as [K|K]; [congruence|exact K]. Qed.
Lemma before_trans a : forall b c, before a b -> before b c -> before a c.
Proof.
  induction a as [|x a IH]; intros [|y b] [|z c]; cbn; try tauto.
  intros [H1|[-> H1]] [H2|[-> H2]]; try (left; lia). right. split; [reflexivity|]. eapply IH; eassumption.
Qed.

Section Sort.
  Context {A : Type}.
  Lemma insert_perm k (v : A) l : Permutation ((k, v) :: l) (sort_insert k v l).
  Proof.
    induction l as [|[k' v'] l IH]; cbn [sort_insert]; [reflexivity|].
    destruct (String.leb k k'); [reflexivity|]. rewrite perm_swap. now constructor.
  Qed.
  Lemma sort_perm (l : list (string * A)) : Permutation l (sort_entries l).
  Proof.
    induction l as [|[k v] l IH]; cbn [sort_entries]; [reflexivity|].
    rewrite <- insert_perm. now constructor.
  Qed.
  Definition name (e : string * A) : text := s2t (fst e).
  Lemma insert_sorted k v l :
    StronglySorted before (map name l) -> StronglySorted before (map name (sort_insert k v l)).
  Proof.
    induction l as [|[k' v'] l IH]; intros H; cbn [sort_insert].
    - repeat constructor.
    - cbn [map] in H. inversion H as [|? ? H1 H2]; subst. destruct (String.leb k k') eqn:E.
      + cbn [map]. constructor; [exact H|]. apply leb_before in E. constructor; [exact E|].
        eapply Forall_impl; [|exact H2]. intros x Hx. eapply before_trans; [exact E|exact Hx].
      + cbn [map]. constructor; [now apply IH|].
        apply (Permutation_Forall (Permutation_map name (insert_perm k v l))).
        cbn [map]. constructor; [|exact H2]. apply leb_before, leb_false, E.
  Qed.
  Lemma sort_sorted l : StronglySorted before (map name (sort_entries l)).
  Proof. induction l as [|[k v] l IH]; cbn [sort_entries]; [constructor|now apply insert_sorted]. Qed.
End Sort.

Definition on_value {A B} (f : A -> B) (e : string * A) : string * B := (fst e, f (snd e)).
Lemma insert_map {A B} (f : A -> B) k v l :
  sort_insert k (f v) (map (on_value f) l) = map (on_value f) (sort_insert k v l).
Proof.
  induction l as [|[k' v'] l IH]; cbn [map sort_insert on_value fst snd]; [reflexivity|].
  destruct (String.leb k k'); [reflexivity|]. cbn [map on_value fst snd]. now rewrite <- IH.
Qed.
Lemma sort_map {A B} (f : A -> B) l : sort_entries (map (on_value f) l) = map (on_value f) (sort_entries l).
Proof.
  induction l as [|[k v] l IH]; cbn [map sort_entries on_value fst snd]; [reflexivity|].
  rewrite IH. apply insert_map.
Qed.

(** ** Values *)

Definition member_text depth (e : string * pyval) : text :=
  json_string (s2t (fst e)) ++ s2t ": " ++ dumps (S depth) (snd e).
Lemma dumps_dict depth d :
  dumps depth (PDict d) = container 123 125 depth (map (member_text depth) (sort_entries d)).
Proof.
  change (dumps depth (PDict d)) with
    (container 123 125 depth
      (map (fun e : string * text => json_string (s2t (fst e)) ++ s2t ": " ++ snd e)
        (sort_entries
          ((fix rows (d : dict) : list (string * text) :=
              match d with [] => [] | (k, v) :: r => (k, dumps (S depth) v) :: rows r end) d)))).
  f_equal.
  assert (H : forall d : dict, (fix rows (d : dict) : list (string * text) :=
              match d with [] => [] | (k, v) :: r => (k, dumps (S depth) v) :: rows r end) d
              = map (on_value (dumps (S depth))) d).
  { clear. induction d as [|[k v] d IH]; cbn [map on_value fst snd]; [reflexivity|]. now rewrite IH. }
  rewrite H, sort_map, map_map. reflexivity.
Qed.

(** The value a text denotes. *)
Fixpoint json_of (v : pyval) : json :=
  match v with
  | PNone => JNull
  | PInt z => JInt z
  | PStr t => JStr t
  | PDate d => JStr (iso8601 d)
  | PList l => JArray (map json_of l)
  | PDict d => JObject (map (fun e => (s2t (fst e), snd e))
      (sort_entries ((fix rows (d : dict) : list (string * json) :=
        match d with [] => [] | (k, v) :: r => (k, json_of v) :: rows r end) d)))
  end.
Definition member_json (e : string * pyval) : text * json := (s2t (fst e), json_of (snd e)).
Lemma json_of_dict d : json_of (PDict d) = JObject (map member_json (sort_entries d)).
Proof.
  cbn [json_of]. f_equal.
  assert (H : forall d : dict, (fix rows (d : dict) : list (string * json) :=
              match d with [] => [] | (k, v) :: r => (k, json_of v) :: rows r end) d
              = map (on_value json_of) d).
  { clear. induction d as [|[k v] d IH]; cbn [map on_value fst snd]; [reflexivity|]. now rewrite IH. }
  rewrite H, sort_map, map_map. reflexivity.
Qed.

Lemma json_of_denotes v : denotes (json_of v) v.
Proof.
  induction v as [|z|t|d|l IH|d IH] using value_induction; try constructor.
  - induction IH; cbn [map]; constructor; assumption.
  - rewrite json_of_dict. econstructor; [apply sort_perm|].
    assert (H : Forall (fun e => denotes (json_of (snd e)) (snd e)) (sort_entries d))
      by (eapply Permutation_Forall; [apply sort_perm|exact IH]).
    induction H as [|e l He _ IHl]; cbn [map]; constructor; [|exact IHl]. split; [reflexivity|exact He].
Qed.
Lemma json_of_ordered v : ordered (json_of v).
Proof.
  induction v as [|z|t|d|l IH|d IH] using value_induction; [constructor|constructor|constructor|constructor| |].
  - constructor. now rewrite Forall_map.
  - rewrite json_of_dict. constructor.
    + rewrite map_map. apply (sort_sorted d).
    + rewrite Forall_map. eapply Permutation_Forall; [apply sort_perm|exact IH].
Qed.

Lemma skip_newline depth t : skip_space (newline depth ++ t) = skip_space t.
Proof.
  unfold newline. cbn [app skip_space]. change (is_space 10) with true. cbv iota.
  induction (4 * depth)%nat as [|n IH]; cbn [repeat app skip_space]; [reflexivity|]. exact IH.
Qed.
Lemma value_newline f depth t : value f (newline depth ++ t) = value f t.
Proof. destruct f; [reflexivity|]. cbn [value]. now rewrite skip_newline. Qed.

Lemma s2t_scalar s : Forall scalar (s2t s).
Proof.
  unfold s2t. rewrite Forall_map. apply Forall_forall. intros a _. left.
  pose proof (N_ascii_bounded a). lia.
Qed.

(** The first character of a value. *)
Definition starts (c : N) : Prop := c = 110 \/ c = 34 \/ c = 45 \/ c = 91 \/ c = 123 \/ is_digit c = true.
Lemma dec_starts n : exists c r, dec_text n = c :: r /\ is_digit c = true.
Proof.
  unfold dec_text.
  assert (HL : Forall (fun d => d < 10) (digits 10 n)) by (apply digits_aux_lt; [lia|constructor]).
  destruct (digits_aux_head (S (N.size_nat n)) n [] (size_10 n)) as (d & D & HD & _); [lia|].
  fold (digits 10 n) in HD. rewrite HD in *. inversion HL; subst. cbn [map].
  eexists _, _. split; [reflexivity|]. rewrite digit_char_10 by assumption. unfold is_digit. lia.
Qed.
Lemma dumps_starts depth v : exists c r, dumps depth v = c :: r /\ starts c.
Proof.
  unfold starts. destruct v as [|z|t|d|l|d].
  - eexists _, _. split; [reflexivity|]. cbn. tauto.
  - cbn [dumps]. unfold decZ_text. destruct (z <? 0)%Z.
    + eexists _, _. split; [reflexivity|]. tauto.
    + destruct (dec_starts (Z.abs_N z)) as (c & r & E & H). exists c, r. split; [exact E|]. tauto.
  - eexists _, _. split; [reflexivity|]. tauto.
  - eexists _, _. split; [reflexivity|]. tauto.
  - cbn [dumps]. unfold container. destruct (map _ _); eexists _, _; (split; [reflexivity|]); tauto.
  - rewrite dumps_dict. unfold container. destruct (map _ _); eexists _, _; (split; [reflexivity|]); tauto.
Qed.
Lemma starts_skip c r : starts c -> skip_space (c :: r) = c :: r.
Proof.
  unfold starts, is_digit. intros H. cbn [skip_space].
  replace (is_space c) with false; [reflexivity|]. symmetry. unfold is_space. cbn [existsb]. lia.
Qed.
Lemma starts_not_close c : starts c -> (c =? 93) = false.
Proof. unfold starts, is_digit. intros H. lia. Qed.

(** What may follow a value. *)
Lemma ends_newline depth r : ends_number (newline depth ++ r).
Proof. split; reflexivity. Qed.
Lemma ends_comma r : ends_number (44 :: r).
Proof. split; reflexivity. Qed.

Definition reads (v : pyval) : Prop := forall depth rest f,
  ends_number rest -> (2 * length (dumps depth v ++ rest) <= f)%nat ->
  value f (dumps depth v ++ rest) = Some (json_of v, rest).

Lemma read_elements depth rest l : forall f, l <> [] -> Forall reads l ->
  (2 * length (newline (S depth) ++ join (44%N :: newline (S depth)) (map (dumps (S depth)) l) ++ newline depth ++ 93%N :: rest) + 1 <= f)%nat ->
  elements f (newline (S depth) ++ join (44 :: newline (S depth)) (map (dumps (S depth)) l) ++ newline depth ++ 93 :: rest)
  = Some (map json_of l, rest).
Proof.
  induction l as [|v l IH]; intros f Hn H Hf; [congruence|].
  destruct f as [|f]; [lia|]. apply Forall_cons_iff in H as [Hv Hl]. cbn [elements].
  rewrite value_newline. destruct l as [|w l].
  - cbn [map join]. cbn [map join] in Hf. rewrite Hv.
    + rewrite skip_newline. cbn [skip_space]. reflexivity.
    + apply ends_newline.
    + rewrite app_length in Hf. lia.
  - change (join (44 :: newline (S depth)) (map (dumps (S depth)) (v :: w :: l)))
      with (dumps (S depth) v ++ (44 :: newline (S depth)) ++ join (44 :: newline (S depth)) (map (dumps (S depth)) (w :: l))) in *.
    rewrite <- !app_assoc in *. rewrite Hv.
    + cbn [app skip_space]. change (is_space 44) with false. cbv iota. rewrite N.eqb_refl.
      rewrite IH; [reflexivity|discriminate|assumption|].
      repeat (rewrite app_length in * || cbn [length] in * ). lia.
    + apply ends_comma.
    + rewrite app_length in Hf. lia.
Qed.

Lemma json_string_app t r : json_string t ++ r = 34 :: flat_map json_char t ++ 34 :: r.
Proof. unfold json_string. cbn [app]. now rewrite <- app_assoc. Qed.

Lemma read_members depth rest l : forall f, l <> [] -> Forall (fun e => reads (snd e)) l ->
  (2 * length (newline (S depth) ++ join (44%N :: newline (S depth)) (map (member_text depth) l) ++ newline depth ++ 125%N :: rest) + 1 <= f)%nat ->
  members f (newline (S depth) ++ join (44 :: newline (S depth)) (map (member_text depth) l) ++ newline depth ++ 125 :: rest)
  = Some (map member_json l, rest).
Proof.
  induction l as [|[k v] l IH]; intros f Hn H Hf; [congruence|].
  destruct f as [|f]; [lia|]. apply Forall_cons_iff in H as [Hv Hl]. cbn [snd] in Hv. cbn [members].
  rewrite skip_newline.
  assert (S1 : forall X, skip_space (member_text depth (k, v) ++ X)
    = 34 :: flat_map json_char (s2t k) ++ 34 :: 58 :: 32 :: dumps (S depth) v ++ X).
  { intros X. unfold member_text. cbn [fst snd]. rewrite <- app_assoc, json_string_app. reflexivity. }
  assert (S2 : forall g X, ends_number X -> (2 * length (member_text depth (k, v) ++ X) <= g)%nat ->
    value g (32 :: dumps (S depth) v ++ X) = Some (json_of v, X)).
  { intros g X H1 H2. unfold member_text in H2. cbn [fst snd] in H2.
    rewrite <- (Hv (S depth) X g H1).
    - destruct g; [reflexivity|]. reflexivity.
    - rewrite !app_length in *. lia. }
  destruct l as [|w l].
  - cbn [map join] in *. rewrite S1. rewrite N.eqb_refl, read_chars by apply s2t_scalar.
    cbn [skip_space]. change (is_space 58) with false. cbv iota. rewrite N.eqb_refl.
    rewrite S2.
    + rewrite skip_newline. cbn [skip_space]. reflexivity.
    + apply ends_newline.
    + rewrite app_length in Hf. lia.
  - change (join (44 :: newline (S depth)) (map (member_text depth) ((k, v) :: w :: l)))
      with (member_text depth (k, v) ++ (44 :: newline (S depth)) ++ join (44 :: newline (S depth)) (map (member_text depth) (w :: l))) in *.
    rewrite <- !app_assoc in *. rewrite S1. rewrite N.eqb_refl, read_chars by apply s2t_scalar.
    cbn [skip_space]. change (is_space 58) with false. cbv iota. rewrite N.eqb_refl.
    rewrite S2.
    + cbn [app skip_space]. change (is_space 44) with false. cbv iota. rewrite N.eqb_refl.
      rewrite IH; [reflexivity|discriminate|assumption|].
      repeat (rewrite app_length in * || cbn [length] in * ). lia.
    + apply ends_comma.
    + rewrite app_length in Hf. lia.
Qed.

Lemma iso_scalar d : valid_datetime d -> Forall scalar (iso8601 d).
Proof.
  intros H. rewrite <- isoformat_iso by assumption.
  assert (A : forall w z, ascii_only (pad_dec w z)).
  { intros w z. unfold pad_dec, pad0, decZ_text. apply app_ascii.
    - apply Forall_forall. intros x Hx. apply repeat_spec in Hx. subst. reflexivity.
    - destruct (z <? 0)%Z; [constructor; [reflexivity|]|]; apply digits_ascii; lia. }
  apply ascii_scalar. unfold isoformat.
  repeat (apply app_ascii; [first [apply A|apply s2t_ascii]|]). apply s2t_ascii.
Qed.

Lemma read_dumps K v : well_formed (Forall scalar) K v -> reads v.
Proof.
  induction v as [|z|t|d|l IH|d IH] using value_induction; intros Hw depth rest f Hr Hf.
  - destruct f as [|f]; [cbn in Hf; lia|]. reflexivity.
  - cbn [dumps json_of] in *. unfold decZ_text in *.
    destruct (dec_starts (Z.abs_N z)) as (c & r & E & Hc). destruct (z <? 0)%Z eqn:Ez.
    + destruct f as [|f]; [cbn in Hf; lia|]. cbn [app value]. cbn [skip_space]. change (is_space 45) with false. cbv iota.
      change (45 =? 110) with false. change (45 =? 116) with false. change (45 =? 102) with false.
      change (45 =? 34) with false. change (45 =? 45) with true. cbv iota.
      rewrite natural_dec by assumption. do 3 f_equal. lia.
    + destruct f as [|f]; [rewrite E in Hf; cbn in Hf; lia|]. cbn [value].
      assert (Hs : skip_space (dec_text (Z.abs_N z) ++ rest) = c :: r ++ rest).
      { rewrite E. apply starts_skip. unfold starts. tauto. }
      rewrite Hs. change (c :: r ++ rest) with ((c :: r) ++ rest). rewrite <- E, natural_dec by assumption.
      unfold is_digit in Hc.
      replace (c =? 110) with false by lia. replace (c =? 116) with false by lia. replace (c =? 102) with false by lia.
      replace (c =? 34) with false by lia. replace (c =? 45) with false by lia. replace (c =? 91) with false by lia.
      replace (c =? 123) with false by lia. do 3 f_equal. lia.
  - cbn [dumps json_of] in *. rewrite json_string_app in *. destruct f as [|f]; [cbn in Hf; lia|].
    cbn [value skip_space]. change (is_space 34) with false. cbv iota.
    change (34 =? 110) with false. change (34 =? 116) with false. change (34 =? 102) with false.
    change (34 =? 34) with true. cbv iota. now rewrite read_chars.
  - cbn [dumps json_of] in *. rewrite json_string_app in *. destruct f as [|f]; [cbn in Hf; lia|].
    cbn [value skip_space]. change (is_space 34) with false. cbv iota.
    change (34 =? 110) with false. change (34 =? 116) with false. change (34 =? 102) with false.
    change (34 =? 34) with true. cbv iota. rewrite isoformat_iso by exact Hw. rewrite read_chars; [reflexivity|].
    now apply iso_scalar.
  - apply wf_list in Hw.
    assert (HR : Forall reads l).
    { rewrite Forall_forall in *. intros v Hv. apply IH; [exact Hv|]. now apply Hw. }
    cbn [dumps json_of] in *. unfold container in *. destruct l as [|v l].
    + cbn [map] in *. destruct f as [|f]; [cbn in Hf; lia|]. reflexivity.
    + remember (map (dumps (S depth)) (v :: l)) as es eqn:Ees. destruct es as [|e es]; [discriminate|]. rewrite Ees in *.
      clear e es Ees.
      destruct f as [|f]; [cbn in Hf; lia|]. cbn [app] in *. rewrite <- !app_assoc in *. cbn [app] in *.
      cbn [value skip_space]. change (is_space 91) with false. cbv iota.
      change (91 =? 110) with false. change (91 =? 116) with false. change (91 =? 102) with false.
      change (91 =? 34) with false. change (91 =? 45) with false. change (91 =? 91) with true. cbv iota.
      rewrite read_elements; [|discriminate|exact HR|cbn [length] in Hf; lia].
      rewrite skip_newline.
      destruct (dumps_starts (S depth) v) as (c & r & E & Hc).
      assert (Hs : exists r', skip_space (join (44 :: newline (S depth)) (map (dumps (S depth)) (v :: l)) ++ newline depth ++ 93 :: rest) = c :: r').
      { cbn [map join]. rewrite E. destruct (map (dumps (S depth)) l); cbn [app]; eexists; apply starts_skip, Hc. }
      destruct Hs as [r' ->]. rewrite starts_not_close by exact Hc. reflexivity.
  - apply wf_dict in Hw as (_ & _ & Hw).
    assert (HR : Forall (fun e => reads (snd e)) (sort_entries d)).
    { eapply Permutation_Forall; [apply sort_perm|]. rewrite Forall_forall in *. intros v Hv. apply IH; [exact Hv|]. now apply Hw. }
    rewrite dumps_dict in *. rewrite json_of_dict. unfold container in *. destruct (sort_entries d) as [|e l].
    + cbn [map] in *. destruct f as [|f]; [cbn in Hf; lia|]. reflexivity.
    + remember (map (member_text depth) (e :: l)) as es eqn:Ees. destruct es as [|e1 es]; [discriminate|]. rewrite Ees in *.
      clear e1 es Ees.
      destruct f as [|f]; [cbn in Hf; lia|]. cbn [app] in *. rewrite <- !app_assoc in *. cbn [app] in *.
      cbn [value skip_space]. change (is_space 123) with false. cbv iota.
      change (123 =? 110) with false. change (123 =? 116) with false. change (123 =? 102) with false.
      change (123 =? 34) with false. change (123 =? 45) with false. change (123 =? 91) with false.
      change (123 =? 123) with true. cbv iota.
      rewrite read_members; [|discriminate|exact HR|cbn [length] in Hf; lia].
      rewrite skip_newline.
      assert (Hs : exists r', skip_space (join (44 :: newline (S depth)) (map (member_text depth) (e :: l)) ++ newline depth ++ 125 :: rest) = 34 :: r').
      { cbn [map join].
        destruct (map (member_text depth) l); unfold member_text at 1, json_string; cbn [app]; eexists; reflexivity. }
      destruct Hs as [r' ->]. reflexivity.
Qed.

(** ** Whole documents *)

Lemma read_text K d : well_formed (Forall scalar) K (PDict d) ->
  read_json (print_json_text d) = Some (json_of (PDict d)).
Proof.
  intros H. unfold read_json, print_json_text.
  pose proof (read_dumps K (PDict d) H 0%nat [] (2 * length (dumps 0 (PDict d)) + 1)%nat I) as E.
  rewrite app_nil_r in E. rewrite E by lia. reflexivity.
Qed.

(** Every character is printable ASCII or a line feed. *)
Lemma plain_app a b : plain a -> plain b -> plain (a ++ b).
Proof. intros. now apply Forall_app. Qed.
Lemma plain_digits base n : 0 < base <= 16 -> plain (map (digit_char false) (digits base n)).
Proof.
  intros Hb. unfold plain. rewrite Forall_map.
  eapply Forall_impl; [|apply digits_aux_lt; [lia|constructor]].
  cbn beta. intros d Hd. unfold digit_char. destruct (d <? 10) eqn:E; lia.
Qed.
Lemma plain_pad w t : plain t -> plain (pad0 w t).
Proof.
  intros H. apply plain_app; [|exact H]. apply Forall_forall. intros x Hx. apply repeat_spec in Hx. lia.
Qed.
Lemma plain_u n : plain (u_escape n).
Proof. apply plain_app; [repeat constructor; cbn; lia|]. apply plain_pad, plain_digits. lia. Qed.
Lemma plain_char c : plain (json_char c).
Proof.
  unfold json_char.
  assert (P : forall a b, 32 <= a <= 126 -> 32 <= b <= 126 -> plain [a; b])
    by (intros; constructor; [lia|constructor; [lia|constructor]]).
  destruct (c =? 34); [apply P; lia|]. destruct (c =? 92); [apply P; lia|].
  destruct (c =? 10); [apply P; cbn; lia|]. destruct (c =? 13); [apply P; cbn; lia|].
  destruct (c =? 9); [apply P; cbn; lia|]. destruct (c =? 12); [apply P; cbn; lia|].
  destruct (c =? 8); [apply P; cbn; lia|].
  destruct ((32 <=? c) && (c <=? 126)) eqn:E; [constructor; [lia|constructor]|].
  destruct (c <? 65536); [apply plain_u|]. apply plain_app; apply plain_u.
Qed.
Lemma plain_string t : plain (json_string t).
Proof.
  apply plain_app; [repeat constructor; lia|]. apply plain_app; [|repeat constructor; lia].
  induction t as [|c t IH]; cbn [flat_map]; [constructor|]. apply plain_app; [apply plain_char|exact IH].
Qed.
Lemma plain_newline d : plain (newline d).
Proof. constructor; [lia|]. apply Forall_forall. intros x Hx. apply repeat_spec in Hx. lia. Qed.
Lemma plain_join sep l : plain sep -> Forall plain l -> plain (join sep l).
Proof.
  intros Hs H. induction H as [|x l Hx Hl IH]; [constructor|]. destruct l as [|y l]; [exact Hx|].
  change (join sep (x :: y :: l)) with (x ++ sep ++ join sep (y :: l)).
  apply plain_app; [exact Hx|]. apply plain_app; [exact Hs|exact IH].
Qed.
Lemma plain_container a b d l : 32 <= a <= 126 -> 32 <= b <= 126 -> Forall plain l -> plain (container a b d l).
Proof.
  intros Ha Hb H. unfold container. destruct l as [|x l]; [repeat constructor; lia|].
  constructor; [lia|]. apply plain_app; [apply plain_newline|].
  apply plain_app; [apply plain_join; [|exact H]|].
  - constructor; [lia|apply plain_newline].
  - apply plain_app; [apply plain_newline|repeat constructor; lia].
Qed.
Lemma plain_dumps v : forall depth, plain (dumps depth v).
Proof.
  induction v as [|z|t|d|l IH|d IH] using value_induction; intros depth.
  - repeat constructor; cbn; lia.
  - cbn [dumps]. unfold decZ_text, dec_text. destruct (z <? 0)%Z; [constructor; [lia|]|]; apply plain_digits; lia.
  - apply plain_string.
  - apply plain_string.
  - cbn [dumps]. apply plain_container; [lia|lia|]. rewrite Forall_map. eapply Forall_impl; [|exact IH]. cbn. auto.
  - rewrite dumps_dict. apply plain_container; [lia|lia|]. rewrite Forall_map.
    eapply Permutation_Forall; [apply sort_perm|]. eapply Forall_impl; [|exact IH]. cbn beta. intros e He.
    apply plain_app; [apply plain_string|]. apply plain_app; [repeat constructor; cbn; lia|apply He].
Qed.

(** ** Every report *)

Lemma cp1252_text : text_page cp1252.
Proof.
  assert (H : forall b, Forall (fun o => match o with Some c => scalar c | None => True end) (map cp1252_char b)).
  { intros b. rewrite Forall_map. apply Forall_forall. intros x _. unfold cp1252_char.
    pose proof (b2n_lt x) as Hx. destruct ((128 <=? b2n x) && (b2n x <? 160)) eqn:E.
    - assert (HT : Forall (fun o => match o with Some c => scalar c | None => True end) cp1252_high)
        by (repeat constructor; cbn; lia).
      destruct (nth_in_or_default (N.to_nat (b2n x - 128)) cp1252_high None) as [Hi|Hd].
      + rewrite Forall_forall in HT. exact (HT _ Hi).
      + rewrite Hd. exact I.
    - left. lia. }
  split.
  - intros b t Hs. cbn [cp1252 event_codec strict] in Hs. specialize (H b). revert t Hs.
    induction H as [|o l Ho _ IH]; intros t Hs; cbn [all_some] in Hs; [injection Hs as <-; constructor|].
    destruct o as [c|]; [|discriminate]. destruct (all_some l); [|discriminate]. injection Hs as <-. constructor; auto.
  - intros b. cbn [cp1252 event_codec replace]. specialize (H b). unfold replaced.
    induction H as [|o l Ho _ IH]; cbn [map]; [constructor|]. constructor; [|exact IH].
    destruct o as [c|]; [exact Ho|]. right. lia.
Qed.
Lemma page_gives cp c : text_page (page_of cp) -> tp_codec cp = Some c ->
  (forall b t, strict c b = Some t -> Forall scalar t) /\ (forall b, Forall scalar (replace c b)).
Proof. intros H E. destruct cp; cbn in E; try discriminate; injection E as <-; exact H. Qed.

Lemma init_strings src cp allow l : snd (lnk_init src cp allow) = Ok l ->
  l_cp l = cp /\ exists b, snd (string_data_init (l_header l) cp b) = Ok (l_string_data l).
Proof.
  assert (P : forall b, snd (process b cp allow) = Ok l ->
    l_cp l = cp /\ exists b, snd (string_data_init (l_header l) cp b) = Ok (l_string_data l)).
  { intros b. unfold process. intros H. apply snd_bind_Ok in H as (hd & _ & H).
    apply snd_bind_Ok in H as (idx & _ & H). apply snd_bind_Ok in H as (ht & _ & H).
    apply snd_bind_Ok in H as ([tg i1] & _ & H). apply snd_bind_Ok in H as (hi & _ & H).
    apply snd_bind_Ok in H as ([inf i2] & _ & H). apply snd_bind_Ok in H as (sd & Hsd & H).
    apply snd_bind_Ok in H as (ex & _ & H). apply snd_bind_Ok in H as (sz & _ & H).
    injection H as <-. split; [reflexivity|]. exists (dropN i2 b). exact Hsd. }
  intros H. destruct src as [b|[|x b]]; [exact (P _ H)|discriminate|exact (P _ H)].
Qed.

Lemma report_wf (T : text -> Prop) (K : list string -> Prop) src cp allow l all d :
  (forall t, Forall scalar t -> T t) -> (forall ks, unconfused ks = true -> K ks) ->
  (forall c, tp_codec cp = Some c ->
     (forall b t, strict c b = Some t -> T t) /\ (forall b, T (replace c b))) ->
  snd (lnk_init src cp allow) = Ok l -> snd (get_json l all) = Ok d -> well_formed T K (PDict d).
Proof.
  intros HT HK HP Hl Hd. destruct (init_strings _ _ _ _ Hl) as (Hcp & b & Hsd).
  assert (W : forall d, snd (full_json l) = Ok d -> well_formed T (fun ks => unconfused ks = true) (PDict d)).
  { apply (g_full T (fun ks => unconfused ks = true) HT (fun _ H => H) cp HP l Hcp).
    exact (g_strings T (fun ks => unconfused ks = true) HT cp HP _ _ _ Hsd). }
  assert (M : forall v, well_formed T (fun ks => unconfused ks = true) v -> well_formed T K v).
  { clear - HK. induction v as [|z|t|d|l IH|d IH] using value_induction; intros H; try exact H.
    - apply wf_list in H. apply wf_list. rewrite Forall_forall in *. auto.
    - apply wf_dict in H as (H1 & H2 & H3). apply wf_dict. split; [exact H1|]. split; [auto|].
      rewrite Forall_forall in *. auto. }
  apply M. pose proof (report_abridged l) as [_ HA].
  destruct all.
  - unfold get_json in Hd. apply W. destruct (full_json l) as [w [f|e]]; [|discriminate]. exact Hd.
  - rewrite Hd in HA. destruct (snd (get_json l true)) as [f|] eqn:Ef; [|contradiction]. rewrite HA.
    apply abridged_wf, W. unfold get_json in Ef. destruct (full_json l) as [w [g|e]]; [|discriminate]. exact Ef.
Qed.

Lemma value_json K d : well_formed (Forall scalar) K (PDict d) ->
  exists j, read_json (print_json_text d) = Some j /\ denotes j (PDict d) /\ ordered j.
Proof.
  intros H. exists (json_of (PDict d)). split; [now apply (read_text K)|]. split; [apply json_of_denotes|apply json_of_ordered].
Qed.
Lemma text_determines K d d' : well_formed (Forall scalar) K (PDict d) -> well_formed (Forall scalar) K (PDict d') ->
  print_json_text d = print_json_text d' -> exists j, denotes j (PDict d) /\ denotes j (PDict d').
Proof.
  intros H H' E. pose proof (read_text K d H) as R. pose proof (read_text K d' H') as R'. rewrite E, R' in R.
  assert (R2 : json_of (PDict d') = json_of (PDict d)) by congruence.
  exists (json_of (PDict d)). split; [apply json_of_denotes|]. rewrite <- R2. apply json_of_denotes.
Qed.
Lemma printed_json src cp allow l all d :
  text_page (page_of cp) -> snd (lnk_init src cp allow) = Ok l -> snd (get_json l all) = Ok d ->
  exists j, read_json (print_json_text d) = Some j /\ denotes j (PDict d) /\ ordered j.
Proof.
  intros HP Hl Hd. apply (value_json (fun _ => True)).
  exact (report_wf (Forall scalar) (fun _ => True) src cp allow l all d
    (fun _ H => H) (fun _ _ => I) (fun c => page_gives cp c HP) Hl Hd).
Qed.
