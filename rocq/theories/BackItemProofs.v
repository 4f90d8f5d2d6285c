(** * What can be read back from a report: items *)
From Verif Require Import Lemmas PyTime Codec Utils Sha256 Header StringData Targets Info Extra LnkFile Report.
From Verif Require Import ApiProofs.
From Verif Require Import Spec SpecText SpecHeader SpecTime SpecDouble SpecItems SpecInfo SpecExtra SpecOutcome SpecEntries SpecBlocks SpecWhole SpecBack.
From Verif Require Import LayoutProofs EncProofs TextProofs TimeProofs FormatProofs WholeProofs JsonTextProofs BackProofs.

(** ** The class of an item as a number *)
Definition code_of (ty : N) : N :=
  match ty / 16 mod 8 with
  | 2 => 2 | 3 => 3 | 4 => 4
  | _ =>
    match ty with
    | 0x00 => 0 | 0x01 => 1 | 0x1E | 0x1F => 0x1F | 0x52 => 0x52 | 0x61 => 0x61
    | 0x70 | 0x71 => 0x71 | 0x72 => 0x72 | 0x73 => 0x73 | 0x74 => 0x74 | _ => 0xFF
    end
  end.
Definition codes : list N := [2; 3; 4; 0; 1; 0x1F; 0x52; 0x61; 0x71; 0x72; 0x73; 0x74; 0xFF].
Definition name_of (c : N) : string :=
  match c with
  | 2 => "Volume Item" | 3 => "File entry" | 4 => "Network location" | 0 => "Control panel CPL file" | 1 => "Control panel category"
  | 0x1F => "Root Folder" | 0x52 => "Compressed folder" | 0x61 => "Internet" | 0x71 => "Control panel" | 0x72 => "Printers"
  | 0x73 => "Common places folder" | 0x74 => "Users files folder" | _ => "Unknown"
  end%string.
Definition entry_by (c ty : N) (cp : cp_arg) (size : N) (fields : bytes) : dict :=
  match c with
  | 2 =>
    [("class", PS "Volume Item"); ("flags", PStr (hex_digit_of (ty mod 16)));
     if N.testbit ty 0 then ("volume_name", PStr (field_text cp (slice 1 21 fields)))
     else ("volume_identifier", PStr (guid_text (slice 2 18 fields)))]
  | 3 => 
    [("class", PS "File entry"); ("flags", PS (flags_text ty)); ("file_size", PN (num 4 2 fields));
     ("modification_time", POpt PDate (fat_shown (num 4 6 fields))); ("file_attribute_flags", PN (num 2 10 fields));
     ("primary_name", PStr (stored_text (N.testbit ty 2) cp (dropN 12 fields)))]%string
  | 4 =>
    [("class", PS "Network location"); ("flags", PS (flags_text ty)); ("content_flags", PN (num 1 2 fields));
     ("location", PStr (field_text cp (network_location_at fields)));
     ("description", POpt PStr (option_map (field_text cp) (network_description fields)));
     ("comments", POpt PStr (option_map (field_text cp) (network_comments fields)))]
  | 0 =>
      [("class", PS "Control panel CPL file"); ("signature", PStr (hex32 (num 4 2 fields)));
       ("cpl_file_path", PStr (stored_text (cpl_wide fields) cp (cpl_string fields 0)));
       ("name", PStr (stored_text (cpl_wide fields) cp (cpl_string fields (cpl_name_offset_of fields))));
       ("comments",
         PStr (if (cpl_comments_offset_of fields =? 0)%N then []
               else stored_text (cpl_wide fields) cp (cpl_string fields (cpl_comments_offset_of fields))))]
  | 1 =>
      [("class", PS "Control panel category"); ("category_id", PN (num 4 6 fields));
       ("category", PS (or_unknown (category_name (num 4 6 fields))))]
  | 0x1F =>
      [("class", PS "Root Folder"); ("sort_index", PS (or_unknown (sort_name (num 1 1 fields))));
       ("sort_index_value", PN (num 1 1 fields)); ("guid", PStr (guid_text (slice 2 18 fields)))]
  | 0x71 => [("class", PS "Control panel"); ("item_identifier", PStr (guid_text (slice 14 30 fields)))]
  | 0x74 =>
      [("class", PS "Users files folder"); ("signature", PStr (ascii_or_replacement (slice 4 8 fields)));
       ("file_entry", PDict (file_entry_of cp (slice 10 (10 + num 2 8 fields) fields)));
       ("delegate_class_id", PStr (guid_text (slice (4 + num 2 2 fields) (20 + num 2 2 fields) fields)));
       ("delegate_folder_id", PStr (guid_text (slice (20 + num 2 2 fields) (36 + num 2 2 fields) fields)))]
  | 0xFF => [("class", PS "Unknown"); ("size", PN (2 + size))]
  | c => [("class", PS (name_of c))]
  end%string.
Definition error_by (c ty : N) (fields : bytes) : option exn :=
  match c with
  | 2 => if N.testbit ty 0 then None else needs 18 fields
  | 3 => needs 12 fields
  | 4 => after_all (needs 3 fields)
      (if nuls (dropN 3 fields) <? extra_strings (num 1 2 fields) then Some RuntimeError else None)
  | 0 | 1 => needs 10 fields
  | 0x1F => needs 18 fields
  | 0x71 => needs 30 fields
  | 0x74 =>
      after_all (needs 10 fields)
        (after_all (needs 12 (slice 10 (10 + num 2 8 fields) fields)) (needs (36 + num 2 2 fields) fields))
  | _ => None
  end.
Lemma code_in_byte b : existsb (N.eqb (code_of (b2n b))) codes = true.
Proof. destruct b; reflexivity. Qed.
Lemma name_of_byte b : class_of_type (b2n b) = name_of (code_of (b2n b)).
Proof. destruct b; reflexivity. Qed.
Lemma error_byte b f : item_error (b2n b) f = error_by (code_of (b2n b)) (b2n b) f.
Proof. destruct b; reflexivity. Qed.
Lemma byte_of ty : ty < 256 -> exists b, ty = b2n b.
Proof.
  intros H. exists (n2b ty). unfold n2b, b2n. rewrite N.mod_small by lia. destruct (Byte.of_N ty) eqn:E; [symmetry; now apply Byte.to_of_N|].
  apply Byte.of_N_None_iff in E. lia.
Qed.
Lemma type_byte f : exists b, num 1 0 f = b2n b.
Proof. apply byte_of. apply (num_lt 1 0 f). Qed.
Lemma entry_byte b cp size f : num 1 0 f = b2n b -> entry_of cp size f = entry_by (code_of (b2n b)) (b2n b) cp size f.
Proof. intros E. unfold entry_of, file_entry_of. rewrite E. cbv zeta. destruct b; reflexivity. Qed.
Lemma names_apart : forallb (fun c1 => forallb (fun c2 => implb (String.eqb (name_of c1) (name_of c2)) (c1 =? c2)) codes) codes = true.
Proof. reflexivity. Qed.
Lemma code_inj b1 b2 : class_of_type (b2n b1) = class_of_type (b2n b2) -> code_of (b2n b1) = code_of (b2n b2).
Proof.
  rewrite !name_of_byte. intros E. pose proof (code_in_byte b1) as H1. pose proof (code_in_byte b2) as H2.
  apply existsb_exists in H1 as (c1 & I1 & F1). apply existsb_exists in H2 as (c2 & I2 & F2). apply N.eqb_eq in F1, F2.
  rewrite F1, F2 in *. pose proof names_apart as A. rewrite forallb_forall in A. specialize (A _ I1). rewrite forallb_forall in A.
  specialize (A _ I2). rewrite E, String.eqb_refl in A. now apply N.eqb_eq.
Qed.

(** ** Texts and times that tell a number *)
Lemma hex_bytes_inj l1 : forall l2, flat_map hex_of_byte l1 = flat_map hex_of_byte l2 -> l1 = l2.
Proof.
  induction l1 as [|x l1 IH]; intros [|y l2] H; [reflexivity|discriminate H..|]. cbn [flat_map] in H.
  assert (E : hex_of_byte x = hex_of_byte y) by exact (f_equal (firstn 2) H).
  rewrite E in H. apply app_inv_head in H. apply hex_of_byte_inj in E. now rewrite E, (IH _ H).
Qed.
Lemma hex32_inj a b : fits32 a -> fits32 b -> hex32 a = hex32 b -> a = b.
Proof.
  intros Ha Hb H. unfold hex32 in H. apply app_inv_head, hex_bytes_inj in H. apply (f_equal (@rev byte)) in H. rewrite !rev_involutive in H.
  rewrite <- (le_val_enc32 a Ha), <- (le_val_enc32 b Hb). now rewrite H.
Qed.
Lemma hex_digit_inj a b : a < 16 -> b < 16 -> hex_digit_of a = hex_digit_of b -> a = b.
Proof.
  intros Ha Hb H. unfold hex_digit_of in H. apply app_inv_head in H.
  assert (H' : nth (N.to_nat a) hex_lower 0 = nth (N.to_nat b) hex_lower 0) by exact (f_equal (hd 0) H). clear H.
  assert (A : forallb (fun i => forallb (fun j => implb (nth i hex_lower 0 =? nth j hex_lower 0) (Nat.eqb i j)) (seq 0 16)) (seq 0 16) = true) by reflexivity.
  rewrite forallb_forall in A. assert (Ia : In (N.to_nat a) (seq 0 16)) by (apply in_seq; lia).
  assert (Ib : In (N.to_nat b) (seq 0 16)) by (apply in_seq; lia).
  specialize (A _ Ia). cbv beta in A. rewrite forallb_forall in A. specialize (A _ Ib). cbv beta in A.
  unfold text in *. rewrite H', N.eqb_refl in A. apply Nat.eqb_eq in A. lia.
Qed.
Lemma fat_parts n : n = n mod 32 + 32 * (n / 32 mod 16) + 512 * (n / 512 mod 128) + 65536 * (n / 65536 mod 32) + 2097152 * (n / 2097152 mod 64) + 134217728 * (n / 134217728).
Proof.
  pose proof (N.div_mod n 32 ltac:(lia)) as H1. pose proof (N.div_mod (n / 32) 16 ltac:(lia)) as H2.
  pose proof (N.div_mod (n / 512) 128 ltac:(lia)) as H3. pose proof (N.div_mod (n / 65536) 32 ltac:(lia)) as H4.
  pose proof (N.div_mod (n / 2097152) 64 ltac:(lia)) as H5.
  replace (n / 32 / 16) with (n / 512) in H2 by (rewrite N.div_div by lia; reflexivity).
  replace (n / 512 / 128) with (n / 65536) in H3 by (rewrite N.div_div by lia; reflexivity).
  replace (n / 65536 / 32) with (n / 2097152) in H4 by (rewrite N.div_div by lia; reflexivity).
  replace (n / 2097152 / 64) with (n / 134217728) in H5 by (rewrite N.div_div by lia; reflexivity).
  generalize dependent (n / 32 mod 16). generalize dependent (n / 512 mod 128). generalize dependent (n / 65536 mod 32).
  generalize dependent (n / 2097152 mod 64). generalize dependent (n mod 32). generalize dependent (n / 134217728).
  generalize dependent (n / 2097152). generalize dependent (n / 65536). generalize dependent (n / 512). generalize dependent (n / 32).
  intros. lia.
Qed.
Lemma fat_inj a b : fat_datetime a = fat_datetime b -> a = b.
Proof.
  intros H. unfold fat_datetime in H. injection H as H1 H2 H3 H4 H5 H6.
  rewrite (fat_parts a), (fat_parts b).
  assert (E1 : a / 512 mod 128 = b / 512 mod 128) by (revert H1; generalize (a / 512 mod 128), (b / 512 mod 128); intros; lia).
  assert (E2 : a / 65536 mod 32 = b / 65536 mod 32) by (revert H6; generalize (a / 65536 mod 32), (b / 65536 mod 32); intros; lia).
  apply N2Z.inj in H2, H3, H4, H5. now rewrite E1, E2, H2, H3, H4, H5.
Qed.

(** ** Entries *)
Lemma needs_len n f : needs n f = None -> n <= lenN f.
Proof. unfold needs. destruct (N.ltb_spec (lenN f) n); [discriminate|trivial]. Qed.
Lemma fat_shown_back a b : fat_shown a = fat_shown b -> fat_alike a b.
Proof.
  unfold fat_alike. destruct (fat_shown a) as [t|] eqn:Ea; intros Eb; [|right; now split]. left. unfold fat_shown in Ea, Eb.
  destruct (a =? 0); [discriminate|]. destruct (fat_exists a); [|discriminate]. destruct (b =? 0); [discriminate|]. destruct (fat_exists b); [|discriminate].
  apply fat_inj. congruence.
Qed.
Lemma ps_same a b : PS a = PS b -> a = b.
Proof. intros H. apply s2t_inj. now apply ps_inj. Qed.
Lemma pstr_inj a b : PStr a = PStr b -> a = b.
Proof. now intros [=]. Qed.
Lemma file_back cp1 cp2 f1 f2 : 12 <= lenN f1 -> 12 <= lenN f2 -> file_entry_of cp1 f1 = file_entry_of cp2 f2 -> entries_alike f1 f2.
Proof.
  intros L1 L2 H. unfold file_entry_of in H. cbv zeta in H.
  apply cons_both in H as (_ & H). apply cons_both in H as (V1 & H). apply cons_both in H as (V2 & H). apply cons_both in H as (V3 & H).
  apply cons_both in H as (V4 & _). split; [|split; [|now apply ps_same]].
  - intros i j [[= <- <-]|[[= <- <-]|[]]].
    + apply (same_num 4 2); [lia..|now apply pn_inj].
    + apply (same_num 2 10); [lia..|now apply pn_inj].
  - apply fat_shown_back. now apply opt_date_inj.
Qed.
Lemma guid_back i f1 f2 : i + 16 <= lenN f1 -> i + 16 <= lenN f2 ->
  PStr (guid_text (slice i (i + 16) f1)) = PStr (guid_text (slice i (i + 16) f2)) -> slice i (i + 16) f1 = slice i (i + 16) f2.
Proof.
  intros L1 L2 E. apply pstr_inj in E. apply guid_text_inj in E; [exact E|..]; rewrite slice_num, lenN_takeN, lenN_dropN; unfold bytes in *; lia.
Qed.
Lemma guids_back i j f1 f2 : i + 16 <= lenN f1 -> j + 16 <= lenN f2 ->
  PStr (guid_text (slice i (i + 16) f1)) = PStr (guid_text (slice j (j + 16) f2)) -> slice i (i + 16) f1 = slice j (j + 16) f2.
Proof.
  intros L1 L2 E. apply pstr_inj in E. apply guid_text_inj in E; [exact E|..]; rewrite slice_num, lenN_takeN, lenN_dropN; unfold bytes in *; lia.
Qed.
Lemma entry_class_by c ty cp size f : In c codes -> exists r, entry_by c ty cp size f = ("class"%string, PS (name_of c)) :: r.
Proof. intros H. cbn [In codes] in H. repeat (destruct H as [<-|H]; [eexists; reflexivity|]). contradiction. Qed.
Lemma code_in b : In (code_of (b2n b)) codes.
Proof. pose proof (code_in_byte b) as H. apply existsb_exists in H as (c & I & E). apply N.eqb_eq in E. now rewrite E. Qed.

Lemma item_back cp1 cp2 s1 s2 f1 f2 :
  item_error (num 1 0 f1) f1 = None -> item_error (num 1 0 f2) f2 = None ->
  entry_of cp1 s1 f1 = entry_of cp2 s2 f2 -> items_alike (s1, f1) (s2, f2).
Proof.
  intros X1 X2 H. destruct (type_byte f1) as (y1 & T1), (type_byte f2) as (y2 & T2). unfold items_alike. cbv zeta.
  rewrite (entry_byte y1 cp1 s1 f1 T1), (entry_byte y2 cp2 s2 f2 T2) in H. rewrite T1, T2 in *.
  rewrite error_byte in X1, X2.
  assert (C : code_of (b2n y1) = code_of (b2n y2)).
  { apply code_inj. rewrite !name_of_byte.
    destruct (entry_class_by _ (b2n y1) cp1 s1 f1 (code_in y1)) as (r1 & E1). destruct (entry_class_by _ (b2n y2) cp2 s2 f2 (code_in y2)) as (r2 & E2).
    rewrite E1, E2 in H. apply cons_both in H as (H & _). now apply ps_same. }
  rewrite !name_of_byte. rewrite <- C in *. split; [reflexivity|].
  pose proof (code_in y1) as I. clear C. revert I X1 X2 H. generalize (code_of (b2n y1)) as c. intros c I.
  pose proof (b2n_lt y1) as B1. pose proof (b2n_lt y2) as B2.
  unfold codes in I. cbn [In] in I.
  destruct I as [<-|[<-|[<-|[<-|[<-|[<-|[<-|[<-|[<-|[<-|[<-|[<-|[<-|[]]]]]]]]]]]]]];
    cbv beta iota delta [error_by entry_by]; intros X1 X2 H; apply cons_both in H as (_ & H);
    (split; [|split; [intros K; try discriminate K|split; [intros K; try discriminate K|split; [intros K; try discriminate K|split; [intros K; try discriminate K|intros K; try discriminate K]]]]]);
    try (intros i j I; exfalso; exact I).
  - (* volume *)
    apply cons_both in H as (V & H). apply pstr_inj, hex_digit_inj in V; [|apply N.mod_lt; discriminate..].
    split; [exact V|]. intros Z1.
    assert (Z2 : N.testbit (b2n y2) 0 = false).
    { rewrite N.bit0_odd in *. pose proof (N.div_mod (b2n y1) 16 ltac:(lia)). pose proof (N.div_mod (b2n y2) 16 ltac:(lia)).
      rewrite <- Z1. replace (b2n y1) with (b2n y1 mod 16 + 2 * (8 * (b2n y1 / 16))) by lia. replace (b2n y2) with (b2n y2 mod 16 + 2 * (8 * (b2n y2 / 16))) by lia.
      rewrite !N.odd_add_mul_2. now rewrite V. }
    rewrite Z1 in H, X1. rewrite Z2 in H, X2. apply needs_len in X1, X2. apply cons_both in H as (V' & _).
    intros i j [[= <- <-]|[]]. now apply (guid_back 2).
  - (* file entry: ranges *)
    apply needs_len in X1, X2. intros i j I.
    apply cons_both in H as (V1 & H). apply cons_both in H as (V2 & H). apply cons_both in H as (V3 & H). apply cons_both in H as (V4 & _).
    destruct I as [[= <- <-]|[[= <- <-]|[]]].
    + apply (same_num 4 2); [lia..|now apply pn_inj].
    + apply (same_num 2 10); [lia..|now apply pn_inj].
  - apply needs_len in X1, X2. apply (file_back cp1 cp2); [assumption..|]. unfold file_entry_of. rewrite T1, T2. cbv zeta. f_equal. exact H.
  - (* network *)
    assert (L1 : 3 <= lenN f1) by (apply needs_len; destruct (needs 3 f1); [discriminate X1|reflexivity]).
    assert (L2 : 3 <= lenN f2) by (apply needs_len; destruct (needs 3 f2); [discriminate X2|reflexivity]).
    apply cons_both in H as (V1 & H). apply cons_both in H as (V2 & _). intros i j [[= <- <-]|[]]. apply (same_num 1 2); [lia..|now apply pn_inj].
  - apply cons_both in H as (V1 & H). now apply ps_same.
  - (* control panel file *)
    apply needs_len in X1, X2. apply cons_both in H as (V & _). apply pstr_inj, hex32_inj in V; [|apply (num_lt 4 2)..].
    intros i j [[= <- <-]|[]]. apply (same_num 4 2); [lia..|exact V].
  - (* category *)
    apply needs_len in X1, X2. apply cons_both in H as (V & _). intros i j [[= <- <-]|[]]. apply (same_num 4 6); [lia..|now apply pn_inj].
  - (* root *)
    apply needs_len in X1, X2. apply cons_both in H as (_ & H). apply cons_both in H as (V1 & H). apply cons_both in H as (V2 & _).
    intros i j [[= <- <-]|[]]. apply (same_join 1 2 18); [lia..| |].
    + apply (same_num 1 1); [lia..|now apply pn_inj].
    + now apply (guid_back 2).
  - (* control panel *)
    apply needs_len in X1, X2. apply cons_both in H as (V & _). intros i j [[= <- <-]|[]]. now apply (guid_back 14).
  - (* users files *)
    unfold after_all in X1, X2. destruct (needs 10 f1) eqn:N1; [discriminate X1|]. destruct (needs 10 f2) eqn:N2; [discriminate X2|].
    destruct (needs 12 (slice 10 (10 + num 2 8 f1) f1)) eqn:M1; [discriminate X1|]. destruct (needs 12 (slice 10 (10 + num 2 8 f2) f2)) eqn:M2; [discriminate X2|].
    apply needs_len in N1, N2, M1, M2, X1, X2.
    apply cons_both in H as (_ & H). apply cons_both in H as (V1 & H). apply cons_both in H as (V2 & H). apply cons_both in H as (V3 & _). split.
    + apply (file_back cp1 cp2); [assumption..|]. exact (f_equal (fun v => match v with PDict d => d | _ => [] end) V1).
    + unfold users_guids.
      rewrite <- (slice_join (4 + num 2 2 f1) (20 + num 2 2 f1) (36 + num 2 2 f1)), <- (slice_join (4 + num 2 2 f2) (20 + num 2 2 f2) (36 + num 2 2 f2)) by lia.
      replace (20 + num 2 2 f1) with (4 + num 2 2 f1 + 16) in * by lia. replace (36 + num 2 2 f1) with (4 + num 2 2 f1 + 16 + 16) in * by lia.
      replace (20 + num 2 2 f2) with (4 + num 2 2 f2 + 16) in * by lia. replace (36 + num 2 2 f2) with (4 + num 2 2 f2 + 16 + 16) in * by lia.
      f_equal.
      * apply guids_back; [clear - X1; unfold bytes in *; lia|clear - X2; unfold bytes in *; lia|assumption].
      * apply guids_back; [clear - X1; unfold bytes in *; lia|clear - X2; unfold bytes in *; lia|assumption].
  - (* unknown *)
    apply cons_both in H as (V & _). apply pn_inj in V. lia.
Qed.

Lemma type_in_fields rest : 3 <= lenN rest -> num 2 0 rest <> 0 -> num 1 2 rest = num 1 0 (slice 2 (2 + num 2 0 rest) rest).
Proof. intros L N. rewrite slice_num, num_takeN by lia. now rewrite num_dropN. Qed.
Lemma items_back cp1 cp2 idl1 idl2 items said1 said2 :
  entries_listed cp1 idl1 items said1 -> entries_listed cp2 idl2 items said2 ->
  exists its1 its2, items_walked idl1 its1 /\ items_walked idl2 its2 /\ Forall2 items_alike its1 its2.
Proof.
  intros H1. revert idl2 said2. induction H1 as [rest E|rest entries said L N fields X H1 IH]; intros idl2 said2 H2.
  - inversion H2 as [rest2 E2|]; subst. exists [], []. split; [now constructor|]. split; [now constructor|constructor].
  - inversion H2 as [|rest2 entries2 w2 L2 N2 fields2 X2 H3 E2 E3 E4]. subst. destruct (IH _ _ H3) as (its1 & its2 & W1 & W2 & F).
    exists ((num 2 0 rest, fields) :: its1), ((num 2 0 idl2, fields2) :: its2).
    split; [now apply walked_next|]. split; [now apply walked_next|]. constructor; [|exact F].
    rewrite type_in_fields in X, X2 by assumption. apply (item_back cp1 cp2); [exact X|exact X2|]. symmetry. assumption.
Qed.
Lemma id_lists_back b1 b2 cp1 cp2 allow1 allow2 l1 l2 d1 d2 : usable cp1 -> usable cp2 ->
  snd (lnk_init (FromBytes b1) cp1 allow1) = Ok l1 -> snd (lnk_init (FromBytes b2) cp2 allow2) = Ok l2 ->
  snd (get_json l1 true) = Ok d1 -> snd (get_json l2 true) = Ok d2 ->
  has_id_list b1 = true -> has_id_list b2 = true -> reported_items d1 = reported_items d2 ->
  exists its1 its2, items_walked (id_list b1) its1 /\ items_walked (id_list b2) its2 /\ Forall2 items_alike its1 its2.
Proof.
  intros U1 U2 I1 I2 J1 J2 P1 P2 E.
  destruct (items_of_file _ _ _ _ _ U1 I1 J1 P1) as (i1 & s1 & E1 & R1). destruct (items_of_file _ _ _ _ _ U2 I2 J2 P2) as (i2 & s2 & E2 & R2).
  rewrite R1, R2 in E. injection E as E. assert (i1 = i2).
  { clear -E. revert i2 E. induction i1 as [|x i1 IH]; intros [|y i2] E; try discriminate; [reflexivity|]. injection E as -> E. now rewrite (IH _ E). }
  subst i2. exact (items_back _ _ _ _ _ _ _ E1 E2).
Qed.
