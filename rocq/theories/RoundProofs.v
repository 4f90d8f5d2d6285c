(** * The loops of the model without their fuel (C01) *)
From Verif Require Import Lemmas Codec Utils Header Targets Extra LnkFile Spec.
From Verif Require Import OutcomeProofs LayoutProofs CoreProofs ItemProofs.

Lemma items_shorter cp b t rest : snd (next_target cp b) = Ok (Some (t, rest)) -> (length rest < length b)%nat.
Proof.
  intros HN. apply next_target_size in HN as (n & _ & Hn & -> & Hb). now apply dropN_shorter.
Qed.

Lemma items_round cp b : forall fuel, (length b < fuel)%nat ->
  items_loop fuel cp b
  = (r <- next_target cp b ;;
     match r with
     | None => ret []
     | Some (t, rest) =>
         item <- try_except (d <- as_item cp t ;; ret [PDict d]) is_key_error
                            (warn (WTarget (target_name (t_class t))) ;;; ret []) ;;
         items <- items_of cp rest ;;
         ret (item ++ items)
     end).
Proof.
  intros [|fuel] H; [lia|]. cbn [items_loop].
  destruct (next_target cp b) as [w [[[t rest]|]|e]] eqn:E; [|reflexivity|reflexivity].
  rewrite !bind_Ok. unfold items_of.
  assert (HN : snd (next_target cp b) = Ok (Some (t, rest))) by now rewrite E.
  apply items_shorter in HN. rewrite (items_loop_fuel cp fuel (S (length rest)) rest); [reflexivity|lia..].
Qed.

Lemma block_fuel : forall f f' b, (length b < f)%nat -> (length b < f')%nat -> extra_loop f b = extra_loop f' b.
Proof.
  induction f as [|f IH]; intros [|f'] b H H'; try lia. cbn [extra_loop].
  destruct b as [|x b]; [reflexivity|]. destruct (ef_item_size (x :: b)) as [w [n|e]]; [|reflexivity].
  destruct (n =? 0) eqn:E; [reflexivity|]. apply N.eqb_neq in E.
  assert (Hb : x :: b <> []) by discriminate. pose proof (dropN_shorter n (x :: b) E Hb) as L.
  rewrite (IH f' (dropN n (x :: b))) by lia. reflexivity.
Qed.

Lemma block_round b : forall fuel, (length b < fuel)%nat ->
  extra_loop fuel b
  = match b with
    | [] => ret ([], b)
    | _ =>
      match ef_item_size b with
      | (w, Err e) => if is_struct_error e then (w ++ [WExtraData], Ok ([], b)) else (w, Err e)
      | (w, Ok size) =>
        if size =? 0 then ret ([], b)
        else
          cls <- ef_extra_class b ;;
          r <- extra_loop (S (length (dropN size b))) (dropN size b) ;;
          ret (match cls with Some c => Extra c (takeN size b) :: fst r | None => fst r end, snd r)
      end
    end.
Proof.
  intros [|fuel] H; [lia|]. cbn [extra_loop].
  destruct b as [|x b]; [reflexivity|]. destruct (ef_item_size (x :: b)) as [w [n|e]]; [|reflexivity].
  destruct (n =? 0) eqn:E; [reflexivity|]. apply N.eqb_neq in E.
  assert (Hb : x :: b <> []) by discriminate. pose proof (dropN_shorter n (x :: b) E Hb) as L.
  rewrite (block_fuel fuel (S (length (dropN n (x :: b))))) by lia.
  apply bind_ext. intros c. apply bind_ext. intros [bs r]. reflexivity.
Qed.

Lemma element_room b n : snd (unpack_u32 (slice 0 4 b)) = Ok n -> b <> [].
Proof. intros H ->. discriminate H. Qed.

Lemma element_fuel : forall f f' b, (length b < f)%nat -> (length b < f')%nat -> sized_suffixes f b = sized_suffixes f' b.
Proof.
  induction f as [|f IH]; intros [|f'] b H H'; try lia. cbn [sized_suffixes].
  destruct (unpack_u32 (slice 0 4 b)) as [w [n|e]] eqn:EN; [|reflexivity]. rewrite !bind_Ok.
  destruct (n =? 0) eqn:E; [reflexivity|]. apply N.eqb_neq in E.
  assert (Hb : b <> []) by (apply (element_room b n); now rewrite EN).
  pose proof (dropN_shorter n b E Hb) as L. rewrite (IH f' (dropN n b)) by lia. reflexivity.
Qed.

Lemma element_round b : forall fuel, (length b < fuel)%nat ->
  sized_suffixes fuel b
  = (size <- unpack_u32 (slice 0 4 b) ;;
     if size =? 0 then ret []
     else r <- sized_suffixes (S (length (dropN size b))) (dropN size b) ;; ret (b :: r)).
Proof.
  intros [|fuel] H; [lia|]. cbn [sized_suffixes].
  destruct (unpack_u32 (slice 0 4 b)) as [w [n|e]] eqn:EN; [|reflexivity]. rewrite !bind_Ok.
  destruct (n =? 0) eqn:E; [reflexivity|]. apply N.eqb_neq in E.
  assert (Hb : b <> []) by (apply (element_room b n); now rewrite EN).
  pose proof (dropN_shorter n b E Hb) as L.
  rewrite (element_fuel fuel (S (length (dropN n b)))) by lia. reflexivity.
Qed.

Lemma shorter (n : N) (b : bytes) : n <> 0 -> b <> [] -> (length (dropN n b) < length b)%nat.
Proof. exact (dropN_shorter n b). Qed.
