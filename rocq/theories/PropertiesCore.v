(** * Properties C01-C03, C17, C18, C20: outcome, sizes, terminal data

    The vocabulary ([constructible], [block_walk], [string_data_end], ...) is in Spec.v. *)
From Verif Require Import Lemmas Codec Sha256 Targets Info Extra LnkFile Report Spec.
From Verif Require Import OutcomeProofs LayoutProofs CoreProofs RoundProofs.

(** ** C01. Parsing always terminates.

    Every loop of the model runs on fuel equal to the number of bytes left plus one and
    raises [OutOfFuel] when it is used up: this is never the outcome. *)
Theorem C01_parsing_terminates :
  forall src cp allow all, snd (l <- lnk_init src cp allow ;; get_json l all) <> Err OutOfFuel.
Proof. exact terminates. Qed.
Print Assumptions C01_parsing_terminates.

Theorem C01_main_terminates : forall content a, snd (main content a) <> Err OutOfFuel.
Proof. exact main_terminates. Qed.
Print Assumptions C01_main_terminates.

(** The fuel is only a device of the model. With more fuel than there are bytes each loop is
    the [while] of the code: a round does what its body does, and goes on with what the round
    has left of the bytes, which is less than it began with. The ItemIDs: *)
Theorem C01_item_rounds :
  forall cp b fuel, (length b < fuel)%nat ->
    items_loop fuel cp b
    = (r <- next_target cp b ;;
       match r with
       | None => ret []
       | Some (t, rest) =>
           item <- try_except (d <- as_item cp t ;; ret [PDict d]) is_key_error
                              (warn (WTarget (target_name (t_class t))) ;;; ret []) ;;
           items <- items_loop (S (length rest)) cp rest ;;
           ret (item ++ items)
       end)
    /\ forall t rest, snd (next_target cp b) = Ok (Some (t, rest)) -> (length rest < length b)%nat.
Proof. exact (fun cp b fuel H => conj (items_round cp b fuel H) (items_shorter cp b)). Qed.
Print Assumptions C01_item_rounds.

(** The blocks of the extra data. *)
Theorem C01_block_rounds :
  forall b fuel, (length b < fuel)%nat ->
    extra_loop fuel b
    = match b with
      | [] => ret ([], b)
      | _ =>
        match ef_item_size b with
        | (w, Err e) => if is_struct_error e then (w ++ [WExtraData], Ok ([], b)) else (w, Err e)
        | (w, Ok size) =>
          if size =? 0 then ret ([], b)
          else
            cls <- ef_extra_class b ;;
            r <- extra_loop (S (length (dropN size b))) (dropN size b) ;;
            ret (match cls with Some c => Extra c (takeN size b) :: fst r | None => fst r end, snd r)
        end
      end
    /\ forall size, size <> 0 -> b <> [] -> (length (dropN size b) < length b)%nat.
Proof. exact (fun b fuel H => conj (block_round b fuel H) (fun n => shorter n b)). Qed.
Print Assumptions C01_block_rounds.

(** The storages of a property store and the values of a storage. *)
Theorem C01_element_rounds :
  forall b fuel, (length b < fuel)%nat ->
    sized_suffixes fuel b
    = (size <- unpack_u32 (slice 0 4 b) ;;
       if size =? 0 then ret []
       else r <- sized_suffixes (S (length (dropN size b))) (dropN size b) ;; ret (b :: r))
    /\ forall size, snd (unpack_u32 (slice 0 4 b)) = Ok size -> size <> 0 -> (length (dropN size b) < length b)%nat.
Proof.
  exact (fun b fuel H =>
    conj (element_round b fuel H) (fun n Hn H0 => shorter n b H0 (element_room b n Hn))).
Qed.
Print Assumptions C01_element_rounds.

(** Rounds that go on: an item of three bytes, a block, a value. *)
Example C01_example_rounds :
  (exists t, snd (next_target CpNone (map n2b [3; 0; 0x1F; 0; 0])) = Ok (Some (t, map n2b [0; 0])))
  /\ snd (ef_item_size (map n2b [8; 0; 0; 0; 1; 0; 0; 0xA0; 0; 0; 0; 0])) = Ok 8
  /\ snd (sized_suffixes 9 (map n2b [4; 0; 0; 0; 0; 0; 0; 0])) = Ok [map n2b [4; 0; 0; 0; 0; 0; 0; 0]].
Proof. split; [eexists; vm_compute; reflexivity|split; vm_compute; reflexivity]. Qed.

(** ** C02. The constructor's outcome. *)
Theorem C02_constructor_outcome :
  forall src b cp allow,
    (src = FromBytes b \/ src = FromHandle b) -> b <> [] -> usable cp ->
    ((exists l, snd (lnk_init src cp allow) = Ok l) <-> constructible b)
    /\ (~ constructible b -> snd (lnk_init src cp allow) = Err StructError).
Proof. exact lnk_init_outcome. Qed.
Print Assumptions C02_constructor_outcome.

Theorem C02_empty_input :
  forall cp allow,
    snd (lnk_init (FromBytes []) cp allow) = Err AttributeError
    /\ snd (lnk_init (FromHandle []) cp allow) = Err LnkParserError.
Proof. exact (fun cp allow => conj eq_refl eq_refl). Qed.
Print Assumptions C02_empty_input.

(** Both outcomes occur. *)
Example C02_example_ok :
  exists l, snd (lnk_init (FromBytes (encode_header (plain_header 0))) CpNone true) = Ok l.
Proof. eexists. vm_compute. reflexivity. Qed.
Example C02_example_not_constructible :
  snd (lnk_init (FromBytes (encode_header (plain_header 1))) CpNone true) = Err StructError.
Proof. vm_compute. reflexivity. Qed.

(** ** C03. The exceptions of [get_json]. *)
Theorem C03_get_json_exceptions :
  forall b cp allow all l e,
    usable cp -> snd (lnk_init (FromBytes b) cp allow) = Ok l -> snd (get_json l all) = Err e ->
    e = StructError \/ e = IndexError \/ e = RuntimeError.
Proof.
  exact (fun b cp allow all l e Hcp Hl He =>
    match r_get_json l all e He with
    | or_introl H => or_introl H
    | or_intror (or_introl H) => or_intror (or_introl H)
    | or_intror (or_intror (or_introl H)) => or_intror (or_intror H)
    | or_intror (or_intror (or_intror (conj _ H))) =>
        match Hcp (eq_trans (eq_sym (init_cp b cp allow l Hl)) H) with end
    end).
Qed.
Print Assumptions C03_get_json_exceptions.

(** Each of the three is reachable: a header of 24 bytes; a Darwin block of zeros; a network
    location announcing a description that is not there. "get_json never raises" is false. *)
Definition short_header : bytes := takeN 24 (encode_header (plain_header 0)).
Definition darwin_of_zeros : bytes :=
  encode_header (plain_header 0) ++ enc32 788 ++ enc32 0xA0000006 ++ repeat x00 780 ++ enc32 0.
Definition lonely_location : bytes :=
  encode_header (plain_header 1) ++ enc16 6 ++ [x06; x00; x42; x00; x80; x41] ++ enc32 0.

Theorem C03_never_raises_refuted :
  let outcome b := snd (l <- lnk_init (FromBytes b) CpNone true ;; get_json l true) in
  outcome short_header = Err StructError
  /\ outcome darwin_of_zeros = Err IndexError
  /\ outcome lonely_location = Err RuntimeError.
Proof. vm_compute. repeat split. Qed.
Print Assumptions C03_never_raises_refuted.

(** ** C17. [size] is the sum of the section sizes.

    [string_data_end] is header + ID list + LinkInfo + StringData; the block that holds the
    data after the terminal block has the size of these data. *)
Theorem C17_size_is_sum_of_sections :
  forall b cp allow l,
    usable cp -> snd (lnk_init (FromBytes b) cp allow) = Ok l ->
    exists blocks r,
      block_walk (dropN (string_data_end b) b) blocks r
      /\ let terminal := if allow && (4 <? lenN r) && (num 4 0 r =? 0) then lenN r else 0 in
         let e := string_data_end b + sumN (map declared blocks) + terminal in
         l_size l = e + N.min 4 (lenN b - e).
Proof. exact size_sum. Qed.
Print Assumptions C17_size_is_sum_of_sections.

Example C17_example :
  let b := encode_header (plain_header 0) ++ enc32 12 ++ enc32 0xA0000004 ++ enc32 437 ++ enc32 0 ++ [x01; x02] in
  match snd (lnk_init (FromBytes b) CpNone false) with Ok l => l_size l = 92 | Err _ => False end.
Proof. vm_compute. reflexivity. Qed.

(** ** C18. [size] and the length of the input. *)
Theorem C18_size_at_most_length :
  forall b cp allow l blocks r,
    usable cp -> snd (lnk_init (FromBytes b) cp allow) = Ok l ->
    block_walk (dropN (string_data_end b) b) blocks r ->
    string_data_end b + sumN (map declared blocks) <= lenN b ->
    l_size l <= lenN b.
Proof. exact size_bound. Qed.
Print Assumptions C18_size_at_most_length.

Theorem C18_size_is_length_with_terminal_data :
  forall b cp l blocks r,
    usable cp -> snd (lnk_init (FromBytes b) cp true) = Ok l ->
    block_walk (dropN (string_data_end b) b) blocks r -> 4 < lenN r ->
    l_size l = lenN b.
Proof. exact size_terminal. Qed.
Print Assumptions C18_size_is_length_with_terminal_data.

(** One block and two bytes behind the terminal mark. *)
Definition sized_file : bytes := encode_header (plain_header 0) ++ (enc32 12 ++ enc32 0xA0000004 ++ enc32 437) ++ enc32 0 ++ [x41; x42].
Example C18_example :
  block_walk (dropN (string_data_end sized_file) sized_file)
    [(0xA0000004, enc32 12 ++ enc32 0xA0000004 ++ enc32 437)] (enc32 0 ++ [x41; x42])
  /\ string_data_end sized_file + sumN (map declared [(0xA0000004, enc32 12 ++ enc32 0xA0000004 ++ enc32 437)]) <= lenN sized_file
  /\ 4 < lenN (enc32 0 ++ [x41; x42])
  /\ match snd (lnk_init (FromBytes sized_file) CpNone true) with Ok l => l_size l = 94 | Err _ => False end.
Proof.
  split; [|split; [vm_compute; discriminate|split; vm_compute; reflexivity]].
  replace (dropN (string_data_end sized_file) sized_file) with (enc32 12 ++ enc32 0xA0000004 ++ enc32 437 ++ enc32 0 ++ [x41; x42])
    by (vm_compute; reflexivity).
  apply (walk_block (enc32 12 ++ enc32 0xA0000004 ++ enc32 437 ++ enc32 0 ++ [x41; x42])); [vm_compute; discriminate|vm_compute; discriminate|].
  apply (walk_stop (enc32 0 ++ [x41; x42])). right. vm_compute. reflexivity.
Qed.

(** Without the hypothesis the bound fails: an ID list that claims 65535 bytes. *)
Theorem C18_size_at_most_length_refuted :
  exists b cp allow l,
    snd (lnk_init (FromBytes b) cp allow) = Ok l /\ lenN b < l_size l.
Proof.
  exists (encode_header (plain_header 1) ++ enc16 65535), CpNone, true. eexists.
  split; [vm_compute; reflexivity|]. vm_compute. reflexivity.
Qed.
Print Assumptions C18_size_at_most_length_refuted.

(** ** C20. Data after the terminal block. *)
Theorem C20_terminal_block :
  forall b cp l1 l2 all,
    usable cp ->
    snd (lnk_init (FromBytes b) cp true) = Ok l1 -> snd (lnk_init (FromBytes b) cp false) = Ok l2 ->
    exists blocks r,
      block_walk (dropN (string_data_end b) b) blocks r
      /\ let terminal :=
           if (4 <? lenN r) && (num 4 0 r =? 0)
           then [("TERMINAL_BLOCK", PDict [("size", PN (lenN r));
                                           ("appended_data_sha256", PStr (sha256_hex (dropN 4 r)))])]
           else [] in
         (exists e, snd (get_json l1 all) = Err e /\ snd (get_json l2 all) = Err e)
         \/ (exists middle extra,
               snd (get_json l1 all)
               = Ok (("size", PN (l_size l1)) :: middle ++ [("extra", PDict (extra ++ terminal))])
               /\ snd (get_json l2 all)
                  = Ok (("size", PN (l_size l2)) :: middle ++ [("extra", PDict extra)])
               /\ dget "TERMINAL_BLOCK" extra = None).
Proof. exact terminal_report. Qed.
Print Assumptions C20_terminal_block.

(** With terminal blocks allowed or not, the constructor succeeds on the same inputs. *)
Theorem C20_same_inputs_accepted :
  forall b cp,
    b <> [] -> usable cp ->
    ((exists l, snd (lnk_init (FromBytes b) cp true) = Ok l)
     <-> (exists l, snd (lnk_init (FromBytes b) cp false) = Ok l)).
Proof.
  exact (fun b cp Hb Hcp =>
    iff_trans (proj1 (lnk_init_outcome _ b cp true (or_introl eq_refl) Hb Hcp))
      (iff_sym (proj1 (lnk_init_outcome _ b cp false (or_introl eq_refl) Hb Hcp)))).
Qed.
Print Assumptions C20_same_inputs_accepted.

Example C20_example :
  let b := encode_header (plain_header 0) ++ enc32 0 ++ [x61; x62; x63] in
  match snd (l <- lnk_init (FromBytes b) CpNone true ;; get_json l false) with
  | Ok d => match dget "extra" d with
            | Some (PDict e) =>
              dget "TERMINAL_BLOCK" e
              = Some (PDict [("size", PN 7);
                             ("appended_data_sha256",
                               PS "ba7816bf8f01cfea414140de5dae2223b00361a396177a9cb410ff61f20015ad")])
            | _ => False
            end
  | Err _ => False
  end.
Proof. vm_compute. reflexivity. Qed.
