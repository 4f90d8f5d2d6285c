(** * Property C82: adding a part to a file

    An ID list, a LinkInfo, a string or blocks are added to a file, or taken out of it: what the report says about the
    other parts stays as it was. The vocabulary is in SpecPatch.v and SpecAdd.v. *)
From Verif Require Import AddProofs.
From Verif Require Import Py PyTime Codec Utils Header LnkFile Report.
From Verif Require Import PropertiesInfo PropertiesItems PropertiesPrefix PropertiesPatch.
From Verif Require Import Spec SpecText SpecInfo SpecItems SpecOutcome SpecExtra SpecPrefix SpecPatch SpecAdd.

(** An ID list. *)
Theorem C82_list :
  forall h1 h2 x back, announces 0 h1 h2 -> is_id_list x ->
  forall cp allow, usable cp ->
  let start b := lnk_init (FromBytes b) cp allow in
  end_alike (snd (start (h1 ++ back))) (snd (start (h2 ++ x ++ back)))
  /\ forall l1 l2, snd (start (h1 ++ back)) = Ok l1 -> snd (start (h2 ++ x ++ back)) = Ok l2 ->
       lnk_command l1 = lnk_command l2
       /\ forall d1 d2, snd (get_json l1 true) = Ok d1 -> snd (get_json l2 true) = Ok d2 ->
            dget "target" d1 = None /\ dget "target" d2 <> None
            /\ same_entries ["link_info"; "data"; "extra"] d1 d2 /\ sizes_follow d1 d2 [] x.
Proof. exact list_added. Qed.
Print Assumptions C82_list.

(** A LinkInfo [x], behind the ID list [t] if there is one. *)
Theorem C82_info :
  forall h1 h2 t x back, announces 1 h1 h2 -> list_part h1 t ->
  info_end (h2 ++ t ++ x ++ back) = lenN (h2 ++ t ++ x) ->
  forall cp allow, usable cp ->
  let start b := lnk_init (FromBytes b) cp allow in
  end_alike (snd (start (h1 ++ t ++ back))) (snd (start (h2 ++ t ++ x ++ back)))
  /\ forall l1 l2, snd (start (h1 ++ t ++ back)) = Ok l1 -> snd (start (h2 ++ t ++ x ++ back)) = Ok l2 ->
       lnk_command l1 = lnk_command l2
       /\ forall d1 d2, snd (get_json l1 true) = Ok d1 -> snd (get_json l2 true) = Ok d2 ->
            dget "link_info" d1 = Some (PDict [])
            /\ same_entries ["target"; "data"; "extra"] d1 d2 /\ sizes_follow d1 d2 [] x.
Proof. exact info_added. Qed.
Print Assumptions C82_info.

(** A string [s], between the strings before it and those after it: the reports end alike, and the other texts stay. *)
Theorem C82_string :
  forall h1 h2 t m pre s post back i name limited before after found1 found2,
  let b1 := h1 ++ t ++ m ++ (pre ++ post) ++ back in
  let b2 := h2 ++ t ++ m ++ (pre ++ s ++ post) ++ back in
  announces i h1 h2 -> list_part h1 t -> before_strings (h1 ++ t ++ m) b1 ->
  string_fields = before ++ (i, name, limited) :: after ->
  strings_are h1 before pre found1 -> strings_are h1 after post found2 -> is_string h1 limited s ->
  forall cp allow, usable cp ->
  let start b := lnk_init (FromBytes b) cp allow in
  end_alike (snd (start b1)) (snd (start b2))
  /\ forall l1 l2, snd (start b1) = Ok l1 -> snd (start b2) = Ok l2 ->
       (forall all, end_alike (snd (get_json l1 all)) (snd (get_json l2 all)))
       /\ forall d1 d2, snd (get_json l1 true) = Ok d1 -> snd (get_json l2 true) = Ok d2 ->
            dget "data" d1 = Some (texts h1 cp (found1 ++ found2))
            /\ dget "data" d2 = Some (texts h1 cp (found1 ++ (name, dropN 2 s) :: found2))
            /\ same_entries ["target"; "link_info"; "extra"] d1 d2 /\ sizes_follow d1 d2 [] s.
Proof. exact string_added. Qed.
Print Assumptions C82_string.

(** Blocks, anywhere among the others: what is said under other names stays. *)
Theorem C82_blocks :
  forall front kept added back,
  let b1 := front ++ encode_blocks kept ++ back in
  let b2 := front ++ encode_blocks kept ++ encode_blocks added ++ back in
  before_blocks front b1 -> string_data_end b2 = lenN front -> Forall block_fits kept -> Forall block_fits added ->
  forall cp allow, usable cp ->
  let start b := lnk_init (FromBytes b) cp allow in
  end_alike (snd (start b1)) (snd (start b2))
  /\ forall l1 l2, snd (start b1) = Ok l1 -> snd (start b2) = Ok l2 ->
       lnk_command l1 = lnk_command l2
       /\ forall d1 d2, snd (get_json l1 true) = Ok d1 -> snd (get_json l2 true) = Ok d2 ->
            same_entries ["header"; "target"; "link_info"; "data"] d1 d2 /\ sizes_follow d1 d2 [] (encode_blocks added)
            /\ forall k, unnamed k added -> same_block k d1 d2.
Proof. exact blocks_added. Qed.
Print Assumptions C82_blocks.

(** Blocks of different names may be exchanged: the entries are the same. *)
Theorem C82_exchanged :
  forall front kept one other back,
  let b1 := front ++ encode_blocks kept ++ encode_blocks one ++ encode_blocks other ++ back in
  let b2 := front ++ encode_blocks kept ++ encode_blocks other ++ encode_blocks one ++ back in
  before_blocks front b1 -> string_data_end b2 = lenN front -> Forall block_fits kept -> Forall block_fits one -> Forall block_fits other ->
  (forall k, unnamed k one \/ unnamed k other) ->
  forall cp allow, usable cp ->
  let start b := lnk_init (FromBytes b) cp allow in
  end_alike (snd (start b1)) (snd (start b2))
  /\ forall l1 l2, snd (start b1) = Ok l1 -> snd (start b2) = Ok l2 ->
       lnk_command l1 = lnk_command l2
       /\ forall d1 d2, snd (get_json l1 true) = Ok d1 -> snd (get_json l2 true) = Ok d2 ->
            same_entries ["header"; "target"; "link_info"; "data"; "size"] d1 d2 /\ forall k, same_block k d1 d2.
Proof. exact blocks_swapped. Qed.
Print Assumptions C82_exchanged.

(** "The order of blocks does not matter" is false: of two blocks of the same name the last is reported. *)
Definition page_reported (b : bytes) : option pyval :=
  match snd (lnk_init (FromBytes b) CpNone true) with
  | Ok l => match snd (get_json l true) with
            | Ok d => match reported_extra d with Some e => dget "CONSOLE_CODEPAGE_BLOCK" e | None => None end
            | Err _ => None
            end
  | Err _ => None
  end.
Theorem C82_order_refuted :
  exists front one other v1 v2,
    let b1 := front ++ encode_block one ++ encode_block other ++ enc32 0 in
    let b2 := front ++ encode_block other ++ encode_block one ++ enc32 0 in
    before_blocks front b1 /\ block_fits one /\ block_fits other
    /\ page_reported b1 = Some v1 /\ page_reported b2 = Some v2 /\ v1 <> v2.
Proof.
  set (front := encode_header (plain_header 0)). set (one := (0xA0000004, enc32 437)). set (other := (0xA0000004, enc32 850)).
  destruct (page_reported (front ++ encode_block one ++ encode_block other ++ enc32 0)) as [v1|] eqn:E1; [|vm_compute in E1; discriminate].
  destruct (page_reported (front ++ encode_block other ++ encode_block one ++ enc32 0)) as [v2|] eqn:E2; [|vm_compute in E2; discriminate].
  exists front, one, other, v1, v2. cbv zeta. split.
  - split; [vm_compute; repeat split; discriminate|]. split; [intros H; vm_compute in H; discriminate|vm_compute; reflexivity].
  - split; [split; vm_compute; reflexivity|]. split; [split; vm_compute; reflexivity|].
    split; [exact E1|]. split; [exact E2|]. vm_compute in E1, E2. congruence.
Qed.
Print Assumptions C82_order_refuted.

(** The same link as for C81, built up part by part. *)
Definition some_list : bytes := encode_id_list (map item_body sample_items).
Lemma announced i f h1 h2 : num 4 20 h1 = f -> num 4 20 h2 = N.setbit f i -> N.testbit f i = false ->
  is_header h1 -> is_header h2 -> lenN h1 = lenN h2 -> announces i h1 h2.
Proof.
  intros E1 E2 HF H1 H2 HL. do 3 (split; [assumption|]). unfold bit_set. rewrite E1, E2.
  split; [assumption|]. split; [apply N.setbit_eq|]. intros j Hj. symmetry. apply N.setbit_neq. congruence.
Qed.
Definition flagged (f : N) : bytes := encode_header (plain_header f).
Lemma flagged_header f : fits32 f -> is_header (flagged f) /\ lenN (flagged f) = 76.
Proof.
  intros _. assert (HL : lenN (flagged f) = 76) by reflexivity. split; [split; rewrite HL; [discriminate|vm_compute; reflexivity]|exact HL].
Qed.
Example C82_example_list :
  announces 0 (flagged 6) (flagged 7) /\ is_id_list some_list.
Proof.
  split; [|vm_compute; reflexivity]. apply (announced 0 6); try (vm_compute; reflexivity); now apply flagged_header.
Qed.
Example C82_example_info :
  let back := (enc16 2 ++ ascii "ab") ++ page_bytes in
  announces 1 (flagged 5) (flagged 7) /\ list_part (flagged 5) some_list
  /\ info_end (flagged 7 ++ some_list ++ local_section ++ back) = lenN (flagged 7 ++ some_list ++ local_section).
Proof.
  cbv zeta. split; [apply (announced 1 5); try (vm_compute; reflexivity); now apply flagged_header|].
  split; [vm_compute; reflexivity|vm_compute; reflexivity].
Qed.
(** A relative path between a description and arguments. *)
Example C82_example_string :
  let h1 := flagged 0x27 in
  let pre := enc16 2 ++ ascii "ab" in
  let s := enc16 3 ++ ascii "x.y" in
  let post := enc16 1 ++ ascii "z" in
  announces 3 h1 (flagged 0x2F) /\ list_part h1 some_list
  /\ before_strings (h1 ++ some_list ++ local_section) (h1 ++ some_list ++ local_section ++ (pre ++ post) ++ page_bytes)
  /\ strings_are h1 [(2, "description", true)]%string pre [("description", ascii "ab")]%string
  /\ strings_are h1 [(4, "working_directory", true); (5, "command_line_arguments", false); (6, "icon_location", false)]%string post
       [("command_line_arguments", ascii "z")]%string
  /\ is_string h1 true s.
Proof.
  cbv zeta. split; [apply (announced 3 0x27); try (vm_compute; reflexivity); now apply flagged_header|].
  split; [vm_compute; reflexivity|]. split.
  { split; [vm_compute; repeat split; discriminate|]. split; [|vm_compute; reflexivity].
    intros _ _. split; [vm_compute; discriminate|]. intros _.
    split; [vm_compute; reflexivity|].
    split; [intros _; vm_compute; tauto|].
    split; [intros _; vm_compute; tauto|].
    split; [intros _; exists 2; split; [vm_compute; discriminate|vm_compute; reflexivity]|].
    split; [intros _; exists 1; split; [vm_compute; discriminate|vm_compute; reflexivity]|].
    vm_compute; tauto. }
  split; [|split].
  - replace (enc16 2 ++ ascii "ab") with ((enc16 2 ++ ascii "ab") ++ []) by apply app_nil_r.
    replace [("description"%string, ascii "ab")] with [("description"%string, dropN 2 (enc16 2 ++ ascii "ab"))] by reflexivity.
    apply are_with; [vm_compute; reflexivity|split; [vm_compute; discriminate|vm_compute; reflexivity]|apply are_none].
  - apply are_without; [vm_compute; reflexivity|].
    replace (enc16 1 ++ ascii "z") with ((enc16 1 ++ ascii "z") ++ []) by apply app_nil_r.
    replace [("command_line_arguments"%string, ascii "z")] with [("command_line_arguments"%string, dropN 2 (enc16 1 ++ ascii "z"))] by reflexivity.
    apply are_with; [vm_compute; reflexivity|split; [vm_compute; discriminate|vm_compute; reflexivity]|].
    apply are_without; [vm_compute; reflexivity|apply are_none].
  - split; [vm_compute; discriminate|vm_compute; reflexivity].
Qed.
Definition one_page : N * bytes := (0xA0000004, enc32 437).
Definition one_folder : N * bytes := (0xA0000005, enc32 36 ++ enc32 0).
Example C82_example_blocks :
  let front := flagged 4 ++ enc16 2 ++ ascii "ab" in
  before_blocks front (front ++ encode_blocks [] ++ encode_blocks [one_page] ++ encode_blocks [one_folder] ++ enc32 0)
  /\ string_data_end (front ++ encode_blocks [] ++ encode_blocks [one_folder] ++ encode_blocks [one_page] ++ enc32 0) = lenN front
  /\ Forall block_fits [one_page] /\ Forall block_fits [one_folder]
  /\ forall k, unnamed k [one_page] \/ unnamed k [one_folder].
Proof.
  cbv zeta. split.
  - split; [vm_compute; repeat split; discriminate|]. split; [intros H; vm_compute in H; discriminate|vm_compute; reflexivity].
  - split; [vm_compute; reflexivity|]. split; [repeat constructor; vm_compute; reflexivity|]. split; [repeat constructor; vm_compute; reflexivity|].
    intros k. destruct (string_dec k "CONSOLE_CODEPAGE_BLOCK") as [->|H].
    + right. intros blk [<-|[]]. vm_compute. discriminate.
    + left. intros blk [<-|[]]. cbn. congruence.
Qed.
