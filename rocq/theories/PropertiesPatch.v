(** * Property C81: the parts of a file and the parts of its report

    Each entry of the report is decided by one part of the file, wherever it lies; a part that is replaced by another
    changes its own entry, and of the others at most the size. The vocabulary is in SpecPatch.v. *)
From Verif Require Import PatchProofs.
From Verif Require Import Py PyTime Codec Utils Header LnkFile Report.
From Verif Require Import PropertiesInfo PropertiesItems PropertiesPrefix.
From Verif Require Import Spec SpecText SpecInfo SpecItems SpecOutcome SpecExtra SpecPrefix SpecPatch.

(** ** Equal parts are reported alike *)
(** The header: the first 76 bytes. *)
Theorem C81_header :
  forall b1 b2 cp allow l1 l2 d1 d2,
    usable cp -> snd (lnk_init (FromBytes b1) cp allow) = Ok l1 -> snd (lnk_init (FromBytes b2) cp allow) = Ok l2 ->
    snd (get_json l1 true) = Ok d1 -> snd (get_json l2 true) = Ok d2 ->
    header_bytes b1 = header_bytes b2 -> dget "header" d1 = dget "header" d2.
Proof.
  intros b1 b2 cp allow l1 l2 d1 d2 Hcp H1 H2 D1 D2. destruct (whole_of _ _ _ _ _ Hcp H1 D1) as [w1 W1].
  destruct (whole_of _ _ _ _ _ Hcp H2 D2) as [w2 W2]. exact (header_part b1 b2 cp cp allow allow d1 d2 w1 w2 W1 W2).
Qed.
Print Assumptions C81_header.
(** The items: the bytes of the ID list. *)
Theorem C81_items :
  forall b1 b2 cp allow l1 l2 d1 d2,
    usable cp -> snd (lnk_init (FromBytes b1) cp allow) = Ok l1 -> snd (lnk_init (FromBytes b2) cp allow) = Ok l2 ->
    snd (get_json l1 true) = Ok d1 -> snd (get_json l2 true) = Ok d2 ->
    has_id_list b1 = true -> has_id_list b2 = true -> id_list b1 = id_list b2 -> reported_items d1 = reported_items d2.
Proof.
  intros b1 b2 cp allow l1 l2 d1 d2 Hcp H1 H2 D1 D2. destruct (whole_of _ _ _ _ _ Hcp H1 D1) as [w1 W1].
  destruct (whole_of _ _ _ _ _ Hcp H2 D2) as [w2 W2]. exact (items_part b1 b2 cp cp allow allow d1 d2 w1 w2 W1 W2 Hcp eq_refl).
Qed.
Print Assumptions C81_items.
(** The link info. *)
Theorem C81_info :
  forall b1 b2 cp allow l1 l2 d1 d2,
    usable cp -> snd (lnk_init (FromBytes b1) cp allow) = Ok l1 -> snd (lnk_init (FromBytes b2) cp allow) = Ok l2 ->
    snd (get_json l1 true) = Ok d1 -> snd (get_json l2 true) = Ok d2 ->
    info_processed b1 = info_processed b2 -> info_bytes b1 = info_bytes b2 -> dget "link_info" d1 = dget "link_info" d2.
Proof.
  intros b1 b2 cp allow l1 l2 d1 d2 Hcp H1 H2 D1 D2. destruct (whole_of _ _ _ _ _ Hcp H1 D1) as [w1 W1].
  destruct (whole_of _ _ _ _ _ Hcp H2 D2) as [w2 W2]. exact (info_part b1 b2 cp cp allow allow d1 d2 w1 w2 W1 W2 eq_refl).
Qed.
Print Assumptions C81_info.
(** The strings: their bytes and the flags that announce them. *)
Theorem C81_strings :
  forall b1 b2 cp allow l1 l2 d1 d2,
    usable cp -> snd (lnk_init (FromBytes b1) cp allow) = Ok l1 -> snd (lnk_init (FromBytes b2) cp allow) = Ok l2 ->
    snd (get_json l1 true) = Ok d1 -> snd (get_json l2 true) = Ok d2 ->
    same_string_flags b1 b2 -> string_bytes b1 = string_bytes b2 -> dget "data" d1 = dget "data" d2.
Proof.
  intros b1 b2 cp allow l1 l2 d1 d2 Hcp H1 H2 D1 D2. destruct (whole_of _ _ _ _ _ Hcp H1 D1) as [w1 W1].
  destruct (whole_of _ _ _ _ _ Hcp H2 D2) as [w2 W2]. exact (strings_part b1 b2 cp cp allow allow d1 d2 w1 w2 W1 W2 eq_refl).
Qed.
Print Assumptions C81_strings.
(** The extra data. *)
Theorem C81_blocks :
  forall b1 b2 cp allow l1 l2 d1 d2,
    usable cp -> snd (lnk_init (FromBytes b1) cp allow) = Ok l1 -> snd (lnk_init (FromBytes b2) cp allow) = Ok l2 ->
    snd (get_json l1 true) = Ok d1 -> snd (get_json l2 true) = Ok d2 ->
    extra_bytes b1 = extra_bytes b2 -> dget "extra" d1 = dget "extra" d2.
Proof.
  intros b1 b2 cp allow l1 l2 d1 d2 Hcp H1 H2 D1 D2. destruct (whole_of _ _ _ _ _ Hcp H1 D1) as [w1 W1].
  destruct (whole_of _ _ _ _ _ Hcp H2 D2) as [w2 W2]. exact (blocks_part b1 b2 cp cp allow allow d1 d2 w1 w2 W1 W2 Hcp (proj1 (ApiProofs.init_constructed b1 cp allow l1 Hcp H1)) eq_refl eq_refl).
Qed.
Print Assumptions C81_blocks.

(** The command line needs no report. *)
Theorem C81_command :
  forall b1 b2 cp allow1 allow2 l1 l2,
    usable cp -> snd (lnk_init (FromBytes b1) cp allow1) = Ok l1 -> snd (lnk_init (FromBytes b2) cp allow2) = Ok l2 ->
    same_string_flags b1 b2 -> string_bytes b1 = string_bytes b2 -> lnk_command l1 = lnk_command l2.
Proof. exact command_part. Qed.
Print Assumptions C81_command.

(** ** One part is replaced *)
(** Another header of the same length, with the same LinkFlags: only the entry of the header may change. *)
Theorem C81_other_header :
  forall h1 h2 back,
    24 <= lenN h1 -> header_len h1 = lenN h1 -> header_len h2 = lenN h1 -> lenN h2 = lenN h1 -> num 4 20 h1 = num 4 20 h2 ->
    forall cp allow, usable cp ->
    let start b := lnk_init (FromBytes b) cp allow in
    end_alike (snd (start (h1 ++ back))) (snd (start (h2 ++ back)))
    /\ forall l1 l2, snd (start (h1 ++ back)) = Ok l1 -> snd (start (h2 ++ back)) = Ok l2 ->
         lnk_command l1 = lnk_command l2
         /\ (forall all, end_alike (snd (get_json l1 all)) (snd (get_json l2 all)))
         /\ forall d1 d2, snd (get_json l1 true) = Ok d1 -> snd (get_json l2 true) = Ok d2 ->
              same_entries ["target"; "link_info"; "data"; "extra"; "size"] d1 d2.
Proof. exact header_patched. Qed.
Print Assumptions C81_other_header.

(** Another ID list, of any length: the file is opened as before, the command line is the same, and when both reports are
    finished only the target may differ, and the size by the difference of the lengths. *)
Theorem C81_other_list :
  forall front x1 x2 back,
    24 <= lenN front -> header_len front = lenN front -> has_id_list front = true -> is_id_list x1 -> is_id_list x2 ->
    forall cp allow, usable cp ->
    let start b := lnk_init (FromBytes b) cp allow in
    end_alike (snd (start (front ++ x1 ++ back))) (snd (start (front ++ x2 ++ back)))
    /\ forall l1 l2, snd (start (front ++ x1 ++ back)) = Ok l1 -> snd (start (front ++ x2 ++ back)) = Ok l2 ->
         lnk_command l1 = lnk_command l2
         /\ forall d1 d2, snd (get_json l1 true) = Ok d1 -> snd (get_json l2 true) = Ok d2 ->
              same_entries ["header"; "link_info"; "data"; "extra"] d1 d2 /\ sizes_follow d1 d2 x1 x2.
Proof. exact list_patched. Qed.
Print Assumptions C81_other_list.

(** Another LinkInfo: the same, for the link info. *)
Theorem C81_other_info :
  forall front x1 x2 back,
    lists_inside (lenN front) (front ++ x1 ++ back) ->
    info_end (front ++ x1 ++ back) = lenN front + lenN x1 -> info_end (front ++ x2 ++ back) = lenN front + lenN x2 ->
    forall cp allow, usable cp ->
    let start b := lnk_init (FromBytes b) cp allow in
    end_alike (snd (start (front ++ x1 ++ back))) (snd (start (front ++ x2 ++ back)))
    /\ forall l1 l2, snd (start (front ++ x1 ++ back)) = Ok l1 -> snd (start (front ++ x2 ++ back)) = Ok l2 ->
         lnk_command l1 = lnk_command l2
         /\ forall d1 d2, snd (get_json l1 true) = Ok d1 -> snd (get_json l2 true) = Ok d2 ->
              same_entries ["header"; "target"; "data"; "extra"] d1 d2 /\ sizes_follow d1 d2 x1 x2.
Proof. exact info_patched. Qed.
Print Assumptions C81_other_info.

(** Other strings: the reports end alike, with the same warnings, and only the strings may differ, and the size. *)
Theorem C81_other_strings :
  forall front s1 s2 back,
    before_strings front (front ++ s1 ++ back) ->
    string_data_end (front ++ s1 ++ back) = lenN front + lenN s1 -> string_data_end (front ++ s2 ++ back) = lenN front + lenN s2 ->
    forall cp allow, usable cp ->
    let start b := lnk_init (FromBytes b) cp allow in
    end_alike (snd (start (front ++ s1 ++ back))) (snd (start (front ++ s2 ++ back)))
    /\ forall l1 l2, snd (start (front ++ s1 ++ back)) = Ok l1 -> snd (start (front ++ s2 ++ back)) = Ok l2 ->
         (forall all, end_alike (snd (get_json l1 all)) (snd (get_json l2 all)))
         /\ forall w1 w2 d1 d2, get_json l1 true = (w1, Ok d1) -> get_json l2 true = (w2, Ok d2) ->
              w1 = w2 /\ same_entries ["header"; "target"; "link_info"; "extra"] d1 d2 /\ sizes_follow d1 d2 s1 s2.
Proof. exact strings_patched. Qed.
Print Assumptions C81_other_strings.

(** "The strings never show in the link info" is false: an offset of the LinkInfo may point into them. That is why
    [before_strings] asks for all of the LinkInfo. *)
Definition overlapping (name : bytes) : bytes :=
  let network := encode_network (NetworkLink 28 3 0x20000 (PageNames 20 name 24 name)) ++ zstring false name ++ zstring false name in
  enc16 (lenN network) ++ network.
Definition info_reported (b : bytes) : option pyval :=
  match snd (lnk_init (FromBytes b) CpNone true) with
  | Ok l => match snd (get_json l true) with Ok d => dget "link_info" d | Err _ => None end
  | Err _ => None
  end.
Theorem C81_strings_apart_refuted :
  exists front s1 s2 back i1 i2,
    string_data_end (front ++ s1 ++ back) = lenN front + lenN s1 /\ string_data_end (front ++ s2 ++ back) = lenN front + lenN s2
    /\ info_end (front ++ s1 ++ back) = lenN front /\ info_end (front ++ s2 ++ back) = lenN front
    /\ info_reported (front ++ s1 ++ back) = Some i1 /\ info_reported (front ++ s2 ++ back) = Some i2 /\ i1 <> i2.
Proof.
  set (front := encode_header (plain_header 6) ++ encode_info (LinkInfo 28 0x1C 2 0 30 None None None)).
  destruct (info_reported (front ++ overlapping (ascii "abc") ++ enc32 0)) as [i1|] eqn:E1; [|vm_compute in E1; discriminate].
  destruct (info_reported (front ++ overlapping (ascii "xyz") ++ enc32 0)) as [i2|] eqn:E2; [|vm_compute in E2; discriminate].
  exists front, (overlapping (ascii "abc")), (overlapping (ascii "xyz")), (enc32 0), i1, i2.
  split; [vm_compute; reflexivity|]. split; [vm_compute; reflexivity|]. split; [vm_compute; reflexivity|]. split; [vm_compute; reflexivity|].
  split; [exact E1|]. split; [exact E2|]. vm_compute in E1, E2. congruence.
Qed.
Print Assumptions C81_strings_apart_refuted.

(** A link with an ID list, link info, a description and a block: its parts can be replaced. *)
Definition before_info : bytes := encode_header (plain_header 0x7) ++ encode_id_list (map item_body sample_items).
Definition page_bytes : bytes := (enc32 12 ++ enc32 0xA0000004 ++ enc32 437) ++ enc32 0.
Example C81_example_strings :
  let front := before_info ++ local_section in
  before_strings front (front ++ (enc16 2 ++ ascii "ab") ++ page_bytes)
  /\ string_data_end (front ++ (enc16 2 ++ ascii "ab") ++ page_bytes) = lenN front + lenN (enc16 2 ++ ascii "ab")
  /\ string_data_end (front ++ (enc16 5 ++ ascii "other") ++ page_bytes) = lenN front + lenN (enc16 5 ++ ascii "other").
Proof.
  cbv zeta. split; [|split; vm_compute; reflexivity].
  split; [vm_compute; repeat split; discriminate|]. split; [|vm_compute; reflexivity].
  intros _ _. split; [vm_compute; discriminate|]. intros _.
  split; [vm_compute; reflexivity|].
  split; [intros _; vm_compute; tauto|].
  split; [intros _; vm_compute; tauto|].
  split; [intros _; exists 2; split; [vm_compute; discriminate|vm_compute; reflexivity]|].
  split; [intros _; exists 1; split; [vm_compute; discriminate|vm_compute; reflexivity]|].
  vm_compute; tauto.
Qed.
Example C81_example_info :
  let back := (enc16 2 ++ ascii "ab") ++ page_bytes in
  let other := encode_info (LinkInfo 62 0x1C 2 0 30 None None None) ++ repeat x00 34 in
  lists_inside (lenN before_info) (before_info ++ local_section ++ back)
  /\ info_end (before_info ++ local_section ++ back) = lenN before_info + lenN local_section
  /\ info_end (before_info ++ other ++ back) = lenN before_info + lenN other.
Proof.
  cbv zeta. split; [vm_compute; repeat split; discriminate|]. split; vm_compute; reflexivity.
Qed.
Example C81_example_list :
  let front := encode_header (plain_header 0x7) in
  24 <= lenN front /\ header_len front = lenN front /\ has_id_list front = true
  /\ is_id_list (encode_id_list (map item_body sample_items)) /\ is_id_list (encode_id_list [[x99]]).
Proof.
  cbv zeta. split; [vm_compute; discriminate|]. split; [vm_compute; reflexivity|]. split; [vm_compute; reflexivity|].
  split; vm_compute; reflexivity.
Qed.
Example C81_example_header :
  let h1 := encode_header (plain_header 0x7) in
  let h2 := encode_header (ShellHeader 76 (repeat x55 16) 0x7 0x20 1 2 3 0 0 1 x00 x00 0 0 0) in
  24 <= lenN h1 /\ header_len h1 = lenN h1 /\ header_len h2 = lenN h1 /\ lenN h2 = lenN h1 /\ num 4 20 h1 = num 4 20 h2 /\ h1 <> h2.
Proof.
  cbv zeta. split; [vm_compute; discriminate|]. do 4 (split; [vm_compute; reflexivity|]). vm_compute. discriminate.
Qed.
(** The same strings behind headers, ID lists and LinkInfos of different lengths. *)
Example C81_example_parts :
  let b1 := encode_header (plain_header 0x4) ++ (enc16 2 ++ ascii "ab") ++ page_bytes in
  let b2 := before_info ++ local_section ++ (enc16 2 ++ ascii "ab") ++ page_bytes in
  same_string_flags b1 b2 /\ string_bytes b1 = string_bytes b2 /\ string_bytes b1 <> [] /\ extra_bytes b1 = extra_bytes b2
  /\ info_reported b1 = Some (PDict []) /\ info_reported b2 <> info_reported b1 /\ info_reported b2 <> None.
Proof.
  cbv zeta. split; [intros i Hi; cbn [In] in Hi; repeat (destruct Hi as [<-|Hi]; [vm_compute; reflexivity|]); destruct Hi|].
  split; [vm_compute; reflexivity|]. split; [vm_compute; discriminate|]. split; [vm_compute; reflexivity|]. split; [vm_compute; reflexivity|].
  split; vm_compute; discriminate.
Qed.
