(** * Properties C29-C33, C53: ID lists

    Items, their encoding and the report expected for them are in SpecItems.v; [items_of] is
    the reading of an ID list (lnk_targets.py and extra/shell_item.py). *)
From Verif Require Import Lemmas Codec Utils Header StringData Targets Extra LnkFile Spec SpecText SpecTime SpecItems.
From Verif Require Import ItemProofs.

(** ** C29. One entry per item. [junk] is whatever follows the TerminalID. *)
Theorem C29_one_entry_each :
  forall b cp allow l d bodies junk,
    usable cp -> snd (lnk_init (FromBytes b) cp allow) = Ok l -> snd (get_json l true) = Ok d ->
    has_id_list b = true -> Forall item_fits bodies ->
    lenN (encode_items bodies ++ junk) < 65536 ->
    holds b (header_len b) (enc16 (lenN (encode_items bodies ++ junk)) ++ encode_items bodies ++ junk) ->
    exists items, reported_items d = Some items
      /\ map entry_class items = map (fun body => Some (PS (class_of_type (item_type body)))) bodies.
Proof. exact one_entry_each. Qed.
Print Assumptions C29_one_entry_each.

(** The list read from the position of a later item is the rest of the list. *)
Theorem C29_own_position :
  forall cp before next l, Forall item_fits before ->
    snd (items_of cp (flat_map encode_item before ++ next)) = Ok l ->
    exists l1 l2, l = l1 ++ l2 /\ length l1 = length before /\ snd (items_of cp next) = Ok l2.
Proof. exact own_position. Qed.
Print Assumptions C29_own_position.

(** After the TerminalID nothing is read. *)
Theorem C29_nothing_after_terminal :
  forall cp bodies junk, Forall item_fits bodies ->
    items_of cp (encode_items bodies ++ junk) = items_of cp (encode_items bodies).
Proof. exact after_terminal. Qed.
Print Assumptions C29_nothing_after_terminal.

Definition my_computer : item :=
  IRoot 0x1F 0x50 (map n2b [0xE0; 0x4F; 0xD0; 0x20; 0xEA; 0x3A; 0x69; 0x10; 0xA2; 0xD8; 0x08; 0x00; 0x2B; 0x30; 0x30; 0x9D]) [].
Definition drive_c : item := IVolume 0x2F (map n2b [0x43; 0x3A; 0x5C] ++ repeat x00 17) (repeat x00 2).
Definition a_time : datetime := DT 2024 2 29 12 34 56 0.
Definition a_file : file_entry := FileEntry 0x36 x00 1234 (Some a_time) 0x20 (utf16 [0x61; 0x2E; 0x74]) [x01].
Definition share : item := INetwork 0x41 x00 0xC0 [x5c; x5c; x61] (Some [x62]) (Some [x63]) [].
Definition sample_items : list item := [my_computer; drive_c; IFile a_file; share; IOther 0x99 [x01; x02]].
Definition sample_file : bytes :=
  encode_header (plain_header 0x01) ++ encode_id_list (map item_body sample_items) ++ enc32 0.

Lemma sample_items_wf : Forall wf_item sample_items /\ Forall (fun it => item_fits (item_body it)) sample_items.
Proof.
  split.
  - repeat apply Forall_cons; [..|apply Forall_nil]; cbn [wf_item my_computer drive_c share].
    + split; [now right|split; reflexivity].
    + repeat split.
    + split; [|reflexivity]. split; [reflexivity|]. split; [reflexivity|]. split; [reflexivity|]. split.
      * cbn. intros t [= <-]. unfold fat_representable, valid_datetime, valid_date, a_time.
        cbn -[month_length]. change (month_length 2024 2) with 29%Z. lia.
      * split; reflexivity.
    + repeat split; cbn; intuition discriminate.
    + split; [reflexivity|now left].
  - repeat apply Forall_cons; [..|apply Forall_nil]; (split; [discriminate|reflexivity]).
Qed.
Example C29_example :
  has_id_list sample_file = true
  /\ holds sample_file (header_len sample_file) (encode_id_list (map item_body sample_items))
  /\ match lnk_init (FromBytes sample_file) CpNone true with
     | (_, Ok l) => match get_json l true with
                    | (w, Ok d) => w = [WItemType 0x99] /\ option_map (@length pyval) (reported_items d) = Some 5%nat
                    | _ => False end
     | _ => False
     end.
Proof.
  split; [reflexivity|]. split; [|vm_compute; split; reflexivity].
  exists (encode_header (plain_header 0x01)), (enc32 0). split; [reflexivity|vm_compute; reflexivity].
Qed.

(** ** C30. The class of an item is that of its type byte, whatever the item holds. *)
Theorem C30_class_of_type :
  forall cp body next e l, item_fits body ->
    snd (items_of cp (encode_item body ++ next)) = Ok (e :: l) ->
    entry_class e = Some (PS (class_of_type (item_type body))).
Proof. exact class_of_entry. Qed.
Print Assumptions C30_class_of_type.

(** An undocumented type, and nothing else, is warned about. *)
Theorem C30_unknown_types_are_warned_about :
  forall cp body, item_fits body -> forall n,
    In (WItemType n) (fst (items_of cp (encode_item body ++ enc16 0)))
    <-> n = item_type body /\ documented_class (item_type body) = None.
Proof. exact item_type_warning. Qed.
Print Assumptions C30_unknown_types_are_warned_about.

(** The documented classes: 0x20-0x4F with and without the top bit, and thirteen exact values. *)
Example C30_example :
  documented_class 0x2E = Some "Volume Item"%string /\ documented_class 0xB1 = Some "File entry"%string
  /\ documented_class 0x74 = Some "Users files folder"%string /\ documented_class 0x75 = None
  /\ item_fits (item_body my_computer) /\ item_type (item_body my_computer) = 0x1F.
Proof. repeat split; discriminate. Qed.

(** ** C31. Items are reported with exactly their values. *)
Theorem C31_items_in_file :
  forall b cp allow l d its,
    usable cp -> snd (lnk_init (FromBytes b) cp allow) = Ok l -> snd (get_json l true) = Ok d ->
    has_id_list b = true -> Forall wf_item its -> Forall (fun it => item_fits (item_body it)) its ->
    lenN (encode_items (map item_body its)) < 65536 ->
    holds b (header_len b) (encode_id_list (map item_body its)) ->
    reported_target d = Some [("size", PN (lenN (encode_items (map item_body its))));
                              ("items", PList (map (fun it => PDict (item_report cp it)) its));
                              ("index", PN (header_len b + 2))]%string.
Proof. exact items_in_file. Qed.
Print Assumptions C31_items_in_file.

(** The list itself, with every warning. *)
Theorem C31_items :
  forall cp its junk,
    usable cp -> Forall wf_item its -> Forall (fun it => item_fits (item_body it)) its ->
    items_of cp (encode_items (map item_body its) ++ junk)
    = (flat_map (item_warnings cp) its, Ok (map (fun it => PDict (item_report cp it)) its)).
Proof. exact items_spec. Qed.
Print Assumptions C31_items.

(** The items of C29 meet the hypotheses ([sample_items_wf], [C29_example]); this is the report
    of the file and of a users-files-folder item holding it, with two more classes. *)
Definition users_files : item := IUsersFiles x00 (map n2b [0x43; 0x46; 0x53; 0x46]) a_file [] (repeat x11 16) (repeat x22 16) [].
Definition cpl_item : item := ICplUnicode x00 0xFFFFFF9C (repeat x00 4) (repeat x00 7) (utf16 [0x63]) (utf16 [0x6E; 0x6D]) None [].
Definition cpl_page_item : item := ICplPage x00 0xFFFFFF9C [x63] [x6e; x6d] (Some [x6f]) [].
Example C31_example :
  wf_item users_files /\ wf_item cpl_item /\ wf_item cpl_page_item
  /\ entry_report CpNone a_file =
     [("class", PS "File entry"); ("flags", PS "Is Unicode file"); ("file_size", PInt 1234);
      ("modification_time", PDate a_time); ("file_attribute_flags", PInt 32); ("primary_name", PS "a.t")]%string
  /\ item_report CpNone cpl_item =
     [("class", PS "Control panel CPL file"); ("signature", PS "0xFFFFFF9C"); ("cpl_file_path", PS "c");
      ("name", PS "nm"); ("comments", PS "")]%string
  /\ snd (items_of CpNone (encode_items (map item_body [users_files; cpl_item; cpl_page_item])))
     = Ok (map (fun it => PDict (item_report CpNone it)) [users_files; cpl_item; cpl_page_item]).
Proof.
  assert (HE : wf_entry a_file).
  { destruct sample_items_wf as [H _]. unfold sample_items in H. rewrite Forall_forall in H.
    destruct (H (IFile a_file)) as [HE _]; [cbn; auto|exact HE]. }
  split; [split; [exact HE|repeat split]|].
  split; [repeat split|].
  split; [cbn; repeat split; try discriminate; intuition discriminate|].
  vm_compute. repeat split; reflexivity.
Qed.

(** ** C32. What an item contributes is a function of its bytes and the two bytes after it. *)
Theorem C32_item_and_two_bytes :
  forall cp, exists f : bytes -> bytes -> M (list pyval),
    forall body next, item_fits body ->
      items_of cp (encode_item body ++ next) = (x <- f body (takeN 2 next) ;; l <- items_of cp next ;; ret (x ++ l)).
Proof. exact item_local. Qed.
Print Assumptions C32_item_and_two_bytes.

(** It is not a function of the item's bytes alone: the size field of the next item completes
    the name of a file entry. *)
Theorem C32_item_alone_refuted :
  exists cp body next1 next2 e1 l1 e2 l2,
    item_fits body
    /\ snd (items_of cp (encode_item body ++ next1)) = Ok (e1 :: l1)
    /\ snd (items_of cp (encode_item body ++ next2)) = Ok (e2 :: l2)
    /\ e1 <> e2.
Proof.
  exists CpNone, (enc8 0x32 ++ [x00] ++ enc32 0 ++ enc32 0 ++ enc16 0 ++ [x61]),
    (enc16 0), (encode_items [repeat x61 (0x4142 - 2)]).
  eexists _, _, _, _. split; [split; [discriminate|reflexivity]|].
  split; [vm_compute; reflexivity|]. split; [vm_compute; reflexivity|]. discriminate.
Qed.
Print Assumptions C32_item_alone_refuted.

(** ** C33. Network locations whose announced strings are missing. [rt] is the item and the two
    bytes after it. *)
Theorem C33_exact_condition :
  forall cp body next,
    usable cp -> item_fits body -> item_type body / 16 mod 8 = 4 -> 3 <= lenN (body ++ takeN 2 next) ->
    let rt := body ++ takeN 2 next in
    if nuls (dropN 3 rt) <? extra_strings (b2n (nth 2 rt x00))
    then snd (items_of cp (encode_item body ++ next)) = Err RuntimeError
    else exists d, dget "class" d = Some (PS "Network location")
         /\ snd (items_of cp (encode_item body ++ next))
            = match snd (items_of cp next) with Ok l => Ok (PDict d :: l) | Err e => Err e end.
Proof. exact network_outcome. Qed.
Print Assumptions C33_exact_condition.

(** A file whose report cannot be produced for that reason. *)
Definition missing_strings : bytes :=
  let items := encode_item [x41; x00; xc0; x61] ++ encode_item (x99 :: repeat x61 (0x0101 - 3)) ++ enc16 0 in
  encode_header (plain_header 0x01) ++ enc16 (lenN items) ++ items ++ enc32 0.
Theorem C33_missing_strings_refuted :
  exists b l,
    snd (lnk_init (FromBytes b) CpNone true) = Ok l /\ has_id_list b = true
    /\ snd (get_json l true) = Err RuntimeError.
Proof.
  exists missing_strings. eexists. split; [vm_compute; reflexivity|]. split; vm_compute; reflexivity.
Qed.
Print Assumptions C33_missing_strings_refuted.

Example C33_example :
  (let body := [x41; x00; xc0; x61] in
   item_fits body /\ item_type body / 16 mod 8 = 4 /\ 3 <= lenN body
   /\ nuls (dropN 3 (body ++ takeN 2 (enc16 0x0101))) < extra_strings 0xC0
   /\ ~ nuls (dropN 3 (body ++ takeN 2 (enc16 0))) < extra_strings 0xC0).
Proof. repeat split; try discriminate; vm_compute; (reflexivity || discriminate). Qed.

(** ** C53. The names of the entry flags: a Unicode share and an item with a CLSID are never
    reported as such. *)
Theorem C53_never_reported :
  forall cp idl l d,
    snd (items_of cp idl) = Ok l -> In (PDict d) l ->
    dget "flags" d <> Some (PS "Is Unicode share") /\ dget "flags" d <> Some (PS "Has CLSID").
Proof. exact items_flags. Qed.
Print Assumptions C53_never_reported.

Theorem C53_unicode_share_refuted :
  exists e, wf_entry e /\ fe_type e mod 8 = 7 /\ fe_type e / 16 mod 8 = 3
    /\ snd (items_of CpNone (encode_items [entry_body e])) = Ok [PDict (entry_report CpNone e)]
    /\ dget "flags" (entry_report CpNone e) = Some (PS "Is Unicode directory").
Proof.
  exists (FileEntry 0x37 x00 0 None 0x10 (utf16 [0x61]) []).
  repeat split; try (intros; discriminate); vm_compute; reflexivity.
Qed.
Print Assumptions C53_unicode_share_refuted.
