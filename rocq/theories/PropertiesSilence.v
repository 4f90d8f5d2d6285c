(** * Property C83: what is known about a file that is parsed without a warning

    A caller who turns warnings into errors uses the parser as a checker. SpecSilence.v says what the texts and the entries
    of a file that passes are like, and what the filter [error] of Python's warnings module does. *)
From Verif Require Import Py PyTime Codec Utils Sha256 Targets Extra LnkFile.
From Verif Require Import Spec SpecText SpecHeader SpecTime SpecDouble SpecItems SpecInfo SpecExtra SpecOutcome SpecEntries SpecBlocks.
From Verif Require Import SpecTrace SpecSilence SilenceProofs.

(** ** The header is as the specification demands, and a time is missing only where none is stored. *)
Theorem C83_header :
  forall b cp allow l d,
    usable cp -> lnk_init (FromBytes b) cp allow = ([], Ok l) -> get_json l true = ([], Ok d) ->
    exists h rest c a w,
      wf_header h /\ b = encode_header h ++ rest
      /\ h_size h = 76 /\ h_clsid h = link_clsid /\ h_res1 h = 0 /\ h_res2 h = 0 /\ h_res3 h = 0
      /\ dget "header" d = Some (PDict (header_report h c a w))
      /\ (c = None <-> h_ctime h = 0%Z) /\ (a = None <-> h_atime h = 0%Z) /\ (w = None <-> h_wtime h = 0%Z).
Proof. exact silent_header. Qed.
Print Assumptions C83_header.

(** ** No announced string is missing, and none has a character that is not in the file. *)
Theorem C83_strings :
  forall b cp allow l d,
    usable cp -> lnk_init (FromBytes b) cp allow = ([], Ok l) -> get_json l true = ([], Ok d) ->
    exists found texts,
      string_walk b string_fields (info_end b) found (string_data_end b) false
      /\ map fst found = announced_keys b
      /\ dget "data" d = Some (PDict (combine (announced_keys b) (map PStr texts)))
      /\ Forall2 (fun f t => if bit_set 7 b then wide_faithful (snd f) t else page_faithful cp (snd f) t) found texts.
Proof. exact silent_strings. Qed.
Print Assumptions C83_strings.

(** ** Nothing in the ID list is unknown. *)
Theorem C83_items :
  forall b cp allow l d,
    usable cp -> lnk_init (FromBytes b) cp allow = ([], Ok l) -> get_json l true = ([], Ok d) ->
    has_id_list b = true ->
    exists items, reported_items d = Some (map PDict items) /\ Forall known_entry items.
Proof. exact silent_items. Qed.
Print Assumptions C83_items.

(** ** Of all code-page strings that the report has read (C76), in items, LinkInfo and blocks, none has been replaced. *)
Theorem C83_texts :
  forall b cp allow l all o trace field,
    usable cp -> snd (lnk_init (FromBytes b) cp allow) = Ok l -> fst (get_json l all) = [] -> report_trace b o trace ->
    In (Reads field) trace \/ In (ReadsName field) trace -> page_faithful cp field (field_text cp field).
Proof. exact silent_texts. Qed.
Print Assumptions C83_texts.

(** ** The LinkInfo, when there is to be one, has room for its flags. *)
Theorem C83_info :
  forall b cp allow l,
    usable cp -> lnk_init (FromBytes b) cp allow = ([], Ok l) ->
    bit_set 1 b = true -> bit_set 8 b = false -> id_list_end b + 12 <= lenN b.
Proof. exact silent_info. Qed.
Print Assumptions C83_info.

(** ** The rest of the file is blocks up to its end or a zero size, and no block is left out. *)
Theorem C83_blocks :
  forall b cp allow l d,
    usable cp -> lnk_init (FromBytes b) cp allow = ([], Ok l) -> get_json l true = ([], Ok d) ->
    exists blocks entries tail,
      block_walk (dropN (string_data_end b) b) blocks tail
      /\ dropN (string_data_end b) b = concat (map snd blocks) ++ tail
      /\ (tail = [] \/ 4 <= lenN tail /\ num 4 0 tail = 0)
      /\ map fst entries = map (fun k => block_name (fst k)) blocks
      /\ Forall2 (fun k e => block_read cp (fst k) (snd k) (snd e) []) blocks entries
      /\ reported_extra d = Some (collect (entries ++ behind_blocks allow tail))
      /\ forall raw, In (0xA0000003, raw) blocks -> num 4 8 raw = 88 /\ num 4 12 raw = 0.
Proof. exact silent_blocks. Qed.
Print Assumptions C83_blocks.

(** ** The filter [error]

    [filtered] follows the warnings of a computation of the model up to the first one that the filter selects. It is what
    the statements of the code do under the filter: *)
Theorem C83_filter :
  forall stops : warning -> bool,
    (forall A (a : A), filtered stops (ret a) = ([], Gives a))
    /\ (forall A e, filtered stops (@raise A e) = ([], Raises e))
    /\ (forall w, filtered stops (warn w) = if stops w then ([], Stopped w) else ([w], Gives tt))
    /\ (forall A B (m : M A) (f : A -> M B), filtered stops (bind m f) = and_then (filtered stops m) (fun a => filtered stops (f a)))
    /\ (forall A (m : M A) handled h, filtered stops (try_except m handled h) = or_else (filtered stops m) handled (filtered stops h)).
Proof.
  exact (fun stops =>
    conj (fun A a => eq_refl) (conj (fun A e => eq_refl)
    (conj (fun w => match stops w as s return (fst (if s then ([], Some w) else ([w], None)),
                                               match snd (if s then ([], Some w) else ([w], None)) with
                                               | Some w => Stopped w | None => Gives tt end)
                                              = if s then ([], Stopped w) else ([w], Gives tt) with true => eq_refl | false => eq_refl end)
    (conj (fun A B => filtered_bind stops) (fun A => filtered_try stops))))).
Qed.
Print Assumptions C83_filter.

(** With all warnings as errors a report is made just when it would have been made without a warning. *)
Theorem C83_errors :
  forall b cp allow all d,
    filtered (fun _ => true) (l <- lnk_init (FromBytes b) cp allow ;; get_json l all) = ([], Gives d)
    <-> exists l, lnk_init (FromBytes b) cp allow = ([], Ok l) /\ get_json l all = ([], Ok d).
Proof. exact filtered_parse. Qed.
Print Assumptions C83_errors.

(** A file that passes: an item, a string, a code page and a tracker. *)
Definition sound_file : bytes :=
  encode_header (plain_header 0x05) ++ enc16 22 ++ (enc16 20 ++ [n2b 0x1F; n2b 0x50] ++ repeat x01 16) ++ enc16 0
  ++ enc16 2 ++ [n2b 0x68; n2b 0x69]
  ++ (enc32 12 ++ enc32 0xA0000004 ++ enc32 1252)
  ++ (enc32 96 ++ enc32 0xA0000003 ++ enc32 88 ++ enc32 0 ++ [n2b 0x70; n2b 0x63] ++ repeat x00 14 ++ repeat x02 64)
  ++ enc32 0.
Example C83_example :
  exists l d,
    lnk_init (FromBytes sound_file) CpNone true = ([], Ok l) /\ get_json l true = ([], Ok d)
    /\ has_id_list sound_file = true
    /\ dget "data" d = Some (PDict [("description", PStr (s2t "hi"))])
    /\ option_map (map fst) (reported_extra d) = Some ["CONSOLE_CODEPAGE_BLOCK"; "DISTRIBUTED_LINK_TRACKER_BLOCK"]%string
    /\ option_map (@length pyval) (reported_items d) = Some 1%nat.
Proof.
  destruct (lnk_init (FromBytes sound_file) CpNone true) as [w [l|e]] eqn:EL; [|vm_compute in EL; discriminate EL].
  exists l. vm_compute in EL. injection EL as <- <-.
  match goal with |- context [get_json ?l true] => destruct (get_json l true) as [w' [d|e]] eqn:EJ; [|vm_compute in EJ; discriminate EJ] end.
  exists d. vm_compute in EJ. injection EJ as <- <-.
  split; [reflexivity|]. split; [reflexivity|]. split; [vm_compute; reflexivity|].
  split; [vm_compute; reflexivity|]. split; vm_compute; reflexivity.
Qed.
(** The same file with another sort order of the root folder is stopped there. *)
Example C83_example_stopped :
  let file := encode_header (plain_header 0x01) ++ enc16 22 ++ (enc16 20 ++ [n2b 0x1F; n2b 0x51] ++ repeat x01 16) ++ enc16 0 in
  filtered (fun _ => true) (l <- lnk_init (FromBytes file) CpNone true ;; get_json l true) = ([], Stopped (WSortIndex 0x51)).
Proof. vm_compute. reflexivity. Qed.

(** ** Silence does not mean that the file is whole: a string or a block that is cut off is not noticed. *)
Definition cut_string : bytes := encode_header (plain_header 0x04) ++ enc16 5 ++ [n2b 0x68; n2b 0x69].
Definition cut_block : bytes := encode_header (plain_header 0) ++ enc32 100 ++ enc32 0xA0000008 ++ [n2b 0x68; x00].
Theorem C83_whole_refuted :
  (exists l d, lnk_init (FromBytes cut_string) CpNone true = ([], Ok l) /\ get_json l true = ([], Ok d)
     /\ lenN cut_string < info_end cut_string + 2 + num 2 (info_end cut_string) cut_string)
  /\ (exists l d, lnk_init (FromBytes cut_block) CpNone true = ([], Ok l) /\ get_json l true = ([], Ok d)
     /\ lenN cut_block < string_data_end cut_block + num 4 (string_data_end cut_block) cut_block).
Proof.
  split.
  - destruct (lnk_init (FromBytes cut_string) CpNone true) as [w [l|e]] eqn:EL; [|vm_compute in EL; discriminate EL].
    exists l. vm_compute in EL. injection EL as <- <-.
    match goal with |- context [get_json ?l true] => destruct (get_json l true) as [w' [d|e]] eqn:EJ; [|vm_compute in EJ; discriminate EJ] end.
    exists d. vm_compute in EJ. injection EJ as <- <-. split; [reflexivity|]. split; [reflexivity|]. vm_compute. reflexivity.
  - destruct (lnk_init (FromBytes cut_block) CpNone true) as [w [l|e]] eqn:EL; [|vm_compute in EL; discriminate EL].
    exists l. vm_compute in EL. injection EL as <- <-.
    match goal with |- context [get_json ?l true] => destruct (get_json l true) as [w' [d|e]] eqn:EJ; [|vm_compute in EJ; discriminate EJ] end.
    exists d. vm_compute in EJ. injection EJ as <- <-. split; [reflexivity|]. split; [reflexivity|]. vm_compute. reflexivity.
Qed.
Print Assumptions C83_whole_refuted.
