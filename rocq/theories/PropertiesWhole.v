(** * Properties C61-C63: the complete report of an arbitrary file

    SpecEntries.v reads an ID list, SpecBlocks.v the blocks of the extra data and SpecWhole.v a whole file. They assume
    nothing about the bytes and speak only of positions in the file. *)
From Verif Require Import Py PyTime Codec Utils Sha256 Targets Extra LnkFile.
From Verif Require Import Spec SpecText SpecHeader SpecTime SpecDouble SpecItems SpecInfo SpecExtra SpecOutcome SpecEntries SpecBlocks SpecWhole.
From Verif Require Import EntryProofs AnyBlockProofs TriedProofs WholeProofs.

(** ** C61. Every ID list: each reported entry is the one its bytes say. *)
Theorem C61_every_id_list :
  forall b cp allow l d,
    usable cp -> snd (lnk_init (FromBytes b) cp allow) = Ok l -> snd (get_json l true) = Ok d ->
    has_id_list b = true ->
    exists items said,
      entries_listed cp (id_list b) items said /\ reported_items d = Some (map PDict items).
Proof. exact items_of_file. Qed.
Print Assumptions C61_every_id_list.

(** Reading a list that the specification can read gives its entries and its warnings. *)
Theorem C61_list_read :
  forall cp idl items said,
    usable cp -> entries_listed cp idl items said -> items_of cp idl = (said, Ok (map PDict items)).
Proof. exact (fun cp idl items said Hcp => entries_of cp Hcp idl items said). Qed.
Print Assumptions C61_list_read.

(** It says one thing about each list, and something about each list without an unreadable item. *)
Theorem C61_determined :
  forall cp idl,
    usable cp ->
    (forall items1 said1 items2 said2,
       entries_listed cp idl items1 said1 -> entries_listed cp idl items2 said2 -> items1 = items2 /\ said1 = said2)
    /\ (items_outcome idl None -> exists items said, entries_listed cp idl items said).
Proof.
  exact (fun cp idl Hcp => conj (fun i1 s1 i2 s2 => entries_listed_det cp idl i1 s1 i2 s2 Hcp)
                                (fun H => entries_total cp idl None H eq_refl)).
Qed.
Print Assumptions C61_determined.

(** A volume name that runs on into the next item, an item of an unknown type, and bytes behind the end. *)
Definition loose_list : bytes := enc16 3 ++ [n2b 0x2F] ++ enc16 3 ++ [n2b 0x99] ++ enc16 0 ++ [n2b 0x31].
Example C61_example :
  entries_listed CpNone loose_list
    [[("class", PS "Volume Item"); ("flags", PStr (s2t "0xf")); ("volume_name", PStr [0x03])];
     [("class", PS "Unknown"); ("size", PN 5)]]%string
    [WItemType 0x99].
Proof.
  assert (H3 : entries_listed CpNone (enc16 0 ++ [n2b 0x31]) [] []) by (apply entries_end; right; split; [vm_compute; discriminate|reflexivity]).
  assert (H2 : entries_listed CpNone (enc16 3 ++ [n2b 0x99] ++ enc16 0 ++ [n2b 0x31]) [[("class", PS "Unknown"); ("size", PN 5)]]%string [WItemType 0x99]).
  { exact (entries_next CpNone (enc16 3 ++ [n2b 0x99] ++ enc16 0 ++ [n2b 0x31]) [] [] ltac:(vm_compute; discriminate) ltac:(vm_compute; discriminate) eq_refl H3). }
  exact (entries_next CpNone loose_list _ _ ltac:(vm_compute; discriminate) ltac:(vm_compute; discriminate) eq_refl H2).
Qed.

(** ** C62. Every extra data section: the report of each block is the one its bytes say, or the block is left out with a
    warning because its bytes say nothing. *)
Theorem C62_every_extra_section :
  forall b cp allow l all d,
    usable cp -> snd (lnk_init (FromBytes b) cp allow) = Ok l -> snd (get_json l all) = Ok d ->
    exists blocks tail entries said,
      block_walk (dropN (string_data_end b) b) blocks tail
      /\ blocks_read cp blocks entries said
      /\ fst (extras_as_dict cp (l_extras l)) = said
      /\ reported_extra d = Some (collect (entries ++ behind_blocks allow tail)).
Proof. exact extra_settled. Qed.
Print Assumptions C62_every_extra_section.

(** One block: it is decoded exactly when the specification can read it, to what the specification says. *)
Theorem C62_block_read :
  forall cp signature e,
    usable cp -> extra_name (ex_class e) = block_name signature -> 4 <= lenN (ex_raw e) ->
    (forall d w, block_read cp signature (ex_raw e) d w <-> extra_as_dict cp e = (w, Ok d))
    /\ ((exists d w, block_read cp signature (ex_raw e) d w) <-> exists d, snd (extra_as_dict cp e) = Ok d).
Proof. exact block_read_iff. Qed.
Print Assumptions C62_block_read.

(** It is left out exactly when the specification says that it cannot be read, with the warnings it says. *)
Theorem C62_left_out :
  forall cp signature e,
    usable cp -> extra_name (ex_class e) = block_name signature -> 4 <= lenN (ex_raw e) ->
    forall w, block_tried cp signature (ex_raw e) w
              <-> exists x, (x = StructError \/ x = ValueError) /\ extra_as_dict cp e = (w, Err x).
Proof. exact block_left_out_iff. Qed.
Print Assumptions C62_left_out.

Theorem C62_determined :
  forall cp blocks entries1 said1 entries2 said2,
    usable cp -> sizes_readable blocks ->
    blocks_read cp blocks entries1 said1 -> blocks_read cp blocks entries2 said2 ->
    entries1 = entries2 /\ said1 = said2.
Proof. exact blocks_read_det. Qed.
Print Assumptions C62_determined.

(** A code page block, a tracker block that is too short, an installer descriptor, an unknown block. *)
Definition descriptor : bytes :=
  enc32 788 ++ enc32 0xA0000006 ++ repeat x00 260 ++ utf16 (repeat 0x21 20 ++ [0x41; 0x3E] ++ repeat 0x21 20) ++ repeat x00 436.
Definition short_tracker : bytes := enc32 12 ++ enc32 0xA0000003 ++ enc32 88.
Definition some_blocks : bytes :=
  enc32 12 ++ enc32 0xA0000004 ++ enc32 437 ++ short_tracker ++ descriptor ++ enc32 9 ++ enc32 7 ++ [x01].
Example C62_example :
  block_read CpNone 0xA0000004 (enc32 12 ++ enc32 0xA0000004 ++ enc32 437) [("size", PN 12); ("code_page", PN 437)]%string []
  /\ (forall d w, ~ block_read CpNone 0xA0000003 short_tracker d w)
  /\ exists d w, block_read CpNone 0xA0000006 descriptor d w
     /\ dget "feature_name" d = Some (PStr [0x41]) /\ dget "product_code_id" d = Some (PStr (s2t "00000000-0000-0000-0000-000000000000")).
Proof.
  split; [|split].
  - exact (fixed_read CpNone 0xA0000004 (enc32 12 ++ enc32 0xA0000004 ++ enc32 437) _ eq_refl ltac:(vm_compute; discriminate)).
  - intros d w H. inversion H as [? HF HL|E _|? ? ? E _ _|? ? E _]; [|discriminate E..]. vm_compute in HL. now apply HL.
  - eexists _, _. split.
    + apply darwin_read; [reflexivity|]. intros [H|(u & rest & H & Hu & Hr)]; [vm_compute in H; discriminate H|].
      vm_compute in H.
      do 21 (destruct u as [|? u]; [discriminate H|]; injection H as <- H).
      destruct u as [|? u]; [injection H as <-; vm_compute in Hr; discriminate Hr|].
      injection H as <- _. apply Hu. cbn. tauto.
    + split; vm_compute; reflexivity.
Qed.

(** A tracker block of the wrong length that ends within the GUIDs, and a store with a named property without a value. *)
Definition cut_tracker : bytes := enc32 40 ++ enc32 0xA0000003 ++ enc32 89 ++ enc32 1 ++ repeat (n2b 0x61) 16 ++ repeat x00 8.
Definition cut_store : bytes :=
  enc32 49 ++ enc32 0xA0000009 ++ enc32 37 ++ enc32 0x53505331 ++ named_format
  ++ enc32 13 ++ enc32 5 ++ [x00; n2b 0x61; x00; x00; n2b 0xD8] ++ enc32 0.
Example C62_left_out_example :
  block_tried CpNone 0xA0000003 cut_tracker [WMustBe "length"; WMustBe "version"]
  /\ exists t, block_tried CpNone 0xA0000009 cut_store [WDecode t].
Proof.
  split; [exact (fixed_cut CpNone 0xA0000003 cut_tracker eq_refl)|].
  eexists. apply (C62_left_out CpNone 0xA0000009 (Extra Metadata cut_store)); [discriminate|reflexivity|vm_compute; discriminate|].
  exists StructError. split; [now left|]. vm_compute. reflexivity.
Qed.

(** ** C63. Every report: each entry and each warning is the one the bytes of the file say. *)
Theorem C63_whole_report :
  forall b cp allow l d w,
    usable cp -> snd (lnk_init (FromBytes b) cp allow) = Ok l -> get_json l true = (w, Ok d) ->
    whole_report b cp allow d w.
Proof. exact whole_reported. Qed.
Print Assumptions C63_whole_report.

(** There is one such report, with one list of warnings. *)
Theorem C63_determined :
  forall b cp allow d1 w1 d2 w2,
    usable cp -> constructible b ->
    whole_report b cp allow d1 w1 -> whole_report b cp allow d2 w2 -> d1 = d2 /\ w1 = w2.
Proof. exact whole_det. Qed.
Print Assumptions C63_determined.

(** A file with all sections: the loose list above, a link info without room for its path, a string and the blocks. *)
Definition odd_file : bytes :=
  encode_header (plain_header 0x07) ++ enc16 (lenN loose_list) ++ loose_list
  ++ enc32 48 ++ enc32 28 ++ enc32 1 ++ enc32 28 ++ enc32 44 ++ enc32 0 ++ enc32 0
  ++ enc32 17 ++ enc32 3 ++ enc32 0 ++ enc32 16 ++ [n2b 0x43; n2b 0x3A; n2b 0x5C; x00]
  ++ enc16 2 ++ [n2b 0x68; n2b 0x69] ++ some_blocks ++ enc32 0 ++ [x01; x02; x03].
Example C63_example :
  exists l d,
    snd (lnk_init (FromBytes odd_file) CpNone true) = Ok l
    /\ get_json l true = ([WItemType 0x99; WExtraBlock "DISTRIBUTED_LINK_TRACKER_BLOCK"], Ok d)
    /\ whole_report odd_file CpNone true d [WItemType 0x99; WExtraBlock "DISTRIBUTED_LINK_TRACKER_BLOCK"]
    /\ dget "size" d = Some (PN (lenN odd_file))
    /\ dget "data" d = Some (PDict [("description", PStr (s2t "hi"))])
    /\ option_map (map fst) (reported_extra d)
       = Some ["CONSOLE_CODEPAGE_BLOCK"; "DARWIN_BLOCK"; "UNKNOWN_BLOCK"; "TERMINAL_BLOCK"]%string.
Proof.
  assert (H : exists l d, snd (lnk_init (FromBytes odd_file) CpNone true) = Ok l
    /\ get_json l true = ([WItemType 0x99; WExtraBlock "DISTRIBUTED_LINK_TRACKER_BLOCK"], Ok d)
    /\ dget "size" d = Some (PN (lenN odd_file))
    /\ dget "data" d = Some (PDict [("description", PStr (s2t "hi"))])
    /\ option_map (map fst) (reported_extra d)
       = Some ["CONSOLE_CODEPAGE_BLOCK"; "DARWIN_BLOCK"; "UNKNOWN_BLOCK"; "TERMINAL_BLOCK"]%string).
  { destruct (lnk_init (FromBytes odd_file) CpNone true) as [w [l|e]] eqn:EL; [|vm_compute in EL; discriminate EL].
    exists l. vm_compute in EL. injection EL as _ <-.
    match goal with |- context [get_json ?l true] => destruct (get_json l true) as [w' [d|e]] eqn:EJ; [|vm_compute in EJ; discriminate EJ] end.
    exists d. vm_compute in EJ. injection EJ as <- <-. vm_compute. repeat split. }
  destruct H as (l & d & Hl & Hg & H). exists l, d. split; [assumption|]. split; [assumption|]. split; [|assumption].
  eapply C63_whole_report; [discriminate|exact Hl|exact Hg].
Qed.
