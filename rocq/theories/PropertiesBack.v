(** * Property C78: what can be read back from a report

    SpecBack.v tells which headers may be reported alike and which bytes of a block its report tells. *)
From Verif Require Import Lemmas Codec Utils Header StringData Targets Info Extra LnkFile Report.
From Verif Require Import ApiProofs.
From Verif Require Import Spec SpecText SpecHeader SpecTime SpecDouble SpecItems SpecInfo SpecExtra SpecOutcome SpecEntries SpecBlocks SpecWhole SpecBack.
From Verif Require Import ExtraListProofs InReportProofs BackProofs BackItemProofs BackInfoProofs.

(** Two files whose headers are reported alike have the same header, but for what [headers_alike] leaves open. *)
Theorem C78_header :
  forall b1 b2 cp1 cp2 allow1 allow2 l1 l2 d1 d2,
    usable cp1 -> usable cp2 ->
    snd (lnk_init (FromBytes b1) cp1 allow1) = Ok l1 -> snd (lnk_init (FromBytes b2) cp2 allow2) = Ok l2 ->
    snd (get_json l1 true) = Ok d1 -> snd (get_json l2 true) = Ok d2 ->
    dget "header" d1 = dget "header" d2 ->
    exists h1 rest1 h2 rest2,
      wf_header h1 /\ wf_header h2 /\ b1 = encode_header h1 ++ rest1 /\ b2 = encode_header h2 ++ rest2
      /\ headers_alike h1 h2.
Proof. exact headers_back. Qed.
Print Assumptions C78_header.

(** Two FILETIMEs that are reported alike. *)
Theorem C78_times :
  forall t1 t2 shown,
    fits_i64 t1 -> fits_i64 t2 -> time_read t1 shown -> time_read t2 shown -> times_alike t1 t2.
Proof. exact times_back. Qed.
Print Assumptions C78_times.

(** Two files with Unicode strings, each of them text without NUL: the same report, the same strings. *)
Theorem C78_strings :
  forall b1 b2 cp1 cp2 allow1 allow2 l1 l2 d1 d2 found1 e1 cut1 found2 e2 cut2,
    usable cp1 -> usable cp2 ->
    snd (lnk_init (FromBytes b1) cp1 allow1) = Ok l1 -> snd (lnk_init (FromBytes b2) cp2 allow2) = Ok l2 ->
    snd (get_json l1 true) = Ok d1 -> snd (get_json l2 true) = Ok d2 ->
    dget "data" d1 = dget "data" d2 ->
    bit_set 7 b1 = true -> bit_set 7 b2 = true ->
    string_walk b1 string_fields (info_end b1) found1 e1 cut1 -> string_walk b2 string_fields (info_end b2) found2 e2 cut2 ->
    Forall (fun f => exists t, Forall scalar t /\ no_nul t /\ snd f = utf16 t) (found1 ++ found2) ->
    found1 = found2.
Proof. exact strings_back. Qed.
Print Assumptions C78_strings.

(** Two files whose reports have the same entry for a block: each has a block with that signature, and the two agree on
    all bytes that the entry tells. *)
Theorem C78_blocks :
  forall b1 b2 cp1 cp2 allow1 allow2 all1 all2 l1 l2 d1 d2 blocks1 tail1 blocks2 tail2 e1 e2 signature x,
    usable cp1 -> usable cp2 ->
    snd (lnk_init (FromBytes b1) cp1 allow1) = Ok l1 -> snd (lnk_init (FromBytes b2) cp2 allow2) = Ok l2 ->
    snd (get_json l1 all1) = Ok d1 -> snd (get_json l2 all2) = Ok d2 ->
    block_walk (dropN (string_data_end b1) b1) blocks1 tail1 -> block_walk (dropN (string_data_end b2) b2) blocks2 tail2 ->
    reported_extra d1 = Some e1 -> reported_extra d2 = Some e2 ->
    dget (block_name signature) e1 = Some (PDict x) -> dget (block_name signature) e2 = Some (PDict x) ->
    exists before1 raw1 after1 before2 raw2 after2,
      blocks1 = before1 ++ (signature, raw1) :: after1 /\ blocks2 = before2 ++ (signature, raw2) :: after2
      /\ forall i j, In (i, j) (told_bytes signature) -> slice i j raw1 = slice i j raw2.
Proof. exact blocks_back. Qed.
Print Assumptions C78_blocks.

(** Two files whose targets are reported alike: as many items, of the same classes, which agree on all bytes that their
    entries tell. *)
Theorem C78_items :
  forall b1 b2 cp1 cp2 allow1 allow2 l1 l2 d1 d2,
    usable cp1 -> usable cp2 ->
    snd (lnk_init (FromBytes b1) cp1 allow1) = Ok l1 -> snd (lnk_init (FromBytes b2) cp2 allow2) = Ok l2 ->
    snd (get_json l1 true) = Ok d1 -> snd (get_json l2 true) = Ok d2 ->
    has_id_list b1 = true -> has_id_list b2 = true -> reported_items d1 = reported_items d2 ->
    exists items1 items2,
      items_walked (id_list b1) items1 /\ items_walked (id_list b2) items2 /\ Forall2 items_alike items1 items2.
Proof. exact id_lists_back. Qed.
Print Assumptions C78_items.

(** Two files whose LinkInfo sections are reported alike: both have one that is processed, or neither, and the two agree
    on all bytes that the report tells: the fixed fields, and those of the volume or of the network location, wherever
    these lie. What is left open are the strings, which are reported as text, and what no field points to. *)
Theorem C78_info :
  forall b1 b2 cp1 cp2 allow1 allow2 l1 l2 d1 d2,
    usable cp1 -> usable cp2 ->
    snd (lnk_init (FromBytes b1) cp1 allow1) = Ok l1 -> snd (lnk_init (FromBytes b2) cp2 allow2) = Ok l2 ->
    snd (get_json l1 true) = Ok d1 -> snd (get_json l2 true) = Ok d2 ->
    reported_info d1 = reported_info d2 ->
    let raw1 := dropN (id_list_end b1) b1 in
    let raw2 := dropN (id_list_end b2) b2 in
    let network := negb (N.testbit (num 4 8 raw1) 0) in
    info_processed b1 = info_processed b2
    /\ (info_processed b1 = true ->
        told_info network raw1 = told_info network raw2 /\ same_ranges (told_info network raw1) raw1 raw2).
Proof. exact infos_back. Qed.
Print Assumptions C78_info.

(** The report is not enough to write the file again: two values of the show command, and two creation times 100 ns
    apart, give the same report. *)
Definition shown_as (show : N) (created : Z) : bytes :=
  encode_header (ShellHeader 76 link_clsid 0 0x20 created 0 0 0 0 show x00 x00 0 0 0) ++ enc32 0.
Theorem C78_everything_refuted :
  exists b1 b2 l1 l2 d,
    snd (lnk_init (FromBytes b1) CpNone true) = Ok l1 /\ snd (lnk_init (FromBytes b2) CpNone true) = Ok l2
    /\ get_json l1 true = ([], Ok d) /\ get_json l2 true = ([], Ok d) /\ lenN b1 = lenN b2 /\ b1 <> b2
    /\ b1 = shown_as 1 132223104000000001 /\ b2 = shown_as 2 132223104000000002.
Proof.
  exists (shown_as 1 132223104000000001), (shown_as 2 132223104000000002).
  destruct (snd (lnk_init (FromBytes (shown_as 1 132223104000000001)) CpNone true)) as [l1|] eqn:E1; [|vm_compute in E1; discriminate E1].
  destruct (snd (lnk_init (FromBytes (shown_as 2 132223104000000002)) CpNone true)) as [l2|] eqn:E2; [|vm_compute in E2; discriminate E2].
  vm_compute in E1. injection E1 as <-. vm_compute in E2. injection E2 as <-.
  do 3 eexists. split; [reflexivity|]. split; [reflexivity|]. split; [vm_compute; reflexivity|]. split; [vm_compute; reflexivity|].
  split; [vm_compute; reflexivity|]. split; [vm_compute; discriminate|]. split; reflexivity.
Qed.
Print Assumptions C78_everything_refuted.

(** ** Files that meet the hypotheses: the same strings and the same known folder, with and without other blocks. *)
Definition folder_block : N * bytes := (0xA000000B, repeat x11 16 ++ enc32 7).
Definition back_file (show : N) (created : Z) (more : list (N * bytes)) : bytes :=
  encode_header (ShellHeader 76 link_clsid 0x84 0x20 created 0 0 0 0 show x00 x00 0 0 0)
  ++ encode_strings [Some (unicode_string (s2t "ab"))] ++ encode_blocks (more ++ [folder_block]) ++ enc32 0.
Definition back_first : bytes := back_file 1 132223104000000001 [].
Definition back_second : bytes := back_file 2 132223104000000002 [(0xA0000004, enc32 437)].
Example C78_example :
  match snd (lnk_init (FromBytes back_first) CpNone true), snd (lnk_init (FromBytes back_second) CpNone true) with
  | Ok l1, Ok l2 =>
    match snd (get_json l1 true), snd (get_json l2 true) with
    | Ok d1, Ok d2 =>
      dget "header" d1 = dget "header" d2 /\ dget "data" d1 = dget "data" d2
      /\ option_map (map fst) (reported_extra d1) = Some ["KNOWN_FOLDER_LOCATION_BLOCK"]%string
      /\ option_map (map fst) (reported_extra d2) = Some ["CONSOLE_CODEPAGE_BLOCK"; "KNOWN_FOLDER_LOCATION_BLOCK"]%string
      /\ option_map (dget "KNOWN_FOLDER_LOCATION_BLOCK") (reported_extra d1)
         = option_map (dget "KNOWN_FOLDER_LOCATION_BLOCK") (reported_extra d2)
    | _, _ => False
    end
  | _, _ => False
  end.
Proof. vm_compute. repeat split; reflexivity. Qed.
Example C78_example_strings :
  bit_set 7 back_first = true /\ bit_set 7 back_second = true
  /\ string_walk back_first string_fields (info_end back_first) [("description"%string, utf16 (s2t "ab"))] 82 false
  /\ Forall scalar (s2t "ab") /\ no_nul (s2t "ab").
Proof.
  split; [vm_compute; reflexivity|]. split; [vm_compute; reflexivity|]. split.
  - replace (utf16 (s2t "ab")) with (slice (76 + 2) (76 + 2 + 4) back_first) by (vm_compute; reflexivity).
    replace (info_end back_first) with 76 by (vm_compute; reflexivity). unfold string_fields.
    apply string_found; [reflexivity|vm_compute; discriminate|reflexivity|].
    repeat (apply string_absent; [reflexivity|]). apply strings_done.
  - split; [repeat constructor; left; vm_compute; reflexivity|repeat constructor; discriminate].
Qed.
Example C78_example_blocks :
  Forall block_fits [(0xA0000004, enc32 437); folder_block]
  /\ dropN (string_data_end back_second) back_second = encode_blocks [(0xA0000004, enc32 437); folder_block] ++ enc32 0
  /\ In (8, 28) (told_bytes 0xA000000B) /\ slice 8 28 (encode_block folder_block) = snd folder_block.
Proof.
  split; [repeat apply Forall_cons; [..|apply Forall_nil]; split; vm_compute; reflexivity|]. split; [vm_compute; reflexivity|].
  split; [right; now left|vm_compute; reflexivity].
Qed.
(** Two files with an ID list: the root folder by either of its types, a file entry with another unused byte. *)
Definition items_file (ty : N) (unused : byte) : bytes :=
  encode_header (ShellHeader 76 link_clsid 0x81 0x20 0 0 0 0 0 1 x00 x00 0 0 0)
  ++ encode_id_list [enc8 ty ++ [x50] ++ repeat x22 16;
                     enc8 0x32 ++ [unused] ++ enc32 7 ++ enc32 0x42215 ++ enc16 0x20 ++ [x61; x00]] ++ enc32 0.
Example C78_example_items :
  match snd (lnk_init (FromBytes (items_file 0x1F x00)) CpNone true), snd (lnk_init (FromBytes (items_file 0x1E x01)) CpNone true) with
  | Ok l1, Ok l2 =>
    match snd (get_json l1 true), snd (get_json l2 true) with
    | Ok d1, Ok d2 => reported_items d1 = reported_items d2 /\ option_map (@length pyval) (reported_items d1) = Some 2%nat
    | _, _ => False
    end
  | _, _ => False
  end
  /\ has_id_list (items_file 0x1F x00) = true /\ has_id_list (items_file 0x1E x01) = true
  /\ id_list (items_file 0x1F x00) <> id_list (items_file 0x1E x01).
Proof.
  split; [vm_compute; split; reflexivity|]. split; [vm_compute; reflexivity|]. split; [vm_compute; reflexivity|vm_compute; discriminate].
Qed.
(** Two files with a LinkInfo: two bytes between its parts differ, and the ID list before it. *)
Definition info_file (gap : byte) (items : list bytes) : bytes :=
  encode_header (ShellHeader 76 link_clsid 0x83 0x20 0 0 0 0 0 1 x00 x00 0 0 0) ++ encode_id_list items
  ++ encode_info (LinkInfo 62 0x1C 2 0 30 None None None) ++ [gap; gap]
  ++ encode_network (NetworkLink 28 3 0x20000 (PageNames 20 [x61; x62; x63] 24 [x64; x65; x66]))
  ++ zstring false [x61; x62; x63] ++ zstring false [x64; x65; x66] ++ enc32 0.
Example C78_example_info :
  match snd (lnk_init (FromBytes (info_file x00 [])) CpNone true), snd (lnk_init (FromBytes (info_file x01 [[x99]])) CpNone false) with
  | Ok l1, Ok l2 =>
    match snd (get_json l1 true), snd (get_json l2 true) with
    | Ok d1, Ok d2 => reported_info d1 = reported_info d2
    | _, _ => False
    end
  | _, _ => False
  end
  /\ info_processed (info_file x00 []) = true
  /\ id_list_end (info_file x00 []) <> id_list_end (info_file x01 [[x99]])
  /\ told_info true (dropN (id_list_end (info_file x00 [])) (info_file x00 [])) = [(0, 28); (30, 50)].
Proof.
  split; [vm_compute; reflexivity|]. split; [vm_compute; reflexivity|]. split; [vm_compute; discriminate|vm_compute; reflexivity].
Qed.
