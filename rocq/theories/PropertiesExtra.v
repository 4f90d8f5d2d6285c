(** * Properties C06 (tracker), C21-C28, C34, C48, C50: extra data

    Blocks, their encoding and the report expected for them are in SpecExtra.v. A constructed
    link holds its blocks in [l_extras]: a class, whose name is [extra_name], and bytes;
    [extra_as_dict] decodes one block and [extras_as_dict] reports them all. *)
From Verif Require Import Lemmas Codec Utils Sha256 Header StringData Targets Info Extra LnkFile.
From Verif Require Import Spec SpecHeader SpecTime SpecText SpecItems SpecExtra.
From Verif Require Import ItemProofs ExtraProofs ExtraListProofs ExtraFileProofs.

(** ** C21. Blocks are split at their sizes and named by their signatures. *)
Theorem C21_blocks_split :
  forall b cp allow l blocks rest,
    usable cp -> snd (lnk_init (FromBytes b) cp allow) = Ok l -> Forall block_fits blocks ->
    dropN (string_data_end b) b = encode_blocks blocks ++ enc32 0 ++ rest ->
    map (fun e => (extra_name (ex_class e), ex_raw e)) (l_extras l)
    = map (fun blk => (block_name (fst blk), encode_block blk)) blocks
      ++ (if allow && (0 <? lenN rest) then [("TERMINAL_BLOCK"%string, enc32 0 ++ rest)] else []).
Proof. exact file_blocks_named. Qed.
Print Assumptions C21_blocks_split.

(** The same for any file, however its blocks are laid out. *)
Theorem C21_any_file :
  forall b cp allow l,
    usable cp -> snd (lnk_init (FromBytes b) cp allow) = Ok l ->
    exists blocks r, block_walk (dropN (string_data_end b) b) blocks r
    /\ map (fun e => (extra_name (ex_class e), ex_raw e)) (l_extras l)
       = map (fun blk => (block_name (fst blk), snd blk)) blocks
         ++ (if allow && (4 <? lenN r) && (num 4 0 r =? 0) then [("TERMINAL_BLOCK"%string, r)] else []).
Proof. exact any_file_blocks. Qed.
Print Assumptions C21_any_file.

Definition link_with (flags : N) (rest : bytes) : bytes := encode_header (plain_header flags) ++ rest.
Definition three_blocks : list (N * bytes) := [(0xA0000004, enc32 437); (0x12345678, [x01]); (0xA0000005, enc32 1 ++ enc32 2)].
Definition blocks_file : bytes := link_with 0 (encode_blocks three_blocks ++ enc32 0 ++ [x41; x42]).
Example C21_example :
  Forall block_fits three_blocks
  /\ dropN (string_data_end blocks_file) blocks_file = encode_blocks three_blocks ++ enc32 0 ++ [x41; x42]
  /\ match snd (lnk_init (FromBytes blocks_file) CpNone true) with
     | Ok l => map (fun e => (extra_name (ex_class e), lenN (ex_raw e))) (l_extras l)
               = [("CONSOLE_CODEPAGE_BLOCK", 12); ("UNKNOWN_BLOCK", 9); ("SPECIAL_FOLDER_LOCATION_BLOCK", 16);
                  ("TERMINAL_BLOCK", 6)]%string
     | _ => False
     end.
Proof. split; [repeat constructor|]. split; vm_compute; reflexivity. Qed.

(** ** C22. A block that cannot be decoded changes nothing but the warnings. [b1] and [b2] are
    files with and without the block. *)
Theorem C22_bad_block :
  forall b1 b2 cp allow all l1 l2 d1 d2 before bad after rest c e,
    usable cp -> Forall block_fits (before ++ bad :: after) ->
    dropN (string_data_end b1) b1 = encode_blocks (before ++ bad :: after) ++ enc32 0 ++ rest ->
    dropN (string_data_end b2) b2 = encode_blocks (before ++ after) ++ enc32 0 ++ rest ->
    extra_name c = block_name (fst bad) -> snd (extra_as_dict cp (Extra c (encode_block bad))) = Err e ->
    e = StructError \/ e = ValueError ->
    snd (lnk_init (FromBytes b1) cp allow) = Ok l1 -> snd (lnk_init (FromBytes b2) cp allow) = Ok l2 ->
    snd (get_json l1 all) = Ok d1 -> snd (get_json l2 all) = Ok d2 ->
    reported_extra d1 = reported_extra d2
    /\ exists w1 w2,
         fst (extras_as_dict cp (l_extras l2)) = w1 ++ w2
         /\ fst (extras_as_dict cp (l_extras l1))
            = w1 ++ fst (extra_as_dict cp (Extra c (encode_block bad))) ++ [WExtraBlock (block_name (fst bad))] ++ w2.
Proof. exact bad_block_file. Qed.
Print Assumptions C22_bad_block.

(** The same for any list of blocks, also when another block makes the report fail. *)
Theorem C22_any_blocks :
  forall cp before bad after e,
    ex_class bad <> UnknownExtra -> snd (extra_as_dict cp bad) = Err e -> e = StructError \/ e = ValueError ->
    snd (extras_as_dict cp (before ++ bad :: after)) = snd (extras_as_dict cp (before ++ after))
    /\ forall d, snd (extras_as_dict cp (before ++ after)) = Ok d ->
       exists w1 w2, fst (extras_as_dict cp (before ++ after)) = w1 ++ w2
         /\ fst (extras_as_dict cp (before ++ bad :: after))
            = w1 ++ fst (extra_as_dict cp bad) ++ [WExtraBlock (extra_name (ex_class bad))] ++ w2.
Proof. exact bad_block. Qed.
Print Assumptions C22_any_blocks.

(** A code-page block of two bytes between two good blocks. *)
Definition bad_block_bytes : N * bytes := (0xA0000004, [x01; x02]).
Definition with_bad : list (N * bytes) := [(0xA0000005, enc32 1 ++ enc32 2); bad_block_bytes; (0xA000000B, repeat x11 16 ++ enc32 9)].
Example C22_example :
  Forall block_fits with_bad
  /\ snd (extra_as_dict CpNone (Extra CodePage (encode_block bad_block_bytes))) = Err StructError
  /\ match lnk_init (FromBytes (link_with 0 (encode_blocks with_bad ++ enc32 0))) CpNone true with
     | (_, Ok l) =>
       match get_json l false with
       | (w, Ok d) => w = [WExtraBlock "CONSOLE_CODEPAGE_BLOCK"]
                      /\ option_map (map fst) (reported_extra d)
                         = Some ["SPECIAL_FOLDER_LOCATION_BLOCK"; "KNOWN_FOLDER_LOCATION_BLOCK"]%string
       | _ => False end
     | _ => False
     end.
Proof. split; [repeat constructor|]. split; [reflexivity|]. vm_compute. split; reflexivity. Qed.

(** ** C23. The report of all blocks: unknown blocks in one list, of the others the last that
    can be decoded. *)
Theorem C23_collected :
  forall b cp allow l all d,
    usable cp -> snd (lnk_init (FromBytes b) cp allow) = Ok l -> snd (get_json l all) = Ok d ->
    reported_extra d
    = Some (collect (flat_map (fun e => match snd (extra_as_dict cp e) with
                                        | Ok x => [(extra_name (ex_class e), x)]
                                        | Err _ => []
                                        end) (l_extras l))).
Proof. exact extra_reported. Qed.
Print Assumptions C23_collected.

(** Two code-page blocks: the first is lost, without a warning; two unknown blocks: both kept. *)
Definition repeated : list block :=
  [BCodePage 437 []; BUnknown 0x11111111 [x01]; BCodePage 850 []; BUnknown 0x22222222 []].
Definition repeated_file : bytes := link_with 0 (encode_blocks (map as_block repeated) ++ enc32 0).
Theorem C23_every_block_is_reported_refuted :
  exists b l d,
    snd (lnk_init (FromBytes b) CpNone true) = Ok l /\ snd (get_json l true) = Ok d
    /\ dropN (string_data_end b) b = encode_blocks (map as_block repeated) ++ enc32 0 /\ Forall wf_block repeated
    /\ option_map (dget "CONSOLE_CODEPAGE_BLOCK") (reported_extra d)
       = Some (Some (PDict [("size", PInt 12); ("code_page", PInt 850)]%string))
    /\ fst (get_json l true) = []
    /\ match option_map (dget "UNKNOWN_BLOCK") (reported_extra d) with
       | Some (Some (PList u)) => length u = 2%nat
       | _ => False
       end.
Proof.
  exists repeated_file. eexists. eexists. split; [vm_compute; reflexivity|]. split; [vm_compute; reflexivity|].
  split; [vm_compute; reflexivity|]. split; [repeat constructor|]. split; [vm_compute; reflexivity|].
  split; vm_compute; reflexivity.
Qed.
Print Assumptions C23_every_block_is_reported_refuted.

(** ** C24. Extra data closed by a terminal value of 1, 2 or 3. *)
Theorem C24_exact_condition :
  forall b cp allow blocks v t,
    usable cp -> Forall block_fits blocks -> 1 <= v <= 3 ->
    24 <= header_len b -> 24 <= lenN b -> (has_id_list b = true -> header_len b + 2 <= lenN b) ->
    dropN (string_data_end b) b = encode_blocks blocks ++ enc32 v ++ t ->
    if lenN t <? 4 then exists l, snd (lnk_init (FromBytes b) cp allow) = Ok l
    else snd (lnk_init (FromBytes b) cp allow) = Err StructError.
Proof. exact terminal_value_init. Qed.
Print Assumptions C24_exact_condition.

(** With a terminal value of zero the link is always accepted. *)
Theorem C24_zero_is_accepted :
  forall b cp allow blocks t,
    usable cp -> Forall block_fits blocks ->
    24 <= header_len b -> 24 <= lenN b -> (has_id_list b = true -> header_len b + 2 <= lenN b) ->
    dropN (string_data_end b) b = encode_blocks blocks ++ enc32 0 ++ t ->
    exists l, snd (lnk_init (FromBytes b) cp allow) = Ok l.
Proof. exact terminal_zero_init. Qed.
Print Assumptions C24_zero_is_accepted.

Definition ended_by (v : N) (t : bytes) : bytes := link_with 0 (encode_blocks three_blocks ++ enc32 v ++ t).
Theorem C24_terminal_values_refuted :
  exists v t, 1 <= v <= 3
    /\ dropN (string_data_end (ended_by v t)) (ended_by v t) = encode_blocks three_blocks ++ enc32 v ++ t
    /\ (exists l, snd (lnk_init (FromBytes (ended_by 0 t)) CpNone true) = Ok l)
    /\ (exists l, snd (lnk_init (FromBytes (ended_by v [])) CpNone true) = Ok l)
    /\ snd (lnk_init (FromBytes (ended_by v t)) CpNone true) = Err StructError.
Proof.
  exists 1, [x41; x42; x43; x44]. split; [lia|]. split; [vm_compute; reflexivity|].
  split; [eexists; vm_compute; reflexivity|]. split; [eexists; vm_compute; reflexivity|]. vm_compute. reflexivity.
Qed.
Print Assumptions C24_terminal_values_refuted.

(** ** C25. Well-formed blocks are reported with exactly their values. *)
Theorem C25_blocks_reported :
  forall b cp allow l all d blocks rest,
    usable cp -> snd (lnk_init (FromBytes b) cp allow) = Ok l -> snd (get_json l all) = Ok d -> Forall wf_block blocks ->
    dropN (string_data_end b) b = encode_blocks (map as_block blocks) ++ enc32 0 ++ rest ->
    reported_extra d
    = Some (collect (map (fun x => (block_name (block_signature x), block_report cp x)) blocks
                     ++ (if allow && (0 <? lenN rest)
                         then [("TERMINAL_BLOCK", [("size", PN (4 + lenN rest));
                                                   ("appended_data_sha256", PStr (sha256_hex rest))])]%string
                         else []))).
Proof. exact blocks_reported. Qed.
Print Assumptions C25_blocks_reported.

(** One block by itself, with its warnings. *)
Theorem C25_one_block :
  forall cp c x, usable cp -> wf_block x -> extra_name c = block_name (block_signature x) ->
    extra_as_dict cp (Extra c (encode_block (as_block x))) = (block_warnings cp x, Ok (block_report cp x)).
Proof. exact one_block. Qed.
Print Assumptions C25_one_block.

(** A block is left out exactly when it is too short for its fixed fields. Installer (6),
    property store (9) and shell item (C) blocks are not of fixed layout. *)
Theorem C25_short_blocks :
  forall cp c sig raw, usable cp -> extra_name c = block_name sig ->
    ~ In sig [0xA0000006; 0xA0000009; 0xA000000C] -> 8 <= lenN raw ->
    if fixed_part sig <=? lenN raw
    then exists d, snd (extra_as_dict cp (Extra c raw)) = Ok d
    else snd (extra_as_dict cp (Extra c raw)) = Err StructError.
Proof. exact short_block. Qed.
Print Assumptions C25_short_blocks.

Definition a_console : console :=
  ConsoleProps 7 245 80 300 80 25 0 (-5) 0 0 0x100000 54 400 (utf16 [0x43; 0x6F] ++ repeat x00 60)
    25 0 1 1 1 50 4 0 0x0C0C0C (repeat xaa 60).
Definition a_tracker : tracker :=
  Tracker 88 0 (map n2b [0x70; 0x63] ++ repeat x00 14) (repeat x01 16) (repeat x02 16) (repeat x03 16) (repeat x04 16).
Definition fixed_blocks : list block :=
  [BEnvironment (map n2b [0x25; 0x61; 0x25] ++ repeat x00 257) (utf16 [0x25; 0x61; 0x25] ++ repeat x00 514) [];
   BConsole a_console []; BTracker a_tracker []; BCodePage 932 []; BSpecialFolder 37 221 [];
   BIcon (repeat x00 260) (repeat x00 520) []; BKnownFolder (repeat x55 16) 221 []].
Lemma fixed_blocks_wf : Forall wf_block fixed_blocks.
Proof.
  repeat apply Forall_cons; [..|apply Forall_nil]; (split; [reflexivity|]); cbn [wf_block]; try (split; reflexivity); try reflexivity.
  - split; [|split]; repeat split; vm_compute; (reflexivity || discriminate).
  - repeat split; vm_compute; reflexivity.
Qed.
Example C25_example :
  let b := link_with 0 (encode_blocks (map as_block fixed_blocks) ++ enc32 0) in
  dropN (string_data_end b) b = encode_blocks (map as_block fixed_blocks) ++ enc32 0
  /\ (exists l d, snd (lnk_init (FromBytes b) CpNone true) = Ok l /\ snd (get_json l false) = Ok d
      /\ option_map (map fst) (reported_extra d)
         = Some ["ENVIRONMENTAL_VARIABLES_LOCATION_BLOCK"; "CONSOLE_PROPERTIES_BLOCK"; "DISTRIBUTED_LINK_TRACKER_BLOCK";
                 "CONSOLE_CODEPAGE_BLOCK"; "SPECIAL_FOLDER_LOCATION_BLOCK"; "ICON_LOCATION_BLOCK";
                 "KNOWN_FOLDER_LOCATION_BLOCK"]%string)
  /\ tracker_report CpNone a_tracker =
     [("length", PInt 88); ("version", PInt 0); ("machine_identifier", PS "pc");
      ("droid_volume_identifier", PS "01010101-0101-0101-0101-010101010101");
      ("droid_file_identifier", PS "02020202-0202-0202-0202-020202020202");
      ("birth_droid_volume_identifier", PS "03030303-0303-0303-0303-030303030303");
      ("birth_droid_file_identifier", PS "04040404-0404-0404-0404-040404040404")]%string.
Proof.
  cbv zeta. split; [vm_compute; reflexivity|]. split; [|vm_compute; reflexivity].
  eexists. eexists. split; [vm_compute; reflexivity|]. split; vm_compute; reflexivity.
Qed.

(** The colour table of a console block has sixteen entries ([MS-SHLLINK] 2.5.1); two blocks
    that differ in the others have the same report. *)
Theorem C25_color_table_refuted :
  exists c1 c2, wf_block (BConsole c1 []) /\ wf_block (BConsole c2 []) /\ lenN (c_colors c1) = 60 /\ lenN (c_colors c2) = 60
    /\ c_colors c1 <> c_colors c2 /\ block_report CpNone (BConsole c1 []) = block_report CpNone (BConsole c2 []).
Proof.
  exists a_console, (ConsoleProps 7 245 80 300 80 25 0 (-5) 0 0 0x100000 54 400 (utf16 [0x43; 0x6F] ++ repeat x00 60)
    25 0 1 1 1 50 4 0 0x0C0C0C (repeat xbb 60)).
  assert (H : wf_block (BConsole a_console [])).
  { pose proof fixed_blocks_wf as H. rewrite Forall_forall in H. apply H. right. now left. }
  split; [exact H|]. split; [exact H|]. split; [reflexivity|]. split; [reflexivity|]. split; [discriminate|reflexivity].
Qed.
Print Assumptions C25_color_table_refuted.

(** ** C06, continued: the two prescribed values of the tracker block. *)
Theorem C06_tracker_warnings :
  forall cp c t slack, usable cp -> wf_block (BTracker t slack) -> extra_name c = "DISTRIBUTED_LINK_TRACKER_BLOCK"%string ->
    fst (extra_as_dict cp (Extra c (encode_block (as_block (BTracker t slack)))))
    = (if t_length t =? 88 then [] else [WMustBe "length"])
      ++ (if t_version t =? 0 then [] else [WMustBe "version"])
      ++ field_warning cp (t_machine t).
Proof. exact tracker_warned. Qed.
Print Assumptions C06_tracker_warnings.

Example C06_tracker_example :
  let t := Tracker 89 1 (repeat x61 16) (repeat x01 16) (repeat x02 16) (repeat x03 16) (repeat x04 16) in
  wf_block (BTracker t []) /\ fst (extra_as_dict CpNone (Extra DistributedTracker (encode_block (as_block (BTracker t [])))))
  = [WMustBe "length"; WMustBe "version"].
Proof. cbv zeta. split; [split; [reflexivity|]; repeat split; vm_compute; reflexivity|vm_compute; reflexivity]. Qed.

(** ** C26. The name of a shim layer is read as a code-page string: what is reported, and that
    it is not the stored Unicode text. *)
Theorem C26_layer_name :
  forall cp c data, usable cp -> extra_name c = "SHIM_LAYER_BLOCK"%string -> 8 + lenN data < 4294967296 ->
    snd (extra_as_dict cp (Extra c (encode_block (0xA0000008, data))))
    = Ok [("size", PN (8 + lenN data)); ("layer_name", PStr (field_text cp data))]%string.
Proof. exact shim_reported. Qed.
Print Assumptions C26_layer_name.

Theorem C26_only_first_character :
  forall ch t rest, 0 < ch < 128 ->
    field_text CpNone (utf16 (ch :: t) ++ rest) = [ch].
Proof. exact (fun ch t rest => shim_first CpNone ch t rest eq_refl). Qed.
Print Assumptions C26_only_first_character.

Theorem C26_layer_name_refuted :
  exists name, Forall scalar name /\ no_nul name
    /\ forall d, snd (extra_as_dict CpNone (Extra ShimLayer (encode_block (0xA0000008, utf16 name ++ [x00; x00])))) = Ok d ->
       dget "layer_name" d = Some (PS "W") /\ name = s2t "WinXpSp2".
Proof.
  exists (s2t "WinXpSp2"). split; [repeat constructor; left; vm_compute; reflexivity|].
  split; [repeat constructor; discriminate|]. intros d H. vm_compute in H. injection H as <-. split; reflexivity.
Qed.
Print Assumptions C26_layer_name_refuted.

(** ** C27. Property stores. *)
Theorem C27_property_store :
  forall cp c stores slack, extra_name c = "METADATA_PROPERTIES_BLOCK"%string -> Forall wf_storage stores ->
    8 + lenN (flat_map (fun s => sized (storage_body s)) stores ++ enc32 0 ++ slack) < 4294967296 ->
    extra_as_dict cp (Extra c (encode_block (0xA0000009, flat_map (fun s => sized (storage_body s)) stores ++ enc32 0 ++ slack)))
    = (flat_map storage_warnings stores,
       Ok [("size", PN (8 + lenN (flat_map (fun s => sized (storage_body s)) stores ++ enc32 0 ++ slack)));
           ("property_store", PList (map (fun s => PDict (storage_report s)) stores))]%string).
Proof. exact store_reported. Qed.
Print Assumptions C27_property_store.

(** One 16-bit integer anywhere in the store and the whole block is lost (with C22). *)
Theorem C27_i2_loses_the_block :
  forall cp c stores slack, extra_name c = block_name 0xA0000009 -> Forall wf_with_i2 stores -> Exists has_i2 stores ->
    8 + lenN (flat_map (fun s => sized (storage_body s)) stores ++ enc32 0 ++ slack) < 4294967296 ->
    snd (extra_as_dict cp (Extra c (encode_block (0xA0000009, flat_map (fun s => sized (storage_body s)) stores ++ enc32 0 ++ slack))))
    = Err StructError.
Proof. exact i2_block. Qed.
Print Assumptions C27_i2_loses_the_block.

Definition spath : storage :=
  Storage 0x53505331 (map n2b [0x30; 0xF1; 0x25; 0xB7; 0xEF; 0x47; 0x1A; 0x10; 0xA5; 0xF1; 0x02; 0x60; 0x8C; 0x9E; 0xEB; 0xAC])
    [PropId 10 x00 (VString (utf16 [0x61; 0x62] ++ [x00; x00]) [x00; x00]); PropId 14 x00 (VOther 0x40 "VT_FILETIME" 0 (repeat x07 8))].
Definition snamed : storage :=
  Storage 0x53505331 named_format [PropName (utf16 [0x6E] ++ [x00; x00]) x00 (VOther 0x1003 "VT_VECTOR_I4" 0 [])].
Lemma stores_wf : Forall wf_storage [spath; snamed].
Proof.
  repeat apply Forall_cons; [..|apply Forall_nil].
  - split; [reflexivity|]. split; [reflexivity|]. split; [reflexivity|]. split.
    + repeat apply Forall_cons; [..|apply Forall_nil]; (split; [reflexivity|]); (split; [|reflexivity]).
      * split; reflexivity.
      * split; [reflexivity|]. split; [reflexivity|]. split; [vm_compute; tauto|]. right. split; discriminate.
    + right. split; [repeat constructor|discriminate].
  - split; [reflexivity|]. split; [reflexivity|]. split; [reflexivity|]. split.
    + apply Forall_cons; [|apply Forall_nil]. split; [reflexivity|]. split; [|exact I].
      split; [reflexivity|]. split; [reflexivity|]. split; [vm_compute; tauto|]. right. split; discriminate.
    + left. split; [repeat constructor|reflexivity].
Qed.
Example C27_example :
  storage_report spath =
  [("storage_size", PInt 74); ("version", PS "0x53505331"); ("format_id", PS "B725F130-47EF-101A-A5F1-02608C9EEBAC");
   ("serialized_property_values",
    PList [PDict [("value_size", PInt 25); ("id", PInt 10); ("value", PS "ab"); ("value_type", PS "VT_LPWSTR")];
           PDict [("value_size", PInt 21); ("id", PInt 14); ("value", PNone); ("value_type", PS "VT_FILETIME")]])]%string
  /\ storage_report snamed =
  [("storage_size", PInt 45); ("version", PS "0x53505331"); ("format_id", PS "D5CDD505-2E9C-101B-9397-08002B2CF9AE");
   ("serialized_property_values",
    PList [PDict [("value_size", PInt 17); ("name_size", PInt 4); ("name", PS "n"); ("value", PNone);
                  ("value_type", PS "VT_VECTOR_I4")]])]%string.
Proof. split; vm_compute; reflexivity. Qed.

Definition si2 : storage :=
  Storage 0x53505331 (s_format spath) [PropId 2 x00 (VString (utf16 [0x61]) []); PropId 3 x00 (VOther 2 "VT_I2" 0 [x05; x00; x00; x00])].
Theorem C27_i2_refuted :
  exists b l d, snd (lnk_init (FromBytes b) CpNone true) = Ok l /\ get_json l true = ([WExtraBlock "METADATA_PROPERTIES_BLOCK"], Ok d)
    /\ dropN (string_data_end b) b = encode_block (0xA0000009, sized (storage_body si2) ++ enc32 0) ++ enc32 0
    /\ wf_with_i2 si2 /\ has_i2 si2 /\ reported_extra d = Some [].
Proof.
  exists (link_with 0 (encode_block (0xA0000009, sized (storage_body si2) ++ enc32 0) ++ enc32 0)).
  eexists. eexists. split; [vm_compute; reflexivity|]. split; [vm_compute; reflexivity|]. split; [vm_compute; reflexivity|].
  split; [|split; [|vm_compute; reflexivity]].
  - split; [reflexivity|]. split; [reflexivity|]. split; [reflexivity|]. split.
    + repeat apply Forall_cons; [..|apply Forall_nil]; (split; [reflexivity|]); (split; [|reflexivity]).
      * left. split; reflexivity.
      * right. exists "VT_I2"%string, [x05; x00; x00; x00]. reflexivity.
    + right. split; [repeat constructor|discriminate].
  - right. left. exists "VT_I2"%string, [x05; x00; x00; x00]. reflexivity.
Qed.
Print Assumptions C27_i2_refuted.

(** ** C28. Installer descriptors, in all four forms. *)
Theorem C28_descriptor :
  forall cp c ansi x wide slack, usable cp -> extra_name c = "DARWIN_BLOCK"%string ->
    lenN ansi = 260 -> wf_descriptor x -> wide_field (descriptor_text x) wide ->
    8 + lenN (ansi ++ wide ++ slack) < 4294967296 ->
    extra_as_dict cp (Extra c (encode_block (0xA0000006, ansi ++ wide ++ slack)))
    = (field_warning cp ansi,
       Ok (("size"%string, PN (8 + lenN (ansi ++ wide ++ slack)))
           :: [("darwin_data_ansi", PStr (field_text cp ansi)); ("darwin_data_unicode", PStr (descriptor_text x));
               ("product_code_id", PStr (guid_text (d_product x)));
               ("feature_name", match d_feature x with [] => PNone | f => PStr f end);
               ("component_id", match d_component x with Some g => PStr (guid_text g) | None => PNone end)]%string)).
Proof. exact descriptor_reported. Qed.
Print Assumptions C28_descriptor.

Definition guid1 : bytes := map n2b [0x11; 0x22; 0x33; 0x44; 0x55; 0x66; 0x77; 0x88; 0x99; 0xAA; 0xBB; 0xCC; 0xDD; 0xEE; 0xFF; 0x01].
Definition padded (t : text) : bytes := utf16 t ++ repeat x00 (520 - length (utf16 t)).
Example C28_example :
  Forall (fun x => wf_descriptor x /\ wide_field (descriptor_text x) (padded (descriptor_text x)))
    [Descriptor guid1 (s2t "Feature") (Some (rev guid1)); Descriptor guid1 [] (Some (rev guid1));
     Descriptor guid1 (s2t "Feature") None; Descriptor guid1 [] None]
  /\ length (descriptor_text (Descriptor guid1 (s2t "Feature") (Some (rev guid1)))) = 48%nat.
Proof.
  split; [|reflexivity].
  repeat apply Forall_cons; [..|apply Forall_nil]; (split;
    [split; [reflexivity|]; split; [intros c [= <-]; reflexivity|];
     split; [repeat constructor; left; vm_compute; reflexivity|];
     split; [repeat constructor; discriminate|repeat constructor; discriminate]
    |split; [vm_compute; reflexivity|right; eexists; vm_compute; reflexivity]]).
Qed.

(** A descriptor of zeros: the block makes get_json raise IndexError. *)
Theorem C28_zero_descriptor_refuted :
  exists b l, snd (lnk_init (FromBytes b) CpNone true) = Ok l
    /\ dropN (string_data_end b) b = encode_block (0xA0000006, repeat x00 780) ++ enc32 0
    /\ snd (get_json l true) = Err IndexError.
Proof.
  exists (link_with 0 (encode_block (0xA0000006, repeat x00 780) ++ enc32 0)).
  eexists. split; [vm_compute; reflexivity|]. split; vm_compute; reflexivity.
Qed.
Print Assumptions C28_zero_descriptor_refuted.

(** ** C34. The ID list of the last shell-item block and an equal target list give the same items. *)
Theorem C34_same_items :
  forall b cp allow l d idl before after rest,
    usable cp -> snd (lnk_init (FromBytes b) cp allow) = Ok l -> snd (get_json l true) = Ok d ->
    has_id_list b = true -> lenN idl < 65536 -> holds b (header_len b) (enc16 (lenN idl) ++ idl) ->
    Forall block_fits (before ++ (0xA000000C, idl) :: after) -> ~ In 0xA000000C (map fst after) ->
    dropN (string_data_end b) b = encode_blocks (before ++ (0xA000000C, idl) :: after) ++ enc32 0 ++ rest ->
    exists items e, reported_items d = Some items /\ reported_extra d = Some e
      /\ dget "SHELL_ITEM_IDENTIFIER_BLOCK" e = Some (PDict [("size", PN (8 + lenN idl)); ("id_list", PList items)]%string).
Proof. exact same_items. Qed.
Print Assumptions C34_same_items.

(** The block fails with the error with which reading the list fails. *)
Theorem C34_same_outcome :
  forall cp c idl, extra_name c = block_name 0xA000000C -> 8 + lenN idl < 4294967296 ->
    snd (extra_as_dict cp (Extra c (encode_block (0xA000000C, idl))))
    = match snd (items_of cp idl) with
      | Ok items => Ok [("size", PN (8 + lenN idl)); ("id_list", PList items)]%string
      | Err e => Err e
      end.
Proof. exact shell_item_block. Qed.
Print Assumptions C34_same_outcome.

Example C34_example :
  let idl := encode_items [[x99; x01]; [x98; x02; x03]] in
  let b := link_with 1 (enc16 (lenN idl) ++ idl ++ encode_block (0xA000000C, idl) ++ enc32 0) in
  has_id_list b = true /\ dropN (string_data_end b) b = encode_blocks [(0xA000000C, idl)] ++ enc32 0
  /\ match snd (lnk_init (FromBytes b) CpNone true) with
     | Ok l => match snd (get_json l true) with
               | Ok d => option_map (@length pyval) (reported_items d) = Some 2%nat
               | Err _ => False end
     | Err _ => False
     end.
Proof. cbv zeta. split; [reflexivity|]. split; [vm_compute; reflexivity|]. vm_compute. reflexivity. Qed.

(** ** C48. Digests. *)
Theorem C48_digest_form :
  forall m, length (sha256_hex m) = 64%nat /\ Forall lower_hex_digit (sha256_hex m).
Proof. exact sha_hex_form. Qed.
Print Assumptions C48_digest_form.

Theorem C48_what_is_hashed :
  forall cp c raw, 4 <= lenN raw ->
    (extra_name c = "UNKNOWN_BLOCK"%string ->
     extra_as_dict cp (Extra c raw)
     = ([], Ok [("size", PN (num 4 0 raw)); ("extra_data_sha256", PStr (sha256_hex (dropN 4 raw)))]%string))
    /\ (extra_name c = "TERMINAL_BLOCK"%string ->
        extra_as_dict cp (Extra c raw)
        = ([], Ok [("size", PN (lenN raw)); ("appended_data_sha256", PStr (sha256_hex (dropN 4 raw)))]%string)).
Proof. exact what_is_hashed. Qed.
Print Assumptions C48_what_is_hashed.

Example C48_example :
  match snd (extra_as_dict CpNone (Extra UnknownExtra (encode_block (0x64636261, [])))) with
  | Ok d => dget "extra_data_sha256" d = Some (PS "88d4266fd4e6338d13b845fcf289579d209c897823b9217da3e161936f031589")
  | Err _ => False
  end.
Proof. vm_compute. reflexivity. Qed.

(** ** C50. Text fields of fixed size are read from their own bytes only. *)
Theorem C50_text_fields :
  forall cp c raw d name key wide i j,
    usable cp -> In (name, key, wide, i, j) text_fields -> extra_name c = name ->
    snd (extra_as_dict cp (Extra c raw)) = Ok d ->
    dget key d = Some (PStr (stored_text wide cp (slice i j raw))).
Proof. exact text_field. Qed.
Print Assumptions C50_text_fields.

(** The name of a volume item has twenty bytes. *)
Theorem C50_volume_name :
  forall cp ty name rest junk,
    usable cp -> wf_item (IVolume ty name rest) -> item_fits (item_body (IVolume ty name rest)) ->
    exists d, snd (items_of cp (encode_items [item_body (IVolume ty name rest)] ++ junk)) = Ok [PDict d]
      /\ lenN name = 20 /\ dget "volume_name" d = Some (PStr (field_text cp name)).
Proof. exact volume_name. Qed.
Print Assumptions C50_volume_name.

(** A machine identifier that fills its field, followed by letters. *)
Example C50_example :
  let t := Tracker 88 0 (repeat x61 16) (repeat x62 16) (repeat x62 16) (repeat x62 16) (repeat x62 16) in
  match snd (extra_as_dict CpNone (Extra DistributedTracker (encode_block (as_block (BTracker t []))))) with
  | Ok d => dget "machine_identifier" d = Some (PS "aaaaaaaaaaaaaaaa")
  | Err _ => False
  end.
Proof. vm_compute. reflexivity. Qed.
