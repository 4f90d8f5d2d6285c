(** * Properties C22, C23, C26-C28, C30, C32, C33, C48, C50, C53, C54 in terms of whole reports

    The theorems of PropertiesExtra.v and PropertiesItems.v about single blocks and items, here for the report of a file
    of any bytes. [block_walk] (Spec.v) splits the bytes behind the strings of the file into blocks, each a signature and
    the bytes of the block from its size on. [block_read cp signature raw x w] (SpecBlocks.v) tells that a block can be
    read, what is reported of it and with which warnings, [block_tried] that it cannot be. [reported_extra] and
    [reported_items] take their section out of a report. *)
From Verif Require Import Lemmas Codec Utils Sha256 Header StringData Targets Info Extra LnkFile Report.
From Verif Require Import ApiProofs.
From Verif Require Import Spec SpecText SpecHeader SpecTime SpecItems SpecInfo SpecExtra SpecOutcome SpecEntries SpecBlocks SpecSha.
From Verif Require Import ExtraProofs ExtraListProofs ExtraFileProofs ItemProofs DigestProofs InReportProofs.
From Verif Require Import PropertiesExtra PropertiesItems.

(** ** C22. A block that cannot be read is left out of the report, with a warning that names it. All others stay. *)
Theorem C22_in_report :
  forall b cp allow l d said before signature raw after tail w,
    usable cp -> snd (lnk_init (FromBytes b) cp allow) = Ok l -> get_json l true = (said, Ok d) ->
    block_walk (dropN (string_data_end b) b) (before ++ (signature, raw) :: after) tail -> block_tried cp signature raw w ->
    exists entries1 said1 entries2 said2 said0,
      blocks_read cp before entries1 said1 /\ blocks_read cp after entries2 said2
      /\ reported_extra d = Some (collect ((entries1 ++ entries2) ++ behind_blocks allow tail))
      /\ said = said0 ++ said1 ++ w ++ [WExtraBlock (block_name signature)] ++ said2.
Proof. exact bad_reported. Qed.
Print Assumptions C22_in_report.

(** ** C23. Which blocks a report shows. *)

(** Of the blocks with one name the last that can be read. *)
Theorem C23_in_report :
  forall b cp allow all l d before signature raw after tail x w,
    usable cp -> snd (lnk_init (FromBytes b) cp allow) = Ok l -> snd (get_json l all) = Ok d ->
    block_walk (dropN (string_data_end b) b) (before ++ (signature, raw) :: after) tail ->
    block_name signature <> "UNKNOWN_BLOCK"%string -> block_read cp signature raw x w ->
    (forall signature' raw' x' w',
       In (signature', raw') after -> block_name signature' = block_name signature -> ~ block_read cp signature' raw' x' w') ->
    exists e, reported_extra d = Some e /\ dget (block_name signature) e = Some (PDict x).
Proof.
  exact (fun b cp allow all l d before sig raw after tail x w Hcp Hl Hd HW HU HR HL =>
    last_reported b cp allow all l d Hcp Hl Hd _ tail HW before sig raw after x w eq_refl HU HR HL).
Qed.
Print Assumptions C23_in_report.

(** Every entry comes from a block of the file, and no later block of that name can be read. *)
Theorem C23_entries_are_blocks :
  forall b cp allow all l d blocks tail e name x,
    usable cp -> snd (lnk_init (FromBytes b) cp allow) = Ok l -> snd (get_json l all) = Ok d ->
    block_walk (dropN (string_data_end b) b) blocks tail ->
    reported_extra d = Some e -> dget name e = Some (PDict x) -> name <> "TERMINAL_BLOCK"%string ->
    exists before signature raw after w,
      blocks = before ++ (signature, raw) :: after /\ block_name signature = name /\ 4 <= lenN raw
      /\ block_read cp signature raw x w
      /\ forall signature' raw', In (signature', raw') after -> block_name signature' = name ->
         exists w', block_tried cp signature' raw' w'.
Proof.
  exact (fun b cp allow all l d blocks tail e name x Hcp Hl Hd HW =>
    source_reported b cp allow all l d Hcp Hl Hd blocks tail HW e name x).
Qed.
Print Assumptions C23_entries_are_blocks.

(** The names in a report are those of the blocks that can be read, and TERMINAL_BLOCK if something stands behind the
    terminal mark and the caller has asked for it. *)
Theorem C23_names :
  forall b cp allow all l d blocks tail name,
    usable cp -> snd (lnk_init (FromBytes b) cp allow) = Ok l -> snd (get_json l all) = Ok d ->
    block_walk (dropN (string_data_end b) b) blocks tail ->
    exists e, reported_extra d = Some e
      /\ (In name (map fst e)
          <-> (exists signature raw x w,
                 In (signature, raw) blocks /\ block_name signature = name /\ block_read cp signature raw x w)
              \/ (name = "TERMINAL_BLOCK"%string /\ allow = true /\ 4 < lenN tail /\ num 4 0 tail = 0)).
Proof.
  exact (fun b cp allow all l d blocks tail name Hcp Hl Hd HW => keys_reported b cp allow all l d Hcp Hl Hd blocks tail HW name).
Qed.
Print Assumptions C23_names.

(** ** C48. The digests: the unknown blocks in the order of the file, and what stands behind the terminal mark. *)
Theorem C48_unknown_in_report :
  forall b cp allow all l d blocks tail,
    usable cp -> snd (lnk_init (FromBytes b) cp allow) = Ok l -> snd (get_json l all) = Ok d ->
    block_walk (dropN (string_data_end b) b) blocks tail ->
    8 * lenN b < 2 ^ 64 ->
    exists e, reported_extra d = Some e
      /\ let unknown := filter (fun blk => String.eqb (block_name (fst blk)) "UNKNOWN_BLOCK") blocks in
         (unknown = [] -> dget "UNKNOWN_BLOCK" e = None)
         /\ (unknown <> [] -> exists ds, dget "UNKNOWN_BLOCK" e = Some (PList (map PDict ds))
             /\ Forall2 (fun blk x => exists t, sha256_digest (dropN 4 (snd blk)) t
                           /\ x = [("size", PN (num 4 0 (snd blk))); ("extra_data_sha256", PStr t)]%string) unknown ds).
Proof. exact unknown_digests. Qed.
Print Assumptions C48_unknown_in_report.

Theorem C48_appended_in_report :
  forall b cp all l d blocks tail,
    usable cp -> snd (lnk_init (FromBytes b) cp true) = Ok l -> snd (get_json l all) = Ok d ->
    block_walk (dropN (string_data_end b) b) blocks tail ->
    8 * lenN b < 2 ^ 64 -> 4 < lenN tail -> num 4 0 tail = 0 ->
    exists e t, reported_extra d = Some e /\ sha256_digest (dropN 4 tail) t
      /\ dget "TERMINAL_BLOCK" e = Some (PDict [("size", PN (lenN tail)); ("appended_data_sha256", PStr t)]%string).
Proof. exact appended_digests. Qed.
Print Assumptions C48_appended_in_report.

(** ** C26, C27, C28. Blocks with given contents. [data] is what follows the signature. *)
Theorem C26_in_report :
  forall b cp allow all l d before data after rest,
    usable cp -> snd (lnk_init (FromBytes b) cp allow) = Ok l -> snd (get_json l all) = Ok d ->
    Forall block_fits (before ++ (0xA0000008, data) :: after) ->
    dropN (string_data_end b) b = encode_blocks (before ++ (0xA0000008, data) :: after) ++ enc32 0 ++ rest ->
    Forall (fun blk => block_name (fst blk) <> "SHIM_LAYER_BLOCK"%string) after ->
    exists e, reported_extra d = Some e
      /\ dget "SHIM_LAYER_BLOCK" e
         = Some (PDict [("size", PN (8 + lenN data)); ("layer_name", PStr (field_text cp data))]%string).
Proof. exact shim_in_report. Qed.
Print Assumptions C26_in_report.

Theorem C27_in_report :
  forall b cp allow all l d before stores slack after rest,
    let data := flat_map (fun s => sized (storage_body s)) stores ++ enc32 0 ++ slack in
    usable cp -> snd (lnk_init (FromBytes b) cp allow) = Ok l -> snd (get_json l all) = Ok d ->
    Forall block_fits (before ++ (0xA0000009, data) :: after) -> Forall wf_storage stores ->
    dropN (string_data_end b) b = encode_blocks (before ++ (0xA0000009, data) :: after) ++ enc32 0 ++ rest ->
    Forall (fun blk => block_name (fst blk) <> "METADATA_PROPERTIES_BLOCK"%string) after ->
    exists e, reported_extra d = Some e
      /\ dget "METADATA_PROPERTIES_BLOCK" e
         = Some (PDict [("size", PN (8 + lenN data));
                        ("property_store", PList (map (fun s => PDict (storage_report s)) stores))]%string).
Proof. exact store_in_report. Qed.
Print Assumptions C27_in_report.

Theorem C28_in_report :
  forall b cp allow all l d before ansi x wide slack after rest,
    let data := ansi ++ wide ++ slack in
    usable cp -> snd (lnk_init (FromBytes b) cp allow) = Ok l -> snd (get_json l all) = Ok d ->
    lenN ansi = 260 -> wf_descriptor x -> wide_field (descriptor_text x) wide ->
    Forall block_fits (before ++ (0xA0000006, data) :: after) ->
    dropN (string_data_end b) b = encode_blocks (before ++ (0xA0000006, data) :: after) ++ enc32 0 ++ rest ->
    Forall (fun blk => block_name (fst blk) <> "DARWIN_BLOCK"%string) after ->
    exists e, reported_extra d = Some e
      /\ dget "DARWIN_BLOCK" e
         = Some (PDict [("size", PN (8 + lenN data));
                        ("darwin_data_ansi", PStr (field_text cp ansi)); ("darwin_data_unicode", PStr (descriptor_text x));
                        ("product_code_id", PStr (guid_text (d_product x)));
                        ("feature_name", match d_feature x with [] => PNone | f => PStr f end);
                        ("component_id", match d_component x with Some g => PStr (guid_text g) | None => PNone end)]%string).
Proof. exact descriptor_in_report. Qed.
Print Assumptions C28_in_report.

(** ** C50. A reported text is the one stored in the last readable block of that name, up to its first NUL. *)
Theorem C50_in_report :
  forall b cp allow all l d blocks tail e name key wide i j x,
    usable cp -> snd (lnk_init (FromBytes b) cp allow) = Ok l -> snd (get_json l all) = Ok d ->
    block_walk (dropN (string_data_end b) b) blocks tail ->
    In (name, key, wide, i, j) text_fields -> reported_extra d = Some e -> dget name e = Some (PDict x) ->
    exists before signature raw after w,
      blocks = before ++ (signature, raw) :: after /\ block_name signature = name /\ block_read cp signature raw x w
      /\ (forall signature' raw', In (signature', raw') after -> block_name signature' = name ->
          exists w', block_tried cp signature' raw' w')
      /\ dget key x = Some (PStr (stored_text wide cp (slice i j raw))).
Proof.
  exact (fun b cp allow all l d blocks tail e name key wide i j x Hcp Hl Hd HW =>
    texts_reported b cp allow all l d Hcp Hl Hd blocks tail HW e name key wide i j x).
Qed.
Print Assumptions C50_in_report.

(** ** C30, C32, C33, C53. Items of an ID list. *)

(** The entry at the place of an item has the class of its type. *)
Theorem C30_in_report :
  forall b cp allow l d before body next,
    usable cp -> snd (lnk_init (FromBytes b) cp allow) = Ok l -> snd (get_json l true) = Ok d ->
    has_id_list b = true -> Forall item_fits before -> item_fits body ->
    id_list b = flat_map encode_item before ++ encode_item body ++ next ->
    exists l1 e l2, reported_items d = Some (l1 ++ e :: l2) /\ length l1 = length before
      /\ entry_class e = Some (PS (class_of_type (item_type body))).
Proof. exact (fun b cp allow l d before body next Hcp Hl Hd HI => class_reported b cp allow l d Hcp Hl Hd HI before body next). Qed.
Print Assumptions C30_in_report.

(** One item in two files, at any places: if the two bytes behind it are the same, so are the entries. *)
Theorem C32_in_report :
  forall b1 b2 cp allow1 allow2 l1 l2 d1 d2 before1 before2 body next1 next2,
    usable cp -> snd (lnk_init (FromBytes b1) cp allow1) = Ok l1 -> snd (lnk_init (FromBytes b2) cp allow2) = Ok l2 ->
    snd (get_json l1 true) = Ok d1 -> snd (get_json l2 true) = Ok d2 ->
    has_id_list b1 = true -> has_id_list b2 = true ->
    Forall item_fits before1 -> Forall item_fits before2 -> item_fits body -> takeN 2 next1 = takeN 2 next2 ->
    id_list b1 = flat_map encode_item before1 ++ encode_item body ++ next1 ->
    id_list b2 = flat_map encode_item before2 ++ encode_item body ++ next2 ->
    exists m1 e n1 m2 n2,
      reported_items d1 = Some (m1 ++ e :: n1) /\ length m1 = length before1
      /\ reported_items d2 = Some (m2 ++ e :: n2) /\ length m2 = length before2.
Proof. exact same_item. Qed.
Print Assumptions C32_in_report.

(** A report can be made only if no network location lacks a string. *)
Theorem C33_in_report :
  forall b cp allow l d before body next,
    usable cp -> snd (lnk_init (FromBytes b) cp allow) = Ok l -> snd (get_json l true) = Ok d ->
    has_id_list b = true -> Forall item_fits before -> item_fits body ->
    id_list b = flat_map encode_item before ++ encode_item body ++ next ->
    item_type body / 16 mod 8 = 4 -> 3 <= lenN (body ++ takeN 2 next) ->
    extra_strings (b2n (nth 2 (body ++ takeN 2 next) x00)) <= nuls (dropN 3 (body ++ takeN 2 next)).
Proof. exact (fun b cp allow l d before body next Hcp Hl Hd HI => network_reported b cp allow l d Hcp Hl Hd HI before body next). Qed.
Print Assumptions C33_in_report.

Theorem C53_in_report :
  forall b cp allow l d items x,
    usable cp -> snd (lnk_init (FromBytes b) cp allow) = Ok l -> snd (get_json l true) = Ok d ->
    has_id_list b = true -> reported_items d = Some items -> In (PDict x) items ->
    dget "flags" x <> Some (PS "Is Unicode share") /\ dget "flags" x <> Some (PS "Has CLSID").
Proof. exact (fun b cp allow l d items x Hcp Hl Hd HI => flags_reported b cp allow l d Hcp Hl Hd HI items x). Qed.
Print Assumptions C53_in_report.

(** Every file entry and every network location of a file shows the name for the low bits of its type byte. *)
Theorem C53_names :
  forall b cp allow l d before body next n name,
    usable cp -> snd (lnk_init (FromBytes b) cp allow) = Ok l -> snd (get_json l true) = Ok d ->
    has_id_list b = true -> Forall item_fits before -> item_fits body ->
    id_list b = flat_map encode_item before ++ encode_item body ++ next ->
    item_type body / 16 mod 8 = 3 \/ item_type body / 16 mod 8 = 4 ->
    In (n, name)
      [(0, "Unknown"); (1, "Is directory"); (2, "Is file"); (3, "Is share"); (4, "Has Unicode strings");
       (5, "Is Unicode directory"); (6, "Is Unicode file"); (7, "Is Unicode directory")]%string ->
    item_type body mod 8 = n ->
    exists l1 x l2, reported_items d = Some (l1 ++ PDict x :: l2) /\ length l1 = length before
      /\ dget "flags" x = Some (PS name).
Proof. exact flags_by_name. Qed.
Print Assumptions C53_names.

(** ** A file that meets the hypotheses

    Nine blocks: a code page twice, two of unknown signatures, a shim layer, a special folder cut short, a property store,
    an installer descriptor and an environment block. Two bytes stand behind the terminal mark. The ID list has three
    items, one of them a network location. *)
Definition a_descriptor : descriptor := Descriptor guid1 (s2t "Feature") (Some (rev guid1)).
Definition store_data : bytes := flat_map (fun s => sized (storage_body s)) [spath; snamed] ++ enc32 0 ++ [].
Definition darwin_data : bytes := (repeat x61 3 ++ repeat x00 257) ++ padded (descriptor_text a_descriptor) ++ [].
Definition environment_data : bytes := ([x25; x61; x25] ++ repeat x00 257) ++ padded (s2t "%a%").
Definition first_blocks : list (N * bytes) := [(0xA0000004, enc32 437); (0x12345678, [x01]); (0xA0000008, [x57; x69; x6e])].
Definition cut_block : N * bytes := (0xA0000005, enc32 1).
Definition last_blocks : list (N * bytes) :=
  [(0xA0000004, enc32 850); (0x99, [x02; x03]); (0xA0000009, store_data); (0xA0000006, darwin_data); (0xA0000001, environment_data)].
Definition nine_blocks : list (N * bytes) := first_blocks ++ cut_block :: last_blocks.
Definition three_items : list bytes := map item_body [my_computer; share; IFile a_file].
Definition nine_file : bytes :=
  encode_header (plain_header 1) ++ encode_id_list three_items ++ encode_blocks nine_blocks ++ enc32 0 ++ [x41; x42].
Definition raw_blocks (l : list (N * bytes)) : list (N * bytes) := map (fun blk => (fst blk, encode_block blk)) l.

Example in_report_layout :
  has_id_list nine_file = true /\ 8 * lenN nine_file < 2 ^ 64 /\ Forall block_fits nine_blocks
  /\ dropN (string_data_end nine_file) nine_file = encode_blocks nine_blocks ++ enc32 0 ++ [x41; x42]
  /\ id_list nine_file = flat_map encode_item three_items ++ enc16 0
  /\ Forall item_fits three_items.
Proof.
  split; [vm_compute; reflexivity|]. split; [vm_compute; reflexivity|]. split; [|split; [vm_compute; reflexivity|split; [vm_compute; reflexivity|]]].
  - repeat apply Forall_cons; [..|apply Forall_nil]; (split; vm_compute; reflexivity).
  - repeat apply Forall_cons; [..|apply Forall_nil]; (split; [discriminate|vm_compute; reflexivity]).
Qed.
(** The walk over its blocks (C22, C23, C48, C50). *)
Example in_report_walk :
  block_walk (dropN (string_data_end nine_file) nine_file)
    (raw_blocks first_blocks ++ (0xA0000005, encode_block cut_block) :: raw_blocks last_blocks) (enc32 0 ++ [x41; x42]).
Proof.
  destruct in_report_layout as (_ & _ & HF & E & _). rewrite E.
  pose proof (walk_encoded nine_blocks _ _ _ HF (walk_terminal [x41; x42])) as H. rewrite app_nil_r in H. exact H.
Qed.
Example C22_in_report_example : forall cp, block_tried cp 0xA0000005 (encode_block cut_block) [].
Proof. intros cp. apply (fixed_cut cp 0xA0000005 (encode_block cut_block)). vm_compute. reflexivity. Qed.
Example C23_in_report_example :
  block_read CpNone 0xA0000004 (encode_block (0xA0000004, enc32 850)) [("size", PInt 12); ("code_page", PInt 850)]%string [].
Proof. apply (fixed_read CpNone 0xA0000004 (encode_block (0xA0000004, enc32 850))); vm_compute; (reflexivity || discriminate). Qed.
(** Its report: the second code page, no special folder, both unknown blocks, all others. *)
Example in_report_report :
  exists l d, snd (lnk_init (FromBytes nine_file) CpNone true) = Ok l /\ get_json l true = ([WExtraBlock "SPECIAL_FOLDER_LOCATION_BLOCK"], Ok d)
    /\ option_map (map fst) (reported_extra d)
       = Some ["CONSOLE_CODEPAGE_BLOCK"; "UNKNOWN_BLOCK"; "SHIM_LAYER_BLOCK"; "METADATA_PROPERTIES_BLOCK"; "DARWIN_BLOCK";
               "ENVIRONMENTAL_VARIABLES_LOCATION_BLOCK"; "TERMINAL_BLOCK"]%string
    /\ option_map (dget "CONSOLE_CODEPAGE_BLOCK") (reported_extra d) = Some (Some (PDict [("size", PInt 12); ("code_page", PInt 850)]))%string
    /\ option_map (dget "SHIM_LAYER_BLOCK") (reported_extra d) = Some (Some (PDict [("size", PInt 11); ("layer_name", PS "Win")]))%string
    /\ option_map (dget "UNKNOWN_BLOCK") (reported_extra d)
       = Some (Some (PList [PDict [("size", PInt 9); ("extra_data_sha256", PStr (sha256_hex [x78; x56; x34; x12; x01]))];
                            PDict [("size", PInt 10); ("extra_data_sha256", PStr (sha256_hex [x99; x00; x00; x00; x02; x03]))]]))%string
    /\ option_map (map entry_class) (reported_items d)
       = Some [Some (PS "Root Folder"); Some (PS "Network location"); Some (PS "File entry")].
Proof.
  destruct (snd (lnk_init (FromBytes nine_file) CpNone true)) as [l|] eqn:El; [|vm_compute in El; discriminate El].
  destruct (get_json l true) as [w [d|]] eqn:Ed.
  - exists l, d. split; [reflexivity|]. vm_compute in El. injection El as <-. vm_compute in Ed. injection Ed as <- <-.
    do 5 (split; [vm_compute; reflexivity|]). vm_compute; reflexivity.
  - vm_compute in El. injection El as <-. vm_compute in Ed. discriminate Ed.
Qed.
(** The remaining hypotheses of C26, C27, C28 and C50. *)
Example C26_in_report_example : Forall (fun blk => block_name (fst blk) <> "SHIM_LAYER_BLOCK"%string) (cut_block :: last_blocks).
Proof. repeat apply Forall_cons; [..|apply Forall_nil]; discriminate. Qed.
Example C27_in_report_example :
  nine_blocks = (first_blocks ++ cut_block :: takeN 2 last_blocks) ++ (0xA0000009, store_data) :: dropN 3 last_blocks
  /\ Forall wf_storage [spath; snamed]
  /\ Forall (fun blk => block_name (fst blk) <> "METADATA_PROPERTIES_BLOCK"%string) (dropN 3 last_blocks).
Proof. split; [reflexivity|]. split; [exact stores_wf|]. repeat apply Forall_cons; [..|apply Forall_nil]; discriminate. Qed.
Example C28_in_report_example :
  nine_blocks = (first_blocks ++ cut_block :: takeN 3 last_blocks) ++ (0xA0000006, darwin_data) :: dropN 4 last_blocks
  /\ wf_descriptor a_descriptor /\ wide_field (descriptor_text a_descriptor) (padded (descriptor_text a_descriptor))
  /\ Forall (fun blk => block_name (fst blk) <> "DARWIN_BLOCK"%string) (dropN 4 last_blocks).
Proof.
  split; [reflexivity|]. pose proof (Forall_inv (proj1 C28_example)) as [H1 H2]. split; [exact H1|]. split; [exact H2|].
  repeat apply Forall_cons; [..|apply Forall_nil]; discriminate.
Qed.
Example C50_in_report_example :
  In ("ENVIRONMENTAL_VARIABLES_LOCATION_BLOCK", "target_unicode", true, 268, 788)%string text_fields
  /\ stored_text true CpNone (slice 268 788 (encode_block (0xA0000001, environment_data))) = s2t "%a%".
Proof. split; [right; now left|vm_compute; reflexivity]. Qed.
(** Those of C30, C32 and C33: the second item, and the same item first in another file. *)
Definition other_item : bytes := x99 :: repeat x61 (pred (length (item_body (IFile a_file)))).
Definition share_file : bytes := encode_header (plain_header 1) ++ encode_id_list [item_body share; other_item] ++ enc32 0.
Example C32_in_report_example :
  id_list nine_file = flat_map encode_item [item_body my_computer] ++ encode_item (item_body share) ++ encode_item (item_body (IFile a_file)) ++ enc16 0
  /\ id_list share_file = flat_map encode_item [] ++ encode_item (item_body share) ++ encode_item other_item ++ enc16 0
  /\ takeN 2 (encode_item (item_body (IFile a_file)) ++ enc16 0) = takeN 2 (encode_item other_item ++ enc16 0)
  /\ item_type (item_body share) / 16 mod 8 = 4
  /\ match snd (lnk_init (FromBytes share_file) CpNone true) with
     | Ok l => match snd (get_json l true) with
               | Ok d => option_map (map entry_class) (reported_items d) = Some [Some (PS "Network location"); Some (PS "Unknown")]
               | Err _ => False
               end
     | Err _ => False
     end.
Proof. split; [vm_compute; reflexivity|]. split; [vm_compute; reflexivity|]. split; [vm_compute; reflexivity|]. split; vm_compute; reflexivity. Qed.

(** ** C54. A network link without a device, whatever its size: the device name is the text that starts with the size
    field, and ends in it unless the size is 2^24 or more. *)
Theorem C54_in_report :
  forall b cp allow l d li,
    usable cp -> snd (lnk_init (FromBytes b) cp allow) = Ok l -> snd (get_json l true) = Ok d ->
    info_processed b = true -> reported_location_info d = Some li ->
    let raw := dropN (id_list_end b) b in
    let o := num 4 20 raw in
    let name := field_text cp (dropN o raw) in
    N.testbit (num 4 8 raw) 0 = false -> num 4 (o + 8) raw <= 20 -> num 4 (o + 12) raw = 0 ->
    dget "device_name" li = (if nonempty name then Some (PStr name) else None)
    /\ (num 4 o raw < 2 ^ 24 -> name = field_text cp (enc32 (num 4 o raw))).
Proof. exact device_of_any_size. Qed.
Print Assumptions C54_in_report.
(** A share of 0x4241 bytes. *)
Definition large_share : network := NetworkLink 0x4241 2 0x20000 (PageNames 20 [x68] 0 [x41; x42]).
Definition large_file : bytes :=
  encode_header (plain_header 2) ++ (encode_info (LinkInfo 60 0x1C 2 0 28 None None None) ++ encode_network large_share ++ zstring false [x68] ++ enc32 0).
Example C54_in_report_example :
  match snd (l <- lnk_init (FromBytes large_file) CpNone true ;; get_json l true) with
  | Ok d => match reported_location_info d with Some li => dget "device_name" li | None => None end
  | Err _ => None
  end = Some (PS "AB")
  /\ info_processed large_file = true
  /\ (let raw := dropN (id_list_end large_file) large_file in
      let o := num 4 20 raw in
      N.testbit (num 4 8 raw) 0 = false /\ num 4 (o + 8) raw = 20 /\ num 4 (o + 12) raw = 0 /\ num 4 o raw = 0x4241).
Proof. split; [vm_compute; reflexivity|]. split; [vm_compute; reflexivity|]. cbv zeta. repeat (split; [vm_compute; reflexivity|]). vm_compute. reflexivity. Qed.
