(** * Property C74: asking an item or a block for a single field

    The methods of what [for item in lnk.targets] and [for block in lnk.extras] give, called one by one in a program that
    also does all that C71 is about. SpecPieces.v says from the bytes what each gives, and how a report is made of
    them. *)
From Verif Require Import Lemmas Codec Header Targets Extra LnkFile Report.
From Verif Require Import Spec SpecText SpecHeader SpecItems SpecExtra SpecOutcome SpecEntries SpecBlocks SpecFailure.
From Verif Require Import PiecesRunProofs Walk SpecWalk Pieces SpecPieces.

(** ** C74. After any steps, the next step gives what is read off the bytes: the warnings, then the answer or the
    exception. *)
Theorem C74_answers :
  forall b cp allow l h st said r,
    usable cp -> snd (lnk_init (FromBytes b) cp allow) = Ok l ->
    happens l h st = Some (said, r) <-> says b cp allow h st said r.
Proof. intros b cp allow l h st said r Hcp Hl. exact (pieces_iff b cp allow l Hcp Hl h st said r). Qed.
Print Assumptions C74_answers.
(** There is nothing to ask exactly when the specification says nothing, and it never says two things. *)
Theorem C74_nothing :
  forall b cp allow l h st,
    usable cp -> snd (lnk_init (FromBytes b) cp allow) = Ok l ->
    happens l h st = None <-> forall said r, ~ says b cp allow h st said r.
Proof. exact pieces_nothing. Qed.
Print Assumptions C74_nothing.
Theorem C74_determined :
  forall b cp allow l h st said1 r1 said2 r2,
    usable cp -> snd (lnk_init (FromBytes b) cp allow) = Ok l ->
    says b cp allow h st said1 r1 -> says b cp allow h st said2 r2 -> said1 = said2 /\ r1 = r2.
Proof. exact pieces_determined. Qed.
Print Assumptions C74_determined.
(** Asking for fields, in whatever number and order, disturbs nothing. *)
Theorem C74_undisturbed : forall l h h' st, calls h = calls h' -> happens l h st = happens l h' st.
Proof. exact pieces_undisturbed. Qed.
Print Assumptions C74_undisturbed.

(** [as_item()] gives what the methods of [item_rows] give when they are called in this order, with the same warnings; it
    fails exactly with the first of them that fails. *)
Theorem C74_items_as_reported :
  forall b cp allow l h v k there said r,
    usable cp -> snd (lnk_init (FromBytes b) cp allow) = Ok l -> has_item b cp (calls h) v k there ->
    happens l h (Call (Show v k)) = Some (said, r)
    <-> exists r', in_order (fun q w x => happens l h (AskItem v k q) = Some (w, as_read x)) (item_rows (fields_at there)) said r'
                   /\ r = wrapped (app (item_head (class_of_type (num 1 2 there)) (num 2 0 there))) r'.
Proof. intros b cp allow l h v k there said r Hcp Hl. exact (items_as_reported b cp allow l Hcp Hl h v k there said r). Qed.
Print Assumptions C74_items_as_reported.
(** So does [as_dict()] of a block ... *)
Theorem C74_blocks_as_reported :
  forall b cp allow l h v k p said r,
    usable cp -> snd (lnk_init (FromBytes b) cp allow) = Ok l -> has_part b allow (calls h) v k p ->
    (forall raw, p <> Block 0xA0000009 raw) ->
    happens l h (Call (Show v k)) = Some (said, r)
    <-> exists r', in_order (fun q w x => happens l h (AskBlock v k q) = Some (w, as_read x)) (part_rows p) said r'
                   /\ r = wrapped (cons ("size"%string, PN (part_size p))) r'.
Proof. intros b cp allow l h v k p said r Hcp Hl. exact (blocks_as_reported b cp allow l Hcp Hl h v k p said r). Qed.
Print Assumptions C74_blocks_as_reported.
(** ... of a property store, which asks each storage for its dict; ... *)
Theorem C74_stores_as_reported :
  forall b cp allow l h v k raw said r,
    usable cp -> snd (lnk_init (FromBytes b) cp allow) = Ok l -> has_part b allow (calls h) v k (Block 0xA0000009 raw) ->
    happens l h (Call (Show v k)) = Some (said, r)
    <-> exists r', in_order_then (fun q w x => happens l h (AskBlock v k q) = Some (w, as_read x)) [] "property_store" HowManyStorages
                     (fun i => Storage i StorageDict) said r'
                   /\ r = wrapped (cons ("size"%string, PN (num 4 0 raw))) r'.
Proof. intros b cp allow l h v k raw said r Hcp Hl. exact (stores_as_reported b cp allow l Hcp Hl h v k raw said r). Qed.
Print Assumptions C74_stores_as_reported.
(** ... of a storage, which asks each property for its dict; ... *)
Theorem C74_storages_as_reported :
  forall b cp allow l h v k p i said r,
    usable cp -> snd (lnk_init (FromBytes b) cp allow) = Ok l -> has_part b allow (calls h) v k p ->
    let ask q w x := happens l h (AskBlock v k (Storage i q)) = Some (w, as_read x) in
    ask StorageDict said r
    <-> exists r', in_order_then ask storage_rows "serialized_property_values" HowManyProperties (fun j => Property j PropertyDict) said r'
                   /\ r = nested r'.
Proof. intros b cp allow l h v k p i said r Hcp Hl. exact (storages_as_reported b cp allow l Hcp Hl h v k p i said r). Qed.
Print Assumptions C74_storages_as_reported.
(** ... and of a property, whose fields depend on the format of the storage. *)
Theorem C74_properties_as_reported :
  forall b cp allow l h v k p i j (named : bool) said r,
    usable cp -> snd (lnk_init (FromBytes b) cp allow) = Ok l -> has_part b allow (calls h) v k p ->
    (named = true <-> happens l h (AskBlock v k (Storage i FormatId))
                      = Some ([], Ok (Read (Plain (PS "D5CDD505-2E9C-101B-9397-08002B2CF9AE"))))) ->
    let ask q w x := happens l h (AskBlock v k (Storage i (Property j q))) = Some (w, as_read x) in
    ask PropertyDict said r <-> exists r', in_order ask (property_rows named) said r' /\ r = nested r'.
Proof. intros b cp allow l h v k p i j named said r Hcp Hl. exact (properties_as_reported b cp allow l Hcp Hl h v k p i j named said r). Qed.
Print Assumptions C74_properties_as_reported.

(** ** Two methods that never work

    [extension_block()] of a root folder, and [volume_identifier()] of a volume that has a name, raise on every file;
    of a volume without a name, [volume_name()] gives None. *)
Theorem C74_extension_block :
  forall b cp allow l h v k there,
    usable cp -> snd (lnk_init (FromBytes b) cp allow) = Ok l -> has_item b cp (calls h) v k there ->
    num 1 2 there = 0x1E \/ num 1 2 there = 0x1F ->
    happens l h (AskItem v k (Field ExtensionBlock)) = Some ([], Err AttributeError).
Proof. exact extension_block_fails. Qed.
Print Assumptions C74_extension_block.
Theorem C74_volume_identifier :
  forall b cp allow l h v k there,
    usable cp -> snd (lnk_init (FromBytes b) cp allow) = Ok l -> has_item b cp (calls h) v k there ->
    num 1 2 there / 16 mod 8 = 2 -> N.testbit (num 1 2 there) 0 = true ->
    happens l h (AskItem v k (Field VolumeIdentifier)) = Some ([], Err TypeError).
Proof. exact volume_identifier_fails. Qed.
Print Assumptions C74_volume_identifier.

(** ** C74. The two methods that are given a number, [get_item_shell_fs_folder] and [get_sort_index], for every number: the
    name, or "Unknown" and a warning. *)
Theorem C74_flags_of_a_number :
  forall n, get_item_shell_fs_folder n
    = match number_flags n with Some name => ([], Ok name) | None => ([WItemFlags n], Ok "Unknown"%string) end.
Proof. exact PiecesProofs.flags_of_number. Qed.
Print Assumptions C74_flags_of_a_number.
Theorem C74_sort_index_of_a_number :
  forall n, get_sort_index n
    = match sort_name n with Some name => ([], Ok name) | None => ([WSortIndex n], Ok "Unknown"%string) end.
Proof. exact PiecesProofs.sort_of_number. Qed.
Print Assumptions C74_sort_index_of_a_number.
Example C74_example_numbers :
  get_item_shell_fs_folder 0x1235 = ([], Ok "Is Unicode directory"%string) /\ get_item_shell_fs_folder 0x90 = ([], Ok "Has CLSID"%string)
  /\ get_item_shell_fs_folder 0x108 = ([WItemFlags 0x108], Ok "Unknown"%string) /\ get_sort_index 0x54 = ([], Ok "UsersLibraries"%string).
Proof. repeat split. Qed.

(** ** Examples

    An ID list of a file entry that is cut off behind its size, a drive with a name and a root folder; a property store
    whose second property has a type without a name, an installer descriptor of zeros, and bytes behind the blocks. No
    report can be made of the file; most fields can be asked for. *)
Definition asked_file : bytes :=
  encode_header (plain_header 0x1)
  ++ enc16 51 ++ (enc16 8 ++ [n2b 0x31; x00] ++ enc32 77) ++ (enc16 23 ++ [x2f; x43; x3a; x5c] ++ repeat x00 17)
  ++ (enc16 20 ++ [n2b 0x1F; n2b 0x50] ++ repeat x22 16)
  ++ (enc32 90 ++ enc32 0xA0000009
      ++ (enc32 74 ++ enc32 0x53505331 ++ repeat x11 16
          ++ (enc32 25 ++ enc32 7 ++ [x00] ++ enc16 0x1F ++ enc16 0 ++ enc32 4 ++ [x61; x00; x62; x00; x00; x00; x00; x00])
          ++ (enc32 21 ++ enc32 8 ++ [x00] ++ enc16 0x999 ++ enc16 0 ++ repeat x00 8)
          ++ enc32 0)
      ++ enc32 0 ++ repeat x00 4)
  ++ (enc32 788 ++ enc32 0xA0000006 ++ repeat x00 780)
  ++ enc32 0 ++ [x41; x42].
(** What the last step of a program gives; in the order of the program. *)
Definition last_step (steps : list step) : option (M outcome) :=
  match snd (lnk_init (FromBytes asked_file) CpNone true) with
  | Ok l => match rev steps with st :: h => happens l h st | [] => None end
  | Err _ => None
  end.
Definition of_items (q : list step) : option (M outcome) :=
  last_step (map Call [IterItems 0; Next 0; Next 0; Next 0] ++ q).
Definition of_blocks (q : list step) : option (M outcome) :=
  last_step (map Call [IterBlocks 0; Next 0; Next 0; Next 0] ++ q).
Example C74_example_items :
  of_items [Call (Show 0 0)] = Some ([], Err StructError)
  /\ of_items [AskItem 0 0 (Field FileSize)] = Some ([], Ok (Read (Plain (PN 77))))
  /\ of_items [AskItem 0 0 (Field ModificationTime)] = Some ([], Err StructError)
  /\ of_items [AskItem 0 0 (Field ModificationTime); AskItem 0 0 (Field PrimaryName)] = Some ([], Ok (Read (Plain (PStr []))))
  /\ of_items [AskItem 0 0 (Field HasUnicodeStrings)] = Some ([], Ok (Read (Truth false)))
  /\ of_items [AskItem 0 0 (Field Guid)] = Some ([], Err AttributeError)
  /\ of_items [AskItem 0 1 (Field VolumeName)] = Some ([], Ok (Read (Plain (PStr [67; 58; 92]))))
  /\ of_items [AskItem 0 1 (Field VolumeIdentifier)] = Some ([], Err TypeError)
  /\ of_items [AskItem 0 2 (Field SortIndex)] = Some ([], Ok (Read (Plain (PS "My Computer"))))
  /\ of_items [AskItem 0 2 (Field ExtensionBlock)] = Some ([], Err AttributeError)
  /\ of_items [AskItem 0 3 (Field Flags)] = None.
Proof. vm_compute. repeat split. Qed.
Example C74_example_blocks :
  of_blocks [Call (Show 0 0)] = Some ([], Err ValueError)
  /\ of_blocks [AskBlock 0 0 HowManyStorages] = Some ([], Ok (Read (Plain (PN 1))))
  /\ of_blocks [AskBlock 0 0 (Storage 0 HowManyProperties)] = Some ([], Ok (Read (Plain (PN 2))))
  /\ of_blocks [AskBlock 0 0 (Storage 0 StorageDict)] = Some ([], Err ValueError)
  /\ of_blocks [AskBlock 0 0 (Storage 0 (Property 0 TypedValue))] = Some ([], Ok (Read (Plain (PStr [97; 98]))))
  /\ of_blocks [AskBlock 0 0 (Storage 0 (Property 1 PropertyId))] = Some ([], Ok (Read (Plain (PN 8))))
  /\ of_blocks [AskBlock 0 0 (Storage 0 (Property 1 TypedType))] = Some ([], Ok (Read (Plain (PN 0x999))))
  /\ of_blocks [AskBlock 0 0 (Storage 0 (Property 1 PropertyDict))] = Some ([], Err ValueError)
  /\ of_blocks [AskBlock 0 0 (Storage 0 (Property 2 TypedType))] = Some ([], Err IndexError)
  /\ of_blocks [AskBlock 0 1 (BlockField ProductCodeId)] = Some ([], Err IndexError)
  /\ of_blocks [AskBlock 0 1 (BlockField ComponentId)] = Some ([], Ok (Read (Plain PNone)))
  /\ of_blocks [AskBlock 0 2 (BlockField AppendedBytes)] = Some ([], Ok (Read (Raw [x41; x42]))).
Proof. vm_compute. repeat split. Qed.
(** The hypotheses of the theorems on reports: there is such an item, and such a property store. *)
Example C74_example_given :
  exists l h, snd (lnk_init (FromBytes asked_file) CpNone true) = Ok l
  /\ (exists there, has_item asked_file CpNone (calls h) 0 2 there)
  /\ (exists raw, has_part asked_file true (calls h) 1 0 (Block 0xA0000009 raw)).
Proof.
  destruct (snd (lnk_init (FromBytes asked_file) CpNone true)) as [l|e] eqn:E; [|vm_compute in E; discriminate E].
  exists l, (map Call [Next 1; Next 0; Next 0; Next 0; IterItems 0; IterBlocks 1]). split; [reflexivity|].
  assert (HC : usable CpNone) by discriminate. split.
  - assert (HA : happens l (map Call [Next 1; Next 0; Next 0; Next 0; IterItems 0; IterBlocks 1]) (AskItem 0 2 (Field SortIndexValue))
                 = Some ([], Ok (Read (Plain (PN 80))))).
    { vm_compute in E. injection E as <-. vm_compute. reflexivity. }
    apply (C74_answers _ _ _ _ _ _ _ _ HC E) in HA. inversion HA. eexists. eassumption.
  - assert (HA : happens l (map Call [Next 1; Next 0; Next 0; Next 0; IterItems 0; IterBlocks 1]) (AskBlock 1 0 HowManyStorages)
                 = Some ([], Ok (Read (Plain (PN 1))))).
    { vm_compute in E. injection E as <-. vm_compute. reflexivity. }
    apply (C74_answers _ _ _ _ _ _ _ _ HC E) in HA. inversion HA as [| |v k q p said r HP HS E1 E2 E3]; subst.
    destruct r as [x|]; [|discriminate E3]. cbn in E3. injection E3 as ->.
    inversion HS as [signature raw q said r HB| |]; subst. inversion HB; subst. eexists. exact HP.
Qed.
