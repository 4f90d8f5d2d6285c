(** * Property C71: walking the parts of a link by hand

    Loops over [lnk.targets] and [lnk.extras], nested or interleaved, the methods of what they give, the methods of
    [lnk.string_data], and reports in between. SpecWalk.v says what each call gives from the bytes of the file and the
    number of earlier calls of [next]. *)
From Verif Require Import Lemmas Codec Header Targets Extra LnkFile Report Walk.
From Verif Require Import Spec SpecText SpecHeader SpecItems SpecExtra SpecOutcome SpecEntries SpecBlocks SpecWalk.
From Verif Require Import WalkProofs.

(** ** C71. After any calls, the next call gives what is read off the bytes: the warnings, then the answer or the
    exception. *)
Theorem C71_answers :
  forall b cp allow l h c said r,
    usable cp -> snd (lnk_init (FromBytes b) cp allow) = Ok l ->
    answered l h c = Some (said, r) <-> gives b cp allow h c said r.
Proof. intros b cp allow l h c said r Hcp Hl. exact (walk_iff b cp allow l Hcp Hl h c said r). Qed.
Print Assumptions C71_answers.
(** There is nothing to call exactly when the specification says nothing, and it never says two things. *)
Theorem C71_nothing :
  forall b cp allow l h c,
    usable cp -> snd (lnk_init (FromBytes b) cp allow) = Ok l ->
    answered l h c = None <-> forall said r, ~ gives b cp allow h c said r.
Proof. exact walk_nothing. Qed.
Print Assumptions C71_nothing.
Theorem C71_determined :
  forall b cp allow l h c said1 r1 said2 r2,
    usable cp -> snd (lnk_init (FromBytes b) cp allow) = Ok l ->
    gives b cp allow h c said1 r1 -> gives b cp allow h c said2 r2 -> said1 = said2 /\ r1 = r2.
Proof. exact walk_determined. Qed.
Print Assumptions C71_determined.

(** A walk through an ID list whose items can all be reported gives the items of the report, in order, and then ends. *)
Theorem C71_as_reported :
  forall b cp allow l entries said h v k,
    usable cp -> snd (lnk_init (FromBytes b) cp allow) = Ok l ->
    entries_listed cp (id_list b) entries said -> holds_iterator b v h = Some (Items, k) ->
    (if Nat.ltb k (length entries) then exists w, answered l h (Next v) = Some (w, Ok Given)
     else answered l h (Next v) = Some ([], Err StopIteration))
    /\ forall i d, (i < k)%nat -> nth_error entries i = Some d -> exists w, answered l h (Show v i) = Some (w, Ok (ADict d)).
Proof. exact walk_as_reported. Qed.
Print Assumptions C71_as_reported.

(** No report can be made of a file with a malformed item; a walk gives the item and goes on behind it. *)
Theorem C71_goes_on :
  forall b cp allow l h v k there e,
    usable cp -> snd (lnk_init (FromBytes b) cp allow) = Ok l ->
    has_item b cp h v k there -> error_at there = Some e ->
    answered l h (Show v k) = Some (entry_tried cp (fields_at there), Err e)
    /\ (forall x, report_outcome b x -> x <> None)
    /\ further cp (S k) (id_list b) (dropN (num 2 0 there) there).
Proof. exact walk_goes_on. Qed.
Print Assumptions C71_goes_on.

(** ** Examples

    An ID list of a file entry that is cut off after its type, a drive, an unknown item and a network location without
    its strings; then a block with a code page, a property store with a value of no known type, and an installer
    descriptor of zeros. *)
Definition walked_file : bytes :=
  encode_header (plain_header 0x1)
  ++ enc16 35 ++ (enc16 3 ++ [n2b 0x31]) ++ (enc16 23 ++ [x2f; x43; x3a; x5c] ++ repeat x00 17) ++ (enc16 3 ++ [n2b 0x99])
  ++ (enc16 6 ++ [n2b 0x41; x00; n2b 0xC0; x61])
  ++ (enc32 12 ++ enc32 0xA0000004 ++ enc32 437)
  ++ (enc32 57 ++ enc32 0xA0000009 ++ enc32 45 ++ enc32 0x53505331 ++ repeat x11 16 ++ enc32 17 ++ enc32 7 ++ [x00] ++ enc16 0x999 ++ enc16 0
      ++ enc32 0 ++ enc32 0 ++ enc32 0)
  ++ (enc32 788 ++ enc32 0xA0000006 ++ repeat x00 780)
  ++ enc32 0 ++ [x41; x42].
(** What the last call of a program gives; [calls] in the order of the program. *)
Definition at_last (calls : list call) : option (M answer) :=
  match snd (lnk_init (FromBytes walked_file) CpNone true) with
  | Ok l => match rev calls with c :: h => answered l h c | [] => None end
  | Err _ => None
  end.
Example C71_example_items :
  at_last [IterItems 0; Next 0] = Some ([], Ok Given)
  /\ at_last [IterItems 0; Next 0; NameOf 0 0] = Some ([], Ok (AName "File entry"))
  /\ at_last [IterItems 0; Next 0; Show 0 0] = Some ([], Err StructError)
  /\ at_last [IterItems 0; Next 0; Show 0 0; Report false] = Some ([], Err StructError)
  /\ at_last [IterItems 0; Next 0; Show 0 0; Report true; IterItems 1; Next 0; Next 1; SizeOf 0 1] = Some ([], Ok (ANumber 23))
  /\ at_last [IterItems 0; Next 0; Next 0; Show 0 1]
     = Some ([], Ok (ADict [("class", PStr (s2t "Volume Item")); ("flags", PStr (s2t "0xf")); ("volume_name", PStr [67; 58; 92])]%string))
  /\ at_last [IterItems 0; Next 0; Next 0; Next 0] = Some ([WItemType 0x99], Ok Given)
  /\ at_last [IterItems 0; Next 0; Next 0; Next 0; Show 0 2]
     = Some ([], Ok (ADict [("class", PStr (s2t "Unknown")); ("size", PN 5)]%string))
  /\ at_last [IterItems 0; Next 0; Next 0; Next 0; Next 0] = Some ([], Err RuntimeError)
  /\ at_last [IterItems 0; Next 0; Next 0; Next 0; Next 0; Next 0] = Some ([], Err StopIteration)
  /\ at_last [IterItems 0; Next 0; Next 0; Next 0; Next 0; SizeOf 0 3] = None
  /\ at_last [Next 0] = None.
Proof. vm_compute. repeat split. Qed.
Example C71_example_blocks :
  at_last [IterBlocks 0; Next 0; Show 0 0] = Some ([], Ok (ADict [("size", PN 12); ("code_page", PN 437)]%string))
  /\ at_last [IterBlocks 0; Next 0; Next 0; Show 0 1] = Some ([], Err ValueError)
  /\ at_last [IterBlocks 0; Next 0; Next 0; Next 0; NameOf 0 2] = Some ([], Ok (AName "DARWIN_BLOCK"))
  /\ at_last [IterBlocks 0; Next 0; Next 0; Next 0; Show 0 2] = Some ([], Err IndexError)
  /\ at_last [IterBlocks 0; Next 0; Next 0; Next 0; Next 0; SizeOf 0 3] = Some ([], Ok (ANumber 6))
  /\ at_last [IterBlocks 0; Next 0; Next 0; Next 0; Next 0; Next 0] = Some ([], Err StopIteration)
  /\ at_last [Ask Description] = Some ([], Ok Nothing).
Proof. vm_compute. repeat split. Qed.
(** The hypotheses of [C71_as_reported] and [C71_goes_on]. *)
Example C71_example_given :
  holds_iterator walked_file 0 [Report true; Next 0; IterItems 0] = Some (Items, 1%nat)
  /\ has_item walked_file CpNone [Next 0; IterItems 0] 0 0 (id_list walked_file)
  /\ error_at (id_list walked_file) = Some StructError.
Proof.
  split; [reflexivity|]. split; [|vm_compute; reflexivity].
  apply (given_item walked_file CpNone [Next 0; IterItems 0] 0 0 1 (id_list walked_file) []); [vm_compute; reflexivity|lia|constructor|].
  assert (E : made_says CpNone (fields_at (id_list walked_file)) = []) by (vm_compute; reflexivity). rewrite <- E. clear E.
  apply at_an_item; [split; vm_compute; discriminate|]. intro H. vm_compute in H. discriminate H.
Qed.
Definition folder_file : bytes := encode_header (plain_header 1) ++ enc16 3 ++ (enc16 3 ++ [n2b 0x52]) ++ enc32 0.
Example C71_example_reported :
  (exists l, snd (lnk_init (FromBytes folder_file) CpNone true) = Ok l)
  /\ entries_listed CpNone (id_list folder_file) [[("class", PS "Compressed folder")]%string] []
  /\ holds_iterator folder_file 7 [Next 7; IterItems 7] = Some (Items, 1%nat).
Proof.
  split; [destruct (snd (lnk_init (FromBytes folder_file) CpNone true)) as [l|e] eqn:E; [now exists l|vm_compute in E; discriminate E]|].
  split; [|reflexivity]. assert (E : id_list folder_file = enc16 3 ++ [n2b 0x52]) by (vm_compute; reflexivity). rewrite E.
  apply (entries_next CpNone (enc16 3 ++ [n2b 0x52]) [] []); [vm_compute; discriminate|vm_compute; discriminate|vm_compute; reflexivity|].
  apply entries_end. left. vm_compute. reflexivity.
Qed.
