(** * Property C60: exactly when a report can be made, and which exception is raised when not

    SpecOutcome.v says, for a file given as bytes, how the report ends ([report_outcome]): with no
    exception ([None]) or with a given one. It speaks of the positions and lengths in the file only. *)
From Verif Require Import Py PyTime Codec Utils Sha256 LnkFile Spec SpecText SpecItems SpecInfo SpecExtra SpecOutcome.
From Verif Require Import ExactProofs.

(** A report is returned if and only if the specification says so, and each exception is raised if
    and only if the specification says so. *)
Theorem C60_exact :
  forall b cp allow l all,
    usable cp -> snd (lnk_init (FromBytes b) cp allow) = Ok l ->
    ((exists d, snd (get_json l all) = Ok d) <-> report_outcome b None)
    /\ forall e, snd (get_json l all) = Err e <-> report_outcome b (Some e).
Proof. exact report_exact_iff. Qed.
Print Assumptions C60_exact.

(** The specification gives exactly one outcome for each file that can be opened. *)
Theorem C60_one_outcome :
  forall b cp allow l,
    usable cp -> snd (lnk_init (FromBytes b) cp allow) = Ok l ->
    exists o, report_outcome b o /\ forall o', report_outcome b o' -> o' = o.
Proof. exact report_outcome_exists. Qed.
Print Assumptions C60_one_outcome.

(** So the code page, the switch for terminal blocks and the kind of report have no influence on
    whether there is a report, and on the exception when there is none. *)
Theorem C60_settings :
  forall b cp1 cp2 allow1 allow2 l1 l2 all1 all2,
    usable cp1 -> usable cp2 ->
    snd (lnk_init (FromBytes b) cp1 allow1) = Ok l1 -> snd (lnk_init (FromBytes b) cp2 allow2) = Ok l2 ->
    match snd (get_json l1 all1), snd (get_json l2 all2) with
    | Ok _, Ok _ => True
    | Err e1, Err e2 => e1 = e2
    | _, _ => False
    end.
Proof. exact report_settings. Qed.
Print Assumptions C60_settings.

(** Each way a report can end is met by a file that can be opened. *)
Definition short_header : bytes := takeN 24 (encode_header (plain_header 0)).
Definition cut_item : bytes := encode_header (plain_header 1) ++ enc16 3 ++ enc16 3 ++ [n2b 0x31] ++ enc32 0.
Definition lonely_location : bytes :=
  encode_header (plain_header 1) ++ enc16 6 ++ [x06; x00; x42; x00; x80; x41] ++ enc32 0.
Definition cut_info : bytes := encode_header (plain_header 2) ++ enc32 12 ++ enc32 28 ++ enc32 1 ++ enc32 0.
Definition darwin_block (data : bytes) : bytes := enc32 788 ++ enc32 0xA0000006 ++ repeat x00 260 ++ data.
Definition darwin_of_zeros : bytes := encode_header (plain_header 0) ++ darwin_block (repeat x00 520) ++ enc32 0.
Definition darwin_of_product : bytes :=
  encode_header (plain_header 0) ++ darwin_block (utf16 (repeat 0x41 20) ++ repeat x00 480) ++ enc32 0.

Definition opens (b : bytes) : Prop := exists l, snd (lnk_init (FromBytes b) CpNone true) = Ok l.
Example C60_opens :
  opens short_header /\ opens cut_item /\ opens lonely_location /\ opens cut_info /\ opens darwin_of_zeros
  /\ opens darwin_of_product.
Proof. repeat split; eexists; vm_compute; reflexivity. Qed.

Ltac whole := split; vm_compute; discriminate.
Ltac none_here := let X := fresh in intros X; vm_compute in X; discriminate X.
Example C60_struct_errors :
  report_outcome short_header (Some StructError) /\ report_outcome cut_item (Some StructError)
  /\ report_outcome cut_info (Some StructError).
Proof.
  repeat split.
  - apply header_fails. intros [_ H]. vm_compute in H. now apply H.
  - apply items_fail; [whole|reflexivity|]. apply items_bad; vm_compute; (reflexivity || discriminate).
  - apply info_fails; [whole|none_here|]. intros H. specialize (H eq_refl). vm_compute in H. discriminate H.
Qed.
Example C60_runtime_error : report_outcome lonely_location (Some RuntimeError).
Proof. apply items_fail; [whole|reflexivity|]. apply items_bad; vm_compute; (reflexivity || discriminate). Qed.


(** The blocks of the two files with a Darwin block. *)
Ltac one_block :=
  let E := fresh "E" in
  match goal with |- report_outcome ?b _ =>
    assert (E : block_walk (dropN (string_data_end b) b)
                  [(num 4 4 (dropN (string_data_end b) b), takeN (num 4 0 (dropN (string_data_end b) b)) (dropN (string_data_end b) b))]
                  (enc32 0));
    [apply walk_block; [vm_compute; discriminate|vm_compute; discriminate|];
     replace (dropN (num 4 0 _) _) with (enc32 0) by (vm_compute; reflexivity); apply walk_stop; right; reflexivity|];
    eapply blocks_decide; [whole|none_here|none_here|exact E|clear E]
  end.
Example C60_index_error : report_outcome darwin_of_zeros (Some IndexError).
Proof.
  one_block. apply block_fails, darwin_escape; [vm_compute; reflexivity|]. left. vm_compute. reflexivity.
Qed.
Example C60_report : report_outcome darwin_of_product None.
Proof.
  one_block. apply block_passes; [|constructor]. intros e [_ H|H _].
  - replace (wide_text _) with (repeat 0x41 20) in H by (vm_compute; reflexivity).
    destruct H as [H|(before & component & E & _)]; [vm_compute in H; discriminate H|].
    assert (HI : In 62 (repeat 0x41 20)) by (rewrite E; apply in_app_iff; right; now left).
    apply repeat_spec in HI. discriminate HI.
  - vm_compute in H. discriminate H.
Qed.
