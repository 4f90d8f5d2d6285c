(** * Property C75: processing a link again

    A link keeps the attributes [indata], [cp] and [allow_terminal_blocks]; a caller may assign them and call [process],
    any number of times, also after a failure, and ask the link in between. SpecAgain.v says which part of the link comes
    from which file then, and what each call replies. *)
From Verif Require Import Lemmas Codec Header Targets Extra LnkFile Report.
From Verif Require Import Spec SpecText SpecHeader SpecItems SpecExtra SpecOutcome SpecEntries SpecBlocks SpecFailure SpecUnknown SpecReport.
From Verif Require Import AgainRunProofs SpecRun Fields SpecFields Again SpecAgain.

(** ** C75. After any calls, the next call replies what is read off the files that the parts of the link come from: the
    warnings, then the answer or the exception. The replies before it are as they were. *)
Theorem C75_answers :
  forall b cp allow l acts a g said r,
    snd (lnk_init (FromBytes b) cp allow) = Ok l -> comes_to (all_from b cp allow) acts g ->
    replies (object_of b allow l) (acts ++ [a]) = replies (object_of b allow l) acts ++ [(said, r)] <-> answers g a said r.
Proof. exact replies_of. Qed.
Print Assumptions C75_answers.
(** Every history has such files, and only one account of them. *)
Theorem C75_determined :
  forall b cp allow acts, exists g, comes_to (all_from b cp allow) acts g
    /\ forall g', comes_to (all_from b cp allow) acts g' -> g' = g.
Proof.
  intros b cp allow acts. destruct (comes_total acts (all_from b cp allow)) as [g H]. exists g. split; [exact H|].
  intros g' H'. exact (comes_det _ _ _ _ H' H).
Qed.
Print Assumptions C75_determined.

(** ** Processing does what the constructor does: the same warnings and the same exception. *)
Theorem C75_like_new :
  forall b cp allow l acts g b' cp' allow',
    snd (lnk_init (FromBytes b) cp allow) = Ok l -> comes_to (all_from b cp allow) acts g ->
    given g = (b', cp', allow') -> b' <> [] ->
    replies (object_of b allow l) (acts ++ [Process])
    = replies (object_of b allow l) acts
      ++ [(fst (lnk_init (FromBytes b') cp' allow'),
           match snd (lnk_init (FromBytes b') cp' allow') with Ok _ => Ok Nothing | Err e => Err e end)].
Proof. exact process_like_new. Qed.
Print Assumptions C75_like_new.
(** After a success the link cannot be told from a new one, whatever it has been through. *)
Theorem C75_as_new :
  forall b cp allow l acts g b' cp' allow' l' more,
    snd (lnk_init (FromBytes b) cp allow) = Ok l -> comes_to (all_from b cp allow) acts g -> given g = (b', cp', allow') ->
    snd (lnk_init (FromBytes b') cp' allow') = Ok l' ->
    replies (object_of b allow l) (acts ++ Process :: more)
    = replies (object_of b allow l) acts
      ++ (fst (lnk_init (FromBytes b') cp' allow'), Ok Nothing) :: replies (object_of b' allow' l') more.
Proof. exact as_new. Qed.
Print Assumptions C75_as_new.
(** So it is with a link that nothing was assigned to. *)
Theorem C75_idempotent :
  forall b cp allow l more,
    snd (lnk_init (FromBytes b) cp allow) = Ok l ->
    replies (object_of b allow l) (Process :: more)
    = (fst (lnk_init (FromBytes b) cp allow), Ok Nothing) :: replies (object_of b allow l) more.
Proof. intros b cp allow l more H. exact (as_new b cp allow l [] _ b cp allow l more H (no_act _) eq_refl H). Qed.
Print Assumptions C75_idempotent.
(** Without content processing raises the exception of this library, and changes nothing. *)
Theorem C75_no_content :
  forall b cp allow l acts g cp' allow' more,
    snd (lnk_init (FromBytes b) cp allow) = Ok l -> comes_to (all_from b cp allow) acts g -> given g = ([], cp', allow') ->
    replies (object_of b allow l) (acts ++ Process :: more)
    = replies (object_of b allow l) acts
      ++ raise LnkParserError :: skipn (length acts) (replies (object_of b allow l) (acts ++ more)).
Proof. intros b cp allow l acts g cp' allow' more H HC EG. exact (process_empty b cp allow l acts g cp' allow' H HC EG more). Qed.
Print Assumptions C75_no_content.

(** ** Assignments alone change no answer, at any point of any history. *)
Theorem C75_assignments :
  forall b allow l acts assignments a,
    Forall (fun x => match x with Assign _ | AssignPage _ | AssignAllow _ => True | _ => False end) assignments ->
    match a with Report _ | Size | Flag _ | Strings | Command => True | _ => False end ->
    exists x,
      replies (object_of b allow l) (acts ++ [a]) = replies (object_of b allow l) acts ++ [x]
      /\ replies (object_of b allow l) (acts ++ assignments ++ [a])
         = replies (object_of b allow l) acts ++ repeat (ret Nothing) (length assignments) ++ [x].
Proof.
  intros b allow l acts asg a HA Ha. apply unread; [|now destruct a].
  apply forallb_forall. intros x Hx. rewrite Forall_forall in HA. specialize (HA x Hx). now destruct x.
Qed.
Print Assumptions C75_assignments.

(** ** Examples

    A link with an ID list, a relative path and arguments; one with a relative path only; the header of one whose ID list
    and relative path are missing; and one with a block of three bytes. *)
Definition letters (s : string) : bytes := map n2b (s2t s).
Definition latin1 : cp_arg := CpCodec (event_codec (map (fun x => Some (b2n x)))).
Definition first_file : bytes :=
  encode_header (plain_header 0x29) ++ enc16 3 ++ (enc16 3 ++ [n2b 0x52]) ++ encode_strings [Some (SpecText.page_string (letters "a")); Some (SpecText.page_string (letters "-b"))]
  ++ enc32 0.
Definition second_file : bytes := encode_header (plain_header 0x8) ++ encode_strings [Some (SpecText.page_string [x80])] ++ enc32 0.
Definition third_file : bytes := encode_header (plain_header 0x9).
Definition fourth_file : bytes := encode_header (plain_header 0x8) ++ encode_strings [Some (SpecText.page_string (letters "d"))] ++ enc32 3 ++ [x00; x00; x00; x00; x00].
Definition first_replies (acts : list act) : option (list (M reply)) :=
  match snd (lnk_init (FromBytes first_file) CpNone true) with
  | Ok l => Some (replies (object_of first_file true l) acts)
  | Err _ => None
  end.
(** The answer of the last call. *)
Definition last_reply_of (acts : list act) : option (M reply) :=
  match first_replies acts with Some ms => List.nth_error ms (length acts - 1) | None => None end.
Example C75_example_success :
  first_replies [Command; Size; Assign second_file; AssignPage latin1; Command; Process; Command; Size; AssignPage CpNone; Command; Process; Command]
  = Some [ret (Words (s2t "a -b")); ret (Number 92); ret Nothing; ret Nothing; ret (Words (s2t "a -b")); ret Nothing;
          ret (Words [0x80]); ret (Number 83); ret Nothing; ret (Words [0x80]); ret Nothing; ret (Words [0x20AC])].
Proof. vm_compute. reflexivity. Qed.
Example C75_example_failure :
  first_replies [Assign third_file; Process; Flag HasArguments; Command; Size; AssignPage CpUnknown; Assign second_file; Process;
                 Flag HasTargetIdList; Command; Size; Assign []; Process; Command]
  = Some [ret Nothing; raise StructError; ret (Yes false); ret (Words (s2t "a")); ret (Number 92); ret Nothing; ret Nothing; raise LookupError;
          ret (Yes false); ret (Words (s2t "a")); ret (Number 92); ret Nothing; raise LnkParserError; ret (Words (s2t "a"))].
Proof. vm_compute. reflexivity. Qed.

(** The header of the third file, everything else but the ID list of the first: what the report is made of then. *)
Definition mixed : origin :=
  Origin (third_file, CpNone, true) third_file None (first_file, CpNone) (first_file, CpNone) (first_file, CpNone, true) (first_file, true).
Example C75_example_mixed :
  comes_to (all_from first_file CpNone true) [Assign third_file; Process] mixed
  /\ exists l, snd (lnk_init (FromBytes first_file) CpNone true) = Ok l.
Proof.
  assert (HL : exists l, snd (lnk_init (FromBytes first_file) CpNone true) = Ok l).
  { destruct (snd (lnk_init (FromBytes first_file) CpNone true)) as [l|e] eqn:E; [now exists l|]. vm_compute in E. discriminate. }
  split; [|exact HL].
  eapply assigned; [reflexivity|]. eapply (processed _ _ _ ToList); [reflexivity| |apply no_act].
  apply reaches_list; [now vm_compute|now vm_compute|]. intros (_ & _ & H). specialize (H eq_refl). vm_compute in H. now apply H.
Qed.

(** ** A link is not left as it was when processing fails: the report that can be made then is one of no file. *)
Definition first_report : dict :=
  Eval vm_compute in match last_reply_of [Report true] with Some (_, Ok (Entries d)) => d | _ => [] end.
Definition mixed_report : dict :=
  Eval vm_compute in match last_reply_of [Assign third_file; Process; Report true] with Some (_, Ok (Entries d)) => d | _ => [] end.
Theorem C75_all_or_nothing_refuted :
  exists b cp allow l b' before after e,
    snd (lnk_init (FromBytes b) cp allow) = Ok l
    /\ replies (object_of b allow l) [Report true; Assign b'; Process; Report true]
       = [ret (Entries before); ret Nothing; raise e; ret (Entries after)]
    /\ map fst before = ["size"; "header"; "target"; "link_info"; "data"; "extra"]%string
    /\ map fst after = ["size"; "header"; "link_info"; "data"; "extra"]%string.
Proof.
  exists first_file, CpNone, true.
  destruct (snd (lnk_init (FromBytes first_file) CpNone true)) as [l|x] eqn:E; [|vm_compute in E; discriminate].
  exists l, third_file, first_report, mixed_report, StructError. split; [reflexivity|].
  assert (HR : first_replies [Report true; Assign third_file; Process; Report true]
               = Some [ret (Entries first_report); ret Nothing; raise StructError; ret (Entries mixed_report)]) by (vm_compute; reflexivity).
  unfold first_replies in HR. rewrite E in HR. apply same_some in HR. split; [exact HR|]. split; reflexivity.
Qed.
Print Assumptions C75_all_or_nothing_refuted.
Example C75_example_tiny_block :
  first_replies [Assign fourth_file; Process; Command; Size]
  = Some [ret Nothing; raise StructError; ret (Words (s2t "d")); ret (Number 92)].
Proof. vm_compute. reflexivity. Qed.
(** Its report: the list of the unknown blocks is there, and empty. *)
Example C75_example_tiny_report :
  match last_reply_of [Assign fourth_file; Process; Report true] with
  | Some (w, Ok (Entries d)) =>
    w = [WExtraBlock "UNKNOWN_BLOCK"]
    /\ match dget "extra" d with
       | Some (PDict e) => map fst e = ["UNKNOWN_BLOCK"; "TERMINAL_BLOCK"]%string /\ dget "UNKNOWN_BLOCK" e = Some (PList [])
       | _ => False
       end
  | _ => False
  end.
Proof. vm_compute. repeat split. Qed.
(** An unknown code page: with the file name in the list of the fifth file the report needs it; the list of the first has no
    text in it, and there the report is made, with the strings of before. *)
Definition fifth_file : bytes :=
  encode_header (plain_header 0x9) ++ enc16 18 ++ (enc16 16 ++ [n2b 0x32] ++ repeat x00 11 ++ letters "e" ++ [x00]) ++ enc16 0
  ++ encode_strings [Some (SpecText.page_string (letters "f"))] ++ enc32 0.
Example C75_example_unknown_page :
  last_reply_of [AssignPage CpUnknown; Assign fifth_file; Process] = Some (raise LookupError)
  /\ last_reply_of [AssignPage CpUnknown; Assign fifth_file; Process; Command] = Some (ret (Words (s2t "a")))
  /\ option_map snd (last_reply_of [AssignPage CpUnknown; Assign fifth_file; Process; Report true]) = Some (Err LookupError)
  /\ last_reply_of [AssignPage CpUnknown; Process] = Some (raise LookupError)
  /\ last_reply_of [AssignPage CpUnknown; Process; Report true] = Some (ret (Entries first_report)).
Proof. vm_compute. repeat split. Qed.
