(** * Property C76: what a report does with the code page, string by string

    SpecTrace.v lists, from the bytes of a file alone, what making its report does: the warnings that do not depend on
    the code page, and the strings that are decoded with it, in order. With an existing page the warnings of the report
    are exactly what is heard of this list. With a page that does not exist the report stops at the first string that
    has text in it, and if there is none it is the report of every other page. *)
From Verif Require Import Lemmas Py PyTime Codec Utils LnkFile Report.
From Verif Require Import Spec SpecText SpecOutcome SpecUnknown SpecTrace.
From Verif Require Import TraceProofs PropertiesUnknown.

(** Every file that can be opened has one such list, and one end of its report. *)
Theorem C76_determined :
  forall b cp allow l,
    snd (lnk_init (FromBytes b) cp allow) = Ok l ->
    exists o trace, report_trace b o trace
      /\ forall o' trace', report_trace b o' trace' -> o' = o /\ trace' = trace.
Proof. exact trace_determined. Qed.
Print Assumptions C76_determined.

(** With a page that exists: the warnings, in order, and how the report ends. *)
Theorem C76_report :
  forall b cp allow l all o trace,
    snd (lnk_init (FromBytes b) cp allow) = Ok l -> usable cp -> report_trace b o trace ->
    fst (get_json l all) = heard cp trace
    /\ match o with None => exists d, snd (get_json l all) = Ok d | Some e => snd (get_json l all) = Err e end.
Proof. exact (fun b cp allow l all o trace H => trace_heard b cp allow l H all o trace). Qed.
Print Assumptions C76_report.

(** The end is the one of C60. *)
Theorem C76_outcome :
  forall b cp allow l o trace,
    snd (lnk_init (FromBytes b) cp allow) = Ok l -> report_trace b o trace -> report_outcome b o.
Proof. exact trace_outcome. Qed.
Print Assumptions C76_outcome.

(** With a page that does not exist the report stops at the first string that needs one. What was heard until then is
    what is heard with every page. *)
Theorem C76_unknown_stops :
  forall b allow l all o trace before,
    snd (lnk_init (FromBytes b) CpUnknown allow) = Ok l -> report_trace b o trace -> page_stops trace before ->
    get_json l all = (heard CpNone before, Err LookupError)
    /\ forall cp, heard cp before = heard CpNone before.
Proof.
  exact (fun b allow l all o trace before H HT HP =>
    conj (unknown_stops b allow l H all o trace before HT HP)
      (fun cp => match HP with ex_intro _ _ (ex_intro _ _ (conj _ (conj _ HB))) => unneeded_all cp before HB end)).
Qed.
Print Assumptions C76_unknown_stops.

(** If no string needs a page, the report is that of every other page. *)
Theorem C76_unknown_goes_on :
  forall b allow l all o trace cp,
    snd (lnk_init (FromBytes b) CpUnknown allow) = Ok l -> report_trace b o trace -> no_page_needed trace ->
    exists l', snd (lnk_init (FromBytes b) cp allow) = Ok l' /\ get_json l all = get_json l' all.
Proof. exact (fun b allow l all o trace cp H => unknown_goes_on b allow l H all o trace cp). Qed.
Print Assumptions C76_unknown_goes_on.

(** One of the two holds, and not both: so a LookupError means exactly that a string needs a page. *)
Theorem C76_unknown_exact :
  forall b allow l all o trace,
    snd (lnk_init (FromBytes b) CpUnknown allow) = Ok l -> report_trace b o trace ->
    (snd (get_json l all) = Err LookupError <-> exists before, page_stops trace before)
    /\ ((exists before, page_stops trace before) <-> ~ no_page_needed trace).
Proof.
  exact (fun b allow l all o trace H HT =>
    conj (unknown_iff b allow l H all o trace HT)
      (conj (fun HP HN => match HP with ex_intro _ before HP => page_not_both trace before HP HN end)
            (fun HN => match page_or_not trace with or_introl HP => HP | or_intror HP => False_ind _ (HN HP) end))).
Qed.
Print Assumptions C76_unknown_exact.

(** The command line: it stops with the warnings of the constructor and of the report so far... *)
Theorem C76_command_line_stops :
  forall b l json all o trace before,
    snd (lnk_init (FromBytes b) CpUnknown true) = Ok l -> report_trace b o trace -> page_stops trace before ->
    main b (Args false json CpUnknown all)
    = (fst (lnk_init (FromBytes b) CpUnknown true) ++ heard CpNone before, Err LookupError).
Proof. exact (fun b l json all o trace before H => main_stops b l H json all o trace before). Qed.
Print Assumptions C76_command_line_stops.

(** ...or does what it does with every page: always for [-t], which prints only the strings the constructor has read. *)
Theorem C76_command_line_goes_on :
  forall b l target json all cp o trace,
    snd (lnk_init (FromBytes b) CpUnknown true) = Ok l -> report_trace b o trace ->
    target = true \/ no_page_needed trace ->
    main b (Args target json CpUnknown all) = main b (Args target json cp all).
Proof. exact (fun b l target json all cp o trace H => main_goes_on b l H target json all cp o trace). Qed.
Print Assumptions C76_command_line_goes_on.

(** A header, and an environment block with one character (C66): the report warns about the class identifier, which is
    not that of a link, and then needs the page for the path of the block. Without the character it needs none. *)
Definition short_link (path : bytes) : bytes := takeN 76 (with_name 0 []) ++ environment_block path ++ repeat x00 4.
Definition short_trace (path : bytes) : list event :=
  [Says [WMustBe "link_cls_id"]; Reads (path ++ repeat x00 (260 - length path)); Says []].
Lemma short_traced path : path = [] \/ path = [x41] -> report_trace (short_link path) None (short_trace path).
Proof.
  intros Hp.
  assert (HB : short_trace path = [Says [WMustBe "link_cls_id"]] ++ ([] ++ [] ++ (fixed_trace 0xA0000001 (environment_block path) ++ []))).
  { destruct Hp as [-> | ->]; vm_compute; reflexivity. }
  rewrite HB. cbn [app].
  replace [WMustBe "link_cls_id"] with (SpecFailure.header_tried (takeN (header_len (short_link path)) (short_link path)) None None None)
    by (destruct Hp as [-> | ->]; vm_compute; reflexivity).
  eapply header_read; [reflexivity|destruct Hp as [-> | ->]; vm_compute; discriminate|left; destruct Hp as [-> | ->]; vm_compute; reflexivity..|].
  replace (fixed_trace 0xA0000001 (environment_block path) ++ [])
    with ([] ++ (if info_processed (short_link path) then info_trace false [] else []) ++ (fixed_trace 0xA0000001 (environment_block path) ++ []))
    by (destruct Hp as [-> | ->]; vm_compute; reflexivity).
  replace (if info_processed (short_link path) then info_trace false [] else [])
    with (if info_processed (short_link path)
          then info_trace (negb (N.testbit (num 4 8 (dropN (id_list_end (short_link path)) (short_link path))) 0))
                 (dropN (id_list_end (short_link path)) (short_link path)) else [])
    by (destruct Hp as [-> | ->]; vm_compute; reflexivity).
  apply all_sections with (blocks := [(0xA0000001, environment_block path)]) (tail := repeat x00 4); [|reflexivity|reflexivity|..].
  - unfold items_trace. replace (has_id_list (short_link path)) with false by (destruct Hp as [-> | ->]; vm_compute; reflexivity). now split.
  - intros H. exfalso. destruct Hp as [-> | ->]; vm_compute in H; discriminate H.
  - replace (dropN (string_data_end (short_link path)) (short_link path)) with (environment_block path ++ repeat x00 4)
      by (destruct Hp as [-> | ->]; vm_compute; reflexivity).
    replace (0xA0000001, environment_block path)
      with (num 4 4 (environment_block path ++ repeat x00 4), takeN (num 4 0 (environment_block path ++ repeat x00 4)) (environment_block path ++ repeat x00 4))
      by (destruct Hp as [-> | ->]; vm_compute; reflexivity).
    apply walk_block; [destruct Hp as [-> | ->]; vm_compute; discriminate..|].
    replace (dropN _ _) with (repeat x00 4) by (destruct Hp as [-> | ->]; vm_compute; reflexivity).
    apply walk_stop. right. vm_compute. reflexivity.
  - eapply block_shown; [|apply no_block].
    replace Shown with (if SpecBlocks.fixed_bytes 0xA0000001 <=? lenN (environment_block path) then Shown else LeftOut)
      by (destruct Hp as [-> | ->]; vm_compute; reflexivity).
    apply fixed_traced; discriminate.
Qed.
Example C76_example_stops :
  (exists l, snd (lnk_init (FromBytes (short_link [x41])) CpUnknown true) = Ok l)
  /\ report_trace (short_link [x41]) None (short_trace [x41])
  /\ page_stops (short_trace [x41]) [Says [WMustBe "link_cls_id"]]
  /\ main (short_link [x41]) (Args false true CpUnknown true) = ([WMustBe "link_cls_id"], Err LookupError).
Proof.
  assert (HL : exists l, snd (lnk_init (FromBytes (short_link [x41])) CpUnknown true) = Ok l).
  { destruct (snd (lnk_init (FromBytes (short_link [x41])) CpUnknown true)) as [l|e] eqn:E; [now exists l|].
    exfalso. vm_compute in E. discriminate E. }
  assert (HT := short_traced [x41] (or_intror eq_refl)).
  assert (HP : page_stops (short_trace [x41]) [Says [WMustBe "link_cls_id"]]).
  { exists (Reads ([x41] ++ repeat x00 259)), [Says []]. split; [reflexivity|]. split; [discriminate|]. intros x [<-|[]] H. exact H. }
  split; [exact HL|]. split; [exact HT|]. split; [exact HP|]. destruct HL as [l HL].
  rewrite (C76_command_line_stops _ l true true None _ _ HL HT HP).
  replace (fst (lnk_init (FromBytes (short_link [x41])) CpUnknown true)) with (@nil warning) by (vm_compute; reflexivity). reflexivity.
Qed.
Example C76_example_goes_on :
  (exists l, snd (lnk_init (FromBytes (short_link [])) CpUnknown true) = Ok l)
  /\ report_trace (short_link []) None (short_trace []) /\ no_page_needed (short_trace []).
Proof.
  split.
  { destruct (snd (lnk_init (FromBytes (short_link [])) CpUnknown true)) as [l|e] eqn:E; [now exists l|].
    exfalso. vm_compute in E. discriminate E. }
  split; [exact (short_traced [] (or_introl eq_refl))|].
  intros x [<-|[<-|[<-|[]]]] H; try exact H. now apply H.
Qed.
