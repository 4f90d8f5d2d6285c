(** * Property C79: links from file objects, and every call of the constructor *)
From Verif Require Import Lemmas Codec LnkFile Report Call.
From Verif Require Import Spec SpecHeader SpecItems SpecInfo SpecExtra SpecLink SpecCall.
From Verif Require Import CallProofs PropertiesLink.

(** A file object is read from its position on, whatever [indata] is, and is left at its end. *)
Theorem C79_file_object :
  forall content position indata cp allow,
    position < lenN content ->
    lnk_call (Some (Handle content position)) indata cp allow
    = (lnk_init (FromBytes (dropN position content)) cp allow, Some (Handle content (lenN content))).
Proof. exact call_handle. Qed.
Print Assumptions C79_file_object.

(** At the end of the file or behind there is no link: a LnkParserError, even if there is [indata], and no warning. *)
Theorem C79_at_the_end :
  forall content position indata cp allow,
    lenN content <= position ->
    lnk_call (Some (Handle content position)) indata cp allow = (([], Err LnkParserError), Some (Handle content position)).
Proof. exact call_exhausted. Qed.
Print Assumptions C79_at_the_end.

(** The same file object cannot be used a second time without a seek, whether a link was found or not. *)
Theorem C79_second_call :
  forall h h' indata1 cp1 allow1 indata2 cp2 allow2,
    snd (lnk_call (Some h) indata1 cp1 allow1) = Some h' ->
    fst (lnk_call (Some h') indata2 cp2 allow2) = ([], Err LnkParserError).
Proof. exact call_again. Qed.
Print Assumptions C79_second_call.

(** Neither a file nor bytes: an AttributeError, as with no bytes at all. *)
Theorem C79_nothing_to_read :
  forall cp allow,
    lnk_call None None cp allow = (([], Err AttributeError), None)
    /\ lnk_call None (Some []) cp allow = (([], Err AttributeError), None).
Proof. exact call_nothing. Qed.
Print Assumptions C79_nothing_to_read.

(** The links of a file can be read one after the other from one file object, by their sizes: their reports, and the
    position behind the last of them. *)
Theorem C79_links_of_a_file :
  forall cp gap links before after,
    usable cp -> Forall (fun sk => lenN (fst sk) = gap /\ wf_link (snd sk)) links ->
    let rows := flat_map (fun sk => fst sk ++ encode_link (snd sk)) links in
    snd (links_at (length links) gap cp (Handle (before ++ rows ++ after) (lenN before)))
    = Ok (map (fun sk => link_report cp false (snd sk) []) links,
          Handle (before ++ rows ++ after) (lenN (before ++ rows))).
Proof. exact links_of_a_file. Qed.
Print Assumptions C79_links_of_a_file.

Example C79_example :
  Forall (fun sk => lenN (fst sk) = 16 /\ wf_link (snd sk)) a_row
  /\ let file := repeat x44 7 ++ flat_map (fun sk => fst sk ++ encode_link (snd sk)) a_row ++ [xde; xad] in
     let h := Handle file 7 in
     snd (links_at 3 16 CpNone h)
     = Ok ([link_report CpNone false full_link []; link_report CpNone false small_link []; link_report CpNone false full_link []],
           Handle file (lenN file - 2))
     /\ match lnk_call (Some (seek 23 h)) None CpNone true with
        | ((_, Ok l), Some h') => 23 + l_size l = lenN file /\ position h' = lenN file
                                  /\ fst (lnk_call (Some h') (Some file) CpNone true) = ([], Err LnkParserError)
        | _ => False
        end.
Proof. split; [exact (proj1 C19_example)|]. split; [vm_compute; reflexivity|]. vm_compute. repeat split; reflexivity. Qed.
