(** * Properties C19, C46, C51: whole links

    An abstract link ([link]), its encoding ([encode_link]), the report expected of it
    ([link_report]) and the warnings ([texts_warnings], [report_warnings]) are in SpecLink.v;
    they are put together from the specifications of the sections. *)
From Verif Require Import Lemmas Codec Utils Sha256 Header StringData Targets Info Extra LnkFile.
From Verif Require Import Spec SpecHeader SpecTime SpecText SpecItems SpecExtra SpecInfo SpecLink.
From Verif Require Import InfoProofs LinkProofs PropertiesHeader PropertiesText PropertiesItems PropertiesExtra PropertiesInfo.

(** ** C46. Whatever link is encoded, whatever follows it: the object is constructed, the report
    is the one expected, and the warnings are the ones expected. *)
Theorem C46_link :
  forall cp allow k t,
    usable cp -> wf_link k ->
    exists l, lnk_init (FromBytes (encode_link k ++ t)) cp allow = (texts_warnings cp (k_texts k), Ok l)
    /\ l_size l = total_size k allow t
    /\ get_json l true = (report_warnings cp k, Ok (link_report cp allow k t)).
Proof. exact link_exact. Qed.
Print Assumptions C46_link.

(** The LinkInfo is reported from its own section alone, unless its Unicode suffix has less than
    two units. *)
Theorem C46_own_section :
  forall cp k i loc section,
    wf_link k -> k_info k = Some (i, loc, section) -> long_suffix i ->
    location_report cp (from_info k) i loc = location_report cp section i loc
    /\ location_warnings cp (from_info k) i loc = location_warnings cp section i loc.
Proof. exact section_decides. Qed.
Print Assumptions C46_own_section.

Definition full_header : shell_header :=
  ShellHeader 76 link_clsid 0xEB 0x21 (filetime_of (DT 2024 2 29 12 34 56 0)) 0
    (filetime_of (DT 1999 12 31 23 59 59 999999)) 4096 (-3) 7 x43 x02 0 0 0.
Definition full_link : link :=
  Link full_header (Some (DT 2024 2 29 12 34 56 0)) None (Some (DT 1999 12 31 23 59 59 999999))
    (Some [my_computer; drive_c; IFile a_file; share]) (Some (local_header, LocalAt local_volume, local_section))
    (Unicode three_strings) fixed_blocks.
(** Without the optional sections, one code-page string, a wrong reserved field. *)
Definition small_header : shell_header := ShellHeader 76 link_clsid 0x04 0x20 0 0 0 0 0 1 x00 x00 1 0 0.
Definition small_link : link := Link small_header None None None None None (CodePage [Some (ascii "n"); None; None; None; None]) [].

Lemma full_link_wf : wf_link full_link.
Proof.
  split; [unfold wf_header, fits16, fits32, fits_i32, fits_i64; vm_compute; intuition discriminate|].
  split; [reflexivity|]. cbn [full_link k_header k_created k_accessed k_modified k_items k_info k_texts k_blocks].
  split; [|split; [reflexivity|split]].
  1,2: split; [reflexivity|]; split; [unfold valid_datetime, valid_date; cbn -[month_length]; vm_compute; intuition discriminate|];
       split; [vm_compute; discriminate|]; first [left; reflexivity|right; vm_compute; reflexivity].
  split; [reflexivity|]. split.
  { intros its [= <-]. destruct sample_items_wf as [H1 H2]. unfold sample_items in *.
    change [my_computer; drive_c; IFile a_file; share; IOther 0x99 [x01; x02]]
      with ([my_computer; drive_c; IFile a_file; share] ++ [IOther 0x99 [x01; x02]]) in *.
    apply Forall_app in H1 as [H1 _]. apply Forall_app in H2 as [H2 _]. split; [exact H1|]. split; [exact H2|]. vm_compute. reflexivity. }
  split; [reflexivity|]. split.
  { intros i loc section [= <- <- <-]. split; [reflexivity|]. split; [exact local_located|reflexivity]. }
  split; [|exact fixed_blocks_wf]. split; [reflexivity|]. split; [unfold announces; repeat constructor|].
  unfold fields_fit, unicode_fits, no_nul, scalar. repeat constructor; try lia; try discriminate; vm_compute; reflexivity || discriminate.
Qed.
Lemma small_link_wf : wf_link small_link.
Proof.
  split; [unfold wf_header, fits16, fits32, fits_i32, fits_i64; vm_compute; intuition discriminate|].
  repeat (split; [reflexivity || discriminate|]). split; [|apply Forall_nil]. split; [reflexivity|].
  split; [unfold announces; repeat constructor|].
  unfold fields_fit, page_fits. repeat constructor; vm_compute; reflexivity || discriminate.
Qed.
Example C46_example :
  wf_link full_link /\ wf_link small_link /\ long_suffix local_header
  /\ lenN (encode_link full_link) = 2193
  /\ report_warnings CpNone full_link = [] /\ report_warnings CpNone small_link = [WMustBe "reserved0"]
  /\ match snd (l <- lnk_init (FromBytes (encode_link full_link ++ [x41; x42])) CpNone true ;; get_json l true) with
     | Ok d => d = link_report CpNone true full_link [x41; x42]
     | Err _ => False
     end
  /\ map fst (link_report CpNone true full_link []) = ["size"; "header"; "target"; "link_info"; "data"; "extra"]%string.
Proof.
  split; [exact full_link_wf|]. split; [exact small_link_wf|]. split; [vm_compute; discriminate|].
  split; [vm_compute; reflexivity|]. split; [vm_compute; reflexivity|]. split; [vm_compute; reflexivity|].
  split; vm_compute; reflexivity.
Qed.

(** ** C19. Nothing behind the terminal block matters when terminal blocks are not asked for, and
    [size] is the length of the link; so links in a row can be taken apart. *)
Theorem C19_bounded :
  forall cp k t,
    usable cp -> wf_link k ->
    exists l l0, snd (lnk_init (FromBytes (encode_link k ++ t)) cp false) = Ok l
    /\ snd (lnk_init (FromBytes (encode_link k)) cp false) = Ok l0
    /\ l_size l = lenN (encode_link k) /\ l_size l0 = lenN (encode_link k)
    /\ get_json l true = get_json l0 true /\ snd (get_json l true) = Ok (link_report cp false k []).
Proof. exact link_bounded. Qed.
Print Assumptions C19_bounded.

Theorem C19_links_in_a_row :
  forall cp gap links t,
    usable cp -> Forall (fun sk => lenN (fst sk) = gap /\ wf_link (snd sk)) links ->
    snd (read_links (length links) gap cp (flat_map (fun sk => fst sk ++ encode_link (snd sk)) links ++ t))
    = Ok (map (fun sk => link_report cp false (snd sk) []) links, t).
Proof. exact links_read. Qed.
Print Assumptions C19_links_in_a_row.

Definition a_row : list (bytes * link) := [(repeat x11 16, full_link); (repeat x22 16, small_link); (repeat x33 16, full_link)].
Example C19_example :
  Forall (fun sk => lenN (fst sk) = 16 /\ wf_link (snd sk)) a_row
  /\ snd (read_links 3 16 CpNone (flat_map (fun sk => fst sk ++ encode_link (snd sk)) a_row ++ [xde; xad]))
     = Ok ([link_report CpNone false full_link []; link_report CpNone false small_link [];
            link_report CpNone false full_link []], [xde; xad]).
Proof.
  split; [|vm_compute; reflexivity].
  repeat apply Forall_cons; try apply Forall_nil; split; first [reflexivity|exact full_link_wf|exact small_link_wf].
Qed.

(** ** C51. Links that conform. *)
Theorem C51_silent :
  forall cp allow k t,
    usable cp -> wf_link k -> conforming_as_read cp k ->
    exists l, lnk_init (FromBytes (encode_link k ++ t)) cp allow = ([], Ok l)
    /\ forall all, fst (get_json l all) = [].
Proof. exact conforming_silent. Qed.
Print Assumptions C51_silent.

(** A conforming link whose LinkInfo has no Unicode suffix, or one of at least two characters
    whose first two take one unit each. *)
Theorem C51_plain_silent :
  forall cp allow k t,
    usable cp -> wf_link k -> conforming_with plain_suffix cp k ->
    exists l, lnk_init (FromBytes (encode_link k ++ t)) cp allow = ([], Ok l)
    /\ forall all, fst (get_json l all) = [].
Proof. exact plain_silent. Qed.
Print Assumptions C51_plain_silent.

Ltac page_text := first [left; vm_compute; reflexivity | right; left; vm_compute; discriminate].
Ltac wide_words t := exists t; split; [repeat apply Forall_cons; try apply Forall_nil; (left; vm_compute; reflexivity) || (right; lia)|];
  split; [repeat apply Forall_cons; try apply Forall_nil; discriminate|].
Example C51_example : wf_link full_link /\ conforming_with plain_suffix CpNone full_link.
Proof.
  split; [exact full_link_wf|]. do 4 (split; [reflexivity|]).
  split; [|split; [|split; [exact I|]]].
  - repeat apply Forall_cons; try apply Forall_nil; cbn [conforming_item my_computer drive_c share if_some].
    + discriminate.
    + page_text.
    + split; [discriminate|]. wide_words [0x61; 0x2E; 0x74]. left. reflexivity.
    + split; [discriminate|]. split; [page_text|]. split; page_text.
  - split; [page_text|]. split; [page_text|]. split; [|page_text]. split.
    + wide_words [0x44; 0x3A]. left. reflexivity.
    + exists 0x78, 0x79, [0x7A]. split; [repeat apply Forall_cons; try apply Forall_nil; left; reflexivity|].
      split; [repeat apply Forall_cons; try apply Forall_nil; discriminate|]. repeat split.
  - repeat apply Forall_cons; try apply Forall_nil; cbn [conforming_block]; try exact I.
    + split; [page_text|]. wide_words [0x25; 0x61; 0x25]. right. exists (repeat x00 512). reflexivity.
    + wide_words [0x43; 0x6F]. right. exists (repeat x00 58). reflexivity.
    + split; [reflexivity|]. split; [reflexivity|]. page_text.
    + split; [page_text|]. exists []. split; [constructor|]. split; [constructor|]. right. exists (repeat x00 518). reflexivity.
Qed.

(** Conforming to the specification is not enough: the suffix is read from its third unit, here
    the second half of a surrogate pair. *)
Definition pair_info : link_info :=
  LinkInfo 64 0x24 1 36 0 None None (Some (None, Some (54, utf16 [0x61; 0x1F600; 0x62]))).
Definition pair_section : bytes :=
  encode_info pair_info ++ encode_volume local_volume ++ zstring false (ascii "L") ++ zstring true (utf16 [0x61; 0x1F600; 0x62]).
Definition pair_link : link :=
  Link (plain_header 0x82) None None None None (Some (pair_info, LocalAt local_volume, pair_section))
    (Unicode [None; None; None; None; None]) [].
Lemma pair_link_wf : wf_link pair_link.
Proof.
  split; [unfold wf_header, fits16, fits32, fits_i32, fits_i64; vm_compute; intuition discriminate|].
  do 5 (split; [reflexivity|]). split; [discriminate|]. split; [reflexivity|]. split.
  { intros i loc section [= <- <- <-]. split; [reflexivity|]. split; [|reflexivity]. split.
    - do 5 (split; [fit|]). split; [split; [discriminate|intros _; vm_compute; discriminate]|].
      split; [by_bytes|]. split; [exact I|]. split; [exact I|]. split; [exact I|]. slot_tac.
    - split; [reflexivity|]. do 3 (split; [fit|]). split; [by_bytes|].
      split; [fit|]. split; [discriminate|]. split; [cbn; intuition discriminate|by_bytes]. }
  split; [|apply Forall_nil]. split; [reflexivity|]. split; [unfold announces|unfold fields_fit]; repeat constructor.
Qed.
Theorem C51_conforming_refuted :
  exists k l, wf_link k /\ conforming CpNone k
  /\ snd (lnk_init (FromBytes (encode_link k)) CpNone false) = Ok l /\ fst (get_json l true) <> [].
Proof.
  destruct (C46_link CpNone false pair_link [] ltac:(discriminate) pair_link_wf) as (l & HI & _ & HJ). rewrite app_nil_r in HI.
  exists pair_link, l. split; [exact pair_link_wf|]. split; [|split; [now rewrite HI|rewrite HJ; vm_compute; discriminate]].
  do 5 (split; [exact I || reflexivity|]). split; [|split; [exact I|apply Forall_nil]].
  split; [exact I|]. split; [exact I|]. split; [|page_text]. split; [exact I|].
  wide_words [0x61; 0x1F600; 0x62]. left. reflexivity.
Qed.
Print Assumptions C51_conforming_refuted.
