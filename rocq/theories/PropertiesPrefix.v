(** * Property C67: what of a file a report depends on

    Two files that begin alike - one may be the other cut off, or be continued differently. Each part of the report
    depends only on the bytes up to the end of that part. The vocabulary is in SpecPrefix.v. *)
From Verif Require Import Py PyTime Codec Utils Header LnkFile Report.
From Verif Require Import Spec SpecText SpecInfo SpecItems SpecExtra SpecBlocks SpecWhole SpecPrefix.
From Verif Require Import PropertiesInfo PropertiesItems.
From Verif Require Import PrefixProofs.

(** The header: 76 bytes. *)
Theorem C67_header :
  forall n b1 b2 cp allow1 allow2 l1 l2 d1 d2,
    agree n b1 b2 -> usable cp ->
    snd (lnk_init (FromBytes b1) cp allow1) = Ok l1 -> snd (lnk_init (FromBytes b2) cp allow2) = Ok l2 ->
    snd (get_json l1 true) = Ok d1 -> snd (get_json l2 true) = Ok d2 ->
    76 <= n -> dget "header" d1 = dget "header" d2.
Proof. exact header_inside. Qed.
Print Assumptions C67_header.

(** The ID list. *)
Theorem C67_target :
  forall n b1 b2 cp allow1 allow2 l1 l2 d1 d2,
    agree n b1 b2 -> usable cp ->
    snd (lnk_init (FromBytes b1) cp allow1) = Ok l1 -> snd (lnk_init (FromBytes b2) cp allow2) = Ok l2 ->
    snd (get_json l1 true) = Ok d1 -> snd (get_json l2 true) = Ok d2 ->
    lists_inside n b1 -> dget "target" d1 = dget "target" d2.
Proof. exact target_inside. Qed.
Print Assumptions C67_target.

(** The link info. *)
Theorem C67_link_info :
  forall n b1 b2 cp allow1 allow2 l1 l2 d1 d2,
    agree n b1 b2 -> usable cp ->
    snd (lnk_init (FromBytes b1) cp allow1) = Ok l1 -> snd (lnk_init (FromBytes b2) cp allow2) = Ok l2 ->
    snd (get_json l1 true) = Ok d1 -> snd (get_json l2 true) = Ok d2 ->
    lists_inside n b1 -> info_inside n b1 -> dget "link_info" d1 = dget "link_info" d2.
Proof. exact link_info_inside. Qed.
Print Assumptions C67_link_info.

(** The first [j] strings: both reports show them, with the same texts. *)
Theorem C67_strings :
  forall n b1 b2 cp allow1 allow2 l1 l2 d1 d2,
    agree n b1 b2 -> usable cp ->
    snd (lnk_init (FromBytes b1) cp allow1) = Ok l1 -> snd (lnk_init (FromBytes b2) cp allow2) = Ok l2 ->
    snd (get_json l1 true) = Ok d1 -> snd (get_json l2 true) = Ok d2 ->
    forall j found e,
      lists_inside n b1 -> info_inside n b1 ->
      string_walk b1 (firstn j string_fields) (info_end b1) found e false -> e <= n ->
      exists more1 more2,
        let front := map (fun f => (fst f, PStr (stored_text (bit_set 7 b1) cp (snd f)))) found in
        dget "data" d1 = Some (PDict (front ++ more1)) /\ dget "data" d2 = Some (PDict (front ++ more2)).
Proof. exact strings_inside. Qed.
Print Assumptions C67_strings.

(** The first blocks of the extra data: both reports show them alike. *)
Theorem C67_blocks :
  forall n b1 b2 cp allow1 allow2 l1 l2 d1 d2,
    agree n b1 b2 -> usable cp ->
    snd (lnk_init (FromBytes b1) cp allow1) = Ok l1 -> snd (lnk_init (FromBytes b2) cp allow2) = Ok l2 ->
    snd (get_json l1 true) = Ok d1 -> snd (get_json l2 true) = Ok d2 ->
    forall found e blocks more tail,
      lists_inside n b1 -> info_inside n b1 ->
      string_walk b1 string_fields (info_end b1) found e false -> e <= n ->
      block_walk (dropN e b1) (blocks ++ more) tail -> Forall (fun blk => 8 <= declared blk) blocks ->
      e + sumN (map declared blocks) <= n ->
      exists entries said more1 more2, blocks_read cp blocks entries said
        /\ dget "extra" d1 = Some (PDict (collect (entries ++ more1)))
        /\ dget "extra" d2 = Some (PDict (collect (entries ++ more2))).
Proof. exact blocks_inside. Qed.
Print Assumptions C67_blocks.

(** The command a link runs. *)
Theorem C67_command :
  forall n b1 b2 cp allow1 allow2 l1 l2 found e,
    usable cp -> agree n b1 b2 ->
    lists_inside n b1 -> info_inside n b1 -> string_walk b1 string_fields (info_end b1) found e false -> e <= n ->
    snd (lnk_init (FromBytes b1) cp allow1) = Ok l1 -> snd (lnk_init (FromBytes b2) cp allow2) = Ok l2 ->
    lnk_command l1 = lnk_command l2.
Proof. exact command_same. Qed.
Print Assumptions C67_command.

(** Everything: if a link ends inside the bytes that are alike, both can be opened, with the same warnings; the reports
    are the same, and so are their warnings and the exceptions they end in. *)
Theorem C67_everything :
  forall n b1 b2 cp,
    usable cp -> agree n b1 b2 -> link_inside n b1 ->
    exists l1 l2, snd (lnk_init (FromBytes b1) cp false) = Ok l1 /\ snd (lnk_init (FromBytes b2) cp false) = Ok l2
      /\ fst (lnk_init (FromBytes b1) cp false) = fst (lnk_init (FromBytes b2) cp false)
      /\ forall all, get_json l1 all = get_json l2 all.
Proof. exact link_both. Qed.
Print Assumptions C67_everything.

(** So a link may be cut off behind its end, and anything may be put behind it. *)
Theorem C67_cut_off :
  forall n b cp, usable cp -> n <= lenN b -> link_inside n b ->
    exists l l', snd (lnk_init (FromBytes b) cp false) = Ok l
      /\ lnk_init (FromBytes (takeN n b)) cp false = (fst (lnk_init (FromBytes b) cp false), Ok l')
      /\ forall all, get_json l' all = get_json l all.
Proof. exact cut_off. Qed.
Print Assumptions C67_cut_off.
Theorem C67_continued :
  forall b more cp, usable cp -> link_inside (lenN b) b ->
    exists l l', snd (lnk_init (FromBytes b) cp false) = Ok l
      /\ lnk_init (FromBytes (b ++ more)) cp false = (fst (lnk_init (FromBytes b) cp false), Ok l')
      /\ forall all, get_json l' all = get_json l all.
Proof. exact continued. Qed.
Print Assumptions C67_continued.

(** A link with an ID list, link info, a description and a block, and something behind it. *)
Definition full_link : bytes :=
  encode_header (plain_header 0x7) ++ encode_id_list (map item_body sample_items) ++ local_section
  ++ enc16 2 ++ ascii "ab" ++ (enc32 12 ++ enc32 0xA0000004 ++ enc32 437) ++ enc32 0.
Definition description_found : list (string * bytes) := [("description"%string, ascii "ab")].
Definition page_block : N * bytes := (0xA0000004, enc32 12 ++ enc32 0xA0000004 ++ enc32 437).
Example C67_example : link_inside (lenN full_link) full_link /\ link_inside (lenN full_link) (full_link ++ ascii "behind").
Proof.
  assert (H : forall b, b = full_link \/ b = full_link ++ ascii "behind" -> link_inside (lenN full_link) b).
  { intros b Hb. split; [|split].
    - destruct Hb as [-> | ->]; vm_compute; repeat split; discriminate.
    - intros _ _. destruct Hb as [-> | ->]; (split; [vm_compute; discriminate|]); intros _.
      all: split; [vm_compute; reflexivity|].
      all: split; [intros _; vm_compute; tauto|].
      all: split; [intros _; vm_compute; tauto|].
      all: split; [intros _; exists 2; split; [vm_compute; discriminate|vm_compute; reflexivity]|].
      all: split; [intros _; exists 1; split; [vm_compute; discriminate|vm_compute; reflexivity]|].
      all: vm_compute; tauto.
    - exists description_found, (info_end full_link + 4), [page_block], (dropN (info_end full_link + 16) b).
      assert (EE : info_end b = info_end full_link) by (destruct Hb as [-> | ->]; vm_compute; reflexivity). rewrite EE.
      split; [|split; [|split; [|split]]].
      + assert (ES : description_found = [("description"%string, slice (info_end full_link + 2) (info_end full_link + 2 + 2) b)])
          by (destruct Hb as [-> | ->]; vm_compute; reflexivity).
        rewrite ES. apply string_found; [destruct Hb as [-> | ->]; vm_compute; reflexivity|destruct Hb as [-> | ->]; vm_compute; discriminate|destruct Hb as [-> | ->]; vm_compute; reflexivity|].
        replace (info_end full_link + 2 + 2) with (info_end full_link + 4) by (vm_compute; reflexivity).
        do 4 (apply string_absent; [destruct Hb as [-> | ->]; vm_compute; reflexivity|]). apply strings_done.
      + assert (EB : page_block = (num 4 4 (dropN (info_end full_link + 4) b), takeN (num 4 0 (dropN (info_end full_link + 4) b)) (dropN (info_end full_link + 4) b)))
          by (destruct Hb as [-> | ->]; vm_compute; reflexivity).
        rewrite EB. apply walk_block; [destruct Hb as [-> | ->]; vm_compute; discriminate|destruct Hb as [-> | ->]; vm_compute; discriminate|].
        replace (dropN (num 4 0 _) _) with (dropN (info_end full_link + 16) b) by (destruct Hb as [-> | ->]; vm_compute; reflexivity).
        apply walk_stop. right. destruct Hb as [-> | ->]; vm_compute; reflexivity.
      + constructor; [vm_compute; discriminate|constructor].
      + vm_compute. discriminate.
      + destruct Hb as [-> | ->]; vm_compute; reflexivity. }
  split; apply H; [now left|now right].
Qed.

(** "A link that is cut off inside its strings is noticed" is false: it can be opened, it is reported, and there is no
    warning at all. *)
Definition words (b : bytes) : option (list warning * option pyval) :=
  match lnk_init (FromBytes b) CpNone true with
  | (w1, Ok l) => match get_json l true with (w2, Ok d) => Some (w1 ++ w2, dget "data" d) | _ => None end
  | _ => None
  end.
Theorem C67_cut_noticed_refuted :
  exists b n, n < lenN b
    /\ words b = Some ([], Some (PDict [("description", PStr (s2t "hello"))]%string))
    /\ words (takeN n b) = Some ([], Some (PDict [("description", PStr (s2t "he"))]%string)).
Proof.
  exists (encode_header (plain_header 4) ++ enc16 5 ++ ascii "hello" ++ enc32 0), 80. vm_compute. repeat split.
Qed.
Print Assumptions C67_cut_noticed_refuted.

(** With [allow_terminal_blocks] the bytes behind the link are part of the report. *)
Theorem C67_terminal_block_refuted :
  exists b more l1 l2 d1 d2,
    link_inside (lenN b) b
    /\ snd (lnk_init (FromBytes b) CpNone true) = Ok l1 /\ snd (get_json l1 true) = Ok d1
    /\ snd (lnk_init (FromBytes (b ++ more)) CpNone true) = Ok l2 /\ snd (get_json l2 true) = Ok d2
    /\ d1 <> d2.
Proof.
  destruct (snd (lnk_init (FromBytes full_link) CpNone true)) as [l1|] eqn:El1; [|vm_compute in El1; discriminate].
  destruct (snd (get_json l1 true)) as [d1|] eqn:Ed1.
  2: { exfalso. vm_compute in El1. injection El1 as <-. vm_compute in Ed1. discriminate. }
  destruct (snd (lnk_init (FromBytes (full_link ++ ascii "behind")) CpNone true)) as [l2|] eqn:El2; [|vm_compute in El2; discriminate].
  destruct (snd (get_json l2 true)) as [d2|] eqn:Ed2.
  2: { exfalso. vm_compute in El2. injection El2 as <-. vm_compute in Ed2. discriminate. }
  exists full_link, (ascii "behind"), l1, l2, d1, d2. split; [exact (proj1 C67_example)|].
  split; [exact El1|]. split; [exact Ed1|]. split; [exact El2|]. split; [exact Ed2|]. intros E. apply (f_equal (dget "size")) in E.
  vm_compute in El1. injection El1 as <-. vm_compute in Ed1. injection Ed1 as <-.
  vm_compute in El2. injection El2 as <-. vm_compute in Ed2. injection Ed2 as <-. vm_compute in E. discriminate.
Qed.
Print Assumptions C67_terminal_block_refuted.
