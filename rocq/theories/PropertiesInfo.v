(** * Properties C35-C40, C54, C55: the LinkInfo section

    Abstract LinkInfo sections, the relation "the bytes [section] hold this LinkInfo, with its
    structures and strings wherever the offsets put them" ([located]) and the report expected
    ([location_report]) are in SpecInfo.v. *)
From Verif Require Import Lemmas Codec Utils Sha256 Header StringData Targets Info Extra LnkFile.
From Verif Require Import Spec SpecHeader SpecTime SpecText SpecItems SpecExtra SpecInfo.
From Verif Require Import ConstructProofs ItemProofs InfoProofs InfoFileProofs.

(** ** C35. Which variant is reported. *)
Theorem C35_variant :
  forall b cp allow l d,
    usable cp -> snd (lnk_init (FromBytes b) cp allow) = Ok l -> snd (get_json l true) = Ok d ->
    (info_processed b = false -> reported_info d = Some [])
    /\ (info_processed b = true ->
        exists i, reported_info d = Some i
        /\ dget "location" i = Some (PS (if N.testbit (num 4 (id_list_end b + 8) b) 0 then "Local" else "Network"))).
Proof. exact variant. Qed.
Print Assumptions C35_variant.

(** The whole section for every file: a report is only given when the fixed fields are inside
    the file ([info_readable]), and then it is what the bytes say. *)
Theorem C35_every_file :
  forall b cp allow l d,
    usable cp -> snd (lnk_init (FromBytes b) cp allow) = Ok l -> snd (get_json l true) = Ok d ->
    let raw := dropN (id_list_end b) b in
    let network := negb (N.testbit (num 4 8 raw) 0) in
    reported_info d = Some (if info_processed b then info_entries cp network raw else [])
    /\ (info_processed b = true -> info_readable network raw = true).
Proof. exact info_of_file. Qed.
Print Assumptions C35_every_file.

(** Decoding a LinkInfo succeeds exactly then, else it raises struct.error; and it warns only
    about strings that cannot be decoded. *)
Theorem C35_outcome :
  forall cp k raw,
    usable cp ->
    snd (info_dict cp k raw)
    = (if info_readable (is_network k) raw then Ok (info_entries cp (is_network k) raw) else Err StructError)
    /\ (info_readable (is_network k) raw = true -> fst (info_dict cp k raw) = info_warnings cp (is_network k) raw).
Proof.
  exact (fun cp k raw Hcp => conj (info_dict_snd cp k raw Hcp) (fun H => f_equal fst (info_dict_ok cp k raw Hcp H))).
Qed.
Print Assumptions C35_outcome.

Definition ascii (s : string) : bytes := map n2b (s2t s).
Definition link_file (flags : N) (rest : bytes) : bytes := encode_header (plain_header flags) ++ rest.

(** A local LinkInfo with the large header. *)
Definition wide_xyz : bytes := utf16 [0x78; 0x79; 0x7A].
Definition local_volume : volume := Volume 18 3 0xDEADBEEF (PageLabel 16 (ascii "L")).
Definition local_header : link_info :=
  LinkInfo 80 0x24 1 36 0 (Some (54, ascii "C:\")) (Some (58, ascii "a"))
    (Some (Some (60, utf16 [0x44; 0x3A]), Some (66, wide_xyz))).
Definition local_section : bytes :=
  encode_info local_header ++ encode_volume local_volume ++ zstring false (ascii "L")
  ++ zstring false (ascii "C:\") ++ zstring false (ascii "a") ++ zstring true (utf16 [0x44; 0x3A]) ++ zstring true wide_xyz
  ++ repeat x00 6.
Definition local_file : bytes := link_file 0x2 (local_section ++ enc32 0).
(** The same bytes with ForceNoLinkInfo, with the network bit only, with neither bit. *)
Definition forced_file : bytes := link_file 0x102 (local_section ++ enc32 0).

Ltac by_bytes := apply holds_by; [vm_compute; reflexivity|vm_compute; discriminate].
Ltac small := vm_compute; reflexivity || discriminate.
Ltac fit := match goal with |- fits32 _ => vm_compute; reflexivity end.
Ltac slot_tac := first [exact I | split; [lia|split; [fit|split; [cbn; intuition discriminate || (split; reflexivity)|by_bytes]]]].

Lemma local_located : located local_section local_header (LocalAt local_volume).
Proof.
  split.
  - split; [fit|]. split; [fit|]. split; [fit|]. split; [fit|]. split; [fit|]. split; [split; [discriminate|intros _; vm_compute; discriminate]|].
    split; [by_bytes|]. split; [slot_tac|]. split; [slot_tac|]. split; slot_tac.
  - split; [reflexivity|]. split; [fit|]. split; [fit|]. split; [fit|]. split; [by_bytes|].
    split; [fit|]. split; [discriminate|]. split; [cbn; intuition discriminate|by_bytes].
Qed.

Example C35_example :
  info_processed local_file = true /\ info_processed forced_file = false
  /\ match snd (l <- lnk_init (FromBytes local_file) CpNone true ;; get_json l true),
           snd (l <- lnk_init (FromBytes forced_file) CpNone true ;; get_json l true) with
     | Ok d, Ok d' => option_map (dget "location") (reported_info d) = Some (Some (PS "Local")) /\ reported_info d' = Some []
     | _, _ => False
     end.
Proof. split; [vm_compute; reflexivity|]. split; [vm_compute; reflexivity|]. vm_compute. split; reflexivity. Qed.

(** ** C36. Local volumes and paths, at any offsets. *)
Theorem C36_local :
  forall b cp allow l d section i v,
    usable cp -> snd (lnk_init (FromBytes b) cp allow) = Ok l -> snd (get_json l true) = Ok d ->
    bit_set 1 b = true -> bit_set 8 b = false ->
    holds b (id_list_end b) section -> located section i (LocalAt v) ->
    reported_info d = Some (location_report cp (dropN (id_list_end b) b) i (LocalAt v))
    /\ info_end b = id_list_end b + i_size i.
Proof. exact (fun b cp allow l d s i v => located_reported b cp allow l d s i (LocalAt v)). Qed.
Print Assumptions C36_local.

Example C36_example :
  located local_section local_header (LocalAt local_volume) /\ holds local_file (id_list_end local_file) local_section
  /\ match snd (l <- lnk_init (FromBytes local_file) CpNone true ;; get_json l true) with
     | Ok d => reported_info d = Some
        [("link_info_size", PN 80); ("link_info_header_size", PN 0x24); ("link_info_flags", PN 1); ("volume_id_offset", PN 36);
         ("local_base_path_offset", PN 54); ("common_network_relative_link_offset", PN 0); ("common_path_suffix_offset", PN 58);
         ("local_base_path", PS "C:\"); ("common_path_suffix", PS "a");
         ("local_base_path_offset_unicode", PN 60); ("local_base_path_unicode", PS "D:");
         ("common_path_suffix_offset_unicode", PN 66); ("common_path_suffix_unicode", PS "z");
         ("location_info", PDict
            [("volume_id_size", PN 18); ("r_drive_type", PN 3); ("volume_label_offset", PN 16);
             ("drive_serial_number", PS "0xdeadbeef"); ("drive_type", PS "DRIVE_FIXED"); ("volume_label", PS "L")]);
         ("location", PS "Local")]
     | Err _ => False
     end.
Proof.
  split; [exact local_located|]. split; [by_bytes|]. vm_compute. reflexivity.
Qed.

(** ** C37. Network shares. *)
Theorem C37_network :
  forall b cp allow l d section i n,
    usable cp -> snd (lnk_init (FromBytes b) cp allow) = Ok l -> snd (get_json l true) = Ok d ->
    bit_set 1 b = true -> bit_set 8 b = false ->
    holds b (id_list_end b) section -> located section i (NetworkAt n) ->
    reported_info d = Some (location_report cp (dropN (id_list_end b) b) i (NetworkAt n))
    /\ info_end b = id_list_end b + i_size i.
Proof. exact (fun b cp allow l d s i n => located_reported b cp allow l d s i (NetworkAt n)). Qed.
Print Assumptions C37_network.

(** A share "\\h\s" mounted on "Z:", of a provider the code knows, and one with Unicode names. *)
Definition net_header : link_info := LinkInfo 60 0x1C 2 0 28 None None None.
Definition page_share : network := NetworkLink 28 3 0x20000 (PageNames 20 (ascii "\\h\s") 26 (ascii "Z:")).
Definition page_section : bytes :=
  encode_info net_header ++ encode_network page_share ++ zstring false (ascii "\\h\s") ++ zstring false (ascii "Z:") ++ repeat x00 3.
Definition wide_share : network :=
  NetworkLink 32 2 0x2A000 (WideNames 0x1C 0 (Some (28, utf16 [0x3B1])) None).
Definition wide_section : bytes :=
  encode_info net_header ++ encode_network wide_share ++ zstring true (utf16 [0x3B1]).
Definition page_file : bytes := link_file 0x2 (page_section ++ enc32 0).
Definition wide_file : bytes := link_file 0x2 (wide_section ++ enc32 0).

Ltac net_tac :=
  split; [split; [fit|]; split; [fit|]; split; [fit|]; split; [fit|]; split; [fit|];
          split; [split; [intros H; exfalso; apply H; vm_compute; reflexivity|intros H; now destruct H]|];
          split; [by_bytes|]; split; [exact I|]; split; [exact I|exact I]
         |split; [reflexivity|]; split; [reflexivity|]; split; [fit|]; split; [fit|]; split; [fit|]; split; [by_bytes|]].
Lemma page_located : located page_section net_header (NetworkAt page_share).
Proof.
  net_tac. split; [vm_compute; discriminate|]. split; [fit|]. split; [cbn; intuition discriminate|].
  split; [cbn; intuition discriminate|]. split; by_bytes.
Qed.
Lemma wide_located : located wide_section net_header (NetworkAt wide_share).
Proof. net_tac. split; [reflexivity|]. split; [fit|]. split; [fit|]. split; [slot_tac|exact I]. Qed.

Example C37_example :
  located page_section net_header (NetworkAt page_share) /\ holds page_file (id_list_end page_file) page_section
  /\ located wide_section net_header (NetworkAt wide_share) /\ holds wide_file (id_list_end wide_file) wide_section
  /\ match snd (l <- lnk_init (FromBytes page_file) CpNone true ;; get_json l true),
           snd (l <- lnk_init (FromBytes wide_file) CpNone true ;; get_json l true) with
     | Ok d, Ok d' =>
       reported_location_info d = Some
         [("common_network_relative_link_size", PN 28); ("common_network_relative_link_flags", PN 3);
          ("net_name_offset", PN 20); ("device_name_offset", PN 26); ("r_network_provider_type", PS "0x20000");
          ("network_provider_type", PS "WNNC_NET_DECORB"); ("net_name", PS "\\h\s"); ("device_name", PS "Z:")]
       /\ reported_location_info d' = Some
         [("common_network_relative_link_size", PN 32); ("common_network_relative_link_flags", PN 2);
          ("net_name_offset", PN 28); ("device_name_offset", PN 0); ("r_network_provider_type", PS "0x2a000");
          ("net_name_offset_unicode", PN 28); ("net_name_unicode", PStr [0x3B1])]
     | _, _ => False
     end.
Proof.
  split; [exact page_located|]. split; [by_bytes|]. split; [exact wide_located|]. split; [by_bytes|].
  vm_compute. split; reflexivity.
Qed.

(** ** C38. Network providers: known by name unless their number contains a hexadecimal letter. *)
Theorem C38_provider_names :
  forall b cp allow l d section i n li,
    usable cp -> snd (lnk_init (FromBytes b) cp allow) = Ok l -> snd (get_json l true) = Ok d ->
    bit_set 1 b = true -> bit_set 8 b = false ->
    holds b (id_list_end b) section -> located section i (NetworkAt n) -> reported_location_info d = Some li ->
    (N.testbit (n_flags n) 1 = false -> dget "network_provider_type" li = None)
    /\ (N.testbit (n_flags n) 1 = true ->
        (forall name, In (n_provider n, name) provider_table ->
           dget "network_provider_type" li = if letter_type (n_provider n) then None else Some (PS name))
        /\ (~ In (n_provider n) (map fst provider_table) -> dget "network_provider_type" li = None)).
Proof. exact provider_reported. Qed.
Print Assumptions C38_provider_names.

(** Not every provider of the table is named. *)
Theorem C38_letters_refuted :
  exists b l d section i n li name,
    snd (lnk_init (FromBytes b) CpNone true) = Ok l /\ snd (get_json l true) = Ok d
    /\ bit_set 1 b = true /\ bit_set 8 b = false
    /\ holds b (id_list_end b) section /\ located section i (NetworkAt n)
    /\ N.testbit (n_flags n) 1 = true /\ In (n_provider n, name) provider_table
    /\ reported_location_info d = Some li /\ dget "network_provider_type" li = None.
Proof.
  destruct (snd (lnk_init (FromBytes wide_file) CpNone true)) as [l|] eqn:El; [|vm_compute in El; discriminate].
  destruct (snd (get_json l true)) as [d|] eqn:Ed.
  2: { exfalso. vm_compute in El. injection El as <-. vm_compute in Ed. discriminate. }
  destruct (reported_location_info d) as [li|] eqn:Ei.
  2: { exfalso. vm_compute in El. injection El as <-. vm_compute in Ed. injection Ed as <-. vm_compute in Ei. discriminate. }
  exists wide_file, l, d, wide_section, net_header, wide_share, li, "WNNC_NET_STAC"%string.
  assert (HN : In (n_provider wide_share, "WNNC_NET_STAC"%string) provider_table) by (unfold provider_table; cbn [In]; tauto).
  assert (HH : holds wide_file (id_list_end wide_file) wide_section) by by_bytes.
  repeat (split; [first [assumption|reflexivity|exact wide_located]|]).
  destruct (provider_reported wide_file CpNone true l d wide_section net_header wide_share li) as [_ HX];
    try assumption; try reflexivity; [discriminate|exact wide_located|].
  destruct (HX eq_refl) as [HY _]. exact (HY _ HN).
Qed.
Print Assumptions C38_letters_refuted.

(** Of the 41 names, 23 are known. *)
Example C38_example :
  lenN provider_table = 41 /\ lenN (filter (fun p => negb (letter_type (fst p))) provider_table) = 23.
Proof. split; vm_compute; reflexivity. Qed.

(** ** C39. The Unicode suffix loses its first two characters. *)
Theorem C39_suffix_without_first_two :
  forall b cp allow l d section i loc base off c1 c2 t li,
    usable cp -> snd (lnk_init (FromBytes b) cp allow) = Ok l -> snd (get_json l true) = Ok d ->
    bit_set 1 b = true -> bit_set 8 b = false -> holds b (id_list_end b) section -> located section i loc ->
    Forall scalar (c1 :: c2 :: t) -> no_nul (c1 :: c2 :: t) -> c1 < 0x10000 -> c2 < 0x10000 ->
    i_wide i = Some (base, Some (off, utf16 (c1 :: c2 :: t))) -> reported_info d = Some li ->
    dget "common_path_suffix_unicode" li = Some (PStr t).
Proof. exact wide_suffix_loses_two. Qed.
Print Assumptions C39_suffix_without_first_two.

(** For any stored bytes, UTF-16 or not. *)
Theorem C39_suffix_bytes :
  forall b cp allow l d section i loc base off body li,
    usable cp -> snd (lnk_init (FromBytes b) cp allow) = Ok l -> snd (get_json l true) = Ok d ->
    bit_set 1 b = true -> bit_set 8 b = false -> holds b (id_list_end b) section -> located section i loc ->
    i_wide i = Some (base, Some (off, body)) -> 4 <= lenN body -> reported_info d = Some li ->
    dget "common_path_suffix_unicode" li = Some (PStr (wide_text (dropN 4 body))).
Proof. exact wide_suffix_reported. Qed.
Print Assumptions C39_suffix_bytes.

Theorem C39_suffix_refuted :
  exists b l d section i loc base off t li,
    snd (lnk_init (FromBytes b) CpNone true) = Ok l /\ snd (get_json l true) = Ok d
    /\ bit_set 1 b = true /\ bit_set 8 b = false /\ holds b (id_list_end b) section /\ located section i loc
    /\ i_wide i = Some (base, Some (off, utf16 t)) /\ reported_info d = Some li
    /\ dget "common_path_suffix_unicode" li <> Some (PStr t).
Proof.
  destruct (snd (lnk_init (FromBytes local_file) CpNone true)) as [l|] eqn:El; [|vm_compute in El; discriminate].
  destruct (snd (get_json l true)) as [d|] eqn:Ed.
  2: { exfalso. vm_compute in El. injection El as <-. vm_compute in Ed. discriminate. }
  destruct (reported_info d) as [li|] eqn:Ei.
  2: { exfalso. vm_compute in El. injection El as <-. vm_compute in Ed. injection Ed as <-. vm_compute in Ei. discriminate. }
  exists local_file, l, d, local_section, local_header, (LocalAt local_volume), (Some (60, utf16 [0x44; 0x3A])), 66, [0x78; 0x79; 0x7A], li.
  assert (HH : holds local_file (id_list_end local_file) local_section) by by_bytes.
  repeat (split; [first [assumption|reflexivity|exact local_located]|]).
  rewrite (wide_suffix_reported local_file CpNone true l d local_section local_header (LocalAt local_volume) _ 66 wide_xyz li
             ltac:(discriminate) El Ed eq_refl eq_refl HH local_located eq_refl ltac:(vm_compute; discriminate) Ei).
  vm_compute. discriminate.
Qed.
Print Assumptions C39_suffix_refuted.

Example C39_example : exists base off, i_wide local_header = Some (base, Some (off, utf16 [0x78; 0x79; 0x7A])).
Proof. exists (Some (60, utf16 [0x44; 0x3A])), 66. reflexivity. Qed.

(** ** C40. A LinkInfo that is not processed is not skipped either: the strings are read from it. *)
Theorem C40_strings_start_at_the_link_info :
  forall b cp allow l d found e cut,
    usable cp -> snd (lnk_init (FromBytes b) cp allow) = Ok l -> snd (get_json l true) = Ok d ->
    bit_set 8 b = true \/ N.land (num 4 (id_list_end b + 8) b) 3 = 0 ->
    string_walk b string_fields (id_list_end b) found e cut ->
    dget "data" d = Some (PDict (map (fun f => (fst f, PStr (stored_text (bit_set 7 b) cp (snd f)))) found)).
Proof. exact unprocessed_strings. Qed.
Print Assumptions C40_strings_start_at_the_link_info.

(** A link with ForceNoLinkInfo, a LinkInfo and the description "ab". *)
Definition ignored_file : bytes := link_file 0x106 (local_section ++ encode_strings [Some (page_string (ascii "ab"))] ++ enc32 0).
Theorem C40_skipped_refuted :
  exists b l d section i loc,
    snd (lnk_init (FromBytes b) CpNone true) = Ok l /\ snd (get_json l true) = Ok d
    /\ bit_set 1 b = true /\ bit_set 8 b = true /\ bit_set 2 b = true
    /\ holds b (id_list_end b) section /\ located section i loc
    /\ holds b (id_list_end b + i_size i) (encode_strings [Some (page_string (ascii "ab"))])
    /\ dget "data" d <> Some (PDict [("description"%string, PS "ab")]).
Proof.
  destruct (snd (lnk_init (FromBytes ignored_file) CpNone true)) as [l|] eqn:El; [|vm_compute in El; discriminate].
  destruct (snd (get_json l true)) as [d|] eqn:Ed.
  2: { exfalso. vm_compute in El. injection El as <-. vm_compute in Ed. discriminate. }
  exists ignored_file, l, d, local_section, local_header, (LocalAt local_volume).
  repeat (split; [first [assumption|reflexivity|exact local_located|by_bytes]|]).
  vm_compute in El. injection El as <-. vm_compute in Ed. injection Ed as <-. vm_compute. discriminate.
Qed.
Print Assumptions C40_skipped_refuted.

(** There the LinkInfoSize is taken for the count of the description, whose text is empty. *)
Example C40_example :
  match snd (l <- lnk_init (FromBytes ignored_file) CpNone true ;; get_json l true) with
  | Ok d => match dget "data" d with
            | Some (PDict [("description"%string, PStr t)]) => t = []
            | _ => False
            end
  | Err _ => False
  end
  /\ exists found e cut, string_walk ignored_file string_fields (id_list_end ignored_file) found e cut.
Proof.
  split; [vm_compute; reflexivity|].
  destruct (ConstructProofs.string_data_full ignored_file CpNone ltac:(discriminate) ltac:(vm_compute; discriminate) ltac:(vm_compute; discriminate))
    as (found & cut & HW & _).
  exists found, (string_data_end ignored_file), cut. exact HW.
Qed.

(** ** C54. Without a device the code reports the bytes of the size field as device name. *)
Theorem C54_absent_device_is_the_size_field :
  forall b cp allow l d section i n na name li,
    usable cp -> snd (lnk_init (FromBytes b) cp allow) = Ok l -> snd (get_json l true) = Ok d ->
    bit_set 1 b = true -> bit_set 8 b = false -> holds b (id_list_end b) section -> located section i (NetworkAt n) ->
    (exists device, n_names n = PageNames na name 0 device) -> 0 < n_size n < 256 -> reported_location_info d = Some li ->
    field_text cp [n2b (n_size n)] <> [] ->
    dget "device_name" li = Some (PStr (field_text cp [n2b (n_size n)])).
Proof. exact absent_device. Qed.
Print Assumptions C54_absent_device_is_the_size_field.

(** A share without a device: ValidDevice is clear and DeviceNameOffset is zero. *)
Definition bare_share : network := NetworkLink 0x24 2 0x20000 (PageNames 20 (ascii "\\host\share-01") 0 [x24]).
Definition bare_section : bytes := encode_info net_header ++ encode_network bare_share ++ zstring false (ascii "\\host\share-01").
Definition bare_file : bytes := link_file 0x2 (bare_section ++ enc32 0).
Lemma bare_located : located bare_section net_header (NetworkAt bare_share).
Proof.
  net_tac. split; [vm_compute; discriminate|]. split; [fit|]. split; [cbn; intuition discriminate|].
  split; [cbn; intuition discriminate|]. split; by_bytes.
Qed.
Theorem C54_device_name_refuted :
  exists b l d section i n li,
    snd (lnk_init (FromBytes b) CpNone true) = Ok l /\ snd (get_json l true) = Ok d
    /\ bit_set 1 b = true /\ bit_set 8 b = false /\ holds b (id_list_end b) section /\ located section i (NetworkAt n)
    /\ N.testbit (n_flags n) 0 = false /\ reported_location_info d = Some li
    /\ dget "device_name" li = Some (PS "$").
Proof.
  destruct (snd (lnk_init (FromBytes bare_file) CpNone true)) as [l|] eqn:El; [|vm_compute in El; discriminate].
  destruct (snd (get_json l true)) as [d|] eqn:Ed.
  2: { exfalso. vm_compute in El. injection El as <-. vm_compute in Ed. discriminate. }
  destruct (reported_location_info d) as [li|] eqn:Ei.
  2: { exfalso. vm_compute in El. injection El as <-. vm_compute in Ed. injection Ed as <-. vm_compute in Ei. discriminate. }
  exists bare_file, l, d, bare_section, net_header, bare_share, li.
  repeat (split; [first [assumption|reflexivity|exact bare_located|by_bytes]|]).
  vm_compute in El. injection El as <-. vm_compute in Ed. injection Ed as <-. vm_compute in Ei. injection Ei as <-.
  vm_compute. reflexivity.
Qed.
Print Assumptions C54_device_name_refuted.

(** ** C55. What follows the LinkInfo. When the strings are closed inside the section, nothing
    behind it counts (but for the Unicode suffix, see C39). *)
Theorem C55_closed_strings :
  forall b1 b2 cp allow l1 l2 d1 d2 section i loc,
    usable cp ->
    snd (lnk_init (FromBytes b1) cp allow) = Ok l1 -> snd (get_json l1 true) = Ok d1 ->
    snd (lnk_init (FromBytes b2) cp allow) = Ok l2 -> snd (get_json l2 true) = Ok d2 ->
    bit_set 1 b1 = true -> bit_set 8 b1 = false -> bit_set 1 b2 = true -> bit_set 8 b2 = false ->
    holds b1 (id_list_end b1) section -> holds b2 (id_list_end b2) section -> located section i loc ->
    (forall base s, i_wide i = Some (base, s) -> s = None) ->
    reported_info d1 = reported_info d2.
Proof. exact closed_strings. Qed.
Print Assumptions C55_closed_strings.

(** A base path that is not closed before the end of the section picks up what follows. *)
Definition open_volume : volume := Volume 18 3 0xDEADBEEF (PageLabel 16 (ascii "L")).
Definition open_header : link_info := LinkInfo 48 0x1C 1 28 0 (Some (46, ascii "C:")) None None.
Definition open_section : bytes :=
  encode_info open_header ++ encode_volume open_volume ++ zstring false (ascii "L") ++ ascii "C:".
Definition open_file (s : string) : bytes := link_file 0x6 (open_section ++ encode_strings [Some (page_string (ascii s))] ++ enc32 0).
Theorem C55_open_strings_refuted :
  exists b1 b2 l1 l2 d1 d2,
    snd (lnk_init (FromBytes b1) CpNone true) = Ok l1 /\ snd (get_json l1 true) = Ok d1
    /\ snd (lnk_init (FromBytes b2) CpNone true) = Ok l2 /\ snd (get_json l2 true) = Ok d2
    /\ info_end b1 = info_end b2 /\ takeN (info_end b1) b1 = takeN (info_end b2) b2
    /\ reported_info d1 <> reported_info d2.
Proof.
  destruct (snd (lnk_init (FromBytes (open_file "a")) CpNone true)) as [l1|] eqn:El1; [|vm_compute in El1; discriminate].
  destruct (snd (get_json l1 true)) as [d1|] eqn:Ed1.
  2: { exfalso. vm_compute in El1. injection El1 as <-. vm_compute in Ed1. discriminate. }
  destruct (snd (lnk_init (FromBytes (open_file "bc")) CpNone true)) as [l2|] eqn:El2; [|vm_compute in El2; discriminate].
  destruct (snd (get_json l2 true)) as [d2|] eqn:Ed2.
  2: { exfalso. vm_compute in El2. injection El2 as <-. vm_compute in Ed2. discriminate. }
  exists (open_file "a"), (open_file "bc"), l1, l2, d1, d2.
  repeat (split; [first [assumption|vm_compute; reflexivity]|]).
  vm_compute in El1. injection El1 as <-. vm_compute in Ed1. injection Ed1 as <-.
  vm_compute in El2. injection El2 as <-. vm_compute in Ed2. injection Ed2 as <-. vm_compute. discriminate.
Qed.
Print Assumptions C55_open_strings_refuted.

Definition followed_file (s : string) : bytes := link_file 0x6 (page_section ++ encode_strings [Some (page_string (ascii s))] ++ enc32 0).
Example C55_example :
  located page_section net_header (NetworkAt page_share) /\ (forall base s, i_wide net_header = Some (base, s) -> s = None)
  /\ Forall (fun s => holds (followed_file s) (id_list_end (followed_file s)) page_section
                      /\ bit_set 1 (followed_file s) = true /\ bit_set 8 (followed_file s) = false
                      /\ match snd (l <- lnk_init (FromBytes (followed_file s)) CpNone true ;; get_json l true) with
                         | Ok d => option_map (dget "net_name") (reported_location_info d) = Some (Some (PS "\\h\s"))
                                   /\ dget "data" d = Some (PDict [("description"%string, PS s)])
                         | Err _ => False
                         end) ["a"; "bc"]%string.
Proof.
  split; [exact page_located|]. split; [discriminate|].
  repeat apply Forall_cons; try apply Forall_nil;
    (split; [by_bytes|]; split; [vm_compute; reflexivity|]; split; [vm_compute; reflexivity|]; vm_compute; split; reflexivity).
Qed.
