(** * Properties C11-C16, C52: GUID decompression, text fields, StringData, warnings

    The vocabulary ([utf8], [utf16], [packed_guid], [encode_strings], [string_walk], ...) is in
    SpecText.v, the section boundaries are in Spec.v. *)
From Verif Require Import Lemmas Codec Utils Header StringData Extra LnkFile Spec SpecText.
From Verif Require Import TextProofs ConstructProofs StringProofs.

(** ** C11. GUIDs compressed with base 85. *)
Theorem C11_packed_guid :
  forall g, lenN g = 16 -> parse_packed_uuid (packed_guid g) = ret (guid_text g).
Proof. exact packed_round_trip. Qed.
Print Assumptions C11_packed_guid.

Example C11_example :
  let g := map n2b [0x52; 0x86; 0x1C; 0x90; 0x00; 0x00; 0xF0; 0x50; 0x00; 0x00; 0x00; 0x00; 0x00; 0x0F; 0xF1; 0xCE] in
  parse_packed_uuid (packed_guid g) = ret (s2t "901C8652-0000-50F0-0000-0000000FF1CE").
Proof. vm_compute. reflexivity. Qed.

(** ** C12. Code-page fields.

    [body] is what precedes the first NUL of the field, or the whole field. *)
Theorem C12_code_page_field :
  forall cp field body,
    usable cp -> ~ In x00 body -> (field = body \/ exists rest, field = body ++ x00 :: rest) ->
    let c := page_of cp in
    (body = [] -> read_string cp field = ret [])
    /\ (body <> [] -> forall t, strict c body = Some t -> read_string cp field = ret t)
    /\ (body <> [] -> strict c body = None ->
        forall t, Forall scalar t -> body = utf8 t -> read_string cp field = ret t)
    /\ (body <> [] -> strict c body = None -> (forall t, Forall scalar t -> body <> utf8 t) ->
        read_string cp field = ([WDecode (replace c body)], Ok (replace c body))).
Proof. exact code_page_field. Qed.
Print Assumptions C12_code_page_field.

Theorem C12_every_field_has_a_body :
  forall field, exists body, ~ In x00 body /\ (field = body \/ exists rest, field = body ++ x00 :: rest).
Proof. exact code_page_body. Qed.
Print Assumptions C12_every_field_has_a_body.

Theorem C12_nothing_after_nul_counts :
  forall cp field rest1 rest2,
    usable cp -> read_string cp (field ++ x00 :: rest1) = read_string cp (field ++ x00 :: rest2).
Proof. exact code_page_cut. Qed.
Print Assumptions C12_nothing_after_nul_counts.

(** The functions [field_text] and [field_warning] of SpecText.v, which the theorems about the
    report use for code-page fields, are this reading. *)
Theorem C12_field_text :
  forall cp field, usable cp -> read_string cp field = (field_warning cp field, Ok (field_text cp field)).
Proof. exact read_string_field. Qed.
Print Assumptions C12_field_text.

Theorem C12_utf8_decoder :
  forall b t, utf8_strict b = Some t <-> Forall scalar t /\ b = utf8 t.
Proof. exact utf8_strict_spec. Qed.
Print Assumptions C12_utf8_decoder.

Theorem C12_ascii_with_default_code_page :
  forall t rest, Forall (fun c => 0 < c < 128) t -> read_string CpNone (map n2b t ++ x00 :: rest) = ret t.
Proof. exact ascii_field. Qed.
Print Assumptions C12_ascii_with_default_code_page.

(** The four cases: empty; Windows-1252; bytes Windows-1252 leaves undefined that are UTF-8
    (U+0401); bytes that are neither. *)
Example C12_example_cases :
  read_string CpNone [x00; x41] = ret []
  /\ read_string CpNone [x41; xe9; x00; x41] = ret [0x41; 0xE9]
  /\ read_string CpNone [xd0; x81] = ret [0x401]
  /\ read_string CpNone [x81; x41] = ([WDecode [0xFFFD; 0x41]], Ok [0xFFFD; 0x41]).
Proof. repeat split. Qed.

(** ** C13. Unicode fields. *)
Theorem C13_round_trip :
  forall t rest,
    Forall scalar t -> no_nul t ->
    read_unicode_string (utf16 t ++ x00 :: x00 :: rest) = ret t
    /\ read_unicode_string (utf16 t) = ret t.
Proof. exact (fun t rest Hs Hn => conj (wide_text_nul t rest Hs Hn) (wide_text_all t Hs Hn)). Qed.
Print Assumptions C13_round_trip.

Theorem C13_total :
  forall b,
    exists t, snd (read_unicode_string b) = Ok t /\ Forall scalar t
      /\ (fst (read_unicode_string b) = [] \/ fst (read_unicode_string b) = [WDecode t])
      /\ (fst (read_unicode_string b) = [] <->
          Forall scalar t /\ no_nul t /\ (b = utf16 t \/ exists rest, b = utf16 t ++ x00 :: x00 :: rest)).
Proof. exact wide_total. Qed.
Print Assumptions C13_total.

Theorem C13_nothing_after_nul_counts :
  forall field rest1 rest2,
    N.even (lenN field) = true ->
    read_unicode_string (field ++ x00 :: x00 :: rest1) = read_unicode_string (field ++ x00 :: x00 :: rest2).
Proof. exact wide_cut. Qed.
Print Assumptions C13_nothing_after_nul_counts.

Theorem C13_wide_text :
  forall field, read_unicode_string field = (wide_warning field, Ok (wide_text field)).
Proof. exact read_unicode_field. Qed.
Print Assumptions C13_wide_text.

(** A text with a character outside the BMP; an unpaired surrogate and an odd byte. *)
Example C13_example :
  let t := [0x41; 0x1F600; 0x4E2D] in
  Forall scalar t /\ no_nul t /\ lenN (utf16 t) = 8 /\ read_unicode_string (utf16 t ++ [x00; x00; x41; x00]) = ret t
  /\ read_unicode_string [x00; xd8; x41; x00; x42] = ([WDecode [0xFFFD; 0x41; 0xFFFD]], Ok [0xFFFD; 0x41; 0xFFFD]).
Proof. unfold no_nul, scalar. repeat split; repeat constructor; try lia; discriminate. Qed.

(** ** C14. StringData: presence, order and content. *)
Theorem C14_unicode :
  forall b cp allow l d texts,
    usable cp -> snd (lnk_init (FromBytes b) cp allow) = Ok l -> snd (get_json l true) = Ok d ->
    bit_set 7 b = true -> announced b string_fields texts -> fields_fit unicode_fits texts ->
    holds b (info_end b) (encode_strings (map (option_map unicode_string) texts)) ->
    dget "data" d = Some (PDict (map (fun f => (fst f, PStr (snd f))) (keyed string_fields texts)))
    /\ string_data_end b = info_end b + lenN (encode_strings (map (option_map unicode_string) texts)).
Proof. exact strings_unicode. Qed.
Print Assumptions C14_unicode.

Theorem C14_code_page :
  forall b cp allow l d bodies,
    usable cp -> snd (lnk_init (FromBytes b) cp allow) = Ok l -> snd (get_json l true) = Ok d ->
    bit_set 7 b = false -> announced b string_fields bodies -> fields_fit page_fits bodies ->
    holds b (info_end b) (encode_strings (map (option_map page_string) bodies)) ->
    dget "data" d = Some (PDict (map (fun f => (fst f, PStr (field_text cp (snd f)))) (keyed string_fields bodies)))
    /\ string_data_end b = info_end b + lenN (encode_strings (map (option_map page_string) bodies)).
Proof. exact strings_page. Qed.
Print Assumptions C14_code_page.

(** Relative path "a", arguments U+1F600 and an icon location, in Unicode. *)
Definition three_strings : list (option text) := [None; Some [0x61]; None; Some [0x1F600]; Some [0x62; 0x63]].
Definition three_strings_file : bytes :=
  encode_header (plain_header 0xE8) ++ encode_strings (map (option_map unicode_string) three_strings) ++ enc32 0.
Example C14_example :
  let b := three_strings_file in
  bit_set 7 b = true /\ announced b string_fields three_strings /\ fields_fit unicode_fits three_strings
  /\ holds b (info_end b) (encode_strings (map (option_map unicode_string) three_strings))
  /\ match snd (l <- lnk_init (FromBytes b) CpNone true ;; get_json l true) with
     | Ok d => dget "data" d = Some (PDict [("relative_path", PStr [0x61]); ("command_line_arguments", PStr [0x1F600]);
                                            ("icon_location", PStr [0x62; 0x63])])
     | Err _ => False
     end.
Proof.
  split; [reflexivity|]. split; [unfold announced; repeat constructor|]. split.
  { unfold fields_fit, unicode_fits, no_nul, scalar. repeat constructor; try lia; try discriminate; vm_compute; reflexivity || discriminate. }
  split; [|vm_compute; reflexivity].
  exists (encode_header (plain_header 0xE8)), (enc32 0). split; reflexivity.
Qed.

(** ** C15. The limit of 260 characters.

    [counted] compares the bytes present with [chars_read], the stored count cut at 260 for the
    first three fields: with a larger count the next field follows the first 260 characters. *)
Theorem C15_counts :
  forall b cp allow l d strings,
    usable cp -> snd (lnk_init (FromBytes b) cp allow) = Ok l -> snd (get_json l true) = Ok d ->
    announced b string_fields strings -> counted (char_width b) string_fields strings ->
    holds b (info_end b) (encode_strings strings) ->
    dget "data" d = Some (PDict (map (fun f => (fst f, PStr (stored_text (bit_set 7 b) cp (snd (snd f)))))
                                     (keyed string_fields strings)))
    /\ string_data_end b = info_end b + lenN (encode_strings strings).
Proof. exact strings_with_counts. Qed.
Print Assumptions C15_counts.

Theorem C15_at_most_260 :
  forall b cp allow l d name t,
    usable cp -> snd (lnk_init (FromBytes b) cp allow) = Ok l -> snd (get_json l true) = Ok d ->
    bit_set 7 b = true -> In name ["description"; "relative_path"; "working_directory"]%string ->
    (exists data, dget "data" d = Some (PDict data) /\ dget name data = Some (PStr t)) ->
    lenN t <= 260.
Proof. exact limited_unicode. Qed.
Print Assumptions C15_at_most_260.

(** A description announcing 1000 characters followed by an icon location of 300. *)
Definition long_description : list (option (N * bytes)) :=
  [Some (1000, repeat x41 260); None; None; None; Some (300, repeat x42 300)].
Definition long_description_file : bytes := encode_header (plain_header 0x44) ++ encode_strings long_description ++ enc32 0.
Example C15_example :
  let b := long_description_file in
  announced b string_fields long_description /\ counted (char_width b) string_fields long_description
  /\ holds b (info_end b) (encode_strings long_description)
  /\ match snd (l <- lnk_init (FromBytes b) CpNone true ;; get_json l true) with
     | Ok d => dget "data" d = Some (PDict [("description", PStr (repeat 0x41 260)); ("icon_location", PStr (repeat 0x42 300))])
     | Err _ => False
     end.
Proof.
  split; [unfold announced; repeat constructor|]. split.
  { unfold counted. repeat constructor. }
  split; [|vm_compute; reflexivity].
  exists (encode_header (plain_header 0x44)), (enc32 0). split; reflexivity.
Qed.

(** ** C16. Truncated StringData.

    The reported keys are the first of the announced ones, and there is a warning exactly when
    some are missing. *)
Theorem C16_prefix :
  forall b cp allow l d,
    usable cp -> snd (lnk_init (FromBytes b) cp allow) = Ok l -> snd (get_json l true) = Ok d ->
    exists data rest,
      dget "data" d = Some (PDict data)
      /\ announced_keys b = map fst data ++ rest
      /\ (In WStringData (fst (lnk_init (FromBytes b) cp allow)) <-> rest <> []).
Proof. exact strings_truncated. Qed.
Print Assumptions C16_prefix.

(** When the file ends before a count, the constructor succeeds and keeps the strings found. *)
Theorem C16_never_raises :
  forall b cp allow found e,
    usable cp -> 24 <= header_len b -> 24 <= lenN b -> (has_id_list b = true -> header_len b + 2 <= lenN b) ->
    string_walk b string_fields (info_end b) found e true ->
    exists l, snd (lnk_init (FromBytes b) cp allow) = Ok l
      /\ sd_data (l_string_data l) = map (fun f => (fst f, PStr (stored_text (bit_set 7 b) cp (snd f)))) found.
Proof. exact truncated_accepted. Qed.
Print Assumptions C16_never_raises.

(** For every file, whatever it holds. *)
Theorem C16_every_file :
  forall b cp allow l d found e cut,
    usable cp -> snd (lnk_init (FromBytes b) cp allow) = Ok l -> snd (get_json l true) = Ok d ->
    string_walk b string_fields (info_end b) found e cut ->
    dget "data" d = Some (PDict (map (fun f => (fst f, PStr (stored_text (bit_set 7 b) cp (snd f)))) found))
    /\ string_data_end b = e.
Proof. exact strings_of_file. Qed.
Print Assumptions C16_every_file.

(** Two strings announced, the file ends inside the second count. *)
Definition cut_file : bytes := encode_header (plain_header 0x0C) ++ enc16 1 ++ [x41] ++ [x05].
Example C16_example :
  string_walk cut_file string_fields (info_end cut_file) [("description"%string, [x41])] 79 true
  /\ match lnk_init (FromBytes cut_file) CpNone true with
     | (w, Ok l) => w = [WStringData; WExtraData] /\ sd_data (l_string_data l) = [("description"%string, PStr [0x41])]
     | _ => False
     end.
Proof.
  split; [|vm_compute; split; reflexivity].
  change [("description"%string, [x41])] with [("description"%string, slice (76 + 2) (76 + 2 + 1) cut_file)].
  apply string_found; [reflexivity|vm_compute; discriminate|reflexivity|].
  apply string_cut; [reflexivity|vm_compute; reflexivity].
Qed.

(** ** C52. The warnings of the constructor, all of them and in order. *)
Theorem C52_constructor_warnings :
  forall b cp allow,
    usable cp -> constructible b ->
    exists l found (cut : bool) blocks_warnings,
      string_walk b string_fields (info_end b) found (string_data_end b) cut
      /\ walk_warnings (dropN (string_data_end b) b) blocks_warnings
      /\ lnk_init (FromBytes b) cp allow
         = (size_warning_of b ++ size_warning_of b ++ info_warning b
            ++ flat_map (fun f => stored_warning (bit_set 7 b) cp (snd f)) found
            ++ (if cut then [WStringData] else []) ++ blocks_warnings, Ok l).
Proof.
  exact (fun b cp allow Hcp HC =>
    match construct_full b cp allow Hcp HC with
    | ex_intro _ l (ex_intro _ found (ex_intro _ cut (ex_intro _ wx (conj HI (conj HW (conj _ HX)))))) =>
        ex_intro _ l (ex_intro _ found (ex_intro _ cut (ex_intro _ wx (conj HW (conj HX HI)))))
    end).
Qed.
Print Assumptions C52_constructor_warnings.

(** The two relations are functions of the file. *)
Theorem C52_warnings_determined :
  (forall b fs p f1 e1 c1 f2 e2 c2,
     string_walk b fs p f1 e1 c1 -> string_walk b fs p f2 e2 c2 -> f1 = f2 /\ e1 = e2 /\ c1 = c2)
  /\ (forall r w1 w2, walk_warnings r w1 -> walk_warnings r w2 -> w1 = w2).
Proof. exact (conj string_walk_det walk_warnings_det). Qed.
Print Assumptions C52_warnings_determined.

(** The file of C16: the missing string, then the byte that is not enough for the size of a block. *)
Example C52_example :
  constructible cut_file
  /\ size_warning_of cut_file ++ size_warning_of cut_file ++ info_warning cut_file = []
  /\ fst (lnk_init (FromBytes cut_file) CpNone true) = [WStringData; WExtraData].
Proof.
  split; [|split; vm_compute; reflexivity].
  split; [vm_compute; discriminate|]. split; [vm_compute; discriminate|]. split; [intros H; vm_compute in H; discriminate H|].
  intros blocks r H. replace (dropN (string_data_end cut_file) cut_file) with [x05] in H by (vm_compute; reflexivity).
  inversion H as [r0 _|r0 bl r' HL _ _|r0 bl r' HL _ _]; subst; [constructor|..]; exfalso; revert HL; vm_compute; intuition discriminate.
Qed.
