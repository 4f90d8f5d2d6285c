(** * Whole links (C19, C46, C51)

    An abstract shell link is a header, the sections it announces and the extra blocks; the
    pieces are those of the other Spec files. *)
From Verif Require Import Py Codec Sha256 Spec SpecText SpecTime SpecHeader SpecItems SpecExtra SpecInfo.
From Verif Require Import LnkFile.

Inductive texts :=
| Unicode (l : list (option text))
| CodePage (l : list (option bytes)).

Record link := Link {
  k_header : shell_header;
  k_created : option datetime; k_accessed : option datetime; k_modified : option datetime;
  k_items : option (list item);
  k_info : option (link_info * location * bytes);     (* with the bytes of the section *)
  k_texts : texts;                                    (* in the order of [string_fields] *)
  k_blocks : list block }.

(** ** Encoding *)
Definition encode_texts (t : texts) : bytes :=
  match t with
  | Unicode l => encode_strings (map (option_map unicode_string) l)
  | CodePage l => encode_strings (map (option_map page_string) l)
  end.
Definition id_list_bytes (k : link) : bytes :=
  match k_items k with Some its => encode_id_list (map item_body its) | None => [] end.
Definition info_bytes (k : link) : bytes := match k_info k with Some (_, _, section) => section | None => [] end.
Definition encode_link (k : link) : bytes :=
  encode_header (k_header k) ++ id_list_bytes k ++ info_bytes k ++ encode_texts (k_texts k)
  ++ encode_blocks (map as_block (k_blocks k)) ++ enc32 0.

(** ** Well-formed links *)

(** A FILETIME that stands for a time that can be reported exactly (C08), or for none. *)
Definition stands_for (z : Z) (o : option datetime) : Prop :=
  match o with
  | None => z = 0%Z
  | Some t => z = filetime_of t /\ valid_datetime t /\ filetime_of t <> 0%Z
              /\ (dt_us t = 0%Z \/ (Z.abs (since_1970 (filetime_of t)) < 2 ^ 32 * 10000000)%Z)
  end.

(** The flags announce what is there. *)
Definition announces {A} (flags : N) (l : list (option A)) : Prop :=
  Forall2 (fun (f : N * string * bool) o => N.testbit flags (fst (fst f)) = is_some o) string_fields l.
Definition wf_texts (flags : N) (t : texts) : Prop :=
  match t with
  | Unicode l => N.testbit flags 7 = true /\ announces flags l /\ fields_fit unicode_fits l
  | CodePage l => N.testbit flags 7 = false /\ announces flags l /\ fields_fit page_fits l
  end.

Definition wf_link (k : link) : Prop :=
  let h := k_header k in
  wf_header h /\ h_size h = 76
  /\ stands_for (h_ctime h) (k_created k) /\ stands_for (h_atime h) (k_accessed k) /\ stands_for (h_wtime h) (k_modified k)
  /\ N.testbit (h_flags h) 0 = is_some (k_items k)
  /\ (forall its, k_items k = Some its ->
        Forall wf_item its /\ Forall (fun it => item_fits (item_body it)) its
        /\ lenN (encode_items (map item_body its)) < 65536)
  /\ N.testbit (h_flags h) 1 = is_some (k_info k)
  /\ (forall i loc section, k_info k = Some (i, loc, section) ->
        N.testbit (h_flags h) 8 = false /\ located section i loc /\ lenN section = i_size i)
  /\ wf_texts (h_flags h) (k_texts k)
  /\ Forall wf_block (k_blocks k).

(** ** The expected report *)
Definition texts_report (cp : cp_arg) (t : texts) : dict :=
  match t with
  | Unicode l => map (fun f => (fst f, PStr (snd f))) (keyed string_fields l)
  | CodePage l => map (fun f => (fst f, PStr (field_text cp (snd f)))) (keyed string_fields l)
  end.
(** The link from its LinkInfo section on. The code reads the Unicode suffix four bytes too far
    (C39): if it is that short, what is reported as the suffix comes from behind the section. *)
Definition from_info (k : link) : bytes :=
  info_bytes k ++ encode_texts (k_texts k) ++ encode_blocks (map as_block (k_blocks k)) ++ enc32 0.
Definition long_suffix (i : link_info) : Prop :=
  match i_wide i with Some (_, Some (_, body)) => 4 <= lenN body | _ => True end.
(** What follows the terminal block, if it is to be reported. *)
Definition appended (allow : bool) (rest : bytes) : list (string * dict) :=
  if allow && nonempty rest
  then [("TERMINAL_BLOCK", [("size", PN (4 + lenN rest)); ("appended_data_sha256", PStr (sha256_hex rest))])]%string
  else [].
Definition total_size (k : link) (allow : bool) (rest : bytes) : N :=
  lenN (encode_link k) + (if allow then lenN rest else 0).
Definition link_report (cp : cp_arg) (allow : bool) (k : link) (rest : bytes) : dict :=
  [("size", PN (total_size k allow rest));
   ("header", PDict (header_report (k_header k) (k_created k) (k_accessed k) (k_modified k)))]
  ++ match k_items k with
     | Some its =>
       [("target", PDict [("size", PN (lenN (encode_items (map item_body its))));
                          ("items", PList (map (fun it => PDict (item_report cp it)) its));
                          ("index", PN 78)])]
     | None => []
     end
  ++ [("link_info", PDict (match k_info k with Some (i, loc, _) => location_report cp (from_info k) i loc | None => [] end));
      ("data", PDict (texts_report cp (k_texts k)));
      ("extra", PDict (collect (map (fun x => (block_name (block_signature x), block_report cp x)) (k_blocks k)
                                ++ appended allow rest)))]%string.

(** ** Warnings

    Those of the constructor are about the texts, those of the report about the rest. *)
Definition texts_warnings (cp : cp_arg) (t : texts) : list warning :=
  match t with
  | Unicode l => []
  | CodePage l => flat_map (fun f => field_warning cp (snd f)) (keyed string_fields l)
  end.
Definition slot_warning (unicode : bool) (cp : cp_arg) (s : slot) : list warning :=
  match s with Some (_, body) => stored_warning unicode cp body | None => [] end.
Definition suffix_warning (raw : bytes) (s : slot) : list warning :=
  match s with Some (off, _) => wide_warning (dropN (off + 4) raw) | None => [] end.
Definition location_warnings (cp : cp_arg) (raw : bytes) (i : link_info) (loc : location) : list warning :=
  slot_warning false cp (i_base i) ++ slot_warning false cp (i_suffix i)
  ++ match i_wide i with Some (b, s) => slot_warning true cp b ++ suffix_warning raw s | None => [] end
  ++ match loc with
     | LocalAt v =>
       match v_label v with PageLabel _ body => field_warning cp body | WideLabel s => slot_warning true cp s end
     | NetworkAt n =>
       match n_names n with
       | PageNames _ name _ device => name_warnings cp name ++ name_warnings cp device
       | WideNames _ _ wn wd => slot_warning true cp wn ++ slot_warning true cp wd
       end
     end.
Definition report_warnings (cp : cp_arg) (k : link) : list warning :=
  clsid_warning (k_header k) ++ reserved_warnings (k_header k)
  ++ match k_items k with Some its => flat_map (item_warnings cp) its | None => [] end
  ++ match k_info k with Some (i, loc, _) => location_warnings cp (from_info k) i loc | None => [] end
  ++ flat_map (block_warnings cp) (k_blocks k).

(** ** Conforming links: the prescribed values, known types, and strings that can be decoded *)

Definition page_readable (cp : cp_arg) (field : bytes) : Prop :=
  before_nul field = [] \/ strict (page_of cp) (before_nul field) <> None
  \/ exists t, Forall scalar t /\ before_nul field = utf8 t.
Definition wide_readable (field : bytes) : Prop :=
  exists t, Forall scalar t /\ no_nul t /\ (field = utf16 t \/ exists rest, field = utf16 t ++ x00 :: x00 :: rest).
Definition readable (unicode : bool) (cp : cp_arg) (field : bytes) : Prop :=
  if unicode then wide_readable field else page_readable cp field.
Definition if_some {A} (P : A -> Prop) (o : option A) : Prop := match o with Some a => P a | None => True end.
Definition slot_readable (unicode : bool) (cp : cp_arg) (s : slot) : Prop := if_some (fun p => readable unicode cp (snd p)) s.

Definition conforming_entry (cp : cp_arg) (e : file_entry) : Prop :=
  fe_type e mod 8 <> 0 /\ readable (fe_unicode e) cp (fe_name e).
Definition conforming_item (cp : cp_arg) (it : item) : Prop :=
  match it with
  | IRoot ty sort guid rest => sort_name sort <> None
  | IVolume ty name rest => page_readable cp name
  | IVolumeId _ _ _ _ | IControlPanel _ _ _ _ => True
  | IFile e | IUsersFiles _ _ e _ _ _ _ => conforming_entry cp e
  | INetwork ty unknown content location description comments rest =>
      ty mod 8 <> 0 /\ page_readable cp location /\ if_some (page_readable cp) description /\ if_some (page_readable cp) comments
  | ICategory unknown signature id rest => id < 12
  | ICplPage unknown signature path name comments rest =>
      page_readable cp path /\ page_readable cp name /\ if_some (page_readable cp) comments
  | ICplUnicode unknown signature gap1 gap2 path name comments rest =>
      wide_readable path /\ wide_readable name /\ if_some wide_readable comments
  | IOther ty rest => documented_class ty <> None
  end.
Definition conforming_prop (p : property) : Prop :=
  match p with PropName name _ _ => wide_readable name | PropId _ _ _ => True end
  /\ match prop_value p with VString body _ => wide_readable body | VOther _ _ _ _ => True end.
Definition conforming_block (cp : cp_arg) (b : block) : Prop :=
  match b with
  | BEnvironment ansi wide slack | BIcon ansi wide slack => page_readable cp ansi /\ wide_readable wide
  | BConsole c slack => wide_readable (c_face c)
  | BTracker t slack => t_length t = 88 /\ t_version t = 0 /\ page_readable cp (t_machine t)
  | BDarwin ansi d wide slack => page_readable cp ansi
  | BShim data => page_readable cp data                   (* see C26 *)
  | BPropertyStore stores slack => Forall (fun s => Forall conforming_prop (s_props s)) stores
  | BShellItem items slack => Forall (conforming_item cp) items
  | _ => True
  end.
Definition conforming_info (cp : cp_arg) (suffix_ok : slot -> Prop) (i : link_info) (loc : location) : Prop :=
  slot_readable false cp (i_base i) /\ slot_readable false cp (i_suffix i)
  /\ if_some (fun p => slot_readable true cp (fst p) /\ suffix_ok (snd p)) (i_wide i)
  /\ match loc with
     | LocalAt v => match v_label v with PageLabel _ body => page_readable cp body | WideLabel s => slot_readable true cp s end
     | NetworkAt n =>
       match n_names n with
       | PageNames _ name _ device => page_readable cp name /\ page_readable cp device
       | WideNames _ _ wn wd => slot_readable true cp wn /\ slot_readable true cp wd
       end
     end.
Definition conforming_with (suffix_ok : slot -> Prop) (cp : cp_arg) (k : link) : Prop :=
  let h := k_header k in
  h_clsid h = link_clsid /\ h_res1 h = 0 /\ h_res2 h = 0 /\ h_res3 h = 0
  /\ if_some (Forall (conforming_item cp)) (k_items k)
  /\ if_some (fun x => conforming_info cp suffix_ok (fst (fst x)) (snd (fst x))) (k_info k)
  /\ match k_texts k with Unicode _ => True | CodePage l => Forall (if_some (page_readable cp)) l end
  /\ Forall (conforming_block cp) (k_blocks k).
(** By the specification the Unicode suffix is what is stored at its offset; the code reads it
    four bytes further on (C39). *)
Definition conforming (cp : cp_arg) : link -> Prop := conforming_with (slot_readable true cp) cp.
Definition conforming_as_read (cp : cp_arg) (k : link) : Prop :=
  conforming_with (if_some (fun p => wide_readable (dropN (fst p + 4) (from_info k)))) cp k.
(** Suffixes for which that makes no difference: none, or two characters and more, the first two
    of them of one unit each. *)
Definition plain_suffix (s : slot) : Prop :=
  if_some (fun p => exists c1 c2 t, Forall scalar (c1 :: c2 :: t) /\ no_nul (c1 :: c2 :: t) /\ c1 < 0x10000 /\ c2 < 0x10000
                                    /\ snd p = utf16 (c1 :: c2 :: t)) s.

(** ** Links in a row (C19)

    A client that reads [n] links one after the other, each behind [gap] bytes of something
    else, as the test of the project does with a jump list: it parses with
    [allow_terminal_blocks=False] and goes on behind the reported size. *)
Fixpoint read_links (n : nat) (gap : N) (cp : cp_arg) (b : bytes) : M (list dict * bytes) :=
  match n with
  | O => ret ([], b)
  | S n => l <- lnk_init (FromBytes (dropN gap b)) cp false ;;
           d <- get_json l true ;;
           r <- read_links n gap cp (dropN (l_size l) (dropN gap b)) ;;
           ret (d :: fst r, snd r)
  end.
