(** * Specification of a whole report (C63) *)
From Verif Require Import Py Codec Sha256 Spec SpecText SpecHeader SpecTime SpecDouble SpecItems SpecInfo SpecExtra SpecOutcome SpecEntries SpecBlocks.

(** [whole_report b cp allow d w]: [d] is a complete report of the file [b] and [w] are the warnings given while it is
    made, in order. *)
Inductive whole_report (b : bytes) (cp : cp_arg) (allow : bool) : dict -> list warning -> Prop :=
| whole h rest created accessed written
        items items_said found data_end cut blocks tail entries blocks_said info_raw network terminal sections :
    (* the header *)
    wf_header h -> b = encode_header h ++ rest ->
    time_read (h_ctime h) created -> time_read (h_atime h) accessed -> time_read (h_wtime h) written ->
    (* the ID list *)
    (if has_id_list b then entries_listed cp (id_list b) items items_said else items = [] /\ items_said = []) ->
    (* the link info *)
    info_raw = dropN (id_list_end b) b -> network = negb (N.testbit (num 4 8 info_raw) 0) ->
    (* the strings and the blocks *)
    string_walk b string_fields (info_end b) found data_end cut ->
    block_walk (dropN data_end b) blocks tail ->
    blocks_read cp blocks entries blocks_said ->
    (* the size *)
    terminal = (if allow && (4 <? lenN tail) && (num 4 0 tail =? 0) then lenN tail else 0) ->
    sections = data_end + sumN (map declared blocks) + terminal ->
    whole_report b cp allow
      ([("size", PN (sections + N.min 4 (lenN b - sections)));
        ("header", PDict (header_report h created accessed written))]%string
       ++ (if has_id_list b
           then [("target", PDict [("size", PN (num 2 (h_size h) b)); ("items", PList (map PDict items));
                                   ("index", PN (h_size h + 2))])]%string
           else [])
       ++ [("link_info", PDict (if info_processed b then info_entries cp network info_raw else []));
           ("data", PDict (map (fun f => (fst f, PStr (stored_text (bit_set 7 b) cp (snd f)))) found));
           ("extra", PDict (collect (entries ++ behind_blocks allow tail)%list))]%string)
      (clsid_warning h
       ++ time_said (h_ctime h) created ++ time_said (h_atime h) accessed ++ time_said (h_wtime h) written
       ++ size_warning h ++ reserved_warnings h
       ++ items_said
       ++ (if info_processed b then info_warnings cp network info_raw else [])
       ++ blocks_said).
