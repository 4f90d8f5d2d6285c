(** * Vocabulary of C66: every outcome of the constructor, and a code page that does not exist *)
From Verif Require Import Lemmas Codec LnkFile Spec SpecText.

(** A page of bytes is needed: the strings are not Unicode and one has text in it. *)
Definition page_needed (b : bytes) (found : list (string * bytes)) : Prop :=
  bit_set 7 b = false /\ exists name field, In (name, field) found /\ before_nul field <> [].

(** The header reaches beyond the LinkFlags, and an announced ID list has its size field. *)
Definition room (b : bytes) : Prop :=
  24 <= header_len b /\ 24 <= lenN b /\ (has_id_list b = true -> header_len b + 2 <= lenN b).

(** [construction b cp said e] - constructing a link from the bytes [b] gives the warnings
    [said] and then a link ([e = None]) or the exception [e]. *)
Inductive construction (b : bytes) (cp : cp_arg) : list warning -> option exn -> Prop :=
| no_data : lenN b = 0 -> construction b cp [] (Some AttributeError)
| no_size : 0 < lenN b < 4 -> construction b cp [] (Some StructError)
| tiny_header : 4 <= lenN b -> header_len b < 4 -> construction b cp (size_warning_of b) (Some StructError)
| no_room : 4 <= lenN b -> 4 <= header_len b -> ~ room b ->
    construction b cp (size_warning_of b ++ size_warning_of b) (Some StructError)
| no_page found e cut : room b -> cp = CpUnknown ->
    string_walk b string_fields (info_end b) found e cut -> page_needed b found ->
    construction b cp (size_warning_of b ++ size_warning_of b ++ info_warning b) (Some LookupError)
| walked found e (cut : bool) said blocks r (failed : option exn) : room b ->
    string_walk b string_fields (info_end b) found e cut -> (cp = CpUnknown -> ~ page_needed b found) ->
    walk_warnings (dropN e b) said -> block_walk (dropN e b) blocks r ->
    (sizes_readable blocks /\ failed = None \/ ~ sizes_readable blocks /\ failed = Some StructError) ->
    construction b cp
      (size_warning_of b ++ size_warning_of b ++ info_warning b
       ++ flat_map (fun f => stored_warning (bit_set 7 b) cp (snd f)) found
       ++ (if cut then [WStringData] else []) ++ said) failed.
