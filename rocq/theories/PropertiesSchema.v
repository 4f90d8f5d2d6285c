(** * C85: the report follows a schema

    The schema is [report_kind] in SpecSchema.v. *)
From Verif Require Import Py Codec Utils Header Targets Info Extra LnkFile Spec SpecText SpecItems SpecExtra SpecReport.
From Verif Require Import SpecHeader PropertiesItems PropertiesWhole SpecSchema SchemaProofs SchemaUseProofs.

(** ** C85. Whatever the file, the report has the keys, in the order, with the values, that the schema allows. *)
Theorem C85_schema :
  forall src cp allow l all d,
    usable cp -> snd (lnk_init src cp allow) = Ok l -> snd (get_json l all) = Ok d ->
    conforms (report_kind allow all) (PDict d).
Proof. exact report_conforms. Qed.
Print Assumptions C85_schema.

(** The language: the keys of a dictionary that follows a record are some of the record's, in its order, with all that
    are always there. *)
Theorem C85_keys :
  forall rows d,
    conforms (Record rows) (PDict d) -> some_of (keys_of rows) (map fst d) /\ incl (sure_keys rows) (map fst d).
Proof. intros rows d H. inversion H; subst. now apply rows_keys. Qed.
Print Assumptions C85_keys.

(** The schema allows no more than it must: for these keys of the header, each value it allows is reported of some file. *)
Theorem C85_header_used :
  forall rows key k v,
    header_kind true = Record rows -> In (Always, [(key, k)]) rows ->
    In key ["r_file_flags"; "file_size"; "icon_index"; "windowstyle"; "r_hotkey"; "file_flags";
            "reserved0"; "reserved1"; "reserved2"]%string ->
    conforms k v ->
    exists b l d,
      snd (lnk_init (FromBytes b) CpNone false) = Ok l /\ snd (get_json l true) = Ok d
      /\ at_path [Key "header"; Key key] (PDict d) = Some v.
Proof. exact header_used. Qed.
Print Assumptions C85_header_used.
Example C85_header_used_example :
  exists rows,
    header_kind true = Record rows
    /\ In (Always, [("icon_index", Number (-2147483648) 2147483648)]%string) rows
    /\ In (Always, [("file_flags", Chosen file_attribute_bits)]%string) rows
    /\ conforms (Number (-2147483648) 2147483648) (PInt (-2147483648))
    /\ conforms (Chosen file_attribute_bits) (PList (map PS ["FILE_ATTRIBUTE_HIDDEN"; "FILE_ATTRIBUTE_ARCHIVE"]%string)).
Proof.
  eexists. split; [reflexivity|]. split; [cbn; tauto|]. split; [cbn; tauto|]. split; [apply is_number; split; [discriminate|reflexivity]|].
  apply is_chosen. apply some_without, some_with, some_without, some_without, some_without, some_with.
  repeat apply some_without. apply some_none.
Qed.

(** The language: nothing conforms that misses a key, has another one or has them in another order, and no number does
    outside its range. *)
Example C85_language :
  let k := Record [always "a" byte_; sometimes "b" any; together "c" offset "d" any] in
  let a := ("a", PN 255)%string in let b := ("b", PS "x")%string in let c := ("c", PN 7)%string in let d := ("d", PS "y")%string in
  conforms k (PDict [a]) /\ conforms k (PDict [a; b]) /\ conforms k (PDict [a; b; c; d]) /\ conforms k (PDict [a; c; d])
  /\ ~ conforms k (PDict []) /\ ~ conforms k (PDict [b]) /\ ~ conforms k (PDict [b; a]) /\ ~ conforms k (PDict [a; c])
  /\ ~ conforms k (PDict [a; b; ("e", PS "x")%string]) /\ ~ conforms k (PDict [("a", PN 256)%string]) /\ ~ conforms k (PDict [("a", PNone)%string]).
Proof.
  cbv zeta.
  assert (A : conforms byte_ (PN 255)) by (apply is_number; vm_compute; split; [discriminate|reflexivity]).
  assert (C : conforms offset (PN 7)) by (apply is_number; vm_compute; split; [discriminate|reflexivity]).
  assert (T : forall s, conforms any (PS s)) by (intros s; now apply is_text).
  split; [apply is_record, r_always; [exact A|]; do 2 (apply row_not_there; [discriminate|]); apply rows_end|].
  split; [apply is_record, r_always; [exact A|]; apply (row_there Sometimes _ _ [_] []); [discriminate|now apply row1|];
          apply row_not_there; [discriminate|]; apply rows_end|].
  split; [apply is_record, r_always; [exact A|]; apply (row_there Sometimes _ _ [_] [_; _]); [discriminate|now apply row1|];
          apply (row_there Sometimes _ _ [_; _] []); [discriminate|now apply row2|]; apply rows_end|].
  split; [apply is_record, r_always; [exact A|]; apply row_not_there; [discriminate|];
          apply (row_there Sometimes _ _ [_; _] []); [discriminate|now apply row2|]; apply rows_end|].
  repeat match goal with |- _ /\ _ => split end; intros H.
  all: inversion H as [| | | | | | | |? ? HR|]; subst; clear H.
  all: repeat match goal with
       | H : rows_conform (_ :: _) _ |- _ => inversion H; subst; clear H
       | H : rows_conform [] _ |- _ => inversion H; subst; clear H
       | H : row_conforms _ _ |- _ => inversion H; subst; clear H
       | H : ?p <> ?p |- _ => now destruct H
       | H : _ ++ _ = _ |- _ => progress cbn [app] in H
       | H : _ :: _ = _ |- _ => first [discriminate H|injection H; clear H; intros; subst]
       | H : [] = _ :: _ |- _ => discriminate H
       end.
  all: try (match goal with H : conforms byte_ _ |- _ => inversion H; subst; vm_compute in *; intuition discriminate end).
Qed.

(** A file with all sections: the report in both forms. *)
Example C85_example :
  exists l d short,
    snd (lnk_init (FromBytes odd_file) CpNone true) = Ok l
    /\ snd (get_json l true) = Ok d /\ snd (get_json l false) = Ok short
    /\ conforms (report_kind true true) (PDict d) /\ conforms (report_kind true false) (PDict short)
    /\ map fst d = keys_of [always "size" Count; always "header" Null; always "target" Null; always "link_info" Null;
                            always "data" Null; always "extra" Null]%string
    /\ at_path [Key "link_info"; Key "link_info_size"] (PDict d) <> None
    /\ at_path [Key "link_info"; Key "link_info_size"] (PDict short) = None.
Proof.
  destruct (snd (lnk_init (FromBytes odd_file) CpNone true)) as [l|e] eqn:EL; [|vm_compute in EL; discriminate EL].
  exists l. pose proof EL as EL'. vm_compute in EL'. injection EL' as EL'.
  destruct (snd (get_json l true)) as [d|e] eqn:ED; [|rewrite <- EL' in ED; vm_compute in ED; discriminate ED].
  destruct (snd (get_json l false)) as [short|e] eqn:ES; [|rewrite <- EL' in ES; vm_compute in ES; discriminate ES].
  exists d, short. split; [reflexivity|]. split; [reflexivity|]. split; [reflexivity|].
  assert (U : usable CpNone) by discriminate.
  split; [exact (C85_schema (FromBytes odd_file) CpNone true l true d U EL ED)|].
  split; [exact (C85_schema (FromBytes odd_file) CpNone true l false short U EL ES)|].
  clear U.
  rewrite <- EL' in ED, ES. vm_compute in ED. injection ED as <-. vm_compute in ES. injection ES as <-.
  split; [vm_compute; reflexivity|].
  split; [vm_compute; discriminate|].
  vm_compute; reflexivity.
Qed.

(** Each kind of item and of block occurs: a file with all of them. *)
Definition zeros (n : nat) : bytes := repeat x00 n.
Definition bodies_of_all_kinds : list bytes :=
  [n2b 0x1F :: x50 :: zeros 16; n2b 0x2F :: zeros 20; n2b 0x2E :: zeros 17; n2b 0x32 :: zeros 12;
   n2b 0x41 :: zeros 2 ++ [x61; x00]; zeros 30; x01 :: zeros 9; [n2b 0x52]; [n2b 0x61]; n2b 0x71 :: zeros 29;
   [n2b 0x72]; [n2b 0x73]; n2b 0x74 :: x00 :: enc16 22 ++ zeros 4 ++ enc16 12 ++ zeros 48; [n2b 0x99]].
Definition items_of_all_kinds : bytes := flat_map (fun b => enc16 (2 + lenN b) ++ b) bodies_of_all_kinds ++ enc16 0.
Definition a_block (signature : N) (body : bytes) : bytes := enc32 (8 + lenN body) ++ enc32 signature ++ body.
Definition blocks_of_all_kinds : bytes :=
  a_block 0xA0000001 (zeros 780) ++ a_block 0xA0000002 (zeros 196) ++ a_block 0xA0000003 (zeros 88)
  ++ a_block 0xA0000004 (zeros 4) ++ a_block 0xA0000005 (zeros 8) ++ descriptor ++ a_block 0xA0000007 (zeros 780)
  ++ a_block 0xA0000008 (zeros 8)
  ++ a_block 0xA0000009 (enc32 41 ++ enc32 0x53505331 ++ zeros 16 ++ enc32 13 ++ enc32 2 ++ [x00] ++ enc16 0x0B ++ enc16 0 ++ enc32 0 ++ enc32 0)
  ++ a_block 0xA000000B (zeros 20) ++ a_block 0xA000000C items_of_all_kinds ++ a_block 7 [x01] ++ a_block 8 [x02].
Definition file_of_all_kinds : bytes :=
  encode_header (plain_header 0x01) ++ enc16 (lenN items_of_all_kinds) ++ items_of_all_kinds ++ blocks_of_all_kinds ++ enc32 0 ++ [x01].
Definition classes_in (v : option pyval) : list pyval :=
  match v with
  | Some (PList l) => flat_map (fun i => match i with PDict d => match dget "class" d with Some c => [c] | None => [] end | _ => [] end) l
  | _ => []
  end.
Definition all_classes : list pyval :=
  map PS ["Root Folder"; "Volume Item"; "Volume Item"; "File entry"; "Network location"; "Control panel CPL file";
          "Control panel category"; "Compressed folder"; "Internet"; "Control panel"; "Printers"; "Common places folder";
          "Users files folder"; "Unknown"]%string.
Example C85_all_kinds :
  match snd (l <- lnk_init (FromBytes file_of_all_kinds) CpNone true ;; get_json l false) with
  | Ok d =>
    conforms (report_kind true false) (PDict d)
    /\ classes_in (at_path [Key "target"; Key "items"] (PDict d)) = all_classes
    /\ classes_in (at_path [Key "extra"; Key "SHELL_ITEM_IDENTIFIER_BLOCK"; Key "id_list"] (PDict d)) = all_classes
    /\ option_map (map fst) (reported_extra d)
       = Some ["ENVIRONMENTAL_VARIABLES_LOCATION_BLOCK"; "CONSOLE_PROPERTIES_BLOCK"; "DISTRIBUTED_LINK_TRACKER_BLOCK";
               "CONSOLE_CODEPAGE_BLOCK"; "SPECIAL_FOLDER_LOCATION_BLOCK"; "DARWIN_BLOCK"; "ICON_LOCATION_BLOCK";
               "SHIM_LAYER_BLOCK"; "METADATA_PROPERTIES_BLOCK"; "KNOWN_FOLDER_LOCATION_BLOCK";
               "SHELL_ITEM_IDENTIFIER_BLOCK"; "UNKNOWN_BLOCK"; "TERMINAL_BLOCK"]%string
  | Err _ => False
  end.
Proof.
  destruct (snd (lnk_init (FromBytes file_of_all_kinds) CpNone true)) as [l|e] eqn:EL; [|vm_compute in EL; discriminate EL].
  destruct (lnk_init (FromBytes file_of_all_kinds) CpNone true) as [w r] eqn:EI. cbn [snd] in EL. subst r. cbn [bind].
  destruct (get_json l false) as [w' [d|e]] eqn:EJ.
  - cbn [snd]. assert (U : usable CpNone) by discriminate. split.
    + apply (C85_schema (FromBytes file_of_all_kinds) CpNone true l false d U); [now rewrite EI|now rewrite EJ].
    + clear U. vm_compute in EI. injection EI as _ <-. vm_compute in EJ. injection EJ as _ <-.
      split; [vm_compute; reflexivity|]. split; vm_compute; reflexivity.
  - vm_compute in EI. injection EI as _ <-. vm_compute in EJ. discriminate EJ.
Qed.
