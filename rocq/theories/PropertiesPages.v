(** * Property C47: what the code page influences

    The positions of the code-page strings ([page_string]) and the comparison of two reports
    ([same_but_pages]) are in SpecPages.v. *)
From Verif Require Import Lemmas Codec Utils Header StringData Targets Info Extra LnkFile.
From Verif Require Import Spec SpecText SpecReport SpecPages PagesProofs PropertiesInfo.

(** ** C47. Two runs on the same bytes with different code pages: the same error or the same
    size; the same error or reports that differ only in the code-page strings, which are two
    readings of the same bytes. Whatever has no such string below it is the same, and so is
    StringData when IsUnicode is set. *)
Theorem C47_pages :
  forall b cp1 cp2 allow,
    usable cp1 -> usable cp2 -> visible cp1 -> visible cp2 ->
    match snd (lnk_init (FromBytes b) cp1 allow), snd (lnk_init (FromBytes b) cp2 allow) with
    | Err e1, Err e2 => e1 = e2
    | Ok l1, Ok l2 =>
      l_size l1 = l_size l2
      /\ forall all,
           match snd (get_json l1 all), snd (get_json l2 all) with
           | Err e1, Err e2 => e1 = e2
           | Ok d1, Ok d2 =>
             same_but_pages cp1 cp2 d1 d2
             /\ (forall p, (forall q, page_string (p ++ q) = false) -> at_path p (PDict d1) = at_path p (PDict d2))
             /\ (bit_set 7 b = true -> dget "data" d1 = dget "data" d2)
           | _, _ => False
           end
    | _, _ => False
    end.
Proof. exact pages_only. Qed.
Print Assumptions C47_pages.

(** The default code page and every single-byte code page qualify. *)
Theorem C47_default : visible CpNone.
Proof. exact default_visible. Qed.
Print Assumptions C47_default.
Theorem C47_single_byte : forall f, visible (CpCodec (event_codec (map f))).
Proof. exact single_byte_visible. Qed.
Print Assumptions C47_single_byte.

(** The header, the size and a known folder block have no code-page string below. *)
Example C47_quiet :
  (forall q, page_string (Key "header" :: q) = false) /\ (forall q, page_string (Key "size" :: q) = false)
  /\ (forall q, page_string (Key "extra" :: Key "KNOWN_FOLDER_LOCATION_BLOCK" :: q) = false).
Proof.
  split; [|split]; intros q; do 4 (try reflexivity; destruct q as [|[?|?] q]); reflexivity.
Qed.

(** A share whose name has a byte of the upper half: the two reports differ there and only there. *)
Definition latin1 : cp_arg := CpCodec (event_codec (map (fun x => Some (b2n x)))).
Definition euro_file : bytes := map (fun x => if Byte.eqb x x5c then x80 else x) page_file.
Definition net_name_in (cp : cp_arg) : option pyval :=
  match snd (l <- lnk_init (FromBytes euro_file) cp true ;; get_json l false) with
  | Ok d => at_path [Key "link_info"; Key "location_info"; Key "net_name"] (PDict d)
  | Err _ => None
  end.
Example C47_example :
  usable CpNone /\ usable latin1 /\ visible CpNone /\ visible latin1
  /\ net_name_in CpNone = Some (PStr ([0x20AC; 0x20AC] ++ s2t "h" ++ [0x20AC] ++ s2t "s"))
  /\ net_name_in latin1 = Some (PStr ([0x80; 0x80] ++ s2t "h" ++ [0x80] ++ s2t "s")).
Proof.
  split; [discriminate|]. split; [discriminate|]. split; [exact default_visible|].
  split; [exact (single_byte_visible _)|]. split; vm_compute; reflexivity.
Qed.

(** With a code page that decodes something to nothing (as Python's utf-16 does with a byte order
    mark alone) the keys may differ: an empty share name is not reported. *)
Definition deaf : cp_arg := CpCodec (Codec (fun _ => Some []) (fun _ => [])).
Theorem C47_any_page_refuted :
  exists b cp1 cp2 l1 l2 d1 d2,
    usable cp1 /\ usable cp2 /\ visible cp1
    /\ snd (lnk_init (FromBytes b) cp1 true) = Ok l1 /\ snd (lnk_init (FromBytes b) cp2 true) = Ok l2
    /\ snd (get_json l1 true) = Ok d1 /\ snd (get_json l2 true) = Ok d2
    /\ at_path [Key "link_info"; Key "location_info"; Key "net_name"] (PDict d1) = Some (PS "\\h\s")
    /\ at_path [Key "link_info"; Key "location_info"; Key "net_name"] (PDict d2) = None.
Proof.
  exists page_file, CpNone, deaf.
  destruct (snd (lnk_init (FromBytes page_file) CpNone true)) as [l1|] eqn:E1; [|vm_compute in E1; discriminate].
  destruct (snd (lnk_init (FromBytes page_file) deaf true)) as [l2|] eqn:E2; [|vm_compute in E2; discriminate].
  exists l1, l2. vm_compute in E1, E2. injection E1 as <-. injection E2 as <-.
  eexists. eexists. split; [discriminate|]. split; [discriminate|]. split; [exact default_visible|].
  split; [reflexivity|]. split; [reflexivity|]. split; [vm_compute; reflexivity|]. split; [vm_compute; reflexivity|].
  split; vm_compute; reflexivity.
Qed.
Print Assumptions C47_any_page_refuted.
