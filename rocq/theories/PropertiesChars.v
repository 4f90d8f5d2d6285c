(** * Properties C12 and C13, character by character

    SpecChars.v has the table of Windows-1252 and the rules for malformed UTF-16. *)
From Verif Require Import Lemmas Codec Spec SpecText SpecChars CharsProofs.

(** ** C12. Without a code page, each byte of a field is the character that Windows-1252 assigns to it. A field with an
    unassigned byte is read as UTF-8 if it is UTF-8; otherwise each unassigned byte becomes U+FFFD, with a warning. *)
Theorem C12_default_page :
  forall field body,
    ~ In x00 body -> body <> [] -> (field = body \/ exists rest, field = body ++ x00 :: rest) ->
    (forall t, Forall2 stands_for body t -> read_string CpNone field = ret t)
    /\ (forall t, Exists unassigned body -> Forall scalar t -> body = utf8 t -> read_string CpNone field = ret t)
    /\ (forall t, Exists unassigned body -> (forall u, Forall scalar u -> body <> utf8 u) ->
        Forall2 (fun x c => stands_for x c \/ unassigned x /\ c = 0xFFFD) body t ->
        read_string CpNone field = ([WDecode t], Ok t)).
Proof. exact default_page. Qed.
Print Assumptions C12_default_page.
(** Every byte stands for a character or is unassigned, and not both. *)
Theorem C12_page_complete : forall x, unassigned x \/ exists c, stands_for x c.
Proof. exact page_defined. Qed.
Print Assumptions C12_page_complete.
Theorem C12_page_exclusive : forall x c, unassigned x -> ~ stands_for x c.
Proof. exact page_never_both. Qed.
Print Assumptions C12_page_exclusive.

(** A price in euros; a byte that stands for nothing. *)
Example C12_example_euro :
  Forall2 stands_for [x35; x20; x80] [53; 32; 8364]
  /\ read_string CpNone [x35; x20; x80; x00; x41] = ret [53; 32; 8364]
  /\ Exists unassigned [x41; x81]
  /\ read_string CpNone [x41; x81] = ([WDecode [65; 0xFFFD]], Ok [65; 0xFFFD]).
Proof.
  split; [|split; [vm_compute; reflexivity|split; [|vm_compute; reflexivity]]].
  - constructor; [left; vm_compute; auto|]. constructor; [left; vm_compute; auto|]. constructor; [right; vm_compute; tauto|]. constructor.
  - right. left. vm_compute. tauto.
Qed.
(** An unassigned byte inside UTF-8. *)
Example C12_example_utf8 :
  Exists unassigned [n2b 0xC3; n2b 0x81] /\ [n2b 0xC3; n2b 0x81] = utf8 [193] /\ read_string CpNone [n2b 0xC3; n2b 0x81] = ret [193].
Proof. split; [right; left; vm_compute; tauto|]. split; vm_compute; reflexivity. Qed.

(** ** C13. The text of every Unicode field, well formed or not. *)
Theorem C13_malformed :
  forall field t, snd (read_unicode_string field) = Ok t <-> wide_chars (before_nul_unit field) t.
Proof. exact wide_field. Qed.
Print Assumptions C13_malformed.

(** A second half alone, a first half before a letter, a pair, and a first half with an odd byte at the end. *)
Example C13_example_malformed :
  wide_chars (enc16 0xDC00 ++ enc16 0xD800 ++ enc16 65 ++ (enc16 0xD83D ++ enc16 0xDE00) ++ enc16 0xD801 ++ [x42])
    [0xFFFD; 0xFFFD; 65; 0x1F600; 0xFFFD].
Proof.
  apply wide_second; [unfold second_half; lia|]. apply wide_first; [unfold first_half; lia|vm_compute; discriminate| |].
  { unfold second_half. intros [H _]. vm_compute in H. now apply H. }
  apply (wide_char 65); [left; lia|]. apply (wide_char 0x1F600); [right; lia|]. apply (wide_cut 0xD801); [unfold first_half; lia|reflexivity].
Qed.
Example C13_example_malformed_read :
  read_unicode_string (enc16 0xDC00 ++ enc16 0xD800 ++ enc16 65 ++ (enc16 0xD83D ++ enc16 0xDE00) ++ enc16 0xD801 ++ [x42])
  = ([WDecode [0xFFFD; 0xFFFD; 65; 0x1F600; 0xFFFD]], Ok [0xFFFD; 0xFFFD; 65; 0x1F600; 0xFFFD]).
Proof. vm_compute. reflexivity. Qed.
