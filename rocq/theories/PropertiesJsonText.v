(** * Property C68: the JSON text to the last character

    Which characters are escaped and how, where lines break, how far they are indented, in which order members come.
    The vocabulary is in SpecJsonText.v. *)
From Verif Require Import Lemmas Codec Utils Header StringData Targets Info Extra LnkFile Json Report.
From Verif Require Import Spec SpecHeader SpecText SpecReport SpecJsonText.
From Verif Require Import PropertiesReport.
From Verif Require Import JsonProofs MainProofs JsonTextProofs.

(** What print_json prints. *)
Theorem C68_report :
  forall src cp allow l all d t,
    python_page (page_of cp) -> snd (lnk_init src cp allow) = Ok l -> snd (get_json l all) = Ok d ->
    printed (PDict d) t <-> print_json_text d = t.
Proof. exact printed_report. Qed.
Print Assumptions C68_report.

(** Of any value a report may hold. *)
Theorem C68_value :
  forall K d t, well_formed (Forall code_point) K (PDict d) -> printed (PDict d) t <-> print_json_text d = t.
Proof. exact printed_text. Qed.
Print Assumptions C68_value.

(** Two reports have the same text exactly if they hold the same, up to the order of the entries. *)
Theorem C68_same_text :
  forall src1 cp1 allow1 l1 all1 d1 src2 cp2 allow2 l2 all2 d2,
    text_page (page_of cp1) -> snd (lnk_init src1 cp1 allow1) = Ok l1 -> snd (get_json l1 all1) = Ok d1 ->
    text_page (page_of cp2) -> snd (lnk_init src2 cp2 allow2) = Ok l2 -> snd (get_json l2 all2) = Ok d2 ->
    print_json_text d1 = print_json_text d2 <-> exists j, denotes j (PDict d1) /\ denotes j (PDict d2).
Proof. exact same_reports. Qed.
Print Assumptions C68_same_text.

(** What the command line prints with -j, and with -t -j. *)
Theorem C68_command_line :
  forall content cp all l d t,
    python_page (page_of cp) -> snd (lnk_init (FromHandle content) cp true) = Ok l -> snd (get_json l all) = Ok d ->
    snd (main content (Args false true cp all)) = Ok (OutJson t) <-> printed (PDict d) t.
Proof. exact main_json_text. Qed.
Print Assumptions C68_command_line.

Theorem C68_target :
  forall content cp all l c t,
    python_page (page_of cp) -> snd (lnk_init (FromHandle content) cp true) = Ok l -> snd (lnk_command l) = Ok c ->
    snd (main content (Args true true cp all)) = Ok (OutCommandJson t)
    <-> exists q, quoted c q /\ t = s2t "{""shortcut_target"": " ++ q ++ s2t "}".
Proof. exact main_command_text. Qed.
Print Assumptions C68_target.

(** The abridged report of a file with an ID list of one drive and a description. *)
Example C68_example :
  match snd (l <- lnk_init (FromBytes drive_and_string) CpNone true ;; get_json l false) with
  | Ok d => printed (PDict d) (s2t
"{
    ""data"": {
        ""description"": ""h\ud83d\ude00""
    },
    ""extra"": {},
    ""header"": {
        ""accessed_time"": null,
        ""creation_time"": null,
        ""file_flags"": [
            ""FILE_ATTRIBUTE_ARCHIVE""
        ],
        ""file_size"": 0,
        ""guid"": ""00021401-0000-0000-C000-000000000046"",
        ""hotkey"": ""UNSET - UNSET {0x0000}"",
        ""icon_index"": 0,
        ""link_flags"": [
            ""HasTargetIDList"",
            ""HasName"",
            ""IsUnicode""
        ],
        ""modified_time"": null,
        ""r_file_flags"": 32,
        ""r_hotkey"": 0,
        ""r_link_flags"": 133,
        ""windowstyle"": ""SW_SHOWNORMAL""
    },
    ""link_info"": {},
    ""size"": 119,
    ""target"": {
        ""items"": [
            {
                ""class"": ""Volume Item"",
                ""flags"": ""0xf"",
                ""volume_name"": ""C:\\""
            }
        ]
    }
}")
  | Err _ => False
  end.
Proof.
  destruct (snd (l <- lnk_init (FromBytes drive_and_string) CpNone true ;; get_json l false)) as [d|e] eqn:E.
  - assert (H := E). apply snd_bind_Ok in H as (l & Hl & Hd).
    apply (C68_report _ _ _ _ _ _ _ (text_python _ C56_default_code_page) Hl Hd).
    vm_compute in E. injection E as <-. vm_compute. reflexivity.
  - vm_compute in E. discriminate.
Qed.

(** A quotation mark, a backslash, a line feed, a control character, an accented letter, DEL, an emoji. *)
Example C68_example_string :
  quoted [34; 92; 10; 1; 233; 127; 0x1F600] (s2t """\""\\\n\u0001\u00e9\u007f\ud83d\ude00""")
  /\ quoted (s2t "a/b") (s2t """a/b""")
  /\ number (-120) (s2t "-120") /\ ~ number 0 (s2t "-0") /\ ~ number 7 (s2t "07").
Proof.
  split; [apply quoted_text; [repeat constructor; unfold code_point; lia|reflexivity]|].
  split; [apply quoted_text; [repeat constructor; unfold code_point; lia|reflexivity]|].
  split; [apply number_text; reflexivity|]. split; intros H; apply number_text in H; vm_compute in H; discriminate.
Qed.

(** A code page may yield lone surrogates (utf-7 does): they are escaped one by one. Then two reports may have the same
    text, which is why [C68_same_text] asks for Unicode scalar values. *)
Example C68_example_surrogates :
  quoted [0xD800] (s2t """\ud800""")
  /\ print_json_text [("a", PStr [0x1F600])] = print_json_text [("a", PStr [0xD83D; 0xDE00])]%string.
Proof. split; [apply quoted_text; [repeat constructor; unfold code_point; lia|reflexivity]|vm_compute; reflexivity]. Qed.
