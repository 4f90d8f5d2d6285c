(** * From the report to its sections *)
From Verif Require Import Lemmas Codec Utils Header StringData Targets Info Extra LnkFile Spec SpecHeader.
From Verif Require Import SpecTime EncProofs FormatProofs OutcomeProofs LayoutProofs CoreProofs HeaderProofs TimeProofs.

Fixpoint row (k : string) (rows : list (string * M pyval)) : option (M pyval) :=
  match rows with
  | [] => None
  | (k', m) :: r => if String.eqb k k' then Some m else row k r
  end.
Lemma fields_dget rows d k m :
  snd (fields rows) = Ok d -> row k rows = Some m -> exists v, snd m = Ok v /\ dget k d = Some v.
Proof.
  revert d; induction rows as [|[k' m'] rows IH]; intros d H HR; [discriminate|].
  cbn [fields] in H. apply snd_bind_Ok in H as (v & Hv & H). apply snd_bind_Ok in H as (d' & Hd & H).
  injection H as <-. cbn [row] in HR. cbn [dget]. destruct (String.eqb k k').
  - injection HR as <-. now exists v.
  - now apply IH.
Qed.

Lemma dget_app k d1 d2 : dget k (d1 ++ d2) = match dget k d1 with Some v => Some v | None => dget k d2 end.
Proof. induction d1 as [|[k' v'] d1 IH]; cbn [app dget]; [reflexivity|]. now destruct (String.eqb k k'). Qed.

(** The sections of a full report. *)
Lemma report_sections l d :
  snd (get_json l true) = Ok d ->
  exists h i e,
    snd (header_dict (l_header l)) = Ok h /\ dget "header" d = Some (PDict h)
    /\ match l_targets l with
       | Some t => exists td, snd (target_dict l t) = Ok td /\ dget "target" d = Some (PDict td)
       | None => dget "target" d = None
       end
    /\ match l_info l with
       | Some (k, raw) => snd (info_dict (l_cp l) k raw) = Ok i
       | None => i = []
       end
    /\ dget "link_info" d = Some (PDict i)
    /\ dget "data" d = Some (PDict (sd_data (l_string_data l)))
    /\ snd (extras_as_dict (l_cp l) (l_extras l)) = Ok e /\ dget "extra" d = Some (PDict e)
    /\ dget "size" d = Some (PN (l_size l)).
Proof.
  unfold get_json, full_json. intros H. apply snd_bind_Ok in H as (d' & H & E). injection E as <-.
  apply snd_bind_Ok in H as (h & Hh & H). apply snd_bind_Ok in H as (t & Ht & H).
  apply snd_bind_Ok in H as (i & Hi & H). apply snd_bind_Ok in H as (e & He & H).
  injection H as <-. exists h, i, e. split; [assumption|]. split; [reflexivity|].
  split; [|split; [|split; [|split; [|split; [assumption|split]]]]].
  - destruct (l_targets l) as [tg|].
    + apply snd_bind_Ok in Ht as (td & Htd & E). injection E as <-. exists td. split; [assumption|reflexivity].
    + injection Ht as <-. reflexivity.
  - destruct (l_info l) as [[k raw]|]; [assumption|]. now injection Hi as <-.
  - destruct (l_targets l) as [tg|].
    + apply snd_bind_Ok in Ht as (td & _ & E). injection E as <-. reflexivity.
    + injection Ht as <-. reflexivity.
  - destruct (l_targets l) as [tg|].
    + apply snd_bind_Ok in Ht as (td & _ & E). injection E as <-. reflexivity.
    + injection Ht as <-. reflexivity.
  - destruct (l_targets l) as [tg|].
    + apply snd_bind_Ok in Ht as (td & _ & E). injection E as <-. reflexivity.
    + injection Ht as <-. reflexivity.
  - reflexivity.
Qed.

Lemma init_constructed b cp allow l :
  usable cp -> snd (lnk_init (FromBytes b) cp allow) = Ok l -> constructible b /\ constructed b cp allow l.
Proof.
  intros Hcp H. assert (Hb : b <> []) by (intros ->; discriminate).
  rewrite (init_process _ _ _ b) in H by auto. now apply process_constructed in H.
Qed.

(** The header object, also for an unknown code page. *)
Lemma init_header b cp allow l :
  snd (lnk_init (FromBytes b) cp allow) = Ok l -> 24 <= header_len b /\ 24 <= lenN b /\ l_header l = takeN (header_len b) b.
Proof.
  destruct b as [|x b0]; [discriminate|]. cbn [lnk_init]. set (b := x :: b0). unfold process.
  change (header_init b) with (size <- header_size b ;; ret (takeN size b)).
  intros H. apply snd_bind_Ok in H as (hd & Hh & H). apply snd_bind_Ok in Hh as (size & Hs & Hh).
  injection Hh as <-. rewrite header_size_snd in Hs. destruct (4 <=? lenN b); [|discriminate].
  injection Hs as <-. fold (header_len b) in *.
  apply snd_bind_Ok in H as (idx & _ & H). apply snd_bind_Ok in H as (ht & Hht & H).
  assert (HL : 24 <= header_len b /\ 24 <= lenN b).
  { destruct (N.lt_ge_cases (lenN (takeN (header_len b) b)) 24) as [HL|HL].
    - rewrite has_flag_short in Hht by assumption. discriminate.
    - rewrite lenN_takeN in HL. lia. }
  split; [apply HL|]. split; [apply HL|].
  apply snd_bind_Ok in H as ([tg i1] & _ & H). apply snd_bind_Ok in H as (hi & _ & H).
  apply snd_bind_Ok in H as ([inf i2] & _ & H). apply snd_bind_Ok in H as (sd & _ & H).
  apply snd_bind_Ok in H as (ex & _ & H). apply snd_bind_Ok in H as (sz & _ & H).
  injection H as <-. reflexivity.
Qed.

Lemma header_len_encode h rest : wf_header h -> header_len (encode_header h ++ rest) = h_size h.
Proof.
  intros (_ & Hs & _). unfold header_len. apply holds_num32; [|assumption].
  apply holds_suffix. apply holds_here.
Qed.

(** ** C04, C06 at the level of the report *)

Lemma parse_filetime_total z : fits_i64 z -> exists w o, parse_filetime (enci64 z) = (w, Ok o).
Proof.
  intros H. unfold parse_filetime. rewrite unpack_enci64, bind_ret_l by assumption.
  destruct (z =? 0)%Z; [now eexists _, _|]. destruct (PyTime.fromtimestamp_utc _ _); now eexists _, _.
Qed.

Lemma header_reported h rest cp allow l d wc wa ww c a w :
  wf_header h ->
  parse_filetime (enci64 (h_ctime h)) = (wc, Ok c) ->
  parse_filetime (enci64 (h_atime h)) = (wa, Ok a) ->
  parse_filetime (enci64 (h_wtime h)) = (ww, Ok w) ->
  snd (lnk_init (FromBytes (encode_header h ++ rest)) cp allow) = Ok l ->
  snd (get_json l true) = Ok d ->
  dget "header" d = Some (PDict (header_report h c a w)).
Proof.
  intros Hwf Hc Ha Hw Hl Hd. apply init_header in Hl as (_ & _ & Hl). rewrite header_len_encode in Hl by assumption.
  apply report_sections in Hd as (hd & i & e & Hh & Hd & _). rewrite Hl in Hh.
  rewrite (hp_dict h rest Hwf _ _ _ _ _ _ Hc Ha Hw) in Hh. cbn [snd] in Hh. injection Hh as <-. assumption.
Qed.

(** The header never fails once all of it is there, and its warnings come first. *)
Lemma header_warned h rest cp allow l all wc wa ww c a w :
  wf_header h ->
  parse_filetime (enci64 (h_ctime h)) = (wc, Ok c) ->
  parse_filetime (enci64 (h_atime h)) = (wa, Ok a) ->
  parse_filetime (enci64 (h_wtime h)) = (ww, Ok w) ->
  snd (lnk_init (FromBytes (encode_header h ++ rest)) cp allow) = Ok l ->
  exists others, fst (get_json l all)
    = clsid_warning h ++ wc ++ wa ++ ww ++ size_warning h ++ reserved_warnings h ++ others.
Proof.
  intros Hwf Hc Ha Hw Hl. apply init_header in Hl as (_ & _ & Hl). rewrite header_len_encode in Hl by assumption.
  unfold get_json, full_json. rewrite bind_assoc, Hl, (hp_dict h rest Hwf _ _ _ _ _ _ Hc Ha Hw), bind_Ok. cbn [fst].
  eexists. rewrite <- !app_assoc. reflexivity.
Qed.

(** ** C05 for any constructed object *)

Lemma flags_reported b cp allow l d h :
  snd (lnk_init (FromBytes b) cp allow) = Ok l -> snd (get_json l true) = Ok d ->
  dget "header" d = Some (PDict h) ->
  dget "r_link_flags" h = Some (PN (num 4 20 b))
  /\ dget "link_flags" h = Some (names_value (set_bits 0 link_flag_bits (num 4 20 b)))
  /\ exists attrs, dget "r_file_flags" h = Some (PN attrs)
     /\ dget "file_flags" h = Some (names_value (set_bits 0 file_attribute_bits attrs)).
Proof.
  intros Hl Hd Hh. apply init_header in Hl as (H24 & HL & Hl).
  apply report_sections in Hd as (hd & i & e & HD & Hd & _). rewrite Hh in Hd. injection Hd as <-.
  assert (HR : r_link_flags (l_header l) = ret (num 4 20 b)).
  { unfold r_link_flags. change 24 with (20 + 4). rewrite unpack_u32_at, Hl, lenN_takeN, num_takeN by lia.
    replace (20 + 4 <=? N.min (header_len b) (lenN b)) with true by lia. reflexivity. }
  unfold header_dict in HD.
  split; [|split].
  - destruct (fields_dget _ _ "r_link_flags" _ HD eq_refl) as (v & Hv & ->). rewrite HR in Hv. now injection Hv as <-.
  - destruct (fields_dget _ _ "link_flags" _ HD eq_refl) as (v & Hv & ->). unfold link_flags in Hv.
    rewrite HR, !bind_ret_l, link_flag_names in Hv. now injection Hv as <-.
  - destruct (fields_dget _ _ "r_file_flags" _ HD eq_refl) as (v & Hv & ->).
    destruct (fields_dget _ _ "file_flags" _ HD eq_refl) as (v2 & Hv2 & ->).
    apply snd_bind_Ok in Hv as (attrs & Ha & Hv). injection Hv as <-. exists attrs. split; [reflexivity|].
    unfold file_flags in Hv2. apply snd_bind_Ok in Hv2 as (names & Hn & Hv2). injection Hv2 as <-.
    apply snd_bind_Ok in Hn as (a2 & Ha2 & Hn). injection Hn as <-. rewrite Ha in Ha2. injection Ha2 as <-.
    now rewrite file_flag_names.
Qed.

Lemma predicates_of_flags b cp allow l :
  snd (lnk_init (FromBytes b) cp allow) = Ok l ->
  forall name i, In (name, i) used_flags -> has_flag name (l_header l) = ret (bit_set i b).
Proof.
  intros Hl name i Hin. apply init_header in Hl as (H24 & HL & ->). now apply has_flag_bit.
Qed.

Lemma header_reported_times h rest cp allow l d :
  wf_header h ->
  snd (lnk_init (FromBytes (encode_header h ++ rest)) cp allow) = Ok l -> snd (get_json l true) = Ok d ->
  exists c a w,
    dget "header" d = Some (PDict (header_report h c a w))
    /\ snd (parse_filetime (enci64 (h_ctime h))) = Ok c
    /\ snd (parse_filetime (enci64 (h_atime h))) = Ok a
    /\ snd (parse_filetime (enci64 (h_wtime h))) = Ok w.
Proof.
  intros Hwf Hl Hd.
  destruct (parse_filetime_total (h_ctime h) ltac:(apply Hwf)) as (wc & c & Hc).
  destruct (parse_filetime_total (h_atime h) ltac:(apply Hwf)) as (wa & a & Ha).
  destruct (parse_filetime_total (h_wtime h) ltac:(apply Hwf)) as (ww & w & Hw).
  exists c, a, w. rewrite Hc, Ha, Hw. split; [|auto].
  eapply header_reported; eassumption.
Qed.
Lemma header_reported_calendar h rest cp allow l d c a w :
  wf_header h ->
  (forall t, t = c \/ t = a \/ t = w -> valid_datetime t /\ dt_us t = 0%Z /\ filetime_of t <> 0%Z) ->
  h_ctime h = filetime_of c -> h_atime h = filetime_of a -> h_wtime h = filetime_of w ->
  snd (lnk_init (FromBytes (encode_header h ++ rest)) cp allow) = Ok l -> snd (get_json l true) = Ok d ->
  dget "header" d = Some (PDict (header_report h (Some c) (Some a) (Some w))).
Proof.
  intros Hwf HT Hc Ha Hw Hl Hd.
  assert (X : forall t, t = c \/ t = a \/ t = w -> parse_filetime (enci64 (filetime_of t)) = ([], Ok (Some t))).
  { intros t Ht. apply HT in Ht as (V & U & Z). apply filetime_round_trip; auto. }
  eapply header_reported; try eassumption; [rewrite Hc|rewrite Ha|rewrite Hw]; apply X; auto.
Qed.
Lemma rendering_reported h rest cp allow l d hd :
  wf_header h ->
  snd (lnk_init (FromBytes (encode_header h ++ rest)) cp allow) = Ok l -> snd (get_json l true) = Ok d ->
  dget "header" d = Some (PDict hd) ->
  dget "windowstyle" hd = Some (PS (show_text (h_show h)))
  /\ dget "hotkey" hd = Some (PStr (hot_key_text (h_key h) (h_mods h))).
Proof.
  intros Hwf Hl Hd Hh. destruct (header_reported_times _ _ _ _ _ _ Hwf Hl Hd) as (c & a & w & E & _).
  rewrite Hh in E. injection E as ->. split; reflexivity.
Qed.
