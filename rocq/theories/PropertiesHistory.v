(** * Property C58: one object, any history of calls

    Reports are mutable: print_lnk_file itself pops and replaces entries of the report that it
    gets from get_json, and get_json pops entries of the dictionaries that the sections return.
    SpecHistory.v describes everything that a caller may do with a link object: call its methods
    in any order, and change in any way the objects that it got or made itself. *)
From Verif Require Import Lemmas Codec LnkFile Json Report Readable Heap.
From Verif Require Import Spec SpecText SpecReport SpecHistory.
From Verif Require Import HeapProofs HistoryProofs PropertiesReport.

(** ** C58. After any history, every call answers as the first call would. *)
Theorem C58_same :
  forall dump src cp allow o w o' w' c,
    reached dump src cp allow o w -> reached dump src cp allow o' w' ->
    same_outcome (call_heap dump o c (w_heap w)) (call_heap dump o' c (w_heap w')).
Proof. exact history_same. Qed.
Print Assumptions C58_same.

(** The answers are those that the other properties describe. *)
Theorem C58_report :
  forall dump src cp allow o w l,
    reached dump src cp allow o w -> snd (lnk_init src cp allow) = Ok l ->
    forall all, outcome_is shows_report (call_heap dump o (GetJson all) (w_heap w)) (get_json l all).
Proof. exact history_report. Qed.
Print Assumptions C58_report.
Theorem C58_json :
  forall dump src cp allow o w l,
    reached dump src cp allow o w -> snd (lnk_init src cp allow) = Ok l ->
    forall all, outcome_is shows_text (call_heap dump o (PrintJson all) (w_heap w))
                  (d <- get_json l all ;; ret (print_json_text d)).
Proof. exact history_json. Qed.
Print Assumptions C58_json.
Theorem C58_readable :
  forall dump src cp allow o w l,
    reached dump src cp allow o w -> snd (lnk_init src cp allow) = Ok l ->
    forall all, outcome_is shows_text (call_heap dump o (PrintReadable all) (w_heap w)) (print_lnk_file dump l all).
Proof. exact history_readable. Qed.
Print Assumptions C58_readable.
Theorem C58_command :
  forall dump src cp allow o w l,
    reached dump src cp allow o w -> snd (lnk_init src cp allow) = Ok l ->
    outcome_is shows_text (call_heap dump o Command (w_heap w)) (lnk_command l).
Proof. exact history_command. Qed.
Print Assumptions C58_command.

(** A call changes no object that existed before, and every object of a report is new. *)
Theorem C58_separate :
  forall dump src cp allow o w c a h',
    reached dump src cp allow o w -> snd (call_heap dump o c (w_heap w)) = Ok (a, h') ->
    (forall r, (r < length (w_heap w))%nat -> nth_error h' r = nth_error (w_heap w) r)
    /\ forall r, learns h' a r -> (length (w_heap w) <= r)%nat.
Proof. exact history_separate. Qed.
Print Assumptions C58_separate.

(** So a report keeps its value as long as the caller does not change it. *)
Theorem C58_kept :
  forall dump src cp allow o w v p w',
    reached dump src cp allow o w -> denotes (w_heap w) v p ->
    later dump o (reachable (w_heap w) v) w w' -> denotes (w_heap w') v p.
Proof. exact history_kept. Qed.
Print Assumptions C58_kept.

(** A caller empties the string table of a report that it got. The next report has it. *)
Definition emptied (dump : dict -> text) : bool :=
  match snd (obj_init (FromBytes drive_and_string) CpNone true [CList []]) with
  | Ok (o, h) =>
    match snd (call_heap dump o (GetJson false) h) with
    | Ok (AReport v, h1) =>
      match follow h1 v [PKey "data"] with
      | Some (HRef r) =>
        match snd (call_heap dump o (GetJson false) (put h1 r (CDict []))) with
        | Ok (AReport v', h2) =>
          match follow (put h1 r (CDict [])) v [PKey "data"; PKey "description"], follow h2 v' [PKey "data"; PKey "description"] with
          | None, Some (HStr t) => text_eqb t [0x68; 0x1F600]
          | _, _ => false
          end
        | _ => false
        end
      | _ => false
      end
    | _ => false
    end
  | Err _ => false
  end.
Lemma emptied_true dump : emptied dump = true.
Proof. vm_compute. reflexivity. Qed.
Lemma follow_reachable h q : forall v r, follow h v q = Some (HRef r) -> reachable h v r.
Proof.
  induction q as [|s q IH]; intros v r H; cbn [follow] in H; [injection H as ->; constructor|].
  destruct v as [| | | |x]; try discriminate. destruct (nth_error h x) as [[ds|vs]|] eqn:E; destruct s as [k|i]; try discriminate.
  - destruct (hget k ds) as [y|] eqn:Ey; [|discriminate]. eapply reachable_inside; [exact E| |apply IH, H].
    clear - Ey. induction ds as [|[k' z] ds IHd]; [discriminate|]. cbn [hget] in Ey. destruct (String.eqb k k').
    + injection Ey as ->. exists k'. now left.
    + destruct (IHd Ey) as [k2 Hk]. exists k2. now right.
  - destruct (nth_error vs i) as [y|] eqn:Ey; [|discriminate]. eapply reachable_inside; [exact E|eapply nth_error_In; exact Ey|apply IH, H].
Qed.
Example C58_example :
  forall dump, exists o w v v' h',
    reached dump (FromBytes drive_and_string) CpNone true o w
    /\ follow (w_heap w) v [PKey "data"; PKey "description"] = None
    /\ snd (call_heap dump o (GetJson false) (w_heap w)) = Ok (AReport v', h')
    /\ follow h' v' [PKey "data"; PKey "description"] = Some (HStr [0x68; 0x1F600]).
Proof.
  intros dump. pose proof (emptied_true dump) as H. unfold emptied in H.
  destruct (snd (obj_init _ _ _ _)) as [[o h]|] eqn:E0; [|discriminate H].
  destruct (snd (call_heap dump o (GetJson false) h)) as [[[v|] h1]|] eqn:E1; try discriminate H.
  destruct (follow h1 v [PKey "data"]) as [[| | | |r]|] eqn:E2; try discriminate H.
  destruct (snd (call_heap dump o (GetJson false) (put h1 r (CDict [])))) as [[[v'|] h2]|] eqn:E3; try discriminate H.
  destruct (follow (put h1 r (CDict [])) v [PKey "data"; PKey "description"]) eqn:E4; [discriminate H|]. destruct (follow h2 v' [PKey "data"; PKey "description"]) as [[| |t| |]|] eqn:E5; try discriminate H.
  eexists o, (World (put h1 r (CDict [])) _), v, v', h2. split; [|cbn [w_heap]; split; [exact E4|split; [exact E3|]]].
  - exists [CList []], h. split; [|split; [exact E0|]].
    + intros [|[|r']] c s Hc Hi; cbn in Hc; try discriminate Hc. injection Hc as <-. contradiction.
    + eapply later_answer; [exact E1|]. eapply later_overwritten with (r := r) (c := CDict []).
      * right. cbn. eapply follow_reachable, E2.
      * intros [].
      * intros x [k []].
      * apply later_now.
  - rewrite E5. rewrite (proj1 (text_eqb_eq _ _) H). reflexivity.
Qed.
