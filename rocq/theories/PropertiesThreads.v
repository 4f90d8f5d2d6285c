(** * Property C70: threads

    Any number of threads open links and call methods of link objects, shared or not, and do
    anything with the reports that they got, while other calls are running. SpecThreads.v
    describes all interleavings of their steps. *)
From Verif Require Import Lemmas Codec LnkFile Json Report Readable Heap Threads.
From Verif Require Import Spec SpecText SpecReport SpecHistory SpecThreads.
From Verif Require Import ScheduleProofs PropertiesReport.

(** ** C70. Under every schedule, a call that has ended has given the warnings and the answer, or
    the exception, that it gives when nothing else runs. *)
Theorem C70_right :
  forall dump s x r,
    happens dump s -> In x (s_calls s) -> ended (rest x) r -> right dump (s_heap s) (asked x) (given x) r.
Proof. exact schedule_right. Qed.
Print Assumptions C70_right.
(** The link objects that are shared are those of files that were opened. *)
Theorem C70_links :
  forall dump s o, happens dump s -> In o (s_links s) -> exists src cp allow, snd (lnk_init src cp allow) = Ok (o_link o).
Proof. exact schedule_links. Qed.
Print Assumptions C70_links.

(** No call has to wait for another one, and none runs for ever. *)
Theorem C70_goes_on :
  forall dump s x, happens dump s -> In x (s_calls s) ->
    (exists r, ended (rest x) r) \/ exists w h' p', move (s_heap s) (rest x) w h' p'.
Proof. exact schedule_goes_on. Qed.
Print Assumptions C70_goes_on.
Theorem C70_ends : forall A, well_founded (@leads A).
Proof. exact schedule_ends. Qed.
Print Assumptions C70_ends.

(** A running call changes no object that a caller knows, so a report stays as it is while calls run. *)
Theorem C70_keeps :
  forall dump h K L c1 c2 q ws p w h' p' r,
    happens dump (State h K L (c1 ++ Running q ws p :: c2)) -> move h p w h' p' -> K r -> nth_error h' r = nth_error h r.
Proof. exact schedule_keeps. Qed.
Print Assumptions C70_keeps.
(** The objects of an answer are known to nobody before, and belong to no other answer. *)
Theorem C70_apart :
  forall dump h K L c1 c2 q ws a,
    happens dump (State h K L (c1 ++ Running q ws (Return a) :: c2)) ->
    forall r, taught h a r -> ~ K r /\ forall q' ws' a', In (Running q' ws' (Return a')) (c1 ++ c2) -> ~ taught h a' r.
Proof. exact schedule_apart. Qed.
Print Assumptions C70_apart.

(** Two threads work on one link object, step by step in turn, and both end. *)
Definition moved (h : heap) (x : running) : heap * running :=
  match rest x with
  | Return a => (h, x)
  | Raise e => (h, x)
  | Warn w p => (h, Running (asked x) (given x ++ [w]) p)
  | New c k => (h ++ [c], Running (asked x) (given x ++ []) (k (length h)))
  | Look r k => match nth_error h r with Some c => (h, Running (asked x) (given x ++ []) (k c)) | None => (h, x) end
  | Change r f p => match nth_error h r with Some c => (put h r (f c), Running (asked x) (given x ++ []) p) | None => (h, x) end
  | Bound k => (h, Running (asked x) (given x ++ []) (k (S (length h))))
  end.
Fixpoint in_turn (n : nat) (h : heap) (x y : running) : heap * running * running :=
  match n with
  | O => (h, x, y)
  | S n => let '(h, x) := moved h x in let '(h, y) := moved h y in in_turn n h x y
  end.
Fixpoint alone (n : nat) (h : heap) (x : running) : heap * running :=
  match n with O => (h, x) | S n => let '(h, x) := moved h x in alone n h x end.
Lemma moved_step dump h K L c1 c2 x : happens dump (State h K L (c1 ++ x :: c2)) ->
  happens dump (State (fst (moved h x)) K L (c1 ++ snd (moved h x) :: c2)).
Proof.
  intros H. destruct x as [q ws p]. unfold moved. cbn [rest asked given].
  destruct p as [a|e|w p|c k|r k|r f p|k]; try destruct (nth_error h r) as [c|] eqn:E; cbn [fst snd]; try exact H;
    (eapply happens_then; [exact H|]; constructor).
  - constructor.
  - constructor.
  - now constructor.
  - now constructor.
  - constructor.
Qed.
Lemma alone_step dump K L n : forall h x, happens dump (State h K L [x]) -> happens dump (State (fst (alone n h x)) K L [snd (alone n h x)]).
Proof.
  induction n as [|n IH]; intros h x H; [exact H|]. cbn [alone]. pose proof (moved_step dump h K L [] [] x H) as H1.
  destruct (moved h x) as [h1 x1]. now apply IH.
Qed.
Lemma in_turn_step dump K L n : forall h x y, happens dump (State h K L [x; y]) ->
  happens dump (State (fst (fst (in_turn n h x y))) K L [snd (fst (in_turn n h x y)); snd (in_turn n h x y)]).
Proof.
  induction n as [|n IH]; intros h x y H; [exact H|]. cbn [in_turn]. pose proof (moved_step dump h K L [] [y] x H) as H1.
  destruct (moved h x) as [h1 x1]. cbn [fst snd app] in H1. pose proof (moved_step dump h1 K L [x1] [] y H1) as H2.
  destruct (moved h1 y) as [h2 y1]. now apply IH.
Qed.
Definition open_it := Open (FromBytes drive_and_string) CpNone true.
Definition opened (dump : dict -> text) : heap * running := alone 40 [CList []] (Running open_it [] (code dump open_it)).
Definition both (dump : dict -> text) : option (obj * (heap * running * running)) :=
  match rest (snd (opened dump)) with
  | Return (ROpened o) =>
    Some (o, in_turn 300 (fst (opened dump)) (Running (Ask o (GetJson false)) [] (code dump (Ask o (GetJson false))))
               (Running (Ask o (PrintReadable true)) [] (code dump (Ask o (PrintReadable true)))))
  | _ => None
  end.
Definition both_end (dump : dict -> text) : bool :=
  match both dump with
  | Some (_, (_, x, y)) =>
    match rest x, rest y with Return (RAnswer (AReport _)), Return (RAnswer (AText _)) => true | _, _ => false end
  | None => false
  end.
Lemma both_true dump : both_end dump = true.
Proof. vm_compute. reflexivity. Qed.
Example C70_example :
  forall dump, exists s x y o v t,
    happens dump s /\ s_calls s = [x; y]
    /\ asked x = Ask o (GetJson false) /\ ended (rest x) (Ok (RAnswer (AReport v)))
    /\ asked y = Ask o (PrintReadable true) /\ ended (rest y) (Ok (RAnswer (AText t))).
Proof.
  intros dump. pose proof (both_true dump) as H. unfold both_end, both in H.
  assert (Hs : happens dump (State [CList []] (fun r => (r < 1)%nat) [] [Running open_it [] (code dump open_it)])).
  { eapply happens_then; [apply (happens_first dump [CList []])|].
    - intros [|[|r]] c s Hc Hi; cbn in Hc; try discriminate Hc. injection Hc as <-. contradiction.
    - apply (step_start dump _ _ _ [] []). exact I. }
  pose proof (alone_step dump (fun r => (r < 1)%nat) [] 40 [CList []] (Running open_it [] (code dump open_it)) Hs) as H0.
  fold (opened dump) in H0.
  destruct (opened dump) as [h x0]. cbn [fst snd] in *. destruct x0 as [q0 ws0 p0]. cbn [rest] in H.
  destruct p0 as [[o|]| | | | | |]; try discriminate H.
  set (x1 := Running (Ask o (GetJson false)) [] (code dump (Ask o (GetJson false)))) in *.
  set (y1 := Running (Ask o (PrintReadable true)) [] (code dump (Ask o (PrintReadable true)))) in *.
  set (K := fun r => (r < 1)%nat \/ taught h (ROpened o) r) in *.
  assert (HA : happens dump (State h K [o] [])).
  { eapply happens_then; [exact H0|]. exact (step_answer dump h (fun r => (r < 1)%nat) [] [] [] q0 ws0 (ROpened o)). }
  assert (HB : happens dump (State h K [o] [x1])).
  { eapply happens_then; [exact HA|]. apply (step_start dump h K [o] [] [] (Ask o (GetJson false))). now left. }
  assert (H2 : happens dump (State h K [o] [x1; y1])).
  { eapply happens_then; [exact HB|]. apply (step_start dump h K [o] [x1] [] (Ask o (PrintReadable true))). now left. }
  pose proof (in_turn_step dump K [o] 300 h x1 y1 H2) as H3.
  assert (A : forall n h x y, asked (snd (fst (in_turn n h x y))) = asked x /\ asked (snd (in_turn n h x y)) = asked y).
  { clear. assert (B : forall h x, asked (snd (moved h x)) = asked x).
    { intros h [q ws p]. unfold moved. cbn [rest asked]. destruct p as [a|e|w p|c k|r k|r f p|k]; try destruct (nth_error h r); reflexivity. }
    induction n as [|n IH]; intros h x y; [now split|]. cbn [in_turn]. pose proof (B h x) as E1. destruct (moved h x) as [h1 x1]. cbn [snd] in E1.
    pose proof (B h1 y) as E2. destruct (moved h1 y) as [h2 y1]. cbn [snd] in E2. destruct (IH h2 x1 y1) as [-> ->]. now split. }
  specialize (A 300%nat h x1 y1). destruct (in_turn 300 h x1 y1) as [[h3 x3] y3]. cbn [fst snd] in *. destruct A as [A1 A2].
  destruct (rest x3) as [[|[v|]]| | | | | |] eqn:E3; try discriminate H. destruct (rest y3) as [[|[|t]]| | | | | |] eqn:E4; try discriminate H.
  eexists _, x3, y3, o, v, t. split; [exact H3|]. split; [reflexivity|]. split; [exact A1|]. split; [exact E3|]. split; [exact A2|exact E4].
Qed.
