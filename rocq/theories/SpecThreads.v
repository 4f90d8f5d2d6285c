(** * Threads that use links, in terms of what the callers see

    Any number of calls run at the same time, on one link object or on several. At each moment
    one of them makes a step, or a caller starts a call, takes its answer, or changes or creates
    objects. Callers can do anything with the objects that they know: those of the answers that
    they got, and their own. All callers share what they know. *)
From Verif Require Import Py Codec LnkFile Json Report Readable Heap Threads SpecHistory.

(** A call that has been started: the warnings it has given so far, and what it has still to do. *)
Record running := Running { asked : request; given : list warning; rest : prog reply }.
Record state := State { s_heap : heap; s_known : nat -> Prop; s_links : list obj; s_calls : list running }.

Definition may_ask (links : list obj) (q : request) : Prop :=
  match q with Open _ _ _ => True | Ask o _ => In o links end.
Definition taught (h : heap) (a : reply) (r : nat) : Prop :=
  match a with ROpened _ => False | RAnswer a => learns h a r end.
Definition with_link (a : reply) (links : list obj) : list obj :=
  match a with ROpened o => o :: links | RAnswer _ => links end.

Inductive step (dump : dict -> text) : state -> state -> Prop :=
| step_start h K L c1 c2 q : may_ask L q ->
    step dump (State h K L (c1 ++ c2)) (State h K L (c1 ++ Running q [] (code dump q) :: c2))
| step_run h K L c1 c2 q ws p w h' p' : move h p w h' p' ->
    step dump (State h K L (c1 ++ Running q ws p :: c2)) (State h' K L (c1 ++ Running q (ws ++ w) p' :: c2))
| step_answer h K L c1 c2 q ws a :
    step dump (State h K L (c1 ++ Running q ws (Return a) :: c2))
      (State h (fun r => K r \/ taught h a r) (with_link a L) (c1 ++ c2))
| step_raised h K L c1 c2 q ws e :
    step dump (State h K L (c1 ++ Running q ws (Raise e) :: c2)) (State h K L (c1 ++ c2))
| step_overwritten h (K : nat -> Prop) L cs r c : K r -> storable K c ->
    step dump (State h K L cs) (State (put h r c) K L cs)
| step_created h K L cs c : storable K c ->
    step dump (State h K L cs) (State (h ++ [c]) (fun r => K r \/ r = length h) L cs).

(** What can happen: there are some objects of the callers at first, and no links. *)
Inductive happens (dump : dict -> text) : state -> Prop :=
| happens_first h : complete h -> happens dump (State h (fun r => (r < length h)%nat) [] [])
| happens_then s s' : happens dump s -> step dump s s' -> happens dump s'.

(** A call has ended. *)
Definition ended (p : prog reply) (r : result reply) : Prop :=
  match r with Ok a => p = Return a | Err e => p = Raise e end.

(** The outcome of a call is right: the one that the call has when nothing else runs, given by the
    model of values. *)
Definition right_outcome {A} (shows : reply -> A -> Prop) (ws : list warning) (r : result reply) (m : M A) : Prop :=
  ws = fst m /\
  match r, snd m with
  | Ok a, Ok x => shows a x
  | Err e, Err e' => e = e'
  | _, _ => False
  end.
Definition is_link (a : reply) (l : lnk) : Prop := match a with ROpened o => o_link o = l | RAnswer _ => False end.
Definition is_report (h : heap) (a : reply) (d : dict) : Prop :=
  match a with RAnswer (AReport v) => denotes h v (PDict d) | _ => False end.
Definition is_text (a : reply) (t : text) : Prop := match a with RAnswer (AText t') => t' = t | _ => False end.
Definition right (dump : dict -> text) (h : heap) (q : request) (ws : list warning) (r : result reply) : Prop :=
  match q with
  | Open src cp allow => right_outcome is_link ws r (lnk_init src cp allow)
  | Ask o (GetJson all) => right_outcome (is_report h) ws r (get_json (o_link o) all)
  | Ask o (PrintJson all) => right_outcome is_text ws r (d <- get_json (o_link o) all ;; ret (print_json_text d))
  | Ask o (PrintReadable all) => right_outcome is_text ws r (print_lnk_file dump (o_link o) all)
  | Ask o Command => right_outcome is_text ws r (lnk_command (o_link o))
  end.

(** One step of a program leads from [p] to [p']. *)
Definition leads {A} (p' p : prog A) : Prop := exists h w h', move h p w h' p'.
