(** * Specification: what is known about a file that is parsed without warnings (property C83) *)
From Verif Require Import Py Codec Spec SpecText SpecHeader SpecTime SpecItems SpecExtra.

(** The text shown for a stored string is what the bytes say: nothing was replaced. *)
Definition wide_faithful (field : bytes) (shown : text) : Prop :=
  Forall scalar shown /\ no_nul shown
  /\ (field = utf16 shown \/ exists rest, field = utf16 shown ++ x00 :: x00 :: rest).
Definition page_faithful (cp : cp_arg) (field : bytes) (shown : text) : Prop :=
  exists body,
    ~ In x00 body /\ (field = body \/ exists rest, field = body ++ x00 :: rest)
    /\ (body = [] /\ shown = []
        \/ body <> [] /\ (strict (page_of cp) body = Some shown \/ Forall scalar shown /\ body = utf8 shown)).

(** Nothing in the entry of an item is said to be unknown. *)
Definition known_fields (d : dict) : Prop :=
  forall k, In k ["class"; "flags"; "sort_index"; "category"]%string -> dget k d <> Some (PS "Unknown").
Definition known_entry (d : dict) : Prop :=
  known_fields d /\ forall e, dget "file_entry" d = Some (PDict e) -> known_fields e.

(** ** The filter [error] of Python's warnings module

    A warning that the filter selects is raised where it is given. It is no exception that the code handles. *)
Inductive end_of_call (A : Type) := Gives (a : A) | Raises (e : exn) | Stopped (w : warning).
Arguments Gives {A} a. Arguments Raises {A} e. Arguments Stopped {A} w.

(** A call under the filter: the warnings that are given before it ends, and how it ends. *)
Definition call (A : Type) : Type := list warning * end_of_call A.
Fixpoint given (stops : warning -> bool) (ws : list warning) : list warning * option warning :=
  match ws with
  | [] => ([], None)
  | w :: r => if stops w then ([], Some w) else (w :: fst (given stops r), snd (given stops r))
  end.
Definition filtered {A} (stops : warning -> bool) (m : M A) : call A :=
  (fst (given stops (fst m)),
   match snd (given stops (fst m)), snd m with
   | Some w, _ => Stopped w
   | None, Ok a => Gives a
   | None, Err e => Raises e
   end).

(** Python's sequence, [raise], [warn] and [try] under the filter. *)
Definition and_then {A B} (m : call A) (f : A -> call B) : call B :=
  match m with
  | (ws, Gives a) => (ws ++ fst (f a), snd (f a))
  | (ws, Raises e) => (ws, Raises e)
  | (ws, Stopped w) => (ws, Stopped w)
  end.
Definition or_else {A} (m : call A) (handled : exn -> bool) (h : call A) : call A :=
  match m with
  | (ws, Raises e) => if handled e then (ws ++ fst h, snd h) else m
  | _ => m
  end.
