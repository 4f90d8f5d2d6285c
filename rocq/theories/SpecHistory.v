(** * Histories of calls, in terms of the caller's view of objects

    Dictionaries and lists are mutable objects of a heap. A caller holds references, calls
    methods of a link object, and changes the objects that it can reach in any way. *)
From Verif Require Import Py Codec LnkFile Heap.

(** The value of a reference: what a traversal of the objects finds. *)
Inductive denotes (h : heap) : hval -> pyval -> Prop :=
| denotes_none : denotes h HNone PNone
| denotes_int z : denotes h (HInt z) (PInt z)
| denotes_str t : denotes h (HStr t) (PStr t)
| denotes_date d : denotes h (HDate d) (PDate d)
| denotes_list r vs ps : nth_error h r = Some (CList vs) -> Forall2 (denotes h) vs ps -> denotes h (HRef r) (PList ps)
| denotes_dict r ds d : nth_error h r = Some (CDict ds) ->
    Forall2 (fun x y => fst x = fst y /\ denotes h (snd x) (snd y)) ds d -> denotes h (HRef r) (PDict d).

(** The references in an object, and the objects that can be reached from a value. *)
Definition inside (c : cell) (v : hval) : Prop :=
  match c with CDict ds => exists k, In (k, v) ds | CList vs => In v vs end.
Inductive reachable (h : heap) : hval -> nat -> Prop :=
| reachable_itself r : reachable h (HRef r) r
| reachable_inside r c v s : nth_error h r = Some c -> inside c v -> reachable h v s -> reachable h (HRef r) s.

(** A caller who knows the objects [known] can store references to these only. *)
Definition storable (known : nat -> Prop) (c : cell) : Prop := forall r, inside c (HRef r) -> known r.

(** The heap and the objects that the caller knows. *)
Record world := World { w_heap : heap; w_known : nat -> Prop }.
Definition learns (h : heap) (a : answer) (r : nat) : Prop :=
  match a with AReport v => reachable h v r | AText _ => False end.

(** What may happen between two moments if the caller does not change the objects [spared]. *)
Inductive later (dump : dict -> text) (o : obj) (spared : nat -> Prop) : world -> world -> Prop :=
| later_now w : later dump o spared w w
| later_answer h K c a h' w :
    snd (call_heap dump o c h) = Ok (a, h') ->
    later dump o spared (World h' (fun r => K r \/ learns h' a r)) w -> later dump o spared (World h K) w
| later_raised h K c e w :
    snd (call_heap dump o c h) = Err e -> later dump o spared (World h K) w -> later dump o spared (World h K) w
| later_overwritten h (K : nat -> Prop) r c w :
    K r -> ~ spared r -> storable K c -> later dump o spared (World (put h r c) K) w -> later dump o spared (World h K) w
| later_created h K c w :
    storable K c -> later dump o spared (World (h ++ [c]) (fun r => K r \/ r = length h)) w ->
    later dump o spared (World h K) w.
Definition none : nat -> Prop := fun _ => False.

(** A caller who knows everything in the heap [h] creates a link object, and anything happens. *)
Definition complete (h : heap) : Prop :=
  forall r c s, nth_error h r = Some c -> inside c (HRef s) -> (s < length h)%nat.
Definition reached (dump : dict -> text) (src : source) (cp : cp_arg) (allow : bool) (o : obj) (w : world) : Prop :=
  exists h0 h, complete h0 /\ snd (obj_init src cp allow h0) = Ok (o, h)
  /\ later dump o none (World h (fun r => (r < length h0)%nat)) w.

(** Two calls agree: the same warnings, the same exception or the same text or equal reports. *)
Definition same_answer (h : heap) (a : answer) (h' : heap) (a' : answer) : Prop :=
  match a, a' with
  | AReport v, AReport v' => exists p, denotes h v p /\ denotes h' v' p
  | AText t, AText t' => t = t'
  | _, _ => False
  end.
Definition same_outcome (m m' : M (answer * heap)) : Prop :=
  fst m = fst m' /\
  match snd m, snd m' with
  | Ok (a, h), Ok (a', h') => same_answer h a h' a'
  | Err e, Err e' => e = e'
  | _, _ => False
  end.

(** A call has the outcome of a computation on values. *)
Definition outcome_is {A} (shows : heap -> answer -> A -> Prop) (m : M (answer * heap)) (n : M A) : Prop :=
  fst m = fst n /\
  match snd m, snd n with
  | Ok (a, h), Ok x => shows h a x
  | Err e, Err e' => e = e'
  | _, _ => False
  end.
Definition shows_report (h : heap) (a : answer) (d : dict) : Prop :=
  match a with AReport v => denotes h v (PDict d) | AText _ => False end.
Definition shows_text (h : heap) (a : answer) (t : text) : Prop :=
  match a with AReport _ => False | AText t' => t' = t end.
