(** * Specification: links read from a file object (property C79) *)
From Verif Require Import Py Codec LnkFile Report Call.

(** A client that reads [n] links of a file one after the other, each behind [gap] bytes of something else: it seeks to
    the link, reads it with [allow_terminal_blocks=False] and seeks to the end of the link by its size. *)
Fixpoint links_at (n : nat) (gap : N) (cp : cp_arg) (h : handle) : M (list dict * handle) :=
  match n with
  | O => ret ([], h)
  | S n =>
    let start := position h + gap in
    match lnk_call (Some (seek start h)) None cp false with
    | (made, Some h') =>
      l <- made ;;
      d <- get_json l true ;;
      r <- links_at n gap cp (seek (start + l_size l) h') ;;
      ret (d :: fst r, snd r)
    | (_, None) => raise OutOfFuel
    end
  end.
