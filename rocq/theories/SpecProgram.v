(** * The whole program (C73)

    From the arguments to what is printed: the vocabulary of SpecArgs.v for the arguments and of SpecRun.v for a run. *)
From Verif Require Import Py Codec LnkFile Report SpecRun Args SpecArgs.

(** The arguments ask for one run. *)
Definition asked (digit : N -> bool) (argv : list text) (q : request) : Prop :=
  ~ ambiguous argv /\ exists l, says digit argv l /\ asks l q.
(** The code page of a name: [codecs] are those of Python besides cp1252. *)
Definition code_page_of (codecs : text -> option codec) (name : text) (cp : cp_arg) : Prop :=
  ((name = [] \/ name = s2t "cp1252") /\ cp = CpNone)
  \/ (name <> [] /\ name <> s2t "cp1252" /\ exists c, codecs name = Some c /\ cp = CpCodec c).

(** The end of the program: status 0 with the help, status 2 with a message, the exception of [open], or a run. *)
Inductive does (digit : N -> bool) (codecs : text -> option codec) (files : text -> option bytes) (argv : list text) : process -> Prop :=
| does_help : ~ ambiguous argv -> says_help digit argv -> does digit codecs files argv (Exit 0)
| does_refuse : ambiguous argv \/ ~ says_help digit argv /\ (forall q, ~ asked digit argv q) -> does digit codecs files argv (Exit 2)
| does_not_open q : asked digit argv q -> files (q_file q) = None -> does digit codecs files argv NoSuchFile
| does_run q content cp said r :
    asked digit argv q -> files (q_file q) = Some content -> code_page_of codecs (q_page q) cp ->
    run content (Args (q_target q) (q_json q) cp (q_all q)) said r -> does digit codecs files argv (Ran (said, r)).
