(** Independent specification for C84: what a call does under an error handler, in terms
    of what it does under one whose actions never raise. *)
From Verif Require Import Bytes Stream.

(** no action of the error handler raises *)
Definition never (_ : severity) : bool := false.
(** the actions of an ErrorHandler() as it comes: critical raises, and nothing else does *)
Definition by_default (p : severity) : bool := match p with CRITICAL => true | _ => false end.

(** the handler raises for none of these problems *)
Definition accepts (esc : severity -> bool) (l : list severity) : Prop := forall p, In p l -> esc p = false.

(** [before], and then [p], which is the first problem the handler raises for, start the
    list of problems [l] *)
Definition first_raising (esc : severity -> bool) (l before : list severity) (p : severity) : Prop :=
  accepts esc before /\ esc p = true /\ exists after, l = before ++ p :: after.

(** [quiet] is what happens if no action raises.  Under the handler the same happens, and
    if a problem is reported for which it raises, the call ends there with an exception. *)
Definition cut_short {A} (esc : severity -> bool) (quiet strict : io A) : Prop :=
  (accepts esc (fst quiet) /\ strict = quiet)
  \/ exists before p, first_raising esc (fst quiet) before p /\ strict = (before ++ [p], Exn).

(** As before, but the exception of a minor problem may itself be reported as a problem
    before the call ends with an exception. *)
Definition cut_short_reported {A} (esc : severity -> bool) (quiet strict : io A) : Prop :=
  cut_short esc quiet strict
  \/ exists before, first_raising esc (fst quiet) before MINOR /\ strict = (before ++ [MINOR; CRITICAL], Exn).

(** the same for calls that also change a state: it ends up the same unless the call is
    cut short *)
Definition cut_short_in {S A} (esc : severity -> bool) (quiet strict : S * io A) : Prop :=
  (accepts esc (fst (snd quiet)) /\ strict = quiet)
  \/ exists before p, first_raising esc (fst (snd quiet)) before p /\ snd strict = (before ++ [p], Exn).
Definition cut_short_reported_in {S A} (esc : severity -> bool) (quiet strict : S * io A) : Prop :=
  cut_short_in esc quiet strict
  \/ exists before, first_raising esc (fst (snd quiet)) before MINOR /\ snd strict = (before ++ [MINOR; CRITICAL], Exn).
