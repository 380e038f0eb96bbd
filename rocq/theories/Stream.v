(** The logical byte stream dlisio reads from, results with logged messages, and
    the error handler.

    lfp (layered file protocols: cfile, tapeimage, rp66 visible records) is an
    external library.  It is modelled by what dlisio relies on: a logical stream
    is a sequence of bytes followed either by a clean end of file (reads come
    back short) or by a physical truncation (lfp reports OKINCOMPLETE /
    UNEXPECTED_EOF and dlisio::stream::read throws).  A short read implies eof. *)
From Verif Require Import Bytes.
Local Open Scope Z_scope.

Record stream := mk_stream {
  s_data : bytes;
  s_hard : bool     (* reading past [s_data] throws instead of coming back short *)
}.

(** lib/src/file.cpp 42-57 (stream::read) with the position made explicit
    (stream::seek, 17-27, never fails for offsets >= 0).  None = exception. *)
Definition read (s : stream) (pos n : Z) : option bytes :=
  if n =? 0 then Some []
  else if (n <? 0) || (pos <? 0) then None
  else
    let got := firstn (Z.to_nat n) (skipn (Z.to_nat pos) (s_data s)) in
    if (length got =? Z.to_nat n)%nat then Some got
    else if s_hard s then None
    else Some got.

(** lib/include/dlisio/dlis/records.hpp (enum class error_severity) *)
Inductive severity := INFO | MINOR | MAJOR | CRITICAL.

(** how a call ends *)
Inductive res (A : Type) :=
  | Ok (a : A)
  | Exn             (* a C++/Python exception *)
  | UB              (* reads outside an allocation *)
  | Fuel.           (* recursion budget exhausted: excluded by theorems *)
Arguments Ok {A}. Arguments Exn {A}. Arguments UB {A}. Arguments Fuel {A}.

(** a result together with the severities logged on the way *)
Definition io (A : Type) := (list severity * res A)%type.
Definition ret {A} (a : A) : io A := ([], Ok a).
Definition fail {A} : io A := ([], Exn).
Definition bind {A B} (m : io A) (k : A -> io B) : io B :=
  match m with
  | (l, Ok a) => let '(l', r) := k a in (l ++ l', r)
  | (l, Exn) => (l, Exn)
  | (l, UB) => (l, UB)
  | (l, Fuel) => (l, Fuel)
  end.
Notation "'let*' x := m 'in' k" := (bind m (fun x => k))
  (at level 200, x pattern, m at level 100, k at level 200, right associativity).

(** python/dlisio/common/errorhandler.py 168-181 (ErrorHandler.log) as seen from
    C++: the message is recorded and, when the user escalated this severity,
    an exception is raised.  [esc] is the user's configuration. *)
Definition log (esc : severity -> bool) (s : severity) : io unit :=
  ([s], if esc s then Exn else Ok tt).
