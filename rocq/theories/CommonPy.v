(** Model of python/dlisio/ext/core.cpp (strings) and
    python/dlisio/common/errorhandler.py (actions). *)
From Verif Require Import Bytes Stream PyBase.
Local Open Scope Z_scope.

(** ** Strings *)

(** what a string becomes in Python: str (its code points) or bytes *)
Inductive pystr := Str (u : list Z) | Raw (s : bytes).

(** std::string::c_str seen as a C string: the bytes before the first NUL *)
Fixpoint c_string (s : bytes) : bytes :=
  match s with
  | [] => []
  | b :: t => if b2z b =? 0 then [] else b :: c_string t
  end.

Section decode_str.
(** an encoding is its name *)
Variable encoding : Type.
(** PyUnicode_Decode(.., enc, "strict"), None: an exception.  External: Python's
    codecs; an unknown encoding fails too. *)
Variable codec : encoding -> bytes -> option (list Z).
(** whether warnings are turned into exceptions (warnings.simplefilter("error")) *)
Variable warning_raises : bool.

(** core.cpp 84-94 *)
Fixpoint try_encodings (encs : list encoding) (s : bytes) : option (list Z) :=
  match encs with
  | [] => None
  | enc :: rest => match codec enc s with Some u => Some u | None => try_encodings rest s end
  end.

(** core.cpp 79-112.  The boolean tells whether a UnicodeWarning is issued;
    [None] is the exception the warning turns into. *)
Definition decode_str (encodings : list encoding) (src : bytes) : bool * option pystr :=
  match utf8 (c_string src) with
  | Some u => (false, Some (Str u))
  | None =>
      match try_encodings encodings src with
      | Some u => (false, Some (Str u))
      | None => (true, if warning_raises then None else Some (Raw src))
      end
  end.

(** core.cpp 66-74 and settings.py 18-94: the encodings are process-wide state,
    set_encodings replaces them *)
Definition set_encodings (encs _old : list encoding) : list encoding := encs.
End decode_str.

(** ** Errors *)

(** A Python callable that gets a message may change the world (logs, files, its
    own state) and then returns or raises: a RuntimeError or another exception. *)
Inductive outcome := Returns | RaisesRuntime | RaisesOther.
Inductive level := LDebug | LInfo | LWarning | LError.

Section errorhandler.
Variable message : Type.
Variable world : Type.
(** the logging module: log.debug, log.info, ... External. *)
Variable logging : level -> message -> world -> world.

Definition action := message -> world -> world * outcome.

(** errorhandler.py 7-22, 148-154 *)
Definition LOG_DEBUG : action := fun m w => (logging LDebug m w, Returns).
Definition LOG_INFO : action := fun m w => (logging LInfo m w, Returns).
Definition LOG_WARNING : action := fun m w => (logging LWarning m w, Returns).
Definition LOG_ERROR : action := fun m w => (logging LError m w, Returns).
Definition RAISE : action := fun m w => (w, RaisesRuntime).
Definition SWALLOW : action := fun m w => (w, Returns).

(** errorhandler.py 156-166 *)
Record error_handler := mk_error_handler { h_info : action; h_minor : action; h_major : action; h_critical : action }.
Definition default_handler : error_handler := mk_error_handler LOG_DEBUG LOG_INFO LOG_WARNING RAISE.

(** errorhandler.py 168-181; [m] is the formatted message.  A severity that is
    none of the four cannot come from the library. *)
Definition handler_log (h : error_handler) (sev : severity) (m : message) (w : world) : world * outcome :=
  match sev with
  | INFO => h_info h m w
  | MINOR => h_minor h m w
  | MAJOR => h_major h m w
  | CRITICAL => h_critical h m w
  end.

(** Problems reported one after the other during a call: an exception passes
    through the C++ code (core.cpp 119-137) and ends the call. *)
Fixpoint report (h : error_handler) (problems : list (severity * message)) (w : world) : world * outcome :=
  match problems with
  | [] => (w, Returns)
  | (sev, m) :: rest =>
      let '(w', o) := handler_log h sev m w in
      match o with
      | Returns => report h rest w'
      | _ => (w', o)
      end
  end.
End errorhandler.

(** ** Messages *)

(** errorhandler.py 183-189 *)
Definition format_severity (sev : severity) : bytes :=
  match sev with INFO => text "info" | MINOR => text "minor" | MAJOR => text "major" | CRITICAL => text "critical" end.

(** '\n{:<{align}} {}'.format(tag, value, align=13) *)
Definition format_line (tag value : bytes) : bytes :=
  [z2b 10] ++ tag ++ repeat " "%byte (13 - length tag) ++ [" "%byte] ++ value.
Definition if_given (tag value : bytes) : bytes :=
  match value with [] => [] | _ => format_line tag value end.

(** errorhandler.py 193-212 *)
Definition format_error (sev : severity) (context problem spec action debug : bytes) : bytes :=
  let problem := format_line (text "Problem:") problem in
  let context := format_line (text "Where:") context in
  let severity := format_line (text "Severity:") (format_severity sev) in
  let spec := if_given (text "RP66V1 ref:") spec in
  let action := if_given (text "Action taken:") action in
  let debug := if_given (text "Debug info:") debug in
  problem ++ context ++ severity ++ spec ++ action ++ debug.
