(** Independent specification for C79: what the 80 bytes of a storage unit label are
    to give. *)
From Verif Require Import Bytes DlisCore SpecCore SpecCommon DlisLabel.
Local Open Scope Z_scope.

(** no version can be read, or 1.0 *)
Definition version_1 (rev : bytes) : Prop := forall major minor, revision_text rev major minor -> major = 1 /\ minor = 0.
(** all fields are as RP66 has them *)
Definition valid_fields (seq rev lay ln : bytes) : Prop :=
  revision_text rev 1 0 /\ lay = text "RECORD" /\ (exists n, sul_number seq n /\ 0 < n) /\ (exists n, sul_number ln n).

(** A readable version other than 1.0 is refused.  Unreadable fields get a default and
    the user a warning, which is an exception if [strict].  The id ends at the first
    NUL and has to be UTF-8. *)
Inductive gives (strict : bool) (seq rev lay ln id : bytes) : label_answer -> Prop :=
| gv_version major minor :
    revision_text rev major minor -> (major, minor) <> (1, 0) -> gives strict seq rev lay ln id RaisesValueError
| gv_warning :
    version_1 rev -> ~ valid_fields seq rev lay ln -> strict = true -> gives strict seq rev lay ln id RaisesWarning
| gv_decode s :
    version_1 rev -> valid_fields seq rev lay ln \/ strict = false ->
    c_string_of id s -> (forall u, ~ utf8_text u s) -> gives strict seq rev lay ln id RaisesUnicodeDecodeError
| gv_fields warned n layout m s u :
    version_1 rev -> valid_fields seq rev lay ln \/ strict = false ->
    (warned = false <-> valid_fields seq rev lay ln) ->
    (sul_number seq n /\ 0 < n \/ (forall k, sul_number seq k -> k <= 0) /\ n = -1) ->
    (lay = text "RECORD" /\ layout = text "record" \/ lay <> text "RECORD" /\ layout = text "unknown") ->
    (sul_number ln m \/ (forall k, ~ sul_number ln k) /\ m = 0) ->
    c_string_of id s -> utf8_text u s ->
    gives strict seq rev lay ln id (Label warned n (text "1.0") layout m u).
