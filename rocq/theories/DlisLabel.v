(** Model of LogicalFile.storage_label (python/dlisio/dlis/file.py) and of the
    conversions of its result (python/dlisio/ext/dlis.cpp). *)
From Verif Require Import Bytes PyBase DlisCore.
Local Open Scope Z_scope.

(** what a call does.  [Label warned ...] is the dict with the keys sequence, version,
    layout, maxlen and id; [warned]: a RuntimeWarning was issued *)
Inductive label_answer :=
  | NoLabel
  | Label (warned : bool) (sequence : Z) (version layout : bytes) (maxlen : Z) (id : list Z)
  | RaisesValueError
  | RaisesWarning
  | RaisesUnicodeDecodeError.

(** dlis.cpp 182-243.  [warning_raises] is whether warnings are turned into exceptions
    (warnings.simplefilter("error")).  The version and the layout are ASCII; the id is
    a C string which pybind11 converts with PyUnicode_DecodeUTF8, strictly.
    std::invalid_argument arrives as ValueError. *)
Definition core_storage_label (warning_raises : bool) (sul : bytes) : label_answer :=
  match storage_label sul with
  | LabelTooSmall | LabelUnparsable => RaisesValueError
  | LabelOk l =>
      if label_warning l && warning_raises then RaisesWarning
      else
        match utf8 (label_id l) with
        | None => RaisesUnicodeDecodeError
        | Some id =>
            Label (label_warning l) (label_sequence l) (to_string (label_major l) ++ text "." ++ to_string (label_minor l))
              (label_layout l) (label_maxlen l) id
        end
  end.

(** file.py 662-673; [None] and empty bytes are both false.  That a warning is logged
    is left out. *)
Definition lf_storage_label (warning_raises : bool) (sul : option bytes) : label_answer :=
  match sul with
  | None | Some [] => NoLabel
  | Some b => core_storage_label warning_raises b
  end.
