(** Independent specification for C78: what a session is compared with. *)
From Verif Require Import Bytes Stream DlisTypes DlisRecords DlisIo DlisFdata CommonPy PyBase DlisStore DlisObject DlisEncodings.
Local Open Scope Z_scope.

(** whether caching is on at the end, if it was at the start *)
Definition caching_after {encoding} (es : list (event encoding)) (start : bool) : bool :=
  fold_left (fun b e => match e with Ask _ (CacheMetadata on) => on | _ => b end) es start.

(** text that is UTF-8, up to the first NUL: C60 says that the encodings do not matter *)
Definition is_utf8 (s : bytes) : Prop := utf8 (c_string s) <> None.

(** a value that refers to another object *)
Definition refers_to (v : value) : bool := match v with VName _ | VRef _ | VAttr _ => true | _ => false end.
(** the attribute with that label holds no reference *)
Definition plain_attribute (enc : pystr -> bytes) (o : object) (key : pystr) : Prop :=
  forall a c vs v, In a (obj_attrs o) -> at_label a = enc key -> at_value a = Vec c vs -> In v vs -> refers_to v = false.
