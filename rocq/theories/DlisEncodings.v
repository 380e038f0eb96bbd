(** Model of changing the encodings while a logical file is open: settings.py,
    core.cpp 66-112, file.py and utils/fdata.py. *)
From Verif Require Import Bytes Stream PyBase DlisTypes DlisCore DlisIo DlisRecords DlisFdata CommonPy DlisStore DlisSchema DlisObject DlisFrame Dimensional DlisCurves.
Local Open Scope Z_scope.

Section encodings.
(** as in CommonPy *)
Variable encoding : Type.
Variable codec : encoding -> bytes -> option (list Z).
(** as in DlisStore *)
Variable enc : pystr -> bytes.
Variable esc : severity -> bool.
Variable set_order : list pystr -> list pystr.

(** core.cpp 79-112 with given encodings.  Simplified: warnings are not exceptions, and
    that they are issued is left out (C60 has both). *)
Definition decoder (encs : list encoding) (s : bytes) : pystr :=
  match snd (decode_str encoding codec false encs s) with Some t => t | None => Raw s end.

(** ** A session: the encodings in force and an open logical file *)

(** [se_index] is lf.fdata_index, a dict made at load (load.py 189, file.py 347-353) *)
Record session := mk_session { se_encs : list encoding; se_store : store; se_index : list (pystr * list Z) }.
(** a file loaded while the encodings are in force: its sets and its index *)
Definition opened (encs : list encoding) (sets : list object_set) (idx : fdata_index) : session :=
  mk_session encs (new_store sets) (fdata_dict (decoder encs) idx).

(** what is asked of a logical file or of its objects, and the answer *)
Inductive query :=
  | Find (type : pystr) (name : option pystr) (m : option pymatcher)
  | Object (type name : pystr) (origin copynr : option Z)
  | Fileheader
  | Objects (t : bytes)
  | Attribute (sc : schema) (o : object) (key : pystr)
  | FrameOf (channel : object)
  | CacheMetadata (on : bool).
Inductive answer :=
  | AObjects (r : io (list pyobject))
  | AObject (r : io (option pyobject))
  | AValue (r : io (option result))
  | ANone.

(** file.py 212-254, 384-426, 552-611, basicobject.py 171-231, channel.py 105-136 with
    the encodings in force when it is called *)
Definition ask (encs : list encoding) (q : query) (st : store) : store * answer :=
  let dec := decoder encs in
  match q with
  | Find t n m => let '(st, r) := store_find dec enc esc set_order st t n m in (st, AObjects r)
  | Object t n o c => let '(st, r) := lf_object dec enc esc set_order st t n o c in (st, AObject r)
  | Fileheader => let '(st, r) := fileheader dec enc esc set_order st in (st, AObject r)
  | Objects t => let '(st, r) := objects_of_type dec enc esc set_order st t in (st, AObjects r)
  | Attribute sc o key => let '(st, r) := getitem dec enc esc set_order st sc o key in (st, AValue r)
  | FrameOf o => let '(st, r) := channel_frame dec enc esc set_order st o in (st, AObject r)
  | CacheMetadata on => (cache_metadata st on, ANone)
  end.

Inductive event := Ask (q : query) | SetEncodings (encs : list encoding).
(** settings.py 18-94, core.cpp 68-70: what is open is not touched *)
Definition happen (s : session) (e : event) : session :=
  match e with
  | Ask q => mk_session (se_encs s) (fst (ask (se_encs s) q (se_store s))) (se_index s)
  | SetEncodings encs => mk_session (set_encodings encoding encs (se_encs s)) (se_store s) (se_index s)
  end.
Definition happens (s : session) (es : list event) : session := fold_left happen es s.
Definition asked (s : session) (q : query) : answer := snd (ask (se_encs s) q (se_store s)).

(** ** Curves, with the dict of the logical file *)

(** utils/fdata.py 13-16, 37-40 *)
Definition records_of (dict : list (pystr * list Z)) (fp : pystr) : list Z :=
  match dict_get fp dict with Some l => l | None => [] end.

Variable maxdims : nat.
Variable fmtlabel : ustr -> Z -> Z -> option ustr.
(** DlisCurves.curves: frame.py 465-470 and utils/fdata.py 8-32.  The names of channels
    are those of the encodings in force: right if no channel was promoted under others,
    as when caching has just been switched on or off. *)
Definition session_curves (s : session) (file : stream) (after : Z -> bytes) (frame : pyobject) (strict : bool)
    : store * io (list field * list cell * Z) :=
  let dec := decoder (se_encs s) in
  chain (frame_channels dec enc esc set_order (se_store s) frame) (fun st chs =>
  chain (columns_of dec enc esc set_order st chs) (fun st cols =>
    (st, let* fp := fingerprint dec enc (po_attic frame) in
         frame_curves maxdims fmtlabel esc file after strict cols (records_of (se_index s) fp)))).
(** DlisCurves.noformat_data: utils/fdata.py 34-41 *)
Definition session_noformat (s : session) (file : stream) (self : object) : io bytes :=
  let* fp := fingerprint (decoder (se_encs s)) enc self in read_noform esc file (records_of (se_index s) fp).
End encodings.
