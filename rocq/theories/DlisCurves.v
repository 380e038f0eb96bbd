(** Model of Frame.curves, Frame.index, Channel.curves and Noformat.data as methods of
    the objects of a loaded logical file: frame.py, channel.py, noformat.py and
    utils/fdata.py on top of the object store. *)
From Verif Require Import Bytes Stream PyBase DlisTypes DlisCore DlisIo DlisRecords DlisFdata CommonPy DlisStore DlisSchema DlisObject DlisFrame Dimensional.
Local Open Scope Z_scope.

(** one call after another: the store as the first leaves it, and messages in order *)
Definition chain {A B} (m : store * io A) (k : store -> A -> store * io B) : store * io B :=
  match m with
  | (st, (l, Ok x)) => let '(st, (l', r)) := k st x in (st, (l ++ l', r))
  | (st, (l, Exn)) => (st, (l, Exn))
  | (st, (l, UB)) => (st, (l, UB))
  | (st, (l, Fuel)) => (st, (l, Fuel))
  end.

Section curves.
Variable dec : bytes -> pystr.
Variable enc : pystr -> bytes.
Variable esc : severity -> bool.
Variable set_order : list pystr -> list pystr.
Variable maxdims : nat.
(** self.dtype_fmt.format (DlisFrame.frame) *)
Variable fmtlabel : ustr -> Z -> Z -> option ustr.

(** basicobject.py 240-256.  The type and the name are Python strings by now, and so is
    what comes back from C++. *)
Definition fingerprint (o : object) : io pystr :=
  match py_fingerprint (enc (dec (obj_type o))) (enc (dec (ob_id (obj_name o)))) (ob_origin (obj_name o)) (ob_copy (obj_name o)) with
  | FpOk f => ret (dec f)
  | FpInvalid => fail
  | FpOverrun => ([], UB)
  end.
(** the dict that core.findfdata returns (load.py 189; pybind11's conversion of
    std::map with the caster of ident, ext/dlis.cpp 141-145).  Of keys that read the same
    the last one stays.  Simplified: the order is that in which the keys first occur, not
    the order of the keys. *)
Definition fdata_dict (idx : fdata_index) : list (pystr * list Z) :=
  fold_left (fun d e => dict_put (dec (fst e)) (snd e) d) idx [].
(** utils/fdata.py 13-16, 37-40 *)
Definition indices_of (idx : fdata_index) (fp : pystr) : list Z :=
  match dict_get fp (fdata_dict idx) with Some l => l | None => [] end.

(** channel.reprc (channel.py 142-144).  Simplified: what is not an int is an exception,
    which is right for all but floats that equal the number of a code. *)
Definition channel_reprc (st : store) (o : object) : store * io Z :=
  let '(st, r) := getitem dec enc esc set_order st channel_schema o (lit (text "REPRESENTATION-CODE")) in
  (st, let* v := r in match v with Some (ROne (PNumber c z)) => if integer_code c then ret z else fail | _ => fail end).
(** channel.dimension (channel.py 154-156) *)
Definition channel_dimension (st : store) (o : object) : store * io (list Z) :=
  let '(st, r) := listing dec enc esc set_order st channel_schema o (text "DIMENSION") in
  (st, let* l := r in match dims_of l with Some ds => ret ds | None => fail end).
(** what dtype and fmtstr need of a channel.  Simplified: each attribute is read once,
    and not again for each use, so repeated messages are not modelled.  A name or
    fingerprint that is not a str is refused by numpy. *)
Definition column_of (st : store) (ch : pyval) : store * io (option column) :=
  match ch with
  | PNone => (st, ret None)
  | PObject c =>
      let o := po_attic c in
      chain (channel_reprc st o) (fun st reprc =>
      chain (channel_dimension st o) (fun st dim =>
        (st, let* fp := fingerprint o in
             match po_name dec c, fp with
             | Str name, Str fp => ret (Some (mk_column name fp (ob_origin (obj_name o)) (ob_copy (obj_name o)) reprc dim))
             | _, _ => fail
             end)))
  | _ => (st, fail)
  end.
Fixpoint columns_of (st : store) (chs : list pyval) : store * io (list (option column)) :=
  match chs with
  | [] => (st, ret [])
  | ch :: chs =>
      chain (column_of st ch) (fun st c =>
      chain (columns_of st chs) (fun st cs => (st, ret (c :: cs))))
  end.

(** frame.py 465-470 and utils/fdata.py 8-32.  [s] and [idx] are the stream and the
    index of the logical file. *)
Definition curves (st : store) (s : stream) (after : Z -> bytes) (idx : fdata_index) (frame : pyobject) (strict : bool)
    : store * io (list field * list cell * Z) :=
  chain (frame_channels dec enc esc set_order st frame) (fun st chs =>
  chain (columns_of st chs) (fun st cols =>
    (st, let* fp := fingerprint (po_attic frame) in
         frame_curves maxdims fmtlabel esc s after strict cols (indices_of idx fp)))).

(** array[key]: the column with that name or title.  None is numpy's ValueError. *)
Definition np_field (d : list field) (key : ustr) : option field :=
  find (fun f => ustr_eqb (fd_name f) key || match fd_title f with Some t => ustr_eqb t key | None => false end) d.
(** the items of a column *)
Definition np_column (d : list field) (cells : list cell) (rows : Z) (f : field) : list (list cell) :=
  map (fun r => firstn (Z.to_nat (type_size (fd_type f))) (skipn (Z.to_nat (Z.of_nat r * itemsize d + fd_offset f)) cells))
    (seq 0 (Z.to_nat rows)).
(** channel.py 206-266: the type and the items, or Python's None.  Simplified: self.frame
    is looked up once. *)
Definition channel_curves (st : store) (s : stream) (after : Z -> bytes) (idx : fdata_index) (self : object)
    : store * io (option (type * list (list cell))) :=
  chain (channel_frame dec enc esc set_order st self) (fun st fr =>
    match fr with
    | None => (st, ret None)
    | Some fr =>
        chain (curves st s after idx fr true) (fun st (x : list field * list cell * Z) =>
          let '(d, cells, rows) := x in
          (st, let* fp := fingerprint self in
               match fp with
               | Str fp => match np_field d fp with Some f => ret (Some (fd_type f, np_column d cells rows f)) | None => fail end
               | _ => fail
               end))
    end).

(** utils/fdata.py 34-41 (noformat.py 150) *)
Definition noformat_data (s : stream) (idx : fdata_index) (self : object) : io bytes :=
  let* fp := fingerprint self in read_noform esc s (indices_of idx fp).

(** frame.py 148-168; the inner None is Python's.  Simplified: self.channels is read once. *)
Definition frame_index (st : store) (frame : pyobject) : store * io (option pystr) :=
  chain (frame_channels dec enc esc set_order st frame) (fun st chs =>
    match chs with
    | [] => (st, ret None)
    | ch :: _ =>
        let '(st, r) := getitem dec enc esc set_order st frame_schema (po_attic frame) (lit (text "INDEX-TYPE")) in
        (st, let* v := r in
             match v with
             | Some RNone => ret (Some (lit (text "FRAMENO")))
             | Some _ => match ch with PObject c => ret (Some (po_name dec c)) | _ => fail end
             | None => fail
             end)
    end).
End curves.
