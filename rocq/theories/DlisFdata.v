(** Model of the curve readers in python/dlisio/ext/dlis.cpp 269-733. *)
From Verif Require Import Bytes DlisTypes DlisCore Stream DlisIo DlisRecords PyBase.
Local Open Scope Z_scope.

(** ** Source pointers *)

(** A position in a record's buffer: the memory from there on, and the number of
    bytes up to the end of the record.  Memory goes on behind the record with
    whatever lies there; a read beyond the modelled memory is UB. *)
Record ptr := mk_ptr { p_mem : bytes; p_left : Z }.
(** the pointer returned by a reader that leaves [rest] *)
Definition moved (p : ptr) (rest : bytes) : ptr :=
  mk_ptr rest (p_left p - (Z.of_nat (length (p_mem p)) - Z.of_nat (length rest))).

(** ** Destination *)

(** Python objects stored in an array *)
Inductive pyobj :=
  | PyFloats (zs : list Z)       (* tuple of floats, as bit patterns *)
  | PyStr (s : list Z)           (* str, as code points *)
  | PyName (n : obname)
  | PyRef (r : objref)
  | PyAttr (a : attref)
  | PyTime (t : datetime).

(** a byte of a numpy array: not yet written, a plain byte, or the i-th byte of
    a PyObject pointer *)
Inductive cell := Undef | Raw (b : byte) | Ref (o : pyobj) (i : nat).

(** dlis.cpp 331-339 (swap_pointer): sizeof(PyObject pointer) = 8.  Reference
    counts are not modelled. *)
Definition ref_cells (o : pyobj) : list cell := map (Ref o) (seq 0 8).

(** dlis.cpp 385-407: char is signed, so [uint32_t(tmp[i])] sign-extends *)
Definition ident_cells (s : bytes) : list cell :=
  map Raw (flat_map (fun b => native 4 (signed 8 (b2z b))) s)
  ++ repeat (Raw x00) (4 * (255 - length s)).

(** dlis.cpp 269-274 (assert_overflow) *)
Definition overflows (p : ptr) (skip : Z) : bool := skip >? p_left p.

(** a dlis_packflen call followed by assert_overflow; a format error leaves
    src_skip uninitialised (UB) *)
Definition skip_fmt (f : bytes) (p : ptr) : res ptr :=
  match dlis_packflen f (p_mem p) with
  | LenOob => UB
  | LenErr => UB
  | LenOk skip _ =>
      if overflows p skip then Exn
      else Ok (mk_ptr (skipn (Z.to_nat skip) (p_mem p)) (p_left p - skip))
  end.

(** dlis.cpp 276-528: the cells written to dst and the new ptr.  [c] is *f. *)
Definition read_curve_sample (c : byte) (p : ptr) : res (list cell * ptr) :=
  let obj {A} (r : option (A * bytes)) (o : A -> option pyobj) :=
    let! (v, rest) := unchecked r in
    match o v with
    | Some o => Ok (ref_cells o, moved p rest)
    | None => Exn
    end in
  match fmt_of_byte c with
  | Some FSING1 => obj (dlis_fsing1 (p_mem p)) (fun '(v, a) => Some (PyFloats [v; a]))
  | Some FSING2 => obj (dlis_fsing2 (p_mem p)) (fun '(v, a, b) => Some (PyFloats [v; a; b]))
  | Some FDOUB1 => obj (dlis_fdoub1 (p_mem p)) (fun '(v, a) => Some (PyFloats [v; a]))
  | Some FDOUB2 => obj (dlis_fdoub2 (p_mem p)) (fun '(v, a, b) => Some (PyFloats [v; a; b]))
  | Some (IDENT | UNITS) =>
      let! (s, rest) := unchecked (dlis_ident (p_mem p)) in
      Ok (ident_cells s, moved p rest)
  | Some ASCII => obj (dlis_ascii (p_mem p)) (fun s => do u <- utf8 s; Some (PyStr u))
  | Some OBNAME => obj (dlis_obname (p_mem p)) (fun n => Some (PyName n))
  | Some OBJREF => obj (dlis_objref (p_mem p)) (fun n => Some (PyRef n))
  | Some ATTREF => obj (dlis_attref (p_mem p)) (fun n => Some (PyAttr n))
  | Some DTIME => obj (dlis_dtime (p_mem p)) (fun t => do t <- to_pydatetime t; Some (PyTime t))
  | _ =>
      let! q := skip_fmt [c] p in
      match dlis_packf [c] (p_mem p) with
      | PackOk out => Ok (map Raw out, q)
      | _ => UB
      end
  end.

(** dlis.cpp 530-535: what has been written, also when it ends by an exception *)
Fixpoint read_fdata_frame (f : bytes) (p : ptr) : list cell * res ptr :=
  match f with
  | [] => ([], Ok p)
  | c :: f =>
      match read_curve_sample c p with
      | Ok (cells, q) =>
          let '(more, r) := read_fdata_frame f q in (cells ++ more, r)
      | Exn => ([], Exn)
      | UB => ([], UB)
      | Fuel => ([], Fuel)
      end
  end.

(** The array under construction (dlis.cpp 612-639): its memory, the allocated
    and the finished rows, and dst as an offset. *)
Record array := mk_array {
  a_cells : list cell; a_rows : Z; a_frames : Z; a_dst : Z }.

(** dlis.cpp 612-616: alloc(n) is np.empty *)
Definition new_array (itemsize n : Z) : array :=
  mk_array (repeat Undef (Z.to_nat (n * itemsize))) n 0 0.
(** dlis.cpp 624-632: ndarray.resize keeps the front of the array; dst points to
    the start.  (New entries are zero; they are overwritten before use.) *)
Definition resize (itemsize n : Z) (a : array) : array :=
  let size := Z.to_nat (n * itemsize) in
  mk_array (firstn size (a_cells a ++ repeat Undef size)) n (a_frames a) 0.
(** a write at dst; None = outside the array *)
Definition write (a : array) (cells : list cell) : option array :=
  let d := Z.to_nat (a_dst a) in
  let e := (d + length cells)%nat in
  if (a_dst a <? 0) || (length (a_cells a) <? e)%nat then None
  else Some (mk_array (firstn d (a_cells a) ++ cells ++ skipn e (a_cells a))
                      (a_rows a) (a_frames a) (a_dst a + Z.of_nat (length cells))).

(** dlis.cpp 537-570.  A row that consumes nothing would make the loop endless;
    [fuel] rounds are tried. *)
Fixpoint read_fdata_record (fuel : nat) (pre fmt post : bytes) (itemsize : Z) (p : ptr) (a : array)
    : array * res unit :=
  if p_left p <=? 0 then (a, Ok tt)
  else match fuel with
  | O => (a, Fuel)
  | S fuel =>
      let a := if a_frames a =? a_rows a then
                 let a := resize itemsize (a_frames a * 2) a in
                 mk_array (a_cells a) (a_rows a) (a_frames a) (a_dst a + a_frames a * itemsize)
               else a in
      match skip_fmt pre p with
      | Exn => (a, Exn) | UB => (a, UB) | Fuel => (a, Fuel)
      | Ok p =>
          let '(cells, r) := read_fdata_frame fmt p in
          match write a cells with
          | None => (a, UB)
          | Some a =>
              match r with
              | Exn => (a, Exn) | UB => (a, UB) | Fuel => (a, Fuel)
              | Ok p =>
                  match skip_fmt post p with
                  | Exn => (a, Exn) | UB => (a, UB) | Fuel => (a, Fuel)
                  | Ok p =>
                      read_fdata_record fuel pre fmt post itemsize p
                        (mk_array (a_cells a) (a_rows a) (a_frames a + 1) (a_dst a))
                  end
              end
          end
      end
  end.

(** dlis.cpp 655-690: the loop over the records.  [after tell] is the memory
    behind the buffer of the record at [tell].  The object name is skipped
    without reading its characters; in the model the characters are read. *)
Fixpoint read_fdata_loop (esc : severity -> bool) (s : stream) (after : Z -> bytes)
    (pre fmt post : bytes) (itemsize : Z) (indices : list Z) (a : array) : io array :=
  match indices with
  | [] => ret a
  | tell :: t =>
      match extract esc s tell with
      | (l, UB) => (l, UB)
      | (l, Fuel) => (l, Fuel)
      | (l, Exn) =>
          let* _ := (l, Ok tt) in
          let* _ := log esc CRITICAL in
          read_fdata_loop esc s after pre fmt post itemsize t a
      | (l, Ok rec) =>
          let* _ := (l, Ok tt) in
          if isencrypted rec then
            let* _ := log esc CRITICAL in
            read_fdata_loop esc s after pre fmt post itemsize t a
          else
            let p := mk_ptr (rec_data rec ++ after tell) (Z.of_nat (length (rec_data rec))) in
            match dlis_obname (p_mem p) with
            | None => ([], UB)
            | Some (_, rest) =>
                match read_fdata_record (length (p_mem p)) pre fmt post itemsize (moved p rest) a with
                | (a, Ok _) => read_fdata_loop esc s after pre fmt post itemsize t a
                | (a, Exn) =>
                    let* _ := log esc CRITICAL in
                    read_fdata_loop esc s after pre fmt post itemsize t
                      (mk_array (a_cells a) (a_rows a) (a_frames a) (a_frames a * itemsize))
                | (_, UB) => ([], UB)
                | (_, Fuel) => ([], Fuel)
                end
            end
      end
  end.

(** dlis.cpp 572-697: the array's memory and number of rows *)
Definition read_fdata (esc : severity -> bool) (s : stream) (after : Z -> bytes)
    (pre fmt post : bytes) (itemsize : Z) (indices : list Z) : io (list cell * Z) :=
  let* a := read_fdata_loop esc s after pre fmt post itemsize indices
              (new_array itemsize (Z.of_nat (length indices))) in
  let a := if a_rows a >? a_frames a then resize itemsize (a_frames a) a else a in
  ret (a_cells a, a_rows a).

(** dlis.cpp 699-733.  When the object name is longer than the record,
    [record_size] wraps around and the copy runs outside: UB. *)
Fixpoint read_noform (esc : severity -> bool) (s : stream) (indices : list Z) : io bytes :=
  match indices with
  | [] => ret []
  | tell :: t =>
      match extract esc s tell with
      | (l, UB) => (l, UB)
      | (l, Fuel) => (l, Fuel)
      | (l, Exn) =>
          let* _ := (l, Ok tt) in
          let* _ := log esc CRITICAL in
          read_noform esc s t
      | (l, Ok rec) =>
          let* _ := (l, Ok tt) in
          match dlis_obname (rec_data rec) with
          | None => ([], UB)
          | Some (_, rest) => let* more := read_noform esc s t in ret (rest ++ more)
          end
      end
  end.
