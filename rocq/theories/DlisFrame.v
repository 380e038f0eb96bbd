(** Model of python/dlisio/dlis/frame.py, of the numpy types of channel.py and of
    utils/reprc.py: the structured type of a frame's curves. *)
From Verif Require LisPy.
From Verif Require Import Bytes Stream DlisTypes DlisCore DlisIo DlisRecords PyBase DlisFdata.
Local Open Scope Z_scope.

(** a Python str: its code points *)
Definition ustr := list Z.
(** equality of str objects *)
Definition ustr_eqb : ustr -> ustr -> bool := LisPy.str_eqb.
(** an ASCII literal *)
Definition ascii : bytes -> ustr := LisPy.str_of.

(** ** Tables *)

(** utils/reprc.py 5-34 (fmt).  The key "eof" is not a number and is left out. *)
Definition fmt_table : list (Z * byte) :=
  [ (1, "r"%byte); (2, "f"%byte); (3, "b"%byte); (4, "B"%byte); (5, "x"%byte); (6, "V"%byte);
    (7, "F"%byte); (8, "z"%byte); (9, "Z"%byte); (10, "c"%byte); (11, "C"%byte); (12, "d"%byte);
    (13, "D"%byte); (14, "l"%byte); (15, "u"%byte); (16, "U"%byte); (17, "L"%byte); (18, "i"%byte);
    (19, "s"%byte); (20, "S"%byte); (21, "j"%byte); (22, "J"%byte); (23, "o"%byte); (24, "O"%byte);
    (25, "A"%byte); (26, "q"%byte); (27, "Q"%byte) ].
(** utils/reprc.py 40-72 (dtype) *)
Definition dtype_table : list (Z * bytes) :=
  [ (1, text "f4"); (2, text "f4"); (3, text "O"); (4, text "O"); (5, text "f4"); (6, text "f4");
    (7, text "f8"); (8, text "O"); (9, text "O"); (10, text "c8"); (11, text "c16"); (12, text "i1");
    (13, text "i2"); (14, text "i4"); (15, text "u1"); (16, text "u2"); (17, text "u4"); (18, text "u4");
    (19, text "U255"); (20, text "O"); (21, text "O"); (22, text "u4"); (23, text "O"); (24, text "O");
    (25, text "O"); (26, text "?"); (27, text "U255") ].
(** dict[key] of a table with integer keys; None is the KeyError *)
Fixpoint table_get {A} (k : Z) (t : list (Z * A)) : option A :=
  match t with
  | [] => None
  | (k', v) :: t => if k' =? k then Some v else table_get k t
  end.

(** ** numpy (external) *)

(** the size of a scalar type on a 64-bit machine; None: no such type *)
Definition np_size (t : bytes) : option Z :=
  match find (fun e => bytes_eqb (fst e) t)
          [ (text "?", 1); (text "i1", 1); (text "i2", 2); (text "i4", 4); (text "u1", 1); (text "u2", 2);
            (text "u4", 4); (text "f4", 4); (text "f8", 8); (text "c8", 8); (text "c16", 16); (text "O", 8);
            (text "U255", 1020) ]
  with Some (_, n) => Some n | None => None end.
(** PyArray_OverflowMultiplyList: stops at the first zero; None is an overflow of
    64-bit signed integers *)
Fixpoint np_items (acc : Z) (shape : list Z) : option Z :=
  match shape with
  | [] => Some acc
  | d :: t => if d =? 0 then Some 0 else if acc * d >=? 2 ^ 63 then None else np_items (acc * d) t
  end.
(** a type as np.dtype makes it: the scalar type and the shape of the subarray *)
Definition type := (bytes * list Z)%type.
(** np.dtype((t, shape)): at most [maxdims] dimensions (32 or 64, by version), none
    negative, and a size that fits a C int; None is the ValueError.  The empty shape
    gives the scalar type. *)
Definition np_subarray (maxdims : nat) (t : bytes) (shape : list Z) : option type :=
  if (maxdims <? length shape)%nat then None
  else if existsb (fun d => (d <? 0) || (d >? 2 ^ 31 - 1)) shape then None
  else
    do n <- np_items 1 shape;
    do e <- np_size t;
    if n * e >? 2 ^ 31 - 1 then None else Some (t, shape).
(** the number of bytes of an element *)
Definition type_size (t : type) : Z :=
  match np_size (fst t), np_items 1 (snd t) with Some e, Some n => n * e | _, _ => 0 end.

(** a field of a structured type: its title and name, as given to np.dtype *)
Definition entry := (option ustr * ustr * type)%type.
Record field := mk_field { fd_title : option ustr; fd_name : ustr; fd_type : type; fd_offset : Z }.
(** np.dtype([((title, name), type), ...]) without alignment.  Names and titles are
    keys of one dictionary; a key that exists already is a ValueError, also when a
    title equals its name.  An empty name is replaced with the title. *)
Fixpoint np_fields (used : list ustr) (offset : Z) (l : list entry) : option (list field) :=
  match l with
  | [] => Some []
  | (title, name, t) :: l =>
      let name := match name, title with [], Some s => s | _, _ => name end in
      if existsb (ustr_eqb name) used then None
      else
        do used <- match title with
                   | None => Some (name :: used)
                   | Some s => if existsb (ustr_eqb s) (name :: used) then None else Some (s :: name :: used)
                   end;
        do r <- np_fields used (offset + type_size t) l;
        Some (mk_field title name t offset :: r)
  end.
(** np.dtype(list) *)
Definition np_dtype (l : list entry) : option (list field) := np_fields [] 0 l.
(** dtype.itemsize *)
Definition itemsize (d : list field) : Z := fold_right (fun f n => type_size (fd_type f) + n) 0 d.

(** ** Channels *)

(** what a frame needs to know of a channel: name, fingerprint, origin and copynumber
    (basicobject.py 156-168, 240-256), reprc and dimension (channel.py 142-160).
    Simplified: the name is a str and the numbers are integers; numpy and the format
    raise TypeError otherwise. *)
Record column := mk_column {
  cl_name : ustr; cl_fp : ustr; cl_origin : Z; cl_copy : Z; cl_reprc : Z; cl_dim : list Z }.

Section frame.
Variable maxdims : nat.

(** channel.py 169-185 *)
Definition channel_dtype (c : column) : option type :=
  do base <- table_get (cl_reprc c) dtype_table;
  match cl_dim c with
  | [1] => Some (base, [])
  | dim => np_subarray maxdims base dim
  end.
(** np.prod of 64-bit integers *)
Definition np_prod (l : list Z) : Z :=
  (fold_left Z.mul l 1 + 2 ^ 63) mod 2 ^ 64 - 2 ^ 63.
(** channel.py 187-204; [samples * reprc] is empty for a negative number *)
Definition channel_fmtstr (c : column) : option bytes :=
  match cl_dim c with
  | [] => None
  | dim => do ch <- table_get (cl_reprc c) fmt_table; Some (repeat ch (Z.to_nat (np_prod dim)))
  end.

(** ** Frame *)

(** self.dtype_fmt.format(name, origin, copynumber); None is an exception *)
Variable fmtlabel : ustr -> Z -> Z -> option ustr.

(** dict lookup and update in [seen] *)
Definition seen := list (ustr * option (nat * column)).
Fixpoint seen_get (k : ustr) (d : seen) : option (option (nat * column)) :=
  match d with
  | [] => None
  | (k', v) :: d => if ustr_eqb k' k then Some v else seen_get k d
  end.
Fixpoint seen_put (k : ustr) (v : option (nat * column)) (d : seen) : seen :=
  match d with
  | [] => [(k, v)]
  | (k', v') :: d => if ustr_eqb k' k then (k, v) :: d else (k', v') :: seen_put k v d
  end.
(** types[i] = x *)
Fixpoint set_nth {A} (i : nat) (x : A) (l : list A) : list A :=
  match i, l with
  | O, _ :: l => x :: l
  | S i, y :: l => y :: set_nth i x l
  | _, [] => []
  end.

(** frame.py 226-262: the loop; an element of [chs] that was not found is None, and
    raises (228-230) *)
Fixpoint dtype_loop (i : nat) (chs : list (option column)) (sn : seen) (types : list entry)
    : option (list entry) :=
  match chs with
  | [] => Some types
  | None :: _ => None
  | Some ch :: chs =>
      do t <- channel_dtype ch;
      match seen_get (cl_name ch) sn with
      | None =>
          dtype_loop (S i) chs (seen_put (cl_name ch) (Some (i, ch)) sn)
            (types ++ [(Some (cl_fp ch), cl_name ch, t)])
      | Some s =>
          do label <- fmtlabel (cl_name ch) (cl_origin ch) (cl_copy ch);
          let types := types ++ [(Some (cl_fp ch), label, t)] in
          match s with
          | None => dtype_loop (S i) chs sn types
          | Some (prev_index, prev) =>
              do label <- fmtlabel (cl_name prev) (cl_origin prev) (cl_copy prev);
              do pt <- channel_dtype prev;
              dtype_loop (S i) chs (seen_put (cl_name ch) None sn)
                (set_nth prev_index (Some (cl_fp prev), label, pt) types)
          end
      end
  end.

(** frame.py 528-570 (mkunique) *)
Definition label := (option ustr * ustr)%type.
Definition label_eqb (a b : label) : bool :=
  match fst a, fst b with
  | None, None => ustr_eqb (snd a) (snd b)
  | Some s, Some t => ustr_eqb s t && ustr_eqb (snd a) (snd b)
  | _, _ => false
  end.
Definition count (a : label) (l : list label) : nat := length (filter (label_eqb a) l).
(** the keys of Counter(labels), in order of their first occurrence *)
Fixpoint distinct (l : list label) : list label :=
  match l with
  | [] => []
  | a :: l => a :: filter (fun b => negb (label_eqb a b)) (distinct l)
  end.
(** '({})'.format(k) *)
Definition tail (k : nat) : ustr := ascii (text "(" ++ LisPy.str_int (Z.of_nat k) ++ text ")").
Fixpoint number_label (dup : label) (k : nat) (l : list entry) : list entry :=
  match l with
  | [] => []
  | (a, t) :: l =>
      if label_eqb a dup then
        (option_map (fun s => s ++ tail k) (fst a), snd a ++ tail k, t) :: number_label dup (S k) l
      else (a, t) :: number_label dup k l
  end.
Definition mkunique (types : list entry) : list entry :=
  let labels := map fst types in
  let duplicates := filter (fun x => (1 <? count x labels)%nat) (distinct labels) in
  fold_left (fun types dup => number_label dup 0 types) duplicates types.

(** frame.py 220-276; None is an exception *)
Definition frame_dtype (strict : bool) (chs : list (option column)) : option (list field) :=
  do types <- dtype_loop 1 chs [] [(None, ascii (text "FRAMENO"), (text "i4", []))];
  match np_dtype types with
  | Some d => Some d
  | None => if strict then None else np_dtype (mkunique types)
  end.

(** frame.py 278-293 *)
Fixpoint join_fmtstr (chs : list (option column)) : option bytes :=
  match chs with
  | [] => Some []
  | None :: _ => None
  | Some c :: chs => do f <- channel_fmtstr c; do r <- join_fmtstr chs; Some (f ++ r)
  end.
Definition frame_fmtstr (chs : list (option column)) : option bytes :=
  do f <- join_fmtstr chs; Some ("i"%byte :: f).

(** frame.py 465-470 and utils/fdata.py 8-32: the type, the memory and the number of
    rows.  [indices] are the records listed in fdata_index for this frame. *)
Definition frame_curves (esc : severity -> bool) (s : stream) (after : Z -> bytes) (strict : bool)
    (chs : list (option column)) (indices : list Z) : io (list field * list cell * Z) :=
  match frame_dtype strict chs with
  | None => fail
  | Some d =>
      match frame_fmtstr chs with
      | None => fail
      | Some f =>
          let* (cells, rows) := read_fdata esc s after [] f [] (itemsize d) indices in
          ret (d, cells, rows)
      end
  end.
End frame.

(** frame.py 109: dtype_format, '{:s}.{:d}.{:d}', for numbers that are not negative *)
Definition default_label (name : ustr) (origin copy : Z) : option ustr :=
  Some (name ++ ascii (text "." ++ LisPy.str_int origin ++ text "." ++ LisPy.str_int copy)).
