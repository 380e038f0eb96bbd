(** Model of python/dlisio/dlis/utils/dimensional.py and of the properties of
    Parameter, Computation and Measurement that use it: values with dimensions. *)
From Verif Require Import Bytes Stream PyBase DlisTypes DlisCore DlisRecords CommonPy DlisStore DlisSchema DlisObject.
From Verif Require DlisFrame.
Local Open Scope Z_scope.

(** ** numpy (external) *)

(** an array, or an item of one *)
Inductive nd := Item (v : pyval) | Arr (l : list nd).

(** values that are Python tuples: FSING1, FSING2, FDOUB1, FDOUB2 (ext/dlis.cpp 110-135) *)
Definition is_tuple (v : pyval) : bool :=
  match v with PNumbers c _ => (c =? 3) || (c =? 4) || (c =? 8) || (c =? 9) | _ => false end.
(** isinstance(data[0], tuple), len(data[0]) *)
Definition elem_shape (data : list pyval) : list Z :=
  match data with
  | PNumbers c zs :: _ => if is_tuple (PNumbers c zs) then [Z.of_nat (length zs)] else []
  | _ => []
  end.
(** fixed-width text: NUL characters at the end are not kept *)
Fixpoint drop_zeros (l : list Z) : list Z := match l with 0 :: t => drop_zeros t | _ => l end.
Definition np_str (u : list Z) : list Z := rev (drop_zeros (rev u)).
Fixpoint drop_nuls (l : bytes) : bytes := match l with x00 :: t => drop_nuls t | _ => l end.
Definition np_bytes (u : bytes) : bytes := rev (drop_nuls (rev u)).
(** the type np.array chooses for values of one kind and what it stores: the items, in
    order, and the size of each.  The kinds are those of attributes, whose values have one
    representation code: int or float (64 bits), complex, tuples of floats, str, bytes, or
    other objects.  None is an exception.  Simplified: a mixture of kinds is an
    exception.  The only one that occurs is that of str and bytes, if some text cannot be
    decoded; then numpy fails to decode the bytes as ASCII. *)
Fixpoint np_items_of {A} (f : pyval -> option A) (l : list pyval) : option (list A) :=
  match l with [] => Some [] | v :: l => do x <- f v; do r <- np_items_of f l; Some (x :: r) end.
Definition np_array (data : list pyval) : option (list pyval * Z) :=
  match data with
  | [] => None
  | PNumber _ _ :: _ =>
      do l <- np_items_of (fun v => match v with PNumber _ _ => Some v | _ => None end) data; Some (l, 8)
  | PNumbers c zs :: _ =>
      if is_tuple (PNumbers c zs)
      then
        do l <- np_items_of (fun v => match v with
                                      | PNumbers c' zs' => if is_tuple v && (length zs' =? length zs)%nat then Some (map (PNumber c') zs') else None
                                      | _ => None
                                      end) data;
        Some (concat l, 8)
      else
        do l <- np_items_of (fun v => match v with PNumbers _ _ => if is_tuple v then None else Some v | _ => None end) data; Some (l, 16)
  | PText (Str _) :: _ =>
      do l <- np_items_of (fun v => match v with PText (Str u) => Some u | _ => None end) data;
      Some (map (fun u => PText (Str (np_str u))) l, 4 * Z.max 1 (fold_right (fun u n => Z.max (Z.of_nat (length u)) n) 0 l))
  | PText (Raw _) :: _ =>
      do l <- np_items_of (fun v => match v with PText (Raw u) => Some u | _ => None end) data;
      Some (map (fun u => PText (Raw (np_bytes u))) l, Z.max 1 (fold_right (fun u n => Z.max (Z.of_nat (length u)) n) 0 l))
  | (PTime _ | PName _ | PRef _ | PAttr _) :: _ =>
      do l <- np_items_of (fun v => match v with PTime _ | PName _ | PRef _ | PAttr _ => Some v | _ => None end) data; Some (l, 8)
  | _ => None
  end.
(** np.dtype((type, shape)) for a type of [size] bytes: the size of the result, as
    DlisFrame.np_subarray *)
Definition np_subsize (maxdims : nat) (size : Z) (shape : list Z) : option Z :=
  if (maxdims <? length shape)%nat then None
  else if existsb (fun d => (d <? 0) || (d >? 2 ^ 31 - 1)) shape then None
  else
    do n <- DlisFrame.np_items 1 shape;
    if n * size >? 2 ^ 31 - 1 then None else Some (n * size).
(** np.ndarray(shape, dtype, buffer): the items of the buffer in C order *)
Fixpoint product (dims : list nat) : nat := match dims with [] => 1%nat | d :: ds => (d * product ds)%nat end.
Fixpoint view (buffer : list pyval) (dims : list nat) (offset : nat) : nd :=
  match dims with
  | [] => Item (nth offset buffer PNone)
  | d :: ds => Arr (map (fun i => view buffer ds (offset + i * product ds)) (seq 0 d))
  end.

(** ** dimensional.py *)

Section dimensional.
Variable maxdims : nat.

(** equality of lists of integers *)
Definition shape_eqb (a b : list Z) : bool := if list_eq_dec Z.eq_dec a b then true else false.
(** 65-68; the remainder of a division by zero of numpy integers is 0 *)
Definition divides (size : Z) (shape : list Z) : bool :=
  let samplesize := DlisFrame.np_prod shape in
  if samplesize =? 0 then true else size mod samplesize =? 0.
(** 14-69; [data] None is something that is not a sequence.  None is the ValueError. *)
Definition validshape (data : option (list pyval)) (shape : list Z) (samplecount : option Z) : option (list Z) :=
  match data with
  | None => Some [1]
  | Some [] => Some shape
  | Some data =>
      let size := Z.of_nat (length data) in
      do shape <- match shape with
                  | [] =>
                      if match samplecount with Some n => size =? n | None => false end then Some [1]
                      else if size =? 1 then Some [1]
                      else None
                  | _ => Some shape
                  end;
      if divides size shape then Some shape else None
  end.
(** 71-144: the array and whether the warning about the number of samples is logged.
    np.prod of an empty list is a float, which ndarray refuses; a division by zero of
    numpy integers is 0. *)
Definition sampling (data : option (list pyval)) (shape : list Z) (single : bool) : option (nd * bool) :=
  match data with
  | None | Some [] => Some (Arr [], false)
  | Some data =>
      match shape with
      | [] => None
      | _ =>
          let size := Z.of_nat (length data) in
          let samplesize := DlisFrame.np_prod shape in
          let samplecount := if samplesize =? 0 then 0 else size / samplesize in
          do (items, itemsize) <- np_array data;
          do elem <- np_subsize maxdims itemsize (elem_shape data);
          let inner := if shape_eqb shape [1] then [] else shape in
          do _ <- np_subsize maxdims elem inner;
          if (maxdims <? 1 + length inner + length (elem_shape data))%nat then None
          else
            let array := map (fun i => view items (map Z.to_nat (inner ++ elem_shape data))
                                         (i * product (map Z.to_nat (inner ++ elem_shape data))))
                             (seq 0 (Z.to_nat samplecount)) in
            if single
            then do first <- hd_error array; Some (first, negb (length array =? 1)%nat)
            else Some (Arr array, false)
      end
  end.

(** ** Parameter, Computation, Measurement *)

(** the dimensions, if they are integers *)
Definition integer_code (c : Z) : bool :=
  match c with 12 | 13 | 14 | 15 | 16 | 17 | 18 | 22 | 26 => true | _ => false end.
Definition dims_of : list pyval -> option (list Z) :=
  np_items_of (fun v => match v with PNumber c z => if integer_code c then Some z else None | _ => None end).
(** validshape and sampling.  With dimensions that are no integers, one or the other
    raises unless there are no values. *)
Definition structured (data : option (list pyval)) (dims : list pyval) (samplecount : option Z) (single : bool) : option (nd * bool) :=
  match dims_of dims with
  | Some shape => do shape <- validshape data shape samplecount; sampling data shape single
  | None => match data with Some (_ :: _) => None | _ => Some (Arr [], false) end
  end.

Variable dec : bytes -> pystr.
Variable enc : pystr -> bytes.
Variable esc : severity -> bool.
Variable set_order : list pystr -> list pystr.

(** self.dimension (parameter.py 76-77), self.zones (84-85): the list *)
Definition listing (st : store) (sc : schema) (o : object) (key : bytes) : store * io (list pyval) :=
  let '(st, r) := getitem dec enc esc set_order st sc o (lit key) in
  (st, let* v := r in match v with Some (RMany l) => ret l | _ => fail end).
(** parameter.py 136-142, computation.py 162-168 with [zoned]; measurement.py 146-252
    without, and with [single] for all but the samples *)
Definition sampled (st : store) (sc : schema) (o : object) (key : bytes) (zoned single : bool) : store * io (nd * bool) :=
  match attic_get enc o (lit key) with
  | None => (st, ret (Arr [], false))
  | Some a =>
      match attribute_value dec a with
      | None => (st, fail)
      | Some data =>
          match listing st sc o (text "DIMENSION") with
          | (st, (l1, Ok dims)) =>
              if zoned
              then
                let '(st, r) := listing st sc o (text "ZONES") in
                (st, let* _ := (l1, Ok tt) in let* zones := r in
                     match structured data dims (Some (Z.of_nat (length zones))) single with Some x => ret x | None => fail end)
              else (st, let* _ := (l1, Ok tt) in match structured data dims None single with Some x => ret x | None => fail end)
          | (st, (l1, Exn)) => (st, (l1, Exn))
          | (st, (l1, UB)) => (st, (l1, UB))
          | (st, (l1, Fuel)) => (st, (l1, Fuel))
          end
      end
  end.
End dimensional.
(** the properties and their classes: parameter.py 136, computation.py 162, measurement.py 141-252 *)
Definition parameter_values maxdims dec enc esc set_order st o :=
  sampled maxdims dec enc esc set_order st parameter_schema o (text "VALUES") true false.
Definition computation_values maxdims dec enc esc set_order st o :=
  sampled maxdims dec enc esc set_order st computation_schema o (text "VALUES") true false.
Definition measurement_samples maxdims dec enc esc set_order st o :=
  sampled maxdims dec enc esc set_order st measurement_schema o (text "MEASUREMENT") false false.
Definition measurement_max_deviation maxdims dec enc esc set_order st o :=
  sampled maxdims dec enc esc set_order st measurement_schema o (text "MAXIMUM-DEVIATION") false true.
Definition measurement_std_deviation maxdims dec enc esc set_order st o :=
  sampled maxdims dec enc esc set_order st measurement_schema o (text "STANDARD-DEVIATION") false true.
Definition measurement_reference maxdims dec enc esc set_order st o :=
  sampled maxdims dec enc esc set_order st measurement_schema o (text "REFERENCE") false true.
Definition measurement_plus_tolerance maxdims dec enc esc set_order st o :=
  sampled maxdims dec enc esc set_order st measurement_schema o (text "PLUS-TOLERANCE") false true.
Definition measurement_minus_tolerance maxdims dec enc esc set_order st o :=
  sampled maxdims dec enc esc set_order st measurement_schema o (text "MINUS-TOLERANCE") false true.
