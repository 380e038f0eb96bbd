(** Model of python/dlisio/lis/information_record.py. *)
From Verif Require Import Bytes DlisTypes Stream DlisRecords LisTypes LisProtocol LisPy.
Local Open Scope Z_scope.

Section Decoding.
(** how the strings of the file are decoded (C60) *)
Variable dec : bytes -> pystr.

(** ext/lis.cpp 852-856, information_record.py 42-53 *)
Definition isstructured (cs : list component_block) : bool :=
  match cs with [] => false | c :: _ => cb_type_nb c =? 73 end.
(** information_record.py 67-91 *)
Definition table_name (cs : list component_block) : res lvalue :=
  match cs with
  | c :: _ => if isstructured cs then Ok (cb_component c) else Exn
  | [] => Exn
  end.

(** what a cell of the table holds: the [fill] argument, a component block or the
    value of one *)
Inductive tcell := Fill | Block (c : component_block) | Value (v : lvalue).
(** the structured array of objects: column names and rows *)
Record table := mk_table { t_columns : list pystr; t_rows : list (list tcell) }.

(** information_record.py 160-165; [seen] and [columns] grow together *)
Fixpoint columns_from (seen : list pystr) (cs : list component_block) : list pystr :=
  match cs with
  | [] => []
  | c :: t =>
      let m := dec (cb_mnemonic c) in
      if existsb (str_eqb m) seen then columns_from seen t else m :: columns_from (m :: seen) t
  end.
(** [table[name][row] = v]; out of range: IndexError (unreachable) *)
Fixpoint set_column (name : pystr) (v : tcell) (columns : list pystr) (row : list tcell) : list tcell :=
  match columns, row with
  | n :: columns, c :: row => if str_eqb name n then v :: row else c :: set_column name v columns row
  | _, _ => row
  end.
Fixpoint set_cell (columns : list pystr) (name : pystr) (row : nat) (v : tcell) (rows : list (list tcell)) : res (list (list tcell)) :=
  match rows, row with
  | [], _ => Exn
  | r :: t, O => Ok (set_column name v columns r :: t)
  | r :: t, S k => let! t := set_cell columns name k v t in Ok (r :: t)
  end.
(** information_record.py 176-184; [row] is Python's [row + 1], so 0 would be the
    last row *)
Fixpoint fill_table (simple : bool) (columns : list pystr) (row : nat) (cs : list component_block) (rows : list (list tcell))
    : res (list (list tcell)) :=
  match cs with
  | [] => Ok rows
  | c :: t =>
      let row := if cb_type_nb c =? 0 then S row else row in
      let k := match row with O => (length rows - 1)%nat | S k => k end in
      let! rows := set_cell columns (dec (cb_mnemonic c)) k (if simple then Value (cb_component c) else Block c) rows in
      fill_table simple columns row t rows
  end.
(** information_record.py 93-186.  np.full puts [fill] in every field of every row
    (for scalars; numpy). *)
Definition info_table (cs : list component_block) (simple : bool) : res table :=
  if negb (isstructured cs) then Exn
  else match cs with
  | [] => Exn
  | [_] => Ok (mk_table [] [])
  | _ :: ((c1 :: _) as rest) =>
      if negb (cb_type_nb c1 =? 0) then Exn
      else
        let nrows := length (filter (fun c => cb_type_nb c =? 0) cs) in
        let columns := columns_from [] rest in
        let! rows := fill_table simple columns 0 rest (repeat (repeat Fill (length columns)) nrows) in
        Ok (mk_table columns rows)
  end.
End Decoding.
