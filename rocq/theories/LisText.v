(** Model of lis.curves for mnemonics that may not decode
    (python/dlisio/lis/curves.py).  [LisPy]/[LisCurves] are the functions for mnemonics
    that are text. *)
From Verif Require Import Bytes DlisTypes Stream DlisRecords DlisFdata LisTypes LisProtocol LisIo LisLoad LisPy LisCurves LisFile CommonPy DlisStore.
Local Open Scope Z_scope.

(** the outcome of np.dtype: a type, a ValueError or a TypeError *)
Inductive np_outcome := Made | Repeated | NotText.
(** np.dtype(types), as far as the names go (numpy; external): the pairs are looked at in
    order, a name must be a str and must not have been seen.  Numpy replaces an empty
    name by a generated one; not modelled. *)
Fixpoint np_names (seen : list (list Z)) (l : list CommonPy.pystr) : np_outcome :=
  match l with
  | [] => Made
  | Raw _ :: _ => NotText
  | Str u :: t => if existsb (str_eqb u) seen then Repeated else np_names (u :: seen) t
  end.

(** curves.py 531: Counter(mnemonics) *)
Definition occurrences (x : CommonPy.pystr) (l : list CommonPy.pystr) : nat := length (filter (pystr_eqb x) l).
Fixpoint keys_of (seen l : list CommonPy.pystr) : list CommonPy.pystr :=
  match l with
  | [] => []
  | x :: t => if existsb (pystr_eqb x) seen then keys_of seen t else x :: keys_of (x :: seen) t
  end.
(** curves.py 536-543; bytes += str is a TypeError *)
Fixpoint relabel_any (dup : CommonPy.pystr) (n : Z) (l : list CommonPy.pystr) : res (list CommonPy.pystr) :=
  match l with
  | [] => Ok []
  | x :: t =>
      if pystr_eqb x dup then
        match x with
        | Str u => let! r := relabel_any dup (n + 1) t in Ok (Str (u ++ str_of (text "(" ++ str_int n ++ text ")")) :: r)
        | Raw _ => Exn
        end
      else let! r := relabel_any dup n t in Ok (x :: r)
  end.
Fixpoint relabel_each (dups l : list CommonPy.pystr) : res (list CommonPy.pystr) :=
  match dups with
  | [] => Ok l
  | dup :: t => let! l := relabel_any dup 0 l in relabel_each t l
  end.
(** curves.py 528-545 *)
Definition unique_any (l : list CommonPy.pystr) : res (list CommonPy.pystr) :=
  relabel_each (filter (fun x => (1 <? occurrences x l)%nat) (keys_of [] l)) l.

(** a pair of [types]: name, numpy type string, its size, number of entries *)
Record field := mk_field { fl_name : CommonPy.pystr; fl_type : bytes; fl_width : Z; fl_entries : Z }.
(** dtype.itemsize of a packed structured type *)
Definition fields_size (l : list field) : Z := fold_right (fun c n => fl_width c * fl_entries c + n) 0 l.

Section Decoding.
(** how the strings of the file are decoded (C60); what does not decode is bytes *)
Variable dec : bytes -> CommonPy.pystr.

(** curves.py 398-412 and 433 *)
Definition spec_field (s : spec_block) : res field :=
  match nptype (sp_reprc s) with
  | None => Exn
  | Some (t, w) =>
      let entries := if sp_reprc s =? LIS_STRING then 1
                     else Z.quot (Z.quot (sp_reserved_size s) (sp_samples s)) (lis_sizeof_type (sp_reprc s)) in
      Ok (mk_field (dec (sp_mnemonic s)) t w entries)
  end.
(** curves.py 414-445 *)
Definition dfsr_dtype_any (mode : pv) (index : Z) (d : dfsr) (sample_rate : Z) (strict : bool) : res (list field) :=
  let! first := if pv_is mode 1 then
                  match nptype index with
                  | Some (t, w) => Ok [mk_field (Str default_index_mnem) t w 1]
                  | None => Exn
                  end
                else Ok [] in
  let wanted '(i, s) := (0 <=? sp_reserved_size s) && (is_index i mode || (sp_samples s =? sample_rate)) in
  let! cols := map_ok spec_field (map snd (filter wanted (enumerate (df_specs d)))) in
  let types := first ++ cols in
  match np_names [] (map fl_name types) with
  | Made => Ok types
  | NotText => Exn
  | Repeated =>
      if strict then Exn
      else let! names := unique_any (map fl_name types) in
           match np_names [] names with
           | Made => Ok (map (fun '(n, c) => mk_field n (fl_type c) (fl_width c) (fl_entries c)) (combine names types))
           | _ => Exn
           end
  end.
(** curves.py 250-269 *)
Definition frame_config_any (d : dfsr) (sample_rate : option Z) (strict : bool) : res (frameconfig * list field) :=
  let! mode := depth_mode d in
  let! rate := pick_rate mode d sample_rate in
  let! index := validate_dfsr d in
  let! sp := if pv_is mode 1 then directional_spacing d else Ok (PInt 0) in
  let! (idx, fmt) := dfsr_fmtstr mode index d rate in
  let! dtype := dfsr_dtype_any mode index d rate strict in
  let! samples := arg_uint8 rate in
  let! m := arg_int mode in
  let! spacing := arg_double sp in
  Ok (mk_config idx fmt samples m spacing (fields_size dtype), dtype).
(** curves.py 103-281 *)
Definition curves_any (dv : device) (after : Z -> bytes) (ix : record_index) (tell : Z)
    (d : dfsr) (sample_rate : option Z) (strict : bool) : res (list field * list cell * Z) :=
  let! (fc, dtype) := frame_config_any d sample_rate strict in
  let! (cells, rows) := read_data_records fc dv after ix tell in
  Ok (dtype, cells, rows).
(** curves.py 103-281 for a format specification of the file, as in [file_curves] *)
Definition file_curves_any (after : Z -> bytes) (f : logical_file) (x : parsed)
    (sample_rate : option Z) (strict : bool) : res (list field * list cell * Z) :=
  match x with
  | Format info d => curves_any (lf_io f) after (lf_index f) (ri_ltell info) d sample_rate strict
  | _ => Exn
  end.
(** curves.py 24-101, dataformatspec.py 50-62.  The mnemonics may be bytes; the blocks in
    the order of the keys. *)
Definition metadata_any (d : dfsr) (sample_rate : option Z) (strict : bool)
    : res (list (CommonPy.pystr * option spec_block)) :=
  match df_specs d with
  | [] => Ok []
  | s0 :: _ =>
      let! mode := depth_mode d in
      let! rate := pick_rate mode d sample_rate in
      let chans := filter (fun s => sp_samples s =? rate) (channels mode d) in
      let index := if pv_is mode 0 then Some s0 else None in
      let im := if pv_is mode 0 then dec (sp_mnemonic s0)
                else Str (if pv_is mode 1 then default_index_mnem else []) in
      let mnemonics := im :: map (fun s => dec (sp_mnemonic s)) chans in
      let! uniques := unique_any mnemonics in
      if strict && negb (forallb (fun '(a, b) => pystr_eqb a b) (combine uniques mnemonics)) then Exn
      else Ok (fold_left (fun m '(k, v) => dict_put k v m) (combine uniques (index :: map Some chans)) [])
  end.
End Decoding.
