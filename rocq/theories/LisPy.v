(** Model of the Python layer of dlisio.lis: python/dlisio/lis/dataformatspec.py,
    python/dlisio/lis/information_record.py and python/dlisio/lis/curves.py up to
    the call into the extension. *)
From Verif Require Import Bytes DlisTypes DlisCore Stream DlisRecords LisTypes LisProtocol.
From Flocq Require Import Core IEEE754.Binary IEEE754.Bits.
Local Open Scope Z_scope.

(** ** Values *)

(** Python objects; ext/lis.cpp 37-97: integers become int, floats float, strings
    str (decoded; kept as raw bytes here), masks bytes, no value None *)
Inductive pv := PNone | PInt (z : Z) | PFloat (x : binary64) | PStr (s : bytes) | PBytes (s : bytes).
Definition pv_of (v : lvalue) : pv :=
  match v with
  | LNone => PNone
  | LI8 z | LI16 z | LI32 z | LByte z => PInt z
  | LF16 b | LF32 b | LF32low b | LF32fix b => PFloat (f32_to_f64 (b32_of_bits b))
  | LString s => PStr s
  | LMask s => PBytes s
  end.

(** the value of a float if it is an integer *)
Definition integral (x : binary64) : option Z :=
  match x with
  | B754_zero _ _ _ => Some 0
  | B754_finite _ _ s m e _ =>
      let z := if s then Z.neg m else Z.pos m in
      if 0 <=? e then Some (z * 2 ^ e)
      else if z mod 2 ^ (- e) =? 0 then Some (z / 2 ^ (- e)) else None
  | _ => None
  end.
(** Python's [v == n] for an int [n] *)
Definition pv_is (v : pv) (n : Z) : bool :=
  match v with
  | PInt z => z =? n
  | PFloat x => match integral x with Some z => z =? n | None => false end
  | _ => false
  end.

(** ** DataFormatSpec *)

(** dataformatspec.py 39-41: the parsed record *)
Record dfsr := mk_dfsr { df_entries : list entry_block; df_specs : list spec_block }.

(** dataformatspec.py 323-333 *)
Definition find_entry (d : dfsr) (type : Z) : res (option entry_block) :=
  match filter (fun e => eb_type e =? type) (df_entries d) with
  | [] => Ok None
  | [e] => Ok (Some e)
  | _ => Exn
  end.
(** dataformatspec.py 319-321 *)
Definition entry_value (d : dfsr) (type : Z) (default : pv) : res pv :=
  let! e := find_entry d type in
  Ok (match e with Some e => pv_of (eb_value e) | None => default end).

(** '.1IN' *)
Definition tenth_inch : pv := PStr (text ".1IN").
(** dataformatspec.py 120-298, with the numbers of protocol.hpp 193-213 *)
Definition absent_value d := entry_value d 12 (PFloat (f64_of (-3997) (-2))).
Definition depth_mode d := entry_value d 13 (PInt 0).
Definition depth_reprc d := entry_value d 15 PNone.
Definition depth_units d := entry_value d 14 tenth_inch.
Definition direction d := entry_value d 4 (PInt 1).
Definition frame_size d := entry_value d 3 PNone.
Definition max_frames d := entry_value d 11 PNone.
Definition optical_log_depth_units d := entry_value d 5 (PInt 1).
Definition record_type d := entry_value d 1 (PInt 0).
Definition reference_point d := entry_value d 6 PNone.
Definition reference_point_units d := entry_value d 7 tenth_inch.
Definition spacing d := entry_value d 8 PNone.
Definition spacing_units d := entry_value d 9 tenth_inch.
Definition spec_block_type d := entry_value d 1 (PInt 0).
Definition spec_block_subtype d := entry_value d 16 (PInt 0).

(** [-v] *)
Definition pv_neg (v : pv) : res pv :=
  match v with
  | PInt z => Ok (PInt (- z))
  | PFloat x => Ok (PFloat (b64_opp x))
  | _ => Exn
  end.
(** dataformatspec.py 300-317 *)
Definition directional_spacing (d : dfsr) : res pv :=
  let! sp := spacing d in
  match sp with
  | PNone => Exn
  | _ =>
      let! dir := direction d in
      if pv_is dir 1 then pv_neg sp
      else if pv_is dir 255 then Ok sp
      else Exn
  end.

(** str objects as code points *)
Definition pystr := list Z.
Definition str_of (s : bytes) : pystr := map b2z s.
(** dataformatspec.py 41 *)
Definition default_index_mnem : pystr := str_of (text "DEPT").

Section Decoding.
(** how the strings of the file are decoded (C60) *)
Variable dec : bytes -> pystr.

(** dataformatspec.py 50-62; an unknown mode gives None *)
Definition index_mnem (d : dfsr) : res (option pystr) :=
  let! mode := depth_mode d in
  if pv_is mode 0 then
    Ok (match df_specs d with [] => None | s :: _ => Some (dec (sp_mnemonic s)) end)
  else if pv_is mode 1 then Ok (Some default_index_mnem)
  else Ok None.
(** dataformatspec.py 64-76 *)
Definition index_units (d : dfsr) : res pv :=
  let! mode := depth_mode d in
  if pv_is mode 0 then Ok (match df_specs d with [] => PNone | s :: _ => PStr (sp_units s) end)
  else if pv_is mode 1 then depth_units d
  else Ok PNone.
(** dataformatspec.py 78-87: a set, here without order and with repetitions *)
Definition sample_rates (d : dfsr) : res (list Z) :=
  let! mode := depth_mode d in
  Ok (map sp_samples (skipn (if pv_is mode 0 then 1 else 0) (df_specs d))).

(** ** Labels *)

(** Python's str(n) for n >= 0 *)
Fixpoint digits (fuel : nat) (n : Z) : bytes :=
  match fuel with
  | O => []
  | S fuel => (if n <? 10 then [] else digits fuel (n / 10)) ++ [z2b (48 + n mod 10)]
  end.
Definition str_int (n : Z) : bytes := digits (S (Z.to_nat (Z.log2 n))) n.

(** equality of str objects *)
Fixpoint str_eqb (a b : pystr) : bool :=
  match a, b with
  | [], [] => true
  | x :: a, y :: b => (x =? y) && str_eqb a b
  | _, _ => false
  end.
Definition count (x : pystr) (l : list pystr) : nat := length (filter (str_eqb x) l).
(** the keys of Counter(l), in order of first occurrence *)
Fixpoint distinct (seen l : list pystr) : list pystr :=
  match l with
  | [] => []
  | x :: t => if existsb (str_eqb x) seen then distinct seen t else x :: distinct (x :: seen) t
  end.
(** curves.py 537-544: the occurrences of one label *)
Fixpoint relabel (dup : pystr) (n : Z) (l : list pystr) : list pystr :=
  match l with
  | [] => []
  | x :: t =>
      if str_eqb x dup then (x ++ str_of (text "(" ++ str_int n ++ text ")")) :: relabel dup (n + 1) t
      else x :: relabel dup n t
  end.
(** curves.py 528-545 *)
Definition unique_mnemonics (l : list pystr) : list pystr :=
  let duplicates := filter (fun x => (1 <? count x l)%nat) (distinct [] l) in
  fold_left (fun l dup => relabel dup 0 l) duplicates l.

(** ** Curves: checks, format string and numpy type *)

(** curves.py 12-22: numpy's type string and its item size *)
Definition nptype (reprc : Z) : option (bytes * Z) :=
  if reprc =? LIS_F16 then Some (text "f4", 4)
  else if reprc =? LIS_F32 then Some (text "f4", 4)
  else if reprc =? LIS_F32LOW then Some (text "f4", 4)
  else if reprc =? LIS_F32FIX then Some (text "f4", 4)
  else if reprc =? LIS_I8 then Some (text "i1", 1)
  else if reprc =? LIS_I16 then Some (text "i2", 2)
  else if reprc =? LIS_I32 then Some (text "i4", 4)
  else if reprc =? LIS_BYTE then Some (text "u1", 1)
  else if reprc =? LIS_STRING then Some (text "O", 8)
  else None.

(** curves.py 312-316 *)
Definition is_index (i : nat) (mode : pv) : bool := pv_is mode 0 && (i =? 0)%nat.
(** [enumerate(dfsr.specs)] *)
Definition enumerate {A} (l : list A) : list (nat * A) := combine (seq 0 (length l)) l.
(** the channels that are not the index *)
Definition channels (mode : pv) (d : dfsr) : list spec_block :=
  map snd (filter (fun '(i, _) => negb (is_index i mode)) (enumerate (df_specs d))).

(** curves.py 284-293 *)
Definition uniform_sampling (mode : pv) (d : dfsr) : bool :=
  match map sp_samples (channels mode d) with
  | [] => true
  | r :: t => forallb (Z.eqb r) t
  end.

(** curves.py 295-310 *)
Definition reprc2fmt (reprc : Z) : res byte :=
  if reprc =? LIS_I8 then Ok "s"%byte
  else if reprc =? LIS_I16 then Ok "i"%byte
  else if reprc =? LIS_I32 then Ok "l"%byte
  else if reprc =? LIS_F16 then Ok "e"%byte
  else if reprc =? LIS_F32 then Ok "f"%byte
  else if reprc =? LIS_F32LOW then Ok "r"%byte
  else if reprc =? LIS_F32FIX then Ok "p"%byte
  else if reprc =? LIS_STRING then Ok "a"%byte
  else if reprc =? LIS_BYTE then Ok "b"%byte
  else if reprc =? LIS_MASK then Ok "m"%byte
  else Exn.

(** curves.py 447-459; core.lis_reprc() takes an int only *)
Definition validate_reprc (reprc : pv) : res Z :=
  match reprc with
  | PInt r => if r =? LIS_MASK then Exn else match nptype r with Some _ => Ok r | None => Exn end
  | _ => Exn
  end.
(** curves.py 495-525.  The quotients are Python floats; for 16-bit sizes and 8-bit
    counts [q % 1] is zero exactly for integral quotients. *)
Definition validate_spec (s : spec_block) : res unit :=
  if sp_reserved_size s =? 0 then Exn
  else if sp_samples s <? 1 then Exn
  else if negb (Z.rem (sp_reserved_size s) (sp_samples s) =? 0) then Exn
  else
    let! r := validate_reprc (PInt (sp_reprc s)) in
    if (r =? LIS_STRING) || (r =? LIS_MASK) then Ok tt
    else if negb (Z.rem (Z.quot (sp_reserved_size s) (sp_samples s)) (lis_sizeof_type r) =? 0) then Exn
    else Ok tt.
Fixpoint all_ok {A} (f : A -> res unit) (l : list A) : res unit :=
  match l with
  | [] => Ok tt
  | x :: t => let! _ := f x in all_ok f t
  end.
(** curves.py 461-525; the representation code of the index *)
Definition validate_dfsr (d : dfsr) : res Z :=
  let! mode := depth_mode d in
  if negb (pv_is mode 0) && negb (pv_is mode 1) then Exn
  else match df_specs d with
  | [] => Exn
  | s0 :: _ =>
      let! reprc := if pv_is mode 0 then Ok (PInt (sp_reprc s0)) else depth_reprc d in
      let! r := validate_reprc reprc in
      if r =? LIS_STRING then Exn
      else if pv_is mode 0 && ((sp_reserved_size s0 <? 0) || (sp_samples s0 >? 1)
                               || (sp_reserved_size s0 >? lis_sizeof_type (sp_reprc s0))) then Exn
      else let! _ := all_ok validate_spec (df_specs d) in Ok r
  end.

(** curves.py 373-393: the format of one channel that is not the index *)
Definition spec_fmtstr (sample_rate : Z) (s : spec_block) : res bytes :=
  let suppress := "S"%byte :: str_int (Z.abs (sp_reserved_size s)) in
  if sp_reserved_size s <? 0 then Ok suppress
  else if negb (sp_samples s =? sample_rate) then Ok suppress
  else
    let sample_size := Z.abs (Z.quot (sp_reserved_size s) (sp_samples s)) in
    let! c := reprc2fmt (sp_reprc s) in
    if (sp_reprc s =? LIS_STRING) || (sp_reprc s =? LIS_MASK) then Ok (c :: str_int sample_size)
    else Ok (c :: str_int (Z.quot sample_size (lis_sizeof_type (sp_reprc s)))).
Fixpoint concat_ok {A B} (f : A -> res (list B)) (l : list A) : res (list B) :=
  match l with
  | [] => Ok []
  | x :: t => let! a := f x in let! b := concat_ok f t in Ok (a ++ b)
  end.
(** curves.py 318-396; the index's format and that of the other channels.  [index]
    is the representation code of the index (362-367). *)
Definition dfsr_fmtstr (mode : pv) (index : Z) (d : dfsr) (sample_rate : Z) : res (bytes * bytes) :=
  let! c := reprc2fmt index in
  let! f := concat_ok (spec_fmtstr sample_rate) (channels mode d) in
  Ok (c :: text "1", f).

(** a column: label, numpy type string, number of entries *)
Record column := mk_column { col_label : pystr; col_type : bytes; col_width : Z; col_entries : Z }.
(** curves.py 398-412; the quotients are exact for valid specifications *)
Definition spec_column (s : spec_block) : res column :=
  match nptype (sp_reprc s) with
  | None => Exn
  | Some (t, w) =>
      let entries := if sp_reprc s =? LIS_STRING then 1
                     else Z.quot (Z.quot (sp_reserved_size s) (sp_samples s)) (lis_sizeof_type (sp_reprc s)) in
      Ok (mk_column (dec (sp_mnemonic s)) t w entries)
  end.
Fixpoint map_ok {A B} (f : A -> res B) (l : list A) : res (list B) :=
  match l with
  | [] => Ok []
  | x :: t => let! a := f x in let! b := map_ok f t in Ok (a :: b)
  end.
Fixpoint no_duplicates (l : list pystr) : bool :=
  match l with
  | [] => true
  | x :: t => negb (existsb (str_eqb x) t) && no_duplicates t
  end.
(** np.dtype(types): labels must be different (numpy; external).  Numpy replaces an
    empty label by a generated one; not modelled. *)
Definition np_dtype (l : list column) : res (list column) :=
  if no_duplicates (map col_label l) then Ok l else Exn.
(** curves.py 548-571 *)
Definition mkunique (l : list column) : list column :=
  map (fun '(n, c) => mk_column n (col_type c) (col_width c) (col_entries c))
      (combine (unique_mnemonics (map col_label l)) l).
(** curves.py 414-445 *)
Definition dfsr_dtype (mode : pv) (index : Z) (d : dfsr) (sample_rate : Z) (strict : bool) : res (list column) :=
  let! first := if pv_is mode 1 then
                  match nptype index with
                  | Some (t, w) => Ok [mk_column default_index_mnem t w 1]
                  | None => Exn
                  end
                else Ok [] in
  let wanted '(i, s) := (0 <=? sp_reserved_size s) && (is_index i mode || (sp_samples s =? sample_rate)) in
  let! cols := map_ok spec_column (map snd (filter wanted (enumerate (df_specs d)))) in
  let types := first ++ cols in
  match np_dtype types with
  | Exn => if strict then Exn else np_dtype (mkunique types)
  | r => r
  end.
(** dtype.itemsize of a packed structured type *)
Definition itemsize (l : list column) : Z := fold_right (fun c n => col_width c * col_entries c + n) 0 l.

(** ** Metadata of the curves *)

(** [dict(zip(keys, values))]: a later value replaces the one of an equal key *)
Fixpoint dict_set {A} (k : pystr) (v : A) (l : list (pystr * A)) : list (pystr * A) :=
  match l with
  | [] => [(k, v)]
  | (k', v') :: t => if str_eqb k k' then (k', v) :: t else (k', v') :: dict_set k v t
  end.
Definition dict_of {A} (l : list (pystr * A)) : list (pystr * A) :=
  fold_left (fun m '(k, v) => dict_set k v m) l [].
(** the rate to read (curves.py 76-81 and 250-255) *)
Definition pick_rate (mode : pv) (d : dfsr) (sample_rate : option Z) : res Z :=
  match sample_rate with
  | Some r => Ok r
  | None => if uniform_sampling mode d then Ok 1 else Exn
  end.
(** curves.py 24-101.  The key of an unknown depth mode would be None; the model
    takes the empty label. *)
Definition curves_metadata (d : dfsr) (sample_rate : option Z) (strict : bool)
    : res (list (pystr * option spec_block)) :=
  match df_specs d with
  | [] => Ok []
  | s0 :: _ =>
      let! mode := depth_mode d in
      let! rate := pick_rate mode d sample_rate in
      let chans := filter (fun s => sp_samples s =? rate) (channels mode d) in
      let index := if pv_is mode 0 then Some s0 else None in
      let! im := index_mnem d in
      let mnemonics := (match im with Some m => m | None => [] end) :: map (fun s => dec (sp_mnemonic s)) chans in
      let uniques := unique_mnemonics mnemonics in
      if strict && negb (forallb (fun '(a, b) => str_eqb a b) (combine uniques mnemonics)) then Exn
      else Ok (dict_of (combine uniques (index :: map Some chans)))
  end.
End Decoding.
