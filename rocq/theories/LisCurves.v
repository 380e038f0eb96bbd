(** Model of the curve reader in python/dlisio/ext/lis.cpp 102-565 and of
    dlisio.lis.curves (python/dlisio/lis/curves.py 103-281). *)
From Verif Require Import Bytes DlisTypes DlisCore Stream DlisRecords PyBase DlisFdata LisTypes LisProtocol LisIo LisPy.
From Flocq Require Import Core IEEE754.Binary IEEE754.Bits.
Local Open Scope Z_scope.

(** ext/lis.cpp 102-109 *)
Record frameconfig := mk_config {
  fc_indexfmt : bytes; fc_fmtstr : bytes; fc_samples : Z; fc_mode : Z; fc_spacing : binary64; fc_framesize : Z }.

(** ** The index *)

(** ext/lis.cpp 130-185; the members current and previous *)
Record indexchannel := mk_ix { ix_current : binary64; ix_previous : binary64 }.
Definition nan64 : binary64 := proj1_sig default_nan_pl64.
(** ext/lis.cpp 183-184 *)
Definition new_index : indexchannel := mk_ix nan64 nan64.
(** ext/lis.cpp 132-137 *)
Definition index_index (ix : indexchannel) : res binary64 :=
  if is_nan 53 1024 (ix_current ix) then Exn else Ok (ix_current ix).
(** ext/lis.cpp 139-142 *)
Definition index_update (x : binary64) (ix : indexchannel) : indexchannel := mk_ix x (ix_current ix).

(** double arithmetic *)
Definition f64_add : binary64 -> binary64 -> binary64 := b64_plus BinarySingleNaN.mode_NE.
Definition f64_sub : binary64 -> binary64 -> binary64 := b64_minus BinarySingleNaN.mode_NE.
(** ext/lis.cpp 157-181; the argument is converted to int8_t *)
Definition index_value (ix : indexchannel) (subframe samples : Z) : res binary64 :=
  let sample := signed 8 (unsigned 8 subframe) in
  if sample =? samples then index_index ix
  else if is_nan 53 1024 (ix_previous ix) then Ok (f64_of 0 0)
  else if sample >? samples then Exn
  else
    let! index := index_index ix in
    let interval := f64_div (f64_sub index (ix_previous ix)) (f64_of samples 0) in
    Ok (f64_add (ix_previous ix) (f64_mul interval (f64_of sample 0))).

(** ** Reading samples *)

(** strtol(f, &next, 10) on a format string: digits only (no sign, no blanks, no
    overflow occur in format strings) *)
Fixpoint strtol_from (acc : Z) (f : bytes) : Z * bytes :=
  match f with
  | c :: t => if (48 <=? b2z c) && (b2z c <=? 57) then strtol_from (acc * 10 + (b2z c - 48)) t else (acc, f)
  | [] => (acc, [])
  end.
Definition strtol (f : bytes) : Z * bytes := strtol_from 0 f.

(** [ptr += n].  A pointer outside the modelled memory is UB. *)
Definition advance (p : ptr) (n : Z) : res ptr :=
  let! (_, rest) := unchecked (take (Z.to_nat n) (p_mem p)) in Ok (mk_ptr rest (p_left p - n)).

(** ext/lis.cpp 224-231: [entries] numbers of format [c] *)
Fixpoint read_numbers (entries : nat) (c : byte) (p : ptr) : res (list cell * ptr) :=
  match entries with
  | O => Ok ([], p)
  | S entries =>
      match lis_packflen [c] (p_mem p) with
      | LenOob | LenErr => UB
      | LenOk skip _ =>
          if overflows p skip then Exn
          else match lis_packf [c] (p_mem p) with
          | PackOk out =>
              let! p := advance p skip in
              let! (more, p) := read_numbers entries c p in
              Ok (map Raw out ++ more, p)
          | _ => UB
          end
      end
  end.

(** ext/lis.cpp 194-252: the cells written to dst, the new fmt and the new ptr *)
Definition read_sample (fmt : bytes) (p : ptr) : res (list cell * bytes * ptr) :=
  match fmt with
  | [] => Exn
  | c :: f =>
      if existsb (Byte.eqb c) (text "silefrpb") then
        let '(entries, f) := strtol f in
        let! (cells, p) := read_numbers (Z.to_nat entries) c p in
        Ok (cells, f, p)
      else if Byte.eqb c "a" then
        let '(n, f) := strtol f in
        let! (s, _) := unchecked (take (Z.to_nat n) (p_mem p)) in
        match utf8 s with
        | None => Exn
        | Some u => let! p := advance p n in Ok (ref_cells (DlisFdata.PyStr u), f, p)
        end
      else Exn
  end.

(** ** Index values in the array *)

(** ext/lis.cpp 254-279 (to_dst); for integers [lo, hi) is the range of the type *)
Definition to_int (n : nat) (lo hi : Z) (x : binary64) : res (list cell) :=
  match integral x with
  | None => Exn
  | Some z => if (lo <=? z) && (z <? hi) then Ok (map Raw (native n z)) else UB
  end.
Definition to_float (x : binary64) : res (list cell) := Ok (map Raw (native 4 (bits_of_b32 (f64_to_f32 x)))).
(** ext/lis.cpp 277-306 *)
Definition write_index (indexfmt : bytes) (x : binary64) : res (list cell) :=
  match indexfmt with
  | "s"%byte :: _ => to_int 1 (-128) 128 x
  | "i"%byte :: _ => to_int 2 (-32768) 32768 x
  | "l"%byte :: _ => to_int 4 (-2147483648) 2147483648 x
  | ("e" | "f" | "r" | "p")%byte :: _ => to_float x
  | "b"%byte :: _ => to_int 1 0 256 x
  | _ => Exn
  end.
(** the bytes in a buffer *)
Fixpoint raw_bytes (cells : list cell) : option bytes :=
  match cells with
  | [] => Some []
  | Raw b :: t => do bs <- raw_bytes t; Some (b :: bs)
  | _ => None
  end.
(** ext/lis.cpp 308-322 (from_src): the buffer has exactly [n] bytes *)
Definition from_src (fmt : bytes) (n : nat) (conv : Z -> binary64) (p : ptr) : res (binary64 * ptr) :=
  let! (cells, _, p) := read_sample fmt p in
  match raw_bytes cells with
  | Some bs => if (length bs =? n)%nat then Ok (conv (le bs), p) else UB
  | None => UB
  end.
Definition int_to_double (bits u : Z) : binary64 := f64_of (signed bits u) 0.
Definition float_to_double (u : Z) : binary64 := f32_to_f64 (b32_of_bits u).
(** ext/lis.cpp 324-359 *)
Definition read_index (fmt : bytes) (p : ptr) (ix : indexchannel) : res (ptr * indexchannel) :=
  let! (x, p) :=
    match fmt with
    | "s"%byte :: _ => from_src fmt 1 (int_to_double 8) p
    | "i"%byte :: _ => from_src fmt 2 (int_to_double 16) p
    | "l"%byte :: _ => from_src fmt 4 (int_to_double 32) p
    | ("e" | "f" | "r" | "p")%byte :: _ => from_src fmt 4 float_to_double p
    | "b"%byte :: _ => from_src fmt 1 (fun u => f64_of u 0) p
    | _ => Exn
    end in
  Ok (p, index_update x ix).

(** ** Frames *)

(** a write at dst that moves it *)
Definition write_dst (a : array) (cells : list cell) : res array := unchecked (write a cells).
Definition set_dst (a : array) (d : Z) : array := mk_array (a_cells a) (a_rows a) (a_frames a) d.

(** ext/lis.cpp 404-411: subframes [subframe], [subframe]+1, ...; the array with dst
    behind the last row's start, and [current] *)
Fixpoint write_subframes (n : nat) (fc : frameconfig) (ix : indexchannel) (subframe : Z) (a : array) (current : Z)
    : res (array * Z) :=
  match n with
  | O => Ok (a, current)
  | S n =>
      let! value := index_value ix subframe (fc_samples fc) in
      let! cells := write_index (fc_indexfmt fc) value in
      let! b := write_dst a cells in
      write_subframes n fc ix (subframe + 1) (set_dst b (a_dst a + fc_framesize fc)) (a_dst b)
  end.

(** ext/lis.cpp 438-441: samples [sample], [sample]+1, ... of one channel *)
Fixpoint read_samples (n : nat) (fc : frameconfig) (samplefmt : bytes) (channelstart sample : Z)
    (fmt : bytes) (p : ptr) (a : array) : res (bytes * ptr * array) :=
  match n with
  | O => Ok (fmt, p, a)
  | S n =>
      let a := set_dst a (channelstart + fc_framesize fc * sample) in
      let! (cells, fmt, p) := read_sample samplefmt p in
      let! a := write_dst a cells in
      read_samples n fc samplefmt channelstart (sample + 1) fmt p a
  end.
(** ext/lis.cpp 421-445.  With samples = 0 the format is not used up: endless. *)
Fixpoint read_channels (fuel : nat) (fc : frameconfig) (fmt : bytes) (p : ptr) (a : array) : res (ptr * array) :=
  match fmt with
  | [] => Ok (p, a)
  | c :: f =>
      match fuel with
      | O => Fuel
      | S fuel =>
          if Byte.eqb c "S" then
            let '(n, f) := strtol f in
            let! p := advance p n in
            read_channels fuel fc f p a
          else
            let! (f, p, a) := read_samples (Z.to_nat (fc_samples fc)) fc fmt (a_dst a) 0 fmt p a in
            read_channels fuel fc f p (set_dst a (a_dst a - fc_framesize fc * (fc_samples fc - 1)))
      end
  end.
(** ext/lis.cpp 361-450 *)
Definition read_frame (fc : frameconfig) (p : ptr) (a : array) (ix : indexchannel) : res (ptr * array * indexchannel) :=
  let fast := fc_samples fc >? 1 in
  let! (p, ix) := if (fc_mode fc =? 0) && fast then read_index (fc_indexfmt fc) p ix else Ok (p, ix) in
  let! (p, a) :=
    if (fc_mode fc =? 0) && negb fast then
      let! (cells, _, p) := read_sample (fc_indexfmt fc) p in
      let! a := write_dst a cells in Ok (p, a)
    else
      let! (a, current) := write_subframes (Z.to_nat (fc_samples fc)) fc ix 1 a (a_dst a) in
      Ok (p, set_dst a (current - fc_framesize fc * (fc_samples fc - 1))) in
  let! (p, a) := read_channels (length (fc_fmtstr fc)) fc (fc_fmtstr fc) p a in
  Ok (p, set_dst a (a_dst a + fc_framesize fc * (fc_samples fc - 1)), ix).

(** ext/lis.cpp 474-488: the loop over the frames of a record.  (frames is an int;
    its overflow is not modelled.) *)
Fixpoint read_frames (fuel : nat) (fc : frameconfig) (p : ptr) (a : array) (ix : indexchannel) : res (array * indexchannel) :=
  if p_left p <=? 0 then Ok (a, ix)
  else match fuel with
  | O => Fuel
  | S fuel =>
      let a := if a_frames a =? a_rows a then
                 let a := resize (fc_framesize fc) (a_frames a * 2) a in
                 set_dst a (a_dst a + a_frames a * fc_framesize fc)
               else a in
      let! (p, a, ix) := read_frame fc p a ix in
      let a := mk_array (a_cells a) (a_rows a) (a_frames a + fc_samples fc) (a_dst a) in
      let! ix := if (fc_mode fc =? 1) && (p_left p >? 0) then
                   let! x := index_index ix in Ok (index_update (f64_add x (fc_spacing fc)) ix)
                 else Ok ix in
      read_frames fuel fc p a ix
  end.
(** ext/lis.cpp 452-489; [after] is the memory behind the record's buffer *)
Definition read_data_record (fc : frameconfig) (after : bytes) (data : bytes) (a : array) (ix : indexchannel)
    : res (array * indexchannel) :=
  let p := mk_ptr (data ++ after) (Z.of_nat (length data)) in
  let! (p, ix) := if fc_mode fc =? 1 then read_index (fc_indexfmt fc) p ix else Ok (p, ix) in
  read_frames (S (length data)) fc p a ix.

(** ext/lis.cpp 549-559 *)
Fixpoint read_each (fc : frameconfig) (dv : device) (after : Z -> bytes) (heads : list record_info)
    (a : array) (ix : indexchannel) : res array :=
  match heads with
  | [] => Ok a
  | h :: t =>
      match fst (read_record dv h 0) with
      | DErr _ => Exn
      | DFuel => Fuel
      | DOk data =>
          let! (a, ix) := read_data_record fc (after (ri_ltell h)) data a ix in
          read_each fc dv after t a ix
      end
  end.
(** ext/lis.cpp 492-565: the array's memory and number of rows.  [implicits_of]
    throws if the format specification is not in the index. *)
Definition read_data_records (fc : frameconfig) (dv : device) (after : Z -> bytes) (ix : record_index) (tell : Z)
    : res (list cell * Z) :=
  match implicits_of ix tell with
  | None => Exn
  | Some heads =>
      let! a := read_each fc dv after heads
                  (new_array (fc_framesize fc) (Z.of_nat (length heads) * fc_samples fc)) new_index in
      let a := if a_rows a >? a_frames a then resize (fc_framesize fc) (a_frames a) a else a in
      Ok (a_cells a, a_rows a)
  end.

(** ** lis.curves *)

(** the conversions of core.frameconfig's arguments (ext/lis.cpp 964-974, pybind11):
    std::uint8_t, int and double *)
Definition arg_uint8 (z : Z) : res Z := if (0 <=? z) && (z <? 256) then Ok z else Exn.
Definition arg_int (v : pv) : res Z := match v with PInt z => Ok z | _ => Exn end.
Definition arg_double (v : pv) : res binary64 :=
  match v with
  | PInt z => Ok (f64_of z 0)
  | PFloat x => Ok x
  | _ => Exn
  end.
(** curves.py 250-269: the configuration and the type *)
Definition frame_config (dec : bytes -> pystr) (d : dfsr) (sample_rate : option Z) (strict : bool)
    : res (frameconfig * list column) :=
  let! mode := depth_mode d in
  let! rate := pick_rate mode d sample_rate in
  let! index := validate_dfsr d in
  let! sp := if pv_is mode 1 then directional_spacing d else Ok (PInt 0) in
  let! (idx, fmt) := dfsr_fmtstr mode index d rate in
  let! dtype := dfsr_dtype dec mode index d rate strict in
  let! samples := arg_uint8 rate in
  let! m := arg_int mode in
  let! spacing := arg_double sp in
  Ok (mk_config idx fmt samples m spacing (itemsize dtype), dtype).
(** curves.py 103-281: the type, the array's memory and its number of rows *)
Definition curves (dec : bytes -> pystr) (dv : device) (after : Z -> bytes) (ix : record_index) (tell : Z)
    (d : dfsr) (sample_rate : option Z) (strict : bool) : res (list column * list cell * Z) :=
  let! (fc, dtype) := frame_config dec d sample_rate strict in
  let! (cells, rows) := read_data_records fc dv after ix tell in
  Ok (dtype, cells, rows).
