(** Model of lib/src/dlis/types.cpp (RP66 data types).

    A reader [const char* f(const char* xs, T* out)] becomes
    [bytes -> option (T * bytes)]: the remaining list is the returned pointer;
    [None] is an out-of-bounds read in the C++ code.
    A writer [void* f(void* xs, T x)] becomes a function returning the bytes
    written; the returned pointer is [xs + length].
    Floats are represented by their IEEE 754 bit pattern (a [Z]). *)
From Verif Require Import Bytes.
From Flocq Require Import IEEE754.Binary IEEE754.Bits.
Local Open Scope Z_scope.

(** ** Integers *)

(** types.cpp 18-67, 94-109: memcpy of n bytes followed by ntoh.
    Simplified: memcpy+bswap on a little-endian host (and memcpy on a
    big-endian host) is the big-endian number. *)
Definition read_be (n : nat) (xs : bytes) : option (Z * bytes) :=
  do (a, r) <- take n xs; Some (be a, r).

(** types.cpp 94-97 *)
Definition dlis_ushort (xs : bytes) : option (Z * bytes) := read_be 1 xs.
(** types.cpp 99-103 *)
Definition dlis_unorm (xs : bytes) : option (Z * bytes) := read_be 2 xs.
(** types.cpp 105-109 *)
Definition dlis_ulong (xs : bytes) : option (Z * bytes) := read_be 4 xs.

(** types.cpp 72-76: the byte is copied into an int8_t *)
Definition dlis_sshort (xs : bytes) : option (Z * bytes) :=
  do (u, r) <- read_be 1 xs; Some (signed 8 u, r).
(** types.cpp 78-84 *)
Definition dlis_snorm (xs : bytes) : option (Z * bytes) :=
  do (u, r) <- read_be 2 xs; Some (signed 16 u, r).
(** types.cpp 86-92 *)
Definition dlis_slong (xs : bytes) : option (Z * bytes) :=
  do (u, r) <- read_be 4 xs; Some (signed 32 u, r).

(** types.cpp 111-167 *)
Definition dlis_uvari (xs : bytes) : option (Z * bytes) :=
  match xs with
  | [] => None
  | x0 :: _ =>
      let high := Z.land (b2z x0) 0xC0 in
      if high =? 0xC0 then
        do (v, r) <- read_be 4 xs; Some (Z.land v 0x3FFFFFFF, r)
      else if high =? 0x80 then
        do (v, r) <- read_be 2 xs; Some (Z.land v 0x3FFF, r)
      else
        do (v, r) <- read_be 1 xs; Some (v, r)
  end.

(** ** Strings and composites *)

(** types.cpp 169-176.  The C function returns length and characters through
    two optional pointers; here the characters (whose length is the length). *)
Definition dlis_ident (xs : bytes) : option (bytes * bytes) :=
  do (ln, r) <- dlis_ushort xs; take (Z.to_nat ln) r.

(** types.cpp 178-185 *)
Definition dlis_ascii (xs : bytes) : option (bytes * bytes) :=
  do (ln, r) <- dlis_uvari xs; take (Z.to_nat ln) r.

(** types.cpp 418-425 *)
Definition dlis_units (xs : bytes) : option (bytes * bytes) :=
  do (ln, r) <- dlis_ushort xs; take (Z.to_nat ln) r.

(** lib/include/dlisio/dlis/types.h 56 *)
Definition DLIS_YEAR_ZERO : Z := 1900.
(** types.cpp 187-189 *)
Definition dlis_year (y : Z) : Z := y + DLIS_YEAR_ZERO.
(** types.cpp 603-605 *)
Definition dlis_yearo (y : Z) : Z := y - DLIS_YEAR_ZERO.

(** the out-parameters of dlis_dtime, types.cpp 191-198 *)
Record dtime := mk_dtime {
  dt_Y : Z; dt_TZ : Z; dt_M : Z; dt_D : Z; dt_H : Z; dt_MN : Z; dt_S : Z; dt_MS : Z }.

(** types.cpp 191-225 *)
Definition dlis_dtime (xs : bytes) : option (dtime * bytes) :=
  do (x, r) <- take 6 xs;
  match x with
  | [x0; x1; x2; x3; x4; x5] =>
      do (ms, r') <- read_be 2 r;
      Some (mk_dtime (b2z x0)
                     (Z.shiftr (Z.land (b2z x1) 0xF0) 4)
                     (Z.land (b2z x1) 0x0F)
                     (b2z x2) (b2z x3) (b2z x4) (b2z x5) ms, r')
  | _ => None
  end.

(** types.cpp 227-229 *)
Definition dlis_origin (xs : bytes) : option (Z * bytes) := dlis_uvari xs.

Record obname := mk_obname { ob_origin : Z; ob_copy : Z; ob_id : bytes }.

(** types.cpp 231-238 *)
Definition dlis_obname (xs : bytes) : option (obname * bytes) :=
  do (o, xs1) <- dlis_origin xs;
  do (c, xs2) <- dlis_ushort xs1;
  do (id, xs3) <- dlis_ident xs2;
  Some (mk_obname o c id, xs3).

Record objref := mk_objref { or_type : bytes; or_name : obname }.

(** types.cpp 240-248 *)
Definition dlis_objref (xs : bytes) : option (objref * bytes) :=
  do (t, xs1) <- dlis_ident xs;
  do (n, xs2) <- dlis_obname xs1;
  Some (mk_objref t n, xs2).

Record attref := mk_attref { ar_type : bytes; ar_name : obname; ar_label : bytes }.

(** types.cpp 250-261 *)
Definition dlis_attref (xs : bytes) : option (attref * bytes) :=
  do (t, xs1) <- dlis_ident xs;
  do (n, xs2) <- dlis_obname xs1;
  do (l, xs3) <- dlis_ident xs2;
  Some (mk_attref t n l, xs3).

(** types.cpp 414-416 *)
Definition dlis_status (xs : bytes) : option (Z * bytes) := dlis_ushort xs.

(** ** Floats *)

(** C++ float arithmetic: IEEE binary32/binary64, round to nearest even
    (Flocq).  Conversion of an integer (or of m*2^e) to float/double. *)
Definition f32_of (m e : Z) : binary32 :=
  binary_normalize 24 128 (refl_equal _) (refl_equal _) BinarySingleNaN.mode_NE m e false.
Definition f64_of (m e : Z) : binary64 :=
  binary_normalize 53 1024 (refl_equal _) (refl_equal _) BinarySingleNaN.mode_NE m e false.
Definition f32_mul : binary32 -> binary32 -> binary32 := b32_mult BinarySingleNaN.mode_NE.
Definition f32_div : binary32 -> binary32 -> binary32 := b32_div BinarySingleNaN.mode_NE.
Definition f64_div : binary64 -> binary64 -> binary64 := b64_div BinarySingleNaN.mode_NE.
(** implicit conversion of a double result to float *)
Definition f64_to_f32 (x : binary64) : binary32 :=
  match x with
  | B754_zero _ _ s => B754_zero 24 128 s
  | B754_infinity _ _ s => B754_infinity 24 128 s
  | B754_nan _ _ _ _ _ => proj1_sig default_nan_pl32
  | B754_finite _ _ s m e _ =>
      binary_normalize 24 128 (refl_equal _) (refl_equal _) BinarySingleNaN.mode_NE
        (if s then Z.neg m else Z.pos m) e s
  end.
(** implicit conversion of a float operand to double (always exact) *)
Definition f32_to_f64 (x : binary32) : binary64 :=
  match x with
  | B754_zero _ _ s => B754_zero 53 1024 s
  | B754_infinity _ _ s => B754_infinity 53 1024 s
  | B754_nan _ _ _ _ _ => proj1_sig default_nan_pl64
  | B754_finite _ _ s m e _ =>
      binary_normalize 53 1024 (refl_equal _) (refl_equal _) BinarySingleNaN.mode_NE
        (if s then Z.neg m else Z.pos m) e s
  end.
(** std::pow( 2.0f, e ) for an integral exponent e in float range and
    std::pow( 2.0f, 24 ) in double; assumed exact (trusted base). *)
Definition pow2_f32 (e : Z) : binary32 := f32_of 1 e.
Definition pow2_f64 (e : Z) : binary64 := f64_of 1 e.

(** types.cpp 263-279 *)
Definition dlis_fshort (xs : bytes) : option (Z * bytes) :=
  do (v, newptr) <- dlis_unorm xs;
  let sign_bit := Z.land v 0x8000 in
  let exp_bits := Z.land v 0x000F in
  let frac0 := Z.shiftr (Z.land v 0xFFF0) 4 in
  let frac_bits := if sign_bit =? 0 then frac0
                   else Z.land (Z.lnot frac0) 0x0FFF + 1 in
  let sign := if sign_bit =? 0 then f32_of 1 0 else f32_of (-1) 0 in
  let fractional := f32_div (f32_of frac_bits 0) (f32_of 0x0800 0) in
  let res := f32_mul (f32_mul sign fractional) (pow2_f32 exp_bits) in
  Some (bits_of_b32 res, newptr).

(** types.cpp 281-289: the bytes are swapped and stored as a float; the value
    is its bit pattern *)
Definition dlis_fsingl (xs : bytes) : option (Z * bytes) := read_be 4 xs.
(** types.cpp 291-299 *)
Definition dlis_fdoubl (xs : bytes) : option (Z * bytes) := read_be 8 xs.

(** types.cpp 306-309: the lookup tables of dlis_isingl *)
Definition isingl_it (ix : Z) : Z :=
  nth (Z.to_nat ix)
    [0x21800000; 0x21400000; 0x21000000; 0x21000000;
     0x20c00000; 0x20c00000; 0x20c00000; 0x20c00000] 0.
Definition isingl_mt (ix : Z) : Z :=
  nth (Z.to_nat ix) [8; 4; 2; 2; 1; 1; 1; 1] 0.

Definition u32 (z : Z) : Z := z mod 2 ^ 32.

(** types.cpp 317-324, on the 32 bit word *)
Definition isingl_bits (u : Z) : Z :=
  let ieeemax := 0x7FFFFFFF in
  let iemaxib := 0x611FFFFF in
  let ieminib := 0x21200000 in
  let manthi := Z.land u 0x00FFFFFF in
  let ix := Z.shiftr manthi 21 in
  let iexp := u32 (Z.shiftl (u32 (Z.land u 0x7f000000 - isingl_it ix)) 1) in
  let manthi := u32 (manthi * isingl_mt ix + iexp) in
  let inabs := Z.land u 0x7FFFFFFF in
  let manthi := if inabs >? iemaxib then ieeemax else manthi in
  let manthi := Z.lor manthi (Z.land u 0x80000000) in
  if inabs <? ieminib then 0 else manthi.

(** types.cpp 301-328 *)
Definition dlis_isingl (xs : bytes) : option (Z * bytes) :=
  do (u, r) <- read_be 4 xs; Some (isingl_bits u, r).

(** types.cpp 340-371, on the reordered word.  The division is done in double
    because std::pow(float, int) returns double; the result is narrowed to
    float on assignment.  [float(exp_bits) - 128.0f] is exact and is kept as an
    integer.  std::nanf("") is the default quiet NaN. *)
Definition vsingl_word (v : Z) : binary32 :=
  let sign_bit := Z.land v 0x80000000 in
  let frac_bits := Z.land v 0x007FFFFF in
  let exp_bits := Z.shiftr (Z.land v 0x7F800000) 23 in
  let sign := if sign_bit =? 0 then f32_of 1 0 else f32_of (-1) 0 in
  let exponent := exp_bits - 128 in
  let significand :=
    f64_to_f32 (f64_div (f32_to_f64 (f32_of (Z.lor frac_bits 0x00800000) 0))
                        (pow2_f64 24)) in
  if negb (exp_bits =? 0) then
    f32_mul (f32_mul sign significand) (pow2_f32 exponent)
  else if sign_bit =? 0 then B754_zero 24 128 false
  else proj1_sig default_nan_pl32.

(** types.cpp 330-374 *)
Definition dlis_vsingl (xs : bytes) : option (Z * bytes) :=
  do (x, r) <- take 4 xs;
  match x with
  | [x0; x1; x2; x3] =>
      let v := Z.lor (Z.lor (Z.lor (Z.shiftl (b2z x1) 24) (Z.shiftl (b2z x0) 16))
                            (Z.shiftl (b2z x3) 8)) (b2z x2) in
      Some (bits_of_b32 (vsingl_word v), r)
  | _ => None
  end.

(** types.cpp 376-380 *)
Definition dlis_fsing1 (xs : bytes) : option ((Z * Z) * bytes) :=
  do (v, ys) <- dlis_fsingl xs;
  do (a, zs) <- dlis_fsingl ys;
  Some ((v, a), zs).
(** types.cpp 382-387 *)
Definition dlis_fsing2 (xs : bytes) : option ((Z * Z * Z) * bytes) :=
  do (v, ys) <- dlis_fsingl xs;
  do (a, zs) <- dlis_fsingl ys;
  do (b, ws) <- dlis_fsingl zs;
  Some ((v, a, b), ws).
(** types.cpp 389-393 *)
Definition dlis_csingl (xs : bytes) : option ((Z * Z) * bytes) :=
  do (re, ys) <- dlis_fsingl xs;
  do (im, zs) <- dlis_fsingl ys;
  Some ((re, im), zs).
(** types.cpp 395-399 *)
Definition dlis_fdoub1 (xs : bytes) : option ((Z * Z) * bytes) :=
  do (v, ys) <- dlis_fdoubl xs;
  do (a, zs) <- dlis_fdoubl ys;
  Some ((v, a), zs).
(** types.cpp 401-406 *)
Definition dlis_fdoub2 (xs : bytes) : option ((Z * Z * Z) * bytes) :=
  do (v, ys) <- dlis_fdoubl xs;
  do (a, zs) <- dlis_fdoubl ys;
  do (b, ws) <- dlis_fdoubl zs;
  Some ((v, a, b), ws).
(** types.cpp 408-412 *)
Definition dlis_cdoubl (xs : bytes) : option ((Z * Z) * bytes) :=
  do (re, ys) <- dlis_fdoubl xs;
  do (im, zs) <- dlis_fdoubl ys;
  Some ((re, im), zs).

(** ** Writers *)

(** types.cpp 443-446; the uint8_t parameter conversion is part of [enc_be] *)
Definition dlis_ushorto (x : Z) : bytes := enc_be 1 x.
(** types.cpp 448-452 *)
Definition dlis_unormo (x : Z) : bytes := enc_be 2 x.
(** types.cpp 454-458 *)
Definition dlis_ulongo (x : Z) : bytes := enc_be 4 x.
(** types.cpp 431-433: implicit int8_t -> uint8_t conversion *)
Definition dlis_sshorto (x : Z) : bytes := dlis_ushorto (unsigned 8 x).
(** types.cpp 435-437 *)
Definition dlis_snormo (x : Z) : bytes := dlis_unormo (unsigned 16 x).
(** types.cpp 439-441 *)
Definition dlis_slongo (x : Z) : bytes := dlis_ulongo (unsigned 32 x).
(** types.cpp 460-464 *)
Definition dlis_fsinglo (x : Z) : bytes := enc_be 4 x.
(** types.cpp 466-470 *)
Definition dlis_fdoublo (x : Z) : bytes := enc_be 8 x.

(** types.cpp 473-474 *)
Definition isinglo_it (ix : Z) : Z :=
  nth (Z.to_nat ix) [0x21200000; 0x21400000; 0x21800000; 0x22100000] 0.
Definition isinglo_mt (ix : Z) : Z := nth (Z.to_nat ix) [2; 4; 8; 1] 0.

(** types.cpp 480-484 on the bit pattern of the float *)
Definition isinglo_bits (u : Z) : Z :=
  let ix := Z.shiftr (Z.land u 0x01800000) 23 in
  let iexp := u32 (Z.shiftr (Z.land u 0x7e000000) 1 + isinglo_it ix) in
  let manthi := Z.shiftr (u32 (isinglo_mt ix * Z.land u 0x007fffff)) 3 in
  let manthi := Z.lor (u32 (manthi + iexp)) (Z.land u 0x80000000) in
  if Z.land u 0x7fffffff =? 0 then 0 else manthi.
(** types.cpp 472-489 *)
Definition dlis_isinglo (x : Z) : bytes := enc_be 4 (isinglo_bits x).

(** types.cpp 495-514 on the bit pattern of the float *)
Definition vsinglo_bits (u : Z) : Z :=
  let sign_bit := Z.land u 0x80000000 in
  let exp_bits := Z.shiftr (Z.land u 0x7F800000) 23 in
  let frac_bits := Z.land u 0x007FFFFF in
  if exp_bits =? 0 then 0
  else
    let exp_bits := exp_bits + 2 in
    let exp_bits := u32 (Z.shiftl exp_bits 23) in
    let v := Z.lor (Z.lor sign_bit exp_bits) frac_bits in
    let w0 := u32 (Z.shiftl (Z.land v 0x00FF0000) 8) in
    let w1 := Z.shiftr (Z.land v 0xFF000000) 8 in
    let w2 := Z.shiftl (Z.land v 0x000000FF) 8 in
    let w3 := Z.shiftr (Z.land v 0x0000FF00) 8 in
    Z.lor (Z.lor (Z.lor w0 w1) w2) w3.
(** types.cpp 491-519 *)
Definition dlis_vsinglo (x : Z) : bytes := enc_be 4 (vsinglo_bits x).

(** types.cpp 521-557 *)
Definition dlis_fsing1o (v a : Z) : bytes := dlis_fsinglo v ++ dlis_fsinglo a.
Definition dlis_fsing2o (v a b : Z) : bytes :=
  dlis_fsinglo v ++ dlis_fsinglo a ++ dlis_fsinglo b.
Definition dlis_csinglo (re im : Z) : bytes := dlis_fsinglo re ++ dlis_fsinglo im.
Definition dlis_fdoub1o (v a : Z) : bytes := dlis_fdoublo v ++ dlis_fdoublo a.
Definition dlis_fdoub2o (v a b : Z) : bytes :=
  dlis_fdoublo v ++ dlis_fdoublo a ++ dlis_fdoublo b.
Definition dlis_cdoublo (re im : Z) : bytes := dlis_fdoublo re ++ dlis_fdoublo im.

(** types.cpp 559-579: the value is stored as a narrowed integer, so the bytes
    are [enc_be] of the or-ed value *)
Definition dlis_uvario (x width : Z) : bytes :=
  if (x <=? 0x7F) && (width <=? 1) then enc_be 1 x
  else if (x <=? 0xBFFF) && (width <=? 2) then
    enc_be 2 (Z.lor (unsigned 16 x) 0x8000)
  else enc_be 4 (Z.lor (unsigned 32 x) 0xC0000000).

(** types.cpp 581-585: [len] is a uint8_t, memcpy of len bytes from [inp] *)
Definition dlis_idento (len : Z) (inp : bytes) : option bytes :=
  do (a, _) <- take (Z.to_nat (unsigned 8 len)) inp;
  Some (dlis_ushorto len ++ a).

(** types.cpp 587-593 (len is non-negative) *)
Definition dlis_asciio (len : Z) (inp : bytes) (l : Z) : option bytes :=
  do (a, _) <- take (Z.to_nat len) inp;
  Some (dlis_uvario len l ++ a).

(** types.cpp 595-597 *)
Definition dlis_origino (x : Z) : bytes := dlis_uvario x 4.
(** types.cpp 599-601 *)
Definition dlis_statuso (x : Z) : bytes := dlis_ushorto x.

(** types.cpp 607-635; [x[1] = tz << 4 | m] with tz, m narrowed to uint8_t *)
Definition dlis_dtimeo (t : dtime) : bytes :=
  [ z2b (dt_Y t);
    z2b (Z.lor (Z.shiftl (unsigned 8 (dt_TZ t)) 4) (unsigned 8 (dt_M t)));
    z2b (dt_D t); z2b (dt_H t); z2b (dt_MN t); z2b (dt_S t) ]
  ++ enc_be 2 (dt_MS t).

(** types.cpp 637-645 *)
Definition dlis_obnameo (origin copy idlen : Z) (id : bytes) : option bytes :=
  do ws <- dlis_idento idlen id;
  Some (dlis_origino origin ++ dlis_ushorto copy ++ ws).

(** types.cpp 647-660 *)
Definition dlis_objrefo (ident_len : Z) (ident : bytes)
    (origin copy objname_len : Z) (identifier : bytes) : option bytes :=
  do ys <- dlis_idento ident_len ident;
  do zs <- dlis_obnameo origin copy objname_len identifier;
  Some (ys ++ zs).

(** types.cpp 662-679 *)
Definition dlis_attrefo (ident1_len : Z) (ident1 : bytes)
    (origin copy objname_len : Z) (identifier : bytes)
    (ident2_len : Z) (ident2 : bytes) : option bytes :=
  do ys <- dlis_idento ident1_len ident1;
  do zs <- dlis_obnameo origin copy objname_len identifier;
  do ws <- dlis_idento ident2_len ident2;
  Some (ys ++ zs ++ ws).

(** types.cpp 681-685 *)
Definition dlis_unitso (len : Z) (inp : bytes) : option bytes :=
  do (a, _) <- take (Z.to_nat (unsigned 8 len)) inp;
  Some (dlis_ushorto len ++ a).

(** ** Sizes *)

(** types.h 224-253, the DLIS_SIZEOF constants in code order, used by
    types.cpp 690-718; 0 is DLIS_VARIABLE_LENGTH *)
Definition dlis_sizes : list Z :=
  [2; 4; 8; 12; 4; 4; 8; 16; 24; 8; 16; 1; 2; 4; 1; 2; 4;
   0; 0; 0; 8; 0; 0; 0; 0; 1; 0].

(** types.cpp 687-721; DLIS_FSHORT = 1, DLIS_UNITS = 27 (types.h 195-222) *)
Definition dlis_sizeof_type (x : Z) : Z :=
  if (x <? 1) || (x >? 27) then -1
  else nth (Z.to_nat (x - 1)) dlis_sizes 0.
