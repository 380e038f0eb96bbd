(** Model of lib/src/lis/types.cpp and lib/src/lis/pack.cpp: the LIS79 data types.
    Readers are [bytes -> option (T * bytes)]; [None] = out-of-bounds read. *)
From Verif Require Import Bytes DlisTypes DlisCore.
From Flocq Require Import Core IEEE754.Binary IEEE754.Bits.
Local Open Scope Z_scope.

(** ** Representation codes (include/dlisio/lis/types.h 112-121) *)
Definition LIS_I8 := 56.
Definition LIS_I16 := 79.
Definition LIS_I32 := 73.
Definition LIS_F16 := 49.
Definition LIS_F32 := 68.
Definition LIS_F32LOW := 50.
Definition LIS_F32FIX := 70.
Definition LIS_STRING := 65.
Definition LIS_BYTE := 66.
Definition LIS_MASK := 77.

(** types.cpp 77-115.  [mask] is computed as [(1 << len) - 1] in int; for len = 31
    that overflows (undefined), the model takes the two's complement result. *)
Definition twos_complement_of (sign : bool) (number len : Z) : Z :=
  if sign then Z.land (Z.lnot number) (2 ^ len - 1) + 1 else number.

(** ** Integers *)

(** types.cpp 119-124 *)
Definition lis_i8 (xs : bytes) : option (Z * bytes) :=
  do (u, r) <- read_be 1 xs; Some (signed 8 u, r).
(** types.cpp 126-134 *)
Definition lis_i16 (xs : bytes) : option (Z * bytes) :=
  do (u, r) <- read_be 2 xs; Some (signed 16 u, r).
(** types.cpp 136-144 *)
Definition lis_i32 (xs : bytes) : option (Z * bytes) :=
  do (u, r) <- read_be 4 xs; Some (signed 32 u, r).
(** types.cpp 315-319 *)
Definition lis_byte (xs : bytes) : option (Z * bytes) := read_be 1 xs.

(** ** Floats, as bit patterns *)

(** double multiplication; float addition *)
Definition f64_mul : binary64 -> binary64 -> binary64 := b64_mult BinarySingleNaN.mode_NE.
Definition f32_add : binary32 -> binary32 -> binary32 := b32_plus BinarySingleNaN.mode_NE.
(** [float x = n * std::pow( 2, e )]: pow of two ints and the product are double *)
Definition scaled (n e : Z) : binary32 := f64_to_f32 (f64_mul (f64_of n 0) (pow2_f64 e)).
(** [sign_bit ? -1.0 : 1.0] *)
Definition sign_f32 (s : bool) : binary32 := if s then f32_of (-1) 0 else f32_of 1 0.

(** types.cpp 146-178, on the word *)
Definition f16_word (v : Z) : binary32 :=
  let sign_bit := negb (Z.shiftr (Z.land v 0x8000) 15 =? 0) in
  let exp_bits := Z.land v 0x000F in
  let frac_bits := Z.shiftr (Z.land v 0x7FF0) 4 in
  let fraction := scaled (twos_complement_of sign_bit frac_bits 11) (-11) in
  f32_mul (f32_mul (sign_f32 sign_bit) fraction) (pow2_f32 exp_bits).
Definition lis_f16 (xs : bytes) : option (Z * bytes) :=
  do (v, r) <- read_be 2 xs; Some (bits_of_b32 (f16_word v), r).

(** types.cpp 180-223, on the word.  [~exp_bits] is narrowed to uint8_t.  The
    exponent is a float with an integral value; kept as an integer. *)
Definition f32_word (v : Z) : binary32 :=
  let sign_bit := negb (Z.shiftr (Z.land v 0x80000000) 31 =? 0) in
  let exp_bits := Z.shiftr (Z.land v 0x7F800000) 23 in
  let frac_bits := Z.land v 0x007FFFFF in
  let exponent_1_complement := if sign_bit then unsigned 8 (Z.lnot exp_bits) else exp_bits in
  let exponent := exponent_1_complement - 128 in
  let fraction := scaled (twos_complement_of sign_bit frac_bits 23) (-23) in
  f32_mul (f32_mul (sign_f32 sign_bit) fraction) (pow2_f32 exponent).
Definition lis_f32 (xs : bytes) : option (Z * bytes) :=
  do (v, r) <- read_be 4 xs; Some (bits_of_b32 (f32_word v), r).

(** types.cpp 225-273, on the word.  The bit pattern of a NaN result (0 * inf) is
    that of Flocq; the processor may choose another NaN. *)
Definition f32low_word (v : Z) : binary32 :=
  let fraction_sign_bit := negb (Z.shiftr (Z.land v 0x00008000) 15 =? 0) in
  let exponent_sign_bit := negb (Z.shiftr (Z.land v 0x80000000) 31 =? 0) in
  let exp_bits := Z.shiftr (Z.land v 0x7FFF0000) 16 in
  let frac_bits := Z.land v 0x00007FFF in
  let exponent := (if exponent_sign_bit then -1 else 1)
                  * twos_complement_of exponent_sign_bit exp_bits 15 in
  let frac_2_complement := twos_complement_of fraction_sign_bit frac_bits 15 in
  f32_mul (f32_mul (sign_f32 fraction_sign_bit) (f32_of frac_2_complement 0))
          (pow2_f32 (exponent - 15)).
Definition lis_f32low (xs : bytes) : option (Z * bytes) :=
  do (v, r) <- read_be 4 xs; Some (bits_of_b32 (f32low_word v), r).

(** types.cpp 275-307, on the word *)
Definition f32fix_word (v : Z) : binary32 :=
  let sign_bit := negb (Z.shiftr (Z.land v 0x80000000) 31 =? 0) in
  let data_bits := Z.land v 0x7FFFFFFF in
  let data_2_complement := twos_complement_of sign_bit data_bits 31 in
  let integer_part := f32_of (Z.shiftr (Z.land data_2_complement 0xFFFF0000) 16) 0 in
  let real_part := scaled (Z.land data_2_complement 0x0000FFFF) (-16) in
  f32_mul (sign_f32 sign_bit) (f32_add integer_part real_part).
Definition lis_f32fix (xs : bytes) : option (Z * bytes) :=
  do (v, r) <- read_be 4 xs; Some (bits_of_b32 (f32fix_word v), r).

(** ** Text *)

(** types.cpp 309-313 and 321-325 *)
Definition lis_string (xs : bytes) (len : Z) : option (bytes * bytes) := take (Z.to_nat len) xs.
Definition lis_mask (xs : bytes) (len : Z) : option (bytes * bytes) := take (Z.to_nat len) xs.

(** types.cpp 327-341; types.h 123-136: variable length is 0 *)
Definition lis_sizeof_type (reprc : Z) : Z :=
  if reprc =? LIS_I8 then 1
  else if reprc =? LIS_I16 then 2
  else if reprc =? LIS_I32 then 4
  else if reprc =? LIS_F16 then 2
  else if reprc =? LIS_F32 then 4
  else if reprc =? LIS_F32LOW then 4
  else if reprc =? LIS_F32FIX then 4
  else if reprc =? LIS_STRING then 0
  else if reprc =? LIS_BYTE then 1
  else if reprc =? LIS_MASK then 0
  else -1.

(** ** Frame unpacking *)

(** pack.cpp 88-114 with the readers of pack.cpp 130-140: the native bytes of one
    value.  'a', 'm' and 'S' are not known to packf.  Outer None: invalid format
    character, inner None: out-of-bounds read. *)
Definition lis_interpret (c : byte) (src : bytes) : option (option (bytes * bytes)) :=
  let one (n : nat) (r : option (Z * bytes)) :=
    Some (do (v, r) <- r; Some (native n v, r)) in
  match c with
  | "s"%byte => one 1%nat (lis_i8 src)
  | "i"%byte => one 2%nat (lis_i16 src)
  | "l"%byte => one 4%nat (lis_i32 src)
  | "e"%byte => one 4%nat (lis_f16 src)
  | "f"%byte => one 4%nat (lis_f32 src)
  | "r"%byte => one 4%nat (lis_f32low src)
  | "p"%byte => one 4%nat (lis_f32fix src)
  | "b"%byte => one 1%nat (lis_byte src)
  | _ => None
  end.

Inductive lis_run :=
  | LOob                            (* reads outside the source *)
  | LErr                            (* DLIS_UNEXPECTED_VALUE *)
  | LOk (out rest : bytes).         (* DLIS_OK *)
(** pack.cpp 116-147; [f] holds the characters before the NUL terminator *)
Fixpoint lis_run_fmt (f src : bytes) : lis_run :=
  match f with
  | [] => LOk [] src
  | c :: t =>
      match lis_interpret c src with
      | None => LErr
      | Some None => LOob
      | Some (Some (out, src')) =>
          match lis_run_fmt t src' with
          | LOk more rest => LOk (out ++ more) rest
          | e => e
          end
      end
  end.
(** pack.cpp 151-163 *)
Definition lis_packf (f src : bytes) : packf_result :=
  match lis_run_fmt f src with
  | LOob => PackOob
  | LErr => PackErr
  | LOk out _ => PackOk out
  end.
(** pack.cpp 165-175 *)
Definition lis_packflen (f src : bytes) : packflen_result :=
  match lis_run_fmt f src with
  | LOob => LenOob
  | LErr => LenErr
  | LOk out rest => LenOk (Z.of_nat (length src) - Z.of_nat (length rest)) (Z.of_nat (length out))
  end.
