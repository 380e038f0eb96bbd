(** Properties C01-C10: the RP66 data types.  Statements use the model's API
    functions (DlisTypes) and the independent specification SpecTypes / Flocq's
    real-number semantics of IEEE floats ([B2R]). *)
From Verif Require Import Bytes BytesProofs DlisTypes SpecTypes TypesProofs FloatProofs
  DlisFloatProofs IsinglProofs VaxProofs TypesProofs2.
From Coq Require Import Reals.
From Flocq Require Import Core IEEE754.Binary IEEE754.Bits.
Local Open Scope Z_scope.

(** ** C01: UVARI decoding follows the RP66 prefix rule *)
Theorem C01_uvari_decode :
  (forall xs v rest,
     dlis_uvari xs = Some (v, rest) <-> exists e, xs = e ++ rest /\ rp66_uvari e v) /\
  (forall e v, rp66_uvari e v ->
     (length e = 1%nat /\ 0 <= v < 2 ^ 7) \/ (length e = 2%nat /\ 0 <= v < 2 ^ 14) \/
     (length e = 4%nat /\ 0 <= v < 2 ^ 30)) /\
  (forall xs v rest, dlis_origin xs = Some (v, rest) <-> dlis_uvari xs = Some (v, rest)).
Proof. exact (conj uvari_read_spec (conj uvari_spec_range (fun _ _ _ => iff_refl _))). Qed.
Print Assumptions C01_uvari_decode.

Example C01_example :
  rp66_uvari [z2b 0xC1; z2b 2; z2b 3; z2b 4] 0x01020304 /\
  dlis_uvari [z2b 0xC1; z2b 2; z2b 3; z2b 4; z2b 9] = Some (0x01020304, [z2b 9]).
Proof. split; [apply (uvari_4 (z2b 0xC1) (z2b 2) (z2b 3) (z2b 4)); vm_compute; congruence | reflexivity]. Qed.

(** ** C02: UVARI write/read round trip.
    Full statement: for every x in [0,2^30) and every width,
      forall rest, dlis_uvari (dlis_uvario x width ++ rest) = Some (x, rest).
    It is false: the exact set of failures is 0x4000..0xBFFF with width <= 2. *)
Theorem C02_uvari_roundtrip_partial :
  forall x width, 0 <= x < 2 ^ 30 ->
  ((forall rest, dlis_uvari (dlis_uvario x width ++ rest) = Some (x, rest))
   <-> ~ (0x4000 <= x <= 0xBFFF /\ width <= 2)).
Proof. exact uvario_roundtrip_iff. Qed.
Print Assumptions C02_uvari_roundtrip_partial.

Theorem C02_uvari_roundtrip_refuted :
  exists x width, 0 <= x < 2 ^ 30 /\ (width = 1 \/ width = 2 \/ width = 4) /\
    dlis_uvari (dlis_uvario x width) <> Some (x, []).
Proof.
  exists 0x8000, 2. split; [split; [vm_compute; congruence | reflexivity]|].
  split; [auto | vm_compute; congruence].
Qed.
Print Assumptions C02_uvari_roundtrip_refuted.

(** the writer honours the requested width when the value fits it *)
Theorem C02_uvari_width :
  forall x width, 0 <= x < 2 ^ 30 ->
  length (dlis_uvario x width) =
    if (x <=? 127) && (width <=? 1) then 1%nat
    else if (x <=? 49151) && (width <=? 2) then 2%nat else 4%nat.
Proof. exact (fun x w _ => uvario_length x w). Qed.
Print Assumptions C02_uvari_width.

Example C02_example :
  dlis_uvari (dlis_uvario 0x3FFF 2 ++ [z2b 7]) = Some (0x3FFF, [z2b 7]) /\
  dlis_uvari (dlis_uvario 0x3FFFFFFF 1) = Some (0x3FFFFFFF, []).
Proof. split; reflexivity. Qed.

(** ** C03: fixed-width integers *)
Theorem C03_decode :
  forall b0 b1 b2 b3 rest,
  dlis_ushort (b0 :: rest) = Some (b2z b0, rest) /\
  dlis_unorm (b0 :: b1 :: rest) = Some (u16 b0 b1, rest) /\
  dlis_ulong (b0 :: b1 :: b2 :: b3 :: rest) = Some (u32be b0 b1 b2 b3, rest) /\
  (exists v, dlis_sshort (b0 :: rest) = Some (v, rest) /\ twos_complement 8 (b2z b0) v) /\
  (exists v, dlis_snorm (b0 :: b1 :: rest) = Some (v, rest) /\ twos_complement 16 (u16 b0 b1) v) /\
  (exists v, dlis_slong (b0 :: b1 :: b2 :: b3 :: rest) = Some (v, rest) /\
             twos_complement 32 (u32be b0 b1 b2 b3) v).
Proof. exact fixed_ints_decode. Qed.
Print Assumptions C03_decode.

Theorem C03_roundtrip :
  forall x rest,
  (0 <= x < 2 ^ 8 -> dlis_ushort (dlis_ushorto x ++ rest) = Some (x, rest)) /\
  (0 <= x < 2 ^ 16 -> dlis_unorm (dlis_unormo x ++ rest) = Some (x, rest)) /\
  (0 <= x < 2 ^ 32 -> dlis_ulong (dlis_ulongo x ++ rest) = Some (x, rest)) /\
  (- 2 ^ 7 <= x < 2 ^ 7 -> dlis_sshort (dlis_sshorto x ++ rest) = Some (x, rest)) /\
  (- 2 ^ 15 <= x < 2 ^ 15 -> dlis_snorm (dlis_snormo x ++ rest) = Some (x, rest)) /\
  (- 2 ^ 31 <= x < 2 ^ 31 -> dlis_slong (dlis_slongo x ++ rest) = Some (x, rest)).
Proof. exact fixed_ints_roundtrip. Qed.
Print Assumptions C03_roundtrip.

Theorem C03_write_of_read :
  forall xs v rest,
  (dlis_ushort xs = Some (v, rest) -> dlis_ushorto v ++ rest = xs) /\
  (dlis_unorm xs = Some (v, rest) -> dlis_unormo v ++ rest = xs) /\
  (dlis_ulong xs = Some (v, rest) -> dlis_ulongo v ++ rest = xs) /\
  (dlis_sshort xs = Some (v, rest) -> dlis_sshorto v ++ rest = xs) /\
  (dlis_snorm xs = Some (v, rest) -> dlis_snormo v ++ rest = xs) /\
  (dlis_slong xs = Some (v, rest) -> dlis_slongo v ++ rest = xs).
Proof. exact fixed_ints_write_read. Qed.
Print Assumptions C03_write_of_read.

Example C03_example : dlis_snorm [z2b 0xFF; z2b 0x67; z2b 1] = Some (-153, [z2b 1]) /\
  dlis_slong (dlis_slongo (-2147483648)) = Some (-2147483648, []).
Proof. split; reflexivity. Qed.

(** ** C04: composite names *)
Theorem C04_decode :
  (forall xs s rest, dlis_ident xs = Some (s, rest) <->
     exists e, xs = e ++ rest /\ rp66_ident e s) /\
  (forall xs s rest, dlis_units xs = Some (s, rest) <->
     exists e, xs = e ++ rest /\ rp66_ident e s) /\
  (forall xs s rest, dlis_ascii xs = Some (s, rest) <->
     exists e, xs = e ++ rest /\ rp66_ascii e s) /\
  (forall xs n rest, dlis_obname xs = Some (n, rest) <->
     exists e, xs = e ++ rest /\ rp66_obname e (ob_origin n) (ob_copy n) (ob_id n)) /\
  (forall xs n rest, dlis_objref xs = Some (n, rest) <->
     exists e, xs = e ++ rest /\
       rp66_objref e (or_type n) (ob_origin (or_name n)) (ob_copy (or_name n)) (ob_id (or_name n))) /\
  (forall xs n rest, dlis_attref xs = Some (n, rest) <->
     exists e, xs = e ++ rest /\
       rp66_attref e (ar_type n) (ob_origin (ar_name n)) (ob_copy (ar_name n)) (ob_id (ar_name n)) (ar_label n)).
Proof.
  exact (conj ident_read_spec (conj ident_read_spec (conj ascii_read_spec
        (conj obname_read_spec (conj objref_read_spec attref_read_spec))))).
Qed.
Print Assumptions C04_decode.

Theorem C04_roundtrip :
  forall t o c id l rest,
  0 <= o < 2 ^ 30 -> 0 <= c < 256 ->
  (length t <= 255)%nat -> (length id <= 255)%nat -> (length l <= 255)%nat ->
  let lt := Z.of_nat (length t) in
  let li := Z.of_nat (length id) in
  let ll := Z.of_nat (length l) in
  (exists w, dlis_idento li id = Some w /\ dlis_ident (w ++ rest) = Some (id, rest)) /\
  (exists w, dlis_unitso li id = Some w /\ dlis_units (w ++ rest) = Some (id, rest)) /\
  (exists w, dlis_obnameo o c li id = Some w /\
             dlis_obname (w ++ rest) = Some (mk_obname o c id, rest)) /\
  (exists w, dlis_objrefo lt t o c li id = Some w /\
             dlis_objref (w ++ rest) = Some (mk_objref t (mk_obname o c id), rest)) /\
  (exists w, dlis_attrefo lt t o c li id ll l = Some w /\
             dlis_attref (w ++ rest) = Some (mk_attref t (mk_obname o c id) l, rest)).
Proof. exact composites_roundtrip. Qed.
Print Assumptions C04_roundtrip.

(** ASCII of any length below 2^30; as for C02 the width <= 2 form is broken for
    16384..49151 bytes *)
Theorem C04_ascii_roundtrip :
  forall s width rest, Z.of_nat (length s) < 2 ^ 30 ->
  ~ (0x4000 <= Z.of_nat (length s) <= 0xBFFF /\ width <= 2) ->
  exists w, dlis_asciio (Z.of_nat (length s)) s width = Some w /\
            dlis_ascii (w ++ rest) = Some (s, rest).
Proof. exact ascii_roundtrip. Qed.
Print Assumptions C04_ascii_roundtrip.

Example C04_example :
  exists w, dlis_attrefo 7 (text "CHANNEL") 300 2 4 (text "TDEP") 5 (text "UNITS") = Some w /\
  dlis_attref (w ++ text "rest") =
    Some (mk_attref (text "CHANNEL") (mk_obname 300 2 (text "TDEP")) (text "UNITS"), text "rest").
Proof. eexists. split; reflexivity. Qed.

(** ** C05: DTIME.  [dt_Y] is the year minus 1900, as in the C API; dlis_year
    converts. *)
Theorem C05_dtime_roundtrip :
  forall t rest,
  0 <= dt_Y t <= 255 -> 0 <= dt_TZ t <= 15 -> 0 <= dt_M t <= 15 -> 0 <= dt_D t <= 255 ->
  0 <= dt_H t <= 255 -> 0 <= dt_MN t <= 255 -> 0 <= dt_S t <= 255 -> 0 <= dt_MS t <= 65535 ->
  dlis_dtime (dlis_dtimeo t ++ rest) = Some (t, rest).
Proof.
  exact (fun t rest h1 h2 h3 h4 h5 h6 h7 h8 =>
    dtime_roundtrip t rest (conj h1 (conj h2 (conj h3 (conj h4 (conj h5 (conj h6 (conj h7 h8)))))))).
Qed.
Print Assumptions C05_dtime_roundtrip.

Theorem C05_dtime_decode :
  (forall b0 b1 b2 b3 b4 b5 b6 b7 rest,
   dlis_dtime (b0 :: b1 :: b2 :: b3 :: b4 :: b5 :: b6 :: b7 :: rest) =
   Some (mk_dtime (b2z b0) (b2z b1 / 16) (b2z b1 mod 16) (b2z b2) (b2z b3) (b2z b4) (b2z b5)
           (u16 b6 b7), rest)) /\
  (forall xs, (length xs < 8)%nat -> dlis_dtime xs = None).
Proof. exact (conj dtime_read dtime_short). Qed.
Print Assumptions C05_dtime_decode.

Theorem C05_year :
  forall y, 1900 <= y <= 2155 ->
  0 <= dlis_yearo y <= 255 /\ dlis_year (dlis_yearo y) = y.
Proof. exact year_roundtrip. Qed.
Print Assumptions C05_year.

Example C05_example :
  dlis_dtime (dlis_dtimeo (mk_dtime (dlis_yearo 1987) 2 4 19 21 20 15 620)) =
  Some (mk_dtime 87 2 4 19 21 20 15 620, []).
Proof. reflexivity. Qed.

(** ** C06: FSHORT *)
Theorem C06_fshort_exact :
  forall b0 b1 rest M,
  twos_complement 12 (u16 b0 b1 / 16) M ->
  let E := u16 b0 b1 mod 16 in
  exists w, dlis_fshort (b0 :: b1 :: rest) = Some (w, rest) /\
    let f := b32_of_bits w in
    is_finite 24 128 f = true /\
    B2R 24 128 f = (IZR M * bpow radix2 (E - 11))%R /\
    Bsign 24 128 f = (M <? 0).
Proof. exact fshort_exact. Qed.
Print Assumptions C06_fshort_exact.

Example C06_example :
  twos_complement 12 (u16 (z2b 0x4C) (z2b 0x88) / 16) 0x4C8 /\
  twos_complement 12 (u16 (z2b 0xB3) (z2b 0x88) / 16) (-1224) /\
  dlis_fshort [z2b 0xB3; z2b 0x88] = Some (0xC3190000, []).
Proof. repeat split; vm_compute; congruence. Qed.

(** ** C07: ISINGL.  Full statement: for every word with sign s, exponent E and
    fraction F whose value F * 2^-24 * 16^(E-64) is a normal single, the result
    is exactly that value.  True for normalised fractions (first hexadecimal
    digit non-zero), false in general. *)
Theorem C07_isingl_exact_partial :
  forall b0 b1 b2 b3 rest (s : bool) E F,
  u32be b0 b1 b2 b3 = (if s then 2 ^ 31 else 0) + E * 2 ^ 24 + F ->
  0 <= E < 128 -> 2 ^ 20 <= F < 2 ^ 24 ->
  (bpow radix2 (-126) <= IZR F * bpow radix2 (-24) * bpow radix2 (4 * (E - 64)) < bpow radix2 128)%R ->
  exists w, dlis_isingl (b0 :: b1 :: b2 :: b3 :: rest) = Some (w, rest) /\
    let f := b32_of_bits w in
    is_finite 24 128 f = true /\
    B2R 24 128 f =
      ((if s then -1 else 1) * (IZR F * bpow radix2 (-24) * bpow radix2 (4 * (E - 64))))%R /\
    Bsign 24 128 f = s.
Proof. exact isingl_exact. Qed.
Print Assumptions C07_isingl_exact_partial.

(** normalised values outside the normal range: too large is never finite, too
    small stays below the smallest normal single *)
Theorem C07_isingl_out_of_range :
  forall b0 b1 b2 b3 rest (s : bool) E F,
  u32be b0 b1 b2 b3 = (if s then 2 ^ 31 else 0) + E * 2 ^ 24 + F ->
  0 <= E < 128 -> 2 ^ 20 <= F < 2 ^ 24 ->
  let r := (IZR F * bpow radix2 (-24) * bpow radix2 (4 * (E - 64)))%R in
  exists w, dlis_isingl (b0 :: b1 :: b2 :: b3 :: rest) = Some (w, rest) /\
    ((bpow radix2 128 <= r)%R -> is_finite 24 128 (b32_of_bits w) = false) /\
    ((r < bpow radix2 (-126))%R ->
       is_finite 24 128 (b32_of_bits w) = true /\
       (Rabs (B2R 24 128 (b32_of_bits w)) < bpow radix2 (-126))%R).
Proof. exact isingl_out_of_range. Qed.
Print Assumptions C07_isingl_out_of_range.

(** 0x42010000 is 0x010000 * 2^-24 * 16^2 = 1.0 but is decoded as 8.5
    (0x41080000); 0x40000000 is a zero with non-zero exponent and is decoded as
    0.03125 *)
Theorem C07_isingl_unnormalised_refuted :
  exists b0 b1 b2 b3 E F,
  u32be b0 b1 b2 b3 = E * 2 ^ 24 + F /\ 0 <= E < 128 /\ 0 <= F < 2 ^ 24 /\
  (IZR F * bpow radix2 (-24) * bpow radix2 (4 * (E - 64)) = 1)%R /\
  exists w, dlis_isingl [b0; b1; b2; b3] = Some (w, []) /\
    B2R 24 128 (b32_of_bits w) = (17 / 2)%R.
Proof. exact isingl_unnormalised. Qed.
Print Assumptions C07_isingl_unnormalised_refuted.

Theorem C07_isingl_zero_fraction_refuted :
  exists b0, exists w, dlis_isingl [b0; x00; x00; x00] = Some (w, []) /\
    B2R 24 128 (b32_of_bits w) <> 0%R.
Proof. exact isingl_zero_fraction. Qed.
Print Assumptions C07_isingl_zero_fraction_refuted.

Example C07_example :
  u32be (z2b 0xC2) (z2b 0x76) (z2b 0xA0) (z2b 0) = 2 ^ 31 + 0x42 * 2 ^ 24 + 0x76A000 /\
  2 ^ 20 <= 0x76A000 < 2 ^ 24 /\
  (bpow radix2 (-126) <= IZR 0x76A000 * bpow radix2 (-24) * bpow radix2 (4 * (0x42 - 64)) < bpow radix2 128)%R /\
  dlis_isingl [z2b 0xC2; z2b 0x76; z2b 0xA0; z2b 0] = Some (0xC2ED4000, []).
Proof. exact isingl_example. Qed.

(** ** C08: VSINGL *)
Theorem C08_vsingl_decode :
  forall x0 x1 x2 x3 rest,
  let v := u32be x1 x0 x3 x2 in
  let s := v / 2 ^ 31 in let e := (v / 2 ^ 23) mod 256 in let f := v mod 2 ^ 23 in
  exists w, dlis_vsingl (x0 :: x1 :: x2 :: x3 :: rest) = Some (w, rest) /\
    let r := ((if (s =? 0)%Z then 1 else -1) * (/ 2 + IZR f * bpow radix2 (-24)) * bpow radix2 (e - 128))%R in
    (e <> 0 -> is_finite 24 128 (b32_of_bits w) = true /\
               Bsign 24 128 (b32_of_bits w) = negb (s =? 0) /\
               B2R 24 128 (b32_of_bits w) = rnd32 r) /\
    (3 <= e -> B2R 24 128 (b32_of_bits w) = r) /\
    (e = 0 -> s = 0 -> b32_of_bits w = B754_zero 24 128 false) /\
    (e = 0 -> s <> 0 -> is_nan 24 128 (b32_of_bits w) = true).
Proof. exact vsingl_decode. Qed.
Print Assumptions C08_vsingl_decode.

(** every normal float with IEEE exponent field up to 253 survives; beyond that
    (|x| >= 2^127) the VAX exponent overflows *)
Theorem C08_vsingl_roundtrip :
  forall u rest, 0 <= u < 2 ^ 32 -> 0 < (u / 2 ^ 23) mod 256 <= 253 ->
  dlis_vsingl (dlis_vsinglo u ++ rest) = Some (u, rest).
Proof. exact vsingl_roundtrip. Qed.
Print Assumptions C08_vsingl_roundtrip.

Theorem C08_vsingl_roundtrip_refuted :
  exists u, 0 <= u < 2 ^ 32 /\ 0 < (u / 2 ^ 23) mod 256 < 255 /\
    dlis_vsingl (dlis_vsinglo u) <> Some (u, []).
Proof. exact vsingl_roundtrip_fails. Qed.
Print Assumptions C08_vsingl_roundtrip_refuted.

Example C08_example :
  dlis_vsingl [z2b 0x19; z2b 0x44; z2b 0; z2b 0] = Some (0x43190000, []) /\
  dlis_vsingl (dlis_vsinglo 0xC3190000) = Some (0xC3190000, []).
Proof. split; vm_compute; reflexivity. Qed.

(** ** C09: IEEE samples are bit-transparent *)
Theorem C09_decode :
  forall a0 a1 a2 a3 b0 b1 b2 b3 c0 c1 c2 c3 rest,
  let A := u32be a0 a1 a2 a3 in let B := u32be b0 b1 b2 b3 in let C := u32be c0 c1 c2 c3 in
  dlis_fsingl (a0 :: a1 :: a2 :: a3 :: rest) = Some (A, rest) /\
  dlis_fsing1 ([a0; a1; a2; a3; b0; b1; b2; b3] ++ rest) = Some ((A, B), rest) /\
  dlis_csingl ([a0; a1; a2; a3; b0; b1; b2; b3] ++ rest) = Some ((A, B), rest) /\
  dlis_fsing2 ([a0; a1; a2; a3; b0; b1; b2; b3; c0; c1; c2; c3] ++ rest) = Some ((A, B, C), rest) /\
  dlis_fdoubl ([a0; a1; a2; a3; b0; b1; b2; b3] ++ rest) = Some (A * 2 ^ 32 + B, rest).
Proof. exact ieee_decode. Qed.
Print Assumptions C09_decode.

Theorem C09_decode_double :
  forall xa xb xc rest, length xa = 8%nat -> length xb = 8%nat -> length xc = 8%nat ->
  exists A B C,
  dlis_fdoubl (xa ++ rest) = Some (A, rest) /\
  dlis_fdoubl (xb ++ rest) = Some (B, rest) /\
  dlis_fdoubl (xc ++ rest) = Some (C, rest) /\
  dlis_fdoub1 (xa ++ xb ++ rest) = Some ((A, B), rest) /\
  dlis_cdoubl (xa ++ xb ++ rest) = Some ((A, B), rest) /\
  dlis_fdoub2 (xa ++ xb ++ xc ++ rest) = Some ((A, B, C), rest).
Proof. exact ieee_decode_double. Qed.
Print Assumptions C09_decode_double.

Theorem C09_roundtrip :
  forall v a b rest,
  (0 <= v < 2 ^ 32 -> 0 <= a < 2 ^ 32 -> 0 <= b < 2 ^ 32 ->
     dlis_fsingl (dlis_fsinglo v ++ rest) = Some (v, rest) /\
     dlis_fsing1 (dlis_fsing1o v a ++ rest) = Some ((v, a), rest) /\
     dlis_fsing2 (dlis_fsing2o v a b ++ rest) = Some ((v, a, b), rest) /\
     dlis_csingl (dlis_csinglo v a ++ rest) = Some ((v, a), rest)) /\
  (0 <= v < 2 ^ 64 -> 0 <= a < 2 ^ 64 -> 0 <= b < 2 ^ 64 ->
     dlis_fdoubl (dlis_fdoublo v ++ rest) = Some (v, rest) /\
     dlis_fdoub1 (dlis_fdoub1o v a ++ rest) = Some ((v, a), rest) /\
     dlis_fdoub2 (dlis_fdoub2o v a b ++ rest) = Some ((v, a, b), rest) /\
     dlis_cdoubl (dlis_cdoublo v a ++ rest) = Some ((v, a), rest)).
Proof. exact ieee_roundtrip. Qed.
Print Assumptions C09_roundtrip.

Theorem C09_write_of_read :
  forall xs v rest,
  (dlis_fsingl xs = Some (v, rest) -> dlis_fsinglo v ++ rest = xs) /\
  (dlis_fdoubl xs = Some (v, rest) -> dlis_fdoublo v ++ rest = xs).
Proof. exact ieee_write_read. Qed.
Print Assumptions C09_write_of_read.

(** a signalling NaN pattern goes through *)
Example C09_example : dlis_fsingl (dlis_fsinglo 0x7F800001 ++ [x00]) = Some (0x7F800001, [x00]).
Proof. reflexivity. Qed.

(** ** C10: declared sizes match what the readers consume *)
Theorem C10_sizes :
  (forall code, dlis_sizeof_type code < 0 <-> (code < 1 \/ 27 < code)) /\
  (forall xs : bytes,
   consumes dlis_fshort (dlis_sizeof_type 1) xs /\ consumes dlis_fsingl (dlis_sizeof_type 2) xs /\
   consumes dlis_fsing1 (dlis_sizeof_type 3) xs /\ consumes dlis_fsing2 (dlis_sizeof_type 4) xs /\
   consumes dlis_isingl (dlis_sizeof_type 5) xs /\ consumes dlis_vsingl (dlis_sizeof_type 6) xs /\
   consumes dlis_fdoubl (dlis_sizeof_type 7) xs /\ consumes dlis_fdoub1 (dlis_sizeof_type 8) xs /\
   consumes dlis_fdoub2 (dlis_sizeof_type 9) xs /\ consumes dlis_csingl (dlis_sizeof_type 10) xs /\
   consumes dlis_cdoubl (dlis_sizeof_type 11) xs /\ consumes dlis_sshort (dlis_sizeof_type 12) xs /\
   consumes dlis_snorm (dlis_sizeof_type 13) xs /\ consumes dlis_slong (dlis_sizeof_type 14) xs /\
   consumes dlis_ushort (dlis_sizeof_type 15) xs /\ consumes dlis_unorm (dlis_sizeof_type 16) xs /\
   consumes dlis_ulong (dlis_sizeof_type 17) xs /\ consumes dlis_dtime (dlis_sizeof_type 21) xs /\
   consumes dlis_status (dlis_sizeof_type 26) xs) /\
  (forall code, In code [18; 19; 20; 22; 23; 24; 25; 27] -> dlis_sizeof_type code = 0).
Proof. exact sizes_consumed. Qed.
Print Assumptions C10_sizes.

(** variable-length readers really have no fixed size *)
Theorem C10_variable :
  forall n : nat,
  exists xs v rest, dlis_ident xs = Some (v, rest) /\ (length xs - length rest <> n)%nat.
Proof. exact ident_no_fixed_size. Qed.
Print Assumptions C10_variable.
