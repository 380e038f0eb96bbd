(** Properties C40, C41 and C64: the LIS79 data types.  Floats are compared with
    real numbers through Flocq's [B2R]; [rnd32] is rounding to nearest single. *)
From Verif Require Import Bytes BytesProofs DlisTypes DlisCore SpecTypes TypesProofs FloatProofs DlisFloatProofs
  SpecFdata LisTypes LisTypesProofs SpecLisTypes LisTypesProofs2.
From Coq Require Import Reals.
From Flocq Require Import Core IEEE754.Binary IEEE754.Bits.
Local Open Scope Z_scope.

(** ** C40: integers are big-endian two's complement, 16.16 fixed point is rounded once *)
Theorem C40_ints :
  (forall b rest z, twos_complement 8 (b2z b) z -> lis_i8 (b :: rest) = Some (z, rest)) /\
  (forall b0 b1 rest z, twos_complement 16 (u16 b0 b1) z -> lis_i16 (b0 :: b1 :: rest) = Some (z, rest)) /\
  (forall b0 b1 b2 b3 rest z, twos_complement 32 (u32be b0 b1 b2 b3) z ->
     lis_i32 (b0 :: b1 :: b2 :: b3 :: rest) = Some (z, rest)) /\
  (forall b rest, lis_byte (b :: rest) = Some (b2z b, rest)).
Proof. exact lis_ints. Qed.
Print Assumptions C40_ints.

Theorem C40_fixed : forall b0 b1 b2 b3 rest M, twos_complement 32 (u32be b0 b1 b2 b3) M ->
  exists w, lis_f32fix (b0 :: b1 :: b2 :: b3 :: rest) = Some (w, rest) /\
    let f := b32_of_bits w in
    is_finite 24 128 f = true /\ B2R 24 128 f = rnd32 (IZR M / 65536)%R /\ Bsign 24 128 f = (M <? 0).
Proof. exact lis_fix_exact. Qed.
Print Assumptions C40_fixed.

Example C40_example :
  twos_complement 16 (u16 (z2b 0xFF) (z2b 0x67)) (-153) /\
  lis_i16 [z2b 0xFF; z2b 0x67; z2b 1] = Some (-153, [z2b 1]) /\
  (* 153.25 and -153.25: examples of LIS79 appendix B *)
  twos_complement 32 (u32be (z2b 0xFF) (z2b 0x66) (z2b 0xC0) (z2b 0)) (-10043392) /\
  lis_f32fix [z2b 0xFF; z2b 0x66; z2b 0xC0; z2b 0] = Some (0xC3194000, []).
Proof. repeat split; vm_compute; congruence. Qed.

(** ** C41: floats are fraction * 2^exponent *)
(** 16 bit: fraction of 12 bits, then 4 bits of exponent *)
Theorem C41_f16 : forall b0 b1 rest M, twos_complement 12 (u16 b0 b1 / 16) M ->
  let E := u16 b0 b1 mod 16 in
  exists w, lis_f16 (b0 :: b1 :: rest) = Some (w, rest) /\
    let f := b32_of_bits w in
    is_finite 24 128 f = true /\ B2R 24 128 f = (IZR M * bpow radix2 (-11) * bpow radix2 E)%R /\
    Bsign 24 128 f = (M <? 0).
Proof. exact lis_f16_exact. Qed.
Print Assumptions C41_f16.

(** 32 bit: sign, 8 bits of exponent (excess 128, complemented for negative
    numbers), 23 bits of fraction (two's complement with the sign).  Exact for
    every normal number, else rounded once. *)
Theorem C41_f32 : forall b0 b1 b2 b3 rest (s : bool) e m,
  u32be b0 b1 b2 b3 = (if s then 2 ^ 31 else 0) + e * 2 ^ 23 + m -> 0 <= e < 256 -> 0 <= m < 2 ^ 23 ->
  let M := if s then m - 2 ^ 23 else m in
  let E := (if s then 255 - e else e) - 128 in
  let r := (IZR M * bpow radix2 (-23) * bpow radix2 E)%R in
  exists w, lis_f32 (b0 :: b1 :: b2 :: b3 :: rest) = Some (w, rest) /\
    let f := b32_of_bits w in
    is_finite 24 128 f = true /\ B2R 24 128 f = rnd32 r /\ Bsign 24 128 f = s /\
    ((bpow radix2 (-126) <= Rabs r)%R -> B2R 24 128 f = r).
Proof. exact lis_f32_exact. Qed.
Print Assumptions C41_f32.

(** 32 bit low resolution: 16 bits of exponent, 16 bits of fraction, both two's
    complement.  Exact for every normal number; infinite when too large; of the
    numbers below the normal range those with E < -134 are read as 0. *)
Theorem C41_f32low : forall b0 b1 b2 b3 rest E M,
  twos_complement 16 (u16 b0 b1) E -> twos_complement 16 (u16 b2 b3) M ->
  let r := (IZR M * bpow radix2 (-15) * bpow radix2 E)%R in
  exists w, lis_f32low (b0 :: b1 :: b2 :: b3 :: rest) = Some (w, rest) /\
    let f := b32_of_bits w in
    ((bpow radix2 (-126) <= Rabs r < bpow radix2 128)%R ->
       is_finite 24 128 f = true /\ B2R 24 128 f = r /\ Bsign 24 128 f = (M <? 0)) /\
    ((bpow radix2 128 <= Rabs r)%R -> f = B754_infinity 24 128 (M <? 0)) /\
    ((Rabs r < bpow radix2 (-126))%R -> E <= 142 ->
       is_finite 24 128 f = true /\ B2R 24 128 f = (if E <? -134 then 0 else r)%R).
Proof. exact lis_f32low_exact. Qed.
Print Assumptions C41_f32low.

(** The last case cannot be had for E > 142: then the number is 0, but it is read
    as NaN. *)
Theorem C41_f32low_zero_refuted : exists b0 b1 b2 b3 E M w,
  twos_complement 16 (u16 b0 b1) E /\ twos_complement 16 (u16 b2 b3) M /\
  (IZR M * bpow radix2 (-15) * bpow radix2 E)%R = 0%R /\
  lis_f32low [b0; b1; b2; b3] = Some (w, []) /\ is_nan 24 128 (b32_of_bits w) = true.
Proof.
  exists (z2b 1), (z2b 0), (z2b 0), (z2b 0), 256, 0, 0x7FC00000.
  split; [split; vm_compute; [split; congruence | reflexivity]|].
  split; [split; vm_compute; [split; congruence | reflexivity]|].
  split; [ring|]. split; [vm_compute; reflexivity|]. vm_compute. reflexivity.
Qed.
Print Assumptions C41_f32low_zero_refuted.

Example C41_example :
  (* 153 and -153 in the three formats: LIS79 appendix B *)
  lis_f16 [z2b 0x4C; z2b 0x88] = Some (0x43190000, []) /\
  lis_f32 [z2b 0x44; z2b 0x4C; z2b 0x80; z2b 0] = Some (0x43190000, []) /\
  lis_f32 [z2b 0xBB; z2b 0xB3; z2b 0x80; z2b 0] = Some (0xC3190000, []) /\
  u32be (z2b 0xBB) (z2b 0xB3) (z2b 0x80) (z2b 0) = 2 ^ 31 + 119 * 2 ^ 23 + 0x338000 /\
  lis_f32low [z2b 0; z2b 8; z2b 0x4C; z2b 0x80] = Some (0x43190000, []) /\
  twos_complement 12 (u16 (z2b 0x4C) (z2b 0x88) / 16) 0x4C8.
Proof. repeat split; vm_compute; congruence. Qed.

(** ** C64: unpacking of LIS frames *)
(** Every call of packf: the samples' native values, an unknown character behind
    complete samples, or a read outside the source behind complete samples. *)
Theorem C64_unpack : forall f e w rest, lis_natives f e w ->
  lis_packf f (e ++ rest) = PackOk w /\
  lis_packflen f (e ++ rest) = LenOk (Z.of_nat (length e)) (Z.of_nat (length w)).
Proof. exact pack_values. Qed.
Print Assumptions C64_unpack.

Theorem C64_exact : forall f src,
  match lis_packf f src with
  | PackOk w => exists e rest, src = e ++ rest /\ lis_natives f e w
  | PackOob => exists f1 c f2 e w t n m, f = f1 ++ c :: f2 /\ src = e ++ t /\ lis_natives f1 e w /\
              lis_format c n m /\ (length t < n)%nat
  | PackErr => exists f1 c f2 e w t, f = f1 ++ c :: f2 /\ src = e ++ t /\ lis_natives f1 e w /\
              forall n m, ~ lis_format c n m
  end.
Proof. exact pack_exact. Qed.
Print Assumptions C64_exact.

(** the size of a row depends on the format only *)
Theorem C64_sizes :
  (forall f n m, Forall2 (fun c p => lis_format c (fst p) (snd p)) f (combine n m) -> length n = length m ->
   forall src, (list_sum n <= length src)%nat ->
   lis_packflen f src = LenOk (Z.of_nat (list_sum n)) (Z.of_nat (list_sum m))) /\
  (forall rc c n m, In (rc, c, n, m) lis_formats -> lis_sizeof_type rc = Z.of_nat n) /\
  lis_sizeof_type 65 = 0 /\ lis_sizeof_type 77 = 0 /\
  (forall rc, (forall c n m, ~ In (rc, c, n, m) lis_formats) -> rc <> 65 -> rc <> 77 -> lis_sizeof_type rc = -1).
Proof. exact (conj pack_sizes sizeof_table). Qed.
Print Assumptions C64_sizes.

Example C64_example :
  lis_natives (text "bi") [z2b 7; z2b 0xFF; z2b 0x67] [z2b 7; z2b 0x67; z2b 0xFF] /\
  lis_packf (text "bi") [z2b 7; z2b 0xFF; z2b 0x67; z2b 1] = PackOk [z2b 7; z2b 0x67; z2b 0xFF] /\
  lis_packf (text "ba") [z2b 7; z2b 0xFF] = PackErr.
Proof.
  split; [|split; vm_compute; reflexivity].
  change (text "bi") with ["b"%byte; "i"%byte].
  change [z2b 7; z2b 0xFF; z2b 0x67] with ([z2b 7] ++ [z2b 0xFF; z2b 0x67] ++ []).
  change [z2b 7; z2b 0x67; z2b 0xFF] with ([z2b 7] ++ [z2b 0x67; z2b 0xFF] ++ []).
  constructor; [constructor | constructor; [|constructor]].
  apply ln_i16 with (-153); [split; vm_compute; [split; congruence | reflexivity] | split; vm_compute; reflexivity].
Qed.
