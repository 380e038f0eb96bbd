(** C07, C08 and C31: what comes out where the value does not. *)
From Verif Require Import Bytes BytesProofs DlisTypes SpecTypes TypesProofs DlisCore Stream DlisIo SpecIo DlisRecords SpecRecords PyBase DlisFdata SpecFdata FdataProofs FdataProofs2 FdataProofs3
  TextExactProofs FloatProofs IsinglProofs ExactProofs.
From Coq Require Import Reals Lra.
From Flocq Require Import Core IEEE754.Binary IEEE754.Bits.
Local Open Scope Z_scope.

(** ** C07: which words are read right *)

(** A word is read as the number it stands for exactly if its fraction is normalised and
    the number is that of a normal single, or the fraction is zero and the exponent at
    most 33. *)
Theorem C07_isingl_right_iff : forall b0 b1 b2 b3 rest (s : bool) E F,
  u32be b0 b1 b2 b3 = (if s then 2 ^ 31 else 0) + E * 2 ^ 24 + F -> 0 <= E < 128 -> 0 <= F < 2 ^ 24 ->
  let r := (IZR F * bpow radix2 (-24) * bpow radix2 (4 * (E - 64)))%R in
  exists w, dlis_isingl (b0 :: b1 :: b2 :: b3 :: rest) = Some (w, rest) /\
    (is_finite 24 128 (b32_of_bits w) = true /\ B2R 24 128 (b32_of_bits w) = ((if s then -1 else 1) * r)%R <->
     (2 ^ 20 <= F /\ (bpow radix2 (-126) <= r < bpow radix2 128)%R) \/ (F = 0 /\ E <= 33)).
Proof. exact isingl_iff. Qed.
Print Assumptions C07_isingl_right_iff.

(** If the fraction is not normalised, what comes out is 0, or half way between the number
    and the smallest normalised one with that exponent, or nothing finite. *)
Theorem C07_isingl_unnormalised : forall b0 b1 b2 b3 rest (s : bool) E F,
  u32be b0 b1 b2 b3 = (if s then 2 ^ 31 else 0) + E * 2 ^ 24 + F -> 0 <= E < 128 -> 0 <= F < 2 ^ 20 ->
  let number F := (IZR F * bpow radix2 (-24) * bpow radix2 (4 * (E - 64)))%R in
  exists w, dlis_isingl (b0 :: b1 :: b2 :: b3 :: rest) = Some (w, rest) /\ let f := b32_of_bits w in
    (E <= 33 -> w = 0) /\
    (34 <= E <= 97 -> is_finite 24 128 f = true /\ Bsign 24 128 f = s /\
       B2R 24 128 f = ((if s then -1 else 1) * ((number F + number (2 ^ 20)%Z) / 2))%R) /\
    (98 <= E -> is_finite 24 128 f = false).
Proof. intros. apply unnormalised_read; assumption. Qed.
Print Assumptions C07_isingl_unnormalised.

(** Numbers too small for a normal single are not rounded: below 2^-127 they are 0, and
    from there on their distance to 2^-127 is doubled, although the format has them. *)
Theorem C07_isingl_underflow : forall b0 b1 b2 b3 rest (s : bool) E F,
  u32be b0 b1 b2 b3 = (if s then 2 ^ 31 else 0) + E * 2 ^ 24 + F -> 0 <= E < 128 -> 2 ^ 20 <= F < 2 ^ 24 ->
  let r := (IZR F * bpow radix2 (-24) * bpow radix2 (4 * (E - 64)))%R in
  (r < bpow radix2 (-126))%R ->
  exists w, dlis_isingl (b0 :: b1 :: b2 :: b3 :: rest) = Some (w, rest) /\ let f := b32_of_bits w in
    ((r < bpow radix2 (-127))%R -> w = 0) /\
    ((bpow radix2 (-127) <= r)%R -> is_finite 24 128 f = true /\ Bsign 24 128 f = s /\
       B2R 24 128 f = ((if s then -1 else 1) * (2 * (r - bpow radix2 (-127))))%R).
Proof. intros. apply underflow_read; assumption. Qed.
Print Assumptions C07_isingl_underflow.

Example C07_isingl_example :
  dlis_isingl [z2b 0xC2; x01; x00; x00] = Some (0xC1080000, []) /\ u32be (z2b 0xC2) x01 x00 x00 = 2 ^ 31 + 0x42 * 2 ^ 24 + 2 ^ 16 /\
  dlis_isingl [z2b 0x21; z2b 0x30; x00; x00] = Some (0x400000, []) /\ u32be (z2b 0x21) (z2b 0x30) x00 x00 = 33 * 2 ^ 24 + 0x300000 /\
  dlis_isingl [z2b 0x21; z2b 0x20; x00; x00] = Some (0, []).
Proof. repeat split; vm_compute; reflexivity. Qed.

(** ** C08: what becomes of floats written as VAX floats *)

(** Subnormal floats become 0, floats of 2^127 and more NaN, and infinities and NaNs
    numbers: infinity becomes -2^-128. *)
Theorem C08_vsingl_every_float : forall u rest, 0 <= u < 2 ^ 32 ->
  let e := (u / 2 ^ 23) mod 256 in
  exists w, dlis_vsingl (dlis_vsinglo u ++ rest) = Some (w, rest) /\ let x := b32_of_bits w in
    (e = 0 -> w = 0) /\ (0 < e <= 253 -> w = u) /\
    (e = 254 -> is_nan 24 128 x = true) /\
    (e = 255 -> is_finite 24 128 x = true /\ Bsign 24 128 x = true /\
       B2R 24 128 x = rnd32 (- ((/ 2 + IZR (u mod 2 ^ 23) * bpow radix2 (-24)) * bpow radix2 (-127)))).
Proof. exact vsingl_every. Qed.
Print Assumptions C08_vsingl_every_float.
(** So a float survives exactly if it is normal and less than 2^127, or +0. *)
Theorem C08_vsingl_roundtrip_iff : forall u rest, 0 <= u < 2 ^ 32 ->
  (dlis_vsingl (dlis_vsinglo u ++ rest) = Some (u, rest) <-> 0 < (u / 2 ^ 23) mod 256 <= 253 \/ u = 0).
Proof. exact vsingl_iff. Qed.
Print Assumptions C08_vsingl_roundtrip_iff.
Example C08_vsingl_example :
  dlis_vsingl (dlis_vsinglo 0x7F800000) = Some (0x80200000, []) /\ dlis_vsingl (dlis_vsinglo 0x80000000) = Some (0, []) /\
  dlis_vsingl (dlis_vsinglo 0x7E7FFFFF) = Some (0x7E7FFFFF, []).
Proof. repeat split; vm_compute; reflexivity. Qed.

(** ** C31: text samples *)

(** A text sample is right exactly if the text is ASCII: the other bytes are not code
    points, with 0xFFFFFF00 added. *)
Theorem C31_text_iff : forall esc data hard after c tell en o cp i e s w,
  In c [("s"%byte); ("Q"%byte)] -> len data < 2 ^ 63 ->
  plain_record data tell (en ++ e) -> rp66_obname en o cp i -> rp66_ident e s ->
  code_units (map b2z s ++ repeat 0 (255 - length s)) w ->
  exists us w', Forall2 (fun b u => u = if b2z b <? 128 then b2z b else b2z b + 0xFFFFFF00) s us /\
    code_units (us ++ repeat 0 (255 - length s)) w' /\
    read_fdata esc (mk_stream data hard) after [] [c] [] 1020 [tell] = ([], Ok (map Raw w', 1)) /\
    (w' = w <-> Forall (fun b => b2z b < 128) s).
Proof. exact text_iff. Qed.
Print Assumptions C31_text_iff.
