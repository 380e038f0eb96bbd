(** What becomes of the floats that do not survive as VAX floats. *)
From Verif Require Import Bytes BytesProofs DlisTypes SpecTypes TypesProofs TypesProofs2 FloatProofs DlisFloatProofs IsinglProofs VaxProofs.
From Coq Require Import Reals Lra.
From Flocq Require Import Core IEEE754.Binary IEEE754.Bits.
Local Open Scope Z_scope.
Ltac Zify.zify_post_hook ::= Z.div_mod_to_equations.

(** the exponent runs into the sign *)
Lemma vsinglo_large u : 0 <= u < 2 ^ 32 -> 254 <= (u / 2 ^ 23) mod 256 ->
  let v := 2 ^ 31 + ((u / 2 ^ 23) mod 256 - 254) * 2 ^ 23 + u mod 2 ^ 23 in
  dlis_vsinglo u = [z2b (v / 65536); z2b (v / 16777216); z2b v; z2b (v / 256)].
Proof.
  intros Hu He v. unfold dlis_vsinglo, vsinglo_bits.
  rewrite (land_mask u 0x7F800000 23 8 eq_refl), (land_mask u 0x80000000 31 1 eq_refl),
    (land_low u 0x7FFFFF 23 eq_refl) by lia.
  rewrite Z.shiftr_div_pow2, Z.div_mul by plia.
  change (2 ^ 8) with 256.
  set (e := (u / 2 ^ 23) mod 256) in *. set (f := u mod 2 ^ 23) in *. set (s := (u / 2 ^ 31) mod 2 ^ 1).
  replace (e =? 0) with false by lia.
  rewrite (Z.shiftl_mul_pow2 (e + 2)) by lia.
  assert (He' : e < 256) by (unfold e; plia).
  rewrite (u32_small ((e + 2) * 2 ^ 23)) by plia.
  assert (Hf : 0 <= f < 2 ^ 23) by (apply Z.mod_pos_bound; plia).
  assert (Hs : s = 0 \/ s = 1) by (unfold s; plia).
  assert (EV : Z.lor (Z.lor (s * 2 ^ 31) ((e + 2) * 2 ^ 23)) f = v).
  { assert (A : Z.lor (s * 2 ^ 31) ((e + 2) * 2 ^ 23) = (e + 2) * 2 ^ 23).
    { assert (Y : (e + 2) * 2 ^ 23 = Z.lor (1 * 2 ^ 31) ((e - 254) * 2 ^ 23)) by (rewrite (lor_shift ((e - 254) * 2 ^ 23) 1 31) by plia; plia).
      rewrite Y, Z.lor_assoc. f_equal. destruct Hs as [-> | ->]; reflexivity. }
    rewrite A, lor_shift by plia. unfold v. plia. }
  rewrite EV.
  assert (Hvr : 0 <= v < 2 ^ 32) by (unfold v; plia).
  rewrite (land_mask v 0xFF0000 16 8 eq_refl), (land_mask v 0xFF000000 24 8 eq_refl),
    (land_low v 0xFF 8 eq_refl), (land_mask v 0xFF00 8 8 eq_refl) by lia.
  change (2 ^ 8) with 256. clearbody v. clear EV.
  set (b2 := (v / 2 ^ 16) mod 256). set (b3 := (v / 2 ^ 24) mod 256).
  set (b0 := v mod 256). set (b1 := (v / 256) mod 256).
  assert (R : 0 <= b2 < 256 /\ 0 <= b3 < 256 /\ 0 <= b0 < 256 /\ 0 <= b1 < 256)
    by (unfold b0, b1, b2, b3; plia).
  rewrite !Z.shiftl_mul_pow2, !Z.shiftr_div_pow2 by lia.
  rewrite (u32_small (b2 * 2 ^ 16 * 2 ^ 8)) by plia.
  replace (b3 * 2 ^ 24 / 2 ^ 8) with (b3 * 2 ^ 16) by plia.
  replace (b1 * 256 / 2 ^ 8) with b1 by plia.
  replace (b2 * 2 ^ 16 * 2 ^ 8) with (b2 * 2 ^ 24) by plia.
  assert (Z1 : Z.lor (Z.lor (Z.lor (b2 * 2 ^ 24) (b3 * 2 ^ 16)) (b0 * 2 ^ 8)) b1 =
               b2 * 2 ^ 24 + b3 * 2 ^ 16 + b0 * 2 ^ 8 + b1).
  { rewrite (lor_shift (b3 * 2 ^ 16) b2 24) by plia.
    replace (b2 * 2 ^ 24 + b3 * 2 ^ 16) with ((b2 * 2 ^ 8 + b3) * 2 ^ 16) by plia.
    rewrite (lor_shift (b0 * 2 ^ 8)) by plia.
    replace ((b2 * 2 ^ 8 + b3) * 2 ^ 16 + b0 * 2 ^ 8) with (((b2 * 2 ^ 8 + b3) * 2 ^ 8 + b0) * 2 ^ 8) by plia.
    rewrite lor_shift by plia. plia. }
  rewrite Z1, enc_be_4.
  f_equal; [|f_equal; [|f_equal; [|apply (f_equal (fun b => [b]))]]]; apply z2b_eq_mod;
    unfold b0, b1, b2, b3 in *; plia.
Qed.
Lemma vsinglo_small u : 0 <= u < 2 ^ 32 -> (u / 2 ^ 23) mod 256 = 0 -> dlis_vsinglo u = [x00; x00; x00; x00].
Proof.
  intros Hu He. unfold dlis_vsinglo, vsinglo_bits. rewrite (land_mask u 0x7F800000 23 8 eq_refl) by lia.
  rewrite Z.shiftr_div_pow2, Z.div_mul by plia. change (2 ^ 8) with 256. rewrite He. reflexivity.
Qed.
Lemma vsingl_large u rest : 0 <= u < 2 ^ 32 -> 254 <= (u / 2 ^ 23) mod 256 ->
  exists w, dlis_vsingl (dlis_vsinglo u ++ rest) = Some (w, rest) /\
    ((u / 2 ^ 23) mod 256 = 254 -> is_nan 24 128 (b32_of_bits w) = true) /\
    ((u / 2 ^ 23) mod 256 = 255 -> is_finite 24 128 (b32_of_bits w) = true /\ Bsign 24 128 (b32_of_bits w) = true /\
       B2R 24 128 (b32_of_bits w) = rnd32 (- ((/ 2 + IZR (u mod 2 ^ 23) * bpow radix2 (-24)) * bpow radix2 (-127)))).
Proof.
  intros Hu He. rewrite vsinglo_large by assumption. cbn zeta. set (e := (u / 2 ^ 23) mod 256) in *. set (f := u mod 2 ^ 23) in *.
  set (v := 2 ^ 31 + (e - 254) * 2 ^ 23 + f). cbn [app].
  assert (He' : e < 256) by (unfold e; plia). assert (Hf : 0 <= f < 2 ^ 23) by (apply Z.mod_pos_bound; plia).
  assert (Hv : 0 <= v < 2 ^ 32) by (unfold v; plia).
  assert (EW : u32be (z2b (v / 16777216)) (z2b (v / 65536)) (z2b (v / 256)) (z2b v) = v).
  { unfold u32be. rewrite !b2z_z2b. plia. }
  destruct (vsingl_decode (z2b (v / 65536)) (z2b (v / 16777216)) (z2b v) (z2b (v / 256)) rest) as (w & W1 & W2 & _ & _ & W3).
  rewrite EW in W2, W3. replace (v / 2 ^ 31) with 1 in W2, W3 by (unfold v; plia).
  replace ((v / 2 ^ 23) mod 256) with (e - 254) in W2, W3 by (unfold v; plia). replace (v mod 2 ^ 23) with f in W2 by (unfold v; plia).
  exists w. split; [exact W1|]. split.
  - intros E. apply W3; lia.
  - intros E. destruct W2 as (V1 & V2 & V3); [lia|]. split; [exact V1|]. split; [exact V2|]. rewrite V3. f_equal.
    cbn [Z.eqb]. rewrite E. change (255 - 254 - 128) with (-127). ring.
Qed.
