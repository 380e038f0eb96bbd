(** Proofs about the non-IEEE float readers of DlisTypes: FSHORT, VSINGL, ISINGL. *)
From Verif Require Import Bytes BytesProofs DlisTypes SpecTypes TypesProofs FloatProofs.
From Coq Require Import Reals Lra.
From Flocq Require Import Core IEEE754.Binary IEEE754.Bits.
Local Open Scope Z_scope.
Ltac Zify.zify_post_hook ::= Z.div_mod_to_equations.

Lemma bpow0_mul r : (r * bpow radix2 0)%R = r.
Proof. change (bpow radix2 0) with 1%R. ring. Qed.

(** ** FSHORT *)

Lemma fshort_value v :
  0 <= v < 65536 ->
  let sign_bit := Z.land v 0x8000 in
  let exp_bits := Z.land v 0x000F in
  let frac0 := Z.shiftr (Z.land v 0xFFF0) 4 in
  let frac_bits := if sign_bit =? 0 then frac0 else Z.land (Z.lnot frac0) 0x0FFF + 1 in
  let sign := if sign_bit =? 0 then f32_of 1 0 else f32_of (-1) 0 in
  let fractional := f32_div (f32_of frac_bits 0) (f32_of 0x0800 0) in
  val32 (f32_mul (f32_mul sign fractional) (pow2_f32 exp_bits))
        (signed 12 (v / 16) <? 0) (signed 12 (v / 16)) (v mod 16 - 11).
Proof.
  intros Hv sign_bit exp_bits frac0 frac_bits sign fractional.
  assert (Es : sign_bit = (v / 32768) * 32768).
  { unfold sign_bit. rewrite (land_mask v 0x8000 15 1 eq_refl) by lia. plia. }
  assert (Ee : exp_bits = v mod 16).
  { unfold exp_bits. rewrite (land_low v 0xF 4 eq_refl) by lia. reflexivity. }
  assert (Ef : frac0 = v / 16).
  { unfold frac0. rewrite (land_mask v 0xFFF0 4 12 eq_refl) by lia.
    rewrite Z.shiftr_div_pow2 by plia. rewrite Z.div_mul by plia.
    apply Z.mod_small. plia. }
  set (M := signed 12 (v / 16)).
  assert (EM : M = if v <? 32768 then v / 16 else v / 16 - 4096).
  { unfold M, signed. change (2 ^ (12 - 1)) with 2048. change (2 ^ 12) with 4096.
    destruct (Z.ltb_spec (v / 16) 2048); destruct (Z.ltb_spec v 32768); plia. }
  assert (Hs : (sign_bit =? 0) = (v <? 32768)) by (rewrite Es; plia).
  assert (Hfrac : frac_bits = Z.abs M).
  { unfold frac_bits. rewrite Hs, EM, Ef. destruct (Z.ltb_spec v 32768); [plia|].
    rewrite (land_low _ 0xFFF 12 eq_refl) by lia. unfold Z.lnot.
    change (2 ^ 12) with 4096. plia. }
  assert (HM : -2048 <= M < 2048) by (rewrite EM; destruct (Z.ltb_spec v 32768); plia).
  assert (V1 : val32 (f32_of frac_bits 0) false (Z.abs M) 0).
  { rewrite Hfrac. replace false with (Z.abs M <? 0) by plia. apply f32_of_val. apply fits_easy; plia. }
  assert (V2 : val32 (f32_of 0x800 0) false 2048 0).
  { apply (f32_of_val 2048 0). apply fits_easy; plia. }
  assert (V3 : val32 fractional false (Z.abs M) (-11)).
  { unfold fractional. change false with (xorb false false).
    eapply f32_div_val; [exact V1 | exact V2 | apply fits_easy; plia | plia |].
    rewrite !bpow0_mul. change (bpow radix2 (-11)) with (/ 2048)%R. reflexivity. }
  assert (V4 : val32 (f32_mul sign fractional) (M <? 0) M (-11)).
  { pose proof (sign_val (sign_bit =? 0)) as SV. fold sign in SV.
    replace (M <? 0) with (xorb (negb (sign_bit =? 0)) false)
      by (rewrite Hs, EM; destruct (Z.ltb_spec v 32768); cbn [negb xorb]; plia).
    eapply f32_mul_val; [exact SV | exact V3 | apply fits_easy; plia |].
    rewrite bpow0_mul, <- Rmult_assoc, <- mult_IZR. do 2 f_equal.
    rewrite Hs, EM. destruct (Z.ltb_spec v 32768); plia. }
  replace (M <? 0) with (xorb (M <? 0) false) by apply xorb_false_r.
  eapply f32_mul_val; [exact V4 | | apply fits_easy; plia |].
  - unfold pow2_f32. apply (f32_of_val 1 exp_bits). apply fits_one; [reflexivity | reflexivity |]. rewrite Ee. plia.
  - rewrite Rmult_1_l, Rmult_assoc, <- bpow_plus. f_equal. f_equal. plia.
Qed.

Lemma fshort_read b0 b1 rest :
  exists f, dlis_fshort (b0 :: b1 :: rest) = Some (bits_of_b32 f, rest) /\
    val32 f (signed 12 (u16 b0 b1 / 16) <? 0) (signed 12 (u16 b0 b1 / 16)) (u16 b0 b1 mod 16 - 11).
Proof.
  unfold dlis_fshort, dlis_unorm. change (b0 :: b1 :: rest) with ([b0; b1] ++ rest).
  rewrite read_be_app by reflexivity. cbn [obind]. rewrite be2.
  eexists. split; [reflexivity|]. apply fshort_value.
  unfold u16. pose proof (b2z_range b0). pose proof (b2z_range b1). plia.
Qed.

(** ** VSINGL *)

Lemma vsingl_significand f : 0 <= f < 2 ^ 23 ->
  val32 (f64_to_f32 (f64_div (f32_to_f64 (f32_of (Z.lor f 0x00800000) 0)) (pow2_f64 24)))
        false (2 ^ 23 + f) (-24).
Proof.
  intros Hf. change 0x800000 with (1 * 2 ^ 23). rewrite lor_add_disjoint by plia.
  replace (f + 1 * 2 ^ 23) with (2 ^ 23 + f) by ring.
  set (m := 2 ^ 23 + f). assert (Hm : 2 ^ 23 <= m < 2 ^ 24) by plia.
  apply f64_to_f32_val; [| apply fits_easy; plia | plia].
  change false with (xorb false false).
  eapply f64_div_val with (mx := m) (ex := 0) (my := 1) (ey := 24); [| | apply fits_easy; plia | plia |].
  - apply f32_to_f64_val; [| apply fits_easy; plia | plia].
    replace false with (m <? 0) by plia. apply f32_of_val. apply fits_easy; plia.
  - unfold pow2_f64. apply (f64_of_val 1 24). apply fits_easy; plia.
  - rewrite bpow0_mul. rewrite Rmult_1_l. change (-24) with (- (24)). rewrite (bpow_opp radix2 24). reflexivity.
Qed.

(** the VAX fields of the word *)
Lemma vsingl_word_eq v : 0 <= v < 2 ^ 32 ->
  vsingl_word v =
  (let e := (v / 2 ^ 23) mod 256 in
   let f := v mod 2 ^ 23 in
   let sign := if v <? 2 ^ 31 then f32_of 1 0 else f32_of (-1) 0 in
   let significand := f64_to_f32 (f64_div (f32_to_f64 (f32_of (Z.lor f 0x00800000) 0)) (pow2_f64 24)) in
   if negb (e =? 0) then f32_mul (f32_mul sign significand) (pow2_f32 (e - 128))
   else if v <? 2 ^ 31 then B754_zero 24 128 false else proj1_sig default_nan_pl32).
Proof.
  intros Hv. unfold vsingl_word.
  assert (Es : (Z.land v 0x80000000 =? 0) = (v <? 2 ^ 31)).
  { rewrite (land_mask v 0x80000000 31 1 eq_refl) by lia. plia. }
  assert (Ef : Z.land v 0x7FFFFF = v mod 2 ^ 23).
  { rewrite (land_low v 0x7FFFFF 23 eq_refl) by lia. reflexivity. }
  assert (Ee : Z.shiftr (Z.land v 0x7F800000) 23 = (v / 2 ^ 23) mod 256).
  { rewrite (land_mask v 0x7F800000 23 8 eq_refl) by lia.
    rewrite Z.shiftr_div_pow2 by plia. rewrite Z.div_mul by plia. reflexivity. }
  rewrite Es, Ef, Ee. reflexivity.
Qed.

Lemma vsingl_sm v : 0 <= v < 2 ^ 32 ->
  let f := v mod 2 ^ 23 in
  let sign := if v <? 2 ^ 31 then f32_of 1 0 else f32_of (-1) 0 in
  let significand := f64_to_f32 (f64_div (f32_to_f64 (f32_of (Z.lor f 0x00800000) 0)) (pow2_f64 24)) in
  val32 (f32_mul sign significand) (negb (v <? 2 ^ 31))
        ((if v <? 2 ^ 31 then 1 else -1) * (2 ^ 23 + f)) (-24).
Proof.
  intros Hv f sign significand.
  assert (Hf : 0 <= f < 2 ^ 23) by (apply Z.mod_pos_bound; plia).
  pose proof (vsingl_significand f Hf) as V.
  pose proof (sign_val (v <? 2 ^ 31)) as SV.
  replace (negb (v <? 2 ^ 31)) with (xorb (negb (v <? 2 ^ 31)) false) by apply xorb_false_r.
  eapply f32_mul_val; [exact SV | exact V | |].
  - apply fits_easy; destruct (v <? 2 ^ 31); plia.
  - rewrite bpow0_mul, <- Rmult_assoc, <- mult_IZR. reflexivity.
Qed.

Lemma rnd32_eq x :
  round radix2 (SpecFloat.fexp 24 128) (BinarySingleNaN.round_mode BinarySingleNaN.mode_NE) x = rnd32 x.
Proof. reflexivity. Qed.

(** value of a VAX word with non-zero exponent: correctly rounded, and exact
    from e = 3 on *)
Lemma vsingl_value v : 0 <= v < 2 ^ 32 ->
  let s := v / 2 ^ 31 in let e := (v / 2 ^ 23) mod 256 in let f := v mod 2 ^ 23 in
  e <> 0 ->
  let r := ((if (s =? 0)%Z then 1 else -1) * IZR (2 ^ 23 + f) * bpow radix2 (e - 152))%R in
  is_finite 24 128 (vsingl_word v) = true /\
  B2R 24 128 (vsingl_word v) = rnd32 r /\
  Bsign 24 128 (vsingl_word v) = negb (s =? 0) /\
  (3 <= e -> rnd32 r = r).
Proof.
  intros Hv s e f He r.
  rewrite vsingl_word_eq by exact Hv. cbn zeta. fold e f.
  replace (e =? 0) with false by plia. cbn [negb].
  pose proof (vsingl_sm v Hv) as V. cbn zeta in V. fold f in V.
  assert (Hs : (v <? 2 ^ 31) = (s =? 0)) by (unfold s; plia). rewrite Hs in *.
  set (sg := if s =? 0 then 1 else -1) in *.
  assert (Hf : 0 <= f < 2 ^ 23) by (apply Z.mod_pos_bound; plia).
  assert (He' : 0 < e < 256) by (unfold e in *; plia).
  assert (Er : (IZR (sg * (2 ^ 23 + f)) * bpow radix2 (-24) * (1 * bpow radix2 (e - 128)) = r)%R).
  { unfold r. rewrite Rmult_1_l, Rmult_assoc, <- bpow_plus, mult_IZR.
    replace (-24 + (e - 128)) with (e - 152) by ring. unfold sg. destruct (s =? 0); ring. }
  assert (Er2 : r = (IZR (sg * (2 ^ 23 + f)) * bpow radix2 (e - 152))%R).
  { rewrite <- Er, Rmult_1_l, Rmult_assoc, <- bpow_plus. f_equal. f_equal. ring. }
  assert (P : val32 (pow2_f32 (e - 128)) false 1 (e - 128)).
  { unfold pow2_f32. apply (f32_of_val 1 (e - 128)). apply fits_one; [reflexivity | reflexivity |]. plia. }
  assert (B : (Rabs (rnd32 r) < bpow radix2 128)%R).
  { apply Rle_lt_trans with (bpow radix2 127); [| apply bpow_lt; plia].
    assert (P24 : FLX.Prec_gt_0 24) by reflexivity.
    apply abs_round_le_generic; [apply FLT_exp_valid; exact P24 | apply valid_rnd_N | |].
    - apply generic_format_bpow. unfold FLT_exp. plia.
    - rewrite Er2, Rabs_mult, <- abs_IZR, (Rabs_pos_eq (bpow _ _)) by apply bpow_ge_0.
      apply Rle_trans with (IZR (2 ^ 24) * bpow radix2 (e - 152))%R.
      + apply Rmult_le_compat_r; [apply bpow_ge_0|]. apply IZR_le. unfold sg. destruct (s =? 0); plia.
      + change 2 with (radix_val radix2). rewrite IZR_Zpower by plia. rewrite <- bpow_plus. apply bpow_le. plia. }
  pose proof (mult_round 24 128 eq_refl eq_refl binop_nan_pl32 _ _ _ _ _ _ _ _ V P) as R.
  cbn zeta in R. rewrite Er in R. rewrite rnd32_eq in R. specialize (R B).
  change (Bmult 24 128 eq_refl eq_refl binop_nan_pl32 BinarySingleNaN.mode_NE) with f32_mul in R.
  destruct R as (R1 & R2 & R3).
  split; [exact R1|]. split; [exact R2|]. split; [rewrite R3; apply xorb_false_r|].
  intros He3. rewrite Er2. rewrite <- rnd32_eq. apply round_fits.
  apply fits_easy; unfold sg; destruct (s =? 0); plia.
Qed.

Lemma vsingl_zero v : 0 <= v < 2 ^ 32 -> (v / 2 ^ 23) mod 256 = 0 ->
  vsingl_word v = if v / 2 ^ 31 =? 0 then B754_zero 24 128 false else proj1_sig default_nan_pl32.
Proof.
  intros Hv He. rewrite vsingl_word_eq by exact Hv. cbn zeta. rewrite He. cbn [Z.eqb negb].
  replace (v / 2 ^ 31 =? 0) with (v <? 2 ^ 31) by plia. reflexivity.
Qed.

(** word order on disk *)
Lemma vsingl_read x0 x1 x2 x3 rest :
  dlis_vsingl (x0 :: x1 :: x2 :: x3 :: rest) =
  Some (bits_of_b32 (vsingl_word (u32be x1 x0 x3 x2)), rest).
Proof.
  unfold dlis_vsingl. cbn [take obind]. do 4 f_equal.
  pose proof (b2z_range x0). pose proof (b2z_range x1). pose proof (b2z_range x2). pose proof (b2z_range x3).
  rewrite !Z.shiftl_mul_pow2 by plia. unfold u32be.
  assert (A : Z.lor (b2z x1 * 2 ^ 24) (b2z x0 * 2 ^ 16) = (b2z x0 + b2z x1 * 256) * 2 ^ 16).
  { rewrite Z.lor_comm, lor_add_disjoint by plia. ring. }
  rewrite A.
  assert (B : Z.lor ((b2z x0 + b2z x1 * 256) * 2 ^ 16) (b2z x3 * 2 ^ 8) =
              (b2z x3 + (b2z x0 + b2z x1 * 256) * 256) * 2 ^ 8).
  { rewrite Z.lor_comm, lor_add_disjoint by plia. ring. }
  rewrite B, Z.lor_comm, lor_add_disjoint by plia. ring.
Qed.

Lemma vsingl_bits_read x0 x1 x2 x3 rest z rest' :
  dlis_vsingl (x0 :: x1 :: x2 :: x3 :: rest) = Some (z, rest') ->
  b32_of_bits z = vsingl_word (u32be x1 x0 x3 x2) /\ rest' = rest.
Proof.
  rewrite vsingl_read. intros H. apply some_pair_inj in H as [<- <-].
  split; [apply b32_bits_id | reflexivity].
Qed.
