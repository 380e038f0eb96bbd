(** Lemmas about the LIS79 data types. *)
From Verif Require Import Bytes BytesProofs DlisTypes SpecTypes TypesProofs FloatProofs DlisFloatProofs
  DlisCore CoreProofs CoreProofs2 LisTypes.
From Coq Require Import Reals Lra.
From Flocq Require Import Core IEEE754.Binary IEEE754.Bits.
Local Open Scope Z_scope.
Ltac Zify.zify_post_hook ::= Z.div_mod_to_equations.

(** ** Bit fields *)

Lemma field v mask n k : mask = Z.ones k * 2 ^ n -> 0 <= n -> 0 <= k ->
  Z.shiftr (Z.land v mask) n = (v / 2 ^ n) mod 2 ^ k.
Proof.
  intros E Hn Hk. rewrite (land_mask v mask n k E Hn Hk), Z.shiftr_div_pow2 by exact Hn.
  apply Z.div_mul. pose proof (Z.pow_pos_nonneg 2 n). lia.
Qed.
Lemma sign_field v n : 0 <= n -> 0 <= v < 2 ^ (n + 1) ->
  negb (Z.shiftr (Z.land v (2 ^ n)) n =? 0) = (2 ^ n <=? v).
Proof.
  intros Hn Hv. rewrite (field v (2 ^ n) n 1) by (try lia; change (Z.ones 1) with 1; ring).
  change (2 ^ 1) with 2. rewrite Z.pow_add_r in Hv by lia. change (2 ^ 1) with 2 in Hv.
  pose proof (Z.pow_pos_nonneg 2 n ltac:(lia) Hn).
  assert (Q : v / 2 ^ n = 0 \/ v / 2 ^ n = 1).
  { assert (0 <= v / 2 ^ n) by (apply Z.div_pos; lia). assert (v / 2 ^ n < 2) by (apply Z.div_lt_upper_bound; lia). lia. }
  destruct (Z.leb_spec (2 ^ n) v).
  - assert (v / 2 ^ n = 1) as ->; [|reflexivity].
    assert (1 <= v / 2 ^ n) by (apply Z.div_le_lower_bound; lia). lia.
  - rewrite Z.div_small by lia. reflexivity.
Qed.

(** the signed number and its absolute value *)
Lemma twos_of sign n len : 0 < len -> 0 <= n < 2 ^ len ->
  let M := signed (len + 1) ((if sign : bool then 2 ^ len else 0) + n) in
  twos_complement_of sign n len = Z.abs M /\ (if sign then -1 else 1) * Z.abs M = M /\
  (M <? 0) = sign /\ - 2 ^ len <= M < 2 ^ len.
Proof.
  intros Hl Hn M. unfold M, signed, twos_complement_of. replace (len + 1 - 1) with len by lia.
  rewrite (Z.pow_add_r 2 len 1) by lia. change (2 ^ 1) with 2.
  destruct sign.
  - destruct (Z.ltb_spec (2 ^ len + n) (2 ^ len)); [lia|].
    rewrite (land_low _ (2 ^ len - 1) len) by (try lia; rewrite Z.ones_equiv; lia).
    unfold Z.lnot. replace (Z.pred (- n) mod 2 ^ len) with (2 ^ len - 1 - n); [lia|].
    apply Z.mod_unique_pos with (-1); lia.
  - cbn [Z.add]. destruct (Z.ltb_spec n (2 ^ len)); lia.
Qed.

(** ** Exact parts *)

Lemma f64_mul_val x y sx mx ex sy my ey m e :
  val64 x sx mx ex -> val64 y sy my ey -> fits64 m e ->
  (IZR mx * bpow radix2 ex * (IZR my * bpow radix2 ey) = IZR m * bpow radix2 e)%R ->
  val64 (f64_mul x y) (xorb sx sy) m e.
Proof. intros. unfold f64_mul, b64_mult. eapply mult_val; eassumption. Qed.

Lemma scaled_val n e : 0 <= n < 2 ^ 24 -> -64 <= e <= 0 -> val32 (scaled n e) false n e.
Proof.
  intros Hn He. unfold scaled.
  apply f64_to_f32_val; [| apply fits_easy; plia | plia].
  change false with (xorb false false).
  eapply f64_mul_val with (mx := n) (ex := 0) (my := 1) (ey := e); [| | apply fits_easy; plia |].
  - replace false with (n <? 0) by plia. apply f64_of_val. apply fits_easy; plia.
  - unfold pow2_f64. apply (f64_of_val 1 e). apply fits_easy; plia.
  - rewrite bpow0_mul. ring.
Qed.
Lemma sign_f32_val s : val32 (sign_f32 s) s (if s then -1 else 1) 0.
Proof. destruct s; [apply mone_val | apply one_val]. Qed.

(** sign times magnitude *)
Lemma signed_val s x m e M : val32 x false m e -> fits32 M e -> (if s : bool then -1 else 1) * m = M ->
  val32 (f32_mul (sign_f32 s) x) s M e.
Proof.
  intros V F E. rewrite <- (xorb_false_r s). eapply f32_mul_val; [rewrite xorb_false_r; apply sign_f32_val | exact V | exact F |].
  rewrite bpow0_mul, <- Rmult_assoc, <- mult_IZR, E. reflexivity.
Qed.

(** ** F16 *)
Lemma f16_value v : 0 <= v < 65536 ->
  val32 (f16_word v) (signed 12 (v / 16) <? 0) (signed 12 (v / 16)) (v mod 16 - 11).
Proof.
  intros Hv. unfold f16_word.
  change 0x8000 with (2 ^ 15). rewrite sign_field by plia.
  rewrite (land_low v 0xF 4 eq_refl) by lia. rewrite (field v 0x7FF0 4 11 eq_refl) by lia.
  assert (H : 0 <= (v / 2 ^ 4) mod 2 ^ 11 < 2 ^ 11) by plia.
  destruct (twos_of (2 ^ 15 <=? v) _ 11 ltac:(lia) H) as (T1 & T2 & T3 & T4).
  rewrite T1. set (M := signed (11 + 1) _) in *.
  assert (EM : M = signed 12 (v / 16)).
  { unfold M. change (11 + 1) with 12. f_equal. destruct (Z.leb_spec (2 ^ 15) v); plia. }
  rewrite <- EM. pose proof (scaled_val (Z.abs M) (-11) ltac:(plia) ltac:(lia)) as V.
  apply (signed_val (2 ^ 15 <=? v) _ _ _ M) in V; [|apply fits_easy; plia | exact T2].
  rewrite T3. rewrite <- (xorb_false_r (2 ^ 15 <=? v)).
  eapply f32_mul_val; [rewrite xorb_false_r; exact V | | apply fits_easy; plia |].
  - unfold pow2_f32. apply (f32_of_val 1). apply fits_one; [reflexivity | reflexivity |]. plia.
  - rewrite Rmult_1_l, Rmult_assoc, <- bpow_plus. f_equal. f_equal. plia.
Qed.

(** ** F32 *)
Lemma f32_value v : 0 <= v < 2 ^ 32 ->
  let M := signed 24 (v / 2 ^ 31 * 2 ^ 23 + v mod 2 ^ 23) in
  let e := (v / 2 ^ 23) mod 256 in
  let E := if v <? 2 ^ 31 then e else 255 - e in
  let r := (IZR M * bpow radix2 (E - 151))%R in
  is_finite 24 128 (f32_word v) = true /\ B2R 24 128 (f32_word v) = rnd32 r /\
  Bsign 24 128 (f32_word v) = (M <? 0) /\ (2 <= E -> rnd32 r = r).
Proof.
  intros Hv M e E r. unfold f32_word.
  change 0x80000000 with (2 ^ 31). rewrite sign_field by plia.
  rewrite (land_low v 0x7FFFFF 23 eq_refl) by lia. rewrite (field v 0x7F800000 23 8 eq_refl) by lia.
  assert (H : 0 <= v mod 2 ^ 23 < 2 ^ 23) by plia.
  destruct (twos_of (2 ^ 31 <=? v) _ 23 ltac:(lia) H) as (T1 & T2 & T3 & T4).
  rewrite T1. 
  assert (EM : signed (23 + 1) ((if 2 ^ 31 <=? v then 2 ^ 23 else 0) + v mod 2 ^ 23) = M).
  { unfold M. change (23 + 1) with 24. f_equal. destruct (Z.leb_spec (2 ^ 31) v); plia. }
  rewrite EM in *. clear EM. 
  assert (EE : (if 2 ^ 31 <=? v then unsigned 8 (Z.lnot ((v / 2 ^ 23) mod 2 ^ 8)) else (v / 2 ^ 23) mod 2 ^ 8) = E).
  { unfold E, e, unsigned, Z.lnot. destruct (Z.leb_spec (2 ^ 31) v); destruct (Z.ltb_spec v (2 ^ 31)); pows; lia. }
  rewrite EE. assert (HE : 0 <= E < 256) by (unfold E, e; destruct (v <? 2 ^ 31); plia). clear EE.
  pose proof (scaled_val (Z.abs M) (-23) ltac:(plia) ltac:(lia)) as V.
  apply (signed_val (2 ^ 31 <=? v) _ _ _ M) in V; [|apply fits_easy; plia | exact T2].
  assert (P : val32 (pow2_f32 (E - 128)) false 1 (E - 128)).
  { unfold pow2_f32. apply (f32_of_val 1 (E - 128)). apply fits_one; [reflexivity | reflexivity |]. plia. }
  assert (Er : (IZR M * bpow radix2 (-23) * (1 * bpow radix2 (E - 128)) = r)%R).
  { unfold r. rewrite Rmult_1_l, Rmult_assoc, <- bpow_plus. f_equal. f_equal. ring. }
  assert (B : (Rabs (rnd32 r) < bpow radix2 128)%R).
  { apply Rle_lt_trans with (bpow radix2 127); [| apply bpow_lt; plia].
    assert (P24 : FLX.Prec_gt_0 24) by reflexivity.
    apply abs_round_le_generic; [apply FLT_exp_valid; exact P24 | apply valid_rnd_N | |].
    - apply generic_format_bpow. unfold FLT_exp. plia.
    - unfold r. rewrite Rabs_mult, <- abs_IZR, (Rabs_pos_eq (bpow _ _)) by apply bpow_ge_0.
      apply Rle_trans with (IZR (2 ^ 23) * bpow radix2 (E - 151))%R.
      + apply Rmult_le_compat_r; [apply bpow_ge_0|]. apply IZR_le. plia.
      + change 2 with (radix_val radix2). rewrite IZR_Zpower by plia. rewrite <- bpow_plus. apply bpow_le. plia. }
  pose proof (mult_round 24 128 eq_refl eq_refl binop_nan_pl32 _ _ _ _ _ _ _ _ V P) as R.
  cbn zeta in R. rewrite Er in R. rewrite rnd32_eq in R. specialize (R B).
  change (Bmult 24 128 eq_refl eq_refl binop_nan_pl32 BinarySingleNaN.mode_NE) with f32_mul in R.
  destruct R as (R1 & R2 & R3).
  split; [exact R1|]. split; [exact R2|]. split; [rewrite R3, T3; apply xorb_false_r|].
  intros He3. unfold r. rewrite <- rnd32_eq. apply round_fits. apply fits_easy; plia.
Qed.

(** ** F32FIX *)
Lemma f32fix_value v : 0 <= v < 2 ^ 32 ->
  let M := signed 32 v in
  is_finite 24 128 (f32fix_word v) = true /\
  B2R 24 128 (f32fix_word v) = rnd32 (IZR M * bpow radix2 (-16)) /\
  Bsign 24 128 (f32fix_word v) = (M <? 0).
Proof.
  intros Hv M. unfold f32fix_word.
  change 0x80000000 with (2 ^ 31). rewrite sign_field by plia.
  rewrite (land_low v 0x7FFFFFFF 31 eq_refl) by lia.
  assert (H : 0 <= v mod 2 ^ 31 < 2 ^ 31) by plia.
  destruct (twos_of (2 ^ 31 <=? v) _ 31 ltac:(lia) H) as (T1 & T2 & T3 & T4).
  rewrite T1.
  assert (EM : signed (31 + 1) ((if 2 ^ 31 <=? v then 2 ^ 31 else 0) + v mod 2 ^ 31) = M).
  { unfold M. change (31 + 1) with 32. f_equal. destruct (Z.leb_spec (2 ^ 31) v); plia. }
  rewrite EM in *. clear EM. set (A := Z.abs M) in *. assert (HA : 0 <= A <= 2 ^ 31) by plia.
  rewrite (field A 0xFFFF0000 16 16 eq_refl) by lia. rewrite (land_low A 0xFFFF 16 eq_refl) by lia.
  assert (V1 : val32 (f32_of ((A / 2 ^ 16) mod 2 ^ 16) 0) false (A / 2 ^ 16) 0).
  { replace ((A / 2 ^ 16) mod 2 ^ 16) with (A / 2 ^ 16) by plia.
    replace false with (A / 2 ^ 16 <? 0) by plia. apply f32_of_val. apply fits_easy; plia. }
  pose proof (scaled_val (A mod 2 ^ 16) (-16) ltac:(plia) ltac:(lia)) as V2.
  set (x := f32_of _ 0) in *. set (y := scaled _ _) in *.
  destruct V1 as (X1 & X2 & X3). destruct V2 as (Y1 & Y2 & Y3).
  pose proof (Bplus_correct 24 128 eq_refl eq_refl binop_nan_pl32 BinarySingleNaN.mode_NE x y X1 Y1) as C.
  rewrite X2, Y2, X3, Y3 in C.
  assert (S : (IZR (A / 2 ^ 16) * bpow radix2 0 + IZR (A mod 2 ^ 16) * bpow radix2 (-16) = IZR A * bpow radix2 (-16))%R).
  { rewrite bpow0_mul. rewrite (Z.div_mod A (2 ^ 16)) at 3 by lia. rewrite plus_IZR, mult_IZR, Rmult_plus_distr_r.
    f_equal. change (bpow radix2 (-16)) with (/ IZR (2 ^ 16))%R. field. apply IZR_neq. lia. }
  rewrite S in C. clear S.
  assert (B : (Rabs (rnd32 (IZR A * bpow radix2 (-16))) < bpow radix2 128)%R).
  { apply Rle_lt_trans with (bpow radix2 15); [| apply bpow_lt; plia].
    assert (P24 : FLX.Prec_gt_0 24) by reflexivity.
    apply abs_round_le_generic; [apply FLT_exp_valid; exact P24 | apply valid_rnd_N | |].
    - apply generic_format_bpow. unfold FLT_exp. plia.
    - rewrite Rabs_mult, <- abs_IZR, (Rabs_pos_eq (bpow _ _)) by apply bpow_ge_0.
      apply Rle_trans with (IZR (2 ^ 31) * bpow radix2 (-16))%R.
      + apply Rmult_le_compat_r; [apply bpow_ge_0|]. apply IZR_le. plia.
      + change 2 with (radix_val radix2). rewrite IZR_Zpower by plia. rewrite <- bpow_plus. apply bpow_le. plia. }
  rewrite rnd32_eq, Rlt_bool_true in C by exact B. destruct C as (C1 & C2 & C3).
  change (Bplus 24 128 eq_refl eq_refl binop_nan_pl32 BinarySingleNaN.mode_NE x y) with (f32_add x y) in *.
  set (z := f32_add x y) in *.
  assert (C3' : Bsign 24 128 z = false).
  { rewrite C3. pose proof (bpow_gt_0 radix2 (-16)) as P.
    destruct (Z.eq_dec A 0) as [->|NA]; [rewrite Rmult_0_l, Rcompare_Eq; reflexivity|].
    rewrite Rcompare_Gt; [reflexivity|]. apply Rmult_lt_0_compat; [apply IZR_lt; lia | exact P]. }
  pose proof (Bmult_correct 24 128 eq_refl eq_refl binop_nan_pl32 BinarySingleNaN.mode_NE (sign_f32 (2 ^ 31 <=? v)) z) as Q.
  destruct (sign_f32_val (2 ^ 31 <=? v)) as (S1 & S2 & S3). rewrite S2, C1 in Q.
  assert (RR : (IZR (if 2 ^ 31 <=? v then -1 else 1) * bpow radix2 0 * rnd32 (IZR A * bpow radix2 (-16)) = rnd32 (IZR M * bpow radix2 (-16)))%R).
  { rewrite bpow0_mul. destruct (2 ^ 31 <=? v).
    - replace (IZR M * bpow radix2 (-16))%R with (- (IZR A * bpow radix2 (-16)))%R.
      + rewrite round_NE_opp. ring.
      + rewrite <- T2. rewrite mult_IZR. ring.
    - rewrite Rmult_1_l. do 3 f_equal. lia. }
  rewrite RR in Q. clear RR.
  assert (B2 : Rabs (rnd32 (IZR M * bpow radix2 (-16))) = Rabs (rnd32 (IZR A * bpow radix2 (-16)))).
  { destruct (Z.abs_spec M) as [[_ K]|[_ K]]; unfold A; rewrite K; [reflexivity|].
    rewrite opp_IZR, Ropp_mult_distr_l_reverse, round_NE_opp, Rabs_Ropp. reflexivity. }
  assert (G : generic_format radix2 (FLT_exp (-149) 24) (rnd32 (IZR M * bpow radix2 (-16)))).
  { apply generic_format_round; [apply FLT_exp_valid; reflexivity | apply valid_rnd_N]. }
  rewrite rnd32_eq in Q. rewrite (round_generic radix2 (FLT_exp (-149) 24) ZnearestE _ G) in Q.
  rewrite Rlt_bool_true in Q by (rewrite B2; exact B). destruct Q as (Q1 & Q2 & Q3).
  change (Bmult 24 128 eq_refl eq_refl binop_nan_pl32 BinarySingleNaN.mode_NE (sign_f32 (2 ^ 31 <=? v)) z)
    with (f32_mul (sign_f32 (2 ^ 31 <=? v)) z) in *.
  rewrite S1, C2 in Q2. cbn [andb] in Q2.
  split; [exact Q2|]. split; [exact Q1|].
  rewrite Q3 by (apply finite_not_nan; exact Q2). rewrite S3, C3', T3. apply xorb_false_r.
Qed.

(** ** F32LOW *)

Lemma pow2_inf p : 128 <= p -> pow2_f32 p = B754_infinity 24 128 false.
Proof.
  intros Hp. unfold pow2_f32, f32_of.
  pose proof (binary_normalize_correct 24 128 eq_refl eq_refl BinarySingleNaN.mode_NE 1 p false) as C.
  unfold F2R in C; cbn [Fnum Fexp] in C. rewrite Rmult_1_l in C. rewrite rnd32_eq in C.
  rewrite round_generic in C; [| apply valid_rnd_N | apply generic_format_bpow; unfold FLT_exp; lia].
  rewrite Rlt_bool_false in C.
  2: { rewrite Rabs_pos_eq by apply bpow_ge_0. apply bpow_le. exact Hp. }
  rewrite Rlt_bool_false in C by apply bpow_ge_0.
  destruct (binary_normalize 24 128 eq_refl eq_refl BinarySingleNaN.mode_NE 1 p false) as [s|s|s pl Hpl|s m e Hb];
    cbn in C; try discriminate C. congruence.
Qed.

Lemma pow2_zero p : p <= -150 -> pow2_f32 p = B754_zero 24 128 false.
Proof.
  intros Hp. destruct (Z.eq_dec p (-150)) as [->|Hne]; [vm_compute; reflexivity|].
  unfold pow2_f32, f32_of.
  pose proof (binary_normalize_correct 24 128 eq_refl eq_refl BinarySingleNaN.mode_NE 1 p false) as C.
  unfold F2R in C; cbn [Fnum Fexp] in C. rewrite Rmult_1_l in C. rewrite rnd32_eq in C.
  assert (R : rnd32 (bpow radix2 p) = 0%R).
  { apply (round_N_small_pos radix2 (FLT_exp (-149) 24) _ _ (p + 1)).
    - replace (p + 1 - 1) with p by ring. split; [apply Rle_refl | apply bpow_lt; lia].
    - unfold FLT_exp. lia. }
  rewrite R in C. rewrite Rlt_bool_true in C by (rewrite Rabs_R0; apply bpow_gt_0).
  destruct C as (C1 & C2 & C3). rewrite Rcompare_Gt in C3 by apply bpow_gt_0.
  destruct (binary_normalize 24 128 eq_refl eq_refl BinarySingleNaN.mode_NE 1 p false) as [s|s|s pl Hpl|s m e Hb];
    cbn in C1, C2, C3; try discriminate C2.
  - congruence.
  - exfalso. unfold F2R in C1. cbn [Fnum Fexp] in C1. apply Rmult_integral in C1 as [C1|C1].
    + apply eq_IZR in C1. destruct s; discriminate C1.
    + pose proof (bpow_gt_0 radix2 e). lra.
Qed.

Lemma val_zero x s e : val32 x s 0 e -> x = B754_zero 24 128 s.
Proof.
  intros (V1 & V2 & V3). rewrite Rmult_0_l in V2.
  destruct x as [sx|sx|sx pl Hpl|sx m e' Hb]; cbn in V1, V2, V3; try discriminate V1; [congruence|].
  exfalso. unfold F2R in V2. cbn [Fnum Fexp] in V2. apply Rmult_integral in V2 as [C1|C1].
  - apply eq_IZR in C1. destruct sx; discriminate C1.
  - pose proof (bpow_gt_0 radix2 e'). lra.
Qed.
Lemma val_nonzero x s m e : val32 x s m e -> m <> 0 -> exists m' e' H, x = B754_finite 24 128 s m' e' H.
Proof.
  intros (V1 & V2 & V3) Hm.
  destruct x as [sx|sx|sx pl Hpl|sx m' e' Hb]; cbn in V1, V2, V3; try discriminate V1; [|subst sx; eauto].
  exfalso. symmetry in V2. apply Rmult_integral in V2 as [C1|C1].
  - apply eq_IZR in C1. contradiction.
  - pose proof (bpow_gt_0 radix2 e). lra.
Qed.

Lemma f32low_value v : 0 <= v < 2 ^ 32 ->
  let M := signed 16 (v mod 2 ^ 16) in
  let E := signed 16 (v / 2 ^ 16) in
  let r := (IZR M * bpow radix2 (E - 15))%R in
  let f := f32low_word v in
  (* representable without underflow of the scale *)
  (E <= 142 -> -134 <= E -> (Rabs r < bpow radix2 128)%R ->
     is_finite 24 128 f = true /\ B2R 24 128 f = r /\ Bsign 24 128 f = (M <? 0)) /\
  (E <= 142 -> (bpow radix2 128 <= Rabs r)%R -> f = B754_infinity 24 128 (M <? 0)) /\
  (142 < E -> M <> 0 -> f = B754_infinity 24 128 (M <? 0)) /\
  (142 < E -> M = 0 -> is_nan 24 128 f = true) /\
  (E < -134 -> f = B754_zero 24 128 (M <? 0)).
Proof.
  intros Hv M E r f. unfold f, f32low_word.
  assert (S1 : negb (Z.shiftr (Z.land v 0x8000) 15 =? 0) = (2 ^ 15 <=? v mod 2 ^ 16)).
  { rewrite (field v 0x8000 15 1 eq_refl) by lia. plia. }
  rewrite S1. clear S1.
  change 0x80000000 with (2 ^ 31). rewrite sign_field by plia.
  rewrite (land_low v 0x7FFF 15 eq_refl) by lia. rewrite (field v 0x7FFF0000 16 15 eq_refl) by lia.
  assert (H1 : 0 <= v mod 2 ^ 15 < 2 ^ 15) by plia.
  destruct (twos_of (2 ^ 15 <=? v mod 2 ^ 16) _ 15 ltac:(lia) H1) as (T1 & T2 & T3 & T4).
  assert (H2 : 0 <= (v / 2 ^ 16) mod 2 ^ 15 < 2 ^ 15) by plia.
  destruct (twos_of (2 ^ 31 <=? v) _ 15 ltac:(lia) H2) as (U1 & U2 & U3 & U4).
  rewrite T1, U1, U2.
  assert (EM : signed (15 + 1) ((if 2 ^ 15 <=? v mod 2 ^ 16 then 2 ^ 15 else 0) + v mod 2 ^ 15) = M).
  { unfold M. change (15 + 1) with 16. f_equal. destruct (Z.leb_spec (2 ^ 15) (v mod 2 ^ 16)); plia. }
  assert (EE : signed (15 + 1) ((if 2 ^ 31 <=? v then 2 ^ 15 else 0) + (v / 2 ^ 16) mod 2 ^ 15) = E).
  { unfold E. change (15 + 1) with 16. f_equal. destruct (Z.leb_spec (2 ^ 31) v); plia. }
  rewrite EM, EE in *. clear EM EE.
  assert (V : val32 (f32_of (Z.abs M) 0) false (Z.abs M) 0).
  { replace false with (Z.abs M <? 0) by plia. apply f32_of_val. apply fits_easy; plia. }
  apply (signed_val (2 ^ 15 <=? v mod 2 ^ 16) _ _ _ M) in V; [|apply fits_easy; plia | exact T2].
  rewrite T3. set (x := f32_mul (sign_f32 _) _) in *. set (s := 2 ^ 15 <=? v mod 2 ^ 16) in *.
  assert (P : -134 <= E -> E <= 142 -> val32 (pow2_f32 (E - 15)) false 1 (E - 15)).
  { intros. unfold pow2_f32. apply (f32_of_val 1 (E - 15)). apply fits_one; [reflexivity | reflexivity |]. plia. }
  assert (Er : (IZR M * bpow radix2 0 * (1 * bpow radix2 (E - 15)) = r)%R) by (unfold r; rewrite bpow0_mul; ring).
  assert (G : -134 <= E -> rnd32 r = r).
  { intros. unfold r. apply round_generic; [apply valid_rnd_N|].
    apply generic_format_FLT. exists (Float radix2 M (E - 15)); [reflexivity| |]; cbn [Fnum Fexp].
    - change (Zpower radix2 24) with (2 ^ 24). plia.
    - lia. }
  split; [|split; [|split; [|split]]].
  - intros L1 L2 L3.
    pose proof (mult_round 24 128 eq_refl eq_refl binop_nan_pl32 _ _ _ _ _ _ _ _ V (P L2 L1)) as R.
    cbn zeta in R. rewrite Er in R. rewrite rnd32_eq, (G L2) in R. specialize (R L3).
    destruct R as (R1 & R2 & R3). split; [exact R1|]. split; [exact R2|]. etransitivity; [exact R3 | apply xorb_false_r].
  - intros L1 L2.
    assert (L3 : -134 <= E).
    { destruct (Z_le_gt_dec (-134) E) as [L|L]; [exact L|]. exfalso.
      apply (Rlt_irrefl (bpow radix2 128)). apply Rle_lt_trans with (1 := L2).
      unfold r. rewrite Rabs_mult, <- abs_IZR, (Rabs_pos_eq (bpow _ _)) by apply bpow_ge_0.
      apply Rle_lt_trans with (IZR (2 ^ 15) * bpow radix2 (E - 15))%R.
      - apply Rmult_le_compat_r; [apply bpow_ge_0|]. apply IZR_le. plia.
      - change 2 with (radix_val radix2). rewrite IZR_Zpower by plia. rewrite <- bpow_plus. apply bpow_lt. plia. }
    destruct V as (V1 & V2 & V3). destruct (P L3 L1) as (P1 & P2 & P3).
    pose proof (Bmult_correct 24 128 eq_refl eq_refl binop_nan_pl32 BinarySingleNaN.mode_NE x (pow2_f32 (E - 15))) as Q.
    rewrite V2, P2, Er, rnd32_eq, (G L3), V3, P3, xorb_false_r in Q.
    rewrite Rlt_bool_false in Q by exact L2.
    change (Bmult 24 128 eq_refl eq_refl binop_nan_pl32 BinarySingleNaN.mode_NE) with f32_mul in Q.
    destruct (f32_mul x (pow2_f32 (E - 15))) as [s'|s'|s' pl Hpl|s' m e Hb]; cbn in Q; try discriminate Q. congruence.
  - intros L Hm. rewrite pow2_inf by lia. destruct (val_nonzero _ _ _ _ V Hm) as (m' & e' & Hb & ->).
    cbn. rewrite xorb_false_r. reflexivity.
  - intros L Hm. rewrite pow2_inf by lia. rewrite Hm in V. rewrite (val_zero _ _ _ V). reflexivity.
  - intros L. rewrite pow2_zero by lia. destruct (Z.eq_dec M 0) as [Hm|Hm].
    + rewrite Hm in V. rewrite (val_zero _ _ _ V). cbn. rewrite xorb_false_r. reflexivity.
    + destruct (val_nonzero _ _ _ _ V Hm) as (m' & e' & Hb & ->). cbn. rewrite xorb_false_r. reflexivity.
Qed.

(** ** The readers *)

Lemma u32be_range b0 b1 b2 b3 : 0 <= u32be b0 b1 b2 b3 < 2 ^ 32.
Proof.
  pose proof (b2z_range b0). pose proof (b2z_range b1). pose proof (b2z_range b2). pose proof (b2z_range b3).
  unfold u32be. plia.
Qed.
Lemma u16_range b0 b1 : 0 <= u16 b0 b1 < 65536.
Proof. pose proof (b2z_range b0). pose proof (b2z_range b1). unfold u16. lia. Qed.
Lemma read4 {A} (f : Z -> A) b0 b1 b2 b3 rest :
  (do (v, r) <- read_be 4 (b0 :: b1 :: b2 :: b3 :: rest); Some (f v, r)) = Some (f (u32be b0 b1 b2 b3), rest).
Proof. change (b0 :: b1 :: b2 :: b3 :: rest) with ([b0; b1; b2; b3] ++ rest). rewrite read_be_app by reflexivity. cbn [obind]. rewrite be4. reflexivity. Qed.
Lemma read2 {A} (f : Z -> A) b0 b1 rest :
  (do (v, r) <- read_be 2 (b0 :: b1 :: rest); Some (f v, r)) = Some (f (u16 b0 b1), rest).
Proof. change (b0 :: b1 :: rest) with ([b0; b1] ++ rest). rewrite read_be_app by reflexivity. cbn [obind]. rewrite be2. reflexivity. Qed.
Lemma read1 {A} (f : Z -> A) b0 rest :
  (do (v, r) <- read_be 1 (b0 :: rest); Some (f v, r)) = Some (f (b2z b0), rest).
Proof. change (b0 :: rest) with ([b0] ++ rest). rewrite read_be_app by reflexivity. cbn [obind]. rewrite be1. reflexivity. Qed.

Lemma lis_ints :
  (forall b rest z, twos_complement 8 (b2z b) z -> lis_i8 (b :: rest) = Some (z, rest)) /\
  (forall b0 b1 rest z, twos_complement 16 (u16 b0 b1) z -> lis_i16 (b0 :: b1 :: rest) = Some (z, rest)) /\
  (forall b0 b1 b2 b3 rest z, twos_complement 32 (u32be b0 b1 b2 b3) z ->
     lis_i32 (b0 :: b1 :: b2 :: b3 :: rest) = Some (z, rest)) /\
  (forall b rest, lis_byte (b :: rest) = Some (b2z b, rest)).
Proof.
  split; [|split; [|split]].
  - intros b rest z T. unfold lis_i8. rewrite (read1 (signed 8)). do 2 f_equal.
    apply (twos_unique 8 (b2z b)); [lia | apply signed_twos; [lia | pose proof (b2z_range b); plia] | exact T].
  - intros b0 b1 rest z T. unfold lis_i16. rewrite (read2 (signed 16)). do 2 f_equal.
    apply (twos_unique 16 (u16 b0 b1)); [lia | apply signed_twos; [lia | pose proof (u16_range b0 b1); plia] | exact T].
  - intros b0 b1 b2 b3 rest z T. unfold lis_i32. rewrite (read4 (signed 32)). do 2 f_equal.
    apply (twos_unique 32 (u32be b0 b1 b2 b3)); [lia | apply signed_twos; [lia | apply u32be_range] | exact T].
  - intros b rest. unfold lis_byte. rewrite <- (be1 b). apply (read_be_app 1 [b]). reflexivity.
Qed.

Lemma lis_fix_exact b0 b1 b2 b3 rest M : twos_complement 32 (u32be b0 b1 b2 b3) M ->
  exists w, lis_f32fix (b0 :: b1 :: b2 :: b3 :: rest) = Some (w, rest) /\
    let f := b32_of_bits w in
    is_finite 24 128 f = true /\ B2R 24 128 f = rnd32 (IZR M / 65536)%R /\ Bsign 24 128 f = (M <? 0).
Proof.
  intros T. eexists. split; [apply (read4 (fun v => bits_of_b32 (f32fix_word v)))|]. cbn zeta. rewrite b32_bits_id.
  pose proof (u32be_range b0 b1 b2 b3) as R.
  assert (signed 32 (u32be b0 b1 b2 b3) = M) as <-.
  { apply (twos_unique 32 (u32be b0 b1 b2 b3)); [lia | apply signed_twos; [lia | exact R] | exact T]. }
  exact (f32fix_value _ R).
Qed.

Lemma lis_f16_exact b0 b1 rest M : twos_complement 12 (u16 b0 b1 / 16) M ->
  let E := u16 b0 b1 mod 16 in
  exists w, lis_f16 (b0 :: b1 :: rest) = Some (w, rest) /\
    let f := b32_of_bits w in
    is_finite 24 128 f = true /\ B2R 24 128 f = (IZR M * bpow radix2 (-11) * bpow radix2 E)%R /\
    Bsign 24 128 f = (M <? 0).
Proof.
  intros T E. eexists. split; [apply (read2 (fun v => bits_of_b32 (f16_word v)))|]. cbn zeta. rewrite b32_bits_id.
  pose proof (u16_range b0 b1) as R.
  assert (signed 12 (u16 b0 b1 / 16) = M) as <-.
  { apply (twos_unique 12 (u16 b0 b1 / 16)); [lia | apply signed_twos; [lia | plia] | exact T]. }
  destruct (f16_value _ R) as (V1 & V2 & V3). split; [exact V1|]. split; [|exact V3].
  rewrite V2, Rmult_assoc, <- bpow_plus. f_equal. f_equal. unfold E. lia.
Qed.

Lemma lis_f32_exact b0 b1 b2 b3 rest (s : bool) e m :
  u32be b0 b1 b2 b3 = (if s then 2 ^ 31 else 0) + e * 2 ^ 23 + m -> 0 <= e < 256 -> 0 <= m < 2 ^ 23 ->
  let M := if s then m - 2 ^ 23 else m in
  let E := (if s then 255 - e else e) - 128 in
  let r := (IZR M * bpow radix2 (-23) * bpow radix2 E)%R in
  exists w, lis_f32 (b0 :: b1 :: b2 :: b3 :: rest) = Some (w, rest) /\
    let f := b32_of_bits w in
    is_finite 24 128 f = true /\ B2R 24 128 f = rnd32 r /\ Bsign 24 128 f = s /\
    ((bpow radix2 (-126) <= Rabs r)%R -> B2R 24 128 f = r).
Proof.
  intros Hu He Hm M E r. eexists. split; [apply (read4 (fun v => bits_of_b32 (f32_word v)))|]. cbn zeta. rewrite b32_bits_id.
  pose proof (u32be_range b0 b1 b2 b3) as R. pose proof (f32_value _ R) as V. cbn zeta in V.
  set (v := u32be b0 b1 b2 b3) in *.
  assert (E1 : v / 2 ^ 31 = if s then 1 else 0) by (destruct s; plia).
  assert (E2 : v mod 2 ^ 23 = m) by (destruct s; plia).
  assert (E3 : (v / 2 ^ 23) mod 256 = e) by (destruct s; plia).
  assert (E4 : (v <? 2 ^ 31) = negb s) by (destruct s; plia).
  rewrite E1, E2, E3, E4 in V.
  assert (EM : signed 24 ((if s then 1 else 0) * 2 ^ 23 + m) = M)
    by (unfold signed, M; change (2 ^ (24 - 1)) with 8388608; pows; destruct s;
        match goal with |- context [?x <? ?y] => destruct (Z.ltb_spec x y) end; lia).
  rewrite EM in V.
  assert (Er : (IZR M * bpow radix2 ((if negb s then e else 255 - e) - 151))%R = r).
  { unfold r, E. rewrite Rmult_assoc, <- bpow_plus. f_equal. f_equal. destruct s; cbn [negb]; lia. }
  rewrite Er in V. destruct V as (V1 & V2 & V3 & V4).
  assert (SM : (M <? 0) = s) by (unfold M; destruct s; plia).
  split; [exact V1|]. split; [exact V2|]. split; [congruence|].
  intros N. rewrite V2. apply V4.
  destruct (Z_le_gt_dec 2 (if negb s then e else 255 - e)) as [L|L]; [exact L|]. exfalso.
  apply (Rlt_irrefl (bpow radix2 (-126))). apply Rle_lt_trans with (1 := N).
  rewrite <- Er, Rabs_mult, <- abs_IZR, (Rabs_pos_eq (bpow _ _)) by apply bpow_ge_0.
  apply Rle_lt_trans with (IZR (2 ^ 23) * bpow radix2 ((if negb s then e else 255 - e) - 151))%R.
  - apply Rmult_le_compat_r; [apply bpow_ge_0|]. apply IZR_le. unfold M. destruct s; plia.
  - change 2 with (radix_val radix2). rewrite IZR_Zpower by plia. rewrite <- bpow_plus. apply bpow_lt. plia.
Qed.

Lemma lis_f32low_exact b0 b1 b2 b3 rest E M :
  twos_complement 16 (u16 b0 b1) E -> twos_complement 16 (u16 b2 b3) M ->
  let r := (IZR M * bpow radix2 (-15) * bpow radix2 E)%R in
  exists w, lis_f32low (b0 :: b1 :: b2 :: b3 :: rest) = Some (w, rest) /\
    let f := b32_of_bits w in
    ((bpow radix2 (-126) <= Rabs r < bpow radix2 128)%R ->
       is_finite 24 128 f = true /\ B2R 24 128 f = r /\ Bsign 24 128 f = (M <? 0)) /\
    ((bpow radix2 128 <= Rabs r)%R -> f = B754_infinity 24 128 (M <? 0)) /\
    ((Rabs r < bpow radix2 (-126))%R -> E <= 142 ->
       is_finite 24 128 f = true /\ B2R 24 128 f = (if E <? -134 then 0 else r)%R).
Proof.
  intros TE TM r. eexists. split; [apply (read4 (fun v => bits_of_b32 (f32low_word v)))|]. cbn zeta. rewrite b32_bits_id.
  pose proof (u32be_range b0 b1 b2 b3) as R. pose proof (f32low_value _ R) as V. cbn zeta in V.
  set (v := u32be b0 b1 b2 b3) in *. pose proof (u16_range b0 b1) as R1. pose proof (u16_range b2 b3) as R2.
  assert (Ev : v = u16 b0 b1 * 2 ^ 16 + u16 b2 b3) by (unfold v, u32be, u16; plia).
  assert (E1 : v mod 2 ^ 16 = u16 b2 b3) by plia. assert (E2 : v / 2 ^ 16 = u16 b0 b1) by plia.
  rewrite E1, E2 in V.
  assert (signed 16 (u16 b0 b1) = E) as EE.
  { apply (twos_unique 16 (u16 b0 b1)); [lia | apply signed_twos; [lia | plia] | exact TE]. }
  assert (signed 16 (u16 b2 b3) = M) as EM.
  { apply (twos_unique 16 (u16 b2 b3)); [lia | apply signed_twos; [lia | plia] | exact TM]. }
  rewrite EE, EM in V. clear EE EM.
  assert (Er : (IZR M * bpow radix2 (E - 15))%R = r).
  { unfold r. rewrite Rmult_assoc, <- bpow_plus. f_equal. f_equal. lia. }
  rewrite Er in V. destruct V as (V1 & V2 & V3 & V4 & V5).
  destruct TM as [HM _]. destruct TE as [HE _]. change (16 - 1) with 15 in *.
  assert (Bm : (Rabs r <= bpow radix2 E)%R).
  { rewrite <- Er, Rabs_mult, <- abs_IZR, (Rabs_pos_eq (bpow _ _)) by apply bpow_ge_0.
    apply Rle_trans with (IZR (2 ^ 15) * bpow radix2 (E - 15))%R.
    - apply Rmult_le_compat_r; [apply bpow_ge_0|]. apply IZR_le. plia.
    - change 2 with (radix_val radix2). rewrite IZR_Zpower by plia. rewrite <- bpow_plus. apply bpow_le. plia. }
  assert (Bl : M <> 0 -> (bpow radix2 (E - 15) <= Rabs r)%R).
  { intros N. rewrite <- Er, Rabs_mult, <- abs_IZR, (Rabs_pos_eq (bpow _ _)) by apply bpow_ge_0.
    rewrite <- (Rmult_1_l (bpow radix2 (E - 15))) at 1. apply Rmult_le_compat_r; [apply bpow_ge_0|]. apply IZR_le. lia. }
  assert (Z0 : M = 0 -> r = 0%R) by (intros ->; rewrite <- Er; apply Rmult_0_l).
  split; [|split].
  - intros [L1 L2].
    assert (N : M <> 0).
    { intros N. rewrite (Z0 N), Rabs_R0 in L1. pose proof (bpow_gt_0 radix2 (-126)). lra. }
    apply V1.
    + destruct (Z_le_gt_dec E 142) as [L|L]; [exact L|]. exfalso.
      apply (Rlt_irrefl (bpow radix2 128)). apply Rle_lt_trans with (2 := L2). apply Rle_trans with (2 := Bl N). apply bpow_le. lia.
    + destruct (Z_le_gt_dec (-134) E) as [L|L]; [exact L|]. exfalso.
      apply (Rlt_irrefl (bpow radix2 (-126))). apply Rle_lt_trans with (1 := L1). apply Rle_lt_trans with (1 := Bm). apply bpow_lt. lia.
    + exact L2.
  - intros L. destruct (Z_le_gt_dec E 142) as [L1|L1]; [apply V2; assumption|]. apply V3; [lia|].
    intros N. rewrite (Z0 N), Rabs_R0 in L. pose proof (bpow_gt_0 radix2 128). lra.
  - intros L LE. destruct (Z.ltb_spec E (-134)) as [L1|L1].
    + rewrite V5 by exact L1. split; reflexivity.
    + destruct V1 as (W1 & W2 & W3); [lia | lia | | split; assumption].
      apply Rlt_trans with (1 := L). apply bpow_lt. lia.
Qed.
