(** Exactness lemmas for the float arithmetic used by the readers. *)
From Verif Require Import Bytes BytesProofs DlisTypes.
From Coq Require Import Reals.
From Flocq Require Import Core IEEE754.Binary IEEE754.Bits.
Local Open Scope Z_scope.

Section Generic.
Variables prec emax : Z.
Context (Hprec : FLX.Prec_gt_0 prec) (Hmax : BinarySingleNaN.Prec_lt_emax prec emax).
Notation emin := (3 - emax - prec).
Notation rnd := (round radix2 (SpecFloat.fexp prec emax) (BinarySingleNaN.round_mode BinarySingleNaN.mode_NE)).

(** a dyadic that fits the significand and exponent range *)
Definition fits (m e : Z) : Prop :=
  Z.abs m < 2 ^ prec /\ emin <= e /\ Z.abs m < 2 ^ (emax - e).

Lemma prec_pos : 0 < prec.
Proof. exact Hprec. Qed.

Lemma fits_easy m e : Z.abs m < 2 ^ prec -> emin <= e <= emax - prec -> fits m e.
Proof.
  intros Hm He. unfold fits. repeat split; try lia.
  apply Z.lt_le_trans with (1 := Hm). apply Z.pow_le_mono_r; lia.
Qed.

Lemma fits_one m e : Z.abs m = 1 -> emin <= e < emax -> fits m e.
Proof.
  intros Hm He. pose proof prec_pos. unfold fits. rewrite Hm. repeat split; try lia.
  - apply Z.pow_gt_1; lia.
  - apply Z.pow_gt_1; lia.
Qed.

Lemma round_fits m e : fits m e ->
  rnd (IZR m * bpow radix2 e)%R = (IZR m * bpow radix2 e)%R.
Proof.
  intros (Hm & He & _). apply round_generic; [apply BinarySingleNaN.valid_rnd_round_mode|].
  change (SpecFloat.fexp prec emax) with (FLT_exp emin prec).
  apply generic_format_FLT. exists (Float radix2 m e); [reflexivity| |].
  - cbn [Fnum]. change (Zpower radix2 prec) with (2 ^ prec). exact Hm.
  - exact He.
Qed.

Lemma fits_bound m e : fits m e -> (Rabs (IZR m * bpow radix2 e) < bpow radix2 emax)%R.
Proof.
  intros (Hm & He & Hx). rewrite Rabs_mult, <- abs_IZR, (Rabs_pos_eq (bpow _ _)) by apply bpow_ge_0.
  assert (He2 : 0 <= emax - e).
  { destruct (Z.neg_nonneg_cases (emax - e)) as [L|L]; [|exact L].
    rewrite Z.pow_neg_r in Hx by exact L. lia. }
  apply Rlt_le_trans with (IZR (2 ^ (emax - e)) * bpow radix2 e)%R.
  - apply Rmult_lt_compat_r; [apply bpow_gt_0|]. apply IZR_lt; assumption.
  - change 2 with (radix_val radix2). rewrite IZR_Zpower by exact He2.
    rewrite <- bpow_plus. apply bpow_le. lia.
Qed.

Lemma rlt_bound m e : fits m e ->
  Rlt_bool (Rabs (rnd (IZR m * bpow radix2 e)%R)) (bpow radix2 emax) = true.
Proof. intros H. rewrite round_fits by exact H. apply Rlt_bool_true, fits_bound, H. Qed.

(** [x] is the finite float of value m*2^e and sign s *)
Definition is_val (x : binary_float prec emax) (s : bool) (m e : Z) : Prop :=
  is_finite prec emax x = true /\ B2R prec emax x = (IZR m * bpow radix2 e)%R /\
  Bsign prec emax x = s.

Lemma finite_not_nan (x : binary_float prec emax) :
  is_finite prec emax x = true -> is_nan prec emax x = false.
Proof. destruct x; cbn; congruence. Qed.

Lemma normalize_val m e :
  fits m e ->
  is_val (binary_normalize prec emax Hprec Hmax BinarySingleNaN.mode_NE m e false) (m <? 0) m e.
Proof.
  intros H. pose proof (binary_normalize_correct prec emax Hprec Hmax BinarySingleNaN.mode_NE m e false) as C.
  unfold F2R in C; cbn [Fnum Fexp] in C. rewrite rlt_bound in C by exact H.
  destruct C as (C1 & C2 & C3). rewrite round_fits in C1 by exact H.
  split; [exact C2|]. split; [exact C1|]. rewrite C3.
  pose proof (bpow_gt_0 radix2 e) as P.
  destruct (Z.ltb_spec m 0) as [L|L].
  - rewrite Rcompare_Lt; [reflexivity|]. apply IZR_lt in L.
    rewrite <- (Rmult_0_l (bpow radix2 e)). apply Rmult_lt_compat_r; assumption.
  - destruct (Z.eq_dec m 0) as [->|Hne].
    + rewrite Rmult_0_l, Rcompare_Eq; reflexivity.
    + rewrite Rcompare_Gt; [reflexivity|]. assert (L2 : 0 < m) by lia. apply IZR_lt in L2.
      apply Rmult_lt_0_compat; assumption.
Qed.

Lemma normalize_signed_val s p e :
  let m := if s : bool then Z.neg p else Z.pos p in
  fits m e ->
  is_val (binary_normalize prec emax Hprec Hmax BinarySingleNaN.mode_NE m e s) s m e.
Proof.
  intros m H. pose proof (binary_normalize_correct prec emax Hprec Hmax BinarySingleNaN.mode_NE m e s) as C.
  unfold F2R in C; cbn [Fnum Fexp] in C. rewrite rlt_bound in C by exact H.
  destruct C as (C1 & C2 & C3). rewrite round_fits in C1 by exact H.
  split; [exact C2|]. split; [exact C1|]. rewrite C3.
  pose proof (bpow_gt_0 radix2 e) as P. subst m.
  destruct s.
  - rewrite Rcompare_Lt; [reflexivity|]. assert (L : Z.neg p < 0) by lia. apply IZR_lt in L.
    rewrite <- (Rmult_0_l (bpow radix2 e)). apply Rmult_lt_compat_r; assumption.
  - rewrite Rcompare_Gt; [reflexivity|]. assert (L : 0 < Z.pos p) by lia. apply IZR_lt in L.
    apply Rmult_lt_0_compat; assumption.
Qed.

Lemma mult_val nanf x y sx mx ex sy my ey m e :
  is_val x sx mx ex -> is_val y sy my ey -> fits m e ->
  (IZR mx * bpow radix2 ex * (IZR my * bpow radix2 ey) = IZR m * bpow radix2 e)%R ->
  is_val (Bmult prec emax Hprec Hmax nanf BinarySingleNaN.mode_NE x y) (xorb sx sy) m e.
Proof.
  intros (X1 & X2 & X3) (Y1 & Y2 & Y3) H E.
  pose proof (Bmult_correct prec emax Hprec Hmax nanf BinarySingleNaN.mode_NE x y) as C.
  rewrite X2, Y2, E, rlt_bound in C by exact H. destruct C as (C1 & C2 & C3).
  rewrite round_fits in C1 by exact H. rewrite X1, Y1 in C2.
  split; [exact C2|]. split; [exact C1|]. rewrite C3, X3, Y3; [reflexivity|].
  apply finite_not_nan. exact C2.
Qed.

(** multiplication in general: correctly rounded *)
Lemma mult_round nanf x y sx mx ex sy my ey :
  is_val x sx mx ex -> is_val y sy my ey ->
  let r := (IZR mx * bpow radix2 ex * (IZR my * bpow radix2 ey))%R in
  (Rabs (rnd r) < bpow radix2 emax)%R ->
  let z := Bmult prec emax Hprec Hmax nanf BinarySingleNaN.mode_NE x y in
  is_finite prec emax z = true /\ B2R prec emax z = rnd r /\ Bsign prec emax z = xorb sx sy.
Proof.
  intros (X1 & X2 & X3) (Y1 & Y2 & Y3) r H z.
  pose proof (Bmult_correct prec emax Hprec Hmax nanf BinarySingleNaN.mode_NE x y) as C.
  rewrite X2, Y2 in C. fold r in C. rewrite Rlt_bool_true in C by exact H. destruct C as (C1 & C2 & C3).
  rewrite X1, Y1 in C2.
  split; [exact C2|]. split; [exact C1|]. unfold z. rewrite C3, X3, Y3; [reflexivity|].
  apply finite_not_nan. exact C2.
Qed.

Lemma div_val nanf x y sx mx ex sy my ey m e :
  is_val x sx mx ex -> is_val y sy my ey -> fits m e -> my <> 0 ->
  (IZR mx * bpow radix2 ex / (IZR my * bpow radix2 ey) = IZR m * bpow radix2 e)%R ->
  is_val (Bdiv prec emax Hprec Hmax nanf BinarySingleNaN.mode_NE x y) (xorb sx sy) m e.
Proof.
  intros (X1 & X2 & X3) (Y1 & Y2 & Y3) H Hy E.
  pose proof (Bdiv_correct prec emax Hprec Hmax nanf BinarySingleNaN.mode_NE x y) as C.
  assert (NZ : B2R prec emax y <> 0%R).
  { rewrite Y2. apply Rmult_integral_contrapositive. split.
    - intros K. apply eq_IZR in K. auto.
    - apply Rgt_not_eq, bpow_gt_0. }
  specialize (C NZ). rewrite X2, Y2, E, rlt_bound in C by exact H. destruct C as (C1 & C2 & C3).
  rewrite round_fits in C1 by exact H. rewrite X1 in C2.
  split; [exact C2|]. split; [exact C1|]. rewrite C3, X3, Y3; [reflexivity|].
  apply finite_not_nan. exact C2.
Qed.

End Generic.

Notation val32 := (is_val 24 128).
Notation val64 := (is_val 53 1024).
Notation fits32 := (fits 24 128).
Notation fits64 := (fits 53 1024).
Notation rnd32 := (round radix2 (FLT_exp (-149) 24) ZnearestE).

Lemma f32_of_val m e : fits32 m e -> val32 (f32_of m e) (m <? 0) m e.
Proof. apply normalize_val. Qed.
Lemma f64_of_val m e : fits64 m e -> val64 (f64_of m e) (m <? 0) m e.
Proof. apply normalize_val. Qed.
Lemma f32_mul_val x y sx mx ex sy my ey m e :
  val32 x sx mx ex -> val32 y sy my ey -> fits32 m e ->
  (IZR mx * bpow radix2 ex * (IZR my * bpow radix2 ey) = IZR m * bpow radix2 e)%R ->
  val32 (f32_mul x y) (xorb sx sy) m e.
Proof. intros. unfold f32_mul, b32_mult. eapply mult_val; eassumption. Qed.
Lemma f32_div_val x y sx mx ex sy my ey m e :
  val32 x sx mx ex -> val32 y sy my ey -> fits32 m e -> my <> 0 ->
  (IZR mx * bpow radix2 ex / (IZR my * bpow radix2 ey) = IZR m * bpow radix2 e)%R ->
  val32 (f32_div x y) (xorb sx sy) m e.
Proof. intros. unfold f32_div, b32_div. eapply div_val; eassumption. Qed.
Lemma f64_div_val x y sx mx ex sy my ey m e :
  val64 x sx mx ex -> val64 y sy my ey -> fits64 m e -> my <> 0 ->
  (IZR mx * bpow radix2 ex / (IZR my * bpow radix2 ey) = IZR m * bpow radix2 e)%R ->
  val64 (f64_div x y) (xorb sx sy) m e.
Proof. intros. unfold f64_div, b64_div. eapply div_val; eassumption. Qed.

(** a double whose value fits a float narrows exactly *)
Lemma f64_to_f32_val x s m e :
  val64 x s m e -> fits32 m e -> (m = 0 -> s = false) -> val32 (f64_to_f32 x) s m e.
Proof.
  intros (X1 & X2 & X3) H Hz. destruct x as [sx|sx|sx pl Hpl|sx mx ex Hx]; try discriminate X1.
  - cbn in X2, X3. cbn [f64_to_f32]. subst sx. split; [reflexivity|]. split; [|reflexivity].
    cbn. assumption.
  - cbn [f64_to_f32]. cbn in X3. subst sx.
    pose proof (binary_normalize_correct 24 128 (eq_refl _) (eq_refl _) BinarySingleNaN.mode_NE
                  (if s then Z.neg mx else Z.pos mx) ex s) as C.
    assert (E : F2R (Float radix2 (if s then Z.neg mx else Z.pos mx) ex) = (IZR m * bpow radix2 e)%R).
    { rewrite <- X2. cbn. destruct s; reflexivity. }
    rewrite E in C. rewrite rlt_bound in C by exact H.
    destruct C as (C1 & C2 & C3). rewrite round_fits in C1 by exact H.
    split; [exact C2|]. split; [exact C1|]. rewrite C3.
    rewrite <- E. unfold F2R; cbn [Fnum Fexp]. pose proof (bpow_gt_0 radix2 ex) as P.
    destruct s.
    + rewrite Rcompare_Lt; [reflexivity|]. assert (L : Z.neg mx < 0) by lia. apply IZR_lt in L.
      rewrite <- (Rmult_0_l (bpow radix2 ex)). apply Rmult_lt_compat_r; assumption.
    + rewrite Rcompare_Gt; [reflexivity|]. assert (L : 0 < Z.pos mx) by lia. apply IZR_lt in L.
      apply Rmult_lt_0_compat; assumption.
Qed.

Lemma f32_to_f64_val x s m e :
  val32 x s m e -> fits64 m e -> (m = 0 -> s = false) -> val64 (f32_to_f64 x) s m e.
Proof.
  intros (X1 & X2 & X3) H Hz. destruct x as [sx|sx|sx pl Hpl|sx mx ex Hx]; try discriminate X1.
  - cbn in X2, X3. cbn [f32_to_f64]. subst sx. split; [reflexivity|]. split; [|reflexivity].
    cbn. assumption.
  - cbn [f32_to_f64]. cbn in X3. subst sx.
    pose proof (binary_normalize_correct 53 1024 (eq_refl _) (eq_refl _) BinarySingleNaN.mode_NE
                  (if s then Z.neg mx else Z.pos mx) ex s) as C.
    assert (E : F2R (Float radix2 (if s then Z.neg mx else Z.pos mx) ex) = (IZR m * bpow radix2 e)%R).
    { rewrite <- X2. cbn. destruct s; reflexivity. }
    rewrite E in C. rewrite rlt_bound in C by exact H.
    destruct C as (C1 & C2 & C3). rewrite round_fits in C1 by exact H.
    split; [exact C2|]. split; [exact C1|]. rewrite C3.
    rewrite <- E. unfold F2R; cbn [Fnum Fexp]. pose proof (bpow_gt_0 radix2 ex) as P.
    destruct s.
    + rewrite Rcompare_Lt; [reflexivity|]. assert (L : Z.neg mx < 0) by lia. apply IZR_lt in L.
      rewrite <- (Rmult_0_l (bpow radix2 ex)). apply Rmult_lt_compat_r; assumption.
    + rewrite Rcompare_Gt; [reflexivity|]. assert (L : 0 < Z.pos mx) by lia. apply IZR_lt in L.
      apply Rmult_lt_0_compat; assumption.
Qed.

Lemma b32_bits_id x : b32_of_bits (bits_of_b32 x) = x.
Proof. exact (binary_float_of_bits_of_binary_float 23 8 eq_refl eq_refl eq_refl x). Qed.

Lemma bits_b32_range x : 0 <= bits_of_b32 x < 2 ^ 32.
Proof. apply (bits_of_binary_float_range 23 8); reflexivity. Qed.

(** one and minus one *)
Lemma one_val : val32 (f32_of 1 0) false 1 0.
Proof. apply (f32_of_val 1 0). unfold fits; repeat split; vm_compute; congruence. Qed.
Lemma mone_val : val32 (f32_of (-1) 0) true (-1) 0.
Proof. apply (f32_of_val (-1) 0). unfold fits; repeat split; vm_compute; congruence. Qed.
Lemma sign_val (b : bool) :
  val32 (if b then f32_of 1 0 else f32_of (-1) 0) (negb b) (if b then 1 else -1) 0.
Proof. destruct b; [apply one_val | apply mone_val]. Qed.
