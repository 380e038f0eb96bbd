(** lis.curves: accuracy of the interpolated index. *)
From Verif Require Import Bytes DlisTypes FloatProofs LisTypes LisCurves.
From Coq Require Import Reals Psatz ZArith.
From Flocq Require Import Core Relative IEEE754.Binary IEEE754.Bits.
(** ** Accuracy of the interpolation *)
Local Open Scope R_scope.
Definition u53 : R := / 9007199254740992.
Notation rnd64 := (round radix2 (SpecFloat.fexp 53 1024) (BinarySingleNaN.round_mode BinarySingleNaN.mode_NE)).
Definition eta64 : R := bpow radix2 (-1075).
Lemma eta_pos : 0 < eta64. Proof. apply bpow_gt_0. Qed.
Lemma rnd_error y : Rabs (rnd64 y - y) <= u53 * Rabs y + eta64.
Proof.
  destruct (error_N_FLT radix2 (-1074) 53 eq_refl (fun x => negb (Z.even x)) y) as (eps & eta & E1 & E2 & _ & E).
  change (rnd64 y) with (round radix2 (FLT_exp (-1074) 53) (Znearest (fun x => negb (Z.even x))) y). rewrite E.
  replace (y * (1 + eps) + eta - y) with (y * eps + eta) by ring. eapply Rle_trans; [apply Rabs_triang|]. apply Rplus_le_compat.
  - rewrite Rabs_mult, Rmult_comm. apply Rmult_le_compat_r; [apply Rabs_pos|]. unfold u53.
    change (bpow radix2 (- (53) + 1)) with (/ 4503599627370496) in E1. lra.
  - eapply Rle_trans; [exact E2|]. unfold eta64. change (-1075)%Z with (-1 + -1074)%Z. rewrite bpow_plus. apply Rle_refl.
Qed.
Lemma eta_small : eta64 <= bpow radix2 1000. Proof. apply bpow_le. discriminate. Qed.
Lemma no_overflow y : Rabs y <= bpow radix2 1010 -> Rlt_bool (Rabs (rnd64 y)) (bpow radix2 1024) = true.
Proof.
  intros H. apply Rlt_bool_true. pose proof (rnd_error y) as E. pose proof eta_small.
  assert (Rabs (rnd64 y) <= Rabs y + Rabs (rnd64 y - y)) by (replace (rnd64 y) with (y + (rnd64 y - y)) at 1 by ring; apply Rabs_triang).
  assert (bpow radix2 1000 * 1024 = bpow radix2 1010) by (change 1024 with (bpow radix2 10); rewrite <- bpow_plus; reflexivity).
  assert (bpow radix2 1010 * 16384 = bpow radix2 1024) by (change 16384 with (bpow radix2 14); rewrite <- bpow_plus; reflexivity).
  pose proof (bpow_gt_0 radix2 1000). unfold u53 in E. lra.
Qed.
Lemma line_accuracy (p x : binary64) (s rate : Z) : (1 <= rate <= 255)%Z -> (- rate <= s <= rate)%Z -> (s <> 0)%Z ->
  is_finite 53 1024 p = true -> is_finite 53 1024 x = true -> Rabs (B2R 53 1024 p) <= bpow radix2 1000 -> Rabs (B2R 53 1024 x) <= bpow radix2 1000 ->
  let v := f64_add p (f64_mul (f64_div (f64_sub x p) (f64_of rate 0)) (f64_of s 0)) in
  is_finite 53 1024 v = true /\
  Rabs (B2R 53 1024 v - (B2R 53 1024 p + (B2R 53 1024 x - B2R 53 1024 p) * (IZR s / IZR rate))) <=
    (Rabs (B2R 53 1024 p) + Rabs (B2R 53 1024 x)) * bpow radix2 (-50) + bpow radix2 (-1060).
Proof.
  intros Hr Hs S0 Fp Fx Bp Bx v.
  destruct (f64_of_val rate 0) as (Fr & Vr & _). { apply fits_easy; [change (2 ^ 53)%Z with 9007199254740992%Z; lia | lia]. }
  destruct (f64_of_val s 0) as (Fs & Vs & _). { apply fits_easy; [change (2 ^ 53)%Z with 9007199254740992%Z; lia | lia]. }
  cbn [bpow] in Vr, Vs. rewrite Rmult_1_r in Vr, Vs.
  set (P := B2R 53 1024 p) in *. set (X := B2R 53 1024 x) in *. set (M := Rabs P + Rabs X).
  pose proof (Rabs_pos P) as PP. pose proof (Rabs_pos X) as PX. pose proof (bpow_gt_0 radix2 1000) as B0. pose proof eta_pos as EP. pose proof eta_small as ES.
  assert (B10 : bpow radix2 1000 * 1024 = bpow radix2 1010) by (change 1024 with (bpow radix2 10); rewrite <- bpow_plus; reflexivity).
  assert (MM : 0 <= M <= 2 * bpow radix2 1000) by (unfold M; lra).
  assert (Hs' : 1 <= Rabs (IZR s)) by (rewrite <- abs_IZR; apply IZR_le; lia). assert (Hr' : Rabs (IZR s) <= IZR rate) by (rewrite <- abs_IZR; apply IZR_le; lia).
  assert (NS : IZR s <> 0) by (intros Z0; rewrite Z0, Rabs_R0 in Hs'; lra).
  assert (Hr2 : IZR rate <= 255) by (apply IZR_le; lia).
  set (w := IZR s / IZR rate). assert (W : Rabs w <= 1).
  { unfold w, Rdiv. rewrite Rabs_mult, Rabs_inv, (Rabs_pos_eq (IZR rate)) by lra. apply Rmult_le_reg_r with (IZR rate); [lra|]. rewrite Rmult_assoc, Rinv_l by lra. lra. }
  pose proof (Rabs_pos w) as W0.
  assert (UN : u53 = / 9007199254740992) by reflexivity.
  (* the difference *)
  assert (DM : Rabs (X - P) <= M). { unfold M. eapply Rle_trans; [apply Rabs_triang|]. rewrite Rabs_Ropp. lra. }
  assert (C1 := Bminus_correct 53 1024 eq_refl eq_refl binop_nan_pl64 BinarySingleNaN.mode_NE x p Fx Fp). fold P X in C1.
  rewrite no_overflow in C1 by lra. destruct C1 as (V1 & F1 & _). fold (b64_minus BinarySingleNaN.mode_NE x p) in V1, F1. fold (f64_sub x p) in V1, F1.
  pose proof (rnd_error (X - P)) as E1. rewrite <- V1 in E1. set (dd := f64_sub x p) in *. set (D := B2R 53 1024 dd) in *.
  assert (E1' : Rabs (D - (X - P)) <= u53 * M + eta64) by (eapply Rle_trans; [exact E1|]; apply Rplus_le_compat_r; apply Rmult_le_compat_l; [unfold u53; lra | exact DM]).
  assert (D1 : Rabs D <= M + (u53 * M + eta64)). { replace D with ((X - P) + (D - (X - P))) by ring. eapply Rle_trans; [apply Rabs_triang|]. lra. }
  (* the interval *)
  assert (Q0 : Rabs (D / IZR rate) <= Rabs D).
  { unfold Rdiv. rewrite Rabs_mult. rewrite <- (Rmult_1_r (Rabs D)) at 2. apply Rmult_le_compat_l; [apply Rabs_pos|]. rewrite Rabs_inv, Rabs_pos_eq by lra. rewrite <- Rinv_1. apply Rinv_le; lra. }
  assert (C2 := Bdiv_correct 53 1024 eq_refl eq_refl binop_nan_pl64 BinarySingleNaN.mode_NE dd (f64_of rate 0)). rewrite Vr in C2. specialize (C2 ltac:(lra)).
  fold D in C2. rewrite no_overflow in C2 by (rewrite UN in *; lra). destruct C2 as (V2 & F2 & _). fold (b64_div BinarySingleNaN.mode_NE dd (f64_of rate 0)) in V2, F2.
  fold (f64_div dd (f64_of rate 0)) in V2, F2. rewrite F1 in F2. pose proof (rnd_error (D / IZR rate)) as E2. rewrite <- V2 in E2.
  set (qq := f64_div dd (f64_of rate 0)) in *. set (Q := B2R 53 1024 qq) in *.
  assert (E2' : Rabs (Q * IZR s - D * w) <= u53 * Rabs D + 255 * eta64).
  { replace (Q * IZR s - D * w) with ((Q - D / IZR rate) * IZR s) by (unfold w; field; lra). rewrite Rabs_mult.
    replace (D / IZR rate) with (D * w / IZR s) in E2 at 2 by (unfold w; field; lra). unfold Rdiv in E2 at 2. rewrite !Rabs_mult, Rabs_inv in E2.
    apply Rle_trans with ((u53 * (Rabs D * Rabs w * / Rabs (IZR s)) + eta64) * Rabs (IZR s)); [apply Rmult_le_compat_r; [lra | exact E2]|].
    replace ((u53 * (Rabs D * Rabs w * / Rabs (IZR s)) + eta64) * Rabs (IZR s)) with (u53 * (Rabs D * Rabs w) + eta64 * Rabs (IZR s)) by (field; lra).
    apply Rplus_le_compat; [|nra]. apply Rmult_le_compat_l; [lra|]. rewrite <- (Rmult_1_r (Rabs D)) at 2. apply Rmult_le_compat_l; [apply Rabs_pos | lra]. }
  assert (T1 : Rabs (D * w - (X - P) * w) <= u53 * M + eta64).
  { replace (D * w - (X - P) * w) with ((D - (X - P)) * w) by ring. rewrite Rabs_mult. apply Rle_trans with (Rabs (D - (X - P)) * 1); [|lra].
    apply Rmult_le_compat_l; [apply Rabs_pos | lra]. }
  assert (T2 : Rabs ((X - P) * w) <= M).
  { rewrite Rabs_mult. apply Rle_trans with (Rabs (X - P) * 1); [|lra]. apply Rmult_le_compat_l; [apply Rabs_pos | lra]. }
  assert (T3 : Rabs (Q * IZR s - (X - P) * w) <= (u53 * M + eta64) + (u53 * Rabs D + 255 * eta64)).
  { replace (Q * IZR s - (X - P) * w) with ((D * w - (X - P) * w) + (Q * IZR s - D * w)) by ring. eapply Rle_trans; [apply Rabs_triang|]. lra. }
  assert (T4 : Rabs (Q * IZR s) <= M + ((u53 * M + eta64) + (u53 * Rabs D + 255 * eta64))).
  { replace (Q * IZR s) with ((X - P) * w + (Q * IZR s - (X - P) * w)) by ring. eapply Rle_trans; [apply Rabs_triang|]. lra. }
  (* the offset *)
  assert (C3 := Bmult_correct 53 1024 eq_refl eq_refl binop_nan_pl64 BinarySingleNaN.mode_NE qq (f64_of s 0)). rewrite Vs in C3. fold Q in C3.
  rewrite no_overflow in C3 by (rewrite UN in *; lra). destruct C3 as (V3 & F3 & _). fold (b64_mult BinarySingleNaN.mode_NE qq (f64_of s 0)) in V3, F3.
  fold (f64_mul qq (f64_of s 0)) in V3, F3. rewrite F2, Fs in F3. cbn [andb] in F3. pose proof (rnd_error (Q * IZR s)) as E3. rewrite <- V3 in E3.
  set (tt' := f64_mul qq (f64_of s 0)) in *. set (T := B2R 53 1024 tt') in *.
  assert (T5 : Rabs (T - (X - P) * w) <= ((u53 * M + eta64) + (u53 * Rabs D + 255 * eta64)) + (u53 * Rabs (Q * IZR s) + eta64)).
  { replace (T - (X - P) * w) with ((Q * IZR s - (X - P) * w) + (T - Q * IZR s)) by ring. eapply Rle_trans; [apply Rabs_triang|]. lra. }
  (* the value *)
  assert (T6 : Rabs (P + (X - P) * w) <= 2 * M).
  { eapply Rle_trans; [apply Rabs_triang|]. unfold M in *. lra. }
  assert (T7 : Rabs (P + T) <= 2 * M + (((u53 * M + eta64) + (u53 * Rabs D + 255 * eta64)) + (u53 * Rabs (Q * IZR s) + eta64))).
  { replace (P + T) with ((P + (X - P) * w) + (T - (X - P) * w)) by ring. eapply Rle_trans; [apply Rabs_triang|]. lra. }
  assert (C4 := Bplus_correct 53 1024 eq_refl eq_refl binop_nan_pl64 BinarySingleNaN.mode_NE p tt' Fp F3). fold P T in C4.
  rewrite no_overflow in C4 by (rewrite UN in *; lra). destruct C4 as (V4 & F4 & _). fold (b64_plus BinarySingleNaN.mode_NE p tt') in V4, F4. fold (f64_add p tt') in V4, F4.
  split; [exact F4|]. pose proof (rnd_error (P + T)) as E4. rewrite <- V4 in E4. change v with (f64_add p tt'). set (V := B2R 53 1024 (f64_add p tt')) in *.
  replace (V - (P + (X - P) * w)) with ((T - (X - P) * w) + (V - (P + T))) by ring. eapply Rle_trans; [apply Rabs_triang|].
  change (bpow radix2 (-50)) with (/ 1125899906842624).
  assert (B15 : eta64 * 32768 = bpow radix2 (-1060)) by (unfold eta64; change 32768 with (bpow radix2 15); rewrite <- bpow_plus; reflexivity).
  rewrite <- B15. fold M. rewrite UN in *. lra.
Qed.
Lemma interpolated_accuracy (p x : binary64) (s rate : Z) : (1 <= s < rate)%Z -> (rate <= 255)%Z ->
  is_finite 53 1024 p = true -> is_finite 53 1024 x = true -> Rabs (B2R 53 1024 p) <= bpow radix2 1000 -> Rabs (B2R 53 1024 x) <= bpow radix2 1000 ->
  let v := f64_add p (f64_mul (f64_div (f64_sub x p) (f64_of rate 0)) (f64_of s 0)) in
  is_finite 53 1024 v = true /\
  Rabs (B2R 53 1024 v - (B2R 53 1024 p + (B2R 53 1024 x - B2R 53 1024 p) * (IZR s / IZR rate))) <=
    (Rabs (B2R 53 1024 p) + Rabs (B2R 53 1024 x)) * bpow radix2 (-50) + bpow radix2 (-1060).
Proof. intros. apply line_accuracy; [lia | lia | lia | assumption..]. Qed.
