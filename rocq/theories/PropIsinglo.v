(** C81: the writer of IBM floats (ISINGL). *)
From Verif Require Import Bytes BytesProofs DlisTypes SpecTypes TypesProofs FloatProofs IsinglProofs SpecIsinglo IsingloProofs.
From Coq Require Import Reals Lra.
From Flocq Require Import Core IEEE754.Binary IEEE754.Bits.
Local Open Scope Z_scope.

(** A normal float is written as a normalised IBM number, whose value is that of the
    float rounded towards zero: the next IBM fraction would be too large. *)
Theorem C81_value : forall s e f, ieee_fields e f -> 0 < e < 255 ->
  exists b0 b1 b2 b3 E F,
    dlis_isinglo (ieee_word s e f) = [b0; b1; b2; b3] /\ u32be b0 b1 b2 b3 = ibm_parts s E F /\
    0 <= E < 128 /\ 2 ^ 20 <= F < 2 ^ 24 /\
    Bsign 24 128 (b32_of_bits (ieee_word s e f)) = s /\
    (IZR F * bpow radix2 (-24) * bpow radix2 (4 * (E - 64)) <= Rabs (B2R 24 128 (b32_of_bits (ieee_word s e f)))
     < IZR (F + 1) * bpow radix2 (-24) * bpow radix2 (4 * (E - 64)))%R.
Proof.
  intros s e f H He. pose proof (written_fields e f H) as W. cbv zeta in W.
  set (E := (e + lost_bits e + 130) / 4) in *. set (F := (2 ^ 23 + f) / 2 ^ lost_bits e) in *. destruct W as (HE & HF & E4 & LO & HI).
  destruct (write_read4 (isinglo_bits (ieee_word s e f)) (isinglo_range s e f H)) as (b0 & b1 & b2 & b3 & B & U).
  exists b0, b1, b2, b3, E, F. split; [exact B|]. split.
  { rewrite U. apply isinglo_fields; [exact H|]. destruct H. lia. }
  split; [exact HE|]. split; [exact HF|]. destruct (ieee_value s e f H He) as (_ & V & S). split; [exact S|].
  rewrite V, Rabs_mult, (Rabs_pos_eq (bpow _ _)) by apply bpow_ge_0. rewrite <- abs_IZR.
  replace (Z.abs ((if s then -1 else 1) * (2 ^ 23 + f))) with (2 ^ 23 + f) by (destruct H; destruct s; lia).
  rewrite !Rmult_assoc, <- bpow_plus. replace (-24 + 4 * (E - 64)) with (lost_bits e + (e - 150)) by lia.
  rewrite bpow_plus, <- !Rmult_assoc. rewrite <- !IZR_Zpower by apply lost_range. change (radix_val radix2) with 2. rewrite <- !mult_IZR.
  split; [apply Rmult_le_compat_r; [apply bpow_ge_0|apply IZR_le; exact LO]|apply Rmult_lt_compat_r; [apply bpow_gt_0|apply IZR_lt; exact HI]].
Qed.
Print Assumptions C81_value.

(** Written and read back, any word but a zero keeps its sign, its exponent and its
    fraction up to at most three bits at the end.  Zeros lose their sign. *)
Theorem C81_reread : forall s e f rest, ieee_fields e f ->
  dlis_isingl (dlis_isinglo (ieee_word s e f) ++ rest) =
  Some (if e * 2 ^ 23 + f =? 0 then 0 else ieee_word s e (f - f mod 2 ^ lost_bits e), rest).
Proof.
  intros s e f rest H. unfold dlis_isinglo.
  destruct (write_read4 (isinglo_bits (ieee_word s e f)) (isinglo_range s e f H)) as (b0 & b1 & b2 & b3 & B & U).
  rewrite B. cbn [app]. rewrite isingl_read, U. f_equal. f_equal.
  destruct (Z.eqb_spec (e * 2 ^ 23 + f) 0) as [Z0|NZ].
  - destruct H as [He Hf]. assert (e = 0) by plia. assert (f = 0) by plia. subst. rewrite isinglo_zero. reflexivity.
  - apply isinglo_reread; assumption.
Qed.
Print Assumptions C81_reread.

(** so what fits comes back as it was *)
Theorem C81_exact : forall s e f rest, ieee_fields e f -> e * 2 ^ 23 + f <> 0 -> f mod 2 ^ lost_bits e = 0 ->
  dlis_isingl (dlis_isinglo (ieee_word s e f) ++ rest) = Some (ieee_word s e f, rest).
Proof.
  intros s e f rest H NZ M. rewrite C81_reread by exact H. rewrite M, Z.sub_0_r. apply Z.eqb_neq in NZ. rewrite NZ. reflexivity.
Qed.
Print Assumptions C81_exact.

(** and every normal float comes back with a relative error below 2^-20 *)
Theorem C81_precision : forall s e f rest, ieee_fields e f -> 0 < e < 255 ->
  exists w, dlis_isingl (dlis_isinglo (ieee_word s e f) ++ rest) = Some (w, rest) /\
    let x := B2R 24 128 (b32_of_bits (ieee_word s e f)) in
    let y := B2R 24 128 (b32_of_bits w) in
    is_finite 24 128 (b32_of_bits w) = true /\ Bsign 24 128 (b32_of_bits w) = s /\
    (Rabs y <= Rabs x)%R /\ (Rabs (x - y) < bpow radix2 (-20) * Rabs x)%R.
Proof.
  intros s e f rest H He. rewrite C81_reread by exact H. replace (_ =? 0) with false by (destruct H; lia).
  eexists. split; [reflexivity|]. cbv zeta. pose proof (lost_range e) as LR. set (k := lost_bits e) in *.
  assert (M : 0 <= f mod 2 ^ k < 2 ^ k) by (apply Z.mod_pos_bound; apply Z.pow_pos_nonneg; lia).
  assert (ML : f mod 2 ^ k <= f) by (apply Z.mod_le; [destruct H; lia|apply Z.pow_pos_nonneg; lia]).
  assert (K8 : 2 ^ k <= 8) by (change 8 with (2 ^ 3); apply Z.pow_le_mono_r; lia).
  assert (H' : ieee_fields e (f - f mod 2 ^ k)) by (destruct H; split; lia).
  destruct (ieee_value s e f H He) as (_ & V & _). destruct (ieee_value s e _ H' He) as (Fi & V' & S').
  split; [exact Fi|]. split; [exact S'|]. rewrite V, V'.
  assert (A : forall m, 0 <= m -> Rabs (IZR ((if s then -1 else 1) * m) * bpow radix2 (e - 150)) = (IZR m * bpow radix2 (e - 150))%R).
  { intros m Hm. rewrite Rabs_mult, (Rabs_pos_eq (bpow _ _)) by apply bpow_ge_0. rewrite <- abs_IZR. do 2 f_equal. destruct s; lia. }
  rewrite <- Rmult_minus_distr_r, <- minus_IZR.
  replace ((if s then -1 else 1) * (2 ^ 23 + f) - (if s then -1 else 1) * (2 ^ 23 + (f - f mod 2 ^ k))) with ((if s then -1 else 1) * (f mod 2 ^ k)) by ring.
  destruct H as [H1 H2]. rewrite !A by lia. split.
  - apply Rmult_le_compat_r; [apply bpow_ge_0|]. apply IZR_le. lia.
  - rewrite <- Rmult_assoc. apply Rmult_lt_compat_r; [apply bpow_gt_0|].
    apply Rlt_le_trans with (bpow radix2 (-20) * IZR (2 ^ 23))%R.
    + change (IZR (2 ^ 23)) with (bpow radix2 23). rewrite <- bpow_plus. change (bpow radix2 (-20 + 23)) with 8%R. apply IZR_lt. lia.
    + apply Rmult_le_compat_l; [apply bpow_ge_0|]. apply IZR_le. lia.
Qed.
Print Assumptions C81_precision.

(** every word is one of these *)
Theorem C81_words : forall u, 0 <= u < 2 ^ 32 -> exists s e f, ieee_fields e f /\ u = ieee_word s e f.
Proof. exact ieee_split. Qed.
Print Assumptions C81_words.

(** 0.15625 fits; 1 + 2^-23 does not, and is written as 1 *)
Example C81_example :
  ieee_word false 124 (2 ^ 21) = 0x3E200000 /\ dlis_isinglo 0x3E200000 = [x40; x28; x00; x00] /\
  dlis_isingl [x40; x28; x00; x00] = Some (0x3E200000, []) /\
  dlis_isinglo (ieee_word false 127 1) = dlis_isinglo (ieee_word false 127 0) /\
  dlis_isingl (dlis_isinglo (ieee_word false 127 1)) = Some (ieee_word false 127 0, []).
Proof. repeat split. Qed.

(** Subnormal floats are written as if they were normal ones: of 2^-149 the bytes say
    2^-127.  The reader makes the opposite mistake. *)
Theorem C81_subnormal_refuted :
  dlis_isinglo 1 = [x21; x20; x00; x00] /\ u32be x21 x20 x00 x00 = ibm_parts false 0x21 (2 ^ 21) /\
  B2R 24 128 (b32_of_bits 1) = bpow radix2 (-149) /\
  (IZR (2 ^ 21) * bpow radix2 (-24) * bpow radix2 (4 * (0x21 - 64)) = bpow radix2 (-127))%R.
Proof.
  split; [reflexivity|]. split; [reflexivity|]. split.
  - destruct (b32_subnormal 1 ltac:(lia) eq_refl) as (_ & V & _). rewrite V.
    replace (1 / 2 ^ 31 =? 0) with true by reflexivity. replace (1 mod 2 ^ 23) with 1 by reflexivity. apply Rmult_1_l.
  - change (IZR (2 ^ 21)) with (bpow radix2 21). rewrite <- !bpow_plus. reflexivity.
Qed.
Print Assumptions C81_subnormal_refuted.

(** a NaN may come back as infinity *)
Theorem C81_nan_refuted :
  is_nan 24 128 (b32_of_bits 0x7F800001) = true /\
  dlis_isingl (dlis_isinglo 0x7F800001) = Some (0x7F800000, []) /\
  is_nan 24 128 (b32_of_bits 0x7F800000) = false.
Proof. repeat split. Qed.
Print Assumptions C81_nan_refuted.
