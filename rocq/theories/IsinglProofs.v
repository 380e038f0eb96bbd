(** IEEE meaning of bit patterns and the IBM float reader. *)
From Verif Require Import Bytes BytesProofs DlisTypes SpecTypes TypesProofs FloatProofs.
From Coq Require Import Reals Lra.
From Flocq Require Import Core IEEE754.Binary IEEE754.Bits.
Local Open Scope Z_scope.
Ltac Zify.zify_post_hook ::= Z.div_mod_to_equations.

Lemma split_bits32 u : 0 <= u < 2 ^ 32 ->
  split_bits 23 8 u = (negb (u / 2 ^ 31 =? 0), u mod 2 ^ 23, (u / 2 ^ 23) mod 256).
Proof.
  intros H. unfold split_bits. change (Z.pow_pos 2 8) with 256.
  f_equal. f_equal. change (2 ^ 8 * 2 ^ 23) with (2 ^ 31).
  destruct (Zle_bool_spec (2 ^ 31) u) as [L|L]; plia.
Qed.

(** ** the three classes of bit patterns *)

Lemma b32_normal u : 0 <= u < 2 ^ 32 ->
  let s := negb (u / 2 ^ 31 =? 0) in
  let e := (u / 2 ^ 23) mod 256 in let f := u mod 2 ^ 23 in
  0 < e < 255 ->
  val32 (b32_of_bits u) s ((if s then -1 else 1) * (2 ^ 23 + f)) (e - 150).
Proof.
  intros Hu s e f He. unfold is_val, b32_of_bits, binary_float_of_bits.
  rewrite is_finite_FF2B, B2R_FF2B, Bsign_FF2B.
  unfold binary_float_of_bits_aux. rewrite split_bits32 by exact Hu. fold s e f.
  rewrite (Zeq_bool_false e 0) by lia.
  change (2 ^ 8 - 1) with 255. rewrite (Zeq_bool_false e 255) by lia.
  assert (Hf : 0 <= f < 2 ^ 23) by (apply Z.mod_pos_bound; lia).
  assert (Hp : exists p, f + 2 ^ 23 = Zpos p).
  { destruct (f + 2 ^ 23) as [|p|p] eqn:E; [plia | eauto | plia]. }
  destruct Hp as (p & Hp). rewrite Hp.
  cbn [is_finite_FF FF2R sign_FF]. split; [reflexivity|]. split; [|reflexivity].
  unfold F2R; cbn [Fnum Fexp].
  replace (e + SpecFloat.emin (23 + 1) (2 ^ (8 - 1)) - 1) with (e - 150) by (cbn; lia).
  do 2 f_equal. rewrite (Z.add_comm (2 ^ 23) f), Hp. destruct s; reflexivity.
Qed.

Lemma b32_special u : 0 <= u < 2 ^ 32 ->
  (u / 2 ^ 23) mod 256 = 255 -> is_finite 24 128 (b32_of_bits u) = false.
Proof.
  intros Hu He. unfold b32_of_bits, binary_float_of_bits. rewrite is_finite_FF2B.
  unfold binary_float_of_bits_aux. rewrite split_bits32 by exact Hu.
  rewrite He. change (Zeq_bool 255 0) with false. change (Zeq_bool 255 (2 ^ 8 - 1)) with true.
  cbn [negb]. destruct (u mod 2 ^ 23) as [|p|p] eqn:E; [reflexivity | reflexivity |].
  exfalso. assert (0 <= u mod 2 ^ 23) by (apply Z.mod_pos_bound; plia). lia.
Qed.

Lemma b32_subnormal u : 0 <= u < 2 ^ 32 -> (u / 2 ^ 23) mod 256 = 0 ->
  is_finite 24 128 (b32_of_bits u) = true /\
  B2R 24 128 (b32_of_bits u) =
    (IZR ((if (u / 2 ^ 31 =? 0)%Z then 1 else -1) * (u mod 2 ^ 23)) * bpow radix2 (-149))%R /\
  Bsign 24 128 (b32_of_bits u) = negb (u / 2 ^ 31 =? 0).
Proof.
  intros Hu He. unfold b32_of_bits, binary_float_of_bits.
  rewrite is_finite_FF2B, B2R_FF2B, Bsign_FF2B.
  unfold binary_float_of_bits_aux. rewrite split_bits32 by exact Hu.
  rewrite He. change (Zeq_bool 0 0) with true. cbn match.
  assert (Hf : 0 <= u mod 2 ^ 23) by (apply Z.mod_pos_bound; plia).
  destruct (u mod 2 ^ 23) as [|p|p] eqn:E; [| | lia]; cbn [is_finite_FF FF2R sign_FF];
    (split; [reflexivity|]; split; [|reflexivity]).
  - rewrite Z.mul_0_r. rewrite Rmult_0_l. reflexivity.
  - unfold F2R; cbn [Fnum Fexp]. do 2 f_equal.
    destruct (u / 2 ^ 31 =? 0); reflexivity.
Qed.

(** ** ISINGL on fields: u = s*2^31 + E*2^24 + F *)

Definition ibm_word (s : bool) (E F : Z) : Z := (if s then 2 ^ 31 else 0) + E * 2 ^ 24 + F.

Lemma u32_small z : 0 <= z < 2 ^ 32 -> u32 z = z.
Proof. apply Z.mod_small. Qed.

Lemma isingl_bits_fields s E F : 0 <= E < 128 -> 0 <= F < 2 ^ 24 ->
  let u := ibm_word s E F in
  let j := if F <? 2 ^ 21 then 3 else if F <? 2 ^ 22 then 2 else if F <? 2 ^ 23 then 1 else 0 in
  let inabs := E * 2 ^ 24 + F in
  isingl_bits u =
    if inabs <? 0x21200000 then 0
    else (if inabs >? 0x611FFFFF then 0x7FFFFFFF
          else ((4 * E - 131 - j) * 2 ^ 23 + F * 2 ^ j) mod 2 ^ 32)
         + (if s then 2 ^ 31 else 0).
Proof.
  intros HE HF u j inabs.
  assert (Hu : u = (if s then 1 else 0) * 2 ^ 31 + E * 2 ^ 24 + F)
    by (unfold u, ibm_word; destruct s; ring).
  unfold isingl_bits.
  assert (E1 : Z.land u 0xFFFFFF = F).
  { rewrite (land_low u 0xFFFFFF 24 eq_refl) by lia. rewrite Hu. destruct s; plia. }
  assert (E2 : Z.land u 0x7F000000 = E * 2 ^ 24).
  { rewrite (land_mask u 0x7F000000 24 7 eq_refl) by lia. rewrite Hu. f_equal. destruct s; plia. }
  assert (E3 : Z.land u 0x7FFFFFFF = inabs).
  { rewrite (land_low u 0x7FFFFFFF 31 eq_refl) by lia. rewrite Hu. unfold inabs. destruct s; plia. }
  assert (E4 : Z.land u 0x80000000 = (if s then 1 else 0) * 2 ^ 31).
  { rewrite (land_mask u 0x80000000 31 1 eq_refl) by lia. rewrite Hu. f_equal. destruct s; plia. }
  rewrite E1, E2, E3, E4.
  destruct (inabs <? 0x21200000) eqn:Lo; [reflexivity|].
  rewrite Z.shiftr_div_pow2 by lia.
  assert (EJ : isingl_it (F / 2 ^ 21) = (131 + j) * 2 ^ 22 /\ isingl_mt (F / 2 ^ 21) = 2 ^ j).
  { unfold j.
    destruct (Z.ltb_spec F (2 ^ 21)).
    - replace (F / 2 ^ 21) with 0 by plia. split; reflexivity.
    - destruct (Z.ltb_spec F (2 ^ 22)).
      + replace (F / 2 ^ 21) with 1 by plia. split; reflexivity.
      + destruct (Z.ltb_spec F (2 ^ 23)).
        * assert (K : F / 2 ^ 21 = 2 \/ F / 2 ^ 21 = 3) by plia.
          destruct K as [-> | ->]; split; reflexivity.
        * assert (K : F / 2 ^ 21 = 4 \/ F / 2 ^ 21 = 5 \/ F / 2 ^ 21 = 6 \/ F / 2 ^ 21 = 7) by plia.
          destruct K as [-> | [-> | [-> | ->]]]; split; reflexivity. }
  destruct EJ as [-> ->].
  rewrite Z.shiftl_mul_pow2 by lia.
  set (M := (4 * E - 131 - j) * 2 ^ 23 + F * 2 ^ j).
  assert (EM : u32 (F * 2 ^ j + u32 (u32 (E * 2 ^ 24 - (131 + j) * 2 ^ 22) * 2 ^ 1)) = M mod 2 ^ 32).
  { unfold u32. rewrite Z.mul_mod_idemp_l by plia. rewrite Z.add_mod_idemp_r by plia.
    f_equal. unfold M. ring. }
  rewrite EM.
  set (X := if inabs >? 0x611FFFFF then 0x7FFFFFFF else M mod 2 ^ 32).
  assert (HX : 0 <= X < 2 ^ 31).
  { unfold X. destruct (Z.gtb_spec inabs 0x611FFFFF) as [G|G]; [plia|].
    apply Z.ltb_ge in Lo.
    assert (HM : 0 <= M < 2 ^ 31).
    { unfold M, j, inabs in *. pows.
      destruct (Z.ltb_spec F 2097152); [pows; lia|].
      destruct (Z.ltb_spec F 4194304); [pows; lia|].
      destruct (Z.ltb_spec F 8388608); pows; lia. }
    rewrite Z.mod_small by plia. exact HM. }
  rewrite lor_add_disjoint by plia. destruct s; ring.
Qed.

(** normalised IBM numbers in the normal single range are exact *)
Lemma isingl_normal s E F : 0 <= E < 128 -> 2 ^ 20 <= F < 2 ^ 24 ->
  (bpow radix2 (-126) <= IZR F * bpow radix2 (4 * E - 280) < bpow radix2 128)%R ->
  val32 (b32_of_bits (isingl_bits (ibm_word s E F))) s ((if s then -1 else 1) * F) (4 * E - 280).
Proof.
  intros HE HF HR. rewrite isingl_bits_fields by plia. cbn zeta.
  set (j := if F <? 2 ^ 21 then 3 else if F <? 2 ^ 22 then 2 else if F <? 2 ^ 23 then 1 else 0).
  assert (Hj : 0 <= j <= 3 /\ 2 ^ 23 <= F * 2 ^ j < 2 ^ 24).
  { unfold j. pows.
    destruct (Z.ltb_spec F 2097152); [pows; lia|].
    destruct (Z.ltb_spec F 4194304); [pows; lia|].
    destruct (Z.ltb_spec F 8388608); pows; lia. }
  destruct Hj as [Hj HFj].
  assert (Hlow : 131 + j <= 4 * E).
  { destruct (Z.le_gt_cases (131 + j) (4 * E)) as [L|L]; [exact L|exfalso].
    destruct HR as [HR _]. apply Rle_not_lt in HR. apply HR.
    assert (HFlt : F < 2 ^ (24 - j)).
    { apply Z.mul_lt_mono_pos_r with (2 ^ j); [apply Z.pow_pos_nonneg; lia|].
      rewrite <- Z.pow_add_r by lia. replace (24 - j + j) with 24 by lia. lia. }
    apply Rlt_le_trans with (IZR (2 ^ (24 - j)) * bpow radix2 (4 * E - 280))%R.
    - apply Rmult_lt_compat_r; [apply bpow_gt_0|]. apply IZR_lt; exact HFlt.
    - change 2 with (radix_val radix2). rewrite IZR_Zpower by lia. rewrite <- bpow_plus. apply bpow_le. lia. }
  assert (Hhigh : 4 * E <= 384 + j).
  { destruct (Z.le_gt_cases (4 * E) (384 + j)) as [L|L]; [exact L|exfalso].
    destruct HR as [_ HR]. apply Rlt_not_le in HR. apply HR.
    assert (HFge : 2 ^ (23 - j) <= F).
    { apply Z.mul_le_mono_pos_r with (2 ^ j); [apply Z.pow_pos_nonneg; lia|].
      rewrite <- Z.pow_add_r by lia. replace (23 - j + j) with 23 by lia. lia. }
    apply Rle_trans with (IZR (2 ^ (23 - j)) * bpow radix2 (4 * E - 280))%R.
    - change 2 with (radix_val radix2). rewrite IZR_Zpower by lia. rewrite <- bpow_plus. apply bpow_le. lia.
    - apply Rmult_le_compat_r; [apply bpow_ge_0|]. apply IZR_le; exact HFge. }
  assert (Hlo : 0x21200000 <= E * 2 ^ 24 + F).
  { unfold j in *. pows.
    destruct (Z.ltb_spec F 2097152); [pows; lia|].
    destruct (Z.ltb_spec F 4194304); [pows; lia|].
    destruct (Z.ltb_spec F 8388608); pows; lia. }
  assert (Hhi : E * 2 ^ 24 + F <= 0x611FFFFF).
  { unfold j in *. pows.
    destruct (Z.ltb_spec F 2097152); [pows; lia|].
    destruct (Z.ltb_spec F 4194304); [pows; lia|].
    destruct (Z.ltb_spec F 8388608); pows; lia. }
  replace (E * 2 ^ 24 + F <? 0x21200000) with false by lia.
  replace (E * 2 ^ 24 + F >? 0x611FFFFF) with false by lia.
  set (W := F * 2 ^ j) in *.
  rewrite (Z.mod_small ((4 * E - 131 - j) * 2 ^ 23 + W)) by plia.
  set (bits := (4 * E - 131 - j) * 2 ^ 23 + W + (if s then 2 ^ 31 else 0)).
  assert (Hb : 0 <= bits < 2 ^ 32) by (unfold bits; destruct s; plia).
  assert (B1 : bits / 2 ^ 31 = if s then 1 else 0) by (unfold bits; destruct s; plia).
  assert (B2 : (bits / 2 ^ 23) mod 256 = 4 * E - 130 - j) by (unfold bits; destruct s; plia).
  assert (B3 : bits mod 2 ^ 23 = W - 2 ^ 23) by (unfold bits; destruct s; plia).
  pose proof (b32_normal bits Hb) as N. cbn zeta in N. rewrite B1, B2, B3 in N.
  assert (HN : 0 < 4 * E - 130 - j < 255) by lia. specialize (N HN).
  destruct N as (N1 & N2 & N3).
  assert (Es : negb ((if s then 1 else 0) =? 0) = s) by (destruct s; reflexivity).
  rewrite Es in N2, N3.
  split; [exact N1|]. split; [|exact N3].
  rewrite N2. replace (2 ^ 23 + (W - 2 ^ 23)) with W by ring.
  unfold W. rewrite Z.mul_assoc, mult_IZR.
  assert (P2 : IZR (2 ^ j) = bpow radix2 j).
  { change 2 with (radix_val radix2). apply IZR_Zpower. lia. }
  rewrite P2, Rmult_assoc, <- bpow_plus. f_equal. f_equal. ring.
Qed.

(** normalised numbers beyond the single range never come back finite *)
Lemma isingl_overflow s E F : 0 <= E < 128 -> 2 ^ 20 <= F < 2 ^ 24 ->
  (bpow radix2 128 <= IZR F * bpow radix2 (4 * E - 280))%R ->
  is_finite 24 128 (b32_of_bits (isingl_bits (ibm_word s E F))) = false.
Proof.
  intros HE HF HR. rewrite isingl_bits_fields by plia. cbn zeta.
  set (j := if F <? 2 ^ 21 then 3 else if F <? 2 ^ 22 then 2 else if F <? 2 ^ 23 then 1 else 0).
  assert (Hj : 0 <= j <= 3 /\ 2 ^ 23 <= F * 2 ^ j < 2 ^ 24).
  { unfold j. pows.
    destruct (Z.ltb_spec F 2097152); [pows; lia|].
    destruct (Z.ltb_spec F 4194304); [pows; lia|].
    destruct (Z.ltb_spec F 8388608); pows; lia. }
  destruct Hj as [Hj HFj].
  assert (Hhigh : 384 + j < 4 * E).
  { destruct (Z.le_gt_cases (4 * E) (384 + j)) as [L|L]; [exfalso|lia].
    apply Rle_not_lt in HR. apply HR.
    assert (HFlt : F < 2 ^ (24 - j)).
    { apply Z.mul_lt_mono_pos_r with (2 ^ j); [apply Z.pow_pos_nonneg; lia|].
      rewrite <- Z.pow_add_r by lia. replace (24 - j + j) with 24 by lia. lia. }
    apply Rlt_le_trans with (IZR (2 ^ (24 - j)) * bpow radix2 (4 * E - 280))%R.
    - apply Rmult_lt_compat_r; [apply bpow_gt_0|]. apply IZR_lt; exact HFlt.
    - change 2 with (radix_val radix2). rewrite IZR_Zpower by lia. rewrite <- bpow_plus. apply bpow_le. lia. }
  replace (E * 2 ^ 24 + F <? 0x21200000) with false by plia.
  destruct (Z.gtb_spec (E * 2 ^ 24 + F) 0x611FFFFF) as [G|G].
  - apply b32_special; destruct s; plia.
  - assert (EE : E = 97) by plia. subst E.
    assert (F < 2 ^ 21) by plia.
    assert (Ej : j = 3) by (unfold j; replace (F <? 2 ^ 21) with true by plia; reflexivity).
    rewrite Ej in *. set (W := F * 2 ^ 3) in *.
    apply b32_special; destruct s; plia.
Qed.

(** normalised numbers below the normal single range come back below it *)
Lemma isingl_underflow s E F : 0 <= E < 128 -> 2 ^ 20 <= F < 2 ^ 24 ->
  (IZR F * bpow radix2 (4 * E - 280) < bpow radix2 (-126))%R ->
  is_finite 24 128 (b32_of_bits (isingl_bits (ibm_word s E F))) = true /\
  (Rabs (B2R 24 128 (b32_of_bits (isingl_bits (ibm_word s E F)))) < bpow radix2 (-126))%R.
Proof.
  intros HE HF HR.
  assert (Sub : forall b, 0 <= b < 2 ^ 32 -> (b / 2 ^ 23) mod 256 = 0 ->
    is_finite 24 128 (b32_of_bits b) = true /\
    (Rabs (B2R 24 128 (b32_of_bits b)) < bpow radix2 (-126))%R).
  { intros b Hb He. destruct (b32_subnormal b Hb He) as (S1 & S2 & _).
    split; [exact S1|]. rewrite S2.
    rewrite Rabs_mult, <- abs_IZR, (Rabs_pos_eq (bpow _ _)) by apply bpow_ge_0.
    apply Rlt_le_trans with (IZR (2 ^ 23) * bpow radix2 (-149))%R.
    - apply Rmult_lt_compat_r; [apply bpow_gt_0|]. apply IZR_lt.
      assert (0 <= b mod 2 ^ 23 < 2 ^ 23) by (apply Z.mod_pos_bound; plia).
      destruct (b / 2 ^ 31 =? 0); plia.
    - change 2 with (radix_val radix2). rewrite IZR_Zpower by lia. rewrite <- bpow_plus. apply bpow_le. lia. }
  rewrite isingl_bits_fields by plia. cbn zeta.
  destruct (Z.ltb_spec (E * 2 ^ 24 + F) 0x21200000) as [L|L].
  - apply Sub; [plia | reflexivity].
  - set (j := if F <? 2 ^ 21 then 3 else if F <? 2 ^ 22 then 2 else if F <? 2 ^ 23 then 1 else 0).
    assert (Hj : 0 <= j <= 3 /\ 2 ^ 23 <= F * 2 ^ j < 2 ^ 24).
    { unfold j. pows.
      destruct (Z.ltb_spec F 2097152); [pows; lia|].
      destruct (Z.ltb_spec F 4194304); [pows; lia|].
      destruct (Z.ltb_spec F 8388608); pows; lia. }
    destruct Hj as [Hj HFj].
    assert (Hlow : 4 * E < 131 + j).
    { destruct (Z.le_gt_cases (131 + j) (4 * E)) as [K|K]; [exfalso|lia].
      apply Rlt_not_le in HR. apply HR.
      assert (HFge : 2 ^ (23 - j) <= F).
      { apply Z.mul_le_mono_pos_r with (2 ^ j); [apply Z.pow_pos_nonneg; lia|].
        rewrite <- Z.pow_add_r by lia. replace (23 - j + j) with 23 by lia. lia. }
      apply Rle_trans with (IZR (2 ^ (23 - j)) * bpow radix2 (4 * E - 280))%R.
      - change 2 with (radix_val radix2). rewrite IZR_Zpower by lia. rewrite <- bpow_plus. apply bpow_le. lia.
      - apply Rmult_le_compat_r; [apply bpow_ge_0|]. apply IZR_le; exact HFge. }
    assert (EE : E = 33) by plia. subst E.
    replace (33 * 2 ^ 24 + F >? 0x611FFFFF) with false by plia.
    assert (HF21 : 2 ^ 21 <= F) by plia.
    assert (Hj2 : j = 2).
    { unfold j in *. pows. destruct (Z.ltb_spec F 2097152); [lia|].
      destruct (Z.ltb_spec F 4194304); [reflexivity|]. destruct (Z.ltb_spec F 8388608); lia. }
    rewrite Hj2 in *. set (W := F * 2 ^ 2) in *.
    apply Sub; destruct s; plia.
Qed.

Lemma isingl_read b0 b1 b2 b3 rest :
  dlis_isingl (b0 :: b1 :: b2 :: b3 :: rest) = Some (isingl_bits (u32be b0 b1 b2 b3), rest).
Proof.
  unfold dlis_isingl. change (b0 :: b1 :: b2 :: b3 :: rest) with ([b0; b1; b2; b3] ++ rest).
  rewrite read_be_app by reflexivity. cbn [obind]. rewrite be4. reflexivity.
Qed.

Lemma ibm_word_split u : 0 <= u < 2 ^ 32 ->
  u = ibm_word (negb (u / 2 ^ 31 =? 0)) ((u / 2 ^ 24) mod 128) (u mod 2 ^ 24).
Proof.
  intros Hu. unfold ibm_word. destruct (Z.eqb_spec (u / 2 ^ 31) 0); cbn [negb]; plia.
Qed.

(** ** every word *)

(** the value of a word that is neither too small nor too large, in terms of what is
    read from it *)
Lemma isingl_halfway s E F : 34 <= E <= 97 -> 0 <= F < 2 ^ 20 ->
  val32 (b32_of_bits (isingl_bits (ibm_word s E F))) s ((if s then -1 else 1) * (2 ^ 20 + F)) (4 * E - 281).
Proof.
  intros HE HF. rewrite isingl_bits_fields by plia. cbn zeta.
  replace (F <? 2 ^ 21) with true by plia.
  replace (E * 2 ^ 24 + F <? 0x21200000) with false by plia.
  replace (E * 2 ^ 24 + F >? 0x611FFFFF) with false by plia.
  set (W := F * 2 ^ 3). assert (HW : 0 <= W < 2 ^ 23) by (unfold W; plia).
  rewrite (Z.mod_small ((4 * E - 131 - 3) * 2 ^ 23 + W)) by plia.
  set (bits := (4 * E - 131 - 3) * 2 ^ 23 + W + (if s then 2 ^ 31 else 0)).
  assert (Hb : 0 <= bits < 2 ^ 32) by (unfold bits; destruct s; plia).
  assert (B1 : bits / 2 ^ 31 = if s then 1 else 0) by (unfold bits; destruct s; plia).
  assert (B2 : (bits / 2 ^ 23) mod 256 = 4 * E - 134) by (unfold bits; destruct s; plia).
  assert (B3 : bits mod 2 ^ 23 = W) by (unfold bits; destruct s; plia).
  pose proof (b32_normal bits Hb) as N. cbn zeta in N. rewrite B1, B2, B3 in N.
  specialize (N ltac:(lia)). destruct N as (N1 & N2 & N3).
  assert (Es : negb ((if s then 1 else 0) =? 0) = s) by (destruct s; reflexivity).
  rewrite Es in N2, N3.
  split; [exact N1|]. split; [|exact N3]. rewrite N2. unfold W.
  replace (2 ^ 23 + F * 2 ^ 3) with ((2 ^ 20 + F) * 2 ^ 3) by ring.
  rewrite Z.mul_assoc, mult_IZR. change (IZR (2 ^ 3)) with (bpow radix2 3).
  rewrite Rmult_assoc, <- bpow_plus. f_equal. f_equal. ring.
Qed.
Lemma isingl_zero s E F : 0 <= E < 128 -> 0 <= F < 2 ^ 24 -> E * 2 ^ 24 + F < 0x21200000 -> isingl_bits (ibm_word s E F) = 0.
Proof.
  intros HE HF L. rewrite isingl_bits_fields by plia. cbn zeta. replace (E * 2 ^ 24 + F <? 0x21200000) with true by lia. reflexivity.
Qed.
Lemma isingl_large s E F : 0 <= E < 128 -> 0 <= F < 2 ^ 24 -> 0x61100000 <= E * 2 ^ 24 + F ->
  is_finite 24 128 (b32_of_bits (isingl_bits (ibm_word s E F))) = false.
Proof.
  intros HE HF L. rewrite isingl_bits_fields by plia. cbn zeta. replace (E * 2 ^ 24 + F <? 0x21200000) with false by lia.
  destruct (Z.gtb_spec (E * 2 ^ 24 + F) 0x611FFFFF) as [G|G].
  - apply b32_special; destruct s; plia.
  - assert (E = 97) as -> by plia. assert (2 ^ 20 <= F < 2 ^ 21) as HF' by plia.
    replace (F <? 2 ^ 21) with true by plia. set (W := F * 2 ^ 3) in *. assert (2 ^ 23 <= W < 2 ^ 24) by (unfold W; plia).
    apply b32_special; destruct s; plia.
Qed.
(** the numbers below the smallest normal single that are not read as zero *)
Lemma isingl_small s F : 2 ^ 21 <= F < 2 ^ 22 ->
  val32 (b32_of_bits (isingl_bits (ibm_word s 33 F))) s ((if s then -1 else 1) * (4 * F - 2 ^ 23)) (-149).
Proof.
  intros HF. rewrite isingl_bits_fields by plia. cbn zeta.
  replace (F <? 2 ^ 21) with false by plia. replace (F <? 2 ^ 22) with true by plia.
  replace (33 * 2 ^ 24 + F <? 0x21200000) with false by plia.
  replace (33 * 2 ^ 24 + F >? 0x611FFFFF) with false by plia.
  replace ((4 * 33 - 131 - 2) * 2 ^ 23 + F * 2 ^ 2) with (4 * F - 2 ^ 23) by ring.
  rewrite (Z.mod_small (4 * F - 2 ^ 23)) by plia.
  set (bits := 4 * F - 2 ^ 23 + (if s then 2 ^ 31 else 0)).
  assert (Hb : 0 <= bits < 2 ^ 32) by (unfold bits; destruct s; plia).
  assert (B1 : bits / 2 ^ 31 = if s then 1 else 0) by (unfold bits; destruct s; plia).
  assert (B2 : (bits / 2 ^ 23) mod 256 = 0) by (unfold bits; destruct s; plia).
  assert (B3 : bits mod 2 ^ 23 = 4 * F - 2 ^ 23) by (unfold bits; destruct s; plia).
  destruct (b32_subnormal bits Hb B2) as (N1 & N2 & N3). rewrite B1, B3 in N2. rewrite B1 in N3.
  split; [exact N1|]. split; [rewrite N2; do 2 f_equal; destruct s; reflexivity|]. rewrite N3. destruct s; reflexivity.
Qed.
