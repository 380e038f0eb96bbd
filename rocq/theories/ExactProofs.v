(** The outcome in the cases that are excluded by C07, C08 and C31. *)
From Verif Require Import Bytes BytesProofs DlisTypes SpecTypes TypesProofs TypesProofs2 FloatProofs DlisFloatProofs IsinglProofs VaxProofs VaxProofs2.
From Coq Require Import Reals Lra.
From Flocq Require Import Core IEEE754.Binary IEEE754.Bits.
Local Open Scope Z_scope.
Ltac Zify.zify_post_hook ::= Z.div_mod_to_equations.

(** the number a word of IBM format stands for, without the sign *)
Notation ibm E F := (IZR F * bpow radix2 (-24) * bpow radix2 (4 * (E - 64)))%R.
Notation plus_minus s r := ((if s then -1 else 1) * r)%R.

Lemma pm_IZR (s : bool) z : IZR ((if s then -1 else 1) * z) = plus_minus s (IZR z).
Proof. rewrite mult_IZR. destruct s; reflexivity. Qed.
Lemma pm_inj (s : bool) a b : plus_minus s a = plus_minus s b -> a = b.
Proof. destruct s; lra. Qed.

Lemma unnormalised_read b0 b1 b2 b3 rest (s : bool) E F :
  u32be b0 b1 b2 b3 = (if s then 2 ^ 31 else 0) + E * 2 ^ 24 + F -> 0 <= E < 128 -> 0 <= F < 2 ^ 20 ->
  exists w, dlis_isingl (b0 :: b1 :: b2 :: b3 :: rest) = Some (w, rest) /\ let f := b32_of_bits w in
    (E <= 33 -> w = 0) /\
    (34 <= E <= 97 -> is_finite 24 128 f = true /\ Bsign 24 128 f = s /\ B2R 24 128 f = plus_minus s ((ibm E F + ibm E (2 ^ 20)) / 2)%R) /\
    (98 <= E -> is_finite 24 128 f = false).
Proof.
  intros Hu HE HF. rewrite isingl_read. eexists. split; [reflexivity|]. cbn zeta. rewrite Hu.
  change ((if s then 2 ^ 31 else 0) + E * 2 ^ 24 + F) with (ibm_word s E F). split; [|split].
  - intros L. apply isingl_zero; plia.
  - intros L. destruct (isingl_halfway s E F L HF) as (V1 & V2 & V3). split; [exact V1|]. split; [exact V3|].
    rewrite V2, !bpow_ibm, pm_IZR, Rmult_assoc. f_equal. rewrite plus_IZR. replace (4 * E - 280) with (1 + (4 * E - 281)) by ring.
    rewrite bpow_plus. change (bpow radix2 1) with 2%R. field.
  - intros L. apply isingl_large; plia.
Qed.

Lemma ibm_pow n E : 0 <= n -> ibm E (2 ^ n) = bpow radix2 (n + 4 * E - 280).
Proof. intros Hn. rewrite bpow_ibm. change (2 ^ n) with (radix_val radix2 ^ n). rewrite IZR_Zpower by exact Hn. rewrite <- bpow_plus. f_equal. ring. Qed.
Lemma ibm_lt E F n : F < 2 ^ n -> 0 <= n -> (ibm E F < bpow radix2 (n + 4 * E - 280))%R.
Proof. intros H Hn. rewrite <- ibm_pow by exact Hn. rewrite !bpow_ibm. apply Rmult_lt_compat_r; [apply bpow_gt_0 | apply IZR_lt, H]. Qed.
Lemma ibm_ge E F n : 2 ^ n <= F -> 0 <= n -> (bpow radix2 (n + 4 * E - 280) <= ibm E F)%R.
Proof. intros H Hn. rewrite <- ibm_pow by exact Hn. rewrite !bpow_ibm. apply Rmult_le_compat_r; [apply bpow_ge_0 | apply IZR_le, H]. Qed.

Lemma underflow_read b0 b1 b2 b3 rest (s : bool) E F :
  u32be b0 b1 b2 b3 = (if s then 2 ^ 31 else 0) + E * 2 ^ 24 + F -> 0 <= E < 128 -> 2 ^ 20 <= F < 2 ^ 24 ->
  (ibm E F < bpow radix2 (-126))%R ->
  exists w, dlis_isingl (b0 :: b1 :: b2 :: b3 :: rest) = Some (w, rest) /\ let f := b32_of_bits w in
    ((ibm E F < bpow radix2 (-127))%R -> w = 0) /\
    ((bpow radix2 (-127) <= ibm E F)%R -> is_finite 24 128 f = true /\ Bsign 24 128 f = s /\
       B2R 24 128 f = plus_minus s (2 * (ibm E F - bpow radix2 (-127)))%R).
Proof.
  intros Hu HE HF HR. rewrite isingl_read. eexists. split; [reflexivity|]. cbn zeta. rewrite Hu.
  change ((if s then 2 ^ 31 else 0) + E * 2 ^ 24 + F) with (ibm_word s E F).
  assert (HE' : E <= 33).
  { destruct (Z.le_gt_cases E 33) as [L|L]; [exact L|exfalso]. apply Rlt_not_le in HR. apply HR.
    apply Rle_trans with (bpow radix2 (20 + 4 * E - 280)); [apply bpow_le; lia | apply ibm_ge; lia]. }
  destruct (Z.lt_ge_cases (E * 2 ^ 24 + F) 0x21200000) as [L|L].
  - split; [intros _; apply isingl_zero; plia|]. intros H. exfalso. apply Rle_not_lt in H. apply H.
    destruct (Z.eq_dec E 33) as [->|N].
    + apply (ibm_lt 33 F 21); plia.
    + apply Rlt_le_trans with (bpow radix2 (24 + 4 * E - 280)); [apply ibm_lt; plia | apply bpow_le; lia].
  - assert (E = 33) as -> by plia.
    assert (HF' : 2 ^ 21 <= F < 2 ^ 22).
    { split; [plia|]. destruct (Z.lt_ge_cases F (2 ^ 22)) as [K|K]; [exact K|exfalso]. apply Rlt_not_le in HR. apply HR. apply (ibm_ge 33 F 22); [exact K | lia]. }
    split.
    + intros H. exfalso. apply Rlt_not_le in H. apply H. apply (ibm_ge 33 F 21); [lia|lia].
    + intros _. destruct (isingl_small s F HF') as (V1 & V2 & V3). split; [exact V1|]. split; [exact V3|].
      rewrite V2, pm_IZR, Rmult_assoc. f_equal. rewrite bpow_ibm, minus_IZR, mult_IZR. change (4 * 33 - 280) with (1 + -149).
      change (-127) with (22 + -149). rewrite !bpow_plus. change (IZR (2 ^ 23)) with (2 * bpow radix2 22)%R. change (bpow radix2 1) with 2%R. ring.
Qed.

(** which words are read right *)
Lemma isingl_iff b0 b1 b2 b3 rest (s : bool) E F :
  u32be b0 b1 b2 b3 = (if s then 2 ^ 31 else 0) + E * 2 ^ 24 + F -> 0 <= E < 128 -> 0 <= F < 2 ^ 24 ->
  exists w, dlis_isingl (b0 :: b1 :: b2 :: b3 :: rest) = Some (w, rest) /\ let f := b32_of_bits w in
    (is_finite 24 128 f = true /\ B2R 24 128 f = plus_minus s (ibm E F) <->
     (2 ^ 20 <= F /\ (bpow radix2 (-126) <= ibm E F < bpow radix2 128)%R) \/ (F = 0 /\ E <= 33)).
Proof.
  intros Hu HE HF. destruct (Z.lt_ge_cases F (2 ^ 20)) as [L|L].
  - destruct (unnormalised_read b0 b1 b2 b3 rest s E F Hu HE ltac:(lia)) as (w & W & A & B & C). exists w. split; [exact W|]. cbn zeta in *. split.
    + intros [H1 H2]. right. destruct (Z.le_gt_cases E 33) as [K|K].
      * split; [|exact K]. rewrite (A K) in H2. assert (X : (plus_minus s (ibm E F) = 0)%R) by (rewrite <- H2; reflexivity).
        assert (Y : (ibm E F = 0)%R) by (destruct s; lra). rewrite bpow_ibm in Y. apply Rmult_integral in Y as [Y|Y]; [apply eq_IZR, Y|].
        exfalso. pose proof (bpow_gt_0 radix2 (4 * E - 280)). lra.
      * exfalso. destruct (Z.le_gt_cases E 97) as [M|M]; [|rewrite C in H1 by lia; discriminate].
        destruct B as (_ & _ & B); [lia|]. rewrite B in H2. apply pm_inj in H2.
        assert (Q : (ibm E F < ibm E (2 ^ 20))%R) by (rewrite !bpow_ibm; apply Rmult_lt_compat_r; [apply bpow_gt_0 | apply IZR_lt; lia]). lra.
    + intros [[H _]|[-> K]]; [lia|]. rewrite (A K). split; [reflexivity|]. rewrite !Rmult_0_l, Rmult_0_r. reflexivity.
  - destruct (Rlt_le_dec (ibm E F) (bpow radix2 (-126))) as [U|U]; [|destruct (Rlt_le_dec (ibm E F) (bpow radix2 128)) as [O|O]].
    + destruct (underflow_read b0 b1 b2 b3 rest s E F Hu HE ltac:(lia) U) as (w & W & A & B). exists w. split; [exact W|]. cbn zeta in *.
      assert (P : (0 < ibm E F)%R) by (rewrite bpow_ibm; apply Rmult_lt_0_compat; [apply IZR_lt; lia | apply bpow_gt_0]).
      split; [|intros [[_ [H _]]|[H _]]; [lra | lia]]. intros [_ H2]. exfalso.
      destruct (Rlt_le_dec (ibm E F) (bpow radix2 (-127))) as [K|K].
      * rewrite (A K) in H2. assert (X : (plus_minus s (ibm E F) = 0)%R) by (rewrite <- H2; reflexivity). destruct s; lra.
      * destruct (B K) as (_ & _ & B'). rewrite B' in H2. apply pm_inj in H2.
        assert (bpow radix2 (-126) = 2 * bpow radix2 (-127))%R by (change (-126) with (1 + -127); rewrite bpow_plus; reflexivity). lra.
    + destruct (isingl_exact b0 b1 b2 b3 rest s E F Hu HE ltac:(lia) (conj U O)) as (w & W & A & B & _). exists w. split; [exact W|]. cbn zeta in *.
      split; [intros _; left; split; [lia | split; assumption] | intros _; split; [exact A | exact B]].
    + destruct (isingl_out_of_range b0 b1 b2 b3 rest s E F Hu HE ltac:(lia)) as (w & W & A & _). exists w. split; [exact W|]. cbn zeta in *.
      split; [intros [H _]; rewrite A in H by exact O; discriminate | intros [[_ [_ H]]|[H _]]; [lra | lia]].
Qed.

(** VAX floats *)
Lemma vsingl_every u rest : 0 <= u < 2 ^ 32 ->
  let e := (u / 2 ^ 23) mod 256 in
  exists w, dlis_vsingl (dlis_vsinglo u ++ rest) = Some (w, rest) /\ let x := b32_of_bits w in
    (e = 0 -> w = 0) /\ (0 < e <= 253 -> w = u) /\
    (e = 254 -> is_nan 24 128 x = true) /\
    (e = 255 -> is_finite 24 128 x = true /\ Bsign 24 128 x = true /\
       B2R 24 128 x = rnd32 (- ((/ 2 + IZR (u mod 2 ^ 23) * bpow radix2 (-24)) * bpow radix2 (-127)))).
Proof.
  intros Hu e. assert (He : 0 <= e < 256) by (unfold e; plia).
  destruct (Z.eq_dec e 0) as [E0|E0]; [|destruct (Z.le_gt_cases e 253) as [E1|E1]].
  - exists 0. unfold e in *. rewrite vsinglo_small by assumption. split; [reflexivity|]. cbn zeta. split; [reflexivity|]. split; [|split]; lia.
  - exists u. unfold e in *. split; [apply vsingl_roundtrip; lia|]. cbn zeta. split; [lia|]. split; [reflexivity|]. split; lia.
  - destruct (vsingl_large u rest Hu ltac:(unfold e in *; lia)) as (w & W & A & B). exists w. split; [exact W|]. cbn zeta. unfold e in *.
    split; [lia|]. split; [lia|]. split; [exact A | exact B].
Qed.
Lemma vsingl_iff u rest : 0 <= u < 2 ^ 32 ->
  (dlis_vsingl (dlis_vsinglo u ++ rest) = Some (u, rest) <-> 0 < (u / 2 ^ 23) mod 256 <= 253 \/ u = 0).
Proof.
  intros Hu. destruct (vsingl_every u rest Hu) as (w & W & A & B & C & D). rewrite W. set (e := (u / 2 ^ 23) mod 256) in *. assert (He : 0 <= e < 256) by (unfold e; plia).
  split.
  - intros H. injection H as ->. destruct (Z.eq_dec e 0) as [E0|E0]; [right; apply A, E0|]. left. split; [lia|].
    destruct (Z.le_gt_cases e 253) as [E1|E1]; [exact E1|exfalso].
    destruct (Z.eq_dec e 254) as [E2|E2].
    + specialize (C E2). pose proof (b32_normal u Hu) as N. cbn zeta in N. fold e in N. specialize (N ltac:(lia)). destruct N as [N _].
      cbv zeta in C. destruct (b32_of_bits u); cbn in C, N; discriminate.
    + destruct (D ltac:(lia)) as [D' _]. rewrite (b32_special u Hu) in D' by (fold e; lia). discriminate.
  - intros [H|H]; [rewrite (B H); reflexivity|]. rewrite A; [rewrite H; reflexivity|]. unfold e. rewrite H. reflexivity.
Qed.
