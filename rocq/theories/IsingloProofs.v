(** Proofs for C81: the IBM float writer. *)
From Verif Require Import Bytes BytesProofs DlisTypes SpecTypes TypesProofs FloatProofs IsinglProofs SpecIsinglo.
From Coq Require Import Reals Lra.
From Flocq Require Import Core IEEE754.Binary IEEE754.Bits.
Local Open Scope Z_scope.
Ltac Zify.zify_post_hook ::= Z.div_mod_to_equations.

Lemma lost_cases e : exists q, (e = 4 * q /\ lost_bits e = 2) \/ (e = 4 * q + 1 /\ lost_bits e = 1) \/
  (e = 4 * q + 2 /\ lost_bits e = 0) \/ (e = 4 * q + 3 /\ lost_bits e = 3).
Proof.
  exists (e / 4). unfold lost_bits. assert (H : 0 <= e mod 4 < 4) by (apply Z.mod_pos_bound; lia).
  lia.
Qed.

Lemma isinglo_fields s e f : ieee_fields e f -> e * 2 ^ 23 + f <> 0 ->
  isinglo_bits (ieee_word s e f) = ibm_parts s ((e + lost_bits e + 130) / 4) ((2 ^ 23 + f) / 2 ^ lost_bits e).
Proof.
  intros [He Hf] NZ. set (u := ieee_word s e f).
  assert (Hu : u = (if s then 1 else 0) * 2 ^ 31 + e * 2 ^ 23 + f) by (unfold u, ieee_word; destruct s; ring).
  unfold isinglo_bits.
  assert (E1 : Z.land u 0x007fffff = f).
  { rewrite (land_low u 0x7fffff 23 eq_refl) by lia. rewrite Hu. destruct s; plia. }
  assert (E2 : Z.land u 0x01800000 = (e mod 4) * 2 ^ 23).
  { rewrite (land_mask u 0x01800000 23 2 eq_refl) by lia. rewrite Hu. f_equal. destruct s; plia. }
  assert (E3 : Z.land u 0x7e000000 = (e / 4) * 2 ^ 25).
  { rewrite (land_mask u 0x7e000000 25 6 eq_refl) by lia. rewrite Hu. f_equal. destruct s; plia. }
  assert (E4 : Z.land u 0x80000000 = (if s then 1 else 0) * 2 ^ 31).
  { rewrite (land_mask u 0x80000000 31 1 eq_refl) by lia. rewrite Hu. f_equal. destruct s; plia. }
  assert (E5 : Z.land u 0x7FFFFFFF = e * 2 ^ 23 + f).
  { rewrite (land_low u 0x7FFFFFFF 31 eq_refl) by lia. rewrite Hu. destruct s; plia. }
  rewrite E1, E2, E3, E4, E5. clear E1 E2 E3 E4 E5. replace (_ =? 0) with false by lia.
  rewrite !Z.shiftr_div_pow2 by lia. rewrite Z.div_mul by lia.
  destruct (lost_cases e) as (q & C).
  assert (Q : e / 4 = q) by lia. rewrite Q.
  unfold ibm_parts.
  destruct C as [[-> K]|[[-> K]|[[-> K]|[-> K]]]]; rewrite K;
  [replace (4 * q mod 4) with 0 by lia|replace ((4 * q + 1) mod 4) with 1 by lia|replace ((4 * q + 2) mod 4) with 2 by lia|replace ((4 * q + 3) mod 4) with 3 by lia];
  unfold isinglo_it, isinglo_mt;
  [change (Z.to_nat 0) with 0%nat|change (Z.to_nat 1) with 1%nat|change (Z.to_nat 2) with 2%nat|change (Z.to_nat 3) with 3%nat]; cbn [nth]; unfold u32.
  - rewrite (Z.mod_small (2 * f)) by plia. rewrite (Z.mod_small (q * 2 ^ 25 / 2 ^ 1 + _)) by plia. rewrite Z.mod_small by plia.
    rewrite lor_add_disjoint by plia. destruct s; plia.
  - rewrite (Z.mod_small (4 * f)) by plia. rewrite (Z.mod_small (q * 2 ^ 25 / 2 ^ 1 + _)) by plia. rewrite Z.mod_small by plia.
    rewrite lor_add_disjoint by plia. destruct s; plia.
  - rewrite (Z.mod_small (8 * f)) by plia. rewrite (Z.mod_small (q * 2 ^ 25 / 2 ^ 1 + _)) by plia. rewrite Z.mod_small by plia.
    rewrite lor_add_disjoint by plia. destruct s; plia.
  - rewrite (Z.mod_small (1 * f)) by plia. rewrite (Z.mod_small (q * 2 ^ 25 / 2 ^ 1 + _)) by plia. rewrite Z.mod_small by plia.
    rewrite lor_add_disjoint by plia. destruct s; plia.
Qed.

Lemma isinglo_zero s : isinglo_bits (ieee_word s 0 0) = 0.
Proof. destruct s; reflexivity. Qed.

(** reading back clears the bits that were lost *)
Lemma isinglo_reread s e f : ieee_fields e f -> e * 2 ^ 23 + f <> 0 ->
  isingl_bits (isinglo_bits (ieee_word s e f)) = ieee_word s e (f - f mod 2 ^ lost_bits e).
Proof.
  intros [He Hf] NZ. rewrite isinglo_fields by (assumption || split; assumption).
  change (ibm_parts s) with (ibm_word s). unfold ieee_word.
  destruct (lost_cases e) as (q & C).
  destruct C as [[-> K]|[[-> K]|[[-> K]|[-> K]]]]; rewrite K.
  - rewrite isingl_bits_fields by plia. cbn zeta. set (F := (2 ^ 23 + f) / 2 ^ 2).
    replace ((4 * q + 2 + 130) / 4) with (q + 33) by lia. assert (2 ^ 21 <= F < 2 ^ 22) by (unfold F; plia).
    replace (F <? 2 ^ 21) with false by lia. replace (F <? 2 ^ 22) with true by lia.
    replace (_ <? 0x21200000) with false by plia. replace (_ >? 0x611FFFFF) with false by plia.
    rewrite Z.mod_small by plia. unfold F. destruct s; plia.
  - rewrite isingl_bits_fields by plia. cbn zeta. set (F := (2 ^ 23 + f) / 2 ^ 1).
    replace ((4 * q + 1 + 1 + 130) / 4) with (q + 33) by lia. assert (2 ^ 22 <= F < 2 ^ 23) by (unfold F; plia).
    replace (F <? 2 ^ 21) with false by plia. replace (F <? 2 ^ 22) with false by lia. replace (F <? 2 ^ 23) with true by lia.
    replace (_ <? 0x21200000) with false by plia. replace (_ >? 0x611FFFFF) with false by plia.
    rewrite Z.mod_small by plia. unfold F. destruct s; plia.
  - rewrite isingl_bits_fields by plia. cbn zeta. set (F := (2 ^ 23 + f) / 2 ^ 0).
    replace ((4 * q + 2 + 0 + 130) / 4) with (q + 33) by lia. assert (2 ^ 23 <= F < 2 ^ 24) by (unfold F; plia).
    replace (F <? 2 ^ 21) with false by plia. replace (F <? 2 ^ 22) with false by plia. replace (F <? 2 ^ 23) with false by plia.
    replace (_ <? 0x21200000) with false by plia. replace (_ >? 0x611FFFFF) with false by plia.
    rewrite Z.mod_small by plia. unfold F. destruct s; plia.
  - rewrite isingl_bits_fields by plia. cbn zeta. set (F := (2 ^ 23 + f) / 2 ^ 3).
    replace ((4 * q + 3 + 3 + 130) / 4) with (q + 34) by lia. assert (2 ^ 20 <= F < 2 ^ 21) by (unfold F; plia).
    replace (F <? 2 ^ 21) with true by plia.
    replace (_ <? 0x21200000) with false by plia. replace (_ >? 0x611FFFFF) with false by plia.
    rewrite Z.mod_small by plia. unfold F. destruct s; plia.
Qed.

Lemma ieee_split u : 0 <= u < 2 ^ 32 -> exists s e f, ieee_fields e f /\ u = ieee_word s e f.
Proof.
  intros H. exists (negb (u / 2 ^ 31 =? 0)), ((u / 2 ^ 23) mod 256), (u mod 2 ^ 23). split; [split; plia|].
  unfold ieee_word. destruct (u / 2 ^ 31 =? 0) eqn:E; cbn [negb]; plia.
Qed.
Lemma ieee_word_range s e f : ieee_fields e f -> 0 <= ieee_word s e f < 2 ^ 32.
Proof. intros [He Hf]. unfold ieee_word. destruct s; plia. Qed.
Lemma lost_range e : 0 <= lost_bits e <= 3.
Proof. unfold lost_bits. lia. Qed.

Lemma ieee_value s e f : ieee_fields e f -> 0 < e < 255 ->
  val32 (b32_of_bits (ieee_word s e f)) s ((if s then -1 else 1) * (2 ^ 23 + f)) (e - 150).
Proof.
  intros H He. pose proof (b32_normal _ (ieee_word_range s e f H)) as N. cbv zeta in N. destruct H as [H1 H2].
  assert (A1 : ieee_word s e f / 2 ^ 31 = if s then 1 else 0) by (unfold ieee_word; destruct s; plia).
  assert (A2 : (ieee_word s e f / 2 ^ 23) mod 256 = e) by (unfold ieee_word; destruct s; plia).
  assert (A3 : ieee_word s e f mod 2 ^ 23 = f) by (unfold ieee_word; destruct s; plia).
  rewrite A1, A2, A3 in N. destruct s; exact (N He).
Qed.

Lemma write_read4 w : 0 <= w < 2 ^ 32 -> exists b0 b1 b2 b3, enc_be 4 w = [b0; b1; b2; b3] /\ u32be b0 b1 b2 b3 = w.
Proof.
  intros H. rewrite enc_be_4. do 4 eexists. split; [reflexivity|]. unfold u32be. rewrite !b2z_z2b. plia.
Qed.

Lemma ibm_parts_range s E F : 0 <= E < 128 -> 0 <= F < 2 ^ 24 -> 0 <= ibm_parts s E F < 2 ^ 32.
Proof. intros. unfold ibm_parts. destruct s; plia. Qed.
Lemma written_fields e f : ieee_fields e f ->
  let E := (e + lost_bits e + 130) / 4 in let F := (2 ^ 23 + f) / 2 ^ lost_bits e in
  0 <= E < 128 /\ 2 ^ 20 <= F < 2 ^ 24 /\ 4 * E = e + lost_bits e + 130 /\
  F * 2 ^ lost_bits e <= 2 ^ 23 + f < (F + 1) * 2 ^ lost_bits e.
Proof.
  intros [He Hf]. cbv zeta. destruct (lost_cases e) as (q & C).
  destruct C as [[-> K]|[[-> K]|[[-> K]|[-> K]]]]; rewrite K; repeat split; plia.
Qed.
Lemma isinglo_range s e f : ieee_fields e f -> 0 <= isinglo_bits (ieee_word s e f) < 2 ^ 32.
Proof.
  intros H. destruct (Z.eq_dec (e * 2 ^ 23 + f) 0) as [Z0|NZ].
  - destruct H as [He Hf]. assert (e = 0) by plia. assert (f = 0) by plia. subst. rewrite isinglo_zero. plia.
  - rewrite isinglo_fields by assumption. destruct (written_fields e f H) as (A & B & _). apply ibm_parts_range; plia.
Qed.
