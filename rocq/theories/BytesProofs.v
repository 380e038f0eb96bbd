(** Lemmas about [Bytes]. *)
From Verif Require Import Bytes.
From Coq Require Import Strings.Byte.
Local Open Scope Z_scope.
Ltac Zify.zify_post_hook ::= Z.div_mod_to_equations.

Lemma b2z_range b : 0 <= b2z b < 256.
Proof. destruct b; vm_compute; split; congruence. Qed.

Lemma z2b_b2z b : z2b (b2z b) = b.
Proof. destruct b; reflexivity. Qed.

Lemma b2z_z2b z : b2z (z2b z) = z mod 256.
Proof.
  unfold b2z, z2b.
  destruct (Byte.of_N (Z.to_N (z mod 256))) eqn:E.
  - apply Byte.to_of_N in E. rewrite E. rewrite Z2N.id; lia.
  - apply Byte.of_N_None_iff in E.
    assert (0 <= z mod 256 < 256) by (apply Z.mod_pos_bound; lia). lia.
Qed.

Lemma b2z_z2b_id z : 0 <= z < 256 -> b2z (z2b z) = z.
Proof. intros; rewrite b2z_z2b; apply Z.mod_small; lia. Qed.

Lemma b2z_inj a b : b2z a = b2z b -> a = b.
Proof. intros H. rewrite <- (z2b_b2z a), <- (z2b_b2z b), H. reflexivity. Qed.

Lemma z2b_mod z : z2b (z mod 256) = z2b z.
Proof. unfold z2b. rewrite Z.mod_mod by lia. reflexivity. Qed.

Lemma z2b_eq_mod a b : a mod 256 = b mod 256 -> z2b a = z2b b.
Proof. unfold z2b. intros ->. reflexivity. Qed.

Lemma byte_case b : exists z, 0 <= z < 256 /\ b = z2b z.
Proof. exists (b2z b). split; [apply b2z_range | symmetry; apply z2b_b2z]. Qed.

Lemma beqb_eq a b : beqb a b = true <-> a = b.
Proof.
  unfold beqb. split; intros H.
  - apply Byte.byte_dec_bl; assumption.
  - apply Byte.byte_dec_lb; assumption.
Qed.

Lemma beqb_refl a : beqb a a = true.
Proof. apply beqb_eq; reflexivity. Qed.

Lemma beqb_neq a b : beqb a b = false <-> a <> b.
Proof.
  destruct (beqb a b) eqn:E; split; intros; try congruence.
  - apply beqb_eq in E. congruence.
  - intros ->. rewrite beqb_refl in E. congruence.
Qed.

Lemma bytes_eqb_eq a b : bytes_eqb a b = true <-> a = b.
Proof.
  revert b; induction a as [|x s IH]; intros [|y t]; cbn [bytes_eqb]; split; intros H; try congruence.
  - apply andb_prop in H as [H1 H2]. apply beqb_eq in H1. apply IH in H2. congruence.
  - injection H as -> ->. rewrite beqb_refl. cbn. apply IH. reflexivity.
Qed.

Lemma bytes_eqb_refl a : bytes_eqb a a = true.
Proof. apply bytes_eqb_eq; reflexivity. Qed.

Lemma bytes_eqb_neq a b : bytes_eqb a b = false <-> a <> b.
Proof.
  destruct (bytes_eqb a b) eqn:E; split; intros; try congruence.
  - apply bytes_eqb_eq in E. congruence.
  - intros ->. rewrite bytes_eqb_refl in E. congruence.
Qed.

Lemma bytes_eq_dec (a b : bytes) : {a = b} + {a <> b}.
Proof.
  destruct (bytes_eqb a b) eqn:E; [left; apply bytes_eqb_eq; auto | right; apply bytes_eqb_neq; auto].
Qed.

(** ** big endian *)

Lemma be_acc_app acc a b : be_acc acc (a ++ b) = be_acc (be_acc acc a) b.
Proof. revert acc; induction a; intros; cbn [be_acc app]; auto. Qed.

Lemma be_acc_spec acc bs : be_acc acc bs = acc * 256 ^ Z.of_nat (length bs) + be bs.
Proof.
  unfold be. revert acc; induction bs as [|b t IH]; intros acc; cbn [be_acc length].
  - cbn. lia.
  - rewrite IH, (IH (0 * 256 + b2z b)).
    rewrite Nat2Z.inj_succ, Z.pow_succ_r by lia. ring.
Qed.

Lemma be_nil : be [] = 0.
Proof. reflexivity. Qed.

Lemma be_cons b t : be (b :: t) = b2z b * 256 ^ Z.of_nat (length t) + be t.
Proof. unfold be at 1. cbn [be_acc]. rewrite be_acc_spec. ring. Qed.

Lemma be_app a b : be (a ++ b) = be a * 256 ^ Z.of_nat (length b) + be b.
Proof. unfold be at 1. rewrite be_acc_app, be_acc_spec. reflexivity. Qed.

Lemma be_range bs : 0 <= be bs < 256 ^ Z.of_nat (length bs).
Proof.
  induction bs as [|b t IH].
  - cbn. lia.
  - rewrite be_cons. cbn [length]. rewrite Nat2Z.inj_succ, Z.pow_succ_r by lia.
    pose proof (b2z_range b). nia.
Qed.

Lemma length_enc_be n z : length (enc_be n z) = n.
Proof. induction n; cbn [enc_be length]; congruence. Qed.

Lemma be_enc_be n z : be (enc_be n z) = z mod 256 ^ Z.of_nat n.
Proof.
  induction n as [|k IH].
  - cbn. rewrite Z.mod_1_r. reflexivity.
  - cbn [enc_be]. rewrite be_cons, length_enc_be, IH, b2z_z2b.
    rewrite Nat2Z.inj_succ, Z.pow_succ_r by lia.
    set (p := 256 ^ Z.of_nat k).
    assert (0 < p) by (apply Z.pow_pos_nonneg; lia).
    rewrite (Z.mul_comm 256 p), Z.rem_mul_r by lia. ring.
Qed.

Lemma be_enc_be_id n z : 0 <= z < 256 ^ Z.of_nat n -> be (enc_be n z) = z.
Proof. intros. rewrite be_enc_be. apply Z.mod_small; lia. Qed.

Lemma enc_be_be bs : enc_be (length bs) (be bs) = bs.
Proof.
  induction bs as [|b t IH]; cbn [length enc_be]; [reflexivity|].
  rewrite be_cons. pose proof (be_range t) as Ht.
  f_equal.
  - rewrite Z.div_add_l by (pose proof (Z.pow_pos_nonneg 256 (Z.of_nat (length t))); lia).
    rewrite (Z.div_small (be t)) by lia. rewrite Z.add_0_r. apply z2b_b2z.
  - transitivity (enc_be (length t) (be t)); [|exact IH].
    assert (G : forall n q r m, (n <= m)%nat ->
      enc_be n (q * 256 ^ Z.of_nat m + r) = enc_be n r).
    { clear. induction n as [|k IH]; intros q r m Hm; cbn [enc_be]; [reflexivity|].
      f_equal; [|apply IH; lia].
      apply z2b_eq_mod.
      replace (Z.of_nat m) with ((Z.of_nat m - Z.of_nat k - 1) + 1 + Z.of_nat k) by lia.
      rewrite !Z.pow_add_r by lia.
      assert (0 < 256 ^ Z.of_nat k) by (apply Z.pow_pos_nonneg; lia).
      replace (q * (256 ^ (Z.of_nat m - Z.of_nat k - 1) * 256 ^ 1 * 256 ^ Z.of_nat k) + r)
        with (r + (q * 256 ^ (Z.of_nat m - Z.of_nat k - 1) * 256) * 256 ^ Z.of_nat k) by ring.
      rewrite Z.div_add by lia.
      rewrite Z.mod_add by lia. reflexivity. }
    apply G. lia.
Qed.

Lemma enc_be_mod n z : enc_be n (z mod 256 ^ Z.of_nat n) = enc_be n z.
Proof.
  rewrite <- (be_enc_be n z). rewrite <- (length_enc_be n z) at 1. apply enc_be_be.
Qed.

Lemma enc_be_eq_mod n a b :
  a mod 256 ^ Z.of_nat n = b mod 256 ^ Z.of_nat n -> enc_be n a = enc_be n b.
Proof. intros H. rewrite <- (enc_be_mod n a), <- (enc_be_mod n b), H. reflexivity. Qed.

Lemma be_inj a b : length a = length b -> be a = be b -> a = b.
Proof. intros Hl H. rewrite <- (enc_be_be a), <- (enc_be_be b), Hl, H. reflexivity. Qed.

(** ** take *)

Lemma take_app n a r : length a = n -> take n (a ++ r) = Some (a, r).
Proof.
  revert a; induction n as [|k IH]; intros [|x a] H; cbn in H; try discriminate; cbn [take app].
  - reflexivity.
  - rewrite IH by lia. reflexivity.
Qed.

Lemma take_Some n xs a r : take n xs = Some (a, r) <-> xs = a ++ r /\ length a = n.
Proof.
  split.
  - revert xs a r; induction n as [|k IH]; intros xs a r H; cbn [take] in H.
    + injection H as <- <-. auto.
    + destruct xs as [|x t]; [discriminate|].
      destruct (take k t) as [[a' r']|] eqn:E; [|discriminate].
      injection H as <- <-. apply IH in E as [-> <-]. auto.
  - intros [-> H]. apply take_app; assumption.
Qed.

Lemma take_None n xs : take n xs = None <-> (length xs < n)%nat.
Proof.
  revert xs; induction n as [|k IH]; intros xs; cbn [take].
  - split; [discriminate | lia].
  - destruct xs as [|x t]; cbn [length].
    + split; [lia | reflexivity].
    + specialize (IH t). destruct (take k t) as [[a r]|]; split; intros H; try discriminate; try reflexivity.
      * exfalso. assert (@None (bytes*bytes) = None) by reflexivity. 
        assert (length t < k)%nat by lia. apply IH in H1. discriminate.
      * apply -> Nat.succ_lt_mono. apply IH. reflexivity.
Qed.

Lemma take_firstn n xs :
  (n <= length xs)%nat -> take n xs = Some (firstn n xs, skipn n xs).
Proof.
  intros H. apply take_Some. split.
  - symmetry. apply firstn_skipn.
  - apply firstn_length_le; assumption.
Qed.

(** ** signed *)

Lemma signed_range bits u :
  0 < bits -> 0 <= u < 2 ^ bits -> - 2 ^ (bits - 1) <= signed bits u < 2 ^ (bits - 1).
Proof.
  intros Hb Hu. unfold signed.
  assert (2 ^ bits = 2 * 2 ^ (bits - 1)) by (rewrite <- Z.pow_succ_r by lia; f_equal; lia).
  destruct (Z.ltb_spec u (2 ^ (bits - 1))); lia.
Qed.

Lemma unsigned_signed bits u : 0 < bits -> 0 <= u < 2 ^ bits -> unsigned bits (signed bits u) = u.
Proof.
  intros Hb Hu. unfold unsigned, signed.
  destruct (Z.ltb_spec u (2 ^ (bits - 1))).
  - apply Z.mod_small; lia.
  - replace (u - 2 ^ bits) with (u + (-1) * 2 ^ bits) by ring.
    rewrite Z.mod_add by lia. apply Z.mod_small; lia.
Qed.

Lemma signed_unsigned bits z :
  0 < bits -> - 2 ^ (bits - 1) <= z < 2 ^ (bits - 1) -> signed bits (unsigned bits z) = z.
Proof.
  intros Hb Hz. unfold signed, unsigned.
  assert (E : 2 ^ bits = 2 * 2 ^ (bits - 1)) by (rewrite <- Z.pow_succ_r by lia; f_equal; lia).
  assert (0 < 2 ^ (bits - 1)) by (apply Z.pow_pos_nonneg; lia).
  destruct (Z.neg_nonneg_cases z).
  - replace (z mod 2 ^ bits) with (z + 2 ^ bits).
    + destruct (Z.ltb_spec (z + 2 ^ bits) (2 ^ (bits - 1))); lia.
    + symmetry. rewrite <- (Z.mod_add z 1) by lia. rewrite Z.mul_1_l. apply Z.mod_small; lia.
  - rewrite Z.mod_small by lia.
    destruct (Z.ltb_spec z (2 ^ (bits - 1))); lia.
Qed.

(** ** bit operations as arithmetic *)

Lemma land_ones_mod a n : 0 <= n -> Z.land a (Z.ones n) = a mod 2 ^ n.
Proof. intros; apply Z.land_ones; assumption. Qed.

(** disjoint or is addition *)
Lemma lor_add_disjoint a b n :
  0 <= n -> 0 <= a < 2 ^ n -> Z.lor a (b * 2 ^ n) = a + b * 2 ^ n.
Proof.
  intros Hn Ha. rewrite Z.lor_comm, Z.add_comm.
  symmetry. rewrite Z.add_nocarry_lxor.
  - rewrite Z.lxor_lor; [reflexivity|].
    apply Z.bits_inj'. intros k Hk. rewrite Z.land_spec, Z.bits_0.
    rewrite <- Z.shiftl_mul_pow2 by lia.
    destruct (Z.ltb_spec k n).
    + rewrite Z.shiftl_spec_low by lia. reflexivity.
    + destruct (Z.eq_dec a 0) as [->|Hne]; [rewrite Z.bits_0; apply andb_false_r|].
      rewrite (Z.bits_above_log2 a) by (try lia; apply Z.lt_le_trans with n; try lia; apply Z.log2_lt_pow2; lia).
      apply andb_false_r.
  - apply Z.bits_inj'. intros k Hk. rewrite Z.land_spec, Z.bits_0.
    rewrite <- Z.shiftl_mul_pow2 by lia.
    destruct (Z.ltb_spec k n).
    + rewrite Z.shiftl_spec_low by lia. reflexivity.
    + destruct (Z.eq_dec a 0) as [->|Hne]; [rewrite Z.bits_0; apply andb_false_r|].
      rewrite (Z.bits_above_log2 a) by (try lia; apply Z.lt_le_trans with n; try lia; apply Z.log2_lt_pow2; lia).
      apply andb_false_r.
Qed.

(** masking bits [n..n+k) *)
Lemma land_field a n k :
  0 <= n -> 0 <= k -> Z.land a (Z.ones k * 2 ^ n) = ((a / 2 ^ n) mod 2 ^ k) * 2 ^ n.
Proof.
  intros Hn Hk. rewrite <- (Z.land_ones (a / 2 ^ n)) by lia.
  rewrite <- (Z.shiftr_div_pow2 a) by lia. rewrite <- !Z.shiftl_mul_pow2 by lia.
  apply Z.bits_inj'. intros i Hi.
  rewrite Z.land_spec.
  destruct (Z.ltb_spec i n).
  - rewrite !Z.shiftl_spec_low by lia. apply andb_false_r.
  - rewrite !Z.shiftl_spec by lia. rewrite Z.land_spec, Z.shiftr_spec by lia.
    replace (i - n + n) with i by lia. reflexivity.
Qed.

(** finite sweep over bytes *)
Definition all_bytes : list byte :=
  map (fun n => z2b (Z.of_nat n)) (seq 0 256).

Lemma all_bytes_complete b : In b all_bytes.
Proof.
  unfold all_bytes. apply in_map_iff. exists (Z.to_nat (b2z b)).
  pose proof (b2z_range b). rewrite Z2Nat.id by lia. split; [apply z2b_b2z|].
  apply in_seq. lia.
Qed.

Lemma byte_sweep (P : byte -> bool) : forallb P all_bytes = true -> forall b, P b = true.
Proof. intros H b. rewrite forallb_forall in H. apply H, all_bytes_complete. Qed.

(** sweep over integers [0..n) *)
Lemma z_sweep (P : Z -> bool) n :
  forallb P (map Z.of_nat (seq 0 n)) = true -> forall z, 0 <= z < Z.of_nat n -> P z = true.
Proof.
  intros H z Hz. rewrite forallb_forall in H. apply H. apply in_map_iff.
  exists (Z.to_nat z). split; [lia|]. apply in_seq. lia.
Qed.

(** replace closed powers by their value, so that [lia] sees constants *)
Ltac is_pos_cst p :=
  lazymatch p with
  | xH => idtac
  | xO ?q => is_pos_cst q
  | xI ?q => is_pos_cst q
  end.
Ltac is_Z_cst z :=
  lazymatch z with
  | Z0 => idtac
  | Zpos ?p => is_pos_cst p
  | Zneg ?p => is_pos_cst p
  end.
Ltac pows :=
  repeat match goal with
  | |- context [2 ^ ?n] => is_Z_cst n; let v := eval vm_compute in (2 ^ n) in change (2 ^ n) with v
  | H : context [2 ^ ?n] |- _ => is_Z_cst n; let v := eval vm_compute in (2 ^ n) in change (2 ^ n) with v in H
  | |- context [256 ^ ?n] => is_Z_cst n; let v := eval vm_compute in (256 ^ n) in change (256 ^ n) with v
  | H : context [256 ^ ?n] |- _ => is_Z_cst n; let v := eval vm_compute in (256 ^ n) in change (256 ^ n) with v in H
  end.
Ltac plia := pows; lia.

Lemma land_mask a mask n k :
  mask = Z.ones k * 2 ^ n -> 0 <= n -> 0 <= k ->
  Z.land a mask = ((a / 2 ^ n) mod 2 ^ k) * 2 ^ n.
Proof. intros ->. apply land_field. Qed.

Lemma land_low a mask k :
  mask = Z.ones k -> 0 <= k -> Z.land a mask = a mod 2 ^ k.
Proof. intros -> H. apply Z.land_ones; exact H. Qed.

Lemma some_pair_inj {A B} (a c : A) (b d : B) : Some (a, b) = Some (c, d) -> a = c /\ b = d.
Proof. intros H; injection H; auto. Qed.

Lemma skipn_skipn {A} (n m : nat) (l : list A) : skipn n (skipn m l) = skipn (m + n) l.
Proof.
  revert l. induction m as [|m IH]; intros l; [reflexivity|].
  destruct l as [|a l]; cbn [skipn Nat.add]; [apply skipn_nil | apply IH].
Qed.
