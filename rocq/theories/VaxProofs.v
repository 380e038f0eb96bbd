(** Write/read round trip of VAX floats. *)
From Verif Require Import Bytes BytesProofs DlisTypes SpecTypes TypesProofs FloatProofs DlisFloatProofs IsinglProofs.
From Coq Require Import Reals Lra.
From Flocq Require Import Core IEEE754.Binary IEEE754.Bits.
Local Open Scope Z_scope.
Ltac Zify.zify_post_hook ::= Z.div_mod_to_equations.

Lemma lor_shift a b n : 0 <= n -> 0 <= a < 2 ^ n -> Z.lor (b * 2 ^ n) a = b * 2 ^ n + a.
Proof. intros. rewrite Z.lor_comm, lor_add_disjoint by assumption. ring. Qed.

(** the word the writer assembles, before it reorders the bytes *)
Lemma vsinglo_word u : 0 <= u < 2 ^ 32 -> 0 < (u / 2 ^ 23) mod 256 <= 253 ->
  let v := u + 2 * 2 ^ 23 in
  dlis_vsinglo u = [z2b (v / 65536); z2b (v / 16777216); z2b v; z2b (v / 256)].
Proof.
  intros Hu He v. unfold dlis_vsinglo, vsinglo_bits.
  rewrite (land_mask u 0x7F800000 23 8 eq_refl), (land_mask u 0x80000000 31 1 eq_refl),
    (land_low u 0x7FFFFF 23 eq_refl) by lia.
  rewrite Z.shiftr_div_pow2, Z.div_mul by plia.
  change (2 ^ 8) with 256.
  set (e := (u / 2 ^ 23) mod 256) in *. set (f := u mod 2 ^ 23). set (s := (u / 2 ^ 31) mod 2 ^ 1).
  replace (e =? 0) with false by lia.
  rewrite (Z.shiftl_mul_pow2 (e + 2)) by lia. rewrite (u32_small ((e + 2) * 2 ^ 23)) by plia.
  assert (Hf : 0 <= f < 2 ^ 23) by (apply Z.mod_pos_bound; plia).
  assert (Hs : 0 <= s < 2) by (unfold s; plia).
  assert (Hv : v = s * 2 ^ 31 + (e + 2) * 2 ^ 23 + f) by (unfold v, s, e, f; plia).
  assert (EV : Z.lor (Z.lor (s * 2 ^ 31) ((e + 2) * 2 ^ 23)) f = v).
  { assert (A : Z.lor (s * 2 ^ 31) ((e + 2) * 2 ^ 23) = (s * 2 ^ 8 + (e + 2)) * 2 ^ 23).
    { rewrite lor_shift by plia. plia. }
    rewrite A, lor_shift by plia. rewrite Hv. plia. }
  rewrite EV.
  assert (Hvr : 0 <= v < 2 ^ 32) by (rewrite Hv; plia).
  rewrite (land_mask v 0xFF0000 16 8 eq_refl), (land_mask v 0xFF000000 24 8 eq_refl),
    (land_low v 0xFF 8 eq_refl), (land_mask v 0xFF00 8 8 eq_refl) by lia.
  change (2 ^ 8) with 256.
  set (b2 := (v / 2 ^ 16) mod 256). set (b3 := (v / 2 ^ 24) mod 256).
  set (b0 := v mod 256). set (b1 := (v / 256) mod 256).
  assert (R : 0 <= b2 < 256 /\ 0 <= b3 < 256 /\ 0 <= b0 < 256 /\ 0 <= b1 < 256)
    by (unfold b0, b1, b2, b3; plia).
  rewrite !Z.shiftl_mul_pow2, !Z.shiftr_div_pow2 by lia.
  rewrite (u32_small (b2 * 2 ^ 16 * 2 ^ 8)) by plia.
  replace (b3 * 2 ^ 24 / 2 ^ 8) with (b3 * 2 ^ 16) by plia.
  replace (b1 * 256 / 2 ^ 8) with b1 by plia.
  replace (b2 * 2 ^ 16 * 2 ^ 8) with (b2 * 2 ^ 24) by plia.
  assert (Z1 : Z.lor (Z.lor (Z.lor (b2 * 2 ^ 24) (b3 * 2 ^ 16)) (b0 * 2 ^ 8)) b1 =
               b2 * 2 ^ 24 + b3 * 2 ^ 16 + b0 * 2 ^ 8 + b1).
  { rewrite (lor_shift (b3 * 2 ^ 16) b2 24) by plia.
    replace (b2 * 2 ^ 24 + b3 * 2 ^ 16) with ((b2 * 2 ^ 8 + b3) * 2 ^ 16) by plia.
    rewrite (lor_shift (b0 * 2 ^ 8)) by plia.
    replace ((b2 * 2 ^ 8 + b3) * 2 ^ 16 + b0 * 2 ^ 8) with (((b2 * 2 ^ 8 + b3) * 2 ^ 8 + b0) * 2 ^ 8) by plia.
    rewrite lor_shift by plia. plia. }
  rewrite Z1, enc_be_4.
  f_equal; [|f_equal; [|f_equal; [|apply (f_equal (fun b => [b]))]]]; apply z2b_eq_mod;
    unfold b0, b1, b2, b3 in *; plia.
Qed.

Lemma val32_eq x y s m e : val32 x s m e -> val32 y s m e -> m <> 0 -> x = y.
Proof.
  intros (X1 & X2 & X3) (Y1 & Y2 & Y3) Hm.
  apply B2R_Bsign_inj; [exact X1 | exact Y1 | congruence | congruence].
Qed.

Lemma vsingl_roundtrip u rest : 0 <= u < 2 ^ 32 -> 0 < (u / 2 ^ 23) mod 256 <= 253 ->
  dlis_vsingl (dlis_vsinglo u ++ rest) = Some (u, rest).
Proof.
  intros Hu He. rewrite vsinglo_word by assumption. set (v := u + 2 * 2 ^ 23).
  cbn [app]. rewrite vsingl_read.
  assert (Hv : 0 <= v < 2 ^ 32).
  { unfold v. plia. }
  assert (EW : u32be (z2b (v / 16777216)) (z2b (v / 65536)) (z2b (v / 256)) (z2b v) = v).
  { unfold u32be. rewrite !b2z_z2b. plia. }
  rewrite EW.
  assert (K : vsingl_word v = b32_of_bits u).
  { pose proof (vsingl_value v Hv) as V. cbn zeta in V.
    assert (Ee : (v / 2 ^ 23) mod 256 = (u / 2 ^ 23) mod 256 + 2) by (unfold v; plia).
    assert (Ef : v mod 2 ^ 23 = u mod 2 ^ 23) by (unfold v; plia).
    assert (Es : v / 2 ^ 31 = u / 2 ^ 31) by (unfold v; plia).
    rewrite Ee, Ef, Es in V. assert (NZ : (u / 2 ^ 23) mod 256 + 2 <> 0) by lia.
    destruct (V NZ) as (V1 & V2 & V3 & V4). rewrite V4 in V2 by lia.
    pose proof (b32_normal u Hu) as N. cbn zeta in N.
    assert (HN : 0 < (u / 2 ^ 23) mod 256 < 255) by lia. specialize (N HN).
    assert (Hf : 0 <= u mod 2 ^ 23) by (apply Z.mod_pos_bound; plia).
    eapply val32_eq; [| exact N |].
    - split; [exact V1|]. split; [|exact V3]. rewrite V2. rewrite mult_IZR.
      f_equal; [f_equal; destruct (u / 2 ^ 31 =? 0); reflexivity | f_equal; ring].
    - destruct (u / 2 ^ 31 =? 0); cbn [negb]; plia. }
  rewrite K. do 2 f_equal. exact (bits_of_binary_float_of_bits 23 8 eq_refl eq_refl eq_refl u Hu).
Qed.
