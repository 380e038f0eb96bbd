(** Remaining lemmas for C03-C10, in the form the property files use. *)
From Verif Require Import Bytes BytesProofs DlisTypes SpecTypes TypesProofs FloatProofs
  DlisFloatProofs IsinglProofs VaxProofs.
From Coq Require Import Reals Lra.
From Flocq Require Import Core IEEE754.Binary IEEE754.Bits.
Local Open Scope Z_scope.
Ltac Zify.zify_post_hook ::= Z.div_mod_to_equations.

Ltac brange :=
  repeat match goal with |- context [b2z ?b] => lazymatch goal with
    | _ : 0 <= b2z b < 256 |- _ => fail | _ => pose proof (b2z_range b) end end.

Lemma fixed_ints_decode :
  forall b0 b1 b2 b3 rest,
  dlis_ushort (b0 :: rest) = Some (b2z b0, rest) /\
  dlis_unorm (b0 :: b1 :: rest) = Some (u16 b0 b1, rest) /\
  dlis_ulong (b0 :: b1 :: b2 :: b3 :: rest) = Some (u32be b0 b1 b2 b3, rest) /\
  (exists v, dlis_sshort (b0 :: rest) = Some (v, rest) /\ twos_complement 8 (b2z b0) v) /\
  (exists v, dlis_snorm (b0 :: b1 :: rest) = Some (v, rest) /\ twos_complement 16 (u16 b0 b1) v) /\
  (exists v, dlis_slong (b0 :: b1 :: b2 :: b3 :: rest) = Some (v, rest) /\
             twos_complement 32 (u32be b0 b1 b2 b3) v).
Proof.
  intros. unfold dlis_ushort, dlis_unorm, dlis_ulong, dlis_sshort, dlis_snorm, dlis_slong.
  change (b0 :: b1 :: b2 :: b3 :: rest) with ([b0; b1; b2; b3] ++ rest).
  change (b0 :: b1 :: rest) with ([b0; b1] ++ rest). change (b0 :: rest) with ([b0] ++ rest).
  rewrite !read_be_app by reflexivity. cbn [obind]. rewrite be1, be2, be4.
  split; [reflexivity|]. split; [reflexivity|]. split; [reflexivity|].
  unfold u16, u32be.
  split; [|split]; eexists; (split; [reflexivity|]); apply signed_twos; brange; plia.
Qed.

Lemma read_be_enc n x rest : 0 <= x < 256 ^ Z.of_nat n -> read_be n (enc_be n x ++ rest) = Some (x, rest).
Proof. intros H. rewrite read_be_app by apply length_enc_be. rewrite be_enc_be_id by exact H. reflexivity. Qed.

Lemma read_be_signed n bits x rest :
  256 ^ Z.of_nat n = 2 ^ bits -> 0 < bits -> - 2 ^ (bits - 1) <= x < 2 ^ (bits - 1) ->
  (do (u, r) <- read_be n (enc_be n (unsigned bits x) ++ rest); Some (signed bits u, r)) = Some (x, rest).
Proof.
  intros E Hb Hx. rewrite read_be_enc.
  - cbn [obind]. rewrite signed_unsigned by assumption. reflexivity.
  - rewrite E. unfold unsigned. apply Z.mod_pos_bound. apply Z.pow_pos_nonneg; lia.
Qed.

Lemma fixed_ints_roundtrip :
  forall x rest,
  (0 <= x < 2 ^ 8 -> dlis_ushort (dlis_ushorto x ++ rest) = Some (x, rest)) /\
  (0 <= x < 2 ^ 16 -> dlis_unorm (dlis_unormo x ++ rest) = Some (x, rest)) /\
  (0 <= x < 2 ^ 32 -> dlis_ulong (dlis_ulongo x ++ rest) = Some (x, rest)) /\
  (- 2 ^ 7 <= x < 2 ^ 7 -> dlis_sshort (dlis_sshorto x ++ rest) = Some (x, rest)) /\
  (- 2 ^ 15 <= x < 2 ^ 15 -> dlis_snorm (dlis_snormo x ++ rest) = Some (x, rest)) /\
  (- 2 ^ 31 <= x < 2 ^ 31 -> dlis_slong (dlis_slongo x ++ rest) = Some (x, rest)).
Proof.
  intros x rest. repeat split; intros H.
  - apply read_be_enc; exact H.
  - apply read_be_enc; exact H.
  - apply read_be_enc; exact H.
  - apply read_be_signed; [reflexivity | lia | exact H].
  - apply read_be_signed; [reflexivity | lia | exact H].
  - apply read_be_signed; [reflexivity | lia | exact H].
Qed.

Lemma enc_read_be n xs v rest : read_be n xs = Some (v, rest) -> enc_be n v ++ rest = xs.
Proof. intros H. apply read_be_Some in H as (a & -> & <- & ->). rewrite enc_be_be. reflexivity. Qed.

Lemma enc_read_signed n bits xs v rest :
  256 ^ Z.of_nat n = 2 ^ bits -> 0 < bits ->
  (do (u, r) <- read_be n xs; Some (signed bits u, r)) = Some (v, rest) ->
  enc_be n (unsigned bits v) ++ rest = xs.
Proof.
  intros E Hb H. destruct (read_be n xs) as [[u r]|] eqn:R; cbn [obind] in H; [|discriminate].
  injection H as <- <-.
  rewrite unsigned_signed; [apply enc_read_be; exact R | exact Hb |].
  apply read_be_Some in R as (a & _ & <- & ->). rewrite <- E. apply be_range.
Qed.

Lemma fixed_ints_write_read :
  forall xs v rest,
  (dlis_ushort xs = Some (v, rest) -> dlis_ushorto v ++ rest = xs) /\
  (dlis_unorm xs = Some (v, rest) -> dlis_unormo v ++ rest = xs) /\
  (dlis_ulong xs = Some (v, rest) -> dlis_ulongo v ++ rest = xs) /\
  (dlis_sshort xs = Some (v, rest) -> dlis_sshorto v ++ rest = xs) /\
  (dlis_snorm xs = Some (v, rest) -> dlis_snormo v ++ rest = xs) /\
  (dlis_slong xs = Some (v, rest) -> dlis_slongo v ++ rest = xs).
Proof.
  intros xs v rest. repeat split.
  - apply enc_read_be.
  - apply enc_read_be.
  - apply enc_read_be.
  - apply (enc_read_signed 1 8); [reflexivity | lia].
  - apply (enc_read_signed 2 16); [reflexivity | lia].
  - apply (enc_read_signed 4 32); [reflexivity | lia].
Qed.

Lemma composites_roundtrip :
  forall t o c id l rest,
  0 <= o < 2 ^ 30 -> 0 <= c < 256 ->
  (length t <= 255)%nat -> (length id <= 255)%nat -> (length l <= 255)%nat ->
  let lt := Z.of_nat (length t) in
  let li := Z.of_nat (length id) in
  let ll := Z.of_nat (length l) in
  (exists w, dlis_idento li id = Some w /\ dlis_ident (w ++ rest) = Some (id, rest)) /\
  (exists w, dlis_unitso li id = Some w /\ dlis_units (w ++ rest) = Some (id, rest)) /\
  (exists w, dlis_obnameo o c li id = Some w /\
             dlis_obname (w ++ rest) = Some (mk_obname o c id, rest)) /\
  (exists w, dlis_objrefo lt t o c li id = Some w /\
             dlis_objref (w ++ rest) = Some (mk_objref t (mk_obname o c id), rest)) /\
  (exists w, dlis_attrefo lt t o c li id ll l = Some w /\
             dlis_attref (w ++ rest) = Some (mk_attref t (mk_obname o c id) l, rest)).
Proof.
  intros t o c id l rest Ho Hc Ht Hi Hl lt li ll.
  destruct (idento_ok id Hi) as [I1 I2].
  assert (I3 : dlis_ident ((z2b (Z.of_nat (length id)) :: id) ++ rest) = Some (id, rest))
    by (apply ident_read_spec; eauto).
  split; [eauto|]. split; [eauto|].
  split.
  { destruct (obnameo_ok o c id Ho Hc Hi) as (w & W1 & W2). exists w. split; [exact W1|].
    apply obname_read_spec. exists w. auto. }
  split.
  { destruct (objrefo_ok t o c id Ho Hc Ht Hi) as (w & W1 & W2). exists w. split; [exact W1|].
    apply objref_read_spec. exists w. auto. }
  { destruct (attrefo_ok t o c id l Ho Hc Ht Hi Hl) as (w & W1 & W2). exists w. split; [exact W1|].
    apply attref_read_spec. exists w. auto. }
Qed.

Lemma ascii_roundtrip :
  forall s width rest, Z.of_nat (length s) < 2 ^ 30 ->
  ~ (0x4000 <= Z.of_nat (length s) <= 0xBFFF /\ width <= 2) ->
  exists w, dlis_asciio (Z.of_nat (length s)) s width = Some w /\
            dlis_ascii (w ++ rest) = Some (s, rest).
Proof.
  intros s width rest H Hn. destruct (asciio_ok s width H Hn) as (w & W1 & W2).
  exists w. split; [exact W1|]. apply ascii_read_spec. eauto.
Qed.

Lemma year_roundtrip :
  forall y, 1900 <= y <= 2155 -> 0 <= dlis_yearo y <= 255 /\ dlis_year (dlis_yearo y) = y.
Proof. intros y H. unfold dlis_yearo, dlis_year, DLIS_YEAR_ZERO. lia. Qed.

Lemma fshort_exact :
  forall b0 b1 rest M,
  twos_complement 12 (u16 b0 b1 / 16) M ->
  let E := u16 b0 b1 mod 16 in
  exists w, dlis_fshort (b0 :: b1 :: rest) = Some (w, rest) /\
    let f := b32_of_bits w in
    is_finite 24 128 f = true /\
    B2R 24 128 f = (IZR M * bpow radix2 (E - 11))%R /\
    Bsign 24 128 f = (M <? 0).
Proof.
  intros b0 b1 rest M HM E. destruct (fshort_read b0 b1 rest) as (f & Hf & V).
  exists (bits_of_b32 f). split; [exact Hf|]. cbn zeta. rewrite b32_bits_id.
  assert (EM : M = signed 12 (u16 b0 b1 / 16)).
  { apply (twos_unique 12 (u16 b0 b1 / 16)); [lia | exact HM |]. apply signed_twos; [lia|].
    unfold u16. brange. plia. }
  rewrite EM. exact V.
Qed.

Lemma bpow_ibm F E :
  (IZR F * bpow radix2 (-24) * bpow radix2 (4 * (E - 64)) = IZR F * bpow radix2 (4 * E - 280))%R.
Proof. rewrite Rmult_assoc, <- bpow_plus. do 2 f_equal. ring. Qed.

Lemma isingl_exact :
  forall b0 b1 b2 b3 rest (s : bool) E F,
  u32be b0 b1 b2 b3 = (if s then 2 ^ 31 else 0) + E * 2 ^ 24 + F ->
  0 <= E < 128 -> 2 ^ 20 <= F < 2 ^ 24 ->
  (bpow radix2 (-126) <= IZR F * bpow radix2 (-24) * bpow radix2 (4 * (E - 64)) < bpow radix2 128)%R ->
  exists w, dlis_isingl (b0 :: b1 :: b2 :: b3 :: rest) = Some (w, rest) /\
    let f := b32_of_bits w in
    is_finite 24 128 f = true /\
    B2R 24 128 f =
      ((if s then -1 else 1) * (IZR F * bpow radix2 (-24) * bpow radix2 (4 * (E - 64))))%R /\
    Bsign 24 128 f = s.
Proof.
  intros b0 b1 b2 b3 rest s E F Hu HE HF HR. rewrite bpow_ibm in HR.
  rewrite isingl_read. eexists. split; [reflexivity|]. cbn zeta. rewrite Hu.
  change ((if s then 2 ^ 31 else 0) + E * 2 ^ 24 + F) with (ibm_word s E F).
  destruct (isingl_normal s E F HE HF HR) as (V1 & V2 & V3).
  split; [exact V1|]. split; [|exact V3]. rewrite V2, bpow_ibm, mult_IZR, Rmult_assoc.
  f_equal. destruct s; reflexivity.
Qed.

Lemma isingl_out_of_range :
  forall b0 b1 b2 b3 rest (s : bool) E F,
  u32be b0 b1 b2 b3 = (if s then 2 ^ 31 else 0) + E * 2 ^ 24 + F ->
  0 <= E < 128 -> 2 ^ 20 <= F < 2 ^ 24 ->
  let r := (IZR F * bpow radix2 (-24) * bpow radix2 (4 * (E - 64)))%R in
  exists w, dlis_isingl (b0 :: b1 :: b2 :: b3 :: rest) = Some (w, rest) /\
    ((bpow radix2 128 <= r)%R -> is_finite 24 128 (b32_of_bits w) = false) /\
    ((r < bpow radix2 (-126))%R ->
       is_finite 24 128 (b32_of_bits w) = true /\
       (Rabs (B2R 24 128 (b32_of_bits w)) < bpow radix2 (-126))%R).
Proof.
  intros b0 b1 b2 b3 rest s E F Hu HE HF r. unfold r. rewrite bpow_ibm.
  rewrite isingl_read. eexists. split; [reflexivity|]. rewrite Hu.
  change ((if s then 2 ^ 31 else 0) + E * 2 ^ 24 + F) with (ibm_word s E F).
  split.
  - intros HR. apply isingl_overflow; assumption.
  - intros HR. apply isingl_underflow; assumption.
Qed.

Lemma isingl_unnormalised :
  exists b0 b1 b2 b3 E F,
  u32be b0 b1 b2 b3 = E * 2 ^ 24 + F /\ 0 <= E < 128 /\ 0 <= F < 2 ^ 24 /\
  (IZR F * bpow radix2 (-24) * bpow radix2 (4 * (E - 64)) = 1)%R /\
  exists w, dlis_isingl [b0; b1; b2; b3] = Some (w, []) /\
    B2R 24 128 (b32_of_bits w) = (17 / 2)%R.
Proof.
  exists (z2b 0x42), (z2b 1), x00, x00, 0x42, 0x10000.
  split; [reflexivity|]. split; [lia|]. split; [plia|]. split.
  - rewrite bpow_ibm. change (IZR 0x10000) with (IZR (2 ^ 16)).
    change 2 with (radix_val radix2) at 1. rewrite IZR_Zpower by lia. rewrite <- bpow_plus. reflexivity.
  - exists 0x41080000. split; [reflexivity|].
    destruct (b32_normal 0x41080000) as (_ & B & _); [plia | vm_compute; split; reflexivity |].
    rewrite B.
    replace ((if negb (0x41080000 / 2 ^ 31 =? 0) then -1 else 1) * (2 ^ 23 + 0x41080000 mod 2 ^ 23))
      with 8912896 by reflexivity.
    replace ((0x41080000 / 2 ^ 23) mod 256 - 150) with (-20) by reflexivity.
    change (bpow radix2 (-20)) with (/ IZR 1048576)%R. lra.
Qed.

Lemma isingl_zero_fraction :
  exists b0, exists w, dlis_isingl [b0; x00; x00; x00] = Some (w, []) /\
    B2R 24 128 (b32_of_bits w) <> 0%R.
Proof.
  exists (z2b 0x40), 0x3D000000. split; [reflexivity|].
  destruct (b32_normal 0x3D000000) as (_ & B & _); [plia | vm_compute; split; reflexivity |].
  rewrite B. apply Rmult_integral_contrapositive. split.
  - intros K. apply eq_IZR in K. vm_compute in K. discriminate.
  - apply Rgt_not_eq, bpow_gt_0.
Qed.

Lemma isingl_example :
  u32be (z2b 0xC2) (z2b 0x76) (z2b 0xA0) (z2b 0) = 2 ^ 31 + 0x42 * 2 ^ 24 + 0x76A000 /\
  2 ^ 20 <= 0x76A000 < 2 ^ 24 /\
  (bpow radix2 (-126) <= IZR 0x76A000 * bpow radix2 (-24) * bpow radix2 (4 * (0x42 - 64)) < bpow radix2 128)%R /\
  dlis_isingl [z2b 0xC2; z2b 0x76; z2b 0xA0; z2b 0] = Some (0xC2ED4000, []).
Proof.
  split; [reflexivity|]. split; [plia|]. split; [|reflexivity].
  rewrite bpow_ibm. change (4 * 0x42 - 280) with (-16).
  change (bpow radix2 (-16)) with (/ 65536)%R. split.
  - apply Rle_trans with (bpow radix2 0); [apply bpow_le; lia|]. change (bpow radix2 0) with 1%R. lra.
  - apply Rlt_le_trans with (bpow radix2 7); [|apply bpow_le; lia]. change (bpow radix2 7) with 128%R. lra.
Qed.

Lemma vsingl_decode :
  forall x0 x1 x2 x3 rest,
  let v := u32be x1 x0 x3 x2 in
  let s := v / 2 ^ 31 in let e := (v / 2 ^ 23) mod 256 in let f := v mod 2 ^ 23 in
  exists w, dlis_vsingl (x0 :: x1 :: x2 :: x3 :: rest) = Some (w, rest) /\
    let r := ((if (s =? 0)%Z then 1 else -1) * (/ 2 + IZR f * bpow radix2 (-24)) * bpow radix2 (e - 128))%R in
    (e <> 0 -> is_finite 24 128 (b32_of_bits w) = true /\
               Bsign 24 128 (b32_of_bits w) = negb (s =? 0) /\
               B2R 24 128 (b32_of_bits w) = rnd32 r) /\
    (3 <= e -> B2R 24 128 (b32_of_bits w) = r) /\
    (e = 0 -> s = 0 -> b32_of_bits w = B754_zero 24 128 false) /\
    (e = 0 -> s <> 0 -> is_nan 24 128 (b32_of_bits w) = true).
Proof.
  intros x0 x1 x2 x3 rest v s e f. exists (bits_of_b32 (vsingl_word v)).
  split; [apply vsingl_read|]. intros r. rewrite b32_bits_id.
  assert (Hv : 0 <= v < 2 ^ 32) by (unfold v, u32be; brange; plia).
  pose proof (vsingl_value v Hv) as V. cbn zeta in V. fold s e f in V.
  assert (Er : r = ((if (s =? 0)%Z then 1 else -1) * IZR (2 ^ 23 + f) * bpow radix2 (e - 152))%R).
  { unfold r. replace (e - 152) with (-24 + (e - 128)) by ring. rewrite bpow_plus, plus_IZR.
    assert (Eh : (/ 2 = IZR (2 ^ 23) * bpow radix2 (-24))%R).
    { change (IZR (2 ^ 23)) with (IZR (radix_val radix2 ^ 23)). rewrite IZR_Zpower by lia.
      rewrite <- bpow_plus. reflexivity. }
    rewrite Eh at 1. ring. }
  rewrite <- Er in V.
  split; [|split; [|split]].
  - intros He. destruct (V He) as (V1 & V2 & V3 & _). auto.
  - intros He. assert (NZ : e <> 0) by lia. destruct (V NZ) as (_ & V2 & _ & V4).
    rewrite V2. apply V4. exact He.
  - intros He Hs. rewrite vsingl_zero by assumption. fold s. rewrite Hs. reflexivity.
  - intros He Hs. rewrite vsingl_zero by assumption. fold s.
    replace (s =? 0) with false by lia. reflexivity.
Qed.

Lemma vsingl_roundtrip_fails :
  exists u, 0 <= u < 2 ^ 32 /\ 0 < (u / 2 ^ 23) mod 256 < 255 /\
    dlis_vsingl (dlis_vsinglo u) <> Some (u, []).
Proof.
  exists 0x7F000000. split; [plia|]. split; [vm_compute; split; reflexivity|].
  vm_compute. congruence.
Qed.

Lemma ieee_decode :
  forall a0 a1 a2 a3 b0 b1 b2 b3 c0 c1 c2 c3 rest,
  let A := u32be a0 a1 a2 a3 in let B := u32be b0 b1 b2 b3 in let C := u32be c0 c1 c2 c3 in
  dlis_fsingl (a0 :: a1 :: a2 :: a3 :: rest) = Some (A, rest) /\
  dlis_fsing1 ([a0; a1; a2; a3; b0; b1; b2; b3] ++ rest) = Some ((A, B), rest) /\
  dlis_csingl ([a0; a1; a2; a3; b0; b1; b2; b3] ++ rest) = Some ((A, B), rest) /\
  dlis_fsing2 ([a0; a1; a2; a3; b0; b1; b2; b3; c0; c1; c2; c3] ++ rest) = Some ((A, B, C), rest) /\
  dlis_fdoubl ([a0; a1; a2; a3; b0; b1; b2; b3] ++ rest) = Some (A * 2 ^ 32 + B, rest).
Proof.
  intros. 
  assert (S : forall c0 c1 c2 c3 r, dlis_fsingl (c0 :: c1 :: c2 :: c3 :: r) = Some (u32be c0 c1 c2 c3, r)).
  { intros. unfold dlis_fsingl. change (c4 :: c5 :: c6 :: c7 :: r) with ([c4; c5; c6; c7] ++ r).
    rewrite read_be_app by reflexivity. rewrite be4. reflexivity. }
  cbn [app]. unfold dlis_fsing1, dlis_csingl, dlis_fsing2. rewrite !S. cbn [obind]. rewrite !S. cbn [obind]. rewrite !S.
  repeat split.
  unfold dlis_fdoubl. change (a0 :: a1 :: a2 :: a3 :: b0 :: b1 :: b2 :: b3 :: rest) with
    ([a0; a1; a2; a3; b0; b1; b2; b3] ++ rest). rewrite read_be_app by reflexivity. rewrite be8. reflexivity.
Qed.

Lemma ieee_decode_double :
  forall xa xb xc rest, length xa = 8%nat -> length xb = 8%nat -> length xc = 8%nat ->
  exists A B C,
  dlis_fdoubl (xa ++ rest) = Some (A, rest) /\
  dlis_fdoubl (xb ++ rest) = Some (B, rest) /\
  dlis_fdoubl (xc ++ rest) = Some (C, rest) /\
  dlis_fdoub1 (xa ++ xb ++ rest) = Some ((A, B), rest) /\
  dlis_cdoubl (xa ++ xb ++ rest) = Some ((A, B), rest) /\
  dlis_fdoub2 (xa ++ xb ++ xc ++ rest) = Some ((A, B, C), rest).
Proof.
  intros xa xb xc rest Ha Hb Hc. exists (be xa), (be xb), (be xc).
  assert (S : forall x r, length x = 8%nat -> dlis_fdoubl (x ++ r) = Some (be x, r))
    by (intros; apply read_be_app; assumption).
  unfold dlis_fdoub1, dlis_cdoubl, dlis_fdoub2. rewrite !S by assumption. cbn [obind].
  rewrite !S by assumption. cbn [obind]. rewrite !S by assumption. repeat split.
Qed.

Lemma ieee_roundtrip :
  forall v a b rest,
  (0 <= v < 2 ^ 32 -> 0 <= a < 2 ^ 32 -> 0 <= b < 2 ^ 32 ->
     dlis_fsingl (dlis_fsinglo v ++ rest) = Some (v, rest) /\
     dlis_fsing1 (dlis_fsing1o v a ++ rest) = Some ((v, a), rest) /\
     dlis_fsing2 (dlis_fsing2o v a b ++ rest) = Some ((v, a, b), rest) /\
     dlis_csingl (dlis_csinglo v a ++ rest) = Some ((v, a), rest)) /\
  (0 <= v < 2 ^ 64 -> 0 <= a < 2 ^ 64 -> 0 <= b < 2 ^ 64 ->
     dlis_fdoubl (dlis_fdoublo v ++ rest) = Some (v, rest) /\
     dlis_fdoub1 (dlis_fdoub1o v a ++ rest) = Some ((v, a), rest) /\
     dlis_fdoub2 (dlis_fdoub2o v a b ++ rest) = Some ((v, a, b), rest) /\
     dlis_cdoubl (dlis_cdoublo v a ++ rest) = Some ((v, a), rest)).
Proof.
  intros v a b rest. split; intros Hv Ha Hb.
  - assert (S : forall z r, 0 <= z < 2 ^ 32 -> dlis_fsingl (dlis_fsinglo z ++ r) = Some (z, r))
      by (intros; apply read_be_enc; assumption).
    unfold dlis_fsing1, dlis_fsing2, dlis_csingl, dlis_fsing1o, dlis_fsing2o, dlis_csinglo.
    rewrite <- !app_assoc. rewrite !S by assumption. cbn [obind]. rewrite !S by assumption. cbn [obind].
    rewrite !S by assumption. repeat split.
  - assert (S : forall z r, 0 <= z < 2 ^ 64 -> dlis_fdoubl (dlis_fdoublo z ++ r) = Some (z, r))
      by (intros; apply read_be_enc; assumption).
    unfold dlis_fdoub1, dlis_fdoub2, dlis_cdoubl, dlis_fdoub1o, dlis_fdoub2o, dlis_cdoublo.
    rewrite <- !app_assoc. rewrite !S by assumption. cbn [obind]. rewrite !S by assumption. cbn [obind].
    rewrite !S by assumption. repeat split.
Qed.

Lemma ieee_write_read :
  forall xs v rest,
  (dlis_fsingl xs = Some (v, rest) -> dlis_fsinglo v ++ rest = xs) /\
  (dlis_fdoubl xs = Some (v, rest) -> dlis_fdoublo v ++ rest = xs).
Proof. intros; split; apply enc_read_be. Qed.

(** ** sizes *)

Lemma consumes_read_be n xs : (0 < n)%nat -> consumes (read_be n) (Z.of_nat n) xs.
Proof.
  intros Hn. split; [lia|]. split; intros H.
  - exists (be (firstn n xs)). unfold read_be. rewrite take_firstn by lia. rewrite Nat2Z.id. reflexivity.
  - apply read_be_None. lia.
Qed.

Lemma consumes_map {A B} (r : bytes -> option (A * bytes)) (g : A -> B) n xs :
  consumes r n xs -> consumes (fun ys => do (u, r') <- r ys; Some (g u, r')) n xs.
Proof.
  intros (H0 & H1 & H2). split; [exact H0|]. split; intros H.
  - destruct (H1 H) as [v ->]. cbn [obind]. eauto.
  - rewrite (H2 H). reflexivity.
Qed.

Lemma consumes_bind {A B C} (r1 : bytes -> option (A * bytes)) (r2 : bytes -> option (B * bytes))
    (g : A -> B -> C) n1 n2 xs :
  (forall ys, consumes r1 n1 ys) -> (forall ys, consumes r2 n2 ys) ->
  consumes (fun ys => do (u, r') <- r1 ys; do (v, r'') <- r2 r'; Some (g u v, r'')) (n1 + n2) xs.
Proof.
  intros H1 H2. destruct (H1 xs) as (P1 & A1 & B1).
  destruct (H2 (skipn (Z.to_nat n1) xs)) as (P2 & A2 & B2).
  split; [lia|]. split; intros H.
  - destruct A1 as [v1 E1]; [lia|]. rewrite E1. cbn [obind].
    destruct A2 as [v2 E2]; [rewrite skipn_length; lia|]. rewrite E2. cbn [obind].
    exists (g v1 v2). rewrite skipn_skipn. do 3 f_equal. lia.
  - destruct (Z.lt_ge_cases (Z.of_nat (length xs)) n1) as [L|L].
    + rewrite B1 by exact L. reflexivity.
    + destruct A1 as [v1 E1]; [lia|]. rewrite E1. cbn [obind].
      rewrite B2; [reflexivity|]. rewrite skipn_length. lia.
Qed.

Lemma consumes_ext {A} (r1 r2 : bytes -> option (A * bytes)) n xs :
  (forall ys, r1 ys = r2 ys) -> consumes r1 n xs -> consumes r2 n xs.
Proof.
  intros E (H0 & H1 & H2). split; [exact H0|]. rewrite <- E. auto.
Qed.

Lemma consumes_vsingl xs : consumes dlis_vsingl 4 xs.
Proof.
  split; [lia|]. split; intros H.
  - destruct xs as [|x0 [|x1 [|x2 [|x3 xs]]]]; cbn [length] in H; try lia.
    rewrite vsingl_read. eexists. reflexivity.
  - destruct xs as [|x0 [|x1 [|x2 [|x3 xs]]]]; try reflexivity. cbn [length] in H. lia.
Qed.

Lemma consumes_dtime xs : consumes dlis_dtime 8 xs.
Proof.
  split; [lia|]. split; intros H.
  - do 8 (destruct xs as [|? xs]; [cbn [length] in H; lia |]).
    rewrite dtime_read. eexists. reflexivity.
  - apply dtime_short. lia.
Qed.

Lemma consumes_fshort xs : consumes dlis_fshort 2 xs.
Proof.
  split; [lia|]. split; intros H.
  - destruct xs as [|x0 [|x1 xs]]; cbn [length] in H; try lia.
    destruct (fshort_read x0 x1 xs) as (f & Hf & _). rewrite Hf. eexists. reflexivity.
  - unfold dlis_fshort, dlis_unorm. rewrite (proj2 (read_be_None 2 xs)) by lia. reflexivity.
Qed.

Lemma sizes_consumed :
  (forall code, dlis_sizeof_type code < 0 <-> (code < 1 \/ 27 < code)) /\
  (forall xs : bytes,
   consumes dlis_fshort (dlis_sizeof_type 1) xs /\ consumes dlis_fsingl (dlis_sizeof_type 2) xs /\
   consumes dlis_fsing1 (dlis_sizeof_type 3) xs /\ consumes dlis_fsing2 (dlis_sizeof_type 4) xs /\
   consumes dlis_isingl (dlis_sizeof_type 5) xs /\ consumes dlis_vsingl (dlis_sizeof_type 6) xs /\
   consumes dlis_fdoubl (dlis_sizeof_type 7) xs /\ consumes dlis_fdoub1 (dlis_sizeof_type 8) xs /\
   consumes dlis_fdoub2 (dlis_sizeof_type 9) xs /\ consumes dlis_csingl (dlis_sizeof_type 10) xs /\
   consumes dlis_cdoubl (dlis_sizeof_type 11) xs /\ consumes dlis_sshort (dlis_sizeof_type 12) xs /\
   consumes dlis_snorm (dlis_sizeof_type 13) xs /\ consumes dlis_slong (dlis_sizeof_type 14) xs /\
   consumes dlis_ushort (dlis_sizeof_type 15) xs /\ consumes dlis_unorm (dlis_sizeof_type 16) xs /\
   consumes dlis_ulong (dlis_sizeof_type 17) xs /\ consumes dlis_dtime (dlis_sizeof_type 21) xs /\
   consumes dlis_status (dlis_sizeof_type 26) xs) /\
  (forall code, In code [18; 19; 20; 22; 23; 24; 25; 27] -> dlis_sizeof_type code = 0).
Proof.
  split; [|split].
  - intros code. unfold dlis_sizeof_type.
    destruct ((code <? 1) || (code >? 27)) eqn:E.
    + lia.
    + assert (H : 1 <= code <= 27) by lia. split; [|lia].
      assert (K : forall z, 0 <= z < 27 -> nth (Z.to_nat z) dlis_sizes 0 <? 0 = false).
      { intros z Hz. apply negb_true_iff.
        apply (z_sweep (fun z => negb (nth (Z.to_nat z) dlis_sizes 0 <? 0)) 27); [reflexivity | lia]. }
      specialize (K (code - 1)). lia.
  - intros xs.
    assert (R : forall n ys, (0 < n)%nat -> consumes (read_be n) (Z.of_nat n) ys) by (intros; apply consumes_read_be; assumption).
    assert (F4 : forall ys, consumes dlis_fsingl 4 ys) by (intros; apply (R 4%nat); lia).
    assert (F8 : forall ys, consumes dlis_fdoubl 8 ys) by (intros; apply (R 8%nat); lia).
    assert (T3 : forall {A} (rd : bytes -> option (A * bytes)) n ys, (forall ys, consumes rd n ys) ->
       consumes (fun xs => do (v, y) <- rd xs; do (a, z) <- rd y; do (b, w) <- rd z; Some ((v, a, b), w)) (n + (n + n)) ys).
    { intros A rd n ys H.
      apply consumes_ext with (fun xs => do (v, r') <- rd xs;
         do (ab, r'') <- (fun ys => do (a, z) <- rd ys; do (b, w) <- rd z; Some ((a, b), w)) r';
         Some ((v, fst ab, snd ab), r'')).
      - intros zs. destruct (rd zs) as [[v1 r1]|]; cbn [obind]; [|reflexivity].
        destruct (rd r1) as [[v2 r2]|]; cbn [obind]; [|reflexivity].
        destruct (rd r2) as [[v3 r3]|]; reflexivity.
      - apply consumes_bind with (g := fun v ab => (v, fst ab, snd ab)); [exact H|].
        intros ws. apply consumes_bind with (g := fun a b => (a, b)); exact H. }
    repeat (match goal with |- _ /\ _ => split end).
    + apply consumes_fshort.
    + apply F4.
    + apply (consumes_bind dlis_fsingl dlis_fsingl (fun a b => (a, b)) 4 4); exact F4.
    + apply (T3 Z dlis_fsingl 4); exact F4.
    + apply (consumes_map (read_be 4) isingl_bits 4). apply (R 4%nat). lia.
    + apply consumes_vsingl.
    + apply F8.
    + apply (consumes_bind dlis_fdoubl dlis_fdoubl (fun a b => (a, b)) 8 8); exact F8.
    + apply (T3 Z dlis_fdoubl 8); exact F8.
    + apply (consumes_bind dlis_fsingl dlis_fsingl (fun a b => (a, b)) 4 4); exact F4.
    + apply (consumes_bind dlis_fdoubl dlis_fdoubl (fun a b => (a, b)) 8 8); exact F8.
    + apply (consumes_map (read_be 1) (signed 8) 1). apply (R 1%nat). lia.
    + apply (consumes_map (read_be 2) (signed 16) 2). apply (R 2%nat). lia.
    + apply (consumes_map (read_be 4) (signed 32) 4). apply (R 4%nat). lia.
    + apply (R 1%nat). lia.
    + apply (R 2%nat). lia.
    + apply (R 4%nat). lia.
    + apply consumes_dtime.
    + apply (R 1%nat). lia.
  - intros code H. cbn [In] in H.
    repeat (destruct H as [<- | H]; [reflexivity|]). contradiction.
Qed.

Lemma ident_no_fixed_size :
  forall n : nat,
  exists xs v rest, dlis_ident xs = Some (v, rest) /\ (length xs - length rest <> n)%nat.
Proof.
  intros n. destruct (Nat.eq_dec n 1) as [->|Hn].
  - exists [z2b 1; x00], [x00], []. split; [reflexivity | cbn; lia].
  - exists [x00], [], []. split; [reflexivity | cbn; lia].
Qed.
