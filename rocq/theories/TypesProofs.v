(** Proofs about the integer, string and composite types (DlisTypes). *)
From Verif Require Import Bytes BytesProofs DlisTypes SpecTypes.
Local Open Scope Z_scope.
Ltac Zify.zify_post_hook ::= Z.div_mod_to_equations.

(** ** basic readers *)

Lemma read_be_app n a r : length a = n -> read_be n (a ++ r) = Some (be a, r).
Proof. intros H. unfold read_be. rewrite take_app by exact H. reflexivity. Qed.

Lemma read_be_Some n xs v r :
  read_be n xs = Some (v, r) <-> exists a, xs = a ++ r /\ length a = n /\ v = be a.
Proof.
  unfold read_be. split.
  - destruct (take n xs) as [[a r']|] eqn:E; cbn [obind]; [|discriminate].
    intros H; injection H as <- <-. apply take_Some in E as [-> E]. eauto.
  - intros (a & -> & <- & ->). rewrite take_app by reflexivity. reflexivity.
Qed.

Lemma read_be_None n xs : read_be n xs = None <-> (length xs < n)%nat.
Proof.
  unfold read_be. rewrite <- take_None.
  destruct (take n xs) as [[a r]|]; cbn [obind]; split; congruence.
Qed.

Lemma be1 b0 : be [b0] = b2z b0.
Proof. reflexivity. Qed.
Lemma be2 b0 b1 : be [b0; b1] = u16 b0 b1.
Proof. unfold be, u16; cbn [be_acc]. ring. Qed.
Lemma be4 b0 b1 b2 b3 : be [b0; b1; b2; b3] = u32be b0 b1 b2 b3.
Proof. unfold be, u32be; cbn [be_acc]. ring. Qed.
Lemma be8 b0 b1 b2 b3 b4 b5 b6 b7 :
  be [b0; b1; b2; b3; b4; b5; b6; b7] = u64be b0 b1 b2 b3 b4 b5 b6 b7.
Proof. unfold be, u64be, u32be; cbn [be_acc]. ring. Qed.

Lemma signed_twos n u : 0 < n -> 0 <= u < 2 ^ n -> twos_complement n u (signed n u).
Proof.
  intros Hn Hu. split; [apply signed_range; lia|].
  unfold signed. destruct (u <? 2 ^ (n - 1)).
  - rewrite Z.sub_diag. apply Z.mod_0_l. lia.
  - replace (u - (u - 2 ^ n)) with (2 ^ n) by ring. apply Z.mod_same. lia.
Qed.

Lemma twos_unique n u v w : 0 < n -> twos_complement n u v -> twos_complement n u w -> v = w.
Proof.
  intros Hn [Hv Ev] [Hw Ew].
  assert (E : 2 ^ n = 2 * 2 ^ (n - 1)) by (rewrite <- Z.pow_succ_r by lia; f_equal; lia).
  assert (P : 0 < 2 ^ (n - 1)) by (apply Z.pow_pos_nonneg; lia).
  assert (P2 : 2 ^ n <> 0) by lia.
  apply Z.mod_divide in Ev; [|exact P2]. apply Z.mod_divide in Ew; [|exact P2].
  destruct Ev as [k Hk]. destruct Ew as [j Hj].
  set (q := 2 ^ (n - 1)) in *. rewrite E in *. clearbody q. clear E P2.
  assert (D : v - w = (j - k) * (2 * q)) by lia.
  destruct (Z.lt_trichotomy (j - k) 0) as [L | [L | L]]; nia.
Qed.

(** ** UVARI *)

Definition uvari_high_ok (b : byte) : bool :=
  let h := Z.land (b2z b) 0xC0 in
  Bool.eqb (h =? 0xC0) (192 <=? b2z b) &&
  Bool.eqb (h =? 0x80) ((128 <=? b2z b) && (b2z b <? 192)).
Lemma uvari_high_sweep b : uvari_high_ok b = true.
Proof. apply byte_sweep. vm_compute. reflexivity. Qed.

Lemma uvari_high b :
  let h := Z.land (b2z b) 0xC0 in
  (h =? 0xC0) = (192 <=? b2z b) /\ (h =? 0x80) = ((128 <=? b2z b) && (b2z b <? 192)).
Proof.
  pose proof (uvari_high_sweep b) as H. unfold uvari_high_ok in H.
  apply andb_prop in H as [H1 H2]. apply eqb_prop in H1, H2. auto.
Qed.

Lemma uvari_encode_read e v rest : rp66_uvari e v -> dlis_uvari (e ++ rest) = Some (v, rest).
Proof.
  intros H. destruct H as [b0 H | b0 b1 H | b0 b1 b2 b3 H]; cbn [app]; unfold dlis_uvari;
    destruct (uvari_high b0) as [E1 E2]; cbn zeta in E1, E2; rewrite E1, E2; clear E1 E2.
  - replace (192 <=? b2z b0) with false by lia. replace (128 <=? b2z b0) with false by lia.
    cbn [andb]. change (b0 :: rest) with ([b0] ++ rest). rewrite read_be_app by reflexivity. reflexivity.
  - replace (192 <=? b2z b0) with false by lia. replace (128 <=? b2z b0) with true by lia.
    replace (b2z b0 <? 192) with true by lia. cbn [andb].
    change (b0 :: b1 :: rest) with ([b0; b1] ++ rest). rewrite read_be_app by reflexivity.
    cbn [obind]. do 2 f_equal.
    change 0x3FFF with (Z.ones 14). rewrite Z.land_ones by lia. rewrite be2. unfold u16.
    pose proof (b2z_range b1). change (2 ^ 14) with 16384. lia.
  - replace (192 <=? b2z b0) with true by lia.
    change (b0 :: b1 :: b2 :: b3 :: rest) with ([b0; b1; b2; b3] ++ rest).
    rewrite read_be_app by reflexivity. cbn [obind]. do 2 f_equal.
    change 0x3FFFFFFF with (Z.ones 30). rewrite Z.land_ones by lia. rewrite be4. unfold u32be.
    pose proof (b2z_range b0). pose proof (b2z_range b1). pose proof (b2z_range b2). pose proof (b2z_range b3).
    change (2 ^ 30) with 1073741824. lia.
Qed.

Lemma list_len1 {A} (l : list A) : length l = 1%nat -> exists a, l = [a].
Proof. destruct l as [|a [|]]; try discriminate. eauto. Qed.
Lemma list_len2 {A} (l : list A) : length l = 2%nat -> exists a b, l = [a; b].
Proof. destruct l as [|a [|b [|]]]; try discriminate. eauto. Qed.
Lemma list_len4 {A} (l : list A) : length l = 4%nat -> exists a b c d, l = [a; b; c; d].
Proof. destruct l as [|a [|b [|c [|d [|]]]]]; try discriminate. eauto. Qed.

Lemma uvari_read_spec xs v rest :
  dlis_uvari xs = Some (v, rest) <-> exists e, xs = e ++ rest /\ rp66_uvari e v.
Proof.
  split; [|intros (e & -> & H); apply uvari_encode_read; assumption].
  intros H.
  destruct xs as [|b0 t]; [discriminate|].
  assert (K : exists e v' rest', b0 :: t = e ++ rest' /\ rp66_uvari e v').
  { unfold dlis_uvari in H. destruct (uvari_high b0) as [E1 E2]; cbn zeta in E1, E2.
    rewrite E1, E2 in H; clear E1 E2. pose proof (b2z_range b0).
    destruct (Z.leb_spec 192 (b2z b0)).
    - destruct (read_be 4 (b0 :: t)) as [[w r]|] eqn:E; [|discriminate].
      apply read_be_Some in E as (a & E & L & _).
      apply list_len4 in L as (c0 & c1 & c2 & c3 & ->).
      injection E as -> ->. exists [c0; c1; c2; c3]. do 2 eexists. split; [reflexivity|]. constructor. lia.
    - destruct (Z.leb_spec 128 (b2z b0)).
      + replace (b2z b0 <? 192) with true in H by lia. cbn [andb] in H.
        destruct (read_be 2 (b0 :: t)) as [[w r]|] eqn:E; [|discriminate].
        apply read_be_Some in E as (a & E & L & _).
        apply list_len2 in L as (c0 & c1 & ->).
        injection E as -> ->. exists [c0; c1]. do 2 eexists. split; [reflexivity|]. constructor. lia.
      + exists [b0], (b2z b0), t. split; [reflexivity|]. constructor. lia. }
  destruct K as (e & v' & rest' & E & S). rewrite E in *.
  rewrite (uvari_encode_read _ _ rest' S) in H. injection H as <- <-. eauto.
Qed.

Lemma uvari_spec_range e v : rp66_uvari e v ->
  (length e = 1%nat /\ 0 <= v < 2 ^ 7) \/ (length e = 2%nat /\ 0 <= v < 2 ^ 14) \/
  (length e = 4%nat /\ 0 <= v < 2 ^ 30).
Proof.
  intros [b0 H | b0 b1 H | b0 b1 b2 b3 H].
  - left. pose proof (b2z_range b0). cbn [length]. lia.
  - right; left. pose proof (b2z_range b1). cbn [length]. lia.
  - right; right. pose proof (b2z_range b0). pose proof (b2z_range b1).
    pose proof (b2z_range b2). pose proof (b2z_range b3). cbn [length]. lia.
Qed.

Lemma enc_be_1 z : enc_be 1 z = [z2b z].
Proof. cbn [enc_be]. change (256 ^ Z.of_nat 0) with 1. rewrite Z.div_1_r. reflexivity. Qed.
Lemma enc_be_2 z : enc_be 2 z = [z2b (z / 256); z2b z].
Proof. cbn [enc_be]. change (256 ^ Z.of_nat 0) with 1. rewrite Z.div_1_r. reflexivity. Qed.
Lemma enc_be_4 z : enc_be 4 z = [z2b (z / 16777216); z2b (z / 65536); z2b (z / 256); z2b z].
Proof. cbn [enc_be]. change (256 ^ Z.of_nat 0) with 1. rewrite Z.div_1_r. reflexivity. Qed.

(** the three forms the writer produces, in arithmetic *)
Lemma uvario_forms x width : 0 <= x < 2 ^ 30 ->
  dlis_uvario x width =
    if (x <? 128) && (width <=? 1) then [z2b x]
    else if (x <? 49152) && (width <=? 2) then
      [z2b ((if x <? 32768 then x + 32768 else x) / 256); z2b x]
    else [z2b (x / 16777216 + 192); z2b (x / 65536); z2b (x / 256); z2b x].
Proof.
  intros Hx. unfold dlis_uvario.
  replace (x <=? 0x7F) with (x <? 128) by lia.
  replace (x <=? 0xBFFF) with (x <? 49152) by lia.
  destruct ((x <? 128) && (width <=? 1)); [apply enc_be_1|].
  destruct ((x <? 49152) && (width <=? 2)) eqn:E.
  - assert (x < 49152) by lia. rewrite enc_be_2. unfold unsigned.
    rewrite Z.mod_small by lia.
    assert (G : Z.lor x 0x8000 = if x <? 32768 then x + 32768 else x).
    { destruct (Z.ltb_spec x 32768).
      - change 0x8000 with (1 * 2 ^ 15). rewrite lor_add_disjoint; lia.
      - assert (Ex : x = (x - 32768) + 1 * 2 ^ 15) by lia.
        rewrite Ex at 1. rewrite <- lor_add_disjoint by lia.
        rewrite <- Z.lor_assoc. change 0x8000 with (1 * 2 ^ 15). rewrite Z.lor_diag.
        rewrite lor_add_disjoint; lia. }
    rewrite G. f_equal. f_equal. destruct (Z.ltb_spec x 32768); [|reflexivity].
    apply z2b_eq_mod. lia.
  - rewrite enc_be_4. unfold unsigned. rewrite Z.mod_small by lia.
    change 0xC0000000 with (3 * 2 ^ 30). rewrite lor_add_disjoint by lia.
    change (2 ^ 30) with 1073741824 in *.
    f_equal; [|f_equal; [|f_equal; [|apply (f_equal (fun b => [b]))]]]; apply z2b_eq_mod; lia.
Qed.

Lemma uvario_ok x width : 0 <= x < 2 ^ 30 -> ~ (0x4000 <= x <= 0xBFFF /\ width <= 2) ->
  rp66_uvari (dlis_uvario x width) x.
Proof.
  intros Hx Hn. rewrite uvario_forms by assumption.
  destruct ((x <? 128) && (width <=? 1)) eqn:E1.
  - rewrite <- (b2z_z2b_id x) at 2 by lia. constructor. rewrite b2z_z2b. lia.
  - destruct ((x <? 49152) && (width <=? 2)) eqn:E2.
    + replace (x <? 32768) with true by lia.
      replace x with ((b2z (z2b ((x + 32768) / 256)) - 128) * 256 + b2z (z2b x)) at 3
        by (rewrite !b2z_z2b; lia).
      constructor. rewrite b2z_z2b. lia.
    + change (2 ^ 30) with 1073741824 in *.
      replace x with ((b2z (z2b (x / 16777216 + 192)) - 192) * 16777216 +
         b2z (z2b (x / 65536)) * 65536 + b2z (z2b (x / 256)) * 256 + b2z (z2b x)) at 5
        by (rewrite !b2z_z2b; lia).
      constructor. rewrite b2z_z2b. lia.
Qed.

Lemma uvario_bad x width : 0x4000 <= x <= 0xBFFF -> width <= 2 ->
  ~ rp66_uvari (dlis_uvario x width) x.
Proof.
  intros Hx Hw H. rewrite uvario_forms in H by lia.
  replace (x <? 128) with false in H by lia. replace (x <? 49152) with true in H by lia.
  replace (width <=? 2) with true in H by lia. cbn [andb] in H.
  remember (z2b ((if x <? 32768 then x + 32768 else x) / 256)) as c0 eqn:E0.
  remember (z2b x) as c1 eqn:E1.
  assert (V : (b2z c0 - 128) * 256 + b2z c1 = x /\ 128 <= b2z c0 < 192).
  { clear -H. inversion H; subst. lia. }
  subst c0 c1. rewrite !b2z_z2b in V. destruct (Z.ltb_spec x 32768); lia.
Qed.

Lemma uvario_roundtrip_iff x width : 0 <= x < 2 ^ 30 ->
  ((forall rest, dlis_uvari (dlis_uvario x width ++ rest) = Some (x, rest))
   <-> ~ (0x4000 <= x <= 0xBFFF /\ width <= 2)).
Proof.
  intros Hx. split.
  - intros H [Hr Hw]. specialize (H []). rewrite app_nil_r in H.
    apply uvari_read_spec in H as (e & He & S). rewrite app_nil_r in He.
    rewrite <- He in S. apply (uvario_bad x width Hr Hw S).
  - intros Hn rest. apply uvari_encode_read. apply uvario_ok; assumption.
Qed.

Lemma uvario_length x width : length (dlis_uvario x width) =
  if (x <=? 127) && (width <=? 1) then 1%nat else
  if (x <=? 49151) && (width <=? 2) then 2%nat else 4%nat.
Proof.
  unfold dlis_uvario. change 0x7F with 127. change 0xBFFF with 49151.
  destruct ((x <=? 127) && (width <=? 1)); [apply length_enc_be|].
  destruct ((x <=? 49151) && (width <=? 2)); apply length_enc_be.
Qed.

(** ** strings *)

Lemma ident_read_spec xs s rest :
  dlis_ident xs = Some (s, rest) <-> exists e, xs = e ++ rest /\ rp66_ident e s.
Proof.
  unfold dlis_ident, dlis_ushort. split.
  - destruct (read_be 1 xs) as [[v r]|] eqn:E; cbn [obind]; [|discriminate].
    intros H. apply read_be_Some in E as (a & -> & L & ->).
    apply list_len1 in L as (l & ->). apply take_Some in H as [-> H].
    exists (l :: s). split; [reflexivity|]. constructor.
    rewrite be1 in H. pose proof (b2z_range l). lia.
  - intros (e & -> & H). destruct H as [l s H]. cbn [app].
    change (l :: s ++ rest) with ([l] ++ (s ++ rest)). rewrite read_be_app by reflexivity.
    cbn [obind]. apply take_app. rewrite be1. lia.
Qed.

Lemma units_is_ident xs : dlis_units xs = dlis_ident xs.
Proof. reflexivity. Qed.

Lemma ascii_read_spec xs s rest :
  dlis_ascii xs = Some (s, rest) <-> exists e, xs = e ++ rest /\ rp66_ascii e s.
Proof.
  unfold dlis_ascii. split.
  - destruct (dlis_uvari xs) as [[v r]|] eqn:E; cbn [obind]; [|discriminate].
    intros H. apply uvari_read_spec in E as (e & -> & S).
    apply take_Some in H as [-> H].
    exists (e ++ s). rewrite app_assoc. split; [reflexivity|]. constructor.
    replace (Z.of_nat (length s)) with v; [assumption|].
    apply uvari_spec_range in S. lia.
  - intros (e & -> & H). destruct H as [e s H]. rewrite <- app_assoc.
    rewrite (uvari_encode_read _ _ _ H). cbn [obind]. apply take_app. lia.
Qed.

Lemma obname_read_spec xs n rest :
  dlis_obname xs = Some (n, rest) <->
  exists e, xs = e ++ rest /\ rp66_obname e (ob_origin n) (ob_copy n) (ob_id n).
Proof.
  unfold dlis_obname, dlis_origin. split.
  - destruct (dlis_uvari xs) as [[o r1]|] eqn:E1; cbn [obind]; [|discriminate].
    destruct (dlis_ushort r1) as [[c r2]|] eqn:E2; cbn [obind]; [|discriminate].
    destruct (dlis_ident r2) as [[i r3]|] eqn:E3; cbn [obind]; [|discriminate].
    intros H; injection H as <- <-. cbn [ob_origin ob_copy ob_id].
    apply uvari_read_spec in E1 as (eo & -> & S1).
    apply read_be_Some in E2 as (a & -> & L & ->). apply list_len1 in L as (cb & ->).
    apply ident_read_spec in E3 as (ei & -> & S3).
    exists (eo ++ cb :: ei). split; [rewrite <- app_assoc; reflexivity|].
    rewrite be1. constructor; assumption.
  - intros (e & -> & H). destruct n as [o c i]; cbn [ob_origin ob_copy ob_id] in H.
    destruct H as [eo o cb ei i Ho Hi]. rewrite <- app_assoc.
    rewrite (uvari_encode_read _ _ _ Ho). cbn [obind app].
    change (cb :: ei ++ rest) with ([cb] ++ (ei ++ rest)). unfold dlis_ushort.
    rewrite read_be_app by reflexivity. cbn [obind].
    rewrite (proj2 (ident_read_spec (ei ++ rest) i rest)) by eauto. reflexivity.
Qed.

Lemma objref_read_spec xs n rest :
  dlis_objref xs = Some (n, rest) <->
  exists e, xs = e ++ rest /\
    rp66_objref e (or_type n) (ob_origin (or_name n)) (ob_copy (or_name n)) (ob_id (or_name n)).
Proof.
  unfold dlis_objref. split.
  - destruct (dlis_ident xs) as [[t r1]|] eqn:E1; cbn [obind]; [|discriminate].
    destruct (dlis_obname r1) as [[m r2]|] eqn:E2; cbn [obind]; [|discriminate].
    intros H; injection H as <- <-. cbn [or_type or_name].
    apply ident_read_spec in E1 as (et & -> & S1). apply obname_read_spec in E2 as (en & -> & S2).
    exists (et ++ en). split; [apply app_assoc|]. constructor; assumption.
  - intros (e & -> & H). destruct n as [t [o c i]]; cbn [or_type or_name ob_origin ob_copy ob_id] in H.
    destruct H as [et t en o c i Ht Hn]. rewrite <- app_assoc.
    rewrite (proj2 (ident_read_spec (et ++ en ++ rest) t (en ++ rest))) by eauto. cbn [obind].
    rewrite (proj2 (obname_read_spec (en ++ rest) (mk_obname o c i) rest)); [reflexivity | eauto].
Qed.

Lemma attref_read_spec xs n rest :
  dlis_attref xs = Some (n, rest) <->
  exists e, xs = e ++ rest /\
    rp66_attref e (ar_type n) (ob_origin (ar_name n)) (ob_copy (ar_name n)) (ob_id (ar_name n)) (ar_label n).
Proof.
  unfold dlis_attref. split.
  - destruct (dlis_ident xs) as [[t r1]|] eqn:E1; cbn [obind]; [|discriminate].
    destruct (dlis_obname r1) as [[m r2]|] eqn:E2; cbn [obind]; [|discriminate].
    destruct (dlis_ident r2) as [[l r3]|] eqn:E3; cbn [obind]; [|discriminate].
    intros H; injection H as <- <-. cbn [ar_type ar_name ar_label].
    apply ident_read_spec in E1 as (et & -> & S1). apply obname_read_spec in E2 as (en & -> & S2).
    apply ident_read_spec in E3 as (el & -> & S3).
    exists (et ++ en ++ el). split; [rewrite <- !app_assoc; reflexivity|]. constructor; assumption.
  - intros (e & -> & H). destruct n as [t [o c i] l]; cbn [ar_type ar_name ar_label ob_origin ob_copy ob_id] in H.
    destruct H as [et t en o c i el l Ht Hn Hl]. rewrite <- !app_assoc.
    rewrite (proj2 (ident_read_spec (et ++ en ++ el ++ rest) t (en ++ el ++ rest))) by eauto. cbn [obind].
    rewrite (proj2 (obname_read_spec (en ++ el ++ rest) (mk_obname o c i) (el ++ rest))) by eauto. cbn [obind].
    rewrite (proj2 (ident_read_spec (el ++ rest) l rest)) by eauto. reflexivity.
Qed.

(** ** writers *)

Lemma idento_ok id : (length id <= 255)%nat ->
  dlis_idento (Z.of_nat (length id)) id = Some (z2b (Z.of_nat (length id)) :: id) /\
  rp66_ident (z2b (Z.of_nat (length id)) :: id) id.
Proof.
  intros H. split.
  - unfold dlis_idento. unfold unsigned. rewrite Z.mod_small by lia.
    rewrite Nat2Z.id. rewrite <- (app_nil_r id) at 2. rewrite take_app by reflexivity.
    cbn [obind]. unfold dlis_ushorto. rewrite enc_be_1. reflexivity.
  - constructor. apply b2z_z2b_id. lia.
Qed.

Lemma unitso_is_idento n s : dlis_unitso n s = dlis_idento n s.
Proof. reflexivity. Qed.

Lemma obnameo_ok o c id : 0 <= o < 2 ^ 30 -> 0 <= c < 256 -> (length id <= 255)%nat ->
  exists w, dlis_obnameo o c (Z.of_nat (length id)) id = Some w /\ rp66_obname w o c id.
Proof.
  intros Ho Hc Hi. unfold dlis_obnameo. destruct (idento_ok id Hi) as [-> Hid].
  cbn [obind]. eexists. split; [reflexivity|].
  unfold dlis_ushorto. rewrite enc_be_1. cbn [app].
  rewrite <- (b2z_z2b_id c) at 2 by lia. constructor; [|assumption].
  apply uvario_ok; lia.
Qed.

Lemma objrefo_ok t o c id : 0 <= o < 2 ^ 30 -> 0 <= c < 256 ->
  (length t <= 255)%nat -> (length id <= 255)%nat ->
  exists w, dlis_objrefo (Z.of_nat (length t)) t o c (Z.of_nat (length id)) id = Some w /\
            rp66_objref w t o c id.
Proof.
  intros Ho Hc Ht Hi. unfold dlis_objrefo. destruct (idento_ok t Ht) as [-> Htt].
  destruct (obnameo_ok o c id Ho Hc Hi) as (w & -> & Hw). cbn [obind].
  eexists. split; [reflexivity|]. constructor; assumption.
Qed.

Lemma attrefo_ok t o c id l : 0 <= o < 2 ^ 30 -> 0 <= c < 256 ->
  (length t <= 255)%nat -> (length id <= 255)%nat -> (length l <= 255)%nat ->
  exists w, dlis_attrefo (Z.of_nat (length t)) t o c (Z.of_nat (length id)) id (Z.of_nat (length l)) l = Some w /\
            rp66_attref w t o c id l.
Proof.
  intros Ho Hc Ht Hi Hl. unfold dlis_attrefo. destruct (idento_ok t Ht) as [-> Htt].
  destruct (obnameo_ok o c id Ho Hc Hi) as (w & -> & Hw). destruct (idento_ok l Hl) as [-> Hll]. cbn [obind].
  eexists. split; [reflexivity|]. constructor; assumption.
Qed.

Lemma asciio_ok s width : Z.of_nat (length s) < 2 ^ 30 ->
  ~ (0x4000 <= Z.of_nat (length s) <= 0xBFFF /\ width <= 2) ->
  exists w, dlis_asciio (Z.of_nat (length s)) s width = Some w /\ rp66_ascii w s.
Proof.
  intros H Hn. unfold dlis_asciio. rewrite Nat2Z.id.
  rewrite (proj2 (take_Some (length s) s s [])) by (rewrite app_nil_r; auto). cbn [obind].
  eexists. split; [reflexivity|]. constructor. apply uvario_ok; [lia|assumption].
Qed.

(** ** DTIME *)

Definition dtime_split_ok (b : byte) : bool :=
  (Z.shiftr (Z.land (b2z b) 0xF0) 4 =? b2z b / 16) && (Z.land (b2z b) 0x0F =? b2z b mod 16).
Lemma dtime_split b :
  Z.shiftr (Z.land (b2z b) 0xF0) 4 = b2z b / 16 /\ Z.land (b2z b) 0x0F = b2z b mod 16.
Proof.
  assert (H : dtime_split_ok b = true) by (apply byte_sweep; vm_compute; reflexivity).
  unfold dtime_split_ok in H. lia.
Qed.

Lemma dtime_read b0 b1 b2 b3 b4 b5 b6 b7 rest :
  dlis_dtime (b0 :: b1 :: b2 :: b3 :: b4 :: b5 :: b6 :: b7 :: rest) =
  Some (mk_dtime (b2z b0) (b2z b1 / 16) (b2z b1 mod 16) (b2z b2) (b2z b3) (b2z b4) (b2z b5)
          (u16 b6 b7), rest).
Proof.
  unfold dlis_dtime. cbn [take obind].
  change (b6 :: b7 :: rest) with ([b6; b7] ++ rest). rewrite read_be_app by reflexivity. cbn [obind].
  destruct (dtime_split b1) as [-> ->]. rewrite be2. reflexivity.
Qed.

Lemma dtime_short xs : (length xs < 8)%nat -> dlis_dtime xs = None.
Proof.
  intros H.
  do 8 (destruct xs as [|? xs]; [reflexivity | cbn [length] in H]). lia.
Qed.

Lemma dtimeo_bytes t :
  0 <= dt_TZ t < 16 -> 0 <= dt_M t < 16 ->
  dlis_dtimeo t = [z2b (dt_Y t); z2b (dt_TZ t * 16 + dt_M t); z2b (dt_D t); z2b (dt_H t);
                   z2b (dt_MN t); z2b (dt_S t); z2b (dt_MS t / 256); z2b (dt_MS t)].
Proof.
  intros H1 H2. unfold dlis_dtimeo, unsigned. rewrite enc_be_2. cbn [app].
  rewrite !Z.mod_small by lia. rewrite Z.shiftl_mul_pow2, Z.lor_comm by lia.
  rewrite lor_add_disjoint by lia. do 2 f_equal. f_equal. change (2 ^ 4) with 16. ring.
Qed.

Definition dtime_in_range (t : dtime) : Prop :=
  0 <= dt_Y t <= 255 /\ 0 <= dt_TZ t <= 15 /\ 0 <= dt_M t <= 15 /\ 0 <= dt_D t <= 255 /\
  0 <= dt_H t <= 255 /\ 0 <= dt_MN t <= 255 /\ 0 <= dt_S t <= 255 /\ 0 <= dt_MS t <= 65535.

Lemma dtime_roundtrip t rest : dtime_in_range t ->
  dlis_dtime (dlis_dtimeo t ++ rest) = Some (t, rest).
Proof.
  intros (H1 & H2 & H3 & H4 & H5 & H6 & H7 & H8).
  rewrite dtimeo_bytes by lia. cbn [app]. rewrite dtime_read.
  destruct t as [Y TZ M D H MN S MS]; cbn [dt_Y dt_TZ dt_M dt_D dt_H dt_MN dt_S dt_MS] in *.
  unfold u16. rewrite !b2z_z2b.
  do 2 f_equal. f_equal; lia.
Qed.

Lemma dtime_read_range xs t rest : dlis_dtime xs = Some (t, rest) -> dtime_in_range t.
Proof.
  intros H.
  assert (L : ~ (length xs < 8)%nat) by (intros L; rewrite dtime_short in H by exact L; discriminate).
  do 8 (destruct xs as [|? xs]; [cbn [length] in L; lia |]).
  rewrite dtime_read in H. injection H as <- <-.
  unfold dtime_in_range; cbn [dt_Y dt_TZ dt_M dt_D dt_H dt_MN dt_S dt_MS]. unfold u16.
  repeat match goal with |- context [b2z ?b] => lazymatch goal with
    | _ : 0 <= b2z b < 256 |- _ => fail | _ => pose proof (b2z_range b) end end.
  lia.
Qed.
