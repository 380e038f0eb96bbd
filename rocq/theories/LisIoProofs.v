(** Proofs about physical record headers (LisIo) against SpecLisIo. *)
From Verif Require Import Bytes BytesProofs DlisTypes SpecTypes TypesProofs Stream SpecIo IoProofs LisProtocol LisIo SpecLisIo.
Local Open Scope Z_scope.
Ltac Zify.zify_post_hook ::= Z.div_mod_to_equations.

(** ** Attribute bits *)
Lemma land_pow2 a k : 0 <= k -> Z.land a (2 ^ k) = if Z.testbit a k then 2 ^ k else 0.
Proof.
  intros Hk. apply Z.bits_inj'. intros n Hn. rewrite Z.land_spec, Z.pow2_bits_eqb by exact Hk.
  destruct (Z.eqb_spec k n) as [->|N].
  - destruct (Z.testbit a n); [rewrite Z.pow2_bits_true by lia; reflexivity | rewrite Z.bits_0; reflexivity].
  - rewrite andb_false_r. destruct (Z.testbit a k); [rewrite Z.pow2_bits_false by lia; reflexivity | rewrite Z.bits_0; reflexivity].
Qed.
Lemma has_pow2 a k : 0 <= k -> has a (2 ^ k) = Z.testbit a k.
Proof.
  intros Hk. unfold has. rewrite land_pow2 by exact Hk. destruct (Z.testbit a k); [|reflexivity].
  pose proof (Z.pow_pos_nonneg 2 k). lia.
Qed.
Lemma has_succ_bit a : has a succses = successor a.
Proof. apply (has_pow2 a 0). lia. Qed.
Lemma has_pred_bit a : has a predces = predecessor a.
Proof. apply (has_pow2 a 1). lia. Qed.
Lemma has_checksum a : has a chcksum = Z.testbit a 12 || Z.testbit a 13.
Proof.
  unfold has, chcksum. change 0x3000 with (Z.lor (2 ^ 12) (2 ^ 13)). rewrite Z.land_lor_distr_r, !land_pow2 by lia.
  destruct (Z.testbit a 12), (Z.testbit a 13); reflexivity.
Qed.
Lemma trailer_length_spec a : trailer_length a = trailer_size a.
Proof.
  unfold trailer_length, trailer_size. change reconum with (2 ^ 9). change filenum with (2 ^ 10).
  rewrite !has_pow2 by lia. rewrite has_checksum. reflexivity.
Qed.
Lemma min_length_spec a : min_length a = (if predecessor a then 4 else 6) + trailer_size a.
Proof.
  unfold min_length, trailer_size. change reconum with (2 ^ 9). change filenum with (2 ^ 10).
  rewrite !has_pow2 by lia. rewrite has_checksum, has_pred_bit. lia.
Qed.
Lemma trailer_size_range a : 0 <= trailer_size a <= 6.
Proof. unfold trailer_size. destruct (Z.testbit a 9), (Z.testbit a 10), (Z.testbit a 12 || Z.testbit a 13); lia. Qed.

(** ** Positions *)
Lemma at_pos_app data pos a b : at_pos data pos (a ++ b) <-> at_pos data pos a /\ at_pos data (pos + len a) b.
Proof.
  split.
  - intros (pre & post & -> & <-). split.
    + exists pre, (b ++ post). rewrite <- app_assoc. auto.
    + exists (pre ++ a), post. rewrite <- !app_assoc. rewrite len_app. auto.
  - intros [(pre & post & -> & <-) (pre' & post' & E & L)].
    assert (pre' = pre ++ a /\ b ++ post' = post) as [-> <-].
    { apply app_eq_app in E as [l [[E1 E2]|[E1 E2]]].
      - (* pre = pre' ++ l *) assert (len l = 0 /\ len a = 0) as [Ll La].
        { rewrite E1, !len_app in L. pose proof (len_nonneg l). pose proof (len_nonneg a). lia. }
        destruct l; [|cbn in Ll; discriminate]. destruct a; [|cbn in La; discriminate].
        rewrite app_nil_r in *. cbn [app] in E2. subst. auto.
      - rewrite E1, len_app in L. assert (len l = len a) by lia.
        apply app_eq_app in E2 as [m [[E2 E3]|[E2 E3]]].
        + assert (len m = 0) by (rewrite E2, len_app in H; lia). destruct m; [|cbn in H0; discriminate].
          rewrite app_nil_r in E2. subst. auto.
        + assert (len m = 0) by (rewrite E2, len_app in H; lia). destruct m; [|cbn in H0; discriminate].
          rewrite app_nil_r in E2. subst. auto. }
    exists pre, post'. rewrite <- !app_assoc. auto.
Qed.
Lemma at_pos_bound data pos x : at_pos data pos x -> 0 <= pos /\ pos + len x <= len data.
Proof. intros (pre & post & -> & <-). rewrite !len_app. pose proof (len_nonneg pre). pose proof (len_nonneg post). lia. Qed.
Lemma at_pos_same data pos x y : at_pos data pos x -> at_pos data pos y -> len x = len y -> x = y.
Proof.
  intros (pre & post & -> & L) (pre' & post' & E & L') Lx.
  assert (pre = pre' /\ x ++ post = y ++ post') as [-> E'].
  { apply app_eq_app in E as [l [[E1 E2]|[E1 E2]]];
      (assert (len l = 0) as Ll by (rewrite E1, len_app in *; lia); destruct l; [|discriminate Ll];
       rewrite app_nil_r in E1; cbn [app] in E2; subst; auto). }
  apply app_eq_app in E' as [l [[E1 E2]|[E1 E2]]];
    (assert (len l = 0) as Ll by (rewrite E1, len_app in *; lia); destruct l; [|discriminate Ll];
     rewrite app_nil_r in E1; auto).
Qed.
Lemma tail_at_pos data pos x : tail_at data pos x -> at_pos data pos x.
Proof. intros (pre & -> & L). exists pre, []. rewrite app_nil_r. auto. Qed.
Lemma tail_at_app data pos a b : tail_at data pos (a ++ b) -> at_pos data pos a /\ tail_at data (pos + len a) b.
Proof.
  intros (pre & -> & <-). split; [exists pre, b; auto|]. exists (pre ++ a). rewrite <- app_assoc, len_app. auto.
Qed.
Lemma tail_exists data pos : 0 <= pos <= len data -> exists x, tail_at data pos x.
Proof.
  intros H. exists (skipn (Z.to_nat pos) data). exists (firstn (Z.to_nat pos) data). split; [symmetry; apply firstn_skipn|].
  unfold len in *. rewrite firstn_length. lia.
Qed.

(** ** Reads *)
Lemma dread_at d pos x n : at_pos (d_data d) pos x -> n = len x -> dread d n pos = (DOk x, pos + len x).
Proof.
  intros (pre & post & E & L) ->. unfold dread. destruct d as [[data hard] off]. unfold d_data in E. cbn in *. subst data.
  rewrite (read_mid' pre x post hard pos (len x)) by auto. reflexivity.
Qed.
Lemma dread_end d pos x n : tail_at (d_data d) pos x -> len x < n -> s_hard (d_stream d) = false ->
  dread d n pos = (DOk x, pos + len x).
Proof.
  intros (pre & E & L) Ln H. unfold dread. destruct d as [[data hard] off]. unfold d_data in E. cbn in *. subst data hard.
  unfold read. cbn [s_data s_hard]. pose proof (len_nonneg x). pose proof (len_nonneg pre).
  replace (n =? 0) with false by lia. replace (_ || _) with false by lia.
  assert (E : firstn (Z.to_nat n) (skipn (Z.to_nat pos) (pre ++ x)) = x).
  { rewrite <- L. unfold len. rewrite Nat2Z.id, skipn_app_len. apply firstn_all2. unfold len in Ln. lia. }
  rewrite E. destruct (_ =? _)%nat; reflexivity.
Qed.
Lemma dread_hard d pos x n : tail_at (d_data d) pos x -> len x < n -> s_hard (d_stream d) = true ->
  dread d n pos = (DErr OtherError, pos + len x).
Proof.
  intros (pre & E & L) Ln H. unfold dread. destruct d as [[data hard] off]. unfold d_data, d_size, d_data in *. cbn in *. subst data hard.
  unfold read. cbn [s_data s_hard]. pose proof (len_nonneg x). pose proof (len_nonneg pre).
  replace (n =? 0) with false by lia. replace (_ || _) with false by lia.
  assert (E : firstn (Z.to_nat n) (skipn (Z.to_nat pos) (pre ++ x)) = x).
  { rewrite <- L. unfold len. rewrite Nat2Z.id, skipn_app_len. apply firstn_all2. unfold len in Ln. lia. }
  rewrite E. destruct (_ =? _)%nat eqn:E'; [apply Nat.eqb_eq in E'; unfold len in Ln; lia|].
  f_equal. fold (len (pre ++ x)). rewrite len_app. lia.
Qed.
Lemma short_full x n : n = len x -> short x n = false.
Proof. intros ->. unfold short, len. lia. Qed.
Lemma short_cut x n : len x < n -> short x n = true.
Proof. unfold short, len. lia. Qed.

(** ** Padding *)
Lemma is_padbytes_repeat c k : c = x00 \/ c = x20 -> (0 < k)%nat -> is_padbytes (repeat c k) = true.
Proof.
  intros Hc Hk. destruct k as [|k]; [lia|]. cbn [repeat is_padbytes].
  assert (forallb (fun b => Byte.eqb b c) (repeat c k) = true).
  { apply forallb_forall. intros x Hx. apply repeat_spec in Hx. subst. apply Byte.byte_dec_lb. reflexivity. }
  destruct Hc as [-> | ->]; exact H.
Qed.
Lemma is_padbytes_inv x : is_padbytes x = true -> exists c, x = repeat c (length x) /\ (c = x00 \/ c = x20) /\ x <> [].
Proof.
  destruct x as [|c t]; [discriminate|]. cbn [is_padbytes].
  destruct (negb (b2z c =? 0) && negb (b2z c =? 32)) eqn:E; [discriminate|]. intros F. exists c.
  split; [|split; [|discriminate]].
  - cbn [length repeat]. f_equal. clear E. rewrite forallb_forall in F. induction t as [|b t IH]; [reflexivity|].
    cbn [length repeat]. f_equal; [apply Byte.byte_dec_bl, F; left; reflexivity | apply IH; intros y Hy; apply F; right; exact Hy].
  - apply Bool.andb_false_iff in E as [E|E]; apply Bool.negb_false_iff, Z.eqb_eq in E.
    + left. rewrite <- (z2b_b2z c), E. reflexivity.
    + right. rewrite <- (z2b_b2z c), E. reflexivity.
Qed.

Lemma header_read_prh l a h : phys_header l a h -> read_prh h = mk_prh l a /\ length h = 4%nat.
Proof. intros (l0 & l1 & a0 & a1 & -> & <- & <-). split; [|reflexivity]. unfold read_prh. cbn [firstn skipn]. rewrite !be2. reflexivity. Qed.

(** ** Padding is skipped *)
Lemma skip_padding_found d c h : (c = x00 \/ c = x20) -> len h = 4 -> is_padbytes h = false ->
  forall j fuel buf q, (j < fuel)%nat ->
  at_pos (d_data d) q (repeat c (4 * j) ++ h) -> at_pos (d_data d) q buf -> len buf = 4 ->
  skip_padding fuel d buf (q + 4) = (DOk h, q + 4 * Z.of_nat j + 4).
Proof.
  intros Hc Lh Ph. induction j as [|j IH]; intros fuel buf q Hf A B L; destruct fuel as [|fuel]; try lia; cbn [skip_padding].
  - change (repeat c (4 * 0) ++ h) with h in A. rewrite (at_pos_same _ _ _ _ B A) by lia. rewrite Ph. cbn [negb]. unfold dret. f_equal. lia.
  - replace (4 * S j)%nat with (4 + 4 * j)%nat in A by lia. rewrite repeat_app, <- app_assoc in A.
    apply at_pos_app in A as [A1 A2]. change (len (repeat c 4)) with 4 in A2.
    rewrite (at_pos_same _ _ _ _ B A1) by (rewrite L; reflexivity).
    rewrite is_padbytes_repeat by (auto; lia). cbn [negb].
    assert (exists buf', at_pos (d_data d) (q + 4) buf' /\ len buf' = 4) as (buf' & B' & L').
    { destruct j.
      - change (repeat c (4 * 0) ++ h) with h in A2. exists h. auto.
      - exists (repeat c 4). replace (4 * S j)%nat with (4 + 4 * j)%nat in A2 by lia.
        rewrite repeat_app, <- app_assoc in A2. apply at_pos_app in A2 as [A2 _]. auto. }
    unfold dbind. rewrite (dread_at _ _ _ 4 B') by lia. cbv beta iota. rewrite short_full by lia. rewrite L'.
    rewrite (IH fuel buf' (q + 4)) by (auto; lia). f_equal. lia.
Qed.

Lemma firstn_at data pos x n : at_pos data pos x -> (n <= length x)%nat -> at_pos data pos (firstn n x) /\ len (firstn n x) = Z.of_nat n.
Proof.
  intros A L. rewrite <- (firstn_skipn n x) in A. apply at_pos_app in A as [A _]. split; [exact A|].
  unfold len. rewrite firstn_length. lia.
Qed.
Lemma skipn_at data pos x n : at_pos data pos x -> (n <= length x)%nat -> at_pos data (pos + Z.of_nat n) (skipn n x).
Proof.
  intros A L. rewrite <- (firstn_skipn n x) in A. apply at_pos_app in A as [_ A].
  unfold len in A. rewrite firstn_length in A. replace (Nat.min n (length x)) with n in A by lia. exact A.
Qed.

(** the header behind padding that can be told from it *)
Lemma header_found d pos p h l a :
  phys_header l a h -> 0 < l -> gap (d_offset d) pos p h -> at_pos (d_data d) pos (p ++ h) ->
  read_physical_header d pos = (if l <? min_length a then DErr OtherError else DOk (mk_prh l a), pos + len p + 4).
Proof.
  intros H Hl (Hp & H4 & G) A. destruct (header_read_prh l a h H) as [E L4].
  assert (Lh : len h = 4) by (unfold len; lia).
  pose proof (min_length_spec a) as Em. pose proof (trailer_size_range a) as Rt.
  assert (Ph : is_padbytes h = false).
  { destruct (is_padbytes h) eqn:P; [|reflexivity]. exfalso. apply is_padbytes_inv in P as (c & P & Hc & _).
    rewrite L4 in P. destruct Hc as [-> | ->]; [|exact (H4 P)].
    destruct H as (l0 & l1 & a0 & a1 & -> & <- & _). injection P as -> -> _ _. cbn in Hl. lia. }
  assert (fin : forall pos', (let head := read_prh h in
      if prh_length head <? min_length (prh_attributes head) then dfail OtherError else dret head) pos' = (if l <? min_length a then DErr OtherError else DOk (mk_prh l a), pos')).
  { intros pos'. rewrite E. cbn [prh_length prh_attributes]. destruct (l <? min_length a); reflexivity. }
  unfold read_physical_header.
  destruct Hp as (c & k & -> & Hc).
  destruct (Nat.eq_dec k 0) as [->|Nk].
  - (* no padding *)
    cbn [repeat app] in *. change (len []) with 0 in *. rewrite Z.add_0_r in *.
    unfold dbind at 1. rewrite (dread_at _ _ _ 4 A) by lia. cbv beta iota. rewrite short_full by lia. rewrite Lh.
    destruct (is_padbytes (firstn 2 h)) eqn:P2.
    + assert (firstn 2 h = [x20; x20]) as E2.
      { destruct H as (l0 & l1 & a0 & a1 & -> & <- & _). cbn [firstn] in *.
        apply is_padbytes_inv in P2 as (c2 & P2 & Hc2 & _). cbn [length repeat] in P2. injection P2 as -> ->.
        destruct Hc2 as [-> | ->]; [|reflexivity]. exfalso. cbn in Hl. lia. }
      destruct G as [[_ N]|[_ Al]]; [contradiction|].
      unfold dbind at 1. cbn [dtell]. unfold dbind at 1.
      unfold dtell. replace ((d_offset d + (pos + 4)) mod 4) with 0 by lia. cbn [Z.eqb negb].
      unfold dret at 1. unfold dbind at 1.
      rewrite (skip_padding_found d x00 h (or_introl eq_refl) Lh Ph 0) by (auto; lia).
      rewrite fin. f_equal. lia.
    + unfold dbind at 1. unfold dret at 1. rewrite fin. reflexivity.
  - (* padding *)
    destruct G as [[G _]|[G1 G2]]; [destruct k; [lia | discriminate]|]. rewrite repeat_length in G1.
    assert (Lp : len (repeat c k) = Z.of_nat k) by (unfold len; rewrite repeat_length; reflexivity).
    rewrite Lp in *. assert (Lph : length (repeat c k ++ h) = (k + 4)%nat) by (rewrite app_length, repeat_length; lia).
    destruct (firstn_at _ _ _ 4 A ltac:(lia)) as [B LB]. set (b4 := firstn 4 (repeat c k ++ h)) in *.
    unfold dbind at 1. rewrite (dread_at _ _ _ 4 B) by lia. cbv beta iota. rewrite short_full by lia. rewrite LB.
    assert (P2 : is_padbytes (firstn 2 b4) = true).
    { unfold b4. rewrite firstn_firstn. replace (Nat.min 2 4) with 2%nat by lia. rewrite firstn_app, repeat_length.
      replace (2 - k)%nat with 0%nat by lia. cbn [firstn]. rewrite app_nil_r.
      replace k with (2 + (k - 2))%nat by lia. rewrite repeat_app. change (is_padbytes (repeat c 2) = true). apply is_padbytes_repeat; auto. }
    rewrite P2.
    (* k = 4 j + m *)
    set (j := (k / 4)%nat). set (m := (k mod 4)%nat).
    assert (Ek : k = (m + 4 * j)%nat) by (unfold j, m; pose proof (Nat.div_mod_eq k 4); lia).
    assert (Hm : (m < 4)%nat) by (unfold m; apply Nat.mod_upper_bound; lia).
    assert (Am : at_pos (d_data d) (pos + Z.of_nat m) (repeat c (4 * j) ++ h)).
    { rewrite Ek, repeat_app, <- app_assoc in A. apply at_pos_app in A as [_ A]. unfold len in A. rewrite repeat_length in A. exact A. }
    cut (exists buf, at_pos (d_data d) (pos + Z.of_nat m) buf /\ len buf = 4 /\
      (let+ buf0 := if negb ((d_offset d + (pos + 4)) mod 4 =? 0) then
          let+ more := dread d (4 - (d_offset d + (pos + 4)) mod 4) in
          if short more (4 - (d_offset d + (pos + 4)) mod 4)
          then header_error (skipn (Z.to_nat (4 - (d_offset d + (pos + 4)) mod 4)) b4 ++ more) (Z.of_nat (length more))
          else dret (skipn (Z.to_nat (4 - (d_offset d + (pos + 4)) mod 4)) b4 ++ more)
        else dret b4 in skip_padding (S (length (d_data d))) d buf0) (pos + Z.of_nat 4) = 
      skip_padding (S (length (d_data d))) d buf (pos + Z.of_nat m + 4)).
    { intros (buf & Bb & Lb & Eb). unfold dbind at 1. unfold dbind at 1. unfold dtell.
      change (Z.of_nat 4) with 4 in *. rewrite Eb.
      rewrite (skip_padding_found d c h Hc Lh Ph j) by
        (auto; apply at_pos_bound in A; rewrite len_app, Lp in A; unfold len in A; lia).
      rewrite fin. f_equal. lia. }
    assert (Ea : (d_offset d + (pos + 4)) mod 4 = (- Z.of_nat k) mod 4) by lia. rewrite Ea.
    destruct (Z.eq_dec ((- Z.of_nat k) mod 4) 0) as [Z0|NZ].
    + assert (m = 0%nat) as Em0 by lia. exists b4. rewrite Em0. rewrite Z.add_0_r. split; [exact B|]. split; [lia|].
      rewrite Z0. cbn [Z.eqb negb]. unfold dbind, dret. reflexivity.
    + assert (Ep : 4 - (- Z.of_nat k) mod 4 = Z.of_nat m) by lia. rewrite Ep.
      replace (negb ((- Z.of_nat k) mod 4 =? 0)) with true by lia.
      (* the next m bytes *)
      pose proof (skipn_at _ _ _ 4 A ltac:(lia)) as A4.
      assert (L4' : length (skipn 4 (repeat c k ++ h)) = k) by (rewrite skipn_length; lia).
      destruct (firstn_at _ _ _ m A4 ltac:(lia)) as [C LC]. set (more := firstn m (skipn 4 (repeat c k ++ h))) in *.
      exists (skipn m b4 ++ more).
      assert (LS : len (skipn m b4) = 4 - Z.of_nat m) by (unfold len in *; rewrite skipn_length; lia).
      split.
      { apply at_pos_app. split; [apply skipn_at; [exact B | unfold len in LB; lia]|].
        rewrite LS. replace (pos + Z.of_nat m + (4 - Z.of_nat m)) with (pos + Z.of_nat 4) by lia. exact C. }
      split; [rewrite len_app; lia|].
      rewrite Nat2Z.id. unfold dbind at 1. unfold dbind at 1. rewrite (dread_at _ _ _ (Z.of_nat m) C) by lia.
      rewrite short_full by lia. unfold dret. f_equal. lia.
Qed.
