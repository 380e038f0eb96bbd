(** Lemmas about dlisio.cpp: component descriptors, fingerprints, packf. *)
From Verif Require Import Bytes BytesProofs DlisTypes SpecTypes TypesProofs TypesProofs2
  DlisCore SpecCore CoreProofs VaxProofs DlisFloatProofs IsinglProofs.
Local Open Scope Z_scope.
Ltac Zify.zify_post_hook ::= Z.div_mod_to_equations.

(** ** Components *)
Lemma component_role d : 0 <= d < 256 -> dlis_component d = 32 * (d / 32).
Proof.
  intros H. unfold dlis_component.
  apply Z.eqb_eq. apply (z_sweep (fun d => Z.land d (128 + 64 + 32) =? 32 * (d / 32)) 256); [vm_compute; reflexivity | lia].
Qed.

Lemma component_set_spec d r :
  dlis_component_set d r =
  (if (r =? 160) || (r =? 192) || (r =? 224) then Some (bit_value d 4, bit_value d 3) else None).
Proof. unfold dlis_component_set, ROLE_RDSET, ROLE_RSET, ROLE_SET. rewrite <- !land_bit by lia. reflexivity. Qed.
Lemma component_object_spec d r :
  dlis_component_object d r = (if r =? 96 then Some (bit_value d 4) else None).
Proof.
  unfold dlis_component_object, ROLE_OBJECT. rewrite <- !land_bit by lia.
  destruct (r =? 96); reflexivity.
Qed.
Lemma component_attrib_spec d r :
  dlis_component_attrib d r =
  (if (r =? 32) || (r =? 64)
   then Some (bit_value d 4, bit_value d 3, bit_value d 2, bit_value d 1, bit_value d 0) else None).
Proof. unfold dlis_component_attrib, ROLE_ATTRIB, ROLE_INVATR. rewrite <- !land_bit by lia. reflexivity. Qed.

(** ** Numerals *)
Lemma decimal_value_snoc s d : decimal_value (s ++ [d]) = 10 * decimal_value s + (b2z d - 48).
Proof.
  induction s as [|x s IH]; cbn [app decimal_value length].
  - change (10 ^ Z.of_nat 0) with 1. ring.
  - rewrite IH, app_length. cbn [length]. rewrite Nat2Z.inj_add, Z.pow_add_r by lia.
    change (10 ^ Z.of_nat 1) with 10. ring.
Qed.

Lemma dec_digits_numeral fuel n acc :
  0 <= n < 10 ^ Z.of_nat fuel -> exists s, dec_digits fuel n acc = s ++ acc /\
    ((fuel > 0)%nat -> is_numeral s n).
Proof.
  revert n acc. induction fuel as [|k IH]; intros n acc Hn; cbn [dec_digits].
  - exists []. split; [reflexivity | lia].
  - assert (Hd : digit_char (z2b (48 + n mod 10)) /\ b2z (z2b (48 + n mod 10)) = 48 + n mod 10).
    { rewrite b2z_z2b_id by lia. split; [unfold digit_char; rewrite b2z_z2b_id; lia | reflexivity]. }
    destruct Hd as [Hd Hv].
    destruct (n <? 10) eqn:L.
    + exists [z2b (48 + n mod 10)]. split; [reflexivity|]. intros _.
      split; [discriminate|]. split; [auto|]. split.
      * cbn [decimal_value length]. rewrite Hv. change (10 ^ Z.of_nat 0) with 1. lia.
      * intros d t E Ht. injection E as _ <-. congruence.
    + rewrite Nat2Z.inj_succ, Z.pow_succ_r in Hn by lia.
      destruct (IH (n / 10) (z2b (48 + n mod 10) :: acc)) as (s & E & N); [lia|].
      assert (K : (k > 0)%nat). { destruct k; [|lia]. change (10 ^ Z.of_nat 0) with 1 in Hn. lia. }
      destruct (N K) as (N1 & N2 & N3 & N4).
      exists (s ++ [z2b (48 + n mod 10)]). split; [rewrite E, <- app_assoc; reflexivity|]. intros _.
      split; [destruct s; discriminate|].
      split; [apply Forall_app; auto|]. split; [rewrite decimal_value_snoc, N3, Hv; lia|].
      intros d t Ed Ht. destruct s as [|d0 s0]; [congruence|]. injection Ed as <- <-.
      destruct s0 as [|d1 s1].
      * cbn [decimal_value length] in N3. change (10 ^ Z.of_nat 0) with 1 in N3. lia.
      * eapply N4; [reflexivity | discriminate].
Qed.

Lemma to_string_numeral n : 0 <= n < 10 ^ 20 -> is_numeral (to_string n) n.
Proof.
  intros H. unfold to_string. replace (n <? 0) with false by lia.
  destruct (dec_digits_numeral 20 n []) as (s & E & N); [exact H|].
  rewrite E, app_nil_r. apply N. lia.
Qed.

Lemma numeral_inj s n m : is_numeral s n -> is_numeral s m -> n = m.
Proof. intros (_ & _ & H & _) (_ & _ & K & _). congruence. Qed.

(** ** Fingerprints *)
Lemma split_first (x : byte) s t a b :
  ~ In x s -> ~ In x t -> s ++ x :: a = t ++ x :: b -> s = t /\ a = b.
Proof.
  revert t. induction s as [|c s IH]; intros t Hs Ht E; destruct t as [|d t]; cbn [app] in E.
  - injection E as ->. auto.
  - injection E as -> _. exfalso. apply Ht. left. reflexivity.
  - injection E as -> _. exfalso. apply Hs. left. reflexivity.
  - injection E as -> E. destruct (IH t) as [-> ->]; auto; intros H; [apply Hs | apply Ht]; right; exact H.
Qed.

Lemma split_last (x : byte) s t a b :
  ~ In x s -> ~ In x t -> a ++ x :: s = b ++ x :: t -> a = b /\ s = t.
Proof.
  intros Hs Ht E. apply (f_equal (@rev byte)) in E. rewrite !rev_app_distr in E. cbn [rev] in E.
  rewrite <- !app_assoc in E. cbn [app] in E.
  apply split_first in E; [|rewrite <- in_rev; assumption | rewrite <- in_rev; assumption].
  destruct E as [E1 E2]. apply (f_equal (@rev byte)) in E1, E2. rewrite !rev_involutive in *. auto.
Qed.

Lemma numeral_no_dot s n : is_numeral s n -> ~ In "."%byte s.
Proof.
  intros (_ & F & _) I. rewrite Forall_forall in F. specialize (F _ I). unfold digit_char in F.
  change (b2z ".") with 46 in F. lia.
Qed.

Definition fp_text (type id : bytes) (o c : bytes) : bytes :=
  text "T." ++ type ++ text "-I." ++ id ++ text "-O." ++ o ++ text "-C." ++ c.

Lemma fingerprint_text type id o c :
  type <> [] -> dlis_object_fingerprint type id o c = Some (fp_text type id (to_string o) (to_string c)).
Proof.
  intros H. unfold dlis_object_fingerprint. destruct type as [|t type]; [congruence|].
  cbn [length]. replace (_ <=? 0) with false by lia. f_equal.
Qed.

Lemma Some_eq {A} (x y : A) : Some x = Some y -> x = y.
Proof. congruence. Qed.

Lemma fp_tail id1 o1 c1 id2 o2 c2 :
  ~ In "."%byte o1 -> ~ In "."%byte o2 -> ~ In "."%byte c1 -> ~ In "."%byte c2 ->
  id1 ++ text "-O." ++ o1 ++ text "-C." ++ c1 = id2 ++ text "-O." ++ o2 ++ text "-C." ++ c2 ->
  id1 = id2 /\ o1 = o2 /\ c1 = c2.
Proof.
  intros O1 O2 C1 C2 E.
  assert (R : forall id o c, id ++ text "-O." ++ o ++ text "-C." ++ c =
     (((id ++ ["-"%byte; "O"%byte]) ++ "."%byte :: o) ++ ["-"%byte] ++ ["C"%byte]) ++ "."%byte :: c).
  { intros. rewrite <- !app_assoc. reflexivity. }
  rewrite !R in E. apply split_last in E as [E ->]; [|assumption|assumption].
  rewrite !(app_assoc _ ["-"%byte]) in E.
  apply app_inj_tail in E as [E _]. apply app_inj_tail in E as [E _].
  apply split_last in E as [E ->]; [|assumption|assumption].
  apply app_inv_tail in E. auto.
Qed.

Lemma fingerprint_inj type id1 o1 c1 id2 o2 c2 f :
  0 <= o1 < 10 ^ 20 -> 0 <= o2 < 10 ^ 20 -> 0 <= c1 < 10 ^ 20 -> 0 <= c2 < 10 ^ 20 ->
  dlis_object_fingerprint type id1 o1 c1 = Some f ->
  dlis_object_fingerprint type id2 o2 c2 = Some f ->
  id1 = id2 /\ o1 = o2 /\ c1 = c2.
Proof.
  intros Ho1 Ho2 Hc1 Hc2 F1 F2.
  assert (NT : type <> []) by (intros ->; discriminate).
  rewrite fingerprint_text in F1, F2 by exact NT. rewrite <- F2 in F1. apply Some_eq in F1 as E.
  unfold fp_text in E. do 3 apply app_inv_head in E.
  apply to_string_numeral in Ho1 as N1, Ho2 as N2, Hc1 as N3, Hc2 as N4.
  apply fp_tail in E as (-> & E2 & E3); try (eapply numeral_no_dot; eassumption).
  rewrite E2 in N1. rewrite E3 in N3.
  split; [reflexivity|]. split; eapply numeral_inj; eassumption.
Qed.

Lemma fingerprint_inj_types type1 id1 o1 c1 type2 id2 o2 c2 f :
  ~ In "."%byte type1 -> ~ In "."%byte type2 ->
  0 <= o1 < 10 ^ 20 -> 0 <= o2 < 10 ^ 20 -> 0 <= c1 < 10 ^ 20 -> 0 <= c2 < 10 ^ 20 ->
  dlis_object_fingerprint type1 id1 o1 c1 = Some f ->
  dlis_object_fingerprint type2 id2 o2 c2 = Some f ->
  type1 = type2 /\ id1 = id2 /\ o1 = o2 /\ c1 = c2.
Proof.
  intros T1 T2 Ho1 Ho2 Hc1 Hc2 F1 F2.
  assert (E : type1 = type2).
  { assert (NT1 : type1 <> []) by (intros ->; discriminate).
    assert (NT2 : type2 <> []) by (intros ->; discriminate).
    rewrite fingerprint_text in F1 by exact NT1. rewrite fingerprint_text in F2 by exact NT2.
    rewrite <- F2 in F1. apply Some_eq in F1 as E. unfold fp_text in E. apply app_inv_head in E.
    assert (R : forall (t r : bytes), t ++ text "-I." ++ r = (t ++ ["-"%byte; "I"%byte]) ++ "."%byte :: r)
      by (intros; rewrite <- app_assoc; reflexivity).
    rewrite !R in E. apply split_first in E as [E _].
    - apply app_inv_tail in E. exact E.
    - rewrite in_app_iff. intros [H|[H|[H|[]]]]; [contradiction | discriminate | discriminate].
    - rewrite in_app_iff. intros [H|[H|[H|[]]]]; [contradiction | discriminate | discriminate]. }
  subst type2. split; [reflexivity|]. eapply fingerprint_inj; eassumption.
Qed.

Lemma fingerprint_form type id o c :
  type <> [] -> 0 <= o < 2 ^ 31 -> 0 <= c <= 255 ->
  exists so sc, is_numeral so o /\ is_numeral sc c /\
    py_fingerprint type id o c =
    FpOk (text "T." ++ type ++ text "-I." ++ id ++ text "-O." ++ so ++ text "-C." ++ sc).
Proof.
  intros NT Ho Hc. exists (to_string o), (to_string c).
  split; [apply to_string_numeral; plia|]. split; [apply to_string_numeral; plia|].
  unfold py_fingerprint. replace (c >? 255) with false by lia. replace (c <? 0) with false by lia.
  unfold obname_fingerprint. cbn [ob_id ob_origin ob_copy].
  rewrite fingerprint_text by exact NT. unfold dlis_object_fingerprint_size.
  replace (o <? 0) with false by lia.
  destruct type as [|t0 type]; [congruence|].
  replace (Z.of_nat (length (t0 :: type)) <=? 0) with false by (cbn [length]; lia).
  replace (Z.of_nat (length id) <? 0) with false by lia.
  assert (L : Z.of_nat (length (fp_text (t0 :: type) id (to_string o) (to_string c))) =
      11 + Z.of_nat (length (t0 :: type)) + Z.of_nat (length id) +
      Z.of_nat (length (to_string o)) + Z.of_nat (length (to_string c))).
  { unfold fp_text. rewrite !app_length. cbn [text txt_bytes length]. lia. }
  rewrite <- L. replace (_ >? _) with false by lia.
  replace (Z.to_nat _ - _)%nat with O by lia. cbn [repeat]. rewrite app_nil_r. reflexivity.
Qed.

Lemma fingerprint_rejects type id o c :
  type = [] \/ o < 0 \/ c < 0 \/ 255 < c -> py_fingerprint type id o c = FpInvalid.
Proof.
  intros H. unfold py_fingerprint. destruct (c >? 255) eqn:C1; [reflexivity|].
  destruct (c <? 0) eqn:C2; [reflexivity|]. unfold obname_fingerprint, dlis_object_fingerprint_size.
  cbn [ob_origin ob_id ob_copy].
  destruct (o <? 0) eqn:O; [reflexivity|]. destruct H as [->|[H|[H|H]]]; try lia. reflexivity.
Qed.

(** ** Readers depend only on what they consume *)
Definition local {A} (r : bytes -> option (A * bytes)) : Prop :=
  forall xs v rest, r xs = Some (v, rest) ->
  exists e, xs = e ++ rest /\ forall rest', r (e ++ rest') = Some (v, rest').

Lemma local_take n : local (take n).
Proof.
  intros xs v rest H. apply take_Some in H as [-> <-]. exists v. split; [reflexivity|].
  intros. apply take_app. reflexivity.
Qed.

Lemma local_ret {A} (v : A) : local (fun xs => Some (v, xs)).
Proof. intros xs w rest H. injection H as <- <-. exists []. auto. Qed.

Lemma local_bind {A B} (r : bytes -> option (A * bytes)) (k : A -> bytes -> option (B * bytes)) :
  local r -> (forall a, local (k a)) -> local (fun xs => do (a, y) <- r xs; k a y).
Proof.
  intros Hr Hk xs v rest H. destruct (r xs) as [[a y]|] eqn:R; [|discriminate]. cbn [obind] in H.
  apply Hr in R as (e1 & -> & L1). apply Hk in H as (e2 & -> & L2).
  exists (e1 ++ e2). split; [apply app_assoc|]. intros rest'. rewrite <- app_assoc, L1. cbn [obind]. apply L2.
Qed.

Lemma local_ext {A} (r1 r2 : bytes -> option (A * bytes)) : (forall xs, r1 xs = r2 xs) -> local r1 -> local r2.
Proof.
  intros E H xs v rest R. rewrite <- E in R. apply H in R as (e & -> & L). exists e. split; [reflexivity|].
  intros. rewrite <- E. apply L.
Qed.

Lemma local_map {A B} (r : bytes -> option (A * bytes)) (g : A -> B) :
  local r -> local (fun xs => do (a, y) <- r xs; Some (g a, y)).
Proof. intros H. apply local_bind; [exact H | intros; apply local_ret]. Qed.

Lemma local_read_be n : local (read_be n).
Proof. apply (local_map (take n) be), local_take. Qed.

Lemma local_uvari : local dlis_uvari.
Proof.
  intros xs v rest H. apply uvari_read_spec in H as (e & -> & S). exists e. split; [reflexivity|].
  intros. apply uvari_read_spec. eauto.
Qed.
Lemma local_ident : local dlis_ident.
Proof. apply (local_bind dlis_ushort (fun ln r => take (Z.to_nat ln) r)); [apply local_read_be | intros; apply local_take]. Qed.
Lemma local_ascii : local dlis_ascii.
Proof. apply (local_bind dlis_uvari (fun ln r => take (Z.to_nat ln) r)); [apply local_uvari | intros; apply local_take]. Qed.
Lemma local_obname : local dlis_obname.
Proof.
  unfold dlis_obname. apply (local_bind dlis_origin); [apply local_uvari|]. intros o.
  apply (local_bind dlis_ushort); [apply local_read_be|]. intros c. apply local_map, local_ident.
Qed.
Lemma local_objref : local dlis_objref.
Proof. unfold dlis_objref. apply (local_bind dlis_ident); [apply local_ident|]. intros o. apply local_map, local_obname. Qed.
Lemma local_attref : local dlis_attref.
Proof.
  unfold dlis_attref. apply (local_bind dlis_ident); [apply local_ident|]. intros o.
  apply (local_bind dlis_obname); [apply local_obname|]. intros. apply local_map, local_ident.
Qed.
Lemma local_dtime : local dlis_dtime.
Proof.
  intros xs v rest H. destruct (le_lt_dec 8 (length xs)) as [L|L].
  - do 8 (destruct xs as [|? xs]; [cbn [length] in L; lia |]). rewrite dtime_read in H. injection H as <- <-.
    eexists [_; _; _; _; _; _; _; _]. split; [reflexivity|]. intros. cbn [app]. rewrite dtime_read. reflexivity.
  - rewrite dtime_short in H by exact L. discriminate.
Qed.
Lemma local_vsingl : local dlis_vsingl.
Proof.
  unfold dlis_vsingl. apply (local_bind (take 4)); [apply local_take|]. intros a.
  destruct a as [|x0 [|x1 [|x2 [|x3 [|x4 a]]]]]; try (intros xs v rest H; discriminate). apply local_ret.
Qed.
Lemma local_fshort : local dlis_fshort.
Proof. unfold dlis_fshort. apply (local_bind dlis_unorm); [apply local_read_be|]. intros. apply local_ret. Qed.
Lemma local_pair {A} (r : bytes -> option (A * bytes)) : local r ->
  local (fun xs => do (v, ys) <- r xs; do (a, zs) <- r ys; Some ((v, a), zs)).
Proof. intros H. apply (local_bind r); [exact H|]. intros. apply local_map. exact H. Qed.
Lemma local_triple {A} (r : bytes -> option (A * bytes)) : local r ->
  local (fun xs => do (v, ys) <- r xs; do (a, zs) <- r ys; do (b, ws) <- r zs; Some ((v, a, b), ws)).
Proof. intros H. apply (local_bind r); [exact H|]. intros. apply (local_bind r); [exact H|]. intros. apply local_map. exact H. Qed.

Lemma local_interpret f : local (interpret f).
Proof.
  destruct f; unfold interpret; apply local_map.
  all: first [ apply local_fshort | apply local_vsingl | apply local_dtime | apply local_obname
             | apply local_objref | apply local_attref | apply local_ident | apply local_ascii
             | apply local_uvari
             | apply (local_pair dlis_fsingl), local_read_be | apply (local_pair dlis_fdoubl), local_read_be
             | apply (local_triple dlis_fsingl), local_read_be | apply (local_triple dlis_fdoubl), local_read_be
             | apply local_read_be | idtac ].
  - apply local_map, local_read_be.
  - apply local_map, local_read_be.
  - apply local_map, local_read_be.
  - apply local_map, local_read_be.
Qed.

(** ** pack and packf *)
Fixpoint args_bytes (args : list arg) : bytes :=
  match args with
  | [] => []
  | Scalar n v :: t => native n v ++ args_bytes t
  | Str s :: t => native 4 (Z.of_nat (length s)) ++ s ++ args_bytes t
  end.

Lemma length_enc_le n z : length (enc_le n z) = n.
Proof. revert z. induction n as [|n IH]; intros z; cbn [enc_le length]; [reflexivity | rewrite IH; reflexivity]. Qed.

Lemma le_enc_le n z : le (enc_le n z) = z mod 256 ^ Z.of_nat n.
Proof.
  revert z. induction n as [|n IH]; intros z; cbn [enc_le le].
  - change (256 ^ Z.of_nat 0) with 1. rewrite Z.mod_1_r. reflexivity.
  - rewrite IH, b2z_z2b. rewrite Nat2Z.inj_succ, Z.pow_succ_r by lia.
    rewrite Z.rem_mul_r; [reflexivity | lia |]. apply Z.pow_pos_nonneg; lia.
Qed.

Lemma native_length n v : length (native n v) = n.
Proof. apply length_enc_le. Qed.
Lemma native_le n v : le (native n v) = v mod 256 ^ Z.of_nat n.
Proof. unfold native. rewrite le_enc_le. apply Z.mod_mod. pose proof (Z.pow_pos_nonneg 256 (Z.of_nat n)). lia. Qed.

Lemma pack_some d args :
  pack (Some d) args = (Some (d ++ args_bytes args), Z.of_nat (length (args_bytes args))).
Proof.
  revert d. induction args as [|[n v|s] t IH]; intros d; cbn [pack args_bytes].
  - rewrite app_nil_r. reflexivity.
  - rewrite IH, <- app_assoc, !app_length, native_length. f_equal. lia.
  - rewrite IH, !app_length, native_length, <- !app_assoc. f_equal. lia.
Qed.
Lemma pack_none args : pack None args = (None, Z.of_nat (length (args_bytes args))).
Proof.
  induction args as [|[n v|s] t IH]; cbn [pack args_bytes].
  - reflexivity.
  - rewrite IH, !app_length, native_length. f_equal. lia.
  - rewrite IH, !app_length, native_length. f_equal. lia.
Qed.

(** reference semantics of a format string *)
Inductive run := ROob | RErr (out : bytes) | ROk (out rest : bytes).
Fixpoint unpack (f : bytes) (src : bytes) : run :=
  match f with
  | [] => ROk [] src
  | c :: t =>
      match fmt_of_byte c with
      | None => RErr []
      | Some x =>
          match interpret x src with
          | None => ROob
          | Some (args, r) =>
              match unpack t r with
              | ROk o r' => ROk (args_bytes args ++ o) r'
              | RErr o => RErr (args_bytes args ++ o)
              | ROob => ROob
              end
          end
      end
  end.

Lemma packf_some f src d w :
  packf f (mk_cursor (Some src) (Some d) w) =
  match unpack f src with
  | ROob => None
  | RErr o => Some (mk_cursor None (Some (d ++ o)) (w + Z.of_nat (length o)))
  | ROk o r => Some (mk_cursor (Some r) (Some (d ++ o)) (w + Z.of_nat (length o)))
  end.
Proof.
  revert src d w. induction f as [|c t IH]; intros src d w; cbn [packf unpack cur_src cur_dst cur_written].
  - rewrite app_nil_r, Z.add_0_r. reflexivity.
  - destruct (fmt_of_byte c) as [x|]; [|rewrite app_nil_r, Z.add_0_r; reflexivity]. cbn [obind].
    destruct (interpret x src) as [[args r]|]; [|reflexivity]. cbn [obind].
    rewrite pack_some, IH. destruct (unpack t r) as [|o|o r']; [reflexivity | |];
      rewrite app_length, <- app_assoc, Nat2Z.inj_add, Z.add_assoc; reflexivity.
Qed.
Lemma packf_none f src w :
  packf f (mk_cursor (Some src) None w) =
  match unpack f src with
  | ROob => None
  | RErr o => Some (mk_cursor None None (w + Z.of_nat (length o)))
  | ROk o r => Some (mk_cursor (Some r) None (w + Z.of_nat (length o)))
  end.
Proof.
  revert src w. induction f as [|c t IH]; intros src w; cbn [packf unpack cur_src cur_dst cur_written].
  - rewrite Z.add_0_r. reflexivity.
  - destruct (fmt_of_byte c) as [x|]; [|rewrite Z.add_0_r; reflexivity]. cbn [obind].
    destruct (interpret x src) as [[args r]|]; [|reflexivity]. cbn [obind].
    rewrite pack_none, IH. destruct (unpack t r) as [|o|o r']; [reflexivity | |];
      rewrite app_length, Nat2Z.inj_add, Z.add_assoc; reflexivity.
Qed.

Lemma dlis_packf_eq f src :
  dlis_packf f src = match unpack f src with ROob => PackOob | RErr _ => PackErr | ROk o _ => PackOk o end.
Proof. unfold dlis_packf. rewrite packf_some. destruct (unpack f src); reflexivity. Qed.
Lemma dlis_packflen_eq f src :
  dlis_packflen f src =
  match unpack f src with
  | ROob => LenOob | RErr _ => LenErr
  | ROk o r => LenOk (Z.of_nat (length src) - Z.of_nat (length r)) (Z.of_nat (length o))
  end.
Proof. unfold dlis_packflen. rewrite packf_none. destruct (unpack f src); reflexivity. Qed.

Lemma unpack_local f src out rest :
  unpack f src = ROk out rest ->
  exists e, src = e ++ rest /\ forall rest', unpack f (e ++ rest') = ROk out rest'.
Proof.
  revert src out rest. induction f as [|c t IH]; intros src out rest; cbn [unpack].
  - intros H. injection H as <- <-. exists []. auto.
  - destruct (fmt_of_byte c) as [x|]; [|discriminate].
    destruct (interpret x src) as [[args r]|] eqn:I; [|discriminate].
    destruct (unpack t r) as [|o|o r'] eqn:U; try discriminate. intros H. injection H as <- <-.
    apply (local_interpret x) in I as (e1 & -> & L1). apply IH in U as (e2 & -> & L2).
    exists (e1 ++ e2). split; [apply app_assoc|]. intros rest'. rewrite <- app_assoc, L1, L2. reflexivity.
Qed.

Lemma unpack_app f g src :
  unpack (f ++ g) src =
  match unpack f src with
  | ROob => ROob
  | RErr o => RErr o
  | ROk o r => match unpack g r with
               | ROob => ROob | RErr o' => RErr (o ++ o') | ROk o' r' => ROk (o ++ o') r' end
  end.
Proof.
  revert src. induction f as [|c t IH]; intros src; cbn [app unpack].
  - destruct (unpack g src); reflexivity.
  - destruct (fmt_of_byte c) as [x|]; [|reflexivity].
    destruct (interpret x src) as [[args r]|]; [|reflexivity]. rewrite IH.
    destruct (unpack t r) as [|o|o r']; [reflexivity | reflexivity |].
    destruct (unpack g r'); rewrite ?app_assoc; reflexivity.
Qed.

(** *** C17 statements *)
Lemma packf_measure f src :
  match dlis_packf f src, dlis_packflen f src with
  | PackOob, LenOob => True
  | PackErr, LenErr => True
  | PackOk out, LenOk nread nwrite =>
      nwrite = Z.of_nat (length out) /\
      0 <= nread <= Z.of_nat (length src) /\
      forall rest, dlis_packf f (firstn (Z.to_nat nread) src ++ rest) = PackOk out
  | _, _ => False
  end.
Proof.
  rewrite dlis_packf_eq, dlis_packflen_eq. destruct (unpack f src) as [|o|o r] eqn:U; try exact I.
  apply unpack_local in U as (e & -> & L). rewrite app_length. split; [reflexivity|]. split; [lia|].
  intros rest. replace (Z.to_nat _) with (length e) by lia. rewrite firstn_len by reflexivity.
  rewrite dlis_packf_eq, L. reflexivity.
Qed.

Lemma packf_concat f g src :
  dlis_packf (f ++ g) src =
  match dlis_packf f src, dlis_packflen f src with
  | PackOk o1, LenOk n _ =>
      match dlis_packf g (skipn (Z.to_nat n) src) with
      | PackOk o2 => PackOk (o1 ++ o2)
      | e => e
      end
  | e, _ => e
  end.
Proof.
  rewrite (dlis_packf_eq (f ++ g)), unpack_app, (dlis_packf_eq f), dlis_packflen_eq.
  destruct (unpack f src) as [|o|o r] eqn:U; try reflexivity.
  apply unpack_local in U as (e & -> & L).
  replace (Z.to_nat _) with (length e) by (rewrite app_length; lia).
  rewrite skipn_app, Nat.sub_diag, skipn_all. cbn [app skipn].
  rewrite dlis_packf_eq. destruct (unpack g r); reflexivity.
Qed.

(** static sizes *)
Definition fixed_fmt (x : fmt) : option (Z * Z) :=   (* disk size, memory size *)
  match x with
  | FSHORT => Some (2, 4) | FSINGL | ISINGL | VSINGL | SLONG | ULONG => Some (4, 4)
  | FSING1 | FDOUBL | CSINGL => Some (8, 8) | FSING2 => Some (12, 12)
  | FDOUB1 | CDOUBL => Some (16, 16) | FDOUB2 => Some (24, 24)
  | SSHORT | USHORT | STATUS => Some (1, 1) | SNORM | UNORM => Some (2, 2)
  | DTIME => Some (8, 32)
  | _ => None
  end.

Lemma interpret_fixed x s d src :
  fixed_fmt x = Some (s, d) ->
  0 < s /\
  (s <= Z.of_nat (length src) -> exists args, interpret x src = Some (args, skipn (Z.to_nat s) src) /\
      Z.of_nat (length (args_bytes args)) = d) /\
  (Z.of_nat (length src) < s -> interpret x src = None).
Proof.
  destruct sizes_consumed as (_ & C & _). specialize (C src).
  destruct C as (C1 & C2 & C3 & C4 & C5 & C6 & C7 & C8 & C9 & C10 & C11 & C12 & C13 & C14 & C15 & C16 & C17 & C21 & C26).
  assert (G : forall A (rd : bytes -> option (A * bytes)) (g : A -> list arg) n d,
    consumes rd n src -> (forall a, length (args_bytes (g a)) = d) ->
    0 < n /\
    (n <= Z.of_nat (length src) -> exists args, (do (v, r) <- rd src; Some (g v, r)) = Some (args, skipn (Z.to_nat n) src) /\
      Z.of_nat (length (args_bytes args)) = Z.of_nat d) /\
    (Z.of_nat (length src) < n -> (do (v, r) <- rd src; Some (g v, r)) = None)).
  { intros A rd g n d0 (P & Q & R) Hg. split; [exact P|]. split; intros H.
    - destruct (Q H) as [v ->]. cbn [obind]. eexists. split; [reflexivity|]. rewrite Hg. reflexivity.
    - rewrite (R H). reflexivity. }
  destruct x; cbn [fixed_fmt]; try discriminate; intros E; injection E as <- <-; unfold interpret.
  - apply (G _ _ _ _ 4%nat C1); intros; cbn [args_bytes]; rewrite !app_length, !native_length; reflexivity.
  - apply (G _ _ _ _ 4%nat C2); intros; cbn [args_bytes]; rewrite !app_length, !native_length; reflexivity.
  - apply (G _ _ _ _ 8%nat C3); intros []; cbn [args_bytes]; rewrite !app_length, !native_length; reflexivity.
  - apply (G _ _ _ _ 12%nat C4); intros [[]]; cbn [args_bytes]; rewrite !app_length, !native_length; reflexivity.
  - apply (G _ _ _ _ 4%nat C5); intros; cbn [args_bytes]; rewrite !app_length, !native_length; reflexivity.
  - apply (G _ _ _ _ 4%nat C6); intros; cbn [args_bytes]; rewrite !app_length, !native_length; reflexivity.
  - apply (G _ _ _ _ 8%nat C7); intros; cbn [args_bytes]; rewrite !app_length, !native_length; reflexivity.
  - apply (G _ _ _ _ 16%nat C8); intros []; cbn [args_bytes]; rewrite !app_length, !native_length; reflexivity.
  - apply (G _ _ _ _ 24%nat C9); intros [[]]; cbn [args_bytes]; rewrite !app_length, !native_length; reflexivity.
  - apply (G _ _ _ _ 8%nat C10); intros []; cbn [args_bytes]; rewrite !app_length, !native_length; reflexivity.
  - apply (G _ _ _ _ 16%nat C11); intros []; cbn [args_bytes]; rewrite !app_length, !native_length; reflexivity.
  - apply (G _ _ _ _ 1%nat C12); intros; cbn [args_bytes]; rewrite !app_length, !native_length; reflexivity.
  - apply (G _ _ _ _ 2%nat C13); intros; cbn [args_bytes]; rewrite !app_length, !native_length; reflexivity.
  - apply (G _ _ _ _ 4%nat C14); intros; cbn [args_bytes]; rewrite !app_length, !native_length; reflexivity.
  - apply (G _ _ _ _ 1%nat C15); intros; cbn [args_bytes]; rewrite !app_length, !native_length; reflexivity.
  - apply (G _ _ _ _ 2%nat C16); intros; cbn [args_bytes]; rewrite !app_length, !native_length; reflexivity.
  - apply (G _ _ _ _ 4%nat C17); intros; cbn [args_bytes]; rewrite !app_length, !native_length; reflexivity.
  - apply (G _ _ _ _ 32%nat C21); intros; cbn [args_bytes]; rewrite !app_length, !native_length; reflexivity.
  - apply (G _ _ _ _ 1%nat C26); intros; cbn [args_bytes]; rewrite !app_length, !native_length; reflexivity.
Qed.

(** classification of characters *)
Definition char_class (c : byte) : option (option (Z * Z) + bool) :=
  (* Some (inl (Some sd)) fixed, Some (inr false) uvari, Some (inr true) text, None invalid *)
  match fmt_of_byte c with
  | None => None
  | Some x => match fixed_fmt x with
              | Some sd => Some (inl (Some sd))
              | None => match x with
                        | UVARI | ORIGIN => Some (inr false)
                        | _ => Some (inr true)
                        end
              end
  end.

Lemma in_fixed c s d : In (c, (s, d)) fixed_chars <-> exists x, fmt_of_byte c = Some x /\ fixed_fmt x = Some (s, d).
Proof.
  split.
  - intros H. cbn [fixed_chars In] in H.
    repeat (destruct H as [H|H]; [injection H as <- <- <-; eexists; split; reflexivity|]). destruct H.
  - intros (x & E & F).
    destruct c; cbn in E; try discriminate; injection E as <-; cbn in F; try discriminate; injection F as <- <-;
      cbn [fixed_chars In]; tauto.
Qed.
Lemma in_uvari c : In c uvari_chars <-> fmt_of_byte c = Some UVARI \/ fmt_of_byte c = Some ORIGIN.
Proof.
  split.
  - intros [<-|[<-|[]]]; [left|right]; reflexivity.
  - intros [E|E]; destruct c; cbn in E; try discriminate; [left | right; left]; reflexivity.
Qed.
Definition text_fmt (x : fmt) : bool :=
  match x with IDENT | ASCII | OBNAME | OBJREF | ATTREF | UNITS => true | _ => false end.
Lemma in_text c : In c text_chars <-> exists x, fmt_of_byte c = Some x /\ text_fmt x = true.
Proof.
  split.
  - intros H. change text_chars with ["s"; "S"; "o"; "O"; "A"; "Q"]%byte in H. cbn [In] in H.
    repeat (destruct H as [<-|H]; [eexists; split; reflexivity|]). destruct H.
  - intros (x & E & T). change text_chars with ["s"; "S"; "o"; "O"; "A"; "Q"]%byte.
    destruct c; cbn in E; try discriminate; injection E as <-; try discriminate T; cbn [In]; tauto.
Qed.
Lemma valid_char_iff c : valid_char c <-> exists x, fmt_of_byte c = Some x.
Proof.
  unfold valid_char. rewrite in_uvari, in_text. split.
  - intros [([s d] & H)|[[H|H]|(x & H & _)]]; [|eauto|eauto|eauto].
    apply in_fixed in H as (x & H & _). eauto.
  - intros (x & E).
    destruct (fixed_fmt x) as [[s d]|] eqn:F.
    + left. exists (s, d). apply in_fixed. eauto.
    + right. destruct x; try discriminate F; rewrite E; first [left; left; reflexivity | left; right; reflexivity | right; eexists; split; reflexivity].
Qed.

(** pack_varsize / pack_size *)
Lemma varsize_loop_spec f v :
  (forall a b, pack_varsize_loop f v = Some (a, b) ->
     (b = 0 /\ Forall (fun c => valid_char c /\ ~ In c text_chars) f /\
      a = (if existsb (fun c => (Byte.eqb c "i" || Byte.eqb c "J"))%byte f then 1 else v)) \/
     (a = 1 /\ b = 1 /\ exists p c t, f = p ++ c :: t /\ In c text_chars /\ Forall valid_char p)) /\
  (pack_varsize_loop f v = None <-> exists p c t, f = p ++ c :: t /\ ~ valid_char c /\
      Forall (fun c => valid_char c /\ ~ In c text_chars) p).
Proof.
  revert v. induction f as [|c t IH]; intros v; cbn [pack_varsize_loop].
  - split.
    + intros a b E. injection E as <- <-. left. repeat split; [constructor].
    + split; [discriminate | intros ([|? ?] & ? & ? & E & _); discriminate].
  - assert (IJ : (Byte.eqb c "i" || Byte.eqb c "J")%byte = true <-> In c uvari_chars).
    { change uvari_chars with ["i"; "J"]%byte. rewrite orb_true_iff. cbn [In]. split.
      - intros [E|E]; apply Byte.byte_dec_bl in E; subst; auto.
      - intros [<-|[<-|[]]]; [left|right]; reflexivity. }
    destruct (fmt_of_byte c) as [x|] eqn:E.
    2: { split; [discriminate|]. split; [intros _|reflexivity]. exists [], c, t. split; [reflexivity|].
         split; [rewrite valid_char_iff; intros [x X]; congruence | constructor]. }
    assert (V : valid_char c) by (apply valid_char_iff; eauto).
    assert (NT : text_fmt x = false -> ~ In c text_chars).
    { intros T I. apply in_text in I as (y & Y & T'). congruence. }
    (* the non-text step *)
    assert (STEP : forall v', (v' = if (Byte.eqb c "i" || Byte.eqb c "J")%byte then 1 else v) -> text_fmt x = false ->
      (forall a b, pack_varsize_loop t v' = Some (a, b) ->
       (b = 0 /\ Forall (fun c => valid_char c /\ ~ In c text_chars) (c :: t) /\
        a = (if existsb (fun c => (Byte.eqb c "i" || Byte.eqb c "J"))%byte (c :: t) then 1 else v)) \/
       (a = 1 /\ b = 1 /\ exists p c' t', c :: t = p ++ c' :: t' /\ In c' text_chars /\ Forall valid_char p)) /\
      (pack_varsize_loop t v' = None <-> exists p c' t', c :: t = p ++ c' :: t' /\ ~ valid_char c' /\
        Forall (fun c => valid_char c /\ ~ In c text_chars) p)).
    { intros v' Hv T. destruct (IH v') as [H1 H2]. split.
      - intros a b R. destruct (H1 a b R) as [(-> & F & ->)|(-> & -> & p & c' & t' & -> & I & F)].
        + left. split; [reflexivity|]. split; [constructor; auto|]. cbn [existsb].
          destruct (Byte.eqb c "i" || Byte.eqb c "J")%byte eqn:Q; cbn [orb]; subst v'; [destruct (existsb _ t)|]; reflexivity.
        + right. split; [reflexivity|]. split; [reflexivity|]. exists (c :: p), c', t'. auto.
      - rewrite H2. split.
        + intros (p & c' & t' & -> & N & F). exists (c :: p), c', t'. split; [reflexivity|]. split; [exact N|].
          constructor; auto.
        + intros (p & c' & t' & Q & N & F). destruct p as [|c0 p].
          * injection Q as <- <-. contradiction.
          * injection Q as <- ->. exists p, c', t'. apply Forall_inv_tail in F. auto. }
    assert (TXT : text_fmt x = true ->
      (forall a b, Some (1, 1) = Some (a, b) ->
       (b = 0 /\ Forall (fun c => valid_char c /\ ~ In c text_chars) (c :: t) /\
        a = (if existsb (fun c => (Byte.eqb c "i" || Byte.eqb c "J"))%byte (c :: t) then 1 else v)) \/
       (a = 1 /\ b = 1 /\ exists p c' t', c :: t = p ++ c' :: t' /\ In c' text_chars /\ Forall valid_char p)) /\
      (Some (1, 1) = None <-> exists p c' t', c :: t = p ++ c' :: t' /\ ~ valid_char c' /\
        Forall (fun c => valid_char c /\ ~ In c text_chars) p)).
    { intros T. assert (I : In c text_chars) by (apply in_text; eauto). split.
      - intros a b Q. injection Q as <- <-. right. split; [reflexivity|]. split; [reflexivity|].
        exists [], c, t. auto.
      - split; [discriminate|]. intros (p & c' & t' & Q & N & F). destruct p as [|c0 p].
        + injection Q as <- <-. contradiction.
        + injection Q as <- ->. apply Forall_inv in F. tauto. }
    assert (NIJ : x <> UVARI -> x <> ORIGIN -> (Byte.eqb c "i" || Byte.eqb c "J")%byte = false).
    { intros A B. apply not_true_is_false. rewrite IJ, in_uvari. intros [Q|Q]; congruence. }
    destruct x; first [ apply TXT; reflexivity
      | apply STEP; [rewrite NIJ by discriminate; reflexivity | reflexivity]
      | apply STEP; [symmetry; rewrite (proj2 IJ) by (apply in_uvari; auto); reflexivity | reflexivity] ].
Qed.


Lemma pack_size_step c t vs corr size x :
  fmt_of_byte c = Some x ->
  pack_size_loop (c :: t) vs corr size =
  match fixed_fmt x with
  | Some (s, d) => pack_size_loop t vs (corr + (d - s)) (size + d)
  | None => if text_fmt x then SizeVariable else pack_size_loop t true corr (size + 4)
  end.
Proof.
  intros E. cbn [pack_size_loop]. rewrite E.
  destruct x; cbn [fixed_fmt text_fmt]; try reflexivity; rewrite ?Z.sub_diag, ?Z.add_0_r; reflexivity.
Qed.

Lemma pack_size_loop_spec f varsrc corr size :
  match pack_size_loop f varsrc corr size with
  | SizeInvalid => exists p c t, f = p ++ c :: t /\ ~ valid_char c /\
      Forall (fun c => valid_char c /\ ~ In c text_chars) p
  | SizeVariable => exists p c t, f = p ++ c :: t /\ In c text_chars /\
      Forall (fun c => valid_char c /\ ~ In c text_chars) p
  | SizeOk s d =>
      exists k, mem_size f k /\ d = size + k /\
        (varsrc = true \/ Exists (fun c => In c uvari_chars) f -> s = 0) /\
        (varsrc = false -> Forall (fun c => ~ In c uvari_chars) f ->
           exists n, fixed_size f n k /\ s = size - corr + n)
  end.
Proof.
  revert varsrc corr size. induction f as [|c t IH]; intros varsrc corr size.
  - cbn [pack_size_loop]. exists 0. split; [constructor|]. split; [lia|]. split.
    + intros [->|H]; [lia | inversion H].
    + intros -> _. exists 0. split; [constructor | lia].
  - destruct (fmt_of_byte c) as [x|] eqn:E.
    2: { cbn [pack_size_loop]. rewrite E. exists [], c, t. split; [reflexivity|].
         split; [rewrite valid_char_iff; intros [x X]; congruence | constructor]. }
    rewrite (pack_size_step c t _ _ _ x E).
    assert (V : valid_char c) by (apply valid_char_iff; eauto).
    assert (NT : text_fmt x = false -> ~ In c text_chars).
    { intros T I. apply in_text in I as (y & Y & T'). congruence. }
    destruct (fixed_fmt x) as [[s d]|] eqn:F.
    + assert (T : text_fmt x = false) by (destruct x; reflexivity || discriminate F).
      assert (FC : In (c, (s, d)) fixed_chars) by (apply in_fixed; eauto).
      assert (NU : ~ In c uvari_chars) by (rewrite in_uvari; intros [Q|Q]; rewrite E in Q; injection Q as ->; discriminate F).
      specialize (IH varsrc (corr + (d - s)) (size + d)). destruct (pack_size_loop t varsrc _ _) as [| |s' d'].
      * destruct IH as (p & c' & t' & -> & N & P). exists (c :: p), c', t'.
        split; [reflexivity|]. split; [exact N|]. constructor; auto.
      * destruct IH as (p & c' & t' & -> & N & P). exists (c :: p), c', t'.
        split; [reflexivity|]. split; [exact N|]. constructor; auto.
      * destruct IH as (k & M & -> & H1 & H2). exists (d + k).
        split; [econstructor; eassumption|]. split; [lia|]. split.
        -- intros [H|H]; [auto|]. inversion H; [contradiction | auto].
        -- intros Hv Hf. destruct H2 as (n & Hn & ->); [exact Hv | inversion Hf; assumption |].
           exists (s + n). split; [constructor; assumption | lia].
    + destruct (text_fmt x) eqn:T.
      * exists [], c, t. split; [reflexivity|]. split; [apply in_text; eauto | constructor].
      * assert (U : In c uvari_chars).
        { apply in_uvari. rewrite E. destruct x; try discriminate; auto. }
        specialize (IH true corr (size + 4)). destruct (pack_size_loop t true _ _) as [| |s' d'].
        -- destruct IH as (p & c' & t' & -> & N & P). exists (c :: p), c', t'.
        split; [reflexivity|]. split; [exact N|]. constructor; auto.
        -- destruct IH as (p & c' & t' & -> & N & P). exists (c :: p), c', t'.
        split; [reflexivity|]. split; [exact N|]. constructor; auto.
        -- destruct IH as (k & M & -> & H1 & H2). exists (4 + k).
           split; [apply mem_uvari; assumption|]. split; [lia|]. split.
           ++ intros _. apply H1. auto.
           ++ intros _ Hf. exfalso. inversion Hf. contradiction.
Qed.

Lemma fixed_size_nonneg f s d : fixed_size f s d -> 0 <= s.
Proof.
  induction 1 as [|c s d f s' d' I _ IH]; [lia|]. apply in_fixed in I as (x & _ & F).
  destruct x; try discriminate; cbn in F; injection F as <- <-; lia.
Qed.

Lemma unpack_fixed f s d : fixed_size f s d -> forall src,
  (s <= Z.of_nat (length src) -> exists out, unpack f src = ROk out (skipn (Z.to_nat s) src) /\ Z.of_nat (length out) = d) /\
  (Z.of_nat (length src) < s -> unpack f src = ROob).
Proof.
  induction 1 as [|c s d f s' d' I F IH]; intros src.
  - split; [intros _; exists []; auto | lia].
  - apply in_fixed in I as (x & E & Fx). cbn [unpack]. rewrite E.
    destruct (interpret_fixed x s d src Fx) as (P & H1 & H2). apply fixed_size_nonneg in F as N.
    split; intros L.
    + destruct H1 as (args & -> & A); [lia|]. destruct (IH (skipn (Z.to_nat s) src)) as [K _].
      rewrite skipn_length in K. destruct K as (out & -> & O); [lia|].
      eexists. split; [rewrite skipn_skipn; f_equal; f_equal; lia|]. rewrite app_length. lia.
    + destruct (Z_lt_ge_dec (Z.of_nat (length src)) s) as [K|K].
      * rewrite H2 by exact K. reflexivity.
      * destruct H1 as (args & -> & A); [lia|]. destruct (IH (skipn (Z.to_nat s) src)) as [_ Q].
        rewrite Q by (rewrite skipn_length; lia). reflexivity.
Qed.

Lemma unpack_mem f d src out rest : mem_size f d -> unpack f src = ROk out rest -> Z.of_nat (length out) = d.
Proof.
  intros M. revert src out rest. induction M as [|c s d f d' I M IH|c f d' I M IH]; intros src out rest U.
  - injection U as <- <-. reflexivity.
  - apply in_fixed in I as (x & E & Fx). cbn [unpack] in U. rewrite E in U.
    destruct (interpret x src) as [[args r]|] eqn:Q; [|discriminate].
    destruct (unpack f r) as [| |o r'] eqn:W; try discriminate. injection U as <- <-.
    rewrite app_length. apply IH in W.
    destruct (interpret_fixed x s d src Fx) as (P & H1 & H2).
    destruct (Z_lt_ge_dec (Z.of_nat (length src)) s) as [K|K].
    + rewrite H2 in Q by exact K. discriminate.
    + destruct H1 as (args' & Q' & A); [lia|]. rewrite Q in Q'. injection Q' as -> ->. lia.
  - cbn [unpack] in U.
    assert (HX : exists x, fmt_of_byte c = Some x /\ (x = UVARI \/ x = ORIGIN)) by (apply in_uvari in I as [->| ->]; eauto).
    destruct HX as (x & E & X). rewrite E in U.
    destruct (interpret x src) as [[args r]|] eqn:Q; [|discriminate].
    destruct (unpack f r) as [| |o r'] eqn:W; try discriminate. injection U as <- <-.
    rewrite app_length. apply IH in W.
    assert (L : length (args_bytes args) = 4%nat).
    { destruct X as [-> | ->]; unfold interpret in Q.
      - destruct (dlis_uvari src) as [[v r0]|]; [|discriminate]. injection Q as <- <-.
        cbn [args_bytes]. rewrite app_length, native_length. reflexivity.
      - destruct (dlis_origin src) as [[v r0]|]; [|discriminate]. injection Q as <- <-.
        cbn [args_bytes]. rewrite app_length, native_length. reflexivity. }
    lia.
Qed.

Lemma mem_size_valid f d : mem_size f d <-> (mem_size f d /\ Forall (fun c => valid_char c /\ ~ In c text_chars) f).
Proof.
  split; [|tauto]. intros H. split; [exact H|]. induction H as [|c s d f d' I _ IH|c f d' I _ IH]; constructor; auto.
  - apply in_fixed in I as I'. destruct I' as (x & E & F). split; [left; eauto|].
    rewrite in_text. intros (y & Y & T). rewrite E in Y. injection Y as <-. destruct x; discriminate.
  - split; [right; left; exact I|]. rewrite in_text. intros (y & Y & T).
    apply in_uvari in I as [E|E]; rewrite E in Y; injection Y as <-; discriminate.
Qed.

(** the announced sizes *)
Lemma pack_size_sound f s d :
  dlis_pack_size f = SizeOk s d ->
  (forall src r w, dlis_packflen f src = LenOk r w -> w = d) /\
  (Forall (fun c => ~ In c uvari_chars) f ->
     forall src, dlis_packflen f src = (if s <=? Z.of_nat (length src) then LenOk s d else LenOob)) /\
  (Exists (fun c => In c uvari_chars) f -> s = 0).
Proof.
  intros H. pose proof (pack_size_loop_spec f false 0 0) as P. unfold dlis_pack_size in H. rewrite H in P.
  destruct P as (k & M & -> & P1 & P2). split; [|split].
  - intros src r w L. rewrite dlis_packflen_eq in L. destruct (unpack f src) as [| |o rest] eqn:U; try discriminate.
    injection L as <- <-. eapply unpack_mem in U; [|exact M]. lia.
  - intros NU src. destruct P2 as (n & Fx & ->); [reflexivity | exact NU|].
    rewrite dlis_packflen_eq. replace (0 - 0 + n) with n by lia. replace (0 + k) with k by lia.
    destruct (unpack_fixed _ _ _ Fx src) as [A B]. destruct (n <=? Z.of_nat (length src)) eqn:E.
    + destruct A as (out & -> & O); [lia|]. apply fixed_size_nonneg in Fx.
      rewrite skipn_length. f_equal; lia.
    + rewrite B by lia. reflexivity.
  - auto.
Qed.

Lemma pack_size_total f :
  (dlis_pack_size f = SizeInvalid <-> exists p c t, f = p ++ c :: t /\ ~ valid_char c /\
      Forall (fun c => valid_char c /\ ~ In c text_chars) p) /\
  (dlis_pack_size f = SizeVariable <-> exists p c t, f = p ++ c :: t /\ In c text_chars /\
      Forall (fun c => valid_char c /\ ~ In c text_chars) p) /\
  ((exists s d, dlis_pack_size f = SizeOk s d) <-> Forall (fun c => valid_char c /\ ~ In c text_chars) f).
Proof.
  set (G := fun c => valid_char c /\ ~ In c text_chars).
  assert (TV : forall c, In c text_chars -> valid_char c) by (intros c H; right; right; exact H).
  assert (NF : forall p c t, ~ G c -> ~ Forall G (p ++ c :: t)).
  { intros p c t N F. apply Forall_app in F as [_ F]. inversion F. contradiction. }
  assert (UQ : forall p c t p' c' t', p ++ c :: t = p' ++ c' :: t' -> Forall G p -> Forall G p' -> ~ G c -> ~ G c' -> c = c').
  { intros p. induction p as [|x p IH]; intros c t p' c' t' Q F F' N N'; destruct p' as [|y p']; cbn [app] in Q; injection Q as Q1 Q2.
    - exact Q1.
    - subst y. inversion F'. contradiction.
    - subst x. inversion F. contradiction.
    - apply (IH c t p' c' t'); auto; [inversion F | inversion F']; assumption. }
  pose proof (pack_size_loop_spec f false 0 0) as P. unfold dlis_pack_size.
  destruct (pack_size_loop f false 0 0) as [| |s d].
  - destruct P as (p & c & t & -> & N & F). fold G in F.
    assert (NG : ~ G c) by (unfold G; tauto). repeat split; try discriminate.
    + intros _. exists p, c, t. auto.
    + intros (p' & c' & t' & Q & I & F'). exfalso.
      assert (c = c') by (eapply UQ; eauto; unfold G; tauto). subst c'. apply N. auto.
    + intros (s & d & Q). discriminate.
    + intros F'. exfalso. eapply NF; eauto.
  - destruct P as (p & c & t & -> & I & F). fold G in F.
    assert (NG : ~ G c) by (unfold G; tauto). repeat split; try discriminate.
    + intros (p' & c' & t' & Q & N & F'). exfalso.
      assert (c = c') by (eapply UQ; eauto; unfold G; tauto). subst c'. apply N. auto.
    + intros _. exists p, c, t. auto.
    + intros (s & d & Q). discriminate.
    + intros F'. exfalso. eapply NF; eauto.
  - destruct P as (k & M & _ & _). apply mem_size_valid in M as [_ M]. fold G in M.
    repeat split; try discriminate.
    + intros (p & c & t & -> & N & F). exfalso. eapply (NF p c t); [unfold G; tauto | exact M].
    + intros (p & c & t & -> & N & F). exfalso. eapply (NF p c t); [unfold G; tauto | exact M].
    + intros _. exact M.
    + intros _. eauto.
Qed.

Lemma pack_varsize_total f :
  (dlis_pack_varsize f = None <-> dlis_pack_size f = SizeInvalid) /\
  (dlis_pack_varsize f = Some (1, 1) <-> dlis_pack_size f = SizeVariable) /\
  (dlis_pack_varsize f = Some (1, 0) <->
     (exists s d, dlis_pack_size f = SizeOk s d) /\ Exists (fun c => In c uvari_chars) f) /\
  (dlis_pack_varsize f = Some (0, 0) <->
     (exists s d, dlis_pack_size f = SizeOk s d) /\ Forall (fun c => ~ In c uvari_chars) f).
Proof.
  unfold dlis_pack_varsize, dlis_pack_size.
  assert (G : forall f v vs corr size, (v = 0 \/ v = 1) ->
    (pack_varsize_loop f v = None /\ pack_size_loop f vs corr size = SizeInvalid) \/
    (pack_varsize_loop f v = Some (1, 1) /\ pack_size_loop f vs corr size = SizeVariable) \/
    (exists s d, pack_size_loop f vs corr size = SizeOk s d /\
       ((pack_varsize_loop f v = Some (1, 0) /\ Exists (fun c => In c uvari_chars) f) \/
        (pack_varsize_loop f v = Some (v, 0) /\ Forall (fun c => ~ In c uvari_chars) f)))).
  { clear f. induction f as [|c t IH]; intros v vs corr size Hv.
    - right; right. cbn [pack_size_loop pack_varsize_loop]. do 2 eexists. split; [reflexivity|]. right. auto.
    - destruct (fmt_of_byte c) as [x|] eqn:E.
      2: { left. cbn [pack_size_loop pack_varsize_loop]. rewrite E. auto. }
      assert (VS : pack_varsize_loop (c :: t) v =
         if text_fmt x then Some (1, 1) else match fixed_fmt x with Some _ => pack_varsize_loop t v | None => pack_varsize_loop t 1 end).
      { cbn [pack_varsize_loop]. rewrite E. destruct x; reflexivity. }
      rewrite VS. rewrite (pack_size_step c t _ _ _ x E).
      destruct (fixed_fmt x) as [[s d]|] eqn:F.
      + assert (T : text_fmt x = false) by (destruct x; reflexivity || discriminate F). rewrite T.
        assert (NU : ~ In c uvari_chars) by (rewrite in_uvari; intros [Q|Q]; rewrite E in Q; injection Q as ->; discriminate F).
        destruct (IH v vs (corr + (d - s)) (size + d) Hv) as [H|[H|(s' & d' & H & [[K L]|[K L]])]];
          [tauto | tauto | |]; right; right; exists s', d'; (split; [exact H|]).
        * left. split; [exact K | apply Exists_cons_tl; exact L].
        * right. split; [exact K | constructor; assumption].
      + destruct (text_fmt x) eqn:T; [auto|].
        assert (U : In c uvari_chars). { apply in_uvari. rewrite E. destruct x; try discriminate; auto. }
        destruct (IH 1 true corr (size + 4)) as [H|[H|(s' & d' & H & [[K L]|[K L]])]];
          [auto | tauto | tauto | |]; right; right; exists s', d'; (split; [exact H|]); left;
          (split; [exact K | apply Exists_cons_hd; exact U]). }
  destruct (G f 0 false 0 0) as [[H K]|[[H K]|(s & d & K & [[H L]|[H L]])]]; [auto | | | |]; rewrite H, K.
  - repeat split; try discriminate; intros [(? & ? & ?) _]; discriminate.
  - repeat split; try discriminate; intros [(? & ? & ?) _]; discriminate.
  - repeat split; try discriminate; eauto. intros [_ F]. exfalso. rewrite Exists_exists in L. rewrite Forall_forall in F.
    destruct L as (c & I & U). exact (F c I U).
  - repeat split; try discriminate; eauto. intros [_ F]. exfalso. rewrite Exists_exists in F. rewrite Forall_forall in L.
    destruct F as (c & I & U). exact (L c I U).
Qed.

(** the value each character unpacks to *)
Fixpoint items (args : list arg) : list item :=
  match args with
  | [] => []
  | Scalar n v :: t => Int n v :: items t
  | Str s :: t => Text s :: items t
  end.
Lemma layout_args args : layout (items args) (args_bytes args).
Proof.
  induction args as [|[n v|s] t IH]; cbn [items args_bytes]; constructor; auto using native_length; apply native_le.
Qed.

Lemma packf_one c x src args rest :
  fmt_of_byte c = Some x -> interpret x src = Some (args, rest) ->
  exists out, dlis_packf [c] src = PackOk out /\ layout (items args) out.
Proof.
  intros E I. exists (args_bytes args). split; [|apply layout_args].
  rewrite dlis_packf_eq. cbn [unpack]. rewrite E, I, app_nil_r. reflexivity.
Qed.

Lemma unpacks_as_interpret c x src :
  fmt_of_byte c = Some x ->
  unpacks_as c src (do (args, r) <- interpret x src; Some (items args, r)).
Proof.
  intros E. destruct (interpret x src) as [[args r]|] eqn:I; cbn [obind unpacks_as].
  - exists (args_bytes args). rewrite dlis_packf_eq, dlis_packflen_eq. cbn [unpack]. rewrite E, I, app_nil_r.
    split; [reflexivity|]. split; [apply layout_args | reflexivity].
  - rewrite dlis_packf_eq, dlis_packflen_eq. cbn [unpack]. rewrite E, I. auto.
Qed.

Lemma unpack_table src :
  unpacks_as "r" src (do (v, r) <- dlis_fshort src; Some ([Int 4 v], r)) /\
  unpacks_as "f" src (do (v, r) <- dlis_fsingl src; Some ([Int 4 v], r)) /\
  unpacks_as "b" src (do (t, r) <- dlis_fsing1 src; let '(v, a) := t in Some ([Int 4 v; Int 4 a], r)) /\
  unpacks_as "B" src (do (t, r) <- dlis_fsing2 src; let '(v, a, b) := t in Some ([Int 4 v; Int 4 a; Int 4 b], r)) /\
  unpacks_as "x" src (do (v, r) <- dlis_isingl src; Some ([Int 4 v], r)) /\
  unpacks_as "V" src (do (v, r) <- dlis_vsingl src; Some ([Int 4 v], r)) /\
  unpacks_as "F" src (do (v, r) <- dlis_fdoubl src; Some ([Int 8 v], r)) /\
  unpacks_as "z" src (do (t, r) <- dlis_fdoub1 src; let '(v, a) := t in Some ([Int 8 v; Int 8 a], r)) /\
  unpacks_as "Z" src (do (t, r) <- dlis_fdoub2 src; let '(v, a, b) := t in Some ([Int 8 v; Int 8 a; Int 8 b], r)) /\
  unpacks_as "c" src (do (t, r) <- dlis_csingl src; let '(re, im) := t in Some ([Int 4 re; Int 4 im], r)) /\
  unpacks_as "C" src (do (t, r) <- dlis_cdoubl src; let '(re, im) := t in Some ([Int 8 re; Int 8 im], r)) /\
  unpacks_as "d" src (do (v, r) <- dlis_sshort src; Some ([Int 1 v], r)) /\
  unpacks_as "D" src (do (v, r) <- dlis_snorm src; Some ([Int 2 v], r)) /\
  unpacks_as "l" src (do (v, r) <- dlis_slong src; Some ([Int 4 v], r)) /\
  unpacks_as "u" src (do (v, r) <- dlis_ushort src; Some ([Int 1 v], r)) /\
  unpacks_as "U" src (do (v, r) <- dlis_unorm src; Some ([Int 2 v], r)) /\
  unpacks_as "L" src (do (v, r) <- dlis_ulong src; Some ([Int 4 v], r)) /\
  unpacks_as "i" src (do (v, r) <- dlis_uvari src; Some ([Int 4 v], r)) /\
  unpacks_as "s" src (do (s, r) <- dlis_ident src; Some ([Text s], r)) /\
  unpacks_as "S" src (do (s, r) <- dlis_ascii src; Some ([Text s], r)) /\
  unpacks_as "j" src (do (t, r) <- dlis_dtime src;
    Some ([Int 4 (dt_Y t); Int 4 (dt_TZ t); Int 4 (dt_M t); Int 4 (dt_D t);
           Int 4 (dt_H t); Int 4 (dt_MN t); Int 4 (dt_S t); Int 4 (dt_MS t)], r)) /\
  unpacks_as "J" src (do (v, r) <- dlis_origin src; Some ([Int 4 v], r)) /\
  unpacks_as "o" src (do (n, r) <- dlis_obname src;
    Some ([Int 4 (ob_origin n); Int 1 (ob_copy n); Text (ob_id n)], r)) /\
  unpacks_as "O" src (do (n, r) <- dlis_objref src;
    Some ([Text (or_type n); Int 4 (ob_origin (or_name n)); Int 1 (ob_copy (or_name n)); Text (ob_id (or_name n))], r)) /\
  unpacks_as "A" src (do (n, r) <- dlis_attref src;
    Some ([Text (ar_type n); Int 4 (ob_origin (ar_name n)); Int 1 (ob_copy (ar_name n)); Text (ob_id (ar_name n));
           Text (ar_label n)], r)) /\
  unpacks_as "q" src (do (v, r) <- dlis_status src; Some ([Int 1 v], r)) /\
  unpacks_as "Q" src (do (s, r) <- dlis_units src; Some ([Text s], r)).
Proof.
  Ltac entry c f src :=
    let H := fresh in pose proof (unpacks_as_interpret c f src eq_refl) as H; unfold interpret in H;
    match goal with |- unpacks_as _ _ (obind ?m _) => destruct m as [[? ?]|]; exact H end.
  repeat split.
  - entry "r"%byte FSHORT src.
  - entry "f"%byte FSINGL src.
  - pose proof (unpacks_as_interpret "b" FSING1 src eq_refl) as H. unfold interpret in H. destruct (dlis_fsing1 src) as [[[] ?]|]; exact H.
  - pose proof (unpacks_as_interpret "B" FSING2 src eq_refl) as H. unfold interpret in H. destruct (dlis_fsing2 src) as [[[[]] ?]|]; exact H.
  - entry "x"%byte ISINGL src.
  - entry "V"%byte VSINGL src.
  - entry "F"%byte FDOUBL src.
  - pose proof (unpacks_as_interpret "z" FDOUB1 src eq_refl) as H. unfold interpret in H. destruct (dlis_fdoub1 src) as [[[] ?]|]; exact H.
  - pose proof (unpacks_as_interpret "Z" FDOUB2 src eq_refl) as H. unfold interpret in H. destruct (dlis_fdoub2 src) as [[[[]] ?]|]; exact H.
  - pose proof (unpacks_as_interpret "c" CSINGL src eq_refl) as H. unfold interpret in H. destruct (dlis_csingl src) as [[[] ?]|]; exact H.
  - pose proof (unpacks_as_interpret "C" CDOUBL src eq_refl) as H. unfold interpret in H. destruct (dlis_cdoubl src) as [[[] ?]|]; exact H.
  - entry "d"%byte SSHORT src.
  - entry "D"%byte SNORM src.
  - entry "l"%byte SLONG src.
  - entry "u"%byte USHORT src.
  - entry "U"%byte UNORM src.
  - entry "L"%byte ULONG src.
  - entry "i"%byte UVARI src.
  - entry "s"%byte IDENT src.
  - entry "S"%byte ASCII src.
  - entry "j"%byte DTIME src.
  - entry "J"%byte ORIGIN src.
  - entry "o"%byte OBNAME src.
  - entry "O"%byte OBJREF src.
  - entry "A"%byte ATTREF src.
  - entry "q"%byte STATUS src.
  - entry "Q"%byte UNITS src.
Qed.

Lemma packf_error f src :
  (dlis_packf f src = PackErr -> exists c, In c f /\ ~ valid_char c) /\
  (dlis_packf f src <> PackOob -> Exists (fun c => ~ valid_char c) f -> dlis_packf f src = PackErr).
Proof.
  rewrite dlis_packf_eq. split.
  - revert src. induction f as [|c t IH]; intros src; cbn [unpack]; [discriminate|].
    destruct (fmt_of_byte c) as [x|] eqn:E.
    + destruct (interpret x src) as [[a r]|]; [|discriminate]. intros H.
      destruct (IH r) as (c' & I & N); [destruct (unpack t r); congruence|]. exists c'. split; [right; exact I | exact N].
    + intros _. exists c. split; [left; reflexivity|]. rewrite valid_char_iff. intros [x X]. congruence.
  - revert src. induction f as [|c t IH]; intros src H X; cbn [unpack] in *; [inversion X|].
    destruct (fmt_of_byte c) as [x|] eqn:E; [|reflexivity].
    inversion X as [? ? N|? ? X']; subst.
    { exfalso. apply N. apply valid_char_iff. eauto. }
    destruct (interpret x src) as [[a r]|]; [|congruence].
    specialize (IH r). destruct (unpack t r); [congruence | reflexivity |].
    discriminate IH; [discriminate | exact X'].
Qed.

(** ** Trailers that do not fit, and encryption packets *)
Lemma trim_oob a seg :
  Z.testbit a 4 = false -> Z.testbit a 0 = true -> Z.of_nat (length seg) <= tail_size a ->
  dlis_trim_record_segment a [] seg = None.
Proof.
  intros E P L. rewrite trim_eq, E, P. cbn [length]. cbn zeta. replace (_ <? 0) with true by lia. reflexivity.
Qed.

Lemma encryption_packet_spec l0 l1 c0 c1 rest :
  dlis_encryption_packet_info (l0 :: l1 :: c0 :: c1 :: rest) =
  Some (if u16 l0 l1 <? 4 then (DLIS_INCONSISTENT, None)
        else if Z.odd (u16 l0 l1) then (DLIS_UNEXPECTED_VALUE, None)
        else (DLIS_OK, Some (u16 l0 l1 - 4, u16 c0 c1))).
Proof.
  unfold dlis_encryption_packet_info, dlis_unorm.
  change (l0 :: l1 :: c0 :: c1 :: rest) with ([l0; l1] ++ [c0; c1] ++ rest).
  rewrite !read_be_app by reflexivity. cbn [obind]. rewrite !read_be_app by reflexivity. cbn [obind].
  rewrite !be2. f_equal. replace (u16 l0 l1 - 4 <? 0) with (u16 l0 l1 <? 4) by lia.
  rewrite Zodd_mod. destruct (u16 l0 l1 <? 4); [reflexivity|].
  pose proof (Z.mod_pos_bound (u16 l0 l1) 2). 
  destruct (u16 l0 l1 mod 2 =? 0) eqn:M; cbn [negb].
  - replace (Zeq_bool _ 1) with false; [reflexivity|]. symmetry. apply not_true_is_false. rewrite <- Zeq_is_eq_bool. lia.
  - replace (Zeq_bool _ 1) with true; [reflexivity|]. symmetry. rewrite <- Zeq_is_eq_bool. lia.
Qed.

Lemma component_flags d : 0 <= d < 256 ->
  let role := dlis_component d in
  dlis_component_set d role =
    (if (d / 32 =? 5) || (d / 32 =? 6) || (d / 32 =? 7) then Some (bit_value d 4, bit_value d 3) else None) /\
  dlis_component_object d role = (if d / 32 =? 3 then Some (bit_value d 4) else None) /\
  dlis_component_attrib d role =
    (if (d / 32 =? 1) || (d / 32 =? 2)
     then Some (bit_value d 4, bit_value d 3, bit_value d 2, bit_value d 1, bit_value d 0) else None).
Proof.
  intros H role. unfold role. rewrite component_set_spec, component_object_spec, component_attrib_spec, component_role by exact H.
  set (k := d / 32).
  replace (32 * k =? 160) with (k =? 5) by lia. replace (32 * k =? 192) with (k =? 6) by lia.
  replace (32 * k =? 224) with (k =? 7) by lia. replace (32 * k =? 96) with (k =? 3) by lia.
  replace (32 * k =? 32) with (k =? 1) by lia. replace (32 * k =? 64) with (k =? 2) by lia. auto.
Qed.

Lemma component_mismatch d role :
  (role <> 160 -> role <> 192 -> role <> 224 -> dlis_component_set d role = None) /\
  (role <> 96 -> dlis_component_object d role = None) /\
  (role <> 32 -> role <> 64 -> dlis_component_attrib d role = None).
Proof.
  rewrite component_set_spec, component_object_spec, component_attrib_spec. split; [|split]; intros.
  - replace (role =? 160) with false by lia. replace (role =? 192) with false by lia.
    replace (role =? 224) with false by lia. reflexivity.
  - replace (role =? 96) with false by lia. reflexivity.
  - replace (role =? 32) with false by lia. replace (role =? 64) with false by lia. reflexivity.
Qed.

Lemma component_names d : 0 <= d < 256 ->
  dlis_component_str (dlis_component d) =
  nth (Z.to_nat (d / 32))
    [text "absent attribute"; text "attribute"; text "invariant attribute"; text "object";
     text "reserved"; text "redundant set"; text "replacement set"; text "set"] [].
Proof.
  intros H. rewrite component_role by exact H.
  assert (K : 0 <= d / 32 < 8) by lia. revert K. generalize (d / 32). intros k K.
  assert (C : k = 0 \/ k = 1 \/ k = 2 \/ k = 3 \/ k = 4 \/ k = 5 \/ k = 6 \/ k = 7) by lia.
  destruct C as [->|[->|[->|[->|[->|[->|[->| ->]]]]]]]; reflexivity.
Qed.

Lemma trim_total a before seg :
  (Z.testbit a 4 = true \/ Z.testbit a 0 = false \/ tail_size a < Z.of_nat (length before) + Z.of_nat (length seg) <->
   exists e t, dlis_trim_record_segment a before seg = Some (e, t)) /\
  (Z.testbit a 4 = true -> dlis_trim_record_segment a before seg = Some (DLIS_OK, 0)) /\
  (Z.testbit a 4 = false -> Z.testbit a 0 = false -> dlis_trim_record_segment a before seg =
     Some (if tail_size a <=? Z.of_nat (length seg) then DLIS_OK else DLIS_BAD_SIZE, tail_size a)).
Proof.
  rewrite trim_eq. destruct (Z.testbit a 4); [|destruct (Z.testbit a 0)].
  - repeat split; auto; try discriminate; eauto.
  - split; [|split; discriminate]. cbn zeta.
    assert (T : 0 <= tail_size a) by (unfold tail_size; destruct (Z.testbit a 2), (Z.testbit a 1); lia).
    split.
    + intros [H|[H|H]]; try discriminate. replace (_ <? 0) with false by lia.
      destruct (nth_error (before ++ seg) _) eqn:N; [cbn [obind]; eauto|].
      apply nth_error_None in N. rewrite app_length in N. lia.
    + intros (e & t & H). right; right. destruct (_ <? 0) eqn:L; [discriminate | lia].
  - split; [|split; [discriminate|]].
    + split; [eauto | auto].
    + intros _ _. replace (tail_size a >? Z.of_nat (length seg)) with (negb (tail_size a <=? Z.of_nat (length seg))) by lia.
      destruct (tail_size a <=? Z.of_nat (length seg)); reflexivity.
Qed.

Lemma fingerprint_exact_size type id o c : 0 <= o -> type <> [] ->
  exists w, dlis_object_fingerprint type id o c = Some w /\
    dlis_object_fingerprint_size (Z.of_nat (length type)) (Z.of_nat (length id)) o c = Some (Z.of_nat (length w)).
Proof.
  intros Ho NT. rewrite fingerprint_text by exact NT. eexists. split; [reflexivity|].
  unfold dlis_object_fingerprint_size. replace (o <? 0) with false by lia.
  destruct type as [|t0 type]; [congruence|].
  replace (Z.of_nat (length (t0 :: type)) <=? 0) with false by (cbn [length]; lia).
  replace (Z.of_nat (length id) <? 0) with false by lia. f_equal.
  unfold fp_text. rewrite !app_length. cbn [text txt_bytes length]. lia.
Qed.

Lemma py_fingerprint_Ok type id o c f :
  py_fingerprint type id o c = FpOk f -> 0 <= o < 2 ^ 31 ->
  0 <= c <= 255 /\ dlis_object_fingerprint type id o c = Some f.
Proof.
  intros H Ho.
  assert (C : 0 <= c <= 255).
  { destruct (Z_lt_ge_dec c 0); [rewrite fingerprint_rejects in H by lia; discriminate|].
    destruct (Z_lt_ge_dec 255 c); [rewrite fingerprint_rejects in H by lia; discriminate|]. lia. }
  assert (NT : type <> []) by (intros ->; rewrite fingerprint_rejects in H by auto; discriminate).
  split; [exact C|]. unfold py_fingerprint in H. replace (c >? 255) with false in H by lia.
  replace (c <? 0) with false in H by lia. unfold obname_fingerprint in H. cbn [ob_id ob_origin ob_copy] in H.
  destruct (fingerprint_exact_size type id o c) as (w & E & S); [lia | exact NT|].
  rewrite S, E in H. replace (_ >? _) with false in H by lia. rewrite Nat2Z.id, Nat.sub_diag in H.
  cbn [repeat] in H. rewrite app_nil_r in H. congruence.
Qed.

Lemma py_fingerprint_inj type id1 o1 c1 id2 o2 c2 f :
  0 <= o1 < 2 ^ 31 -> 0 <= o2 < 2 ^ 31 ->
  py_fingerprint type id1 o1 c1 = FpOk f -> py_fingerprint type id2 o2 c2 = FpOk f ->
  id1 = id2 /\ o1 = o2 /\ c1 = c2.
Proof.
  intros H1 H2 F1 F2. apply py_fingerprint_Ok in F1 as [C1 F1]; [|exact H1]. apply py_fingerprint_Ok in F2 as [C2 F2]; [|exact H2].
  eapply fingerprint_inj; try eassumption; plia.
Qed.
Lemma py_fingerprint_inj_types type1 id1 o1 c1 type2 id2 o2 c2 f :
  ~ In "."%byte type1 -> ~ In "."%byte type2 ->
  0 <= o1 < 2 ^ 31 -> 0 <= o2 < 2 ^ 31 ->
  py_fingerprint type1 id1 o1 c1 = FpOk f -> py_fingerprint type2 id2 o2 c2 = FpOk f ->
  type1 = type2 /\ id1 = id2 /\ o1 = o2 /\ c1 = c2.
Proof.
  intros N1 N2 H1 H2 F1 F2. apply py_fingerprint_Ok in F1 as [C1 F1]; [|exact H1]. apply py_fingerprint_Ok in F2 as [C2 F2]; [|exact H2].
  eapply fingerprint_inj_types; try eassumption; plia.
Qed.

Lemma label_too_small xs : storage_label xs = LabelTooSmall <-> (length xs < 80)%nat.
Proof.
  split; intros H.
  - destruct (le_lt_dec 80 (length xs)) as [L|L]; [|exact L]. exfalso.
    assert (E : xs = firstn 4 xs ++ firstn 5 (skipn 4 xs) ++ firstn 6 (skipn 9 xs) ++ firstn 5 (skipn 15 xs) ++
                firstn 60 (skipn 20 xs) ++ skipn 80 xs).
    { rewrite <- (firstn_skipn 4 xs) at 1. f_equal. rewrite <- (firstn_skipn 5 (skipn 4 xs)) at 1. f_equal.
      rewrite skipn_skipn. rewrite <- (firstn_skipn 6 (skipn (4 + 5) xs)) at 1. f_equal.
      rewrite skipn_skipn. rewrite <- (firstn_skipn 5 (skipn (4 + 5 + 6) xs)) at 1. f_equal.
      rewrite skipn_skipn. rewrite <- (firstn_skipn 60 (skipn (4 + 5 + 6 + 5) xs)) at 1. f_equal.
      rewrite skipn_skipn. reflexivity. }
    rewrite E in H.
    destruct (storage_label_cases (firstn 4 xs) (firstn 5 (skipn 4 xs)) (firstn 6 (skipn 9 xs)) (firstn 5 (skipn 15 xs))
                (firstn 60 (skipn 20 xs)) (skipn 80 xs)) as [(? & ? & _ & _ & K)|(_ & l & K & _)];
      try (rewrite firstn_length, ?skipn_length; lia); congruence.
  - unfold storage_label. rewrite (proj2 (Nat.ltb_lt _ _)) by exact H. reflexivity.
Qed.

Lemma sul_number_unique f n m : sul_number f n -> sul_number f m -> n = m.
Proof. intros H K. apply code_number_spec in H. apply code_number_spec in K. congruence. Qed.
