(** Proofs about the object store: equality of objects. *)
From Flocq Require Import Core IEEE754.Binary IEEE754.Bits.
From Verif Require Import Bytes BytesProofs Stream DlisTypes DlisRecords TypesProofs RecordsProofs3 CommonPy DlisStore SpecDlisStore DlisStoreProofs.
Local Open Scope Z_scope.

(** ** IEEE equality *)
Definition is_zero {p e} (f : binary_float p e) : bool := match f with B754_zero _ _ _ => true | _ => false end.
Lemma compare_eq p e (f g : binary_float p e) :
  Bcompare p e f g = Some Eq <->
  is_nan p e f = false /\ is_nan p e g = false /\ (f = g \/ is_zero f = true /\ is_zero g = true).
Proof.
  destruct f as [s|s|s pl Hpl|s m x Hx]; destruct g as [s'|s'|s' pl' Hpl'|s' m' x' Hx'].
  all: try (cbn; intuition congruence).
  all: try (split; [intros H; vm_compute in H; try destruct s; try destruct s'; discriminate|intros (A & B & [D|[D D']]); try discriminate A; try discriminate B; try discriminate D; discriminate D']).
  - cbn. destruct s, s'; cbn; intuition congruence.
  - split.
    + intros H. rewrite Bcompare_correct in H by reflexivity. injection H as H. apply Rcompare_Eq_inv in H.
      split; [reflexivity|]. split; [reflexivity|]. left. apply B2R_inj; [reflexivity|reflexivity|exact H].
    + intros (_ & _ & [->|[D _]]); [|discriminate D]. rewrite Bcompare_correct by reflexivity. f_equal. apply Rcompare_Eq. reflexivity.
Qed.

Lemma field_nan mw ew x : 0 < mw -> 0 < ew ->
  (match binary_float_of_bits_aux mw ew x with F754_nan _ _ => true | _ => false end) = true <->
  (x / 2 ^ mw) mod 2 ^ ew = 2 ^ ew - 1 /\ x mod 2 ^ mw <> 0.
Proof.
  intros Hm He. unfold binary_float_of_bits_aux, split_bits.
  pose proof (Z.mod_pos_bound x (2 ^ mw) ltac:(lia)) as B. assert (2 ^ 1 <= 2 ^ ew) by (apply Z.pow_le_mono_r; lia). change (2 ^ 1) with 2 in *.
  pose proof (Z.mod_pos_bound (x / 2 ^ mw) (2 ^ ew) ltac:(lia)) as C.
  destruct (Zeq_bool _ 0) eqn:E0.
  - apply Zeq_bool_eq in E0. destruct (x mod 2 ^ mw) eqn:M; [|..]; (split; [|intros [F G]; exfalso; lia]); try discriminate. lia.
  - destruct (Zeq_bool _ (_ - 1)) eqn:E1.
    + apply Zeq_bool_eq in E1. destruct (x mod 2 ^ mw) eqn:M; [split; [discriminate|intros [_ G]; congruence]|split; [intros _; split; [exact E1|discriminate]|reflexivity]|lia].
    + apply Zeq_bool_neq in E1. destruct (x mod 2 ^ mw + 2 ^ mw) eqn:M; [lia|split; [discriminate|intros [F _]; contradiction]|lia].
Qed.
Lemma field_zero mw ew x : 0 < mw -> 0 < ew ->
  (match binary_float_of_bits_aux mw ew x with F754_zero _ => true | _ => false end) = true <->
  (x / 2 ^ mw) mod 2 ^ ew = 0 /\ x mod 2 ^ mw = 0.
Proof.
  intros Hm He. unfold binary_float_of_bits_aux, split_bits.
  pose proof (Z.mod_pos_bound x (2 ^ mw) ltac:(lia)) as B. assert (2 ^ 1 <= 2 ^ ew) by (apply Z.pow_le_mono_r; lia). change (2 ^ 1) with 2 in *.
  pose proof (Z.mod_pos_bound (x / 2 ^ mw) (2 ^ ew) ltac:(lia)) as C.
  destruct (Zeq_bool _ 0) eqn:E0.
  - apply Zeq_bool_eq in E0. destruct (x mod 2 ^ mw) eqn:M; [tauto| |]; (split; [discriminate|intros [_ G]; discriminate]).
  - apply Zeq_bool_neq in E0. split; [|intros [F _]; contradiction].
    destruct (Zeq_bool _ (_ - 1)); [destruct (x mod 2 ^ mw)|destruct (x mod 2 ^ mw + 2 ^ mw)]; discriminate.
Qed.


Lemma float_nan mw ew Hm He Hx x : is_nan _ _ (binary_float_of_bits mw ew Hm He Hx x) = true <->
  (x / 2 ^ mw) mod 2 ^ ew = 2 ^ ew - 1 /\ x mod 2 ^ mw <> 0.
Proof.
  rewrite <- field_nan by assumption. unfold binary_float_of_bits. rewrite is_nan_FF2B. reflexivity.
Qed.
Lemma is_zero_FF {p e} (f : binary_float p e) : is_zero f = match B2FF p e f with F754_zero _ => true | _ => false end.
Proof. destruct f; reflexivity. Qed.
Lemma float_zero mw ew Hm He Hx x : is_zero (binary_float_of_bits mw ew Hm He Hx x) = true <->
  (x / 2 ^ mw) mod 2 ^ ew = 0 /\ x mod 2 ^ mw = 0.
Proof.
  rewrite is_zero_FF. unfold binary_float_of_bits. rewrite B2FF_FF2B. apply field_zero; assumption.
Qed.

Lemma land_ones' x n : 0 <= n -> Z.land x (2 ^ n - 1) = x mod 2 ^ n.
Proof. intros H. rewrite <- Z.land_ones by exact H. rewrite Z.ones_equiv. reflexivity. Qed.

Lemma float_eqb_spec mw ew Hm He Hx x y :
  0 <= x < 2 ^ (mw + ew + 1) -> 0 <= y < 2 ^ (mw + ew + 1) ->
  float_eqb mw ew x y = true <->
  Bcompare _ _ (binary_float_of_bits mw ew Hm He Hx x) (binary_float_of_bits mw ew Hm He Hx y) = Some Eq.
Proof.
  intros Rx Ry. rewrite compare_eq. rewrite <- !not_true_iff_false, !float_nan, !float_zero.
  assert (INJ : binary_float_of_bits mw ew Hm He Hx x = binary_float_of_bits mw ew Hm He Hx y <-> x = y).
  { split; [|congruence]. intros E. rewrite <- (bits_of_binary_float_of_bits mw ew Hm He Hx x Rx), E.
    apply bits_of_binary_float_of_bits. exact Ry. }
  rewrite INJ. clear INJ Rx Ry. unfold float_eqb. rewrite !andb_true_iff, !negb_true_iff, !andb_false_iff, orb_true_iff, andb_true_iff, !negb_false_iff.
  rewrite !Z.eqb_eq, !Z.eqb_neq. rewrite !land_ones', !Z.shiftr_div_pow2 by lia.
  assert (ZZ : forall z, z mod 2 ^ (mw + ew) = 0 <-> (z / 2 ^ mw) mod 2 ^ ew = 0 /\ z mod 2 ^ mw = 0).
  { intros z. rewrite Z.pow_add_r by lia. rewrite Z.rem_mul_r by lia.
    pose proof (Z.mod_pos_bound z (2 ^ mw) ltac:(lia)). pose proof (Z.mod_pos_bound (z / 2 ^ mw) (2 ^ ew) ltac:(lia)). split; [nia|intros [-> ->]; lia]. }
  rewrite !ZZ. assert (D : forall a b : Z, a <> b \/ a = b) by lia.
  pose proof (D ((x / 2 ^ mw) mod 2 ^ ew) (2 ^ ew - 1)). pose proof (D ((y / 2 ^ mw) mod 2 ^ ew) (2 ^ ew - 1)).
  pose proof (D (x mod 2 ^ mw) 0). pose proof (D (y mod 2 ^ mw) 0). tauto.
Qed.
Lemma float32_eqb_spec x y : 0 <= x < 2 ^ 32 -> 0 <= y < 2 ^ 32 ->
  float_eqb 23 8 x y = true <-> Bcompare 24 128 (b32_of_bits x) (b32_of_bits y) = Some Eq.
Proof. intros Hx Hy. apply float_eqb_spec; assumption. Qed.
Lemma float64_eqb_spec x y : 0 <= x < 2 ^ 64 -> 0 <= y < 2 ^ 64 ->
  float_eqb 52 11 x y = true <-> Bcompare 53 1024 (b64_of_bits x) (b64_of_bits y) = Some Eq.
Proof. intros Hx Hy. apply float_eqb_spec; assumption. Qed.

(** ** Numbers in range *)
Definition number_ok (c x : Z) : Prop :=
  (existsb (Z.eqb c) [1; 2; 3; 4; 5; 6; 10] = true -> 0 <= x < 2 ^ 32) /\
  (existsb (Z.eqb c) [7; 8; 9; 11] = true -> 0 <= x < 2 ^ 64).
Definition value_ok (c : Z) (v : value) : Prop :=
  match v with VNum x => number_ok c x | VNums xs => Forall (number_ok c) xs | _ => True end.
Definition values_ok (v : values) : Prop := match v with Mono => True | Vec c vs => Forall (value_ok c) vs end.
Definition attrs_ok (l : list attribute) : Prop := Forall (fun a => values_ok (at_value a)) l.

Lemma number_eqb_spec c x y : number_ok c x -> number_ok c y -> number_eqb c x y = true <-> same_number c x y.
Proof.
  intros [X1 X2] [Y1 Y2]. unfold same_number. destruct (existsb (Z.eqb c) [1; 2; 3; 4; 5; 6; 10]) eqn:E.
  - rewrite <- (float32_eqb_spec x y (X1 eq_refl) (Y1 eq_refl)). cbn [existsb] in E.
    rewrite !orb_true_iff, !Z.eqb_eq in E. destruct E as [->|[->|[->|[->|[->|[->|[->|E]]]]]]]; [reflexivity..|discriminate].
  - destruct (existsb (Z.eqb c) [7; 8; 9; 11]) eqn:E'.
    + rewrite <- (float64_eqb_spec x y (X2 eq_refl) (Y2 eq_refl)). cbn [existsb] in E'.
      rewrite !orb_true_iff, !Z.eqb_eq in E'. destruct E' as [->|[->|[->|[->|E']]]]; [reflexivity..|discriminate].
    + cbn [existsb] in E, E'. rewrite !orb_false_iff, !Z.eqb_neq in E. rewrite !orb_false_iff, !Z.eqb_neq in E'. rewrite <- Z.eqb_eq.
      assert (N : number_eqb c = Z.eqb); [|rewrite N; reflexivity].
      decompose [and] E. decompose [and] E'. clear E E'.
      unfold number_eqb. destruct c as [|c|c]; [reflexivity| |reflexivity].
      do 4 (try (destruct c as [c|c|]); try reflexivity; try (exfalso; congruence)).
Qed.

Lemma forallb_combine {A} (f : A -> A -> bool) (R : A -> A -> Prop) xs ys :
  (forall x y, In x xs -> In y ys -> f x y = true <-> R x y) ->
  ((length xs =? length ys)%nat && forallb (fun p => f (fst p) (snd p)) (combine xs ys) = true <-> Forall2 R xs ys).
Proof.
  revert ys. induction xs as [|x xs IH]; intros [|y ys] H; cbn [length combine forallb Nat.eqb].
  - split; [constructor|reflexivity].
  - split; [discriminate|intros X; inversion X].
  - split; [discriminate|intros X; inversion X].
  - cbn [fst snd]. specialize (IH ys (fun a b Ha Hb => H a b (or_intror Ha) (or_intror Hb))).
    rewrite andb_true_iff in IH |- *. rewrite andb_true_iff. rewrite (H x y) by (left; reflexivity).
    split.
    + intros (L & R1 & F). constructor; [exact R1|]. apply IH. auto.
    + intros X. inversion X; subst. apply IH in H5. tauto.
Qed.

Lemma obname_eqb_spec a b : obname_eqb a b = true <-> a = b.
Proof.
  unfold obname_eqb. rewrite !andb_true_iff, !Z.eqb_eq, bytes_eqb_spec. destruct a, b; cbn. split; [intros ((-> & ->) & ->); reflexivity|intros [= -> -> ->]; auto].
Qed.
Lemma value_eqb_spec c a b : value_ok c a -> value_ok c b -> value_eqb c a b = true <-> same_value c a b.
Proof.
  destruct a, b; cbn [value_ok value_eqb]; intros Ha Hb; try (split; [discriminate|intros X; inversion X]).
  - rewrite number_eqb_spec by assumption. split; [constructor; assumption|intros X; inversion X; assumption].
  - rewrite (forallb_combine _ (same_number c)).
    + split; [constructor; assumption|intros X; inversion X; assumption].
    + intros x y Ix Iy. apply number_eqb_spec; [exact (proj1 (Forall_forall _ _) Ha x Ix)|exact (proj1 (Forall_forall _ _) Hb y Iy)].
  - rewrite bytes_eqb_spec. split; [intros ->; constructor|intros X; inversion X; reflexivity].
  - unfold dtime_eqb. rewrite !andb_true_iff, !Z.eqb_eq. split; [|intros X; inversion X; subst; tauto].
    intros H. match goal with |- same_value c (VTime ?s) (VTime ?t) => destruct s, t end. cbn in H. decompose [and] H. subst. constructor.
  - rewrite obname_eqb_spec. split; [intros ->; constructor|intros X; inversion X; reflexivity].
  - unfold objref_eqb. rewrite andb_true_iff, bytes_eqb_spec, obname_eqb_spec. split; [|intros X; inversion X; subst; tauto].
    intros H. match goal with |- same_value c (VRef ?s) (VRef ?t) => destruct s, t end. cbn in H. destruct H as [-> ->]. constructor.
  - unfold attref_eqb. rewrite !andb_true_iff, !bytes_eqb_spec, obname_eqb_spec. split; [|intros X; inversion X; subst; tauto].
    intros H. match goal with |- same_value c (VAttr ?s) (VAttr ?t) => destruct s, t end. cbn in H. destruct H as [[-> ->] ->]. constructor.
Qed.
Lemma attribute_eqb_spec a b : values_ok (at_value a) -> values_ok (at_value b) -> attribute_eqb a b = true <-> same_attribute a b.
Proof.
  intros Ha Hb. unfold attribute_eqb, same_attribute. rewrite !andb_true_iff, !bytes_eqb_spec, !Z.eqb_eq.
  match goal with |- (_ /\ ?v = true) <-> _ => assert (V : v = true <-> same_values (at_value a) (at_value b)); [|rewrite V; tauto] end.
  destruct (at_value a) as [|c xs], (at_value b) as [|d ys]; cbn [values_eqb]; try (split; [discriminate|intros X; inversion X]).
  - split; [constructor|reflexivity].
  - cbn [values_ok] in Ha, Hb. destruct (Z.eqb_spec c d) as [<-|N]; cbn [andb].
    + rewrite (forallb_combine _ (same_value c)); [split; [constructor; assumption|intros X; inversion X; assumption]|].
      intros x y Ix Iy. apply value_eqb_spec; [exact (proj1 (Forall_forall _ _) Ha x Ix)|exact (proj1 (Forall_forall _ _) Hb y Iy)].
    + split; [discriminate|intros X; inversion X; contradiction].
Qed.
Lemma object_eqb_spec a b : attrs_ok (obj_attrs a) -> attrs_ok (obj_attrs b) -> object_eqb a b = true <-> same_object a b.
Proof.
  intros Ha Hb. unfold object_eqb, same_object. rewrite <- andb_assoc, andb_true_iff, obname_eqb_spec.
  rewrite (forallb_combine _ same_attribute); [reflexivity|].
  intros x y Ix Iy. apply attribute_eqb_spec; [exact (proj1 (Forall_forall _ _) Ha x Ix)|exact (proj1 (Forall_forall _ _) Hb y Iy)].
Qed.

(** ** The numbers of parsed objects are in range *)
Lemma lor_range a b n : 0 <= n -> 0 <= a < 2 ^ n -> 0 <= b < 2 ^ n -> 0 <= Z.lor a b < 2 ^ n.
Proof.
  intros Hn Ha Hb. assert (E : Z.lor a b = Z.lor a b mod 2 ^ n).
  { rewrite <- Z.land_ones by exact Hn. rewrite Z.land_lor_distr_l, !Z.land_ones by exact Hn. rewrite !Z.mod_small by assumption. reflexivity. }
  rewrite E. apply Z.mod_pos_bound. lia.
Qed.
Lemma land_range a b n : 0 <= n -> 0 <= a < 2 ^ n -> 0 <= Z.land a b < 2 ^ n.
Proof.
  intros Hn Ha. assert (E : Z.land a b = Z.land a b mod 2 ^ n).
  { rewrite <- Z.land_ones by exact Hn. rewrite <- Z.land_assoc, (Z.land_comm b), Z.land_assoc, Z.land_ones by exact Hn.
    rewrite Z.mod_small by exact Ha. reflexivity. }
  rewrite E. apply Z.mod_pos_bound. lia.
Qed.
Lemma read_be_range n xs v r : read_be n xs = Some (v, r) -> 0 <= v < 256 ^ Z.of_nat n.
Proof. intros H. apply read_be_Some in H as (a & _ & <- & ->). apply be_range. Qed.
Lemma fsingl_range xs v r : dlis_fsingl xs = Some (v, r) -> 0 <= v < 2 ^ 32.
Proof. exact (read_be_range 4 xs v r). Qed.
Lemma fdoubl_range xs v r : dlis_fdoubl xs = Some (v, r) -> 0 <= v < 2 ^ 64.
Proof. exact (read_be_range 8 xs v r). Qed.
Lemma isingl_range xs v r : dlis_isingl xs = Some (v, r) -> 0 <= v < 2 ^ 32.
Proof.
  unfold dlis_isingl. destruct (read_be 4 xs) as [[u r']|] eqn:E; cbn [obind]; [|discriminate]. intros [= <- _].
  apply read_be_range in E. unfold isingl_bits. cbv zeta. destruct (_ <? _); [lia|]. apply lor_range; [lia| |].
  - destruct (_ >? _); [lia|]. unfold u32. apply Z.mod_pos_bound. lia.
  - apply land_range; [lia|exact E].
Qed.
Lemma vsingl_range xs v r : dlis_vsingl xs = Some (v, r) -> 0 <= v < 2 ^ 32.
Proof.
  unfold dlis_vsingl. destruct (take 4 xs) as [[x r']|]; cbn [obind]; [|discriminate].
  destruct x as [|x0 [|x1 [|x2 [|x3 [|x4 x]]]]]; try discriminate. intros H.
  assert (E : v = bits_of_b32 (vsingl_word (Z.lor (Z.lor (Z.lor (Z.shiftl (b2z x1) 24) (Z.shiftl (b2z x0) 16)) (Z.shiftl (b2z x3) 8)) (b2z x2)))) by congruence.
  rewrite E. apply (bits_of_binary_float_range 23 8 eq_refl eq_refl).
Qed.
Lemma fshort_range xs v r : dlis_fshort xs = Some (v, r) -> 0 <= v < 2 ^ 32.
Proof.
  unfold dlis_fshort. intros H.
  repeat match type of H with context [obind ?m _] => destruct m as [[? ?]|]; cbn [obind] in H; [|discriminate H] end.
  match type of H with Some (bits_of_b32 ?f, _) = _ => assert (E : v = bits_of_b32 f) by congruence end.
  rewrite E. apply (bits_of_binary_float_range 23 8 eq_refl eq_refl).
Qed.

Ltac steps H := repeat match type of H with context [obind ?m _] => let E := fresh "E" in destruct m as [[? ?]|] eqn:E; cbn [obind] in H; [|discriminate H] end.
Ltac inr := repeat match goal with
  | E : dlis_fsingl _ = Some _ |- _ => apply fsingl_range in E
  | E : dlis_fdoubl _ = Some _ |- _ => apply fdoubl_range in E
  | E : dlis_isingl _ = Some _ |- _ => apply isingl_range in E
  | E : dlis_vsingl _ = Some _ |- _ => apply vsingl_range in E
  | E : dlis_fshort _ = Some _ |- _ => apply fshort_range in E end.
Lemma small32 c x : existsb (Z.eqb c) [7; 8; 9; 11] = false -> 0 <= x < 2 ^ 32 -> number_ok c x.
Proof. intros E H. split; [auto|congruence]. Qed.
Lemma small64 c x : existsb (Z.eqb c) [1; 2; 3; 4; 5; 6; 10] = false -> 0 <= x < 2 ^ 64 -> number_ok c x.
Proof. intros E H. split; [congruence|auto]. Qed.
Lemma no_float c x : existsb (Z.eqb c) [1; 2; 3; 4; 5; 6; 10] = false -> existsb (Z.eqb c) [7; 8; 9; 11] = false -> number_ok c x.
Proof. intros E F. split; congruence. Qed.

Lemma cast_value_ok c xs v r : cast_value c xs = Some (v, r) -> value_ok c v.
Proof.
  unfold cast_value. intros H.
  destruct c as [|c|c]; [discriminate H| |discriminate H].
  do 5 (try (destruct c as [c|c|])); try discriminate H;
    unfold num, num2, num3, str, dlis_fsing1, dlis_fsing2, dlis_csingl, dlis_fdoub1, dlis_fdoub2, dlis_cdoubl in H; steps H;
    try match goal with p : (_ * _)%type |- _ => idtac end;
    try (match type of H with Some (?a, _) = Some (?b, _) => assert (EV : b = a) by congruence; rewrite EV end; cbn [value_ok];
         solve [exact I | apply no_float; reflexivity | inr; apply small32; [reflexivity|assumption] | inr; apply small64; [reflexivity|assumption]]).
  all: repeat match goal with p : (_ * _)%type |- _ => destruct p end.
  all: try match goal with E : obind _ _ = Some _ |- _ => steps E end.
  all: repeat match goal with E : Some _ = Some _ |- _ => injection E; clear E; intros end; subst; cbn [value_ok]; inr.
  all: repeat (constructor; [first [apply small32; [reflexivity|assumption] | apply small64; [reflexivity|assumption]]|]); try constructor.
Qed.
