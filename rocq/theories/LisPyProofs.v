(** Unique labels, entry blocks and metadata of LIS79 format specifications. *)
From Verif Require Import Bytes BytesProofs DlisTypes DlisCore Stream DlisRecords SpecTypes TypesProofs SpecCore CoreProofs CoreProofs2 SpecIo
  LisTypes LisProtocol LisPy LisCurves SpecLisCurves LisCurvesProofs5 SpecLisPy.
From Flocq Require Import Core IEEE754.Binary IEEE754.Bits.
From Coq Require Import Lia ZArith.
Local Open Scope Z_scope.
Ltac Zify.zify_post_hook ::= Z.div_mod_to_equations.

(** ** Numerals *)
Lemma digits_numeral fuel : forall n, 0 <= n < 2 ^ Z.of_nat fuel -> (0 < fuel)%nat -> is_numeral (digits fuel n) n.
Proof.
  induction fuel as [|k IH]; intros n Hn Hf; [lia|]. cbn [digits].
  assert (Hd : digit_char (z2b (48 + n mod 10)) /\ b2z (z2b (48 + n mod 10)) = 48 + n mod 10).
  { rewrite b2z_z2b_id by lia. split; [unfold digit_char; rewrite b2z_z2b_id; lia | reflexivity]. }
  destruct Hd as [Hd Hv]. destruct (Z.ltb_spec n 10) as [L|L]; cbn [app].
  - split; [discriminate|]. split; [auto|]. split.
    + cbn [decimal_value length]. rewrite Hv. change (10 ^ Z.of_nat 0) with 1. lia.
    + intros d t E Ht. injection E as _ <-. congruence.
  - rewrite Nat2Z.inj_succ, Z.pow_succ_r in Hn by lia.
    assert (K : (0 < k)%nat). { destruct k; [|lia]. change (2 ^ Z.of_nat 0) with 1 in Hn. lia. }
    destruct (IH (n / 10) ltac:(lia) K) as (N1 & N2 & N3 & N4).
    split; [intros E; apply app_eq_nil in E as [_ E]; discriminate|].
    split; [apply Forall_app; auto|]. split; [rewrite decimal_value_snoc, N3, Hv; lia|].
    intros d t Ed Ht. destruct (digits k (n / 10)) as [|d0 s0] eqn:Es; [congruence|]. injection Ed as <- <-.
    destruct s0 as [|d1 s1].
    + cbn [decimal_value length] in N3. change (10 ^ Z.of_nat 0) with 1 in N3. lia.
    + eapply N4; [reflexivity | discriminate].
Qed.
Lemma str_int_numeral n : 0 <= n -> is_numeral (str_int n) n.
Proof.
  intros H. unfold str_int. apply digits_numeral; [|lia]. split; [exact H|].
  destruct (Z.eq_dec n 0) as [->|N]; [reflexivity|].
  rewrite Nat2Z.inj_succ, Z2Nat.id by apply Z.log2_nonneg. apply Z.log2_spec. lia.
Qed.
Lemma numeral_unique s t n : is_numeral s n -> is_numeral t n -> s = t.
Proof.
  intros S T. assert (0 <= n) as Hn. { destruct S as (_ & F & <- & _). apply decimal_value_nonneg, F. }
  revert t n S T Hn. induction s as [|d s IH] using rev_ind; intros t n S T Hn; [destruct S; congruence|].
  destruct t as [|e t _] using rev_ind; [destruct T; congruence|].
  destruct S as (S1 & S2 & S3 & S4), T as (T1 & T2 & T3 & T4). rewrite decimal_value_snoc in S3, T3.
  apply Forall_app in S2 as [S2 Sd], T2 as [T2 Te]. inversion Sd as [|? ? Sd' _]; inversion Te as [|? ? Te' _]; subst. unfold digit_char in Sd', Te'.
  assert (b2z d = b2z e /\ decimal_value s = decimal_value t) as [Ed Ev] by lia.
  assert (d = e) as -> by (apply b2z_inj; exact Ed). f_equal.
  assert (forall x (u : bytes), (forall d0 t0, u ++ [x] = d0 :: t0 -> t0 <> [] -> b2z d0 <> 48) -> Forall digit_char u -> decimal_value u = 0 -> u = []) as Z0.
  { intros x [|a u] P Fu V; [reflexivity|]. exfalso. inversion Fu as [|? ? Fa Fu']; subst. apply (P a (u ++ [x]) eq_refl).
    - intros E. apply app_eq_nil in E as [_ E]. discriminate.
    - cbn [decimal_value] in V. pose proof (decimal_value_nonneg u Fu'). unfold digit_char in Fa.
      pose proof (Z.pow_pos_nonneg 10 (Z.of_nat (length u)) eq_refl ltac:(lia)). nia. }
  destruct s as [|d0 s].
  { cbn [decimal_value] in Ev. symmetry in Ev. symmetry. eapply Z0; eassumption. }
  destruct t as [|e0 t].
  { cbn [decimal_value] in Ev. eapply Z0; eassumption. }
  apply (IH (e0 :: t) (decimal_value (e0 :: t))).
  - split; [discriminate|]. split; [exact S2|]. split; [exact Ev|]. intros d1 t1 E N. injection E as <- <-. eapply S4; [reflexivity|]. destruct s; discriminate.
  - split; [discriminate|]. split; [exact T2|]. split; [reflexivity|]. intros d1 t1 E N. injection E as <- <-. eapply T4; [reflexivity|]. destruct t; discriminate.
  - apply decimal_value_nonneg. exact T2.
Qed.

(** ** Labels *)
Lemma occurs_count x l : count x l = occurs x l.
Proof.
  unfold count, occurs. induction l as [|y l IH]; [reflexivity|]. cbn [filter count_occ].
  destruct (str_eqb x y) eqn:E.
  - apply str_eqb_eq in E as ->. destruct (list_eq_dec Z.eq_dec y y); [|congruence]. cbn [length]. rewrite IH. reflexivity.
  - destruct (list_eq_dec Z.eq_dec y x) as [->|N]; [|exact IH]. rewrite (proj2 (str_eqb_eq x x) eq_refl) in E. discriminate.
Qed.
Lemma occurs_app x a b : occurs x (a ++ b) = (occurs x a + occurs x b)%nat.
Proof. unfold occurs. apply count_occ_app. Qed.
Lemma occurs_one x y : occurs x [y] = if str_eqb y x then 1%nat else 0%nat.
Proof.
  unfold occurs. cbn [count_occ]. destruct (list_eq_dec Z.eq_dec y x) as [->|N].
  - rewrite (proj2 (str_eqb_eq x x) eq_refl). reflexivity.
  - destruct (str_eqb y x) eqn:E; [apply str_eqb_eq in E; contradiction | reflexivity].
Qed.
Definition label_n (x : pystr) (n : nat) : pystr := x ++ str_of (text "(" ++ str_int (Z.of_nat n) ++ text ")").
Lemma str_of_app a b : str_of (a ++ b) = str_of a ++ str_of b.
Proof. apply map_app. Qed.
Lemma label_numbered x n y : numbered x n y <-> y = label_n x n.
Proof.
  unfold label_n. rewrite !str_of_app. split.
  - intros (s & N & ->). rewrite (numeral_unique s (str_int (Z.of_nat n)) (Z.of_nat n) N (str_int_numeral (Z.of_nat n) (Zle_0_nat n))). reflexivity.
  - intros ->. exists (str_int (Z.of_nat n)). split; [apply str_int_numeral; lia | reflexivity].
Qed.
(** a numbered label tells the label and the number *)
Lemma split_last (c : Z) a b s t : ~ In c s -> ~ In c t -> a ++ c :: s = b ++ c :: t -> a = b /\ s = t.
Proof.
  revert b. induction a as [|x a IH]; intros [|y b] S T E; cbn in E.
  - injection E as E. auto.
  - injection E as <- E. exfalso. apply S. rewrite E. apply in_or_app. right. left. reflexivity.
  - injection E as -> E. exfalso. apply T. rewrite <- E. apply in_or_app. right. left. reflexivity.
  - injection E as -> E. destruct (IH b S T E) as [-> ->]. auto.
Qed.
Lemma digits_no_paren s n : is_numeral s n -> ~ In 40 (str_of s ++ str_of (text ")")).
Proof.
  intros (_ & F & _) H. apply in_app_or in H as [H|H]; [|cbv in H; lia]. apply in_map_iff in H as (b & Hb & I).
  apply (proj1 (Forall_forall _ _) F) in I. unfold digit_char in I. lia.
Qed.
Lemma label_inj x y n m : label_n x n = label_n y m -> x = y /\ n = m.
Proof.
  unfold label_n. rewrite !str_of_app. intros E.
  assert (forall k, is_numeral (str_int (Z.of_nat k)) (Z.of_nat k)) as N by (intros; apply str_int_numeral; lia).
  change (str_of (text "(")) with [40] in E. cbn [app] in E.
  apply split_last in E as [-> E]; [| apply (digits_no_paren _ _ (N n)) | apply (digits_no_paren _ _ (N m))].
  split; [reflexivity|]. apply app_inv_tail in E.
  assert (str_int (Z.of_nat n) = str_int (Z.of_nat m)) as E'.
  { clear - E. revert E. generalize (str_int (Z.of_nat m)). induction (str_int (Z.of_nat n)) as [|a s IH]; intros [|b t] E; try discriminate; [reflexivity|].
    injection E as E1 E2. f_equal; [apply b2z_inj, E1 | apply IH, E2]. }
  pose proof (N n) as Nn. rewrite E' in Nn. pose proof (numeral_inj _ _ _ Nn (N m)). lia.
Qed.
Lemma label_longer x n : (length x < length (label_n x n))%nat.
Proof. unfold label_n. rewrite app_length, str_of_app, app_length. cbn. lia. Qed.

(** labels in [done] numbered, [pre] being the labels before *)
Fixpoint mark (done pre l : list pystr) : list pystr :=
  match l with
  | [] => []
  | x :: t => (if existsb (str_eqb x) done then label_n x (occurs x pre) else x) :: mark done (pre ++ [x]) t
  end.
Lemma mark_nil pre l : mark [] pre l = l.
Proof. revert pre. induction l as [|x l IH]; intros pre; [reflexivity|]. cbn [mark existsb]. rewrite IH. reflexivity. Qed.
Lemma relabel_mark dup done : existsb (str_eqb dup) done = false -> forall l pre,
  (forall x n, In x l -> existsb (str_eqb x) done = true -> label_n x n <> dup) ->
  relabel dup (Z.of_nat (occurs dup pre)) (mark done pre l) = mark (done ++ [dup]) pre l.
Proof.
  intros D. induction l as [|x l IH]; intros pre H; [reflexivity|]. cbn [mark relabel].
  rewrite existsb_app. cbn [existsb]. rewrite orb_false_r.
  assert (forall y, str_eqb y y = true) as R by (intros; apply str_eqb_eq; reflexivity).
  assert (IH' := IH (pre ++ [x]) (fun y n I => H y n (or_intror I))). rewrite occurs_app, occurs_one in IH'.
  destruct (existsb (str_eqb x) done) eqn:E.
  - destruct (str_eqb (label_n x (occurs x pre)) dup) eqn:E2.
    { apply str_eqb_eq in E2. exfalso. exact (H x (occurs x pre) (or_introl eq_refl) E E2). }
    cbn [orb]. f_equal. destruct (str_eqb x dup) eqn:E3; [apply str_eqb_eq in E3 as ->; congruence|]. rewrite Nat.add_0_r in IH'. exact IH'.
  - cbn [orb]. destruct (str_eqb x dup) eqn:E2.
    + apply str_eqb_eq in E2 as ->. f_equal. rewrite <- IH'. f_equal. lia.
    + f_equal. rewrite Nat.add_0_r in IH'. exact IH'.
Qed.
Lemma fold_mark l dups : forall done, NoDup dups -> (forall x, In x dups -> existsb (str_eqb x) done = false) ->
  (forall x n, In x l -> In x (done ++ dups) -> ~ In (label_n x n) dups) ->
  fold_left (fun l dup => relabel dup 0 l) dups (mark done [] l) = mark (done ++ dups) [] l.
Proof.
  induction dups as [|d dups IH]; intros done N D H; cbn [fold_left]; [rewrite app_nil_r; reflexivity|].
  inversion N as [|? ? N1 N2]; subst. assert (relabel d 0 (mark done [] l) = mark (done ++ [d]) [] l) as ->; [apply (relabel_mark d done) with (pre := [])|].
  3:{ rewrite (IH (done ++ [d])).
    + rewrite <- app_assoc. reflexivity.
    + exact N2.
    + intros x I. rewrite existsb_app, (D x (or_intror I)). cbn. rewrite orb_false_r. destruct (str_eqb x d) eqn:E; [apply str_eqb_eq in E as ->; contradiction | reflexivity].
    + intros x n I I' I''. rewrite <- app_assoc in I'. exact (H x n I I' (or_intror I'')). }
  - apply D. left. reflexivity.
  - intros x n I E E'. apply exists_in in E. apply (H x n I); [apply in_or_app; auto | left; symmetry; exact E'].
Qed.
Lemma distinct_spec l : forall seen, NoDup (distinct seen l) /\ forall x, In x (distinct seen l) <-> In x l /\ ~ In x seen.
Proof.
  induction l as [|y l IH]; intros seen; cbn [distinct].
  - split; [constructor|]. intros x. cbn. tauto.
  - destruct (existsb (str_eqb y) seen) eqn:E.
    + apply exists_in in E. destruct (IH seen) as [N H]. split; [exact N|]. intros x. rewrite H. cbn [In]. split; [tauto|].
      intros [[->|I] K]; [contradiction | auto].
    + assert (~ In y seen) as E' by (intros I; apply exists_in in I; congruence).
      destruct (IH (y :: seen)) as [N H]. split.
      * constructor; [|exact N]. intros I. apply H in I as [_ I]. apply I. left. reflexivity.
      * intros x. cbn [In]. rewrite H. cbn [In]. destruct (list_eq_dec Z.eq_dec x y) as [->|D]; [tauto|].
        split; [intros [->|[I K]]; [contradiction|]; split; [auto | intros J; apply K; auto] |].
        intros [[->|I] K]; [contradiction|]. right. split; [exact I|]. intros [->|J]; [contradiction|]. contradiction.
Qed.
Definition duplicates (l : list pystr) : list pystr := filter (fun x => (1 <? count x l)%nat) (distinct [] l).
Lemma duplicates_in l x : In x (duplicates l) <-> (1 < occurs x l)%nat.
Proof.
  unfold duplicates. rewrite filter_In, (proj2 (distinct_spec l [])), occurs_count, Nat.ltb_lt. cbn [In].
  split; [tauto|]. intros H. split; [|exact H]. split; [|tauto]. apply (count_occ_In (list_eq_dec Z.eq_dec)). unfold occurs in H. lia.
Qed.
Lemma duplicates_nodup l : NoDup (duplicates l).
Proof. apply NoDup_filter, distinct_spec. Qed.
Lemma unique_mark l : unnumbered l -> unique_mnemonics l = mark (duplicates l) [] l.
Proof.
  intros U. unfold unique_mnemonics. fold (duplicates l). rewrite <- (mark_nil [] l) at 2. rewrite fold_mark; [reflexivity | apply duplicates_nodup | reflexivity |].
  intros x n I D K. cbn [app] in D. apply duplicates_in in D. apply duplicates_in in K.
  apply (U x (label_n x n) n I D); [apply label_numbered; reflexivity|]. apply (count_occ_In (list_eq_dec Z.eq_dec)). unfold occurs in K. lia.
Qed.
Lemma mark_nth done l : forall pre i, nth_error (mark done pre l) i =
  match nth_error l i with
  | Some x => Some (if existsb (str_eqb x) done then label_n x (occurs x (pre ++ firstn i l)) else x)
  | None => None
  end.
Proof.
  induction l as [|y l IH]; intros pre [|i]; cbn [mark nth_error firstn]; try reflexivity.
  - rewrite app_nil_r. reflexivity.
  - rewrite IH, <- app_assoc. reflexivity.
Qed.
Lemma unique_made l : unnumbered l -> made_unique l (unique_mnemonics l).
Proof.
  intros U. split; [apply unique_length|]. intros i x E. rewrite (unique_mark l U), mark_nth, E. cbn [app].
  assert (In x l) as I by (eapply nth_error_In; exact E). eexists. split; [reflexivity|].
  destruct (existsb (str_eqb x) (duplicates l)) eqn:D.
  - apply exists_in, duplicates_in in D. right. split; [exact D|]. apply label_numbered. reflexivity.
  - left. split; [|reflexivity]. apply (count_occ_In (list_eq_dec Z.eq_dec)) in I. fold (occurs x l) in I.
    assert (~ (1 < occurs x l)%nat); [|lia]. intros K. apply duplicates_in, exists_in in K. congruence.
Qed.
Lemma occurs_firstn l x i : nth_error l i = Some x -> forall j, (i < j)%nat -> (occurs x (firstn i l) < occurs x (firstn j l))%nat.
Proof.
  revert i. induction l as [|y l IH]; intros [|i] E [|j] L; try discriminate; try lia; cbn [firstn nth_error] in *.
  - injection E as ->. change (occurs x (x :: firstn j l)) with (occurs x ([x] ++ firstn j l)). rewrite occurs_app, occurs_one.
    rewrite (proj2 (str_eqb_eq x x) eq_refl). cbn. lia.
  - change (y :: firstn i l) with ([y] ++ firstn i l). change (y :: firstn j l) with ([y] ++ firstn j l). rewrite !occurs_app.
    specialize (IH i E j ltac:(lia)). lia.
Qed.
Lemma occurs_two l i j x : nth_error l i = Some x -> nth_error l j = Some x -> occurs x l = 1%nat -> i = j.
Proof.
  intros Ei Ej O.
  assert (forall a b, nth_error l a = Some x -> nth_error l b = Some x -> (a < b)%nat -> False) as W.
  { intros a b Ea Eb L. pose proof (occurs_firstn l x a Ea b L) as H1. pose proof (occurs_firstn l x b Eb (S b) ltac:(lia)) as H2.
    rewrite <- (firstn_skipn (S b) l), occurs_app in O. lia. }
  destruct (Nat.lt_trichotomy i j) as [L|[L|L]]; [exfalso; eauto | exact L | exfalso; eauto].
Qed.
Lemma unique_nodup l : unnumbered l -> NoDup (unique_mnemonics l).
Proof.
  intros U. apply NoDup_nth_error. intros i j Hi E. destruct (unique_made l U) as [L M].
  rewrite L in Hi. destruct (nth_error l i) as [x|] eqn:Ei; [|apply nth_error_None in Ei; lia].
  destruct (M i x Ei) as (y & Ey & Hy).
  destruct (nth_error l j) as [x'|] eqn:Ej.
  2:{ apply nth_error_None in Ej. rewrite <- L in Ej. apply nth_error_None in Ej. congruence. }
  destruct (M j x' Ej) as (y' & Ey' & Hy'). assert (y = y') as <- by congruence.
  pose proof (nth_error_In _ _ Ei) as Ii. pose proof (nth_error_In _ _ Ej) as Ij.
  destruct Hy as [[O ->]|[O N]], Hy' as [[O' E']|[O' N']].
  - subst x'. exact (occurs_two l i j x Ei Ej O).
  - exfalso. exact (U x' x _ Ij O' N' Ii).
  - subst y. exfalso. exact (U x x' _ Ii O N Ij).
  - apply label_numbered in N, N'. rewrite N in N'. apply label_inj in N' as [<- N'].
    destruct (Nat.lt_trichotomy i j) as [K|[K|K]]; [|exact K|]; exfalso.
    + pose proof (occurs_firstn l x i Ei j K). lia.
    + pose proof (occurs_firstn l x j Ej i K). lia.
Qed.
Lemma same_length_unnumbered l n : (forall x, In x l -> length x = n) -> unnumbered l.
Proof.
  intros H x y k I _ N K. apply label_numbered in N as ->. pose proof (label_longer x k). rewrite (H _ K), (H _ I) in *. lia.
Qed.
Lemma nodup_unnumbered l : NoDup l -> unnumbered l.
Proof. intros N x y k _ O. exfalso. apply (NoDup_count_occ (list_eq_dec Z.eq_dec)) with (x := x) in N. unfold occurs in O. lia. Qed.
Lemma unique_id l : NoDup l -> unique_mnemonics l = l.
Proof.
  intros N. rewrite (unique_mark l (nodup_unnumbered l N)).
  assert (duplicates l = []) as ->; [|apply mark_nil]. destruct (duplicates l) as [|x t] eqn:E; [reflexivity|]. exfalso.
  assert (In x (duplicates l)) as D by (rewrite E; left; reflexivity). apply duplicates_in in D.
  apply (NoDup_count_occ (list_eq_dec Z.eq_dec)) with (x := x) in N. unfold occurs in D. lia.
Qed.
(** relabelling only makes labels longer *)
Lemma relabel_longer dup n l : Forall2 (fun x y => length x <= length y)%nat l (relabel dup n l).
Proof.
  revert n. induction l as [|x l IH]; intros n; cbn [relabel]; [constructor|]. destruct (str_eqb x dup); constructor; try apply IH; [rewrite app_length; lia | lia].
Qed.
Lemma relabel_strict dup n l : In dup l -> exists i x y, nth_error l i = Some x /\ nth_error (relabel dup n l) i = Some y /\ (length x < length y)%nat.
Proof.
  revert n. induction l as [|x l IH]; intros n; cbn [In relabel]; [tauto|]. destruct (str_eqb x dup) eqn:E.
  - intros _. exists 0%nat. eexists _, _. split; [reflexivity|]. split; [reflexivity|]. rewrite app_length, str_of_app, app_length. cbn. lia.
  - intros [->|I]; [rewrite (proj2 (str_eqb_eq dup dup) eq_refl) in E; discriminate|]. destruct (IH n I) as (i & a & b & H). exists (S i), a, b. exact H.
Qed.
Lemma forall2_nth {A B} (P : A -> B -> Prop) l l' : Forall2 P l l' -> forall i x, nth_error l i = Some x -> exists y, nth_error l' i = Some y /\ P x y.
Proof. induction 1; intros [|i] z E; try discriminate; cbn in *; [injection E as <-; eauto | eauto]. Qed.
Lemma fold_longer dups l i x : nth_error l i = Some x -> exists y, nth_error (fold_left (fun l dup => relabel dup 0 l) dups l) i = Some y /\ (length x <= length y)%nat.
Proof.
  revert l x. induction dups as [|d dups IH]; intros l x E; cbn [fold_left]; [eauto|].
  destruct (forall2_nth _ _ _ (relabel_longer d 0 l) i x E) as (y & Ey & L). destruct (IH _ _ Ey) as (z & Ez & L'). exists z. split; [exact Ez | lia].
Qed.
Lemma unique_fixed l : unique_mnemonics l = l <-> NoDup l.
Proof.
  split; [|apply unique_id]. intros E. destruct (duplicates l) as [|d t] eqn:D.
  - apply (NoDup_count_occ (list_eq_dec Z.eq_dec)). intros x. destruct (Nat.le_gt_cases (occurs x l) 1) as [H|H]; [exact H|]. apply duplicates_in in H. rewrite D in H. destruct H.
  - exfalso. unfold unique_mnemonics in E. fold (duplicates l) in E. rewrite D in E. cbn [fold_left] in E.
    assert (In d l) as I. { assert (In d (duplicates l)) as K by (rewrite D; left; reflexivity). apply duplicates_in in K. apply (count_occ_In (list_eq_dec Z.eq_dec)). unfold occurs in K. lia. }
    destruct (relabel_strict d 0 l I) as (i & x & y & Ex & Ey & L). destruct (fold_longer t _ i y Ey) as (z & Ez & L'). rewrite E, Ex in Ez. injection Ez as <-. lia.
Qed.

(** ** Entries *)
Lemma filter_two {A} (f : A -> bool) l x y t : filter f l = x :: y :: t -> exists a b c, l = a ++ x :: b ++ y :: c /\ f x = true /\ f y = true.
Proof.
  revert x y t. induction l as [|z l IH]; intros x y t; cbn [filter]; [discriminate|]. destruct (f z) eqn:E.
  - intros H. injection H as -> H. assert (exists b c, l = b ++ y :: c /\ f y = true) as (b & c & -> & Fy).
    { clear - H. induction l as [|w l IH]; cbn [filter] in H; [discriminate|]. destruct (f w) eqn:F.
      - injection H as -> _. exists [], l. auto.
      - destruct (IH H) as (b & c & -> & Fy). exists (w :: b), c. auto. }
    exists [], b, c. auto.
  - intros H. destruct (IH _ _ _ H) as (a & b & c & -> & F). exists (z :: a), b, c. auto.
Qed.
Lemma reads_entry t def : reads (fun d => entry_value d t def) t def.
Proof.
  intros d. split; [intros v; apply entry_iff|]. unfold entry_value, find_entry.
  destruct (filter (fun e => eb_type e =? t) (df_entries d)) as [|x [|y l]] eqn:E; cbn [rbind].
  1, 2: split; [|split; discriminate]; split; [discriminate|]; intros (a & x' & b & y' & c & Ed & Ex & Ey); exfalso;
    rewrite Ed, !filter_app in E; cbn [filter] in E; rewrite Ex, Z.eqb_refl, !filter_app in E; cbn [filter] in E; rewrite Ey, Z.eqb_refl in E;
    destruct (filter (fun e => eb_type e =? t) a); cbn in E; [|destruct l; discriminate]; try discriminate;
    injection E as _ E; apply app_eq_nil in E as [_ E]; discriminate.
  split; [|split; discriminate]. split; [|reflexivity]. intros _. destruct (filter_two _ _ _ _ _ E) as (a & b & c & Ed & Ex & Ey).
  exists a, x, b, y, c. split; [exact Ed|]. split; lia.
Qed.

(** ** Metadata *)
Lemma dict_set_new {A} k (v : A) l : ~ In k (map fst l) -> dict_set k v l = l ++ [(k, v)].
Proof.
  induction l as [|[k' v'] l IH]; cbn [dict_set map fst app In]; [reflexivity|]. intros N.
  destruct (str_eqb k k') eqn:E; [apply str_eqb_eq in E as ->; exfalso; auto|]. rewrite IH by auto. reflexivity.
Qed.
Lemma dict_of_nodup {A} (l : list (pystr * A)) : NoDup (map fst l) -> dict_of l = l.
Proof.
  unfold dict_of. enough (forall acc, NoDup (map fst (acc ++ l)) -> fold_left (fun m '(k, v) => dict_set k v m) l acc = acc ++ l) as H by exact (H []).
  induction l as [|[k v] l IH]; intros acc N; cbn [fold_left]; [rewrite app_nil_r; reflexivity|].
  rewrite dict_set_new.
  - rewrite IH, <- app_assoc; [reflexivity|]. rewrite <- app_assoc. exact N.
  - rewrite map_app in N. cbn [map fst] in N. apply NoDup_remove_2 in N. intros I. apply N. apply in_or_app. auto.
Qed.
Lemma forallb_combine a b : length a = length b -> forallb (fun '(x, y) => str_eqb x y) (combine a b) = true <-> a = b.
Proof.
  revert b. induction a as [|x a IH]; intros [|y b] L; try discriminate; [tauto|]. cbn [combine forallb]. rewrite andb_true_iff, str_eqb_eq, IH by (injection L; auto).
  split; [intros [-> ->]; reflexivity | intros E; injection E; auto].
Qed.
Section Dec.
Variable dec : bytes -> pystr.
Definition meta_names (rate : Z) (l : layout) : list pystr := index_label dec l :: map (fun s => dec (sp_mnemonic s)) (at_rate rate l).
Definition meta_blocks (rate : Z) (l : layout) : list (option spec_block) := index_block l :: map Some (at_rate rate l).
Lemma metadata_spec d l asked rate strict : layout_of d l -> df_specs d <> [] -> rate_used l asked rate ->
  curves_metadata dec d asked strict =
  if strict && negb (no_duplicates (meta_names rate l)) then Exn
  else Ok (dict_of (combine (unique_mnemonics (meta_names rate l)) (meta_blocks rate l))).
Proof.
  intros LO NE RU. unfold curves_metadata. destruct (df_specs d) as [|s0 ss] eqn:E; [congruence|].
  destruct (layout_specs d l LO) as (Es & Ec & Em). rewrite Em. cbn [rbind]. rewrite (proj2 (rate_iff d l asked rate LO) RU). cbn [rbind].
  rewrite Ec. unfold index_mnem. rewrite Em. cbn [rbind].
  assert ((match (if pv_is (PInt (mode_of l)) 0 then Ok (match df_specs d with [] => None | s :: _ => Some (dec (sp_mnemonic s)) end)
                  else if pv_is (PInt (mode_of l)) 1 then Ok (Some default_index_mnem) else Ok None) with r => r end) = Ok (Some (index_label dec l))) as ->.
  { rewrite Es. destruct l; reflexivity. }
  cbn [rbind]. fold (at_rate rate l). fold (meta_names rate l).
  assert ((if pv_is (PInt (mode_of l)) 0 then Some s0 else None) = index_block l) as ->. { destruct l; cbn in *; congruence. }
  fold (meta_blocks rate l).
  assert (forallb (fun '(a, b) => str_eqb a b) (combine (unique_mnemonics (meta_names rate l)) (meta_names rate l)) = no_duplicates (meta_names rate l)) as ->.
  { apply eq_true_iff_eq. rewrite forallb_combine, no_duplicates_iff by apply unique_length. apply unique_fixed. }
  reflexivity.
Qed.
Lemma columns_labels rate l cols : columns_of dec rate l cols -> exists chans, chosen rate (layout_channels l) chans /\
  map col_label cols = index_label dec l :: map (fun s => dec (sp_mnemonic s)) chans.
Proof.
  intros [c0 chans cs I C F]. exists chans. split; [exact C|]. cbn [map]. f_equal.
  - destruct I as [s0 ss c Hc|]; [destruct Hc|]; reflexivity.
  - clear C. induction F as [|s c chans cs H F IH]; [reflexivity|]. cbn [map]. rewrite IH. destruct H; reflexivity.
Qed.
Lemma chosen_at_rate rate l chans : chosen rate (layout_channels l) chans -> (forall s, In s (layout_channels l) -> 0 < sp_reserved_size s) -> chans = at_rate rate l.
Proof.
  unfold at_rate. induction 1 as [|s ss l' S C IH|s ss l' S C IH]; intros H; [reflexivity| |]; cbn [filter].
  - destruct S as [_ ->]. rewrite Z.eqb_refl, <- IH by (intros; apply H; right; assumption). reflexivity.
  - destruct (Z.eqb_spec (sp_samples s) rate) as [E|E]; [|apply IH; intros; apply H; right; assumption].
    exfalso. apply S. split; [apply H; left; reflexivity | exact E].
Qed.
Lemma metadata_matches d asked strict fc cols : frame_config dec d asked strict = Ok (fc, cols) ->
  (forall s, In s (df_specs d) -> 0 < sp_reserved_size s) ->
  exists l rate chans, layout_of d l /\ rate_used l asked rate /\ chosen rate (layout_channels l) chans /\
    curves_metadata dec d asked strict = Ok (combine (map col_label cols) (index_block l :: map Some chans)).
Proof.
  intros H P. destruct (config_inv _ _ _ _ _ _ H) as (l & rate & c & n & m & its & LO & U & RU & _ & DT & _).
  destruct (layout_specs d l LO) as (Es & Ec & Em).
  assert (df_specs d <> []) as NE. { rewrite Es. destruct l; cbn in *; [discriminate|]. destruct U as (_ & U & _). exact U. }
  assert (forall s, In s (layout_channels l) -> 0 < sp_reserved_size s) as P'. { intros s I. apply P. rewrite Es. destruct l; cbn in *; auto. }
  assert (forall k, NoDup k -> k = unique_mnemonics (meta_names rate l) ->
    Ok (dict_of (combine (unique_mnemonics (meta_names rate l)) (meta_blocks rate l))) = Ok (combine k (meta_blocks rate l))) as D.
  { intros k N ->. f_equal. apply dict_of_nodup. assert (map fst (combine (unique_mnemonics (meta_names rate l)) (meta_blocks rate l)) = unique_mnemonics (meta_names rate l)) as ->; [|exact N].
    assert (length (unique_mnemonics (meta_names rate l)) = length (meta_blocks rate l)) as L by (rewrite unique_length; unfold meta_names, meta_blocks; cbn; rewrite !map_length; reflexivity).
    clear - L. revert L. generalize (meta_blocks rate l). induction (unique_mnemonics (meta_names rate l)) as [|x u IH]; intros [|b bs] L; try discriminate; [reflexivity|].
    cbn. rewrite IH by (injection L; auto). reflexivity. }
  destruct DT as [cols CO N|cols cols' CO N S N' E' _].
  - destruct (columns_labels _ _ _ CO) as (chans & C & E). pose proof (chosen_at_rate _ _ _ C P') as ->. exists l, rate, (at_rate rate l). repeat (split; [assumption|]).
    fold (meta_names rate l) in E. fold (meta_blocks rate l). rewrite (metadata_spec d l asked rate strict LO NE RU). rewrite E in N |- *.
    rewrite (proj2 (no_duplicates_iff _) N), andb_false_r. apply D; [exact N | symmetry; apply unique_id; exact N].
  - destruct (columns_labels _ _ _ CO) as (chans & C & E). pose proof (chosen_at_rate _ _ _ C P') as ->. exists l, rate, (at_rate rate l). repeat (split; [assumption|]).
    fold (meta_names rate l) in E. fold (meta_blocks rate l). rewrite (metadata_spec d l asked rate strict LO NE RU), S. cbn [andb]. apply D; [exact N'|]. rewrite E', E. reflexivity.
Qed.
End Dec.
Lemma nth_same {A} (l l' : list A) : (forall i, nth_error l i = nth_error l' i) -> l = l'.
Proof.
  revert l'. induction l as [|x l IH]; intros [|y l'] H; [reflexivity | specialize (H 0%nat); discriminate | specialize (H 0%nat); discriminate |].
  f_equal; [specialize (H 0%nat); cbn in H; congruence | apply IH; intros i; exact (H (S i))].
Qed.
