(** Proofs about validshape and sampling (Dimensional.v). *)
From Verif Require DlisFrame DlisFrameProofs2 SpecDlisFrame.
From Verif Require Import Bytes BytesProofs Stream PyBase DlisTypes DlisRecords CommonPy DlisObject Dimensional SpecDimensional DimensionalProofs.
From Coq Require Import ZifyBool ZifyNat.
Local Open Scope Z_scope.

Lemma volume_app a b : volume (a ++ b) = volume a * volume b.
Proof.
  induction a as [|x a IH]; cbn [app]; [change (volume []) with 1; lia|]. change (x * volume (a ++ b) = x * volume a * volume b). rewrite IH. ring.
Qed.
Lemma volume_pos shape : Forall (Z.le 1) shape -> 1 <= volume shape.
Proof. exact (DlisFrameProofs2.elements_pos shape). Qed.
Lemma prod_volume shape : - 2 ^ 63 <= volume shape < 2 ^ 63 -> DlisFrame.np_prod shape = volume shape.
Proof.
  intros H. unfold DlisFrame.np_prod. rewrite DlisFrameProofs2.prod_elements, Z.mul_1_l. change (SpecDlisFrame.elements shape) with (volume shape).
  rewrite Z.mod_small by lia. lia.
Qed.
Lemma product_volume l : Forall (Z.le 0) l -> Z.of_nat (product (map Z.to_nat l)) = volume l.
Proof. induction 1 as [|x l X F IH]; [reflexivity|]. cbn [map product volume fold_right]. unfold volume in IH. rewrite <- IH. lia. Qed.
Lemma of_to l : Forall (Z.le 0) l -> map Z.of_nat (map Z.to_nat l) = l.
Proof. induction 1 as [|x l X F IH]; [reflexivity|]. cbn [map]. rewrite IH. f_equal. lia. Qed.

Lemma subsize_sound m size shape s : 0 < size -> np_subsize m size shape = Some s ->
  Forall (Z.le 0) shape /\ s = volume shape * size /\ s < 2 ^ 31.
Proof.
  intros P. unfold np_subsize. destruct (_ <? _)%nat; [discriminate|]. destruct (existsb _ shape) eqn:X; [discriminate|].
  assert (Forall (Z.le 0) shape) as F.
  { apply Forall_forall. intros d I. destruct (Z.leb_spec 0 d) as [|L]; [assumption|]. exfalso.
    assert (existsb (fun d => (d <? 0) || (d >? 2 ^ 31 - 1)) shape = true) as T; [|congruence]. apply existsb_exists. exists d. split; [exact I | lia]. }
  destruct (DlisFrame.np_items 1 shape) as [n|] eqn:E; [|discriminate]. cbn [obind]. destruct (Z.gtb_spec (n * size) (2 ^ 31 - 1)); [discriminate|].
  intros [= <-]. apply (DlisFrameProofs2.items_elements shape 1 n F) in E. change (SpecDlisFrame.elements shape) with (volume shape) in E.
  split; [exact F|]. split; lia.
Qed.
Lemma subsize_complete m size shape : 0 < size -> (length shape <= m)%nat -> Forall (Z.le 1) shape -> volume shape * size < 2 ^ 31 ->
  np_subsize m size shape = Some (volume shape * size).
Proof.
  intros P L F B. pose proof (volume_pos shape F) as V. unfold np_subsize. replace (m <? length shape)%nat with false by lia.
  assert (existsb (fun d => (d <? 0) || (d >? 2 ^ 31 - 1)) shape = false) as ->.
  { apply not_true_iff_false. intros X. apply existsb_exists in X as (d & I & X). pose proof (proj1 (Forall_forall _ _) F d I).
    pose proof (DlisFrameProofs2.dims_small shape F d I) as D. change (SpecDlisFrame.elements shape) with (volume shape) in D.
    assert (volume shape <= volume shape * size) by nia. lia. }
  assert (volume shape <= volume shape * size) by nia.
  pose proof (DlisFrameProofs2.items_ok shape 1 ltac:(lia) F) as E. change (SpecDlisFrame.elements shape) with (volume shape) in E.
  rewrite Z.mul_1_l in E. rewrite E by lia. cbn [obind]. destruct (Z.gtb_spec (volume shape * size) (2 ^ 31 - 1)); [lia | reflexivity].
Qed.

(** ** validshape *)
Section proofs.
Variable maxdims : nat.

Lemma divides_spec size shape : Forall (Z.le 1) shape -> volume shape < 2 ^ 63 -> (divides size shape = true <-> (volume shape | size)).
Proof.
  intros F B. pose proof (volume_pos shape F). unfold divides. rewrite prod_volume by lia. replace (volume shape =? 0) with false by lia.
  rewrite Z.eqb_eq. apply Z.mod_divide. lia.
Qed.
Lemma validshape_given data shape count s : data <> [] -> shape <> [] -> Forall (Z.le 1) shape -> volume shape < 2 ^ 63 ->
  (validshape (Some data) shape count = Some s <-> s = shape /\ (volume shape | Z.of_nat (length data))).
Proof.
  intros N S F B. unfold validshape. destruct data as [|v data]; [contradiction|]. destruct shape as [|d shape]; [contradiction|]. cbn [obind].
  pose proof (divides_spec (Z.of_nat (length (v :: data))) (d :: shape) F B) as D. destruct (divides _ _).
  - split; [intros [= <-]; split; [reflexivity | apply D; reflexivity] | intros [-> _]; reflexivity].
  - split; [discriminate | intros [_ X]; apply D in X; discriminate].
Qed.
Lemma validshape_inferred data count s : data <> [] ->
  (validshape (Some data) [] count = Some s <-> s = [1] /\ (count = Some (Z.of_nat (length data)) \/ length data = 1%nat)).
Proof.
  intros N. unfold validshape. destruct data as [|v data]; [contradiction|].
  assert (divides (Z.of_nat (length (v :: data))) [1] = true) as D by (apply divides_spec; [repeat constructor; lia | reflexivity | apply Z.divide_1_l]).
  destruct count as [n|].
  - destruct (Z.eqb_spec (Z.of_nat (length (v :: data))) n) as [E|E].
    + cbn [obind]. rewrite D. split; [intros [= <-]; split; [reflexivity | left; congruence] | intros [-> _]; reflexivity].
    + destruct (Z.eqb_spec (Z.of_nat (length (v :: data))) 1) as [E1|E1]; cbn [obind].
      * rewrite D. split; [intros [= <-]; split; [reflexivity | right; lia] | intros [-> _]; reflexivity].
      * split; [discriminate | intros [_ [X|X]]; [injection X as ->; contradiction | rewrite X in E1; contradiction]].
  - destruct (Z.eqb_spec (Z.of_nat (length (v :: data))) 1) as [E1|E1]; cbn [obind].
    + rewrite D. split; [intros [= <-]; split; [reflexivity | right; lia] | intros [-> _]; reflexivity].
    + split; [discriminate | intros [_ [X|X]]; [discriminate | rewrite X in E1; contradiction]].
Qed.

(** ** sampling *)
Lemma inner_of shape : (if shape_eqb shape [1] then [] else shape) = (if list_eq_dec Z.eq_dec shape [1] then [] else shape).
Proof. unfold shape_eqb. destruct (list_eq_dec Z.eq_dec shape [1]); reflexivity. Qed.
Lemma inner_volume shape : volume (if list_eq_dec Z.eq_dec shape [1] then [] else shape) = volume shape.
Proof. destruct (list_eq_dec Z.eq_dec shape [1]) as [->|]; reflexivity. Qed.
Lemma inner_pos shape : Forall (Z.le 1) shape -> Forall (Z.le 1) (if list_eq_dec Z.eq_dec shape [1] then [] else shape).
Proof. intros F. destruct (list_eq_dec Z.eq_dec shape [1]); [constructor | exact F]. Qed.
Lemma inner_length shape : (length (if list_eq_dec Z.eq_dec shape [1%Z] then [] else shape) <= length shape)%nat.
Proof. destruct (list_eq_dec Z.eq_dec shape [1]); cbn; lia. Qed.

(** the array that sampling makes before it looks at [single] *)
Lemma sampling_array data shape single r : one_kind data -> data <> [] -> Forall (Z.le 1) shape -> (volume shape | Z.of_nat (length data)) ->
  sampling maxdims (Some data) shape single = Some r ->
  exists samples, samples_of data shape samples /\ samples <> [] /\
    (if single then do first <- hd_error samples; Some (first, negb (length samples =? 1)%nat) else Some (Arr samples, false)) = Some r.
Proof.
  intros K N F [q Q] H. pose proof (volume_pos shape F) as V.
  destruct (array_kind data K N) as (items & w & ps & v & e & A & Hd & I & Es & Le & P & Kp & Li & Fe & W & _).
  unfold sampling in H. destruct data as [|d0 data0]; [contradiction|]. remember (d0 :: data0) as data eqn:Ed.
  destruct shape as [|n0 shape0]; [discriminate|]. remember (n0 :: shape0) as shape eqn:Esh.
  rewrite A, inner_of in H. cbn [obind] in H. rewrite Es in H.
  destruct (np_subsize maxdims w e) as [elem|] eqn:E1; [|discriminate]. cbn [obind] in H. apply subsize_sound in E1 as (_ & -> & B1); [|exact W].
  assert (Forall (Z.le 1) e) as Fe1 by (eapply Forall_impl; [|exact Fe]; intros x X; cbn beta in *; lia). pose proof (volume_pos e Fe1) as Ve.
  set (inn := if list_eq_dec Z.eq_dec shape [1] then [] else shape) in *.
  destruct (np_subsize maxdims (volume e * w) inn) as [sz|] eqn:E2; [|discriminate]. cbn [obind] in H. apply subsize_sound in E2 as (_ & -> & B2); [|apply Z.mul_pos_pos; lia].
  destruct (_ <? _)%nat; [discriminate|].
  assert (volume inn = volume shape) as Vi by apply inner_volume.
  assert (volume shape < 2 ^ 31) as Vb by (rewrite Vi in B2; assert (1 <= volume e * w) by (apply (Z.mul_le_mono_nonneg 1 _ 1); lia); nia). rewrite prod_volume in H by lia. replace (volume shape =? 0) with false in H by lia.
  assert (Z.of_nat (length data) / volume shape = q) as Eq by (rewrite Q; apply Z.div_mul; lia). rewrite Eq in H.
  assert (0 < q) as Pq. { assert (0 < Z.of_nat (length data)) by (rewrite Ed; cbn; lia). nia. }
  assert (Forall (Z.le 0) (inn ++ e)) as F0.
  { apply Forall_app. split; [|eapply Forall_impl; [|exact Fe1]; cbn beta; intros; lia]. pose proof (inner_pos shape F) as Fi. fold inn in Fi. eapply Forall_impl; [|exact Fi]. cbn beta; intros; lia. }
  destruct (array_ok items (map Z.to_nat (inn ++ e)) (Z.to_nat q)) as [S1 S2].
  { apply Nat2Z.inj. rewrite Nat2Z.inj_mul, product_volume by exact F0. rewrite volume_app, Li, Vi. rewrite Q. lia. }
  rewrite of_to in S1 by exact F0.
  eexists. split; [|split; [|exact H]].
  - split; [exists v, e; split; [exact Hd | split; [exact I | exact S1]]|]. rewrite map_length, seq_length. split; [rewrite Q; lia|].
    exists ps, items. split; [exact P | split; [exact Kp | exact S2]].
  - destruct (Z.to_nat q) eqn:Z; [lia | discriminate].
Qed.
Lemma sampling_exists data shape : one_kind data -> data <> [] -> shape <> [] -> Forall (Z.le 1) shape -> (volume shape | Z.of_nat (length data)) ->
  (2 + length (if list_eq_dec Z.eq_dec shape [1%Z] then [] else shape) <= maxdims)%nat ->
  (exists w, Forall (fun v => memory v <= w) data /\ volume shape * w < 2 ^ 31) -> forall single, exists r, sampling maxdims (Some data) shape single = Some r.
Proof.
  intros K N Ns F [q Q] L (wm & Fm & Bm) single. pose proof (volume_pos shape F) as V.
  destruct (array_kind data K N) as (items & w & ps & v & e & A & Hd & I & Es & Le & P & Kp & Li & Fe & W & v' & I' & Mw).
  pose proof (proj1 (Forall_forall _ _) Fm v' I') as Mv. cbn beta in Mv. rewrite <- Mw in Mv.
  assert (Forall (Z.le 1) e) as Fe1 by (eapply Forall_impl; [|exact Fe]; intros x X; cbn beta in *; lia). pose proof (volume_pos e Fe1) as Ve.
  unfold sampling. destruct data as [|d0 data0]; [contradiction|]. remember (d0 :: data0) as data eqn:Ed.
  destruct shape as [|n0 shape0]; [contradiction|]. remember (n0 :: shape0) as shape eqn:Esh.
  rewrite A, inner_of. cbn [obind]. rewrite Es.
  assert (volume shape * (w * volume e) < 2 ^ 31) as B by nia.
  rewrite subsize_complete; [|exact W | lia | exact Fe1 | nia]. cbn [obind].
  set (inn := if list_eq_dec Z.eq_dec shape [1] then [] else shape).
  assert (volume inn = volume shape) as Vi by apply inner_volume. fold inn in L.
  rewrite subsize_complete; [|nia | lia | apply inner_pos, F | rewrite Vi; nia]. cbn [obind].
  replace (maxdims <? 1 + length inn + length e)%nat with false by lia.
  assert (volume shape < 2 ^ 31) as Vb by nia. rewrite prod_volume by lia. replace (volume shape =? 0) with false by lia.
  rewrite Q, Z.div_mul by lia. assert (0 < q) as Pq. { assert (0 < Z.of_nat (length data)) by (rewrite Ed; cbn; lia). nia. }
  destruct single; [|eexists; reflexivity]. destruct (Z.to_nat q) eqn:Z; [lia|]. cbn [seq map hd_error obind]. eexists; reflexivity.
Qed.
End proofs.
