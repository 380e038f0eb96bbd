(** Proofs about metadata objects: reading an attribute. *)
From Verif Require Import Bytes BytesProofs Stream PyBase DlisTypes DlisCore DlisRecords CoreProofs2 RecordsProofs3 CommonPy DlisStore SpecDlisStore DlisStoreProofs DlisStoreProofs2 DlisStoreProofs3 DlisStoreProofs4 DlisStoreProofs5 DlisSchema DlisObject SpecDlisObject DlisObjectProofs.
Local Open Scope Z_scope.

(** ** White space *)
Lemma is_space_white c : is_space c = true <-> In c white.
Proof.
  unfold is_space. split.
  - intros H. assert (R : 9 <= c <= 13 \/ 28 <= c <= 32 \/ c = 133 \/ c = 160 \/ c = 5760 \/ 8192 <= c <= 8202 \/ c = 8232 \/ c = 8233 \/ c = 8239 \/ c = 8287 \/ c = 12288).
    { rewrite !orb_true_iff, !andb_true_iff, !Z.leb_le, !Z.eqb_eq in H. tauto. }
    clear H. unfold white. cbn [In]. lia.
  - unfold white. cbn [In]. intros H. repeat (destruct H as [<-|H]; [reflexivity|]). destruct H.
Qed.
Lemma lstrip_spec u : exists a, u = a ++ lstrip u /\ Forall (fun c => In c white) a /\ (forall c t, lstrip u = c :: t -> ~ In c white).
Proof.
  induction u as [|x u (a & E & A & N)]; cbn [lstrip].
  - exists []. split; [reflexivity|split; [constructor|discriminate]].
  - destruct (is_space x) eqn:S.
    + exists (x :: a). split; [cbn [app]; congruence|]. split; [constructor; [apply is_space_white; exact S|exact A]|exact N].
    + exists []. split; [reflexivity|split; [constructor|]]. intros c t [= -> ->] W. apply is_space_white in W. congruence.
Qed.
Lemma strip_trimmed u : trimmed u (strip u).
Proof.
  unfold strip. destruct (lstrip_spec u) as (a & E & A & N). destruct (lstrip_spec (rev (lstrip u))) as (b & E' & B & N').
  set (w := lstrip (rev (lstrip u))) in *. exists a, (rev b).
  assert (EW : lstrip u = rev w ++ rev b) by (rewrite <- rev_app_distr, <- E', rev_involutive; reflexivity).
  split; [rewrite <- EW; exact E|]. split; [exact A|]. split; [apply Forall_rev; exact B|]. split.
  - intros c t EQ. apply (N c (t ++ rev b)). rewrite EW, EQ. reflexivity.
  - intros t c EQ. apply (N' c (rev t)). rewrite <- (rev_involutive w), EQ, rev_app_distr. reflexivity.
Qed.

(** ** Truth *)
Lemma land_zero_nan m e x : 0 <= m -> 0 <= e -> Z.land x (2 ^ (m + e) - 1) = 0 -> Z.land x (2 ^ m - 1) = 0.
Proof.
  intros Hm He H. rewrite Z.sub_1_r, <- Z.ones_equiv in *. rewrite Z.land_ones in * by lia.
  apply Z.div_exact in H; [|apply Z.pow_nonzero; lia]. rewrite H, Z.pow_add_r by lia.
  rewrite <- Z.mul_assoc, Z.mul_comm. apply Z.mod_mul. apply Z.pow_nonzero; lia.
Qed.
Lemma float_zero_eqb m e x : 0 <= m -> 0 <= e -> float_eqb m e x 0 = (Z.land x (2 ^ (m + e) - 1) =? 0).
Proof.
  intros Hm He. unfold float_eqb. rewrite Z.shiftr_0_l, !Z.land_0_l. cbn [Z.eqb negb andb]. rewrite !andb_false_r. cbn [negb andb].
  destruct (Z.land x (2 ^ (m + e) - 1) =? 0) eqn:E.
  - apply Z.eqb_eq in E. rewrite (land_zero_nan m e x Hm He E). cbn [Z.eqb negb]. rewrite andb_false_r. cbn [negb andb]. apply orb_true_r.
  - cbn [andb]. rewrite orb_false_r. destruct (x =? 0) eqn:X; [|rewrite andb_false_r; reflexivity]. apply Z.eqb_eq in X. subst x. discriminate E.
Qed.
Lemma zero_bits_eqb c z : zero_bits c z = number_eqb c z 0.
Proof.
  unfold zero_bits, number_eqb. pose proof (float_zero_eqb 23 8 z ltac:(lia) ltac:(lia)) as H1.
  pose proof (float_zero_eqb 52 11 z ltac:(lia) ltac:(lia)) as H2. change (23 + 8) with 31 in H1. change (52 + 11) with 63 in H2.
  repeat match goal with |- context [match ?x with _ => _ end] => destruct x end; auto.
Qed.
Lemma zero_bits_spec c z : number_ok c z -> zero_bits c z = true <-> same_number c z 0.
Proof. intros H. rewrite zero_bits_eqb. apply number_eqb_spec; [exact H|apply default_number]. Qed.
Definition pyval_ok (v : pyval) : Prop :=
  match v with PNumber c z => number_ok c z | PNumbers c zs => Forall (number_ok c) zs | _ => True end.
Lemma truth_spec v : pyval_ok v -> truth v = false <-> is_false v.
Proof.
  destruct v as [c z|c zs|s|t|n|r|a|o|]; cbn [pyval_ok truth]; intros H; try (split; [discriminate|intros X; inversion X]).
  - rewrite negb_false_iff, (zero_bits_spec c z H). split; [constructor; assumption|intros X; inversion X; assumption].
  - destruct ((c =? 10) || (c =? 11)) eqn:C.
    + rewrite orb_true_iff, !Z.eqb_eq in C. rewrite negb_false_iff, forallb_forall. split.
      * intros F. constructor; [exact C|]. apply Forall_forall. intros z I. apply zero_bits_spec; [exact (proj1 (Forall_forall _ _) H z I)|exact (F z I)].
      * intros X. inversion X as [|c' zs' C' F Ec| | |]. subst c' zs'. intros z I. apply zero_bits_spec; [exact (proj1 (Forall_forall _ _) H z I)|exact (proj1 (Forall_forall _ _) F z I)].
    + split; [discriminate|]. intros X. inversion X as [|c' zs' C' F Ec| | |]. subst c' zs'. rewrite orb_false_iff, !Z.eqb_neq in C. lia.
  - destruct s as [[|u]|[|b]]; cbn [truthy]; (split; [intros E; try discriminate E; constructor|intros X; inversion X; reflexivity]).
  - split; [constructor|reflexivity].
Qed.

(** ** Shapes *)
Lemma parsevalue_shaped r v vs : pyval_ok v -> shaped r (v :: vs) (parsevalue (v :: vs) r).
Proof.
  intros H. destruct r; cbn [parsevalue hd].
  - constructor. apply truth_spec. exact H.
  - constructor.
  - constructor.
  - constructor; [apply rev_length|]. intros i L.
    assert (E : forall (l : list pyval) i, (i < length l)%nat -> nth_error (rev l) i = nth_error l (length l - 1 - i)).
    { clear. induction l as [|x l IH]; intros i; cbn [length]; [lia|]. intros L. cbn [rev]. destruct (Nat.eq_dec i (length l)) as [->|N].
      - rewrite nth_error_app2 by (rewrite rev_length; lia). rewrite rev_length, Nat.sub_diag. replace (S (length l) - 1 - length l)%nat with 0%nat by lia. reflexivity.
      - rewrite nth_error_app1 by (rewrite rev_length; lia). rewrite IH by lia. replace (S (length l) - 1 - i)%nat with (S (length l - 1 - i)) by lia. reflexivity. }
    apply E. exact L.
Qed.
Lemma default_shaped r : shaped r [] (defaultvalue r).
Proof. destruct r; constructor; try reflexivity. intros i L. cbn [length] in L. lia. Qed.

(** ** Tables *)
Lemma dict_get_in {A} k (d : list (pystr * A)) v : NoDup (map fst d) -> In (k, v) d -> dict_get k d = Some v.
Proof.
  induction d as [|[k' v'] d IH]; cbn [map fst]; intros N I; [destruct I|]. apply NoDup_cons_iff in N as [N ND]. cbn [dict_get].
  destruct I as [[= -> ->]|I]; [rewrite pystr_eqb_refl; reflexivity|]. destruct (pystr_eqb k k') eqn:E; [|exact (IH ND I)].
  apply pystr_eqb_spec in E. subst k'. exfalso. apply N. apply in_map_iff. exists (k, v). auto.
Qed.
Lemma dict_get_out {A} k (d : list (pystr * A)) : ~ In k (map fst d) -> dict_get k d = None.
Proof.
  induction d as [|[k' v'] d IH]; cbn [map fst dict_get]; intros N; [reflexivity|]. destruct (pystr_eqb k k') eqn:E.
  - apply pystr_eqb_spec in E. subst k'. exfalso. apply N. left. reflexivity.
  - apply IH. intros H. apply N. right. exact H.
Qed.
Lemma rule_for_get sc key r : a_schema sc -> rule_for sc key r ->
  match dict_get key (sc_attributes sc) with Some r => r | None => Vector end = r.
Proof.
  intros [N _] [I|[I ->]]; [rewrite (dict_get_in _ _ _ N I); reflexivity|rewrite (dict_get_out _ _ I); reflexivity].
Qed.
Lemma link_for_get sc key l : a_schema sc -> link_for sc key l -> dict_get key (sc_linkage sc) = l.
Proof. intros [_ N]. destruct l as [x|]; cbn [link_for]; intros H; [exact (dict_get_in _ _ _ N H)|exact (dict_get_out _ _ H)]. Qed.
Lemma known_key {A} key (d : list (pystr * A)) : existsb (fun e => pystr_eqb key (fst e)) d = true <-> In key (map fst d).
Proof.
  rewrite existsb_exists. split.
  - intros ([k v] & I & E). apply pystr_eqb_spec in E. cbn [fst] in E. subst k. apply in_map_iff. exists (key, v). auto.
  - intros I. apply in_map_iff in I as (e & <- & I). exists e. split; [exact I|apply pystr_eqb_refl].
Qed.
Lemma in_keys key l : existsb (pystr_eqb key) l = true <-> In key l.
Proof.
  rewrite existsb_exists. split; [intros (k & I & E); apply pystr_eqb_spec in E; subst k; exact I|intros I; exists key; split; [exact I|apply pystr_eqb_refl]].
Qed.
