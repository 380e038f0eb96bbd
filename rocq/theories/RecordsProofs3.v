(** Lemmas about records.cpp: termination, attribute maps, the pool. *)
From Verif Require Import Bytes BytesProofs DlisTypes SpecTypes TypesProofs TypesProofs2
  DlisCore CoreProofs CoreProofs2 Stream DlisRecords SpecRecords RecordsProofs RecordsProofs2.
Local Open Scope Z_scope.
Ltac Zify.zify_post_hook ::= Z.div_mod_to_equations.

(** ** Readers never give back more than they got *)

Definition shrinks {A} (f : bytes -> option (A * bytes)) : Prop :=
  forall xs v r, f xs = Some (v, r) -> (length r <= length xs)%nat.

Lemma read_be_shrinks n : shrinks (read_be n).
Proof. intros xs v r H. apply read_be_Some in H as (a & -> & _). rewrite app_length. lia. Qed.
Lemma take_shrinks n : shrinks (take n).
Proof. intros xs v r H. apply take_Some in H as (-> & _). rewrite app_length. lia. Qed.
Lemma bind_shrinks {A B} f (k : A -> bytes -> option (B * bytes)) :
  shrinks f -> (forall a, shrinks (k a)) -> shrinks (fun xs => do (a, r) <- f xs; k a r).
Proof.
  intros Hf Hk xs v r H. destruct (f xs) as [[a r1]|] eqn:E; cbn [obind] in H; [|discriminate].
  apply Hf in E. apply Hk in H. lia.
Qed.
Lemma ret_shrinks {A} (a : A) : shrinks (fun r => Some (a, r)).
Proof. intros xs v r H. injection H as _ ->. lia. Qed.
Lemma uvari_shrinks : shrinks dlis_uvari.
Proof. intros xs v r H. apply uvari_read_spec in H as (e & -> & _). rewrite app_length. lia. Qed.
Lemma ident_shrinks : shrinks dlis_ident.
Proof. intros xs v r H. apply ident_read_spec in H as (e & -> & _). rewrite app_length. lia. Qed.
Lemma ascii_shrinks : shrinks dlis_ascii.
Proof. intros xs v r H. apply ascii_read_spec in H as (e & -> & _). rewrite app_length. lia. Qed.
Lemma obname_shrinks : shrinks dlis_obname.
Proof. intros xs v r H. apply obname_read_spec in H as (e & -> & _). rewrite app_length. lia. Qed.
Lemma objref_shrinks : shrinks dlis_objref.
Proof. intros xs v r H. apply objref_read_spec in H as (e & -> & _). rewrite app_length. lia. Qed.
Lemma attref_shrinks : shrinks dlis_attref.
Proof. intros xs v r H. apply attref_read_spec in H as (e & -> & _). rewrite app_length. lia. Qed.
Lemma dtime_shrinks : shrinks dlis_dtime.
Proof.
  intros xs v r H. unfold dlis_dtime in H.
  destruct (take 6 xs) as [[a s]|] eqn:E; cbn [obind] in H; [|discriminate].
  apply take_shrinks in E.
  destruct a as [|? [|? [|? [|? [|? [|? [|]]]]]]]; try discriminate.
  destruct (read_be 2 s) as [[m t]|] eqn:E2; cbn [obind] in H; [|discriminate].
  apply read_be_shrinks in E2. injection H as _ ->. lia.
Qed.
Lemma vsingl_shrinks : shrinks dlis_vsingl.
Proof.
  intros xs v r H. unfold dlis_vsingl in H.
  destruct (take 4 xs) as [[a s]|] eqn:E; cbn [obind] in H; [|discriminate].
  apply take_shrinks in E.
  destruct a as [|? [|? [|? [|? [|]]]]]; try discriminate.
  apply Some_eq in H. apply (f_equal snd) in H. cbn [snd] in H. subst. exact E.
Qed.

Lemma cast_value_shrinks rc : shrinks (cast_value rc).
Proof.
  assert (N : forall f, shrinks f -> shrinks (fun xs => num (f xs))).
  { intros f Hf. apply (bind_shrinks f (fun z xs => Some (VNum z, xs)) Hf). intros; apply ret_shrinks. }
  assert (T : forall f, shrinks f -> shrinks (fun xs => str (f xs))).
  { intros f Hf. apply (bind_shrinks f (fun z xs => Some (VText z, xs)) Hf). intros; apply ret_shrinks. }
  assert (N2 : forall f, shrinks f -> shrinks (fun xs => num2 (f xs))).
  { intros f Hf. apply (bind_shrinks f (fun ab xs => let '(a, b) := ab in Some (VNums [a; b], xs)) Hf).
    intros [a b]; apply ret_shrinks. }
  assert (N3 : forall f, shrinks f -> shrinks (fun xs => num3 (f xs))).
  { intros f Hf. apply (bind_shrinks f (fun ab xs => let '(a, b, c) := ab in Some (VNums [a; b; c], xs)) Hf).
    intros [[a b] c]; apply ret_shrinks. }
  assert (P2 : forall f : bytes -> option (Z * bytes), shrinks f ->
     shrinks (fun xs => do (v, ys) <- f xs; do (a, zs) <- f ys; Some ((v, a), zs))).
  { intros f Hf. apply (bind_shrinks f _ Hf). intros v.
    apply (bind_shrinks f (fun a zs => Some ((v, a), zs)) Hf). intros; apply ret_shrinks. }
  assert (P3 : forall f : bytes -> option (Z * bytes), shrinks f ->
     shrinks (fun xs => do (v, ys) <- f xs; do (a, zs) <- f ys; do (b, ws) <- f zs; Some ((v, a, b), ws))).
  { intros f Hf. apply (bind_shrinks f _ Hf). intros v. apply (bind_shrinks f _ Hf). intros a.
    apply (bind_shrinks f (fun b zs => Some ((v, a, b), zs)) Hf). intros; apply ret_shrinks. }
  assert (B : forall n (g : Z -> Z), shrinks (fun xs => do (u, r) <- read_be n xs; Some (g u, r)) ).
  { intros n g. apply (bind_shrinks (read_be n) (fun u r => Some (g u, r)) (read_be_shrinks n)).
    intros; apply ret_shrinks. }
  intros xs v r H.
  destruct (known_reprc rc) eqn:K.
  2: { unfold known_reprc in K. exfalso.
       destruct rc as [|p|p]; try discriminate H.
       do 5 (destruct p as [p|p|]; try discriminate H; try (cbn in K; discriminate K)). }
  unfold known_reprc in K.
  assert (C : rc = 1 \/ rc = 2 \/ rc = 3 \/ rc = 4 \/ rc = 5 \/ rc = 6 \/ rc = 7 \/ rc = 8 \/ rc = 9 \/
              rc = 10 \/ rc = 11 \/ rc = 12 \/ rc = 13 \/ rc = 14 \/ rc = 15 \/ rc = 16 \/ rc = 17 \/
              rc = 18 \/ rc = 19 \/ rc = 20 \/ rc = 21 \/ rc = 22 \/ rc = 23 \/ rc = 24 \/ rc = 25 \/
              rc = 26 \/ rc = 27) by lia.
  clear K.
  repeat (destruct C as [-> | C]); [..|subst rc]; cbn [cast_value] in H;
    revert xs v r H.
  - apply (N dlis_fshort). exact (B 2%nat _).
  - apply (N dlis_fsingl (read_be_shrinks 4)).
  - apply (N2 dlis_fsing1). apply (P2 dlis_fsingl (read_be_shrinks 4)).
  - apply (N3 dlis_fsing2). apply (P3 dlis_fsingl (read_be_shrinks 4)).
  - apply (N dlis_isingl). exact (B 4%nat _).
  - apply (N dlis_vsingl vsingl_shrinks).
  - apply (N dlis_fdoubl (read_be_shrinks 8)).
  - apply (N2 dlis_fdoub1). apply (P2 dlis_fdoubl (read_be_shrinks 8)).
  - apply (N3 dlis_fdoub2). apply (P3 dlis_fdoubl (read_be_shrinks 8)).
  - apply (N2 dlis_csingl). apply (P2 dlis_fsingl (read_be_shrinks 4)).
  - apply (N2 dlis_cdoubl). apply (P2 dlis_fdoubl (read_be_shrinks 8)).
  - apply (N dlis_sshort). exact (B 1%nat _).
  - apply (N dlis_snorm). exact (B 2%nat _).
  - apply (N dlis_slong). exact (B 4%nat _).
  - apply (N dlis_ushort (read_be_shrinks 1)).
  - apply (N dlis_unorm (read_be_shrinks 2)).
  - apply (N dlis_ulong (read_be_shrinks 4)).
  - apply (N dlis_uvari uvari_shrinks).
  - apply (T dlis_ident ident_shrinks).
  - apply (T dlis_ascii ascii_shrinks).
  - apply (bind_shrinks dlis_dtime (fun t r => Some (VTime t, r)) dtime_shrinks). intros; apply ret_shrinks.
  - apply (N dlis_origin uvari_shrinks).
  - apply (bind_shrinks dlis_obname (fun t r => Some (VName t, r)) obname_shrinks). intros; apply ret_shrinks.
  - apply (bind_shrinks dlis_objref (fun t r => Some (VRef t, r)) objref_shrinks). intros; apply ret_shrinks.
  - apply (bind_shrinks dlis_attref (fun t r => Some (VAttr t, r)) attref_shrinks). intros; apply ret_shrinks.
  - apply (N dlis_status (read_be_shrinks 1)).
  - apply (T dlis_units ident_shrinks).
Qed.

Lemma cast_values_shrinks rc n : shrinks (cast_values rc n).
Proof.
  induction n as [|n IH]; intros xs v r H; cbn [cast_values] in H.
  - injection H as _ ->. lia.
  - destruct (cast_value rc xs) as [[x r1]|] eqn:E; cbn [obind] in H; [|discriminate].
    destruct (cast_values rc n r1) as [[vs r2]|] eqn:E2; cbn [obind] in H; [|discriminate].
    apply cast_value_shrinks in E. apply IH in E2. injection H as _ ->. lia.
Qed.

(** results that are not [Fuel], with the remaining bytes bounded *)
Definition fine {A} (m : res (A * bytes)) (n : nat) : Prop :=
  match m with Ok (_, r) => (length r <= n)%nat | Exn => True | UB => True | Fuel => False end.

Lemma fine_bind {A B} (m : res (A * bytes)) (k : A * bytes -> res (B * bytes)) n p :
  fine m n -> (forall a r, (length r <= n)%nat -> fine (k (a, r)) p) -> fine (rbind m k) p.
Proof. destruct m as [[a r]| | |]; cbn [fine rbind]; auto. Qed.

Lemma fine_unchecked {A} (f : bytes -> option (A * bytes)) xs : shrinks f -> fine (unchecked (f xs)) (length xs).
Proof. intros Hf. destruct (f xs) as [[v r]|] eqn:E; cbn [unchecked fine]; [apply Hf in E; exact E | exact I]. Qed.

Lemma fine_ok {A} (a : A) xs n : (length xs <= n)%nat -> fine (Ok (a, xs)) n.
Proof. intros H; exact H. Qed.

Lemma repcode_fine a xs : fine (repcode a xs) (length xs).
Proof.
  unfold repcode.
  apply (fine_bind (unchecked (dlis_ushort xs)) _ (length xs)); [apply fine_unchecked, read_be_shrinks|].
  intros z r Hr. cbn [fst snd]. destruct ((z <? 1) || (z >? 27)); exact Hr.
Qed.

Lemma elements_fine a xs : fine (elements a xs) (length xs).
Proof.
  unfold elements. destruct (at_count a =? 0); [apply le_n|]. destruct (known_reprc (at_reprc a)); [|exact I].
  apply (fine_bind (unchecked (cast_values _ _ xs)) _ (length xs)); [apply fine_unchecked, cast_values_shrinks|].
  intros vs r Hr. exact Hr.
Qed.

Lemma fine_le {A} (m : res (A * bytes)) n p : fine m n -> (n <= p)%nat -> fine m p.
Proof. destruct m as [[a r]| | |]; cbn [fine]; intros; auto; lia. Qed.

Lemma read_fields_fine f a xs : fine (read_fields f a xs) (length xs).
Proof.
  unfold read_fields.
  apply (fine_bind _ _ (length xs)).
  { destruct (f_count f); [|apply le_n].
    apply (fine_bind (unchecked (dlis_uvari xs)) _ (length xs)); [apply fine_unchecked, uvari_shrinks|].
    intros z r Hr. exact Hr. }
  intros a1 r1 H1. apply (fine_bind _ _ (length xs)).
  { destruct (f_reprc f); [|exact H1]. apply (fine_le _ (length r1)); [apply repcode_fine|exact H1]. }
  intros a2 r2 H2. apply (fine_bind _ _ (length xs)).
  { destruct (f_units f); [|exact H2].
    apply (fine_bind (unchecked (dlis_units r2)) _ (length r2)); [apply fine_unchecked, ident_shrinks|].
    intros z r Hr. cbn [fine]. lia. }
  intros a3 r3 H3. destruct (f_value f); [|exact H3].
  apply (fine_le _ (length r3)); [apply elements_fine|exact H3].
Qed.

Lemma parse_template_fuel fuel acc lg xs : (length xs < fuel)%nat ->
  match parse_template fuel acc lg xs with
  | (_, _, Ok ys) => (length ys <= length xs)%nat | (_, _, Fuel) => False | _ => True
  end.
Proof.
  revert acc lg xs; induction fuel as [|fuel IH]; intros acc lg xs H; [lia|].
  cbn [parse_template]. destruct xs as [|d xs]; [exact I|]. cbn [length] in *.
  destruct (parse_attribute_descriptor d) as [| |f|]; [cbn [length]; lia| |  |exact I].
  - specialize (IH acc (lg ++ [P_absent_in_template]) xs ltac:(lia)).
    destruct (parse_template fuel acc _ xs) as [[? ?] [?| | |]]; auto.
  - set (m := rbind _ _).
    assert (F : fine m (length xs)).
    { unfold m. apply (fine_bind _ _ (length xs)); [apply fine_unchecked, ident_shrinks|].
      intros l r Hr. apply (fine_bind _ _ (length r)); [apply read_fields_fine|].
      intros a r' Hr'. cbn [fine]. lia. }
    destruct m as [[a ys]| | |]; cbn [fine] in F; auto.
    destruct ys as [|y ys]; [cbn [length]; lia|].
    specialize (IH (acc ++ [a]) (if f_label f then lg else lg ++ [P_label_not_set]) (y :: ys) ltac:(lia)).
    destruct (parse_template fuel _ _ _) as [[? ?] [?| | |]]; auto. lia.
Qed.

Lemma object_attrs_fine tmpl cur clear xs : fine (object_attrs tmpl cur clear xs) (length xs).
Proof.
  revert cur clear xs; induction tmpl as [|t tmpl IH]; intros cur clear xs; cbn [object_attrs]; [apply le_n|].
  destruct (at_invariant t); [apply IH|].
  destruct xs as [|d xs]; [apply le_n|].
  destruct (parse_attribute_descriptor d) as [| |f|]; [apply le_n| |  |exact I].
  - apply (fine_le _ (length xs)); [apply IH|cbn [length]; lia].
  - apply (fine_bind _ _ (length xs)).
    + unfold object_attr. apply (fine_bind _ _ (length xs)); [apply read_fields_fine|].
      intros a r Hr. exact Hr.
    + intros a r Hr. apply (fine_le _ (length r)); [apply IH|cbn [length]; lia].
Qed.

Lemma parse_object_fine type tmpl d xs : fine (parse_object type tmpl d xs) (length xs).
Proof.
  unfold parse_object. destruct (parse_object_descriptor d) as [named|]; [|exact I].
  apply (fine_bind _ _ (length xs)); [apply fine_unchecked, obname_shrinks|].
  intros n r Hr. apply (fine_bind _ _ (length xs)).
  - apply (fine_le _ (length r)); [apply object_attrs_fine|exact Hr].
  - intros [a c] r' Hr'. exact Hr'.
Qed.

Lemma parse_objects_fuel fuel type tmpl objs xs : (length xs <= fuel)%nat ->
  snd (parse_objects fuel type tmpl objs xs) <> Fuel.
Proof.
  revert objs xs; induction fuel as [|fuel IH]; intros objs xs H.
  - destruct xs; [discriminate|cbn [length] in H; lia].
  - destruct xs as [|d xs]; [discriminate|]. cbn [length] in H. cbn [parse_objects].
    pose proof (parse_object_fine type tmpl d xs) as F.
    destruct (parse_object type tmpl d xs) as [[o r]| | |]; cbn [fine] in F; try discriminate; [|contradiction].
    apply IH. lia.
Qed.

Lemma set_component_fuel xs : snd (parse_set_component xs) <> Fuel.
Proof.
  unfold parse_set_component. destruct xs as [|d xs]; [discriminate|].
  destruct (parse_set_descriptor d) as [[[role t] n]|]; [|discriminate].
  destruct xs as [|x xs]; [discriminate|]. cbn [snd].
  destruct (dlis_ident (x :: xs)) as [[ty r]|]; cbn [unchecked rbind]; [|discriminate].
  destruct n; [|discriminate].
  destruct (dlis_ident r) as [[nm r']|]; cbn [unchecked rbind]; discriminate.
Qed.

Lemma parse_set_never s : parse_set s <> Fuel /\ parse_set s <> Exn.
Proof.
  unfold parse_set. destruct (os_parsed s); [split; discriminate|].
  pose proof (set_component_fuel (os_data s)) as F.
  destruct (parse_set_component (os_data s)) as [lg [[[[role type] name] xs]| | |]]; cbn [snd] in F;
    try (split; discriminate); [|congruence].
  pose proof (parse_template_fuel (S (length xs)) [] lg xs ltac:(lia)) as Ft.
  destruct (parse_template _ _ _ xs) as [[tmpl lg'] [ys| | |]]; try (split; discriminate); [|contradiction].
  pose proof (parse_objects_fuel (length ys) type tmpl (os_objs s) ys ltac:(lia)) as Fo.
  destruct (parse_objects _ _ _ _ ys) as [objs [u| | |]]; cbn [snd] in Fo; try (split; discriminate). congruence.
Qed.

Lemma new_set_never data : new_set data <> Fuel.
Proof.
  unfold new_set. pose proof (set_component_fuel data) as F.
  destruct (parse_set_component data) as [lg [[[[role type] name] xs]| | |]]; cbn [snd] in F; congruence.
Qed.

(** ** Attribute map *)

Lemma attr_at_set_same a attrs : attr_at (at_label a) (set_attr a attrs) = Some a.
Proof.
  unfold attr_at. induction attrs as [|x t IH]; cbn [set_attr find].
  - rewrite bytes_eqb_refl. reflexivity.
  - destruct (bytes_eqb (at_label a) (at_label x)) eqn:E; cbn [find].
    + rewrite bytes_eqb_refl. reflexivity.
    + assert (bytes_eqb (at_label x) (at_label a) = false) as ->.
      { apply bytes_eqb_neq. apply bytes_eqb_neq in E. congruence. }
      exact IH.
Qed.
Lemma attr_at_set_other k a attrs : k <> at_label a -> attr_at k (set_attr a attrs) = attr_at k attrs.
Proof.
  intros Hk. unfold attr_at. induction attrs as [|x t IH]; cbn [set_attr find].
  - rewrite (proj2 (bytes_eqb_neq (at_label a) k)) by congruence. reflexivity.
  - destruct (bytes_eqb (at_label a) (at_label x)) eqn:E; cbn [find].
    + apply bytes_eqb_eq in E. rewrite <- E.
      rewrite (proj2 (bytes_eqb_neq (at_label a) k)) by congruence. reflexivity.
    + rewrite IH. reflexivity.
Qed.
Lemma attr_at_remove k a attrs :
  attr_at k (remove_attr a attrs) = if bytes_eqb (at_label a) k then None else attr_at k attrs.
Proof.
  unfold attr_at, remove_attr. induction attrs as [|x t IH]; cbn [filter find].
  - destruct (bytes_eqb (at_label a) k); reflexivity.
  - destruct (bytes_eqb (at_label a) (at_label x)) eqn:E; cbn [negb find]; rewrite ?IH.
    + apply bytes_eqb_eq in E. rewrite <- E. destruct (bytes_eqb (at_label a) k); reflexivity.
    + destruct (bytes_eqb (at_label x) k) eqn:E2; [|reflexivity].
      apply bytes_eqb_eq in E2. rewrite <- E2, E. reflexivity.
Qed.

Definition apply_op (attrs : list attribute) (o : map_op) : list attribute :=
  match o with OpSet a => set_attr a attrs | OpRemove a => remove_attr a attrs end.
Definition run_ops (ops : list map_op) : list attribute := fold_left apply_op ops [].

Lemma run_ops_snoc ops o : run_ops (ops ++ [o]) = apply_op (run_ops ops) o.
Proof. unfold run_ops. rewrite fold_left_app. reflexivity. Qed.

Lemma attr_at_op k attrs o :
  attr_at k (apply_op attrs o) =
  if bytes_eqb (op_label o) k then match o with OpSet a => Some a | OpRemove _ => None end
  else attr_at k attrs.
Proof.
  destruct o as [a|a]; cbn [apply_op op_label].
  - destruct (bytes_eqb (at_label a) k) eqn:E.
    + apply bytes_eqb_eq in E. subst k. apply attr_at_set_same.
    + apply bytes_eqb_neq in E. apply attr_at_set_other. congruence.
  - apply attr_at_remove.
Qed.

Lemma attr_at_untouched k after attrs : (forall o, In o after -> op_label o <> k) ->
  attr_at k (fold_left apply_op after attrs) = attr_at k attrs.
Proof.
  revert attrs; induction after as [|o after IH]; intros attrs H; cbn [fold_left]; [reflexivity|].
  rewrite IH by (intros; apply H; right; assumption).
  rewrite attr_at_op. rewrite (proj2 (bytes_eqb_neq (op_label o) k)); [reflexivity|].
  apply H. left. reflexivity.
Qed.

Lemma looks_up_run k ops r : looks_up k ops r <-> attr_at k (run_ops ops) = r.
Proof.
  split.
  - intros [before a after -> Hk Ha | before a after -> Hk Ha | H]; unfold run_ops.
    + rewrite fold_left_app. cbn [fold_left]. rewrite attr_at_untouched by exact Ha.
      rewrite attr_at_op. cbn [op_label]. rewrite Hk, bytes_eqb_refl. reflexivity.
    + rewrite fold_left_app. cbn [fold_left]. rewrite attr_at_untouched by exact Ha.
      rewrite attr_at_op. cbn [op_label]. rewrite Hk, bytes_eqb_refl. reflexivity.
    + rewrite attr_at_untouched by exact H. reflexivity.
  - intros <-. induction ops as [|o ops IH] using rev_ind.
    + apply lk_never. intros o [].
    + rewrite run_ops_snoc, attr_at_op.
      destruct (bytes_eqb (op_label o) k) eqn:E.
      * apply bytes_eqb_eq in E. destruct o as [a|a]; cbn [op_label] in E.
        -- apply (lk_set _ _ ops a []); [reflexivity|exact E|]. intros o [].
        -- apply (lk_removed _ _ ops a []); [reflexivity|exact E|]. intros o [].
      * apply bytes_eqb_neq in E.
        destruct IH as [before a after E1 Hk Ha | before a after E1 Hk Ha | H].
        -- apply (lk_set _ _ before a (after ++ [o])); [rewrite E1, <- app_assoc; reflexivity|exact Hk|].
           intros o' Ho. apply in_app_or in Ho as [Ho | [<- | []]]; [apply Ha; exact Ho|exact E].
        -- apply (lk_removed _ _ before a (after ++ [o])); [rewrite E1, <- app_assoc; reflexivity|exact Hk|].
           intros o' Ho. apply in_app_or in Ho as [Ho | [<- | []]]; [apply Ha; exact Ho|exact E].
        -- apply lk_never. intros o' Ho. apply in_app_or in Ho as [Ho | [<- | []]]; [apply H; exact Ho|exact E].
Qed.

Lemma set_attr_labels a attrs x : In x (map at_label (set_attr a attrs)) ->
  x = at_label a \/ In x (map at_label attrs).
Proof.
  induction attrs as [|y t IH]; cbn [set_attr map In]; [intuition|].
  destruct (bytes_eqb (at_label a) (at_label y)); cbn [map In]; intuition.
Qed.

Lemma run_ops_nodup ops : NoDup (map at_label (run_ops ops)).
Proof.
  induction ops as [|o ops IH] using rev_ind; [constructor|].
  rewrite run_ops_snoc. destruct o as [a|a]; cbn [apply_op].
  - revert IH. generalize (run_ops ops). intros attrs. induction attrs as [|x t IHt]; intros H; cbn [set_attr map].
    + constructor; [intros []|constructor].
    + cbn [map] in H. inversion H as [|? ? H1 H2]; subst.
      destruct (bytes_eqb (at_label a) (at_label x)) eqn:E; cbn [map].
      * apply bytes_eqb_eq in E. rewrite E. constructor; assumption.
      * constructor; [|apply IHt; exact H2].
        intros Hin. apply set_attr_labels in Hin as [Hin | Hin]; [|contradiction].
        apply bytes_eqb_neq in E. congruence.
  - revert IH. generalize (run_ops ops). unfold remove_attr. intros attrs. induction attrs as [|x t IHt]; intros H; cbn [filter map]; [constructor|].
    cbn [map] in H. inversion H as [|? ? H1 H2]; subst.
    destruct (negb _); cbn [map]; [|apply IHt; exact H2]. constructor; [|apply IHt; exact H2].
    intros Hin. apply H1. apply in_map_iff in Hin as (y & <- & Hy). apply filter_In in Hy as [Hy _].
    apply in_map; exact Hy.
Qed.

(** ** Pool *)

Definition fresh (s : object_set) : Prop := new_set (os_data s) = Ok s.

Lemma new_set_fresh data s : new_set data = Ok s -> fresh s /\ os_data s = data.
Proof.
  intros H. assert (E : os_data s = data).
  { unfold new_set in H. destruct (parse_set_component data) as [lg [[[[? ?] ?] ?]| | |]]; try discriminate.
    injection H as <-. reflexivity. }
  split; [|exact E]. unfold fresh. rewrite E. exact H.
Qed.

Lemma parse_set_parsed s s' : parse_set s = Ok s' -> os_parsed s' = true.
Proof.
  unfold parse_set. destruct (os_parsed s) eqn:E; [intros [= <-]; exact E|].
  destruct (parse_set_component (os_data s)) as [lg [[[[role type] name] xs]| | |]]; try discriminate.
  2: { intros [= <-]. reflexivity. }
  destruct (parse_template _ _ _ _) as [[tmpl lg'] [ys| | |]]; try discriminate.
  2: { intros [= <-]. reflexivity. }
  destruct (parse_objects _ _ _ _ _) as [objs [u| | |]]; try discriminate; intros [= <-]; reflexivity.
Qed.

Lemma parse_set_again s s' : parse_set s = Ok s' -> parse_set s' = Ok s'.
Proof. intros H. apply parse_set_parsed in H. unfold parse_set. rewrite H. reflexivity. Qed.

Lemma parse_set_type s s' : fresh s -> parse_set s = Ok s' -> os_type s' = os_type s.
Proof.
  unfold fresh, new_set. intros F.
  destruct (parse_set_component (os_data s)) as [lg [[[[role type] name] xs]| | |]] eqn:E; try discriminate.
  assert (T : os_type s = type) by (injection F as <-; reflexivity).
  unfold parse_set. destruct (os_parsed s); [congruence|]. rewrite E.
  destruct (parse_template _ _ _ _) as [[tmpl lg'] [ys| | |]]; try discriminate.
  2: { intros [= <-]. symmetry. exact T. }
  destruct (parse_objects _ _ _ _ _) as [objs [u| | |]]; try discriminate; intros [= <-]; symmetry; exact T.
Qed.

(** [s'] is [s], possibly parsed already *)
Definition same_set (s s' : object_set) : Prop := fresh s /\ (s' = s \/ parse_set s = Ok s').

Lemma same_set_facts s s' : same_set s s' -> os_type s' = os_type s /\ parse_set s' = parse_set s.
Proof.
  intros [F [-> | H]]; [split; reflexivity|].
  split; [apply parse_set_type; assumption|]. rewrite H. apply (parse_set_again s); exact H.
Qed.

Lemma pool_get_same esc m type name p p' : Forall2 same_set p p' ->
  snd (pool_get esc m type name p') = snd (pool_get esc m type name p) /\
  Forall2 same_set p (fst (pool_get esc m type name p')).
Proof.
  induction 1 as [|s s' p p' Hs Hp [IHr IHp]]; [split; [reflexivity|constructor]|].
  destruct (same_set_facts s s' Hs) as [Et Ep].
  cbn [pool_get]. rewrite Et, Ep.
  destruct (m type (os_type s)) as [[|]|].
  - destruct (parse_set s) as [s2| | |] eqn:E; try (split; [reflexivity|constructor; assumption]).
    assert (Hs2 : same_set s s2) by (split; [apply Hs|right; exact E]).
    destruct (match name with None => _ | Some _ => _ end) as [objs|];
      [|split; [reflexivity|constructor; assumption]].
    destruct (report_set_errors esc (os_log s2)) as [l [u| | |]];
      try (split; [reflexivity|constructor; assumption]).
    destruct (pool_get esc m type name p') as [t' r'], (pool_get esc m type name p) as [t r].
    cbn [fst snd] in *. subst r'. split; [reflexivity|constructor; assumption].
  - destruct (pool_get esc m type name p') as [t' r'], (pool_get esc m type name p) as [t r].
    cbn [fst snd] in *. subst r'. split; [reflexivity|constructor; assumption].
  - split; [reflexivity|constructor; assumption].
Qed.

(** a query: the handler's configuration, the matcher, the type and the name *)
Record query := mk_query {
  q_esc : severity -> bool; q_match : bytes -> bytes -> option bool;
  q_type : bytes; q_name : option bytes }.
Definition ask (q : query) (p : list object_set) : list object_set * io (list object) :=
  pool_get (q_esc q) (q_match q) (q_type q) (q_name q) p.
(** the answers to a history of queries *)
Fixpoint answers (p : list object_set) (qs : list query) : list (io (list object)) :=
  match qs with
  | [] => []
  | q :: qs => let '(p', r) := ask q p in r :: answers p' qs
  end.

Lemma answers_same p p' qs : Forall2 same_set p p' ->
  answers p' qs = map (fun q => snd (ask q p)) qs.
Proof.
  revert p'; induction qs as [|q qs IH]; intros p' H; cbn [answers map]; [reflexivity|].
  destruct (pool_get_same (q_esc q) (q_match q) (q_type q) (q_name q) p p' H) as [E1 E2].
  fold (ask q p') in E1, E2. fold (ask q p) in E1.
  destruct (ask q p') as [p2 r]. cbn [fst snd] in *. subst r. f_equal. apply IH. exact E2.
Qed.

Lemma parse_sets_fresh esc recs l p : parse_sets esc recs = (l, Ok p) -> Forall fresh p.
Proof.
  revert l p; induction recs as [|[enc data] recs IH]; intros l p; cbn [parse_sets].
  - intros [= _ <-]. constructor.
  - destruct enc; [apply IH|].
    destruct (new_set data) as [s| | |] eqn:E; try discriminate.
    + destruct (parse_sets esc recs) as [l' [r| | |]] eqn:Er; cbn; try discriminate.
      intros [= _ <-]. constructor; [apply (new_set_fresh data); exact E|]. eapply IH. reflexivity.
    + unfold log. destruct (esc CRITICAL); cbn; [discriminate|].
      destruct (parse_sets esc recs) as [l' r'] eqn:Er. intros [= _ ->]. eapply IH. reflexivity.
Qed.

Lemma fresh_same p : Forall fresh p -> Forall2 same_set p p.
Proof. induction 1; constructor; auto. split; auto. Qed.

(** ** Query results *)

Definition objects_of (s : object_set) : list object :=
  match parse_set s with Ok s' => os_objs s' | _ => [] end.
Definition log_of (s : object_set) : list problem :=
  match parse_set s with Ok s' => os_log s' | _ => [] end.

Lemma report_quiet esc l : (forall p, In p l -> esc (severity_of p) = false) ->
  report_set_errors esc l = (map severity_of l, Ok tt).
Proof.
  induction l as [|p l IH]; cbn [report_set_errors map]; intros H; [reflexivity|].
  unfold log. rewrite (H p) by (left; reflexivity). cbn [bind].
  rewrite IH by (intros; apply H; right; assumption). reflexivity.
Qed.

Lemma report_result esc l : snd (report_set_errors esc l) =
  if existsb (fun p => esc (severity_of p)) l then Exn else Ok tt.
Proof.
  induction l as [|p l IH]; cbn [report_set_errors existsb]; [reflexivity|].
  unfold log. destruct (esc (severity_of p)); cbn [bind orb]; [reflexivity|].
  destruct (report_set_errors esc l) as [l' r]. cbn [snd] in *. exact IH.
Qed.

Lemma fold_filter (f : bytes -> bool) objs :
  fold_right (fun o acc => do b <- Some (f (ob_id (obj_name o))); do acc <- acc;
                           Some (if (b : bool) then o :: acc else acc)) (Some []) objs =
  Some (filter (fun o => f (ob_id (obj_name o))) objs).
Proof.
  induction objs as [|o objs IH]; cbn [fold_right filter]; [reflexivity|].
  rewrite IH. cbn [obind]. destruct (f _); reflexivity.
Qed.

Definition name_matches (f : bytes -> bytes -> bool) (name : option bytes) (o : object) : bool :=
  match name with None => true | Some n => f n (ob_id (obj_name o)) end.

Lemma filter_true {A} (l : list A) : filter (fun _ => true) l = l.
Proof. induction l; cbn; congruence. Qed.

Lemma pool_get_spec f esc type name p :
  (forall s, In s p -> parse_set s <> UB) ->
  (forall s, In s p -> f type (os_type s) = true -> forall q, In q (log_of s) -> esc (severity_of q) = false) ->
  let sel := filter (fun s => f type (os_type s)) p in
  snd (pool_get esc (fun a b => Some (f a b)) type name p) =
  (flat_map (fun s => map severity_of (log_of s)) sel,
   Ok (flat_map (fun s => filter (name_matches f name) (objects_of s)) sel)).
Proof.
  intros Hub Hq sel. unfold sel. clear sel. induction p as [|s p IH]; cbn [pool_get filter flat_map]; [reflexivity|].
  specialize (IH (fun x Hx => Hub x (or_intror Hx)) (fun x Hx => Hq x (or_intror Hx))).
  destruct (f type (os_type s)) eqn:Ef.
  - cbn [flat_map]. specialize (Hub s (or_introl eq_refl)). specialize (Hq s (or_introl eq_refl) Ef).
    unfold log_of in Hq. unfold log_of at 1, objects_of at 1.
    destruct (parse_set_never s) as [N1 N2].
    destruct (parse_set s) as [s'| | |]; try congruence.
    assert (Em : (match name with
                  | None => Some (os_objs s')
                  | Some n =>
                      fold_right (fun o acc =>
                        do b <- (fun a b => Some (f a b)) n (ob_id (obj_name o));
                        do acc <- acc;
                        Some (if (b : bool) then o :: acc else acc)) (Some []) (os_objs s')
                  end) = Some (filter (name_matches f name) (os_objs s'))).
    { destruct name as [n|]; [exact (fold_filter (f n) (os_objs s'))|]. unfold name_matches.
      rewrite filter_true. reflexivity. }
    cbv beta in Em |- *. rewrite Em.
    rewrite report_quiet by exact Hq.
    destruct (pool_get esc _ type name p) as [t r]. cbn [snd] in IH |- *. rewrite IH. cbn [bind ret].
    rewrite app_nil_r. reflexivity.
  - destruct (pool_get esc _ type name p) as [t r]. cbn [snd] in IH |- *. exact IH.
Qed.

Lemma pool_get_any f esc type name p objs l :
  snd (pool_get esc (fun a b => Some (f a b)) type name p) = (l, Ok objs) ->
  let sel := filter (fun s => f type (os_type s)) p in
  l = flat_map (fun s => map severity_of (log_of s)) sel /\
  objs = flat_map (fun s => filter (name_matches f name) (objects_of s)) sel.
Proof.
  revert l objs. induction p as [|s p IH]; intros l objs; cbn [pool_get filter flat_map].
  - intros [= <- <-]. split; reflexivity.
  - destruct (f type (os_type s)) eqn:Ef.
    + cbn [flat_map]. unfold log_of at 1, objects_of at 1.
      destruct (parse_set s) as [s'| | |]; try discriminate.
      assert (Em : (match name with
                    | None => Some (os_objs s')
                    | Some n =>
                        fold_right (fun o acc =>
                          do b <- (fun a b => Some (f a b)) n (ob_id (obj_name o));
                          do acc <- acc;
                          Some (if (b : bool) then o :: acc else acc)) (Some []) (os_objs s')
                    end) = Some (filter (name_matches f name) (os_objs s'))).
      { destruct name as [n|]; [exact (fold_filter (f n) (os_objs s'))|]. unfold name_matches.
        rewrite filter_true. reflexivity. }
      cbv beta in Em |- *. rewrite Em.
      destruct (report_set_errors esc (os_log s')) as [lg [u| | |]] eqn:Er; try discriminate.
      destruct (pool_get esc _ type name p) as [t [l2 [o2| | |]]]; cbn [snd bind ret]; try discriminate.
      intros [= <- <-]. destruct (IH l2 o2 eq_refl) as [-> ->].
      rewrite app_nil_r. split; [|reflexivity]. f_equal.
      pose proof (report_result esc (os_log s')) as R. rewrite Er in R. cbn [snd] in R.
      destruct (existsb _ _) eqn:Ex; [discriminate|].
      rewrite report_quiet in Er; [injection Er as <- _; reflexivity|].
      intros q Hin. destruct (esc (severity_of q)) eqn:Eq; [|reflexivity].
      rewrite <- Ex. symmetry. apply existsb_exists. exists q. split; assumption.
    + destruct (pool_get esc _ type name p) as [t r]. cbn [snd] in IH |- *. apply IH.
Qed.

Lemma parse_sets_spec esc recs : esc CRITICAL = false ->
  (forall data, In (false, data) recs -> new_set data <> UB) ->
  parse_sets esc recs =
  (flat_map (fun r : bool * bytes =>
      if fst r then [] else match new_set (snd r) with Ok _ => [] | _ => [CRITICAL] end) recs,
   Ok (flat_map (fun r : bool * bytes =>
      if fst r then [] else match new_set (snd r) with Ok s => [s] | _ => [] end) recs)).
Proof.
  intros He Hub. induction recs as [|[enc data] recs IH]; cbn [parse_sets flat_map fst snd]; [reflexivity|].
  specialize (IH (fun d Hd => Hub d (or_intror Hd))).
  destruct enc; [exact IH|].
  specialize (Hub data (or_introl eq_refl)). pose proof (new_set_never data) as Hn.
  destruct (new_set data) as [s| | |]; try congruence.
  - rewrite IH. cbn [bind ret]. rewrite app_nil_r. reflexivity.
  - unfold log. rewrite He. cbn [bind]. rewrite IH. reflexivity.
Qed.

(** ** Missing values *)

Lemma patch_rules a : 0 <= at_count a ->
  let r := patch_missing_value a in
  at_label r = at_label a /\ at_count r = at_count a /\ at_reprc r = at_reprc a /\
  at_units r = at_units a /\ at_invariant r = at_invariant a /\
  exists l, at_log r = at_log a ++ l /\
    (l = [] ->
      (exists rc vs, at_value a = Vec rc vs /\ Z.of_nat (length vs) = at_count a /\ at_value r = at_value a) \/
      (at_value a = Mono /\ exists z, zero_value (at_reprc a) z /\
         at_value r = Vec (at_reprc a) (repeat z (Z.to_nat (at_count a))))) /\
    (forall p, In p l -> p <> P_value_left -> announces p a (at_value r)).
Proof.
  intros Hn. cbn zeta. unfold patch_missing_value.
  assert (D : forall b, at_label b = at_label a -> at_count b = at_count a -> at_reprc b = at_reprc a ->
              at_units b = at_units a -> at_invariant b = at_invariant a -> at_value b = at_value a ->
     let r := default_values b in
     at_label r = at_label a /\ at_count r = at_count a /\ at_reprc r = at_reprc a /\
     at_units r = at_units a /\ at_invariant r = at_invariant a /\
     exists l, at_log r = at_log b ++ l /\
       (l = [] -> exists z, zero_value (at_reprc a) z /\
           at_value r = Vec (at_reprc a) (repeat z (Z.to_nat (at_count a)))) /\
       (forall p, In p l -> announces p a (at_value r))).
  { intros b E1 E2 E3 E4 E5 E6. cbn zeta. unfold default_values.
    destruct (known_reprc (at_reprc b)) eqn:K.
    - cbn [with_value at_label at_count at_reprc at_units at_invariant at_log at_value].
      repeat (split; [assumption|]). exists []. rewrite app_nil_r. split; [reflexivity|]. split; [|intros p []].
      intros _. exists (default_value (at_reprc a)). rewrite E3 in K. split; [apply zero_value_default, K|].
      rewrite E2, E3. reflexivity.
    - cbn [add_log at_label at_count at_reprc at_units at_invariant at_log at_value].
      repeat (split; [assumption|]). exists [P_undefined_default]. split; [reflexivity|]. split; [discriminate|].
      intros p [<- | []]. exact E6. }
  destruct (at_value a) as [|rc vs] eqn:Ev.
  - destruct (D a) as (? & ? & ? & ? & ? & l & El & Hl & Hp); try reflexivity; [exact Ev|].
    repeat (split; [assumption|]). exists l. split; [exact El|]. split; [|intros p Hin _; auto].
    intros E. right. split; [reflexivity|]. auto.
  - destruct (Z.of_nat (length vs) =? at_count a) eqn:E1; [|destruct (Z.of_nat (length vs) >? at_count a) eqn:E2].
    + repeat (split; [reflexivity|]). exists []. rewrite app_nil_r. split; [reflexivity|]. split; [|intros p []].
      intros _. left. exists rc, vs. repeat split; [lia|exact Ev].
    + cbn [with_value add_log at_label at_count at_reprc at_units at_invariant at_log at_value].
      repeat (split; [reflexivity|]). exists [P_value_shrunk]. split; [reflexivity|]. split; [discriminate|].
      intros p [<- | []] _. exists rc, vs. split; [exact Ev|reflexivity].
    + destruct (D (add_log a P_value_left)) as (? & ? & ? & ? & ? & l & El & Hl & Hp); try reflexivity; [exact Ev|].
      repeat (split; [assumption|]). exists (P_value_left :: l). split; [rewrite El; cbn [add_log at_log]; rewrite <- app_assoc; reflexivity|].
      split; [discriminate|]. intros p [<- | Hin] Hne; [congruence|auto].
Qed.

(** ** Damage marks *)

Lemma set_attr_in a attrs x : In x (set_attr a attrs) -> x = a \/ In x attrs.
Proof.
  induction attrs as [|y t IH]; cbn [set_attr In]; [intuition|].
  destruct (bytes_eqb (at_label a) (at_label y)); cbn [In]; intuition.
Qed.
Lemma remove_attr_in a attrs x : In x (remove_attr a attrs) -> In x attrs.
Proof. unfold remove_attr. rewrite filter_In. tauto. Qed.
Lemma defaulted_in tmpl x : In x (defaulted_object tmpl) -> In x tmpl.
Proof.
  unfold defaulted_object. intros H.
  cut (forall ts acc, In x (fold_left (fun attrs a => set_attr a attrs) ts acc) -> In x ts \/ In x acc).
  { intros K. destruct (K _ _ H) as [K1 | []]. exact K1. }
  clear. induction ts as [|t ts IH]; intros acc H; cbn [fold_left] in H; [auto|].
  apply IH in H as [H | H]; [left; right; exact H|]. apply set_attr_in in H as [-> | H]; [left; left; reflexivity | auto].
Qed.

Lemma not_clear l q : In q l -> severity_of q <> INFO -> is_log_clear l = false.
Proof.
  intros Hin Hq. unfold is_log_clear. apply Bool.negb_false_iff. apply existsb_exists. exists q. split; [exact Hin|].
  destruct (severity_of q); congruence.
Qed.
Lemma clear_all l : is_log_clear l = false -> exists q, In q l /\ severity_of q <> INFO.
Proof.
  unfold is_log_clear. rewrite Bool.negb_false_iff. intros H. apply existsb_exists in H as (q & Hin & Hq). exists q.
  split; [exact Hin|]. destruct (severity_of q); congruence.
Qed.

(** an attribute with a problem *)
Definition troubled (a : attribute) : Prop := exists q, In q (at_log a) /\ severity_of q <> INFO.

Lemma object_attrs_flag full tmpl cur clear xs cur' clear' rest :
  object_attrs tmpl cur clear xs = Ok (cur', clear', rest) ->
  (forall x, In x cur -> troubled x -> In x full \/ clear = false) ->
  incl tmpl full ->
  (forall x, In x cur' -> troubled x -> In x full \/ clear' = false) /\
  (clear' = false -> clear = false \/
     exists t f ys a zs, In t full /\ object_attr t f ys = Ok (a, zs) /\ troubled a).
Proof.
  revert cur clear xs. induction tmpl as [|t tmpl IH]; intros cur clear xs; cbn [object_attrs].
  { intros [= <- <- <-] H _. auto. }
  destruct (at_invariant t) eqn:Hi.
  { intros E H I. apply (IH _ _ _ E H). intros y Hy. apply I. right. exact Hy. }
  destruct xs as [|d xs1]; [intros [= <- <- <-] H _; auto|].
  destruct (parse_attribute_descriptor d) eqn:Ed; try discriminate.
  - intros [= <- <- <-] H _. auto.
  - intros E H I. apply (IH _ _ _ E).
    + intros x Hx. apply H. exact (remove_attr_in _ _ _ Hx).
    + intros y Hy. apply I. right. exact Hy.
  - destruct (object_attr t f xs1) as [[a xs2]| | |] eqn:Ea; cbn [rbind]; try discriminate.
    intros E H I.
    assert (I' : incl tmpl full) by (intros y Hy; apply I; right; exact Hy).
    destruct (IH _ _ _ E) with (2 := I') as [R1 R2].
    + intros x Hx [q [Hq Sq]]. apply set_attr_in in Hx as [-> | Hx].
      * right. rewrite (not_clear _ q Hq Sq). apply Bool.andb_false_r.
      * destruct (H x Hx (ex_intro _ q (conj Hq Sq))) as [K | ->]; auto.
    + split; [exact R1|]. intros C. destruct (R2 C) as [K | K]; [|right; exact K].
      apply Bool.andb_false_iff in K as [K | K]; [left; exact K|].
      right. exists t, f, xs1, a, xs2. split; [apply I; left; reflexivity|]. split; [exact Ea|]. apply clear_all, K.
Qed.

Lemma parse_object_flag type tmpl d xs o rest : parse_object type tmpl d xs = Ok (o, rest) ->
  (forall a, In a (obj_attrs o) -> ~ In a tmpl -> troubled a -> In P_attribute_violation (obj_log o)) /\
  (In P_attribute_violation (obj_log o) ->
     exists t f ys a zs, In t tmpl /\ object_attr t f ys = Ok (a, zs) /\ troubled a).
Proof.
  unfold parse_object. destruct (parse_object_descriptor d) as [named|]; [|discriminate].
  destruct (unchecked (dlis_obname xs)) as [[name xs1]| | |]; cbn [rbind]; try discriminate.
  destruct (object_attrs tmpl (defaulted_object tmpl) true xs1) as [[[attrs clear] xs2]| | |] eqn:E; cbn [rbind]; try discriminate.
  intros [= <- <-]. cbn [obj_attrs obj_log].
  destruct (object_attrs_flag tmpl _ _ _ _ _ _ _ E) as [F1 F2].
  { intros x Hx _. left. exact (defaulted_in _ _ Hx). }
  { apply incl_refl. }
  split.
  - intros a Ha N T. destruct (F1 a Ha T) as [K | ->]; [contradiction|]. apply in_or_app. right. left. reflexivity.
  - destruct clear.
    + destruct named; intros H; [destruct H|]. destruct H as [H | []]. discriminate.
    + intros _. destruct (F2 eq_refl) as [K | K]; [discriminate | exact K].
Qed.
