(** Proofs about metadata objects: what holds of every object of a file. *)
From Verif Require Import Bytes BytesProofs Stream DlisTypes DlisRecords TypesProofs RecordsProofs3 IoProofs2 SpecTypes CommonPy DlisStore SpecDlisStore DlisStoreProofs DlisStoreProofs2 DlisStoreProofs3 DlisStoreProofs4 DlisStoreProofs5.
Local Open Scope Z_scope.

(** ** A property of all values that the parser and the defaults give *)
Section every.
Variable P : Z -> value -> Prop.
Hypothesis P_cast : forall c xs v r, cast_value c xs = Some (v, r) -> P c v.
Hypothesis P_default : forall c, P c (default_value c).
Definition vals_ok (v : values) : Prop := match v with Mono => True | Vec c vs => Forall (P c) vs end.
Definition attr_ok (a : attribute) : Prop := vals_ok (at_value a).
Definition obj_ok (o : object) : Prop :=
  Forall attr_ok (obj_attrs o) /\ NoDup (map at_label (obj_attrs o)) /\
  0 <= ob_origin (obj_name o) < 2 ^ 30 /\ 0 <= ob_copy (obj_name o) <= 255.
Lemma cast_values_ok c n : forall xs vs r, cast_values c n xs = Some (vs, r) -> Forall (P c) vs.
Proof.
  induction n as [|n IH]; intros xs vs r; cbn [cast_values]; [intros [= <- _]; constructor|].
  destruct (cast_value c xs) as [[v r1]|] eqn:E; cbn [obind]; [|discriminate].
  destruct (cast_values c n r1) as [[vs' r2]|] eqn:E'; cbn [obind]; [|discriminate]. intros [= <- _].
  constructor; [apply (P_cast _ _ _ _ E)|apply (IH _ _ _ E')].
Qed.
Lemma elements_ok a xs a' r : attr_ok a -> elements a xs = Ok (a', r) -> attr_ok a'.
Proof.
  unfold elements. intros H. destruct (_ =? 0); [intros [= <- _]; exact I|]. destruct (known_reprc _); [|discriminate].
  destruct (cast_values _ _ xs) as [[vs r']|] eqn:E; cbn [unchecked rbind]; [|discriminate]. intros [= <- _].
  exact (cast_values_ok _ _ _ _ _ E).
Qed.
Lemma read_fields_ok f a xs a' r : attr_ok a -> read_fields f a xs = Ok (a', r) -> attr_ok a'.
Proof.
  unfold read_fields. intros H.
  destruct (if f_count f then _ else _) as [[a1 x1]| | |] eqn:E1; cbn [rbind]; try discriminate.
  assert (H1 : attr_ok a1).
  { destruct (f_count f); [|injection E1 as <- _; exact H]. destruct (dlis_uvari xs) as [[c x]|]; cbn [unchecked rbind] in E1; [|discriminate].
    injection E1 as <- _. exact H. }
  destruct (if f_reprc f then _ else _) as [[a2 x2]| | |] eqn:E2; cbn [rbind]; try discriminate.
  assert (H2 : attr_ok a2).
  { destruct (f_reprc f); [|injection E2 as <- _; exact H1]. unfold repcode in E2. destruct (dlis_ushort x1) as [[c x]|]; cbn [unchecked rbind] in E2; [|discriminate].
    destruct (_ || _); injection E2 as <- _; exact H1. }
  destruct (if f_units f then _ else _) as [[a3 x3]| | |] eqn:E3; cbn [rbind]; try discriminate.
  assert (H3 : attr_ok a3).
  { destruct (f_units f); [|injection E3 as <- _; exact H2]. destruct (dlis_units x2) as [[c x]|]; cbn [unchecked rbind] in E3; [|discriminate].
    injection E3 as <- _. exact H2. }
  destruct (f_value f); [apply elements_ok; exact H3|intros [= <- _]; exact H3].
Qed.
Lemma parse_template_ok fuel : forall tmpl lg xs, Forall attr_ok tmpl -> Forall attr_ok (fst (fst (parse_template fuel tmpl lg xs))).
Proof.
  induction fuel as [|fuel IH]; intros tmpl lg xs H; cbn [parse_template]; [exact H|]. destruct xs as [|d xs]; [exact H|].
  destruct (parse_attribute_descriptor d) as [| |f|]; try exact H; [apply IH; exact H|].
  destruct (dlis_ident xs) as [[l x1]|]; cbn [unchecked rbind]; [|exact H].
  destruct (read_fields f _ x1) as [[a x2]| | |] eqn:E; cbn [rbind]; try exact H.
  apply read_fields_ok in E; [|exact I].
  assert (H' : Forall attr_ok (tmpl ++ [with_invariant a (f_invariant f)])).
  { apply Forall_app. split; [exact H|constructor; [exact E|constructor]]. }
  destruct x2; [exact H'|apply IH; exact H'].
Qed.
Lemma set_attr_ok a l : attr_ok a -> Forall attr_ok l -> Forall attr_ok (set_attr a l).
Proof.
  intros H. induction 1 as [|x l Hx Hl IH]; cbn [set_attr]; [repeat constructor; exact H|].
  destruct (bytes_eqb _ _); constructor; assumption.
Qed.
Lemma defaulted_ok tmpl : Forall attr_ok tmpl -> Forall attr_ok (defaulted_object tmpl).
Proof.
  unfold defaulted_object. intros H. assert (H0 : Forall attr_ok []) by constructor. revert H0. generalize (@nil attribute) as acc.
  induction H as [|x l Hx Hl IH]; intros acc HA; cbn [fold_left]; [exact HA|]. apply IH. apply set_attr_ok; assumption.
Qed.
Lemma default_vals_ok a : attr_ok a -> attr_ok (default_values a).
Proof.
  unfold default_values. intros H. destruct (known_reprc _); [|exact H]. unfold attr_ok. cbn [with_value at_value vals_ok].
  apply Forall_forall. intros v I. apply repeat_spec in I. subst v. apply P_default.
Qed.
Lemma patch_ok a : attr_ok a -> attr_ok (patch_missing_value a).
Proof.
  unfold patch_missing_value. intros H. unfold attr_ok in H. destruct (at_value a) as [|c vs] eqn:E; [apply default_vals_ok; unfold attr_ok; rewrite E; exact I|].
  destruct (_ =? _); [unfold attr_ok; rewrite E; exact H|]. destruct (_ >? _).
  - cbn [vals_ok] in H. unfold attr_ok. cbn [add_log with_value at_value vals_ok]. apply Forall_forall. intros v Iv.
    apply (proj1 (Forall_forall _ _) H). rewrite <- (firstn_skipn (Z.to_nat (at_count a)) vs). apply in_app_iff. left. exact Iv.
  - apply default_vals_ok. unfold attr_ok. cbn [add_log at_value]. rewrite E. exact H.
Qed.
Lemma object_attr_ok t f xs a r : attr_ok t -> object_attr t f xs = Ok (a, r) -> attr_ok a.
Proof.
  unfold object_attr. intros H. cbv zeta.
  match goal with |- context [read_fields f ?x xs] => assert (H0 : attr_ok x) by (destruct (f_invariant f), (f_label f); exact H); destruct (read_fields f x xs) as [[a1 x1]| | |] eqn:E end; cbn [rbind]; try discriminate.
  apply read_fields_ok in E; [|exact H0]. intros [= <- _]. destruct (_ =? 0); [exact I|]. destruct (negb (f_value f)); [|exact E].
  apply patch_ok. destruct (_ && _); [exact I|exact E].
Qed.
Lemma object_attrs_ok tmpl : Forall attr_ok tmpl -> forall cur clear xs l c r, Forall attr_ok cur ->
  object_attrs tmpl cur clear xs = Ok (l, c, r) -> Forall attr_ok l.
Proof.
  induction 1 as [|t tmpl Ht Htm IH]; intros cur clear xs l c r HC; cbn [object_attrs]; [intros [= <- _ _]; exact HC|].
  destruct (at_invariant t); [apply IH; exact HC|]. destruct xs as [|d xs]; [intros [= <- _ _]; exact HC|].
  destruct (parse_attribute_descriptor d) as [| |f|]; [intros [= <- _ _]; exact HC| | |discriminate].
  - apply IH. unfold remove_attr. apply Forall_forall. intros x Ix. apply filter_In in Ix as [Ix _]. exact (proj1 (Forall_forall _ _) HC x Ix).
  - destruct (object_attr t f xs) as [[a x2]| | |] eqn:E; cbn [rbind]; try discriminate. apply IH. apply set_attr_ok; [|exact HC].
    exact (object_attr_ok _ _ _ _ _ Ht E).
Qed.

(** labels are unique *)
Lemma set_attr_labels a l k : In k (map at_label (set_attr a l)) -> k = at_label a \/ In k (map at_label l).
Proof.
  induction l as [|x l IH]; cbn [set_attr map]; [intros [<-|[]]; auto|].
  destruct (bytes_eqb (at_label a) (at_label x)) eqn:E; cbn [map].
  - intros [<-|H]; [left; reflexivity|right; right; exact H].
  - intros [<-|H]; [right; left; reflexivity|]. destruct (IH H) as [H'|H']; [left; exact H'|right; right; exact H'].
Qed.
Lemma set_attr_unique a l : NoDup (map at_label l) -> NoDup (map at_label (set_attr a l)).
Proof.
  induction l as [|x l IH]; cbn [set_attr map]; intros H; [constructor; [intros []|constructor]|].
  destruct (bytes_eqb (at_label a) (at_label x)) eqn:E; cbn [map].
  - apply bytes_eqb_spec in E. rewrite E. exact H.
  - apply NoDup_cons_iff in H as [N H]. constructor; [|exact (IH H)]. intros C. apply set_attr_labels in C as [C|C]; [|exact (N C)].
    assert (T : bytes_eqb (at_label a) (at_label x) = true) by (apply bytes_eqb_spec; congruence). congruence.
Qed.
Lemma defaulted_unique tmpl : NoDup (map at_label (defaulted_object tmpl)).
Proof.
  unfold defaulted_object. assert (H0 : NoDup (map at_label [])) by constructor. revert H0. generalize (@nil attribute) as acc.
  induction tmpl as [|x l IH]; intros acc HA; cbn [fold_left]; [exact HA|]. apply IH. apply set_attr_unique. exact HA.
Qed.
Lemma filter_unique (f : attribute -> bool) l : NoDup (map at_label l) -> NoDup (map at_label (filter f l)).
Proof.
  induction l as [|x l IH]; cbn [filter map]; intros H; [constructor|]. apply NoDup_cons_iff in H as [N H].
  destruct (f x); cbn [map]; [|exact (IH H)]. constructor; [|exact (IH H)]. intros C. apply in_map_iff in C as (y & E & Iy).
  apply filter_In in Iy as [Iy _]. apply N. apply in_map_iff. eauto.
Qed.
Lemma object_attrs_unique tmpl : forall cur clear xs l c r, NoDup (map at_label cur) ->
  object_attrs tmpl cur clear xs = Ok (l, c, r) -> NoDup (map at_label l).
Proof.
  induction tmpl as [|t tmpl IH]; intros cur clear xs l c r HC; cbn [object_attrs]; [intros [= <- _ _]; exact HC|].
  destruct (at_invariant t); [apply IH; exact HC|]. destruct xs as [|d xs]; [intros [= <- _ _]; exact HC|].
  destruct (parse_attribute_descriptor d) as [| |f|]; [intros [= <- _ _]; exact HC| | |discriminate].
  - apply IH. unfold remove_attr. apply filter_unique. exact HC.
  - destruct (object_attr t f xs) as [[a x2]| | |] eqn:E; cbn [rbind]; try discriminate. apply IH. apply set_attr_unique. exact HC.
Qed.
Lemma name_range xs n r : dlis_obname xs = Some (n, r) -> 0 <= ob_origin n < 2 ^ 30 /\ 0 <= ob_copy n <= 255.
Proof.
  intros H. apply obname_read_spec in H as (e & _ & H). apply obname_bounds in H as (H1 & H2 & _). lia.
Qed.
Lemma parse_objects_ok fuel type tmpl : Forall attr_ok tmpl -> forall objs xs, Forall (fun o => obj_ok o) objs ->
  Forall (fun o => obj_ok o) (fst (parse_objects fuel type tmpl objs xs)).
Proof.
  intros HT. induction fuel as [|fuel IH]; intros objs [|d xs] H; cbn [parse_objects]; try exact H.
  destruct (parse_object type tmpl d xs) as [[o x2]| | |] eqn:E; try exact H. apply IH. apply Forall_app. split; [exact H|]. constructor; [|constructor].
  unfold parse_object in E. destruct (parse_object_descriptor d) as [named|]; [|discriminate].
  destruct (dlis_obname xs) as [[nm x1]|] eqn:EN; cbn [unchecked rbind] in E; [|discriminate].
  destruct (object_attrs tmpl _ true x1) as [[[l c] r]| | |] eqn:EA; cbn [rbind] in E; try discriminate.
  injection E as <- _. unfold obj_ok. cbn [obj_attrs obj_name]. split; [exact (object_attrs_ok tmpl HT _ _ _ _ _ _ (defaulted_ok tmpl HT) EA)|].
  split; [exact (object_attrs_unique _ _ _ _ _ _ _ (defaulted_unique tmpl) EA)|]. exact (name_range _ _ _ EN).
Qed.
Lemma parse_set_ok s s' : new_set (os_data s) = Ok s -> parse_set s = Ok s' -> Forall (fun o => obj_ok o) (os_objs s').
Proof.
  intros N. assert (B : os_objs s = [] /\ os_parsed s = false).
  { unfold new_set in N. destruct (parse_set_component (os_data s)) as [lg [[[[role type] name] xs]| | |]]; try discriminate.
    destruct s as [a1 a2 a3 a4 a5 a6 a7]. injection N. intros. subst. split; reflexivity. }
  destruct B as [B1 B2]. unfold parse_set. rewrite B2, B1. destruct (parse_set_component (os_data s)) as [lg [[[[role type] name] xs]| | |]].
  - pose proof (parse_template_ok (S (length xs)) [] lg xs (Forall_nil _)) as T.
    destruct (parse_template (S (length xs)) [] lg xs) as [[tmpl lg'] [ys| | |]]; cbn [fst] in T; try discriminate; [|intros [= <-]; constructor].
    pose proof (parse_objects_ok (length ys) type tmpl T [] ys (Forall_nil _)) as PO.
    destruct (parse_objects (length ys) type tmpl [] ys) as [objs [[]| | |]]; cbn [fst] in PO; try discriminate; intros [= <-]; exact PO.
  - intros [= <-]. constructor.
  - discriminate.
  - discriminate.
Qed.
Lemma objects_in_ok sets : as_loaded sets -> forall s o, In s sets -> In o (objects_in s) -> obj_ok o.
Proof.
  intros L s o Is Io. unfold objects_in in Io. destruct (parse_set s) as [s'| | |] eqn:E; try destruct Io.
  exact (proj1 (Forall_forall _ _) (parse_set_ok s s' (proj1 (Forall_forall _ _) L s Is) E) o Io).
Qed.
End every.

(** ** References are the values of three codes *)
Definition kind (c : Z) (v : value) : Prop :=
  value_ok c v /\ match v with VName _ => c = 23 | VRef _ => c = 24 | VAttr _ => c = 25 | _ => c <> 23 /\ c <> 24 /\ c <> 25 end.
Lemma kind_cast c xs v r : cast_value c xs = Some (v, r) -> kind c v.
Proof.
  intros H. split; [exact (cast_value_ok _ _ _ _ H)|]. revert H. unfold cast_value. intros H.
  destruct c as [|c|c]; [discriminate H| |discriminate H].
  do 5 (try (destruct c as [c|c|])); try discriminate H; unfold num, num2, num3, str in H;
    repeat match type of H with obind ?m _ = _ => destruct m as [[? ?]|]; cbn [obind] in H; [|discriminate H]
      | context [let '(_, _) := ?p in _] => destruct p end;
    match type of H with Some (?a, _) = Some (?b, _) => assert (EV : b = a) by congruence; rewrite EV end; repeat split; discriminate.
Qed.
Lemma kind_default c : kind c (default_value c).
Proof.
  split; [apply default_value_ok|]. destruct (Z_lt_dec c 1) as [L|L]; [destruct c; try lia; cbn; lia|]. destruct (Z_lt_dec 27 c) as [G|G].
  - assert (E : default_value c = VNum 0); [|rewrite E; lia]. unfold default_value. destruct c as [|c|c]; try lia.
    do 5 (try (destruct c as [c|c|])); try reflexivity; lia.
  - assert (C : In c (map Z.of_nat (seq 1 27))) by (apply in_map_iff; exists (Z.to_nat c); rewrite in_seq; lia).
    cbn [map seq In] in C. repeat (destruct C as [<-|C]; [vm_compute; repeat split; discriminate || reflexivity|]). destruct C.
Qed.
Definition from_file : object -> Prop := obj_ok kind.
Lemma file_objects sets : as_loaded sets -> forall s o, In s sets -> In o (objects_in s) -> from_file o.
Proof. intros L s o Is Io. exact (objects_in_ok kind kind_cast kind_default sets L s o Is Io). Qed.
