(** Proofs about the object store: LogicalFile.object and fileheader. *)
From Coq Require Import Permutation.
From Verif Require Import Bytes BytesProofs Stream DlisTypes DlisRecords TypesProofs RecordsProofs3 CommonPy DlisStore SpecDlisStore DlisStoreProofs DlisStoreProofs2 DlisStoreProofs3 DlisStoreProofs4.
Local Open Scope Z_scope.

(** ** Numbers in parsed objects *)
Definition attr_ok (a : attribute) : Prop := values_ok (at_value a).
Lemma cast_values_ok c n : forall xs vs r, cast_values c n xs = Some (vs, r) -> Forall (value_ok c) vs.
Proof.
  induction n as [|n IH]; intros xs vs r; cbn [cast_values]; [intros [= <- _]; constructor|].
  destruct (cast_value c xs) as [[v r1]|] eqn:E; cbn [obind]; [|discriminate].
  destruct (cast_values c n r1) as [[vs' r2]|] eqn:E'; cbn [obind]; [|discriminate]. intros [= <- _].
  constructor; [apply (cast_value_ok _ _ _ _ E)|apply (IH _ _ _ E')].
Qed.
Lemma elements_ok a xs a' r : attr_ok a -> elements a xs = Ok (a', r) -> attr_ok a'.
Proof.
  unfold elements. intros H. destruct (_ =? 0); [intros [= <- _]; exact I|]. destruct (known_reprc _); [|discriminate].
  destruct (cast_values _ _ xs) as [[vs r']|] eqn:E; cbn [unchecked rbind]; [|discriminate]. intros [= <- _].
  exact (cast_values_ok _ _ _ _ _ E).
Qed.
Lemma read_fields_ok f a xs a' r : attr_ok a -> read_fields f a xs = Ok (a', r) -> attr_ok a'.
Proof.
  unfold read_fields. intros H.
  destruct (if f_count f then _ else _) as [[a1 x1]| | |] eqn:E1; cbn [rbind]; try discriminate.
  assert (H1 : attr_ok a1).
  { destruct (f_count f); [|injection E1 as <- _; exact H]. destruct (dlis_uvari xs) as [[c x]|]; cbn [unchecked rbind] in E1; [|discriminate].
    injection E1 as <- _. exact H. }
  destruct (if f_reprc f then _ else _) as [[a2 x2]| | |] eqn:E2; cbn [rbind]; try discriminate.
  assert (H2 : attr_ok a2).
  { destruct (f_reprc f); [|injection E2 as <- _; exact H1]. unfold repcode in E2. destruct (dlis_ushort x1) as [[c x]|]; cbn [unchecked rbind] in E2; [|discriminate].
    destruct (_ || _); injection E2 as <- _; exact H1. }
  destruct (if f_units f then _ else _) as [[a3 x3]| | |] eqn:E3; cbn [rbind]; try discriminate.
  assert (H3 : attr_ok a3).
  { destruct (f_units f); [|injection E3 as <- _; exact H2]. destruct (dlis_units x2) as [[c x]|]; cbn [unchecked rbind] in E3; [|discriminate].
    injection E3 as <- _. exact H2. }
  destruct (f_value f); [apply elements_ok; exact H3|intros [= <- _]; exact H3].
Qed.
Lemma parse_template_ok fuel : forall tmpl lg xs, Forall attr_ok tmpl -> Forall attr_ok (fst (fst (parse_template fuel tmpl lg xs))).
Proof.
  induction fuel as [|fuel IH]; intros tmpl lg xs H; cbn [parse_template]; [exact H|]. destruct xs as [|d xs]; [exact H|].
  destruct (parse_attribute_descriptor d) as [| |f|]; try exact H; [apply IH; exact H|].
  destruct (dlis_ident xs) as [[l x1]|]; cbn [unchecked rbind]; [|exact H].
  destruct (read_fields f _ x1) as [[a x2]| | |] eqn:E; cbn [rbind]; try exact H.
  apply read_fields_ok in E; [|exact I].
  assert (H' : Forall attr_ok (tmpl ++ [with_invariant a (f_invariant f)])).
  { apply Forall_app. split; [exact H|constructor; [exact E|constructor]]. }
  destruct x2; [exact H'|apply IH; exact H'].
Qed.
Lemma set_attr_ok a l : attr_ok a -> Forall attr_ok l -> Forall attr_ok (set_attr a l).
Proof.
  intros H. induction 1 as [|x l Hx Hl IH]; cbn [set_attr]; [repeat constructor; exact H|].
  destruct (bytes_eqb _ _); constructor; assumption.
Qed.
Lemma defaulted_ok tmpl : Forall attr_ok tmpl -> Forall attr_ok (defaulted_object tmpl).
Proof.
  unfold defaulted_object. intros H. assert (H0 : Forall attr_ok []) by constructor. revert H0. generalize (@nil attribute) as acc.
  induction H as [|x l Hx Hl IH]; intros acc HA; cbn [fold_left]; [exact HA|]. apply IH. apply set_attr_ok; assumption.
Qed.
Lemma default_number c : number_ok c 0.
Proof. split; intros _; lia. Qed.
Lemma default_value_ok c : value_ok c (default_value c).
Proof.
  unfold default_value.
  repeat match goal with |- context [match ?x with _ => _ end] => destruct x end; cbn [value_ok]; first [exact I | apply default_number | repeat (constructor; [apply default_number|]); constructor].
Qed.
Lemma default_values_ok a : attr_ok a -> attr_ok (default_values a).
Proof.
  unfold default_values. intros H. destruct (known_reprc _); [|exact H]. unfold attr_ok. cbn [with_value at_value values_ok].
  apply Forall_forall. intros v I. apply repeat_spec in I. subst v. apply default_value_ok.
Qed.
Lemma patch_ok a : attr_ok a -> attr_ok (patch_missing_value a).
Proof.
  unfold patch_missing_value. intros H. unfold attr_ok in H. destruct (at_value a) as [|c vs] eqn:E; [apply default_values_ok; unfold attr_ok; rewrite E; exact I|].
  destruct (_ =? _); [unfold attr_ok; rewrite E; exact H|]. destruct (_ >? _).
  - cbn [values_ok] in H. unfold attr_ok. cbn [add_log with_value at_value values_ok]. apply Forall_forall. intros v Iv.
    apply (proj1 (Forall_forall _ _) H). rewrite <- (firstn_skipn (Z.to_nat (at_count a)) vs). apply in_app_iff. left. exact Iv.
  - apply default_values_ok. unfold attr_ok. cbn [add_log at_value]. rewrite E. exact H.
Qed.
Lemma object_attr_ok t f xs a r : attr_ok t -> object_attr t f xs = Ok (a, r) -> attr_ok a.
Proof.
  unfold object_attr. intros H. cbv zeta.
  match goal with |- context [read_fields f ?x xs] => assert (H0 : attr_ok x) by (destruct (f_invariant f), (f_label f); exact H); destruct (read_fields f x xs) as [[a1 x1]| | |] eqn:E end; cbn [rbind]; try discriminate.
  apply read_fields_ok in E; [|exact H0]. intros [= <- _]. destruct (_ =? 0); [exact I|]. destruct (negb (f_value f)); [|exact E].
  apply patch_ok. destruct (_ && _); [exact I|exact E].
Qed.
Lemma object_attrs_ok tmpl : Forall attr_ok tmpl -> forall cur clear xs l c r, Forall attr_ok cur ->
  object_attrs tmpl cur clear xs = Ok (l, c, r) -> Forall attr_ok l.
Proof.
  induction 1 as [|t tmpl Ht Htm IH]; intros cur clear xs l c r HC; cbn [object_attrs]; [intros [= <- _ _]; exact HC|].
  destruct (at_invariant t); [apply IH; exact HC|]. destruct xs as [|d xs]; [intros [= <- _ _]; exact HC|].
  destruct (parse_attribute_descriptor d) as [| |f|]; [intros [= <- _ _]; exact HC| | |discriminate].
  - apply IH. unfold remove_attr. apply Forall_forall. intros x Ix. apply filter_In in Ix as [Ix _]. exact (proj1 (Forall_forall _ _) HC x Ix).
  - destruct (object_attr t f xs) as [[a x2]| | |] eqn:E; cbn [rbind]; try discriminate. apply IH. apply set_attr_ok; [|exact HC].
    exact (object_attr_ok _ _ _ _ _ Ht E).
Qed.
Lemma parse_objects_ok fuel type tmpl : Forall attr_ok tmpl -> forall objs xs, Forall (fun o => attrs_ok (obj_attrs o)) objs ->
  Forall (fun o => attrs_ok (obj_attrs o)) (fst (parse_objects fuel type tmpl objs xs)).
Proof.
  intros HT. induction fuel as [|fuel IH]; intros objs [|d xs] H; cbn [parse_objects]; try exact H.
  destruct (parse_object type tmpl d xs) as [[o x2]| | |] eqn:E; try exact H. apply IH. apply Forall_app. split; [exact H|]. constructor; [|constructor].
  unfold parse_object in E. destruct (parse_object_descriptor d) as [named|]; [|discriminate].
  destruct (dlis_obname xs) as [[nm x1]|]; cbn [unchecked rbind] in E; [|discriminate].
  destruct (object_attrs tmpl _ true x1) as [[[l c] r]| | |] eqn:EA; cbn [rbind] in E; try discriminate.
  injection E as <- _. cbn [obj_attrs]. exact (object_attrs_ok tmpl HT _ _ _ _ _ _ (defaulted_ok tmpl HT) EA).
Qed.
Lemma parse_set_ok s s' : new_set (os_data s) = Ok s -> parse_set s = Ok s' -> Forall (fun o => attrs_ok (obj_attrs o)) (os_objs s').
Proof.
  intros N. assert (B : os_objs s = [] /\ os_parsed s = false).
  { unfold new_set in N. destruct (parse_set_component (os_data s)) as [lg [[[[role type] name] xs]| | |]]; try discriminate.
    destruct s as [a1 a2 a3 a4 a5 a6 a7]. injection N. intros. subst. split; reflexivity. }
  destruct B as [B1 B2]. unfold parse_set. rewrite B2, B1. destruct (parse_set_component (os_data s)) as [lg [[[[role type] name] xs]| | |]].
  - pose proof (parse_template_ok (S (length xs)) [] lg xs (Forall_nil _)) as T.
    destruct (parse_template (S (length xs)) [] lg xs) as [[tmpl lg'] [ys| | |]]; cbn [fst] in T; try discriminate; [|intros [= <-]; constructor].
    pose proof (parse_objects_ok (length ys) type tmpl T [] ys (Forall_nil _)) as P.
    destruct (parse_objects (length ys) type tmpl [] ys) as [objs [[]| | |]]; cbn [fst] in P; try discriminate; intros [= <-]; exact P.
  - intros [= <-]. constructor.
  - discriminate.
  - discriminate.
Qed.
Lemma objects_in_ok sets : as_loaded sets -> forall s o, In s sets -> In o (objects_in s) -> attrs_ok (obj_attrs o).
Proof.
  intros L s o Is Io. unfold objects_in in Io. destruct (parse_set s) as [s'| | |] eqn:E; try destruct Io.
  exact (proj1 (Forall_forall _ _) (parse_set_ok s s' (proj1 (Forall_forall _ _) L s Is) E) o Io).
Qed.
Lemma selected_ok dec ft fn sets : as_loaded sets -> forall o, In o (selected dec ft fn sets) -> attrs_ok (obj_attrs o).
Proof.
  intros L o H. unfold selected in H. apply in_flat_map in H as (s & Is & Io). apply filter_In in Is as [Is _]. apply filter_In in Io as [Io _].
  exact (objects_in_ok sets L s o Is Io).
Qed.

(** ** LogicalFile.object *)
Section object.
Variable dec : bytes -> pystr.
Variable enc : pystr -> bytes.
Variable esc : severity -> bool.
Variable set_order : list pystr -> list pystr.
Variable sets : list object_set.
Hypothesis loaded : as_loaded sets.
Hypothesis parses : parsable sets.
Hypothesis order : a_set_order set_order.
Hypothesis typed : Forall (fun s => kept dec enc (dec (os_type s))) sets.

Definition choice (l : list object) : option pyobject :=
  match l with
  | [] => None
  | [o] => Some (promote dec o)
  | o :: _ => if forallb (fun x => object_eqb x o) l then Some (promote dec o) else None
  end.
Lemma attic_promote o : po_attic (promote dec o) = o.
Proof. reflexivity. Qed.
Lemma keep_map crit (get : obname -> Z) l :
  (match crit with None => map (promote dec) l | Some z => filter (fun o => get (obj_name (po_attic o)) =? z) (map (promote dec) l) end)
  = map (promote dec) (filter (fun o => agrees crit (get (obj_name o))) l).
Proof.
  destruct crit as [z|]; [rewrite map_filter; reflexivity|]. f_equal. symmetry. clear. induction l as [|x l IH]; cbn in *; [reflexivity|]. rewrite IH. reflexivity.
Qed.
Lemma forallb_map {A B} (f : A -> B) g l : forallb g (map f l) = forallb (fun x => g (f x)) l.
Proof. induction l as [|x l IH]; cbn; [reflexivity|]. rewrite IH. reflexivity. Qed.

Lemma lf_object_result st type name origin copynr : sane dec esc sets st -> kept dec enc type -> kept dec enc name -> truthy name = true \/ st_caching st = true ->
  snd (snd (lf_object dec enc esc set_order st type name origin copynr)) =
  if selected_raises dec esc (pystr_eqb type) sets then Exn else Ok (choice (candidates dec type name origin copynr sets)).
Proof.
  intros SA K KN TN. unfold lf_object.
  pose proof (find_exact dec enc esc set_order sets parses st type name (Some exact) SA K KN TN eq_refl (fun _ _ => eq_refl)) as F.
  destruct (store_find dec enc esc set_order st type (Some name) (Some exact)) as [st' [l r]]. cbn [snd] in F |- *.
  destruct (selected_raises dec esc (pystr_eqb type) sets); subst r; [reflexivity|]. cbn [bind ret snd].
  rewrite keep_map, keep_map, filter_filter. change (filter _ (selected dec (pystr_eqb type) (pystr_eqb name) sets)) with (candidates dec type name origin copynr sets).
  generalize (candidates dec type name origin copynr sets) as c. intros [|o [|o' c]]; cbn [map choice]; [reflexivity..|].
  change (promote dec o :: promote dec o' :: map (promote dec) c) with (map (promote dec) (o :: o' :: c)). rewrite forallb_map. reflexivity.
Qed.

Lemma choice_spec type name origin copynr x :
  choice (candidates dec type name origin copynr sets) = Some x <->
  exists o rest, candidates dec type name origin copynr sets = o :: rest /\ x = promote dec o /\
    (rest = [] \/ forall y, In y (o :: rest) -> same_object y o).
Proof.
  assert (W : forall o, In o (candidates dec type name origin copynr sets) -> attrs_ok (obj_attrs o)).
  { intros o H. unfold SpecDlisStore.candidates in H. apply filter_In in H as [H _]. exact (selected_ok dec _ _ sets loaded o H). }
  revert W. generalize (candidates dec type name origin copynr sets) as c. intros [|o [|o' c]] W; cbn [choice].
  - split; [discriminate|intros (? & ? & H & _); discriminate].
  - split; [intros [= <-]; exists o, []; auto|]. intros (o1 & r & [= <- <-] & -> & _). reflexivity.
  - assert (FB : forallb (fun x => object_eqb x o) (o :: o' :: c) = true <-> forall y, In y (o :: o' :: c) -> same_object y o).
    { rewrite forallb_forall. split; intros H y Iy; specialize (H y Iy); apply object_eqb_spec in H || apply object_eqb_spec; try assumption; apply W; try exact Iy; left; reflexivity. }
    destruct (forallb _ (o :: o' :: c)) eqn:E.
    + split; [intros [= <-]; exists o, (o' :: c); split; [reflexivity|split; [reflexivity|right; apply FB; reflexivity]]|].
      intros (o1 & r & [= <- <-] & -> & _). reflexivity.
    + split; [discriminate|]. intros (o1 & r & [= <- <-] & _ & [D|D]); [discriminate|]. apply FB in D. congruence.
Qed.

(** ** fileheader *)
Lemma perm_single {A} (x : A) l : Permutation l [x] -> l = [x].
Proof. intros P. apply Permutation_sym, Permutation_length_1_inv in P. exact P. Qed.
Lemma fileheader_result st : sane dec esc sets st -> kept dec enc (lit (text "FILE-HEADER")) ->
  snd (snd (fileheader dec enc esc set_order st)) =
  if selected_raises dec esc (pystr_eqb (lit (text "FILE-HEADER"))) sets then Exn
  else Ok (match selected dec (pystr_eqb (lit (text "FILE-HEADER"))) (fun _ => true) sets with [o] => Some (promote dec o) | _ => None end).
Proof.
  intros SA K. unfold fileheader.
  pose proof (find_any dec enc esc set_order sets parses order typed st (lit (text "FILE-HEADER")) None (Some exact) pystr_eqb SA K
    ltac:(discriminate) (fun _ _ => eq_refl) (fun _ _ _ => eq_refl)) as F.
  destruct (store_find dec enc esc set_order st _ None (Some exact)) as [st' [l r]]. cbn [snd wanted] in F |- *.
  destruct (selected_raises _ _ _ sets); [subst r; reflexivity|]. destruct F as (objs & -> & P). cbn [bind ret snd]. f_equal.
  destruct (selected dec _ _ sets) as [|o [|o' c]]; cbn [map] in P.
  - apply Permutation_sym, Permutation_nil in P. subst. reflexivity.
  - apply perm_single in P. subst. reflexivity.
  - apply Permutation_length in P. cbn [length] in P. destruct objs as [|a [|b objs]]; try discriminate. reflexivity.
Qed.
End object.
