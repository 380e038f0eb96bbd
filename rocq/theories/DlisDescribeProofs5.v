(** Proofs about describe: how to see that a given file is sound, and what its attributes give. *)
From Verif Require Import Bytes BytesProofs Stream PyBase DlisTypes DlisCore SpecTypes DlisRecords CommonPy DlisStore SpecDlisStore DlisStoreProofs DlisStoreProofs2 DlisStoreProofs3 DlisStoreProofs4
  DlisStoreProofs5 DlisStoreProofs6 DlisSchema DlisObject SpecDlisObject DlisObjectProofs DlisObjectProofs2 DlisObjectProofs3 DlisObjectProofs4 DlisObjectProofs5 DlisObjectProofs6 Dimensional SpecDimensional DimensionalProofs2 DimensionalProofs3 DimensionalProofs4
  DlisCurves DlisClasses SpecDlisClasses DlisClassesProofs DlisClassesProofs2 PropDlisStore PropDlisObject DlisDescribe SpecDlisDescribe DlisDescribeProofs DlisDescribeProofs2 DlisDescribeProofs3 DlisDescribeProofs4.
Local Open Scope Z_scope.

Section check.
Variable dec : bytes -> pystr.
Variable enc : pystr -> bytes.
Variable esc : severity -> bool.
Variable sets : list object_set.
Definition refers_check (t : pystr) (n : obname) : bool :=
  pystr_eqb (dec (enc t)) t && pystr_eqb (dec (enc (dec (ob_id n)))) (dec (ob_id n)) && truthy (dec (ob_id n)) && negb (selected_raises dec esc (pystr_eqb t) sets).
Definition value_check (l : option link) (v : value) : bool :=
  match v, l with
  | VTime t, _ => match to_pydatetime t with Some _ => true | None => false end
  | VName n, Some (ToName t) => refers_check t n
  | VRef (mk_objref t n), Some ToRef => refers_check (dec t) n
  | _, _ => true
  end.
Definition attribute_check (key : pystr) (l : option link) (a : attribute) : bool :=
  negb (bytes_eqb (at_label a) (enc key)) ||
  match at_log a with [] => match at_value a with Mono => true | Vec _ vs => forallb (value_check l) vs end | _ => false end.
Definition is_str (s : pystr) : bool := match s with Str _ => true | Raw _ => false end.
Definition text_check (a : attribute) : bool :=
  bytes_eqb (enc (dec (at_label a))) (at_label a) &&
  match at_value a with Mono => true | Vec _ vs => forallb (fun v => match v with VText t => is_str (dec t) | _ => true end) vs end.
Definition object_check (o : object) : bool :=
  let sc := schema_of (promote dec o) in
  match obj_log o with [] => true | _ => false end && is_str (dec (ob_id (obj_name o))) && forallb text_check (obj_attrs o) &&
  forallb (fun key => forallb (attribute_check key (dict_get key (sc_linkage sc))) (obj_attrs o))
    (map fst (sc_attributes sc) ++ map (fun a => dec (at_label a)) (obj_attrs o)).
Definition sound_check : bool := forallb (fun s => forallb object_check (objects_in s)) sets.
Lemma refers_checked t n : refers_check t n = true -> SpecDlisStore.kept dec enc t /\ SpecDlisStore.kept dec enc (dec (ob_id n)) /\ truthy (dec (ob_id n)) = true /\ selected_raises dec esc (pystr_eqb t) sets = false.
Proof.
  unfold refers_check. rewrite !andb_true_iff, negb_true_iff. intros [[[A B] C] D]. apply pystr_eqb_spec in A. apply pystr_eqb_spec in B. auto.
Qed.
Lemma value_checked l v : value_check l v = true -> readable dec enc esc sets l v.
Proof.
  intros H. split.
  - intros t ->. cbn [value_check] in H. destruct (to_pydatetime t); [discriminate|discriminate H].
  - intros t n R. destruct R; cbn [value_check] in H; apply refers_checked; exact H.
Qed.
Lemma sound_checked : sound_check = true -> sound_file dec enc esc sets.
Proof.
  intros H s o Is Io. unfold sound_check in H. rewrite forallb_forall in H. specialize (H s Is). rewrite forallb_forall in H. specialize (H o Io). unfold object_check in H.
  rewrite !andb_true_iff in H. destruct H as [[[LG NM] TX] AT]. rewrite forallb_forall in TX, AT. destruct (obj_log o) as [|p lg] eqn:OL; [|discriminate LG]. clear LG.
  split; [|split].
  - intros key HL. specialize (AT key). rewrite forallb_forall in AT.
    assert (IN : In key (map fst (sc_attributes (schema_of (promote dec o))) ++ map (fun a => dec (at_label a)) (obj_attrs o))) by (apply in_or_app; exact HL). specialize (AT IN).
    assert (LK : link_for (schema_of (promote dec o)) key (dict_get key (sc_linkage (schema_of (promote dec o))))).
    { destruct (dict_get key (sc_linkage (schema_of (promote dec o)))) as [l|] eqn:D; cbn [link_for]; [apply dict_get_some; exact D|apply dict_get_none; exact D]. }
    destruct (in_dec (list_eq_dec Byte.byte_eq_dec) (enc key) (map at_label (obj_attrs o))) as [I|N].
    + apply in_map_iff in I as (a & La & Ia). specialize (AT a Ia). unfold attribute_check in AT. rewrite La, (proj2 (bytes_eqb_spec (enc key) (enc key)) eq_refl) in AT. cbn [negb orb] in AT.
      destruct (at_log a) as [|p lg] eqn:AL; [|discriminate AT]. destruct (at_value a) as [|c vs] eqn:V.
      * exists (dict_get key (sc_linkage (schema_of (promote dec o)))), 0, [], []. split; [exact LK|]. split; [rewrite <- AL; apply stored_none; [exact Ia|exact La|exact V]|].
        cbn [po_attic promote]. rewrite OL. split; [left; reflexivity|]. split; [left; reflexivity|constructor].
      * exists (dict_get key (sc_linkage (schema_of (promote dec o)))), c, vs, []. split; [exact LK|]. split; [rewrite <- AL; apply stored_values; [exact Ia|exact La|exact V]|].
        cbn [po_attic promote]. rewrite OL. split; [left; reflexivity|]. split; [left; reflexivity|]. apply Forall_forall. intros v Iv. rewrite forallb_forall in AT. apply value_checked. exact (AT v Iv).
    + exists (dict_get key (sc_linkage (schema_of (promote dec o)))), 0, [], []. split; [exact LK|]. split; [apply stored_absent; exact N|].
      cbn [po_attic promote]. rewrite OL. split; [left; reflexivity|]. split; [left; reflexivity|constructor].
  - destruct (dec (ob_id (obj_name o))) as [u|b]; [exists u; reflexivity|discriminate NM].
  - intros a Ia. specialize (TX a Ia). unfold text_check in TX. apply andb_true_iff in TX as [A B]. apply bytes_eqb_spec in A. split; [exact A|].
    intros c vs V. rewrite V in B. left. intros t J. rewrite forallb_forall in B. specialize (B _ J). cbn in B. destruct (dec t) as [u|b]; [exists u; reflexivity|discriminate B].
Qed.
End check.

(** what describe reads is what the attribute gives *)
Lemma gives_by_item dec enc esc set_order sets ops s o key r : logical_file dec enc sets -> a_set_order set_order -> sound_file dec enc esc sets ->
  In s sets -> In o (objects_in s) -> Forall (op_ok dec enc) ops -> has_label dec (promote dec o) key ->
  snd (snd (item dec enc esc set_order (promote dec o) key (after dec enc esc set_order sets ops))) = Ok r -> gives dec enc sets (promote dec o) key r.
Proof.
  intros (L & P & T) O S Is Io OK HL E.
  destruct (item_ok dec enc esc set_order sets L P O T S (promote dec o) key) with (st := after dec enc esc set_order sets ops) as (ops' & lg & r' & _ & EQ & G).
  - exists s, o. auto.
  - exact HL.
  - apply after_sane; assumption.
  - rewrite EQ in E. cbn [snd] in E. injection E as <-. exact G.
Qed.
Lemma describe_runs maxdims dec enc esc set_order sets ops s o fmt blocks :
  let x := promote dec o in
  logical_file dec enc sets -> a_set_order set_order -> Forall (op_ok dec enc) ops -> sound_file dec enc esc sets ->
  In s sets -> In o (objects_in s) ->
  In (dec (obj_type o), blocks) described \/ ~ In (dec (obj_type o)) (map fst described) /\ blocks = [] ->
  labels_clear dec enc x -> extras_clear dec x -> Forall (block_clear maxdims dec enc esc sets x) blocks ->
  exists ps ops' log, Forall (op_ok dec enc) ops' /\
    describe maxdims dec enc esc set_order (after dec enc esc set_order sets ops) x fmt =
      (after dec enc esc set_order sets (ops ++ ops'), (log, Ok ps)) /\
    summary_with dec enc esc sets x fmt blocks ps.
Proof.
  cbv zeta. intros (L & P & T) O OK S Is Io BL LC EC BC.
  destruct (describe_ok maxdims dec enc esc set_order sets L P O T S fmt (promote dec o) blocks) with (st := after dec enc esc set_order sets ops) as (ops' & lg & ps & A & E & W); try assumption.
  - exists s, o. auto.
  - apply after_sane; assumption.
  - exists ps, ops', lg. split; [exact A|]. split; [|exact W]. rewrite E. unfold after. rewrite fold_left_app. reflexivity.
Qed.
Lemma describe_summary : forall maxdims dec enc esc set_order sets ops s o fmt blocks,
  let x := promote dec o in
  logical_file dec enc sets -> a_set_order set_order -> Forall (op_ok dec enc) ops -> sound_file dec enc esc sets ->
  In s sets -> In o (objects_in s) -> dec (obj_type o) <> lit (text "CALIBRATION-COEFFICIENT") ->
  blocks_for dec x blocks -> labels_clear dec enc x -> extras_clear dec x -> Forall (block_clear maxdims dec enc esc sets x) blocks ->
  exists ps ops' log, Forall (op_ok dec enc) ops' /\
    describe maxdims dec enc esc set_order (after dec enc esc set_order sets ops) x fmt =
      (after dec enc esc set_order sets (ops ++ ops'), (log, Ok ps)) /\
    summary_with dec enc esc sets x fmt blocks ps.
Proof.
  cbv zeta. intros maxdims dec enc esc set_order sets ops s o fmt blocks LF O OK S Is Io NC BF LC EC BC. apply (describe_runs maxdims dec enc esc set_order sets ops s o fmt blocks); try assumption.
  destruct BF as [B|[B ->]]; [left; apply described_table; [exact B|exact NC]|right]. rewrite described_keys. split; [exact B|reflexivity].
Qed.
Lemma describe_coefficient : forall maxdims dec enc esc set_order sets ops s o fmt,
  let x := promote dec o in
  logical_file dec enc sets -> a_set_order set_order -> Forall (op_ok dec enc) ops -> sound_file dec enc esc sets ->
  In s sets -> In o (objects_in s) -> dec (obj_type o) = lit (text "CALIBRATION-COEFFICIENT") ->
  labels_clear dec enc x -> extras_clear dec x -> Forall (block_clear maxdims dec enc esc sets x) coefficient_swapped ->
  exists ps ops' log, Forall (op_ok dec enc) ops' /\
    describe maxdims dec enc esc set_order (after dec enc esc set_order sets ops) x fmt =
      (after dec enc esc set_order sets (ops ++ ops'), (log, Ok ps)) /\
    summary_with dec enc esc sets x fmt coefficient_swapped ps.
Proof.
  cbv zeta. intros maxdims dec enc esc set_order sets ops s o fmt LF O OK S Is Io C LC EC BC. apply (describe_runs maxdims dec enc esc set_order sets ops s o fmt coefficient_swapped); try assumption.
  left. rewrite C. exact described_coefficient.
Qed.
