(** C38: values with dimensions.  See SpecDimensional.v for shapes and samples. *)
From Verif Require Import Bytes BytesProofs Stream PyBase DlisTypes DlisCore DlisRecords CommonPy DlisStore SpecDlisStore DlisStoreProofs3 DlisStoreProofs6 DlisSchema DlisObject SpecDlisObject
  Dimensional SpecDimensional DimensionalProofs DimensionalProofs2 DimensionalProofs3 DimensionalProofs4 PropDlisStore PropDlisObject.
Local Open Scope Z_scope.

(** Dimensions are used exactly if their product divides the number of values. *)
Theorem C38_shape :
  forall data shape count s, data <> [] -> shape <> [] -> Forall (Z.le 1) shape -> volume shape < 2 ^ 63 ->
  (validshape (Some data) shape count = Some s <-> s = shape /\ (volume shape | Z.of_nat (length data))).
Proof. exact validshape_given. Qed.
Print Assumptions C38_shape.
(** Without dimensions the shape is [1] if there is a value for each zone or only one,
    and there is no shape otherwise. *)
Theorem C38_inferred :
  forall data count s, data <> [] ->
  (validshape (Some data) [] count = Some s <-> s = [1] /\ (count = Some (Z.of_nat (length data)) \/ length data = 1%nat)).
Proof. exact validshape_inferred. Qed.
Print Assumptions C38_inferred.

(** Missing from C38: dimensions of zero, and NUL characters at the end of text (see
    below).  Values with positive dimensions are refused, or become samples that have every
    value exactly once and in order; or the first of these samples, and a warning if
    there are more. *)
Theorem C38_samples_partial :
  forall maxdims data c shape count single, one_kind data -> data <> [] -> In c integer_codes -> Forall (Z.le 1) shape -> small maxdims data shape ->
  exists out, outcome data shape count out /\
    structured maxdims (Some data) (map (PNumber c) shape) count single =
      match out with
      | Some (first :: rest) => Some (if single then (first, match rest with [] => false | _ => true end) else (Arr (first :: rest), false))
      | _ => None
      end.
Proof. exact structured_ok. Qed.
Print Assumptions C38_samples_partial.
(** Nothing comes of nothing. *)
Theorem C38_empty : forall maxdims data dims count single, data = None \/ data = Some [] -> structured maxdims data dims count single = Some (Arr [], false).
Proof. exact structured_empty. Qed.
Print Assumptions C38_empty.

(** *** The values of a parameter or computation in a file, after any history: the
    dimensions are those of the file in reverse, and the zones are counted. *)
Theorem C38_values :
  forall maxdims dec enc esc set_order sets ops s o read a cv values data c dims lgd cz zones lgz,
  read = parameter_values \/ read = computation_values ->
  logical_file dec enc sets -> a_set_order set_order -> Forall (op_ok dec enc) ops -> In s sets -> In o (objects_in s) ->
  In a (obj_attrs o) -> at_label a = enc (lit (text "VALUES")) -> at_value a = Vec cv values -> Forall2 (stands dec cv) values data -> data <> [] ->
  (* text is all decoded or not at all *)
  (forall t, In (VText t) values -> exists u, dec t = Str u) \/ (forall t, In (VText t) values -> exists u, dec t = Raw u) ->
  stored enc o (lit (text "DIMENSION")) c (map VNum dims) lgd -> In c integer_codes -> Forall (Z.le 1) dims -> small maxdims data (rev dims) ->
  stored enc o (lit (text "ZONES")) cz zones lgz -> Forall (readable dec enc esc sets (Some (ToName (lit (text "ZONE"))))) zones ->
  calm dec enc esc o (obj_log o) -> calm dec enc esc o lgd -> calm dec enc esc o lgz ->
  exists out, outcome data (rev dims) (Some (Z.of_nat (length zones))) out /\
    snd (snd (read maxdims dec enc esc set_order (after dec enc esc set_order sets ops) o)) =
      match out with Some l => Ok (Arr l, false) | None => Exn end.
Proof.
  intros maxdims dec enc esc set_order sets ops s o read a cv values data c dims lgd cz zones lgz Er (L & P & T) O OK Is Io Ia La Va Sv N X ST Ci F Sm STZ RZ C1 C2 C3.
  assert (Esc : exists sc, (sc = parameter_schema \/ sc = computation_schema) /\
    read maxdims dec enc esc set_order (after dec enc esc set_order sets ops) o = sampled maxdims dec enc esc set_order (after dec enc esc set_order sets ops) sc o (text "VALUES") true false)
    by (destruct Er as [-> | ->]; eexists; split; [left; reflexivity|reflexivity|right; reflexivity|reflexivity]).
  destruct Esc as (sc & Esc & ->).
  assert (a_schema sc /\ In (lit (text "DIMENSION"), Reverse) (sc_attributes sc) /\ ~ In (lit (text "DIMENSION")) (map fst (sc_linkage sc)) /\
          In (lit (text "ZONES"), Vector) (sc_attributes sc) /\ In (lit (text "ZONES"), ToName (lit (text "ZONE"))) (sc_linkage sc)) as (S1 & S2 & S3 & S4 & S5).
  { destruct Esc as [-> | ->].
    - split; [exact (proj1 (C37_tables (mk_pyobject (Some (lit (text "PARAMETER"))) (mk_object (mk_obname 0 0 []) [] [] [])))) |]. repeat split; vm_compute; intuition discriminate.
    - split; [exact (proj1 (C37_tables (mk_pyobject (Some (lit (text "COMPUTATION"))) (mk_object (mk_obname 0 0 []) [] [] [])))) |]. repeat split; vm_compute; intuition discriminate. }
  destruct (sampled_ok dec enc esc set_order sets L P O T maxdims (after dec enc esc set_order sets ops) sc s o (text "VALUES") true false a cv values data c dims lgd cz zones lgz)
    as (out & Ho & E); try assumption; [apply after_sane; assumption | auto|].
  exists out. split; [exact Ho|]. rewrite E. destruct out as [[|first rest]|]; try reflexivity.
  exfalso. inversion Ho as [l _ _ Q| |l _ _ Q|]; subst; destruct Q as (_ & Q & _); cbn in Q; destruct data; [contradiction | discriminate | contradiction | discriminate].
Qed.
Print Assumptions C38_values.
(** the properties of measurements, their labels, and whether only the first sample is given *)
Definition measured_properties :=
  [ (measurement_samples, (text "MEASUREMENT", false)); (measurement_max_deviation, (text "MAXIMUM-DEVIATION", true));
    (measurement_std_deviation, (text "STANDARD-DEVIATION", true)); (measurement_reference, (text "REFERENCE", true));
    (measurement_plus_tolerance, (text "PLUS-TOLERANCE", true)); (measurement_minus_tolerance, (text "MINUS-TOLERANCE", true)) ].
(** The samples of a measurement, and its deviations, references and tolerances, of
    which only the first sample is given: no zones are counted. *)
Theorem C38_measurement :
  forall maxdims dec enc esc set_order sets ops s o read key single a cv values data c dims lgd,
  In (read, (key, single)) measured_properties ->
  logical_file dec enc sets -> a_set_order set_order -> Forall (op_ok dec enc) ops -> In s sets -> In o (objects_in s) ->
  In a (obj_attrs o) -> at_label a = enc (lit key) -> at_value a = Vec cv values -> Forall2 (stands dec cv) values data -> data <> [] ->
  (forall t, In (VText t) values -> exists u, dec t = Str u) \/ (forall t, In (VText t) values -> exists u, dec t = Raw u) ->
  stored enc o (lit (text "DIMENSION")) c (map VNum dims) lgd -> In c integer_codes -> Forall (Z.le 1) dims -> small maxdims data (rev dims) ->
  calm dec enc esc o (obj_log o) -> calm dec enc esc o lgd ->
  exists out, outcome data (rev dims) None out /\
    snd (snd (read maxdims dec enc esc set_order (after dec enc esc set_order sets ops) o)) =
      match out with
      | Some (first :: rest) => Ok (if single then (first, match rest with [] => false | _ => true end) else (Arr (first :: rest), false))
      | _ => Exn
      end.
Proof.
  intros maxdims dec enc esc set_order sets ops s o read key single a cv values data c dims lgd Ir (L & P & T) O OK Is Io Ia La Va Sv N X ST Ci F Sm C1 C2.
  replace (read maxdims dec enc esc set_order (after dec enc esc set_order sets ops) o)
    with (sampled maxdims dec enc esc set_order (after dec enc esc set_order sets ops) measurement_schema o key false single)
    by (cbn [measured_properties In] in Ir; repeat (destruct Ir as [Ir|Ir]; [injection Ir as <- <- <-; reflexivity|]); destruct Ir).
  apply (sampled_ok dec enc esc set_order sets L P O T maxdims (after dec enc esc set_order sets ops) measurement_schema s o key false single a cv values data c dims lgd 0 [] []); try assumption.
  - apply after_sane; assumption.
  - exact (proj1 (C37_tables (mk_pyobject (Some (lit (text "CALIBRATION-MEASUREMENT"))) (mk_object (mk_obname 0 0 []) [] [] [])))).
  - vm_compute. tauto.
  - vm_compute. intuition discriminate.
  - discriminate.
Qed.
Print Assumptions C38_measurement.
(** An attribute that is absent has no values. *)
Theorem C38_absent :
  forall maxdims dec enc esc set_order st o read key,
  (read = parameter_values \/ read = computation_values) /\ key = text "VALUES" \/ (exists single, In (read, (key, single)) measured_properties) ->
  ~ In (enc (lit key)) (map at_label (obj_attrs o)) ->
  read maxdims dec enc esc set_order st o = (st, ret (Arr [], false)).
Proof.
  intros maxdims dec enc esc set_order st o read key H N. assert (A : forall sc zoned single, sampled maxdims dec enc esc set_order st sc o key zoned single = (st, ret (Arr [], false))) by (intros; apply sampled_absent; exact N).
  destruct H as [[[-> | ->] ->]|(single & I)]; [apply A|apply A|].
  cbn [measured_properties In] in I. repeat (destruct I as [I|I]; [injection I as <- <- <-; apply A|]). destruct I.
Qed.
Print Assumptions C38_absent.

(** *** A file: two zones and two parameters *)
Definition zone_set : bytes := [xf0; x04] ++ text "ZONE" ++ [x34; x06] ++ text "DOMAIN" ++ [x13] ++ object1' (text "Y") [] ++ object1' (text "Z") [].
Definition parameter_set : bytes :=
  [xf0; x09] ++ text "PARAMETER" ++ [x34; x09] ++ text "DIMENSION" ++ [x0f] ++ [x34; x05] ++ text "ZONES" ++ [x17] ++ [x34; x06] ++ text "VALUES" ++ [x0f]
  ++ object1' (text "P") ([x29; x02; x02; x03] ++ [x29; x02] ++ name1 (text "Y") ++ name1 (text "Z")
                          ++ [x29; x0c; x01; x02; x03; x04; x05; x06; x07; x08; x09; x0a; x0b; x0c])
  ++ object1' (text "Q") ([x00] ++ [x29; x02] ++ name1 (text "Z") ++ name1 (text "Y") ++ [x29; x02; x07; x08])
  ++ object1' (text "R") ([x29; x02; x02; x03] ++ [x00] ++ [x29; x04; x01; x02; x03; x04]).
Definition sets3 : list object_set := sets_of [zone_set; parameter_set].
Definition byte_item (n : Z) : nd := Item (PNumber 15 n).
Definition values1 (i : nat) :=
  snd (snd (parameter_values 32 dec1 enc1 quiet order1 (after dec1 enc1 quiet order1 sets3 []) (nth_object sets3 1 i))).
Example C38_example :
  values1 0 = Ok (Arr [ Arr [Arr [byte_item 1; byte_item 2]; Arr [byte_item 3; byte_item 4]; Arr [byte_item 5; byte_item 6]];
                        Arr [Arr [byte_item 7; byte_item 8]; Arr [byte_item 9; byte_item 10]; Arr [byte_item 11; byte_item 12]] ], false) /\
  values1 1 = Ok (Arr [byte_item 7; byte_item 8], false) /\
  values1 2 = Exn.
Proof. repeat split; vm_compute; reflexivity. Qed.
Lemma sets3_file : logical_file dec1 enc1 sets3.
Proof.
  split; [|split].
  - repeat (constructor; [vm_compute; reflexivity|]). constructor.
  - repeat (constructor; [vm_compute; discriminate|]). constructor.
  - apply Forall_forall. intros s _. apply kept1.
Qed.
Example C38_hypotheses :
  let o := nth_object sets3 1 0 in
  let data := map (PNumber 15) [1; 2; 3; 4; 5; 6; 7; 8; 9; 10; 11; 12] in
  logical_file dec1 enc1 sets3 /\ (exists s, In s sets3 /\ In o (objects_in s)) /\
  (exists a, In a (obj_attrs o) /\ at_label a = enc1 (lit (text "VALUES")) /\ at_value a = Vec 15 (map VNum [1; 2; 3; 4; 5; 6; 7; 8; 9; 10; 11; 12])) /\
  Forall2 (stands dec1 15) (map VNum [1; 2; 3; 4; 5; 6; 7; 8; 9; 10; 11; 12]) data /\ one_kind data /\ small 32 data [3; 2] /\
  stored enc1 o (lit (text "DIMENSION")) 15 (map VNum [2; 3]) [] /\
  stored enc1 o (lit (text "ZONES")) 23 [VName (mk_obname 1 0 (text "Y")); VName (mk_obname 1 0 (text "Z"))] [] /\
  Forall (readable dec1 enc1 quiet sets3 (Some (ToName (lit (text "ZONE"))))) [VName (mk_obname 1 0 (text "Y")); VName (mk_obname 1 0 (text "Z"))] /\
  calm dec1 enc1 quiet o (obj_log o).
Proof.
  cbv zeta. split; [exact sets3_file|]. split; [exists (nth 1 sets3 (hd (mk_set 0 [] [] [] [] [] false) sets3)); split; vm_compute; auto|].
  split; [exists (nth 2 (obj_attrs (nth_object sets3 1 0)) new_attribute); repeat split; vm_compute; auto|].
  split; [repeat constructor|]. split; [apply numbers|]. split; [split; [cbn; lia|]; exists 8; split; [repeat constructor; cbn; lia | reflexivity]|].
  split; [change (@nil problem) with (at_log (nth 0 (obj_attrs (nth_object sets3 1 0)) new_attribute)); apply stored_values; vm_compute; auto|].
  split; [change (@nil problem) with (at_log (nth 1 (obj_attrs (nth_object sets3 1 0)) new_attribute)); apply stored_values; vm_compute; auto|].
  split; [|left; vm_compute; reflexivity].
  apply Forall_forall. intros v I. assert (exists i, v = VName (mk_obname 1 0 i) /\ i <> []) as (i & -> & Ni) by (destruct I as [<-|[<-|[]]]; eexists; (split; [reflexivity | discriminate])).
  split; [discriminate|]. intros t n X. inversion X. subst. split; [apply kept1|]. split; [apply kept1|]. split; [destruct i; [contradiction | reflexivity] | vm_compute; reflexivity].
Qed.

(** a measurement: three samples of two values, a reference of one, too many deviations *)
Definition measurement_set : bytes :=
  [xf0; x17] ++ text "CALIBRATION-MEASUREMENT" ++ [x34; x09] ++ text "DIMENSION" ++ [x0f] ++ [x34; x0b] ++ text "MEASUREMENT" ++ [x0f]
  ++ [x34; x09] ++ text "REFERENCE" ++ [x0f] ++ [x34; x11] ++ text "MAXIMUM-DEVIATION" ++ [x0f] ++ [x34; x0e] ++ text "PLUS-TOLERANCE" ++ [x0f]
  ++ object1' (text "M") ([x21; x02] ++ [x29; x06; x01; x02; x03; x04; x05; x06] ++ [x29; x02; x07; x08] ++ [x29; x04; x09; x0a; x0b; x0c] ++ [x29; x03; x01; x02; x03]).
Definition sets3m : list object_set := sets_of [measurement_set].
Example C38_measurement_example :
  let given (read : nat -> (bytes -> pystr) -> (pystr -> bytes) -> (severity -> bool) -> (list pystr -> list pystr) -> store -> object -> store * io (nd * bool)) :=
    snd (snd (read 32%nat dec1 enc1 quiet order1 (after dec1 enc1 quiet order1 sets3m []) (nth_object sets3m 0 0))) in
  given measurement_samples = Ok (Arr [Arr [byte_item 1; byte_item 2]; Arr [byte_item 3; byte_item 4]; Arr [byte_item 5; byte_item 6]], false) /\
  given measurement_reference = Ok (Arr [byte_item 7; byte_item 8], false) /\
  given measurement_max_deviation = Ok (Arr [byte_item 9; byte_item 10], true) /\
  given measurement_plus_tolerance = Exn /\
  given measurement_minus_tolerance = Ok (Arr [], false).
Proof. repeat split; vm_compute; reflexivity. Qed.

(** *** Findings *)

(** A dimension of zero is accepted for any values, and all of them are lost. *)
Theorem C38_zero_refuted : exists maxdims data, one_kind data /\ (length data > 0)%nat /\
  structured maxdims (Some data) [PNumber 15 0] None false = Some (Arr [], false).
Proof. exists 32%nat, [PNumber 2 1; PNumber 2 2]. split; [apply (numbers 2 [1; 2])|]. split; [cbn; lia | vm_compute; reflexivity]. Qed.
Print Assumptions C38_zero_refuted.
(** A NUL character at the end of a text is lost, so different values become equal. *)
Theorem C38_text_refuted : exists maxdims u w, u <> w /\
  structured maxdims (Some [PText (Str u); PText (Str w)]) [PNumber 15 1] None false = Some (Arr [Item (PText (Str u)); Item (PText (Str u))], false).
Proof. exists 32%nat, [65], [65; 0]. split; [discriminate | vm_compute; reflexivity]. Qed.
Print Assumptions C38_text_refuted.
