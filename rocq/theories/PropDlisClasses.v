(** C69: the listings of a logical file.
    C70: the documented properties of metadata objects.
    C71: members of groups, coordinates of well references, encrypted frames. *)
From Coq Require Import Permutation.
From Verif Require Import Bytes BytesProofs Stream PyBase DlisTypes DlisRecords CommonPy DlisStore SpecDlisStore DlisStoreProofs DlisStoreProofs2 DlisStoreProofs3 DlisStoreProofs5 DlisStoreProofs6 DlisSchema DlisObject
  SpecDlisObject DlisObjectProofs DlisObjectProofs2 DlisObjectProofs3 DlisCurves SpecDlisCurves DlisCurvesProofs DlisClasses SpecDlisClasses DlisClassesProofs DlisClassesProofs2 PropDlisStore PropDlisObject.
Local Open Scope Z_scope.

(** *** C69: an object gets the class of its type if the type is standard, else it is
    Unknown *)
Theorem C69_class : forall dec o,
  (forall t, po_class (promote dec o) = Some t <-> t = dec (obj_type o) /\ standard t) /\
  (po_class (promote dec o) = None <-> ~ standard (dec (obj_type o))).
Proof. intros dec o. split; [exact (class_spec dec o)|exact (class_none dec o)]. Qed.
Print Assumptions C69_class.

(** the type of an object is that of the set it is in *)
Theorem C69_type : forall sets s o, as_loaded sets -> In s sets -> In o (objects_in s) -> obj_type o = os_type s.
Proof. intros sets s o L. exact (objects_in_type sets L s o). Qed.
Print Assumptions C69_type.

(** the listing of a standard type gives all its objects, after any history *)
Theorem C69_listing : forall dec enc esc set_order sets ops t name,
  logical_file dec enc sets -> a_set_order set_order -> Forall (op_ok dec enc) ops -> In (t, name) listed_types -> kept dec enc t ->
  exists st' log r, listing_named dec enc esc set_order (after dec enc esc set_order sets ops) name = Some (st', (log, r)) /\
    if selected_raises dec esc (pystr_eqb t) sets then r = Exn
    else exists objs, r = Ok objs /\ Permutation objs (map (promote dec) (selected dec (pystr_eqb t) (fun _ => true) sets)).
Proof.
  intros dec enc esc set_order sets ops t name LF O OK I K.
  assert (D : dict_get name descriptors = Some t).
  { cbn [listed_types In] in I. repeat (destruct I as [I|I]; [injection I as <- <-; vm_compute; reflexivity|]). destruct I. }
  pose proof (C35_any dec enc esc set_order sets ops t None exact pystr_eqb LF O OK K) as A. cbv zeta in A.
  unfold listing_named. rewrite D. cbn [obind].
  destruct (store_find dec enc esc set_order (after dec enc esc set_order sets ops) t None (Some exact)) as [st' [log r]]. cbn [snd] in A.
  exists st', log, r. split; [reflexivity|]. apply A; try discriminate; [reflexivity|]. intros x [= <-] _ p c. reflexivity.
Qed.
Print Assumptions C69_listing.

(** f.unknowns, after any history: it raises if reporting the problems of a set does, or
    if an object has no type and hence no fingerprint; otherwise it lists all others *)
Theorem C69_unknowns : forall dec enc esc set_order sets ops,
  logical_file dec enc sets -> a_set_order set_order -> Forall (op_ok dec enc) ops ->
  let r := snd (snd (unknowns dec enc esc set_order (after dec enc esc set_order sets ops))) in
  let raises := exists s, In s sets /\ ~ standard (dec (os_type s)) /\
                  (raising esc s = true \/ enc (dec (os_type s)) = [] /\ exists o, of_type dec sets (dec (os_type s)) o) in
  (raises -> r = Exn) /\ (~ raises -> exists d, r = Ok d /\ lists_unknowns dec enc sets d).
Proof.
  intros dec enc esc set_order sets ops (L & P & T) O OK. cbv zeta.
  destruct (unknowns_ok dec enc esc set_order sets L P O T (after dec enc esc set_order sets ops)) as [U1 U2]; [apply after_sane; assumption|]. split.
  - intros (s & Is & N & R). apply U1. exists (dec (os_type s)). split; [exact N|]. exists s. auto.
  - intros H. apply U2. intros t N (s & Is & <- & R). apply H. exists s. auto.
Qed.
Print Assumptions C69_unknowns.

(** the warning about UPDATE objects is given exactly for the files that have a set of them *)
Theorem C69_updates : forall dec enc esc set_order sets ops,
  logical_file dec enc sets -> a_set_order set_order -> Forall (op_ok dec enc) ops ->
  warns_of_updates dec set_order (after dec enc esc set_order sets ops) = true <-> exists s, In s sets /\ dec (os_type s) = lit (text "UPDATE").
Proof.
  intros dec enc esc set_order sets ops (L & P & T) O OK. apply (update_warning dec esc set_order sets O). apply after_sane; assumption.
Qed.
Print Assumptions C69_updates.

(** f.load() raises exactly if reporting the problems of some set does *)
Theorem C69_load : forall dec enc esc set_order sets ops,
  logical_file dec enc sets -> a_set_order set_order -> Forall (op_ok dec enc) ops ->
  snd (snd (load_all dec enc esc set_order (after dec enc esc set_order sets ops))) = if existsb (raising esc) sets then Exn else Ok tt.
Proof.
  intros dec enc esc set_order sets ops (L & P & T) O OK. apply (load_all_ok dec enc esc set_order sets P O T). apply after_sane; assumption.
Qed.
Print Assumptions C69_load.

(** a file with objects of two standard and two other types; P is there twice *)
Definition vendor_set : bytes :=
  [xf0; x06] ++ text "VENDOR" ++ [x34; x01] ++ text "K" ++ [x0f]
  ++ object1' (text "P") [x21; x01] ++ object1' (text "P") [x21; x02] ++ object1' (text "Q") [x21; x03].
Definition update_set : bytes := [xf0; x06] ++ text "UPDATE" ++ [x34; x01] ++ text "K" ++ [x0f] ++ object1' (text "U") [x21; x01].
Definition sets4 : list object_set := sets_of [channel_set; vendor_set; update_set; frame_set frame_F].
Lemma sets4_file : logical_file dec1 enc1 sets4.
Proof.
  split; [|split]; [repeat (constructor; [vm_compute; reflexivity|]); constructor|repeat (constructor; [vm_compute; discriminate|]); constructor|].
  apply Forall_forall. intros s _. apply kept1.
Qed.
Definition unknowns1 (sets : list object_set) (ops : list operation) :=
  snd (snd (unknowns dec1 enc1 quiet order1 (after dec1 enc1 quiet order1 sets ops))).
Example C69_example :
  logical_file dec1 enc1 sets4 /\ Forall (op_ok dec1 enc1) history2 /\
  unknowns1 sets4 history2 =
    Ok [ (lit (text "VENDOR"), [ (lit (text "T.VENDOR-I.P-O.1-C.0"), promote dec1 (nth_object sets4 1 1));
                                 (lit (text "T.VENDOR-I.Q-O.1-C.0"), promote dec1 (nth_object sets4 1 2)) ]);
         (lit (text "UPDATE"), [ (lit (text "T.UPDATE-I.U-O.1-C.0"), promote dec1 (nth_object sets4 2 0)) ]) ] /\
  ~ (exists s, In s sets4 /\ ~ standard (dec1 (os_type s)) /\
       (raising quiet s = true \/ enc1 (dec1 (os_type s)) = [] /\ exists o, of_type dec1 sets4 (dec1 (os_type s)) o)) /\
  warns_of_updates dec1 order1 (after dec1 enc1 quiet order1 sets4 history2) = true /\
  (match listing_named dec1 enc1 quiet order1 (after dec1 enc1 quiet order1 sets4 history2) (lit (text "channels")) with
   | Some (_, (_, Ok l)) => map (po_name dec1) l | _ => [] end) = map (fun n => lit (text n)) ["A"; "B"; "C"]%txt /\
  snd (snd (load_all dec1 enc1 quiet order1 (after dec1 enc1 quiet order1 sets4 history2))) = Ok tt.
Proof.
  split; [exact sets4_file|]. split. { repeat constructor; try apply kept1; intros x H; discriminate H. }
  split; [vm_compute; reflexivity|]. split.
  { intros (s & Is & N & R). assert (E : existsb (fun s => raising quiet s || match os_type s with [] => true | _ => false end) sets4 = false) by (vm_compute; reflexivity).
    assert (X : existsb (fun s => raising quiet s || match os_type s with [] => true | _ => false end) sets4 = true); [|congruence].
    apply existsb_exists. exists s. split; [exact Is|]. destruct R as [->|[R _]]; [reflexivity|].
    destruct (os_type s); [apply orb_true_r|discriminate R]. }
  repeat split; vm_compute; reflexivity.
Qed.

(** *** Finding: a set without a type makes f.unknowns raise, whatever the error handler *)
Theorem C69_untyped_refuted : exists dec enc set_order sets,
  logical_file dec enc sets /\ a_set_order set_order /\
  forall esc, snd (snd (unknowns dec enc esc set_order (after dec enc esc set_order sets []))) = Exn.
Proof.
  exists dec1, enc1, order1, (sets_of [untyped_set]).
  assert (LF : logical_file dec1 enc1 (sets_of [untyped_set])).
  { split; [|split]; [repeat (constructor; [vm_compute; reflexivity|]); constructor|repeat (constructor; [vm_compute; discriminate|]); constructor|].
    apply Forall_forall. intros s _. apply kept1. }
  split; [exact LF|]. split; [exact order1_ok|]. intros esc.
  apply (proj1 (C69_unknowns dec1 enc1 esc order1 _ [] LF order1_ok (Forall_nil _))).
  exists (hd (mk_set 0 [] [] [] [] [] false) (sets_of [untyped_set])). split; [vm_compute; auto|]. split.
  - rewrite <- known_standard. vm_compute. discriminate.
  - right. split; [vm_compute; reflexivity|]. exists (nth_object (sets_of [untyped_set]) 0 0).
    exists (hd (mk_set 0 [] [] [] [] [] false) (sets_of [untyped_set])). split; [vm_compute; auto|]. split; vm_compute; auto.
Qed.
Print Assumptions C69_untyped_refuted.

(** *** Finding: of objects with the same type and name, of which none is like the other,
    f.unknowns has only one *)
Theorem C69_same_refuted : exists dec enc esc set_order sets o o' d,
  logical_file dec enc sets /\ a_set_order set_order /\ of_type dec sets (lit (text "VENDOR")) o /\ of_type dec sets (lit (text "VENDOR")) o' /\
  obj_attrs o <> obj_attrs o' /\
  snd (snd (unknowns dec enc esc set_order (after dec enc esc set_order sets []))) = Ok d /\
  (forall t e fp x, In (t, e) d -> In (fp, x) e -> po_attic x <> o).
Proof.
  exists dec1, enc1, quiet, order1, sets4, (nth_object sets4 1 0), (nth_object sets4 1 1). eexists.
  split; [exact sets4_file|]. split; [exact order1_ok|].
  split; [exists (nth 1 sets4 (mk_set 0 [] [] [] [] [] false)); split; [vm_compute; auto|]; split; [reflexivity|vm_compute; auto]|].
  split; [exists (nth 1 sets4 (mk_set 0 [] [] [] [] [] false)); split; [vm_compute; auto|]; split; [reflexivity|vm_compute; auto]|].
  split; [vm_compute; discriminate|]. split; [vm_compute; reflexivity|].
  intros t e fp x [[= <- <-]|[[= <- <-]|[]]] I.
  - destruct I as [[= <- <-]|[[= <- <-]|[]]]; vm_compute; discriminate.
  - destruct I as [[= <- <-]|[]]. vm_compute. discriminate.
Qed.
Print Assumptions C69_same_refuted.

(** *** C70: every documented property, of any object of the class, after any history:
    the values under the RP66 name, turned into Python values and presented as
    documented.  Partial as C37 is: problems of the object and the attribute are not
    escalated, dates exist, and the names that are referred to are not empty. *)
Theorem C70_properties_partial : forall dec enc esc set_order sets ops s o class docs d c vs lg,
  logical_file dec enc sets -> a_set_order set_order -> Forall (op_ok dec enc) ops ->
  In s sets -> In o (objects_in s) -> dec (os_type s) = class -> In (class, docs) documentation -> In d docs ->
  stored enc o (dc_label d) c vs lg -> calm dec enc esc o (obj_log o) -> calm dec enc esc o lg ->
  Forall (readable dec enc esc sets (dc_links d)) vs ->
  exists xs res ops' log, Forall2 (turns dec sets (dc_links d) c) vs xs /\ presented (dc_reading d) xs res /\
    Forall (op_ok dec enc) ops' /\
    property dec enc esc set_order (after dec enc esc set_order sets ops) (promote dec o) (dc_name d) =
      Some (after dec enc esc set_order sets (ops ++ ops'), (log, Ok (Some res))).
Proof.
  intros dec enc esc set_order sets ops s o class docs d c vs lg (L & P & T) O OK Is Io TY I1 I2 ST C1 C2 RD.
  destruct (property_ok dec enc esc set_order sets L P O T (after dec enc esc set_order sets ops) s o class docs d c vs lg) as (xs & res & ops' & log & A & B & C & E); try assumption.
  - apply after_sane; assumption.
  - exists xs, res, ops', log. split; [exact A|]. split; [exact B|]. split; [exact C|]. rewrite E. unfold after. rewrite fold_left_app. reflexivity.
Qed.
Print Assumptions C70_properties_partial.

(** what is stored is determined by the object, and what is presented by what is stored *)
Theorem C70_one_result : forall r xs res res', presented r xs res -> presented r xs res' -> res = res'.
Proof.
  intros r xs res res' A B. destruct A; inversion B; subst; try reflexivity.
  - f_equal. apply nth_ext with (d := PNone) (d' := PNone); [congruence|]. intros i Li.
    assert (E : nth_error ws i = nth_error ws0 i) by (match goal with H : forall i, _ -> nth_error ws i = _, H' : forall i, _ -> nth_error ws0 i = _ |- _ => rewrite H, H' by lia; reflexivity end).
    rewrite <- !nth_default_eq. unfold nth_default. rewrite E. reflexivity.
  - f_equal. match goal with H : _ <-> is_false _, H' : _ <-> is_false _ |- _ => rewrite <- H' in H; revert H end. destruct b, b0; intuition congruence.
Qed.
Print Assumptions C70_one_result.

(** *** Finding: five documented properties raise AttributeError, always *)
Theorem C70_missing_refuted : forall dec enc esc set_order st o class name,
  In (class, name) misnamed -> dec (obj_type o) = class -> property dec enc esc set_order st (promote dec o) name = None.
Proof. exact misnamed_none. Qed.
Print Assumptions C70_missing_refuted.

Definition property1 (sets : list object_set) (i j : nat) (name : bytes) : option (res (option result)) :=
  match property dec1 enc1 quiet order1 (after dec1 enc1 quiet order1 sets history2) (promote dec1 (nth_object sets i j)) (lit name) with
  | Some (_, (_, r)) => Some r | None => None end.
Example C70_example :
  property1 sets2 0 0 (text "dimension") = Some (Ok (Some (RMany [PNumber 15 4; PNumber 15 3]))) /\
  property1 sets2 0 0 (text "units") = Some (Ok (Some (ROne (PText (lit (text "m")))))) /\
  property1 sets2 0 0 (text "source") = Some (Ok (Some (ROne (PObject (promote dec1 (nth_object sets2 1 0)))))) /\
  property1 sets2 0 2 (text "source") = Some (Ok (Some RNone)) /\
  property1 sets2 1 1 (text "channels") =
    Some (Ok (Some (RMany [PObject (promote dec1 (nth_object sets2 0 1)); PObject (promote dec1 (nth_object sets2 0 1))]))) /\
  property1 sets2 0 0 (text "index_type") = None /\
  property1 sets4 1 0 (text "k") = None.
Proof. repeat split; vm_compute; reflexivity. Qed.
(** the hypotheses of C70_properties_partial, for the source of channel A *)
Example C70_hypotheses :
  let o := nth_object sets2 0 0 in
  let d := doc "source" "SOURCE" One Any_object in
  let v := VRef (mk_objref (text "FRAME") (mk_obname 1 0 (text "F"))) in
  (exists s docs, In s sets2 /\ In o (objects_in s) /\ In (dec1 (os_type s), docs) documentation /\ In d docs) /\
  stored enc1 o (dc_label d) 24 [v] [] /\ calm dec1 enc1 quiet o (obj_log o) /\ Forall (readable dec1 enc1 quiet sets2 (dc_links d)) [v].
Proof.
  cbv zeta. destruct C37_hypotheses as (_ & _ & _ & _ & _ & _ & ST & CA & RD & _). split.
  - exists (hd (mk_set 0 [] [] [] [] [] false) sets2), channel_doc. split; [vm_compute; auto|]. split; [vm_compute; auto|].
    split; [vm_compute; tauto|]. cbn [channel_doc In]. tauto.
  - split; [exact ST|]. split; [exact CA|]. constructor; [exact RD|constructor].
Qed.

(** *** C71: the members of a group, however often they were asked for, are the objects
    that OBJECT-LIST refers to; none if it is absent or empty.  Partial as C37 is, and
    the attribute has a value if it is present (see C71_valueless_refuted), and
    OBJECT-TYPE is a text if the members are names (see C71_type_refuted). *)
Theorem C71_group_partial : forall dec enc esc set_order sets ops s o sc c vs lg l,
  logical_file dec enc sets -> a_set_order set_order -> Forall (op_ok dec enc) ops ->
  In s sets -> In o (objects_in s) -> tables dec enc esc set_order o sc ->
  stored enc o (lit (text "OBJECT-LIST")) c vs lg -> ~ valueless enc o (lit (text "OBJECT-LIST")) ->
  calm dec enc esc o (obj_log o) -> calm dec enc esc o lg ->
  vs = [] \/ members_link dec enc esc o vs l -> Forall (readable dec enc esc sets l) vs ->
  exists xs ops' log, Forall2 (turns dec sets l c) vs xs /\ Forall (op_ok dec enc) ops' /\
    snd (group_objects dec enc esc set_order (after dec enc esc set_order sets ops) sc o) =
      (after dec enc esc set_order sets (ops ++ ops'), (log, Ok (Some (RMany xs)))).
Proof.
  intros dec enc esc set_order sets ops s o sc c vs lg l (L & P & T) O OK Is Io TB ST NV C1 C2 ML RD.
  destruct (group_ok dec enc esc set_order sets L P O T (after dec enc esc set_order sets ops) sc o c vs lg l) as (xs & ops' & log & A & B & E); try assumption.
  - apply after_sane; assumption.
  - exact (file_objects sets L s o Is Io).
  - exists xs, ops', log. split; [exact A|]. split; [exact B|]. rewrite E. unfold after. rewrite fold_left_app. reflexivity.
Qed.
Print Assumptions C71_group_partial.

(** the coordinates of a well reference, by their names (COORDINATE-1, .. if they have
    none); of those with the same name the last.  Partial: names are texts, and
    attributes that are present have values (see C71_coordinates_raise). *)
Theorem C71_coordinates_partial : forall dec enc sets s o k1 v1 k2 v2 k3 v3,
  as_loaded sets -> In s sets -> In o (objects_in s) ->
  coordinate dec enc o "1" k1 v1 -> coordinate dec enc o "2" k2 v2 -> coordinate dec enc o "3" k3 v3 ->
  exists d, wellref_coordinates dec enc o = ret d /\ NoDup (map fst d) /\
    forall k v, In (k, v) d <-> k = k3 /\ v = v3 \/ k = k2 /\ v = v2 /\ k <> k3 \/ k = k1 /\ v = v1 /\ k <> k2 /\ k <> k3.
Proof.
  intros dec enc sets s o k1 v1 k2 v2 k3 v3 L Is Io H1 H2 H3. eexists.
  split; [exact (coordinates_ok dec enc o k1 v1 k2 v2 k3 v3 (file_objects sets L s o Is Io) H1 H2 H3)|].
  split; [repeat apply dict_put_nodup; constructor|]. intros k v. cbn [dict_put].
  assert (EQ : forall a b, pystr_eqb a b = true /\ a = b \/ pystr_eqb a b = false /\ a <> b).
  { intros a b. destruct (pystr_eqb a b) eqn:E; [left; split; [reflexivity|apply pystr_eqb_spec; exact E]|right; split; [reflexivity|]].
    intros ->. rewrite (proj2 (pystr_eqb_spec b b) eq_refl) in E. discriminate. }
  destruct (EQ k2 k1) as [[-> <-]|[-> N1]]; cbn [dict_put].
  - destruct (EQ k3 k2) as [[-> <-]|[-> N2]]; cbn [dict_put In]; split; intuition (try congruence).
  - destruct (EQ k3 k1) as [[-> <-]|[-> N2]]; cbn [dict_put]; [|destruct (EQ k3 k2) as [[-> <-]|[-> N3]]]; cbn [In]; split; intuition (try congruence).
Qed.
Print Assumptions C71_coordinates_partial.

(** *** Finding: one name or value that is present but empty makes all coordinates
    unavailable *)
Theorem C71_coordinates_raise : forall dec enc sets s o number a,
  as_loaded sets -> In s sets -> In o (objects_in s) -> In number ["1"; "2"; "3"]%txt -> In a (obj_attrs o) ->
  (at_label a = enc (lit (text "COORDINATE-" ++ text number ++ text "-NAME")) \/
   at_label a = enc (lit (text "COORDINATE-" ++ text number ++ text "-VALUE"))) ->
  (at_value a = Mono \/ exists c, at_value a = Vec c []) ->
  snd (wellref_coordinates dec enc o) = Exn.
Proof. intros dec enc sets s o number a L Is Io. apply coordinates_fail. exact (file_objects sets L s o Is Io). Qed.
Print Assumptions C71_coordinates_raise.

(** a frame is reported as encrypted exactly if it has the attribute *)
Theorem C71_encrypted : forall dec o,
  frame_encrypted dec o = true <-> exists a, In a (obj_attrs o) /\ dec (at_label a) = lit (text "ENCRYPTED").
Proof. exact encrypted_ok. Qed.
Print Assumptions C71_encrypted.

(** a file with groups: G of channels by name, H of arbitrary objects, I with a list
    that has no value, J without a list, K with names but no type *)
Definition group_set (code : byte) (objects : bytes) : bytes :=
  [xf0; x05] ++ text "GROUP" ++ [x34; x0b] ++ text "OBJECT-TYPE" ++ [x13] ++ [x34; x0b] ++ text "OBJECT-LIST" ++ [code] ++ objects.
Definition names_group : bytes :=
  group_set x17 (object1' (text "G") ([x21; x08] ++ text "CHANNEL " ++ [x29; x02] ++ name1 (text "B") ++ name1 (text "Z"))
                 ++ object1' (text "I") ([x21; x07] ++ text "CHANNEL" ++ [x29; x00])
                 ++ object1' (text "J") ([x21; x07] ++ text "CHANNEL" ++ [x00])
                 ++ object1' (text "K") ([x00; x21] ++ name1 (text "B"))).
Definition refs_group : bytes :=
  group_set x18 (object1' (text "H") ([x00] ++ [x29; x02; x05] ++ text "FRAME" ++ name1 (text "F") ++ [x07] ++ text "CHANNEL" ++ name1 (text "A"))).
Definition sets5 : list object_set := sets_of [channel_set; frame_set frame_F; names_group; refs_group].
Lemma sets5_file : logical_file dec1 enc1 sets5.
Proof.
  split; [|split]; [repeat (constructor; [vm_compute; reflexivity|]); constructor|repeat (constructor; [vm_compute; discriminate|]); constructor|].
  apply Forall_forall. intros s _. apply kept1.
Qed.
Definition objects1 (sc : schema) (i j : nat) :=
  group_objects dec1 enc1 quiet order1 (after dec1 enc1 quiet order1 sets5 history2) sc (nth_object sets5 i j).
Definition members1 (i j : nat) : res (option result) := snd (snd (snd (objects1 group_schema i j))).
Example C71_example :
  members1 2 0 = Ok (Some (RMany [PObject (promote dec1 (nth_object sets5 0 1)); PNone])) /\
  members1 2 2 = Ok (Some (RMany [])) /\
  members1 3 0 = Ok (Some (RMany [PObject (promote dec1 (nth_object sets5 1 0)); PObject (promote dec1 (nth_object sets5 0 0))])) /\
  frame_encrypted dec1 (nth_object sets5 1 0) = true.
Proof. repeat split; vm_compute; reflexivity. Qed.
(** the hypotheses of C71_group_partial, for G *)
Example C71_hypotheses :
  let o := nth_object sets5 2 0 in
  let vs := [VName (mk_obname 1 0 (text "B")); VName (mk_obname 1 0 (text "Z"))] in
  let l := Some (ToName (lit (text "CHANNEL"))) in
  logical_file dec1 enc1 sets5 /\ (exists s, In s sets5 /\ In o (objects_in s)) /\
  tables dec1 enc1 quiet order1 o (fst (objects1 group_schema 2 0)) /\
  stored enc1 o (lit (text "OBJECT-LIST")) 23 vs [] /\ ~ valueless enc1 o (lit (text "OBJECT-LIST")) /\
  calm dec1 enc1 quiet o (obj_log o) /\ members_link dec1 enc1 quiet o vs l /\ Forall (readable dec1 enc1 quiet sets5 l) vs.
Proof.
  cbv zeta. split; [exact sets5_file|].
  split; [exists (nth 2 sets5 (mk_set 0 [] [] [] [] [] false)); split; vm_compute; auto|].
  split; [apply used; constructor|]. split.
  { change (@nil problem) with (at_log (nth 1 (obj_attrs (nth_object sets5 2 0)) new_attribute)). apply stored_values; vm_compute; auto. }
  split.
  { intros (a & Ia & La & Va). revert La Va. vm_compute in Ia. destruct Ia as [<-|[<-|[]]]; vm_compute; discriminate. }
  split; [left; vm_compute; reflexivity|]. split.
  { eapply (by_type dec1 enc1 quiet (nth_object sets5 2 0) _ _ 19 (text "CHANNEL ") [] (at_log (nth 0 (obj_attrs (nth_object sets5 2 0)) new_attribute))).
    - apply stored_values; vm_compute; auto.
    - left. vm_compute. reflexivity.
    - assert (E : lit (text "CHANNEL") = Str (strip (map b2z (text "CHANNEL ")))) by (vm_compute; reflexivity). rewrite E.
      eapply str_of; [reflexivity|apply strip_trimmed]. }
  repeat constructor; try discriminate; intros; match goal with H : refers _ _ _ _ _ |- _ => inversion H; subst end;
    try apply kept1; vm_compute; reflexivity.
Qed.

(** *** Finding: a list without a value raises, where an absent one is empty *)
Theorem C71_valueless_refuted : exists dec enc esc set_order sets s o,
  logical_file dec enc sets /\ a_set_order set_order /\ (forall p, esc p = false) /\ In s sets /\ In o (objects_in s) /\
  stored enc o (lit (text "OBJECT-LIST")) 23 [] [] /\ valueless enc o (lit (text "OBJECT-LIST")) /\
  snd (snd (snd (group_objects dec enc esc set_order (after dec enc esc set_order sets []) group_schema o))) = Exn.
Proof.
  exists dec1, enc1, quiet, order1, sets5, (nth 2 sets5 (mk_set 0 [] [] [] [] [] false)), (nth_object sets5 2 1).
  split; [exact sets5_file|]. split; [exact order1_ok|]. split; [reflexivity|]. split; [vm_compute; auto|]. split; [vm_compute; auto|].
  split.
  { change (@nil problem) with (at_log (nth 1 (obj_attrs (nth_object sets5 2 1)) new_attribute)). apply stored_none; vm_compute; auto. }
  split; [|vm_compute; reflexivity]. exists (nth 1 (obj_attrs (nth_object sets5 2 1)) new_attribute). vm_compute. auto.
Qed.
Print Assumptions C71_valueless_refuted.

(** *** Finding: names without a type raise *)
Theorem C71_type_refuted : exists dec enc esc set_order sets s o,
  logical_file dec enc sets /\ a_set_order set_order /\ (forall p, esc p = false) /\ In s sets /\ In o (objects_in s) /\
  stored enc o (lit (text "OBJECT-LIST")) 23 [VName (mk_obname 1 0 (text "B"))] [] /\
  snd (snd (snd (group_objects dec enc esc set_order (after dec enc esc set_order sets []) group_schema o))) = Exn.
Proof.
  exists dec1, enc1, quiet, order1, sets5, (nth 2 sets5 (mk_set 0 [] [] [] [] [] false)), (nth_object sets5 2 3).
  split; [exact sets5_file|]. split; [exact order1_ok|]. split; [reflexivity|]. split; [vm_compute; auto|]. split; [vm_compute; auto 6|].
  split; [|vm_compute; reflexivity].
  change (@nil problem) with (at_log (nth 0 (obj_attrs (nth_object sets5 2 3)) new_attribute)). apply stored_values; vm_compute; auto.
Qed.
Print Assumptions C71_type_refuted.

(** *** Finding: what group['OBJECT-LIST'] gives depends on whether group.objects has been
    used *)
Theorem C71_state_refuted : exists dec enc esc set_order sets s o x,
  logical_file dec enc sets /\ a_set_order set_order /\ In s sets /\ In o (objects_in s) /\
  let st := after dec enc esc set_order sets [] in
  let '(sc, (st', _)) := group_objects dec enc esc set_order st group_schema o in
  snd (snd (getitem dec enc esc set_order st group_schema o (lit (text "OBJECT-LIST")))) = Ok (Some (RMany [PNone; PNone])) /\
  snd (snd (getitem dec enc esc set_order st' sc o (lit (text "OBJECT-LIST")))) = Ok (Some (RMany [PObject x; PNone])).
Proof.
  exists dec1, enc1, quiet, order1, sets5, (nth 2 sets5 (mk_set 0 [] [] [] [] [] false)), (nth_object sets5 2 0), (promote dec1 (nth_object sets5 0 1)).
  split; [exact sets5_file|]. split; [exact order1_ok|]. split; [vm_compute; auto|]. split; [vm_compute; auto|].
  cbv zeta. destruct (group_objects dec1 enc1 quiet order1 (after dec1 enc1 quiet order1 sets5 []) group_schema (nth_object sets5 2 0)) as [sc [st' r]] eqn:E.
  assert (E1 : sc = fst (group_objects dec1 enc1 quiet order1 (after dec1 enc1 quiet order1 sets5 []) group_schema (nth_object sets5 2 0))) by (rewrite E; reflexivity).
  assert (E2 : st' = fst (snd (group_objects dec1 enc1 quiet order1 (after dec1 enc1 quiet order1 sets5 []) group_schema (nth_object sets5 2 0)))) by (rewrite E; reflexivity).
  subst sc st'. split; vm_compute; reflexivity.
Qed.
Print Assumptions C71_state_refuted.

(** a well reference: two coordinates have names, one of them twice; the third has
    neither name nor value *)
Definition wellref_set : bytes :=
  [xf0; x0e] ++ text "WELL-REFERENCE" ++ [x34; x11] ++ text "COORDINATE-1-NAME" ++ [x14] ++ [x34; x12] ++ text "COORDINATE-1-VALUE" ++ [x0f]
  ++ [x34; x11] ++ text "COORDINATE-2-NAME" ++ [x14] ++ [x34; x12] ++ text "COORDINATE-2-VALUE" ++ [x0f]
  ++ object1' (text "W") ([x21; x04] ++ text "LAT " ++ [x21; x07] ++ [x21; x03] ++ text "LON" ++ [x21; x08])
  ++ object1' (text "X") ([x21; x01] ++ text "E" ++ [x21; x07] ++ [x21; x01] ++ text "E" ++ [x21; x08])
  ++ object1' (text "Y") ([x21; x01] ++ text "E" ++ [x29; x00] ++ [x21; x01] ++ text "N" ++ [x21; x08]).
Definition sets6 : list object_set := sets_of [wellref_set].
Example C71_coordinates_example :
  as_loaded sets6 /\
  wellref_coordinates dec1 enc1 (nth_object sets6 0 0) =
    ret [(lit (text "LAT "), PNumber 15 7); (lit (text "LON"), PNumber 15 8); (lit (text "COORDINATE-3"), PNone)] /\
  coordinate dec1 enc1 (nth_object sets6 0 0) "1" (lit (text "LAT ")) (PNumber 15 7) /\
  coordinate dec1 enc1 (nth_object sets6 0 0) "3" (lit (text "COORDINATE-3")) PNone /\
  snd (wellref_coordinates dec1 enc1 (nth_object sets6 0 2)) = Exn.
Proof.
  split; [repeat (constructor; [vm_compute; reflexivity|]); constructor|]. split; [vm_compute; reflexivity|].
  split.
  { split.
    - eapply (its_first _ _ _ _ _ (nth 0 (obj_attrs (nth_object sets6 0 0)) new_attribute) 20 (VText (text "LAT ")) [] _ []); try (vm_compute; auto).
      constructor; [apply plain_text|constructor].
    - eapply (its_first _ _ _ _ _ (nth 1 (obj_attrs (nth_object sets6 0 0)) new_attribute) 15 (VNum 7) [] _ []); try (vm_compute; auto).
      constructor; [apply plain_number|constructor]. }
  split; [|vm_compute; reflexivity].
  split; apply it_is_absent; vm_compute; intuition discriminate.
Qed.
(** *** Finding: a coordinate is lost if another one has the same name *)
Theorem C71_lost_refuted : exists dec enc sets s o k v v' v3 k3,
  as_loaded sets /\ In s sets /\ In o (objects_in s) /\ v <> v' /\
  coordinate dec enc o "1" k v /\ coordinate dec enc o "2" k v' /\ coordinate dec enc o "3" k3 v3 /\
  wellref_coordinates dec enc o = ret [(k, v'); (k3, v3)].
Proof.
  exists dec1, enc1, sets6, (hd (mk_set 0 [] [] [] [] [] false) sets6), (nth_object sets6 0 1), (lit (text "E")), (PNumber 15 7), (PNumber 15 8), PNone, (lit (text "COORDINATE-3")).
  split; [repeat (constructor; [vm_compute; reflexivity|]); constructor|]. split; [vm_compute; auto|]. split; [vm_compute; auto|]. split; [discriminate|].
  assert (F : forall i label c v x p, nth_error (obj_attrs (nth_object sets6 0 1)) i <> None -> at_label (nth i (obj_attrs (nth_object sets6 0 1)) new_attribute) = enc1 label ->
    at_value (nth i (obj_attrs (nth_object sets6 0 1)) new_attribute) = Vec c [v] -> plainly dec1 c v p -> first_or dec1 enc1 (nth_object sets6 0 1) label x p).
  { intros i label c v x p N L V P. eapply its_first; [|exact L|exact V|constructor; [exact P|constructor]]. apply nth_In. apply nth_error_Some. exact N. }
  split; [split; [apply (F 0%nat _ 20 (VText (text "E")))|apply (F 1%nat _ 15 (VNum 7))]; (vm_compute; congruence) || (vm_compute; reflexivity) || constructor|].
  split; [split; [apply (F 2%nat _ 20 (VText (text "E")))|apply (F 3%nat _ 15 (VNum 8))]; (vm_compute; congruence) || (vm_compute; reflexivity) || constructor|].
  split; [split; apply it_is_absent; vm_compute; intuition discriminate|]. vm_compute. reflexivity.
Qed.
Print Assumptions C71_lost_refuted.

(** *** Finding: frame.encrypted and frame['ENCRYPTED'] may contradict each other *)
Theorem C71_encrypted_refuted : exists dec enc esc set_order sets s o,
  logical_file dec enc sets /\ a_set_order set_order /\ In s sets /\ In o (objects_in s) /\ frame_encrypted dec o = true /\
  snd (snd (getitem dec enc esc set_order (after dec enc esc set_order sets []) (schema_of (promote dec o)) o (lit (text "ENCRYPTED")))) = Ok (Some (RBool false)).
Proof.
  exists dec1, enc1, quiet, order1, sets5, (nth 1 sets5 (mk_set 0 [] [] [] [] [] false)), (nth_object sets5 1 0).
  split; [exact sets5_file|]. split; [exact order1_ok|]. split; [vm_compute; auto|]. split; [vm_compute; auto|]. split; vm_compute; reflexivity.
Qed.
Print Assumptions C71_encrypted_refuted.
