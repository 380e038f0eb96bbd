(** C74: describe of the objects of a logical file. *)
From Verif Require Import Bytes Stream PyBase DlisTypes DlisRecords CommonPy DlisStore SpecDlisStore DlisStoreProofs6 DlisSchema DlisObject SpecDlisObject Dimensional SpecDimensional
  DlisClasses SpecDlisClasses PropDlisStore PropDlisObject PropDimensional DlisDescribe SpecDlisDescribe DlisStoreProofs DlisClassesProofs2 DlisDescribeProofs2 DlisDescribeProofs4 DlisDescribeProofs5.
Local Open Scope Z_scope.

(** For every logical file of which every attribute can be read (sound_file), every object
    in it, all options and after any queries: describe gives the summary documented for
    the type of the object.  The attributes are what object[label] gives (C37), under
    their captions and with their units.  It changes nothing but what queries change.
    Partial: where attributes are mistaken for labels or for lists, describe gives
    something else or raises (block_clear), as it does for attributes the class does not
    know without a value (extras_clear); see the findings below.  Coefficients are in
    C74_coefficient. *)
Theorem C74_describe_partial : forall maxdims dec enc esc set_order sets ops s o fmt blocks,
  let x := promote dec o in
  logical_file dec enc sets -> a_set_order set_order -> Forall (op_ok dec enc) ops -> sound_file dec enc esc sets ->
  In s sets -> In o (objects_in s) -> dec (obj_type o) <> lit (text "CALIBRATION-COEFFICIENT") ->
  blocks_for dec x blocks -> labels_clear dec enc x -> extras_clear dec x -> Forall (block_clear maxdims dec enc esc sets x) blocks ->
  exists ps ops' log, Forall (op_ok dec enc) ops' /\
    describe maxdims dec enc esc set_order (after dec enc esc set_order sets ops) x fmt =
      (after dec enc esc set_order sets (ops ++ ops'), (log, Ok ps)) /\
    summary_with dec enc esc sets x fmt blocks ps.
Proof. exact describe_summary. Qed.
Print Assumptions C74_describe_partial.

(** coefficients are described likewise, but their tolerances have each other's captions *)
Theorem C74_coefficient : forall maxdims dec enc esc set_order sets ops s o fmt,
  let x := promote dec o in
  logical_file dec enc sets -> a_set_order set_order -> Forall (op_ok dec enc) ops -> sound_file dec enc esc sets ->
  In s sets -> In o (objects_in s) -> dec (obj_type o) = lit (text "CALIBRATION-COEFFICIENT") ->
  labels_clear dec enc x -> extras_clear dec x -> Forall (block_clear maxdims dec enc esc sets x) coefficient_swapped ->
  exists ps ops' log, Forall (op_ok dec enc) ops' /\
    describe maxdims dec enc esc set_order (after dec enc esc set_order sets ops) x fmt =
      (after dec enc esc set_order sets (ops ++ ops'), (log, Ok ps)) /\
    summary_with dec enc esc sets x fmt coefficient_swapped ps.
Proof. exact describe_coefficient. Qed.
Print Assumptions C74_coefficient.

(** *** A file *)
Definition longname_set : bytes :=
  [xf0; x09] ++ text "LONG-NAME" ++ [x34; x08] ++ text "QUANTITY" ++ [x14] ++ object1' (text "L") ([x21; x05] ++ text "Speed").
Definition channels7 : bytes :=
  [xf0; x07] ++ text "CHANNEL" ++ [x34; x09] ++ text "DIMENSION" ++ [x0f] ++ [x34; x05] ++ text "UNITS" ++ [x1b]
  ++ [x34; x09] ++ text "LONG-NAME" ++ [x17] ++ [x34; x05] ++ text "EXTRA" ++ [x14]
  ++ object1' (text "A") ([x29; x02; x03; x04] ++ [x21; x04] ++ text " m  " ++ [x21] ++ name1 (text "L") ++ [x23; x01; x79; x02] ++ text " s")
  ++ object1' (text "B") ([x29; x01; x01] ++ [x21; x08] ++ text "INDEX-IN" ++ [x00] ++ [x21; x01; x79]).
Definition frames7 : bytes :=
  [xf0; x05] ++ text "FRAME" ++ [x34; x08] ++ text "CHANNELS" ++ [x17] ++ [x34; x0a] ++ text "INDEX-TYPE" ++ [x13] ++ [x34; x07] ++ text "SPACING" ++ [x0f]
  ++ object1' (text "F") ([x29; x02] ++ name1 (text "A") ++ name1 (text "B") ++ [x21; x05] ++ text "DEPTH" ++ [x23; x01; x6d; x05])
  ++ object1' (text "G") ([x29; x01] ++ name1 (text "B") ++ [x00] ++ [x00])
  ++ object1' (text "H") ([x00] ++ [x00] ++ [x00]).
Definition parameters7 : bytes :=
  [xf0; x09] ++ text "PARAMETER" ++ [x34; x09] ++ text "DIMENSION" ++ [x0f] ++ [x34; x06] ++ text "VALUES" ++ [x0f]
  ++ object1' (text "P") ([x29; x01; x02] ++ [x2b; x04; x01; x6d; x01; x02; x03; x04])
  ++ object1' (text "R") ([x29; x01; x03] ++ [x29; x04; x01; x02; x03; x04]).
Definition coefficients7 : bytes :=
  [xf0; x17] ++ text "CALIBRATION-COEFFICIENT" ++ [x34; x0c] ++ text "COEFFICIENTS" ++ [x0f] ++ [x34; x0f] ++ text "PLUS-TOLERANCES" ++ [x0f]
  ++ [x34; x10] ++ text "MINUS-TOLERANCES" ++ [x0f] ++ object1' (text "K") ([x29; x02; x01; x02] ++ [x29; x02; x03; x04] ++ [x29; x02; x05; x06]).
Definition unknown7 : bytes := [xf0; x03] ++ text "ODD" ++ [x34; x05] ++ text "WHICH" ++ [x0f] ++ object1' (text "U") [x21; x07].
Definition sets7 : list object_set := sets_of [longname_set; channels7; frames7; parameters7; coefficients7; unknown7].
Lemma sets7_file : logical_file dec1 enc1 sets7.
Proof.
  split; [|split].
  - repeat (constructor; [vm_compute; reflexivity|]). constructor.
  - repeat (constructor; [vm_compute; discriminate|]). constructor.
  - apply Forall_forall. intros s _. apply kept1.
Qed.
Lemma sets7_sound : sound_file dec1 enc1 quiet sets7.
Proof. apply sound_checked. vm_compute. reflexivity. Qed.
Definition set7 (i : nat) : object_set := nth i sets7 (hd (mk_set 0 [] [] [] [] [] false) sets7).
Definition described1 (sets : list object_set) (i j : nat) (fmt : bytes) :=
  snd (snd (describe 32 dec1 enc1 quiet order1 (after dec1 enc1 quiet order1 sets []) (promote dec1 (nth_object sets i j)) (map b2z fmt))).
Definition head1 (t n : bytes) : list piece :=
  [ Title (lit t); Entry (lit (text "name")) (SResult (ROne (PText (lit n)))) None; Entry (lit (text "origin")) (SInt 1) None; Entry (lit (text "copy")) (SInt 0) None ].
Definition one1 (s : bytes) : shown := SResult (ROne (PText (lit s))).
Example C74_example :
  (* a channel, its long name and an attribute of its own, without what is empty *)
  described1 sets7 1 0 (text "e") = Ok (head1 (text "CHANNEL") (text "A") ++
    [ Section (lit (text "Description")); Entry (lit (text "Quantity")) (one1 (text "Speed")) None;
      Entry (lit (text "Physical unit of sample")) (one1 (text "m")) None;
      Entry (lit (text "Sample dimensions")) (SResult (RMany [PNumber 15 4; PNumber 15 3])) None;
      Section (lit (text "Unknown attributes")); Entry (lit (text "EXTRA")) (SResult (RMany [PText (lit (text "s"))])) (Some (lit (text "y"))) ]) /\
  (* a frame with an index, and two without *)
  described1 sets7 2 0 (text "he") = Ok
    [ Section (lit (text "Channel indexing")); Entry (lit (text "Indexed by")) (one1 (text "DEPTH")) None;
      Entry (lit (text "Index units")) (one1 (text "m")) None; Entry (lit (text "Constant spacing")) (SResult (ROne (PNumber 15 5))) (Some (lit (text "m")));
      Entry (lit (text "Index channel")) (SResult (ROne (PObject (promote dec1 (nth_object sets7 1 0))))) None;
      Section (lit (text "Channels")); Line (SNames [AName (lit (text "A")); AName (lit (text "B"))]) ] /\
  described1 sets7 2 1 (text "he") = Ok
    [ Line (one1 (text "There is no index channel, channels are indexed by samplenumber, i.e [1,2,3,..,n]"));
      Section (lit (text "Channels")); Line (SNames [AName (lit (text "B"))]) ] /\
  described1 sets7 2 2 (text "he") = Ok [ Line (one1 (text "Frame has no channels")) ] /\
  (* a parameter, and one of the wrong size *)
  described1 sets7 3 0 (text "he") = Ok
    [ Entry (lit (text "Sample dimensions")) (SResult (RMany [PNumber 15 2])) None;
      Entry (lit (text "Value(s)")) (SArray (Arr [Arr [byte_item 1; byte_item 2]; Arr [byte_item 3; byte_item 4]])) (Some (lit (text "m"))) ] /\
  described1 sets7 3 1 (text "he") = Ok
    [ Entry (lit (text "Sample dimensions")) (SResult (RMany [PNumber 15 3])) None; Section (lit (text "Invalid dimensions"));
      Entry (lit (text "Value(s)")) (SResult (RMany [PNumber 15 1; PNumber 15 2; PNumber 15 3; PNumber 15 4])) None ] /\
  described1 sets7 3 1 (text "hei") = Ok [ Entry (lit (text "Sample dimensions")) (SResult (RMany [PNumber 15 3])) None ] /\
  (* a type that is not known *)
  described1 sets7 5 0 (text "h") = Ok [ Section (lit (text "Unknown attributes")); Entry (lit (text "WHICH")) (SResult (RMany [PNumber 15 7])) None ].
Proof. repeat split; vm_compute; reflexivity. Qed.

(** the hypotheses of C74_describe_partial, for these objects *)
Lemma labels1 o : labels_clear dec1 enc1 (promote dec1 o).
Proof.
  intros key I. assert (L : exists b, key = lit b); [|destruct L as (b & ->); apply kept1].
  unfold schema_of in I. destruct (po_class (promote dec1 o)) as [t|]; [|destruct I].
  destruct (dict_get t schemas) as [sc|] eqn:D; [|destruct I].
  assert (A : forallb (fun p => forallb (fun k => pystr_eqb (lit (enc1 k)) k) (map fst (sc_attributes (snd p)))) schemas = true) by (vm_compute; reflexivity).
  rewrite forallb_forall in A. apply DlisClassesProofs2.dict_get_some in D. specialize (A _ D). rewrite forallb_forall in A. specialize (A key I). apply pystr_eqb_spec in A. exists (enc1 key). auto.
Qed.
Lemma extras1 o : (forall a, In a (obj_attrs o) -> at_value a <> Mono) -> extras_clear dec1 (promote dec1 o).
Proof. intros H a Ia _. split; [exact (H a Ia)|]. eexists. reflexivity. Qed.
Example C74_hypotheses : forall i j blocks,
  In (i, j, blocks) [ (1%nat, 0%nat, nth 5 (map snd summaries) []); (2%nat, 0%nat, [Frame_rows]); (3%nat, 0%nat, nth 8 (map snd summaries) []); (5%nat, 0%nat, []) ] ->
  let o := nth_object sets7 i j in
  In (set7 i) sets7 /\ In o (objects_in (set7 i)) /\ dec1 (obj_type o) <> lit (text "CALIBRATION-COEFFICIENT") /\
  blocks_for dec1 (promote dec1 o) blocks /\ extras_clear dec1 (promote dec1 o) /\
  Forall (block_clear 32 dec1 enc1 quiet sets7 (promote dec1 o)) blocks.
Proof.
  assert (GIVE : forall i j key r, In (set7 i) sets7 -> In (nth_object sets7 i j) (objects_in (set7 i)) -> has_label dec1 (promote dec1 (nth_object sets7 i j)) key ->
    snd (snd (item dec1 enc1 quiet order1 (promote dec1 (nth_object sets7 i j)) key (after dec1 enc1 quiet order1 sets7 []))) = Ok r ->
    forall r', gives dec1 enc1 sets7 (promote dec1 (nth_object sets7 i j)) key r' -> r' = r).
  { intros i j key r Is Io HL E r' G. apply (gives_unique dec1 enc1 sets7 (proj1 sets7_file) (promote dec1 (nth_object sets7 i j)) key r' r); [exists (set7 i), (nth_object sets7 i j); auto|exact G|].
    exact (gives_by_item dec1 enc1 quiet order1 sets7 [] (set7 i) _ key r sets7_file order1_ok sets7_sound Is Io (Forall_nil _) HL E). }
  intros i j blocks I. cbv zeta. cbn [In] in I. destruct I as [I|[I|[I|[I|[]]]]]; injection I as <- <- <-.
  - split; [vm_compute; auto|]. split; [vm_compute; auto|]. split; [vm_compute; discriminate|]. split; [left; vm_compute; tauto|].
    split; [apply extras1; intros a J; vm_compute in J; repeat (destruct J as [<-|J]; [discriminate|]); destruct J|].
    constructor; [exact Logic.I|]. constructor; [|constructor]. cbn [block_clear]. repeat (constructor; [exact Logic.I|]). constructor.
  - split; [vm_compute; auto|]. split; [vm_compute; auto|]. split; [vm_compute; discriminate|]. split; [left; vm_compute; tauto|].
    split; [apply extras1; intros a J; vm_compute in J; repeat (destruct J as [<-|J]; [discriminate|]); destruct J|].
    constructor; [|constructor]. intros ch chs t GC _. exists (promote dec1 (nth_object sets7 1 0)). split.
    { assert (E : RMany (ch :: chs) = RMany [PObject (promote dec1 (nth_object sets7 1 0)); PObject (promote dec1 (nth_object sets7 1 1))]).
      { apply (GIVE 2%nat 0%nat (lit (text "CHANNELS"))); [vm_compute; auto|vm_compute; auto|left; vm_compute; tauto|vm_compute; reflexivity|exact GC]. }
      congruence. }
    intros u GU. assert (E : ROne (PText u) = ROne (PText (lit (text "m")))).
    { apply (GIVE 1%nat 0%nat (lit (text "UNITS"))); [vm_compute; auto|vm_compute; auto|left; vm_compute; tauto|vm_compute; reflexivity|exact GU]. }
    injection E as ->. intros [X|X]; vm_compute in X; intuition discriminate.
  - split; [vm_compute; auto|]. split; [vm_compute; auto|]. split; [vm_compute; discriminate|]. split; [left; vm_compute; tauto|].
    split; [apply extras1; intros a J; vm_compute in J; repeat (destruct J as [<-|J]; [discriminate|]); destruct J|].
    constructor; [exact Logic.I|]. constructor; [cbn [block_clear]; repeat (constructor; [exact Logic.I|]); constructor|]. constructor; [|constructor].
    exists [2]. split.
    { exists 15. split; [vm_compute; auto 8|].
      apply (gives_by_item dec1 enc1 quiet order1 sets7 [] (set7 3) _ _ _ sets7_file order1_ok sets7_sound); [vm_compute; auto|vm_compute; auto|constructor|left; vm_compute; tauto|vm_compute; reflexivity]. }
    split; [constructor; [lia|constructor]|]. intros l data [<-|[]] V ND.
    assert (data = map (PNumber 15) [1; 2; 3; 4]) as ->.
    { apply (values_unique dec1 enc1 sets7 (proj1 sets7_file) (promote dec1 (nth_object sets7 3 0)) (lit (text "VALUES"))); [exists (set7 3), (nth_object sets7 3 0); split; [vm_compute; auto|split; [vm_compute; auto|reflexivity]]|exact V|].
      apply (values_some dec1 enc1 (promote dec1 (nth_object sets7 3 0)) _ (nth 1 (obj_attrs (nth_object sets7 3 0)) new_attribute) 15 (map VNum [1; 2; 3; 4]));
        [vm_compute; auto|vm_compute; reflexivity|vm_compute; reflexivity|]. repeat constructor. }
    split; [cbn; lia|]. exists 8. split; [repeat constructor; cbn; lia|reflexivity].
  - split; [vm_compute; auto 8|]. split; [vm_compute; auto|]. split; [vm_compute; discriminate|].
    split; [right; split; [vm_compute; intuition discriminate|reflexivity]|]. split; [|constructor].
    apply extras1; intros a J; vm_compute in J; repeat (destruct J as [<-|J]; [discriminate|]); destruct J.
Qed.
Example C74_coefficient_hypotheses :
  let o := nth_object sets7 4 0 in
  In (set7 4) sets7 /\ In o (objects_in (set7 4)) /\ dec1 (obj_type o) = lit (text "CALIBRATION-COEFFICIENT") /\ extras_clear dec1 (promote dec1 o) /\
  Forall (block_clear 32 dec1 enc1 quiet sets7 (promote dec1 o)) coefficient_swapped.
Proof.
  cbv zeta. split; [vm_compute; auto 8|]. split; [vm_compute; auto|]. split; [vm_compute; reflexivity|].
  split; [apply extras1; intros a J; vm_compute in J; repeat (destruct J as [<-|J]; [discriminate|]); destruct J|].
  constructor; [cbn [block_clear]; repeat (constructor; [exact Logic.I|]); constructor|]. constructor; [|constructor].
  exists [1]. split; [reflexivity|]. split; [constructor; [lia|constructor]|].
  assert (IF : DlisDescribeProofs2.in_file dec1 sets7 (promote dec1 (nth_object sets7 4 0))) by (exists (set7 4), (nth_object sets7 4 0); split; [vm_compute; auto 8|split; [vm_compute; auto|reflexivity]]).
  assert (SMALL : forall a b, small 32 [PNumber 15 a; PNumber 15 b] [1]).
  { intros a b. split; [cbn; lia|]. exists 8. split; [repeat constructor; cbn; lia|reflexivity]. }
  assert (ONE : forall k label a b, (k < 3)%nat -> at_label (nth k (obj_attrs (nth_object sets7 4 0)) new_attribute) = enc1 (lit label) ->
    at_value (nth k (obj_attrs (nth_object sets7 4 0)) new_attribute) = Vec 15 [VNum a; VNum b] ->
    forall data, values_of dec1 enc1 (promote dec1 (nth_object sets7 4 0)) (lit label) data -> small 32 data [1]).
  { intros k label a b K L V data D. assert (data = [PNumber 15 a; PNumber 15 b]) as ->; [|apply SMALL].
    apply (values_unique dec1 enc1 sets7 (proj1 sets7_file) (promote dec1 (nth_object sets7 4 0)) (lit label) _ _ IF D).
    apply (values_some dec1 enc1 (promote dec1 (nth_object sets7 4 0)) _ (nth k (obj_attrs (nth_object sets7 4 0)) new_attribute) 15 [VNum a; VNum b]); [|exact L|exact V|repeat constructor].
    apply nth_In. exact K. }
  intros l data I V ND. cbn [map snd In] in I. destruct I as [<-|[<-|[<-|[<-|[]]]]].
  - apply (ONE 0%nat (text "COEFFICIENTS") 1 2); [lia|vm_compute; reflexivity|vm_compute; reflexivity|exact V].
  - exfalso. inversion V as [a Ia La Va|a c vs ps Ia La Va F]; vm_compute in Ia; repeat (destruct Ia as [<-|Ia]; [vm_compute in La; discriminate La|]); destruct Ia.
  - apply (ONE 1%nat (text "PLUS-TOLERANCES") 3 4); [lia|vm_compute; reflexivity|vm_compute; reflexivity|exact V].
  - apply (ONE 2%nat (text "MINUS-TOLERANCES") 5 6); [lia|vm_compute; reflexivity|vm_compute; reflexivity|exact V].
Qed.

(** *** Findings *)

(** coefficient.py 96-97: the tolerances are swapped.  The minus tolerances 5 and 6 are
    shown as the plus tolerances, and the other way around. *)
Theorem C74_tolerances_refuted : exists dec enc esc set_order sets s o plus minus,
  logical_file dec enc sets /\ a_set_order set_order /\ sound_file dec enc esc sets /\ In s sets /\ In o (objects_in s) /\ plus <> minus /\
  values_of dec enc (promote dec o) (lit (text "PLUS-TOLERANCES")) (map (PNumber 15) plus) /\
  values_of dec enc (promote dec o) (lit (text "MINUS-TOLERANCES")) (map (PNumber 15) minus) /\
  snd (snd (describe 32 dec enc esc set_order (after dec enc esc set_order sets []) (promote dec o) (map b2z (text "h")))) = Ok
    [ Entry (lit (text "Coefficient type")) (SResult RNone) None; Entry (lit (text "Number of value(s)")) (SInt 2) None;
      Entry (lit (text "Value(s)")) (SArray (Arr [byte_item 1; byte_item 2])) None;
      Entry (lit (text "Minus Tolerance(s)")) (SArray (Arr (map byte_item plus))) None;
      Entry (lit (text "Plus Tolerance(s)")) (SArray (Arr (map byte_item minus))) None ].
Proof.
  exists dec1, enc1, quiet, order1, sets7, (set7 4), (nth_object sets7 4 0), [3; 4], [5; 6].
  split; [exact sets7_file|]. split; [exact order1_ok|]. split; [exact sets7_sound|]. split; [vm_compute; auto 8|]. split; [vm_compute; auto|]. split; [discriminate|].
  split; [apply (values_some dec1 enc1 _ _ (nth 1 (obj_attrs (nth_object sets7 4 0)) new_attribute) 15 [VNum 3; VNum 4]); [vm_compute; auto|vm_compute; reflexivity|vm_compute; reflexivity|repeat constructor]|].
  split; [apply (values_some dec1 enc1 _ _ (nth 2 (obj_attrs (nth_object sets7 4 0)) new_attribute) 15 [VNum 5; VNum 6]); [vm_compute; auto|vm_compute; reflexivity|vm_compute; reflexivity|repeat constructor]|].
  vm_compute. reflexivity.
Qed.
Print Assumptions C74_tolerances_refuted.

(** objects for which describe gives something else or raises *)
Definition zones8 : bytes :=
  [xf0; x04] ++ text "ZONE" ++ [x34; x0b] ++ text "DESCRIPTION" ++ [x14] ++ [x34; x06] ++ text "DOMAIN" ++ [x13]
  ++ object1' (text "Y") ([x21; x06] ++ text "DOMAIN" ++ [x21; x04] ++ text "TIME") ++ object1' (text "Z") ([x21; x01] ++ text "z" ++ [x21; x04] ++ text "TIME").
Definition channels8 : bytes :=
  [xf0; x07] ++ text "CHANNEL" ++ [x34; x05] ++ text "UNITS" ++ [x1b] ++ [x34; x05] ++ text "EXTRA" ++ [x14]
  ++ object1' (text "A") ([x21; x07] ++ text "SPACING" ++ [x21; x01] ++ text "e") ++ object1' (text "B") ([x21; x01] ++ text "m" ++ [x29; x00]).
Definition frames8 : bytes :=
  [xf0; x05] ++ text "FRAME" ++ [x34; x08] ++ text "CHANNELS" ++ [x17] ++ [x34; x0a] ++ text "INDEX-TYPE" ++ [x13] ++ [x34; x07] ++ text "SPACING" ++ [x0f]
  ++ object1' (text "F") ([x29; x01] ++ name1 (text "A") ++ [x21; x05] ++ text "DEPTH" ++ [x21; x05])
  ++ object1' (text "G") ([x29; x02] ++ name1 (text "N") ++ name1 (text "A") ++ [x21; x05] ++ text "DEPTH" ++ [x21; x05]).
Definition splices8 : bytes :=
  [xf0; x06] ++ text "SPLICE" ++ [x34; x0e] ++ text "OUTPUT-CHANNEL" ++ [x17] ++ object1' (text "S") ([x21] ++ name1 (text "A")) ++ object1' (text "T") ([x21] ++ name1 (text "N")).
Definition parameters8 : bytes :=
  [xf0; x09] ++ text "PARAMETER" ++ [x34; x05] ++ text "ZONES" ++ [x17] ++ [x34; x06] ++ text "VALUES" ++ [x0f]
  ++ object1' (text "Q") ([x29; x02] ++ name1 (text "Y") ++ name1 (text "Z") ++ [x29; x02; x07; x08]).
Definition sets8 : list object_set := sets_of [zones8; channels8; frames8; splices8; parameters8].
Lemma sets8_file : logical_file dec1 enc1 sets8.
Proof.
  split; [|split].
  - repeat (constructor; [vm_compute; reflexivity|]). constructor.
  - repeat (constructor; [vm_compute; discriminate|]). constructor.
  - apply Forall_forall. intros s _. apply kept1.
Qed.
Lemma sets8_sound : sound_file dec1 enc1 quiet sets8.
Proof. apply sound_checked. vm_compute. reflexivity. Qed.
Definition set8 (i : nat) : object_set := nth i sets8 (hd (mk_set 0 [] [] [] [] [] false) sets8).
(** a logical file all of which can be read, and an object in it *)
Definition an_object (dec : bytes -> pystr) (enc : pystr -> bytes) (esc : severity -> bool) (set_order : list pystr -> list pystr) (sets : list object_set) (s : object_set) (o : object) : Prop :=
  logical_file dec enc sets /\ a_set_order set_order /\ sound_file dec enc esc sets /\ In s sets /\ In o (objects_in s).
Definition get (dec : bytes -> pystr) (enc : pystr -> bytes) (esc : severity -> bool) (set_order : list pystr -> list pystr) (sets : list object_set) (o : object) (label : bytes) :=
  snd (snd (getitem dec enc esc set_order (after dec enc esc set_order sets []) (schema_of (promote dec o)) o (lit label))).
Definition described_as (dec : bytes -> pystr) (enc : pystr -> bytes) (esc : severity -> bool) (set_order : list pystr -> list pystr) (sets : list object_set) (o : object) (fmt : bytes) :=
  snd (snd (describe 32 dec enc esc set_order (after dec enc esc set_order sets []) (promote dec o) (map b2z fmt))).
Ltac object8 i j := exists dec1, enc1, quiet, order1, sets8, (set8 i), (nth_object sets8 i j);
  split; [split; [exact sets8_file|split; [exact order1_ok|split; [exact sets8_sound|split; vm_compute; auto 8]]]|].

(** zone.py: the description of a zone is taken for a label.  A zone described as DOMAIN is
    shown with the domain as its description. *)
Theorem C74_zone_refuted : exists dec enc esc set_order sets s o, an_object dec enc esc set_order sets s o /\
  get dec enc esc set_order sets o (text "DESCRIPTION") = Ok (Some (ROne (PText (lit (text "DOMAIN"))))) /\
  described_as dec enc esc set_order sets o (text "he") = Ok
    [ Entry (lit (text "Description")) (one1 (text "TIME")) None; Entry (lit (text "Domain")) (one1 (text "TIME")) None ].
Proof. object8 0%nat 0%nat. split; vm_compute; reflexivity. Qed.
Print Assumptions C74_zone_refuted.

(** frame.py: so are the units of the index.  With the unit SPACING the units shown are 5. *)
Theorem C74_units_refuted : exists dec enc esc set_order sets s o index, an_object dec enc esc set_order sets s o /\
  get dec enc esc set_order sets o (text "CHANNELS") = Ok (Some (RMany [PObject (promote dec index)])) /\
  get dec enc esc set_order sets index (text "UNITS") = Ok (Some (ROne (PText (lit (text "SPACING"))))) /\
  described_as dec enc esc set_order sets o (text "he") = Ok
    [ Section (lit (text "Channel indexing")); Entry (lit (text "Indexed by")) (one1 (text "DEPTH")) None;
      Entry (lit (text "Index units")) (SResult (ROne (PNumber 15 5))) None; Entry (lit (text "Constant spacing")) (SResult (ROne (PNumber 15 5))) None;
      Entry (lit (text "Index channel")) (SResult (ROne (PObject (promote dec index)))) None;
      Section (lit (text "Channels")); Line (SNames [AName (lit (text "A"))]) ].
Proof.
  exists dec1, enc1, quiet, order1, sets8, (set8 2), (nth_object sets8 2 0), (nth_object sets8 1 0).
  split; [split; [exact sets8_file|split; [exact order1_ok|split; [exact sets8_sound|split; vm_compute; auto 8]]]|].
  split; [vm_compute; reflexivity|]. split; vm_compute; reflexivity.
Qed.
Print Assumptions C74_units_refuted.

(** splice.py: describe raises if there is an output channel, but not if there is none *)
Theorem C74_splice_refuted : exists dec enc esc set_order sets s o channel, an_object dec enc esc set_order sets s o /\
  get dec enc esc set_order sets o (text "OUTPUT-CHANNEL") = Ok (Some (ROne (PObject channel))) /\
  described_as dec enc esc set_order sets o [] = Exn.
Proof.
  exists dec1, enc1, quiet, order1, sets8, (set8 3), (nth_object sets8 3 0), (promote dec1 (nth_object sets8 1 0)).
  split; [split; [exact sets8_file|split; [exact order1_ok|split; [exact sets8_sound|split; vm_compute; auto 8]]]|]. split; vm_compute; reflexivity.
Qed.
Print Assumptions C74_splice_refuted.

(** frame.py: describe raises if the first channel is not in the file *)
Theorem C74_index_refuted : exists dec enc esc set_order sets s o channel, an_object dec enc esc set_order sets s o /\
  get dec enc esc set_order sets o (text "CHANNELS") = Ok (Some (RMany [PNone; PObject channel])) /\
  described_as dec enc esc set_order sets o [] = Exn.
Proof.
  exists dec1, enc1, quiet, order1, sets8, (set8 2), (nth_object sets8 2 1), (promote dec1 (nth_object sets8 1 0)).
  split; [split; [exact sets8_file|split; [exact order1_ok|split; [exact sets8_sound|split; vm_compute; auto 8]]]|]. split; vm_compute; reflexivity.
Qed.
Print Assumptions C74_index_refuted.

(** basicobject.py: describe raises if an attribute the class does not know has no value,
    although object[label] is an empty list *)
Theorem C74_stash_refuted : exists dec enc esc set_order sets s o, an_object dec enc esc set_order sets s o /\
  get dec enc esc set_order sets o (text "EXTRA") = Ok (Some (RMany [])) /\
  described_as dec enc esc set_order sets o [] = Exn.
Proof. object8 1%nat 1%nat. split; vm_compute; reflexivity. Qed.
Print Assumptions C74_stash_refuted.

(** parameter.py: the values of a parameter with one for each zone and no dimension are
    described as invalid, and left out if these are excluded *)
Theorem C74_zones_refuted : exists dec enc esc set_order sets s o, an_object dec enc esc set_order sets s o /\
  snd (snd (parameter_values 32 dec enc esc set_order (after dec enc esc set_order sets []) o)) = Ok (Arr [byte_item 7; byte_item 8], false) /\
  described_as dec enc esc set_order sets o (text "hea") = Ok [] /\
  (exists zones, described_as dec enc esc set_order sets o (text "hei") = Ok [ Entry (lit (text "Zones")) (SResult (RMany zones)) None ] /\
     described_as dec enc esc set_order sets o (text "he") = Ok
       [ Entry (lit (text "Zones")) (SResult (RMany zones)) None; Section (lit (text "Invalid dimensions"));
         Entry (lit (text "Value(s)")) (SResult (RMany [PNumber 15 7; PNumber 15 8])) None ]).
Proof.
  object8 4%nat 0%nat. split; [vm_compute; reflexivity|]. split; [vm_compute; reflexivity|].
  exists [PObject (promote dec1 (nth_object sets8 0 0)); PObject (promote dec1 (nth_object sets8 0 1))]. split; vm_compute; reflexivity.
Qed.
Print Assumptions C74_zones_refuted.

(** describe.py: if the reference is a date that does not exist, the samples are shown as
    the reference *)
Definition measurements9 : bytes :=
  [xf0; x17] ++ text "CALIBRATION-MEASUREMENT" ++ [x34; x09] ++ text "DIMENSION" ++ [x0f] ++ [x34; x0b] ++ text "MEASUREMENT" ++ [x0f]
  ++ [x34; x09] ++ text "REFERENCE" ++ [x15] ++ object1' (text "M") ([x21; x01] ++ [x21; x07] ++ [x21; x00; x02; x1f; x00; x00; x00; x00; x00]).
Definition sets9 : list object_set := sets_of [measurements9].
Lemma sets9_file : logical_file dec1 enc1 sets9.
Proof.
  split; [|split].
  - repeat (constructor; [vm_compute; reflexivity|]). constructor.
  - repeat (constructor; [vm_compute; discriminate|]). constructor.
  - apply Forall_forall. intros s _. apply kept1.
Qed.
Theorem C74_date_refuted : exists dec enc esc set_order sets s o t,
  logical_file dec enc sets /\ a_set_order set_order /\ In s sets /\ In o (objects_in s) /\
  (exists lg, stored enc o (lit (text "REFERENCE")) 21 [VTime t] lg) /\ to_pydatetime t = None /\
  values_of dec enc (promote dec o) (lit (text "MEASUREMENT")) [PNumber 15 7] /\
  exists before, described_as dec enc esc set_order sets o (text "he") = Ok (before ++
    [ Entry (lit (text "Value(s)")) (SArray (Arr [byte_item 7])) None;
      Section (lit (text "Invalid dimensions")); Entry (lit (text "Reference")) (SResult (RMany [PNumber 15 7])) None ]).
Proof.
  set (s9 := hd (mk_set 0 [] [] [] [] [] false) sets9).
  exists dec1, enc1, quiet, order1, sets9, s9, (nth_object sets9 0 0), (match at_value (nth 2 (obj_attrs (nth_object sets9 0 0)) new_attribute) with Vec _ [VTime t] => t | _ => mk_dtime 0 0 0 0 0 0 0 0 end).
  split; [exact sets9_file|]. split; [exact order1_ok|]. split; [vm_compute; auto|]. split; [vm_compute; auto|].
  split; [exists (at_log (nth 2 (obj_attrs (nth_object sets9 0 0)) new_attribute)); apply stored_values; vm_compute; auto|]. split; [vm_compute; reflexivity|].
  split; [apply (values_some dec1 enc1 _ _ (nth 1 (obj_attrs (nth_object sets9 0 0)) new_attribute) 15 [VNum 7]); [vm_compute; auto|vm_compute; reflexivity|vm_compute; reflexivity|repeat constructor]|].
  eexists [_; _; _; _]. vm_compute. reflexivity.
Qed.
Print Assumptions C74_date_refuted.
