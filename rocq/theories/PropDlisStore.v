(** C35: queries of objects do not depend on history or caching.
    C36: LogicalFile.object is unambiguous. *)
From Coq Require Import Permutation.
From Verif Require Import Bytes Stream DlisTypes DlisRecords CommonPy DlisStore SpecDlisStore DlisStoreProofs DlisStoreProofs2 DlisStoreProofs3 DlisStoreProofs5 DlisStoreProofs6.
Local Open Scope Z_scope.

(** what is assumed of a logical file: its sets as loaded, records that the parser
    does not leave (see C63), set types that survive the way to C++ and back *)
Definition logical_file dec enc (sets : list object_set) : Prop :=
  as_loaded sets /\ parsable sets /\ Forall (fun s => kept dec enc (dec (os_type s))) sets.

Lemma named_now dec enc esc set_order sets ops name : named ops name -> truthy name = true \/ st_caching (after dec enc esc set_order sets ops) = true.
Proof. rewrite after_caching. intros [[A B]|C]; [left | right; exact C]. destruct name as [[|u l]|[|b l]]; try reflexivity; contradiction. Qed.

(** *** C35: an exact query with a name, after any history: all objects of the type
    with that name, in the order of the file; or the exception of the error handler
    if one of the sets of that type has an escalated problem.  The full statement is
    about all names; it is false for the empty one without the cache
    (C35_empty_refuted). *)
Theorem C35_exact_partial : forall dec enc esc set_order sets ops type name m,
  logical_file dec enc sets -> a_set_order set_order -> Forall (op_ok dec enc) ops ->
  kept dec enc type -> kept dec enc name -> named ops name ->
  (m = None \/ m = Some exact) ->
  snd (snd (store_find dec enc esc set_order (after dec enc esc set_order sets ops) type (Some name) m)) =
  if selected_raises dec esc (pystr_eqb type) sets then Exn
  else Ok (map (promote dec) (selected dec (pystr_eqb type) (pystr_eqb name) sets)).
Proof.
  intros dec enc esc set_order sets ops type name m (L & P & T) O OK K KN TN M.
  apply find_exact; try assumption; try (destruct M as [-> | ->]; reflexivity).
  - apply after_sane; assumption.
  - apply named_now. exact TN.
Qed.
Print Assumptions C35_exact_partial.

(** hence the same answer after any two histories, with and without cache *)
Theorem C35_history : forall dec enc esc set_order sets ops ops' type name m m',
  logical_file dec enc sets -> a_set_order set_order -> Forall (op_ok dec enc) ops -> Forall (op_ok dec enc) ops' ->
  kept dec enc type -> kept dec enc name -> named ops name -> named ops' name ->
  (m = None \/ m = Some exact) -> (m' = None \/ m' = Some exact) ->
  snd (snd (store_find dec enc esc set_order (after dec enc esc set_order sets ops) type (Some name) m)) =
  snd (snd (store_find dec enc esc set_order (after dec enc esc set_order sets ops') type (Some name) m')).
Proof. intros. rewrite !C35_exact_partial by assumption. reflexivity. Qed.
Print Assumptions C35_history.

(** *** Any matcher that does not raise, with and without a name: the objects whose
    type and name match, each once; the order may differ *)
Theorem C35_any : forall dec enc esc set_order sets ops type name m f,
  logical_file dec enc sets -> a_set_order set_order -> Forall (op_ok dec enc) ops ->
  kept dec enc type -> (forall n, name = Some n -> kept dec enc n /\ named ops n) ->
  (forall p c, pm_match m p c = Some (f p c)) -> matcher_ok (Some m) ->
  let result := snd (snd (store_find dec enc esc set_order (after dec enc esc set_order sets ops) type name (Some m))) in
  if selected_raises dec esc (f type) sets then result = Exn
  else exists objs, result = Ok objs /\
         Permutation objs (map (promote dec) (selected dec (f type) (wanted f name) sets)).
Proof.
  intros dec enc esc set_order sets ops type name m f (L & P & T) O OK K KN M ME. cbv zeta.
  apply find_any; try assumption; [apply after_sane; assumption| |].
  - intros n E. destruct (KN n E) as [K1 K2]. split; [exact K1 | apply named_now; exact K2].
  - intros X. exact (ME m eq_refl X).
Qed.
Print Assumptions C35_any.

(** f.channels, f.frames, ..: all objects of the type *)
Theorem C35_objects : forall dec enc esc set_order sets ops type,
  logical_file dec enc sets -> a_set_order set_order -> Forall (op_ok dec enc) ops -> kept dec enc (lit type) ->
  let result := snd (snd (objects_of_type dec enc esc set_order (after dec enc esc set_order sets ops) type)) in
  if selected_raises dec esc (pystr_eqb (lit type)) sets then result = Exn
  else exists objs, result = Ok objs /\
         Permutation objs (map (promote dec) (selected dec (pystr_eqb (lit type)) (fun _ => true) sets)).
Proof.
  intros dec enc esc set_order sets ops type LF O OK K.
  apply (C35_any dec enc esc set_order sets ops (lit type) None exact pystr_eqb LF O OK K); try discriminate; [reflexivity|].
  intros x [= <-] _ p c. reflexivity.
Qed.
Print Assumptions C35_objects.

(** without cache the order is that of the file, for every matcher *)
Theorem C35_uncached : forall dec enc esc set_order sets ops type name m f,
  logical_file dec enc sets -> a_set_order set_order -> Forall (op_ok dec enc) ops -> caching ops = false ->
  kept dec enc type -> (forall n, name = Some n -> kept dec enc n /\ truthy n = true) ->
  (forall p c, pm_match m p c = Some (f p c)) ->
  snd (snd (store_find dec enc esc set_order (after dec enc esc set_order sets ops) type name (Some m))) =
  if selected_raises dec esc (f type) sets then Exn
  else Ok (map (promote dec) (selected dec (f type) (wanted f name) sets)).
Proof.
  intros dec enc esc set_order sets ops type name m f (L & P & T) O OK C K KN M.
  rewrite (find_uncached dec enc esc set_order sets P _ type name (Some m) f); try assumption.
  - destruct name as [n|]; [|reflexivity]. destruct (KN n eq_refl) as [_ ->]. reflexivity.
  - apply after_sane; assumption.
  - intros n E. apply (KN n E).
  - rewrite after_caching. exact C.
Qed.
Print Assumptions C35_uncached.

(** and the empty name stands for all names, for every matcher *)
Theorem C35_empty : forall dec enc esc set_order sets ops type name m f,
  logical_file dec enc sets -> a_set_order set_order -> Forall (op_ok dec enc) ops -> caching ops = false ->
  kept dec enc type -> (name = Str [] \/ name = Raw []) -> kept dec enc name -> (forall p c, pm_match m p c = Some (f p c)) ->
  snd (snd (store_find dec enc esc set_order (after dec enc esc set_order sets ops) type (Some name) (Some m))) =
  if selected_raises dec esc (f type) sets then Exn
  else Ok (map (promote dec) (selected dec (f type) (fun _ => true) sets)).
Proof.
  intros dec enc esc set_order sets ops type name m f (L & P & T) O OK C K E KN M.
  rewrite (find_uncached dec enc esc set_order sets P _ type (Some name) (Some m) f); try assumption.
  - destruct E as [-> | ->]; reflexivity.
  - apply after_sane; assumption.
  - intros n [= <-]. exact KN.
  - rewrite after_caching. exact C.
Qed.
Print Assumptions C35_empty.

(** *** A file: two sets of channels and a file header *)
Definition channels (objects : bytes) : bytes :=
  [xf0; x07] ++ text "CHANNEL" ++ [x34; x03] ++ text "VAL" ++ [x02] ++ objects.
Definition nan_channel (name : bytes) : bytes := [x70; x01; x00; x01] ++ name ++ [x21; x7f; xc0; x00; x00].
Definition example_data : list bytes :=
  [ channels (nan_channel (text "A") ++ [x70; x01; x00; x01] ++ text "B" ++ [x21; x3f; x80; x00; x00]);
    channels (nan_channel (text "A") ++ [x70; x02; x00; x01] ++ text "B" ++ [x21; x40; x00; x00; x00]
              ++ [x70; x01; x00; x00; x21; x00; x00; x00; x00]
              ++ [x70; x01; x00; x01] ++ text "C" ++ [x21; x00; x00; x00; x00]
              ++ [x70; x01; x00; x01] ++ text "C" ++ [x21; x80; x00; x00; x00]);
    [xf0; x0b] ++ text "FILE-HEADER" ++ [x34; x02] ++ text "ID" ++ [x0f; x70; x01; x00; x01] ++ text "H" ++ [x21; x07] ].
Definition example_sets : list object_set :=
  flat_map (fun d => match new_set d with Ok s => [s] | _ => [] end) example_data.
Definition after1 := after dec1 enc1 quiet order1 example_sets.
Definition found (st : store) (type : bytes) (name : option pystr) : res (list (Z * pystr)) :=
  match snd (snd (store_find dec1 enc1 quiet order1 st (lit type) name None)) with
  | Ok l => Ok (map (fun o => (ob_origin (obj_name (po_attic o)), po_name dec1 o)) l)
  | Exn => Exn | UB => UB | Fuel => Fuel
  end.

Lemma example_file : logical_file dec1 enc1 example_sets.
Proof.
  split; [|split].
  - repeat (constructor; [vm_compute; reflexivity|]). constructor.
  - repeat (constructor; [vm_compute; discriminate|]). constructor.
  - apply Forall_forall. intros s _. apply kept1.
Qed.
Definition example_history : list operation :=
  [ Find (lit (text "CHANNEL")) (Some (lit (text "Z"))) None; Cache false; Objects (text "CHANNEL"); Cache true;
    Find (lit (text "CHANNEL")) (Some (lit (text "A"))) (Some exact); Fileheader ].
Example C35_example :
  logical_file dec1 enc1 example_sets /\ a_set_order order1 /\ Forall (op_ok dec1 enc1) example_history /\
  kept dec1 enc1 (lit (text "CHANNEL")) /\ kept dec1 enc1 (lit (text "B")) /\ named [] (Str []) /\
  found (after1 example_history) (text "CHANNEL") (Some (lit (text "B"))) = Ok [(1, lit (text "B")); (2, lit (text "B"))] /\
  (* what a raising handler makes of a damaged set *)
  selected_raises dec1 (fun _ => true) (pystr_eqb (lit (text "CHANNEL")))
    (flat_map (fun d => match new_set d with Ok s => [s] | _ => [] end) [channels (nan_channel (text "A") ++ [x00])]) = true.
Proof.
  split; [exact example_file|]. split; [exact order1_ok|]. split.
  { repeat constructor; try apply kept1; intros x H; try discriminate H; injection H as <-; reflexivity. }
  split; [apply kept1|]. split; [apply kept1|]. split; [right; reflexivity|]. split; vm_compute; reflexivity.
Qed.

(** *** Finding: the order of a query without a name depends on caching *)
Theorem C35_order_refuted : exists dec enc esc set_order sets ops type,
  logical_file dec enc sets /\ a_set_order set_order /\ Forall (op_ok dec enc) ops /\ kept dec enc type /\
  snd (snd (store_find dec enc esc set_order (after dec enc esc set_order sets []) type None None)) <>
  snd (snd (store_find dec enc esc set_order (after dec enc esc set_order sets ops) type None None)).
Proof.
  exists dec1, enc1, quiet, order1, example_sets, [Cache false], (lit (text "CHANNEL")).
  split; [exact example_file|]. split; [exact order1_ok|]. split; [repeat constructor|]. split; [apply kept1|].
  intros H.
  assert (E : found (after1 []) (text "CHANNEL") None = found (after1 [Cache false]) (text "CHANNEL") None).
  { unfold found, after1. rewrite H. reflexivity. }
  vm_compute in E. discriminate E.
Qed.
Print Assumptions C35_order_refuted.

(** *** Finding: the list that an exact query returns is the one in the cache.  If the
    caller empties it, the object is gone. *)
Theorem C35_shared_refuted : exists dec enc esc set_order sets type name st l o,
  logical_file dec enc sets /\ a_set_order set_order /\ kept dec enc type /\ kept dec enc name /\ name <> Str [] /\
  store_find dec enc esc set_order (after dec enc esc set_order sets []) type (Some name) (Some exact) = (st, ([], Ok l)) /\
  snd (snd (lf_object dec enc esc set_order st type name None None)) = Ok (Some o) /\
  snd (snd (lf_object dec enc esc set_order (alter st type name []) type name None None)) = Ok None.
Proof.
  exists dec1, enc1, quiet, order1, example_sets, (lit (text "CHANNEL")), (lit (text "C")). eexists. eexists. eexists.
  split; [exact example_file|]. split; [exact order1_ok|]. split; [apply kept1|]. split; [apply kept1|]. split; [discriminate|].
  split; [vm_compute; reflexivity|]. split; vm_compute; reflexivity.
Qed.
Print Assumptions C35_shared_refuted.

(** *** Finding: the empty name means "any name" without the cache and "no name" with
    it, so the objects themselves differ *)
Theorem C35_empty_refuted : exists dec enc esc set_order sets type,
  logical_file dec enc sets /\ a_set_order set_order /\ kept dec enc type /\
  exists l l',
    snd (snd (store_find dec enc esc set_order (after dec enc esc set_order sets []) type (Some (Str [])) None)) = Ok l /\
    snd (snd (store_find dec enc esc set_order (after dec enc esc set_order sets [Cache false]) type (Some (Str [])) None)) = Ok l' /\
    length l = 1%nat /\ length l' = 7%nat.
Proof.
  exists dec1, enc1, quiet, order1, example_sets, (lit (text "CHANNEL")).
  split; [exact example_file|]. split; [exact order1_ok|]. split; [apply kept1|].
  eexists. eexists. split; [vm_compute; reflexivity|]. split; [vm_compute; reflexivity|]. split; reflexivity.
Qed.
Print Assumptions C35_empty_refuted.

(** *** C36: what object() returns meets every criterion, and every other object that
    does so is the same; raised (None) if there is none or if two differ.  The full
    statement is about all names; it is false for the empty one without the cache
    (C36_empty_refuted). *)
Theorem C36_found_partial : forall dec enc esc set_order sets ops type name origin copynr x,
  logical_file dec enc sets -> a_set_order set_order -> Forall (op_ok dec enc) ops ->
  kept dec enc type -> kept dec enc name -> named ops name ->
  snd (snd (lf_object dec enc esc set_order (after dec enc esc set_order sets ops) type name origin copynr)) = Ok (Some x) ->
  exists s o, In s sets /\ dec (os_type s) = type /\ In o (objects_in s) /\ x = promote dec o /\
    dec (ob_id (obj_name o)) = name /\
    (forall z, origin = Some z -> ob_origin (obj_name o) = z) /\ (forall z, copynr = Some z -> ob_copy (obj_name o) = z).
Proof.
  intros dec enc esc set_order sets ops type name origin copynr x (L & P & T) O OK K KN TN H.
  rewrite (lf_object_result dec enc esc set_order sets P) in H by (try assumption; try (apply named_now; assumption); apply after_sane; assumption).
  destruct (selected_raises _ _ _ sets); [discriminate|]. injection H as H. apply choice_spec in H as (o & rest & E & -> & _); [|exact L].
  assert (Io : In o (candidates dec type name origin copynr sets)) by (rewrite E; left; reflexivity).
  unfold candidates in Io. apply filter_In in Io as [Io A]. apply andb_true_iff in A as [A1 A2].
  apply in_flat_map in Io as (s & Is & Io). apply filter_In in Is as [Is Es]. apply filter_In in Io as [Io En].
  apply pystr_eqb_spec in Es, En. exists s, o. repeat split; try assumption; try (symmetry; assumption).
  - intros z ->. apply Z.eqb_eq. exact A1.
  - intros z ->. apply Z.eqb_eq. exact A2.
Qed.
Print Assumptions C36_found_partial.

(** exactly when it raises: the candidates are taken in the order of the file, the
    first is returned if there is no other or all are the same *)
Theorem C36_object_partial : forall dec enc esc set_order sets ops type name origin copynr,
  logical_file dec enc sets -> a_set_order set_order -> Forall (op_ok dec enc) ops ->
  kept dec enc type -> kept dec enc name -> named ops name ->
  let result := snd (snd (lf_object dec enc esc set_order (after dec enc esc set_order sets ops) type name origin copynr)) in
  if selected_raises dec esc (pystr_eqb type) sets then result = Exn
  else match candidates dec type name origin copynr sets with
       | [] => result = Ok None
       | [o] => result = Ok (Some (promote dec o))
       | o :: rest => (forall y, In y (o :: rest) -> same_object y o) /\ result = Ok (Some (promote dec o))
                      \/ ~ (forall y, In y (o :: rest) -> same_object y o) /\ result = Ok None
       end.
Proof.
  intros dec enc esc set_order sets ops type name origin copynr (L & P & T) O OK K KN TN. cbv zeta.
  rewrite (lf_object_result dec enc esc set_order sets P) by (try assumption; try (apply named_now; assumption); apply after_sane; assumption).
  destruct (selected_raises _ _ _ sets); [reflexivity|].
  pose proof (choice_spec dec sets L type name origin copynr) as C.
  destruct (candidates dec type name origin copynr sets) as [|o [|o' l]]; [reflexivity..|].
  destruct (choice dec (o :: o' :: l)) as [x|] eqn:E.
  - left. destruct (proj1 (C x) eq_refl) as (o1 & r & [= <- <-] & -> & [D|D]); [discriminate|]. auto.
  - right. split; [|reflexivity]. intros D. assert (X : None = Some (promote dec o)); [|discriminate].
    apply C. exists o, (o' :: l). auto.
Qed.
Print Assumptions C36_object_partial.

(** *** fileheader: the one object of that type, None if there is none or several *)
Theorem C36_fileheader : forall dec enc esc set_order sets ops,
  logical_file dec enc sets -> a_set_order set_order -> Forall (op_ok dec enc) ops -> kept dec enc (lit (text "FILE-HEADER")) ->
  snd (snd (fileheader dec enc esc set_order (after dec enc esc set_order sets ops))) =
  if selected_raises dec esc (pystr_eqb (lit (text "FILE-HEADER"))) sets then Exn
  else Ok (match selected dec (pystr_eqb (lit (text "FILE-HEADER"))) (fun _ => true) sets with
           | [o] => Some (promote dec o) | _ => None end).
Proof.
  intros dec enc esc set_order sets ops (L & P & T) O OK K. apply fileheader_result; try assumption. apply after_sane; assumption.
Qed.
Print Assumptions C36_fileheader.

(** the zeros are equal, so the two Cs are the same object; B is ambiguous unless the
    origin is given; D does not exist *)
Definition object1 (name : bytes) (origin copynr : option Z) : res (option (Z * list values)) :=
  match snd (snd (lf_object dec1 enc1 quiet order1 (after1 example_history) (lit (text "CHANNEL")) (lit name) origin copynr)) with
  | Ok None => Ok None
  | Ok (Some o) => Ok (Some (ob_origin (obj_name (po_attic o)), map at_value (obj_attrs (po_attic o))))
  | Exn => Exn | UB => UB | Fuel => Fuel
  end.
Example C36_example :
  object1 (text "C") None None = Ok (Some (1, [Vec 2 [VNum 0]])) /\
  object1 (text "B") None None = Ok None /\
  object1 (text "B") (Some 2) (Some 0) = Ok (Some (2, [Vec 2 [VNum 0x40000000]])) /\
  object1 (text "B") (Some 2) (Some 1) = Ok None /\
  object1 (text "D") None None = Ok None /\
  po_class (promote dec1 (mk_object (mk_obname 0 0 []) (text "CHANNEL") [] [])) = Some (lit (text "CHANNEL")).
Proof. repeat split; vm_compute; reflexivity. Qed.

(** *** Finding: a redundant copy, equal in every byte, makes the object ambiguous when
    one of its numbers is NaN *)
Theorem C36_nan_refuted : exists dec enc esc set_order sets type name o,
  logical_file dec enc sets /\ a_set_order set_order /\ kept dec enc type /\ kept dec enc name /\ truthy name = true /\
  candidates dec type name None None sets = [o; o] /\
  snd (snd (lf_object dec enc esc set_order (after dec enc esc set_order sets []) type name None None)) = Ok None.
Proof.
  exists dec1, enc1, quiet, order1, example_sets, (lit (text "CHANNEL")), (lit (text "A")),
    (hd (mk_object (mk_obname 0 0 []) [] [] []) (selected dec1 (pystr_eqb (lit (text "CHANNEL"))) (pystr_eqb (lit (text "A"))) example_sets)).
  split; [exact example_file|]. split; [exact order1_ok|]. split; [apply kept1|]. split; [apply kept1|]. split; [reflexivity|].
  assert (S : exists o, selected dec1 (pystr_eqb (lit (text "CHANNEL"))) (pystr_eqb (lit (text "A"))) example_sets = [o; o])
    by (eexists; vm_compute; reflexivity).
  destruct S as [o S]. unfold candidates. rewrite S. split; [reflexivity|]. vm_compute. reflexivity.
Qed.
Print Assumptions C36_nan_refuted.

(** *** Finding: without the cache, the empty name finds an object with another name *)
Theorem C36_empty_refuted : exists dec enc esc set_order sets type o,
  logical_file dec enc sets /\ a_set_order set_order /\ kept dec enc type /\
  snd (snd (lf_object dec enc esc set_order (after dec enc esc set_order sets [Cache false]) type (Str []) None None)) = Ok (Some o) /\
  po_name dec o = lit (text "H").
Proof.
  exists dec1, enc1, quiet, order1, example_sets, (lit (text "FILE-HEADER")). eexists.
  split; [exact example_file|]. split; [exact order1_ok|]. split; [apply kept1|]. split; [vm_compute; reflexivity|reflexivity].
Qed.
Print Assumptions C36_empty_refuted.
