(** C37: reading attributes of metadata objects.
    C39: the frame of a channel. *)
From Coq Require Import Permutation.
From Verif Require Import Bytes BytesProofs Stream PyBase DlisTypes DlisRecords CommonPy DlisStore SpecDlisStore DlisStoreProofs DlisStoreProofs2 DlisStoreProofs3 DlisStoreProofs5 DlisStoreProofs6 DlisSchema DlisObject SpecDlisObject DlisObjectProofs DlisObjectProofs2 DlisObjectProofs3 DlisObjectProofs4 DlisObjectProofs5 DlisObjectProofs6 PropDlisStore.
Local Open Scope Z_scope.

(** the class tables mention every attribute once, and link only attributes they know *)
Theorem C37_tables : forall o, a_schema (schema_of o) /\
  incl (map fst (sc_linkage (schema_of o))) (map fst (sc_attributes (schema_of o))).
Proof.
  assert (ND : forall l : list pystr, (if list_eq_dec pystr_dec (nodup pystr_dec l) l then true else false) = true -> NoDup l).
  { intros l H. destruct (list_eq_dec _ _ _) as [E|]; [|discriminate]. rewrite <- E. apply NoDup_nodup. }
  assert (OK : forallb (fun e => (if list_eq_dec pystr_dec (nodup pystr_dec (map fst (sc_attributes (snd e)))) (map fst (sc_attributes (snd e))) then true else false)
      && (if list_eq_dec pystr_dec (nodup pystr_dec (map fst (sc_linkage (snd e)))) (map fst (sc_linkage (snd e))) then true else false)
      && forallb (fun k => existsb (pystr_eqb k) (map fst (sc_attributes (snd e)))) (map fst (sc_linkage (snd e)))) schemas = true) by (vm_compute; reflexivity).
  rewrite forallb_forall in OK.
  assert (UN : a_schema unknown_schema /\ incl (map fst (sc_linkage unknown_schema)) (map fst (sc_attributes unknown_schema))).
  { split; [split; constructor|]. intros k []. }
  intros o. unfold schema_of. destruct (po_class o) as [t|]; [|exact UN]. destruct (dict_get t schemas) as [sc|] eqn:G; [|exact UN].
  assert (I : exists k, In (k, sc) schemas).
  { revert G. generalize schemas. intros d. induction d as [|[k v] d IH]; cbn [dict_get]; [discriminate|]. destruct (pystr_eqb t k).
    - intros [= ->]. exists k. left. reflexivity.
    - intros G. destruct (IH G) as (k' & I). exists k'. right. exact I. }
  destruct I as (k & I). specialize (OK _ I). cbn [snd] in OK. rewrite !andb_true_iff in OK. destruct OK as [[O1 O2] O3].
  split; [split; apply ND; assumption|]. intros x Ix. rewrite forallb_forall in O3. apply in_keys. exact (O3 x Ix).
Qed.
Print Assumptions C37_tables.

(** *** C37: reading an attribute of an object of the file, after any history.  The
    values that are stored under the key (none if it is absent or empty) are turned
    into Python values one by one, references into the objects they refer to or None,
    and given the shape of the class's rule: the first for a scalar, its truth for a
    boolean, all for a vector, all in reverse; None or an empty list if there are
    none.
    The full statement has no hypothesis [readable]; it is false for references with
    an empty name and for dates that do not exist (C37_empty_refuted,
    C37_date_refuted). *)
Theorem C37_read_partial : forall dec enc esc set_order sets ops s o sc key r l c vs lg,
  logical_file dec enc sets -> a_set_order set_order -> Forall (op_ok dec enc) ops ->
  In s sets -> In o (objects_in s) -> a_schema sc -> rule_for sc key r -> link_for sc key l ->
  In key (map fst (sc_attributes sc)) \/ In key (map (fun a => dec (at_label a)) (obj_attrs o)) ->
  stored enc o key c vs lg -> calm dec enc esc o (obj_log o) -> calm dec enc esc o lg ->
  Forall (readable dec enc esc sets l) vs ->
  exists xs res, Forall2 (turns dec sets l c) vs xs /\ shaped r xs res /\
    snd (snd (getitem dec enc esc set_order (after dec enc esc set_order sets ops) sc o key)) = Ok (Some res).
Proof.
  intros dec enc esc set_order sets ops s o sc key r l c vs lg (L & P & T) O OK Is Io SC RF LF K ST C1 C2 RD.
  destruct (getitem_ok dec enc esc set_order sets L P O T (after dec enc esc set_order sets ops) sc o key r l c vs lg) as (xs & res & ops' & A & B & D & _); try assumption.
  - apply after_sane; assumption.
  - exact (file_objects sets L s o Is Io).
  - exists xs, res. auto.
Qed.
Print Assumptions C37_read_partial.

(** reading has no effect but that of queries, so that every theorem about histories
    (C35, C36, C37, C39) covers reading attributes too *)
Theorem C37_history : forall dec enc esc set_order sets ops s o sc key r l c vs lg,
  logical_file dec enc sets -> a_set_order set_order -> Forall (op_ok dec enc) ops ->
  In s sets -> In o (objects_in s) -> a_schema sc -> rule_for sc key r -> link_for sc key l ->
  In key (map fst (sc_attributes sc)) \/ In key (map (fun a => dec (at_label a)) (obj_attrs o)) ->
  stored enc o key c vs lg -> calm dec enc esc o (obj_log o) -> calm dec enc esc o lg ->
  Forall (readable dec enc esc sets l) vs ->
  exists ops', Forall (op_ok dec enc) ops' /\
    fst (getitem dec enc esc set_order (after dec enc esc set_order sets ops) sc o key) = after dec enc esc set_order sets (ops ++ ops').
Proof.
  intros dec enc esc set_order sets ops s o sc key r l c vs lg (L & P & T) O OK Is Io SC RF LF K ST C1 C2 RD.
  destruct (getitem_ok dec enc esc set_order sets L P O T (after dec enc esc set_order sets ops) sc o key r l c vs lg) as (xs & res & ops' & _ & _ & _ & B & D); try assumption.
  - apply after_sane; assumption.
  - exact (file_objects sets L s o Is Io).
  - exists ops'. split; [exact B|]. rewrite D. unfold after. rewrite fold_left_app. reflexivity.
Qed.
Print Assumptions C37_history.

(** what is stored is determined by the object, what it turns into by the file *)
Theorem C37_one_result : forall dec sets r l c vs xs xs' res res',
  Forall2 (turns dec sets l c) vs xs -> shaped r xs res -> Forall2 (turns dec sets l c) vs xs' -> shaped r xs' res' -> res = res'.
Proof. exact one_result. Qed.
Print Assumptions C37_one_result.

(** *** KeyError exactly for a key neither the class nor the object knows *)
Theorem C37_keyerror : forall dec enc esc set_order st sc o key,
  snd (snd (getitem dec enc esc set_order st sc o key)) = Ok None <->
  ~ In key (map fst (sc_attributes sc)) /\ ~ In key (map (fun a => dec (at_label a)) (obj_attrs o)).
Proof.
  intros dec enc esc set_order st sc o key. split.
  - intros H. split; intros I; (eapply getitem_known; [|exact H]); auto.
  - intros [N1 N2]. rewrite getitem_unknown by assumption. reflexivity.
Qed.
Print Assumptions C37_keyerror.

(** *** An escalated problem of the object or of the attribute raises *)
Theorem C37_escalates : forall dec enc esc set_order st sets s o sc key p,
  as_loaded sets -> In s sets -> In o (objects_in s) ->
  In key (map fst (sc_attributes sc)) \/ In key (map (fun a => dec (at_label a)) (obj_attrs o)) ->
  In p (obj_log o) \/ (exists a, In a (obj_attrs o) /\ at_label a = enc key /\ In p (at_log a)) ->
  esc (severity_of p) = true ->
  snd (snd (getitem dec enc esc set_order st sc o key)) = Exn.
Proof.
  intros dec enc esc set_order st sets s o sc key p L Is Io. apply getitem_escalates. exact (file_objects sets L s o Is Io).
Qed.
Print Assumptions C37_escalates.

(** *** The stash: the attributes the class does not know, each with its values.  The
    full statement is about all of them; it is false for those without a value
    (C37_stash_refuted). *)
Theorem C37_stash_partial : forall dec enc sets s o sc extra,
  as_loaded sets -> In s sets -> In o (objects_in s) ->
  (forall a, extra a = true <-> unknown_label dec sc a) ->
  (forall a, In a (obj_attrs o) -> extra a = true -> enc (dec (at_label a)) = at_label a /\ has_values a) ->
  exists d, stash dec enc sc o = Some d /\
    map fst d = map (fun a => dec (at_label a)) (filter extra (obj_attrs o)) /\
    Forall2 (fun a e => exists c vs, at_value a = Vec c vs /\ Forall2 (turns dec sets None c) vs (snd e)) (filter extra (obj_attrs o)) d.
Proof.
  intros dec enc sets s o sc extra L Is Io EX H. apply (stash_ok dec enc (fun _ => false)); try assumption. exact (file_objects sets L s o Is Io).
Qed.
Print Assumptions C37_stash_partial.

(** *** C39: channel.frame after any history is the only frame that lists the channel,
    where frames that are the same count as one, and None if there is none or several.
    The full statement is about all references; it is false if one in any frame does
    not resolve (C39_unresolved_refuted). *)
Theorem C39_frame_partial : forall dec enc esc set_order sets ops channel lists,
  logical_file dec enc sets -> a_set_order set_order -> Forall (op_ok dec enc) ops ->
  kept dec enc (lit (text "FRAME")) -> kept dec enc (lit (text "CHANNEL")) ->
  (* no other name reads the same *)
  (forall b, dec b = dec (ob_id (obj_name channel)) -> b = ob_id (obj_name channel)) ->
  (forall f, lists f = true <-> In (obj_name channel) (listed enc f)) ->
  let frames := selected dec (pystr_eqb (lit (text "FRAME"))) (fun _ => true) sets in
  selected_raises dec esc (pystr_eqb (lit (text "FRAME"))) sets = false ->
  (forall f, In f frames -> frame_ok dec enc esc sets f) ->
  exists r, snd (snd (channel_frame dec enc esc set_order (after dec enc esc set_order sets ops) channel)) = Ok r /\
    match r with
    | Some x => exists f, x = promote dec f /\ the_only (filter lists frames) f
    | None => forall f, ~ the_only (filter lists frames) f
    end.
Proof.
  intros dec enc esc set_order sets ops channel lists (L & P & T) O OK KF KC U LS. cbv zeta. intros SR FO.
  apply (channel_frame_ok dec enc esc set_order sets L P O T KF KC (obj_name channel) U lists LS); try assumption; [|reflexivity].
  apply after_sane; assumption.
Qed.
Print Assumptions C39_frame_partial.

(** *** A file: three channels, two frames, one of them twice *)
Definition name1 (n : bytes) : bytes := [x01; x00; z2b (Z.of_nat (length n))] ++ n.
Definition object1' (n : bytes) (attrs : bytes) : bytes := x70 :: name1 n ++ attrs.
Definition channel_set : bytes :=
  [xf0; x07] ++ text "CHANNEL" ++ [x34; x09] ++ text "DIMENSION" ++ [x0f] ++ [x34; x05] ++ text "UNITS" ++ [x1b]
  ++ [x34; x06] ++ text "SOURCE" ++ [x18] ++ [x34; x05] ++ text "EXTRA" ++ [x14]
  ++ object1' (text "A") ([x29; x02; x03; x04] ++ [x21; x04] ++ text " m  "
                          ++ [x21; x05] ++ text "FRAME" ++ name1 (text "F") ++ [x29; x02; x01; x20; x02] ++ text "x ")
  ++ object1' (text "B") ([x00] ++ [x21; x01; x20] ++ [x21; x05] ++ text "FRAME" ++ name1 (text "X") ++ [x29; x00])
  ++ object1' (text "C") [].
Definition frame_set (objects : bytes) : bytes :=
  [xf0; x05] ++ text "FRAME" ++ [x34; x08] ++ text "CHANNELS" ++ [x17] ++ [x34; x09] ++ text "ENCRYPTED" ++ [x02] ++ objects.
Definition frame_F : bytes := object1' (text "F") ([x29; x02] ++ name1 (text "A") ++ name1 (text "B") ++ [x21; x80; x00; x00; x00]).
Definition frame_G : bytes := object1' (text "G") ([x29; x02] ++ name1 (text "B") ++ name1 (text "B") ++ [x21; x7f; xc0; x00; x00]).
Definition sets_of (data : list bytes) : list object_set := flat_map (fun d => match new_set d with Ok s => [s] | _ => [] end) data.
Definition sets2 : list object_set := sets_of [channel_set; frame_set (frame_F ++ frame_G); frame_set frame_F].
Lemma sets2_file : logical_file dec1 enc1 sets2.
Proof.
  split; [|split].
  - repeat (constructor; [vm_compute; reflexivity|]). constructor.
  - repeat (constructor; [vm_compute; discriminate|]). constructor.
  - apply Forall_forall. intros s _. apply kept1.
Qed.
Definition history2 : list operation := [Find (lit (text "FRAME")) (Some (lit (text "F"))) None; Cache false; Cache true].
Definition nth_object (sets : list object_set) (i j : nat) : object :=
  nth j (objects_in (nth i sets (hd (mk_set 0 [] [] [] [] [] false) sets))) (mk_object (mk_obname 0 0 []) [] [] []).
Definition get1 (sets : list object_set) (ops : list operation) (i j : nat) (key : bytes) :=
  let o := nth_object sets i j in
  snd (snd (getitem dec1 enc1 quiet order1 (after dec1 enc1 quiet order1 sets ops) (schema_of (promote dec1 o)) o (lit key))).
Example C37_example :
  get1 sets2 history2 0 0 (text "DIMENSION") = Ok (Some (RMany [PNumber 15 4; PNumber 15 3])) /\
  get1 sets2 history2 0 1 (text "DIMENSION") = Ok (Some (RMany [])) /\
  get1 sets2 history2 0 0 (text "UNITS") = Ok (Some (ROne (PText (lit (text "m"))))) /\
  get1 sets2 history2 0 1 (text "UNITS") = Ok (Some (ROne (PText (lit [])))) /\
  get1 sets2 history2 0 0 (text "SOURCE") = Ok (Some (ROne (PObject (promote dec1 (nth_object sets2 1 0))))) /\
  get1 sets2 history2 0 1 (text "SOURCE") = Ok (Some (ROne PNone)) /\
  get1 sets2 history2 0 2 (text "SOURCE") = Ok (Some RNone) /\
  get1 sets2 history2 0 0 (text "EXTRA") = Ok (Some (RMany [PText (lit []); PText (lit (text "x"))])) /\
  get1 sets2 history2 0 0 (text "PROPERTIES") = Ok (Some (RMany [])) /\
  get1 sets2 history2 0 0 (text "NONE") = Ok None /\
  (* minus zero and NaN *)
  get1 sets2 history2 1 0 (text "ENCRYPTED") = Ok (Some (RBool false)) /\
  get1 sets2 history2 1 1 (text "ENCRYPTED") = Ok (Some (RBool true)) /\
  stash dec1 enc1 channel_schema (nth_object sets2 0 0) = Some [(lit (text "EXTRA"), [PText (lit []); PText (lit (text "x"))])].
Proof. repeat split; vm_compute; reflexivity. Qed.
(** the hypotheses of C37_read_partial, for the source of channel A *)
Example C37_hypotheses :
  let o := nth_object sets2 0 0 in
  let v := VRef (mk_objref (text "FRAME") (mk_obname 1 0 (text "F"))) in
  logical_file dec1 enc1 sets2 /\ Forall (op_ok dec1 enc1) history2 /\
  (exists s, In s sets2 /\ In o (objects_in s)) /\
  a_schema channel_schema /\ rule_for channel_schema (lit (text "SOURCE")) Scalar /\ link_for channel_schema (lit (text "SOURCE")) (Some ToRef) /\
  stored enc1 o (lit (text "SOURCE")) 24 [v] [] /\ calm dec1 enc1 quiet o (obj_log o) /\
  readable dec1 enc1 quiet sets2 (Some ToRef) v /\
  (exists f, the_object dec1 sets2 (lit (text "FRAME")) (mk_obname 1 0 (text "F")) f).
Proof.
  cbv zeta. split; [exact sets2_file|]. split.
  { repeat constructor; try apply kept1; intros x H; discriminate H. }
  split; [exists (hd (mk_set 0 [] [] [] [] [] false) sets2); split; vm_compute; auto|].
  split; [exact (proj1 (C37_tables (promote dec1 (nth_object sets2 0 0))))|].
  split; [left; vm_compute; tauto|]. split; [vm_compute; tauto|].
  split.
  { change (@nil problem) with (at_log (nth 2 (obj_attrs (nth_object sets2 0 0)) new_attribute)). apply stored_values; vm_compute; auto. }
  split; [left; vm_compute; reflexivity|]. split.
  - split; [discriminate|]. intros t n X. inversion X. subst. split; [apply kept1|]. split; [apply kept1|]. split; vm_compute; reflexivity.
  - exists (nth_object sets2 1 0), [nth_object sets2 1 0]. split; [vm_compute; reflexivity|]. right.
    assert (ok : DlisStoreProofs4.attrs_ok (obj_attrs (nth_object sets2 1 0))).
    { apply (DlisStoreProofs5.objects_in_ok sets2 (proj1 sets2_file) (nth 1 sets2 (hd (mk_set 0 [] [] [] [] [] false) sets2))); vm_compute; auto. }
    assert (same : same_object (nth_object sets2 1 0) (nth_object sets2 1 0)).
    { apply (proj1 (DlisStoreProofs4.object_eqb_spec _ _ ok ok)). vm_compute. reflexivity. }
    intros y [<-|[<-|[]]].
    all: exact same.
Qed.

(** *** Findings *)

(** a date attribute of an object that says nothing about its value gets the date
    1900-00-00, which Python refuses: reading it raises *)
Definition origin_set : bytes :=
  [xf0; x06] ++ text "ORIGIN" ++ [x34; x0d] ++ text "CREATION-TIME" ++ [x15] ++ object1' (text "O") [x20].
Theorem C37_date_refuted : exists dec enc esc set_order sets s o,
  logical_file dec enc sets /\ a_set_order set_order /\ In s sets /\ In o (objects_in s) /\
  (forall p, esc p = false) /\ schema_of (promote dec o) = origin_schema /\
  snd (snd (getitem dec enc esc set_order (after dec enc esc set_order sets []) (schema_of (promote dec o)) o (lit (text "CREATION-TIME")))) = Exn.
Proof.
  exists dec1, enc1, quiet, order1, (sets_of [origin_set]), (hd (mk_set 0 [] [] [] [] [] false) (sets_of [origin_set])), (nth_object (sets_of [origin_set]) 0 0).
  split.
  { split; [|split]; [repeat (constructor; [vm_compute; reflexivity|]); constructor|repeat (constructor; [vm_compute; discriminate|]); constructor|].
    apply Forall_forall. intros s _. apply kept1. }
  split; [exact order1_ok|]. repeat split; vm_compute; auto.
Qed.
Print Assumptions C37_date_refuted.

(** without the cache, a reference with an empty name resolves to an object with
    another name *)
Definition frame_E : bytes := object1' (text "E") ([x29; x01] ++ name1 [] ++ [x21; x00; x00; x00; x00]).
Definition one_channel : bytes := [xf0; x07] ++ text "CHANNEL" ++ [x34; x05] ++ text "UNITS" ++ [x1b] ++ object1' (text "A") [].
Theorem C37_empty_refuted : exists dec enc esc set_order sets s o c,
  logical_file dec enc sets /\ a_set_order set_order /\ In s sets /\ In o (objects_in s) /\
  listed enc o = [mk_obname 1 0 []] /\ po_name dec c = lit (text "A") /\
  snd (snd (getitem dec enc esc set_order (after dec enc esc set_order sets [Cache false]) frame_schema o (lit (text "CHANNELS")))) =
    Ok (Some (RMany [PObject c])) /\
  snd (snd (getitem dec enc esc set_order (after dec enc esc set_order sets []) frame_schema o (lit (text "CHANNELS")))) =
    Ok (Some (RMany [PNone])).
Proof.
  exists dec1, enc1, quiet, order1, (sets_of [frame_set frame_E; one_channel]),
    (hd (mk_set 0 [] [] [] [] [] false) (sets_of [frame_set frame_E])), (nth_object (sets_of [frame_set frame_E]) 0 0),
    (promote dec1 (nth_object (sets_of [one_channel]) 0 0)).
  split.
  { split; [|split]; [repeat (constructor; [vm_compute; reflexivity|]); constructor|repeat (constructor; [vm_compute; discriminate|]); constructor|].
    apply Forall_forall. intros s _. apply kept1. }
  split; [exact order1_ok|]. repeat split; vm_compute; auto.
Qed.
Print Assumptions C37_empty_refuted.

(** in a set without a type, an object with a harmless problem cannot be read at all,
    even if no problem is escalated *)
Definition untyped_set : bytes :=
  [xf0; x00] ++ [x34; x01] ++ text "K" ++ [x0f] ++ object1' (text "O") ([x31; x01] ++ text "K" ++ [x05]).
Theorem C37_untyped_refuted : exists dec enc esc set_order sets s o,
  logical_file dec enc sets /\ a_set_order set_order /\ In s sets /\ In o (objects_in s) /\
  (forall p, esc p = false) /\ stored enc o (lit (text "K")) 15 [VNum 1] (at_log (hd new_attribute (obj_attrs o))) /\
  snd (snd (getitem dec enc esc set_order (after dec enc esc set_order sets []) (schema_of (promote dec o)) o (lit (text "K")))) = Exn.
Proof.
  exists dec1, enc1, quiet, order1, (sets_of [untyped_set]), (hd (mk_set 0 [] [] [] [] [] false) (sets_of [untyped_set])), (nth_object (sets_of [untyped_set]) 0 0).
  split.
  { split; [|split]; [repeat (constructor; [vm_compute; reflexivity|]); constructor|repeat (constructor; [vm_compute; discriminate|]); constructor|].
    apply Forall_forall. intros s _. apply kept1. }
  split; [exact order1_ok|]. split; [vm_compute; auto|]. split; [vm_compute; auto|]. split; [reflexivity|]. split; [|vm_compute; reflexivity].
  apply stored_values; vm_compute; auto.
Qed.
Print Assumptions C37_untyped_refuted.

(** an unknown attribute without a value makes the whole stash raise *)
Theorem C37_stash_refuted : exists dec enc sets s o a,
  as_loaded sets /\ In s sets /\ In o (objects_in s) /\ In a (obj_attrs o) /\ unknown_label dec channel_schema a /\
  at_value a = Mono /\ stash dec enc channel_schema o = None.
Proof.
  exists dec1, enc1, sets2, (hd (mk_set 0 [] [] [] [] [] false) sets2), (nth_object sets2 0 1), (nth 2 (obj_attrs (nth_object sets2 0 1)) new_attribute).
  split; [exact (proj1 sets2_file)|]. split; [vm_compute; auto|]. split; [vm_compute; auto|]. split; [vm_compute; auto 6|].
  split; [vm_compute; intuition discriminate|]. split; vm_compute; reflexivity.
Qed.
Print Assumptions C37_stash_refuted.

(** *** C39: A is listed in F, of which there are two copies; B in F and G; C nowhere *)
Definition frame1 (sets : list object_set) (j : nat) :=
  snd (snd (channel_frame dec1 enc1 quiet order1 (after dec1 enc1 quiet order1 sets history2) (nth_object sets 0 j))).
Example C39_example :
  frame1 sets2 0 = Ok (Some (promote dec1 (nth_object sets2 1 0))) /\ frame1 sets2 1 = Ok None /\ frame1 sets2 2 = Ok None /\
  map (fun f => listed enc1 f) (selected dec1 (pystr_eqb (lit (text "FRAME"))) (fun _ => true) sets2) =
    [ [mk_obname 1 0 (text "A"); mk_obname 1 0 (text "B")]; [mk_obname 1 0 (text "B"); mk_obname 1 0 (text "B")];
      [mk_obname 1 0 (text "A"); mk_obname 1 0 (text "B")] ].
Proof. repeat split; vm_compute; reflexivity. Qed.
Example C39_hypotheses :
  (forall b, dec1 b = dec1 (text "A") -> b = text "A") /\
  selected_raises dec1 quiet (pystr_eqb (lit (text "FRAME"))) sets2 = false /\
  (forall f, In f (selected dec1 (pystr_eqb (lit (text "FRAME"))) (fun _ => true) sets2) -> frame_ok dec1 enc1 quiet sets2 f).
Proof.
  split.
  { unfold dec1, lit. intros b E. assert (E' : map b2z b = map b2z (text "A")) by congruence. clear E. revert E'. generalize (text "A"). induction b as [|x b IH]; intros [|y t] E; try discriminate; [reflexivity|].
    cbn [map] in E. injection E as E1 E2. rewrite <- (z2b_b2z x), E1, z2b_b2z, (IH t E2). reflexivity. }
  split; [vm_compute; reflexivity|].
  assert (TO : forall n, In n [text "A"; text "B"] -> exists o, the_object dec1 sets2 (lit (text "CHANNEL")) (mk_obname 1 0 n) o).
  { intros n [<-|[<-|[]]]; eexists; exists []; (split; [vm_compute; reflexivity|left; reflexivity]). }
  assert (ALL : forallb (fun f => match obj_log f with [] => true | _ => false end && forallb (fun a => match at_log a with [] => true | _ => false end &&
     (negb (bytes_eqb (at_label a) (enc1 (lit (text "CHANNELS")))) || match at_value a with Vec _ vs => forallb (fun v => match v with VName (mk_obname 1 0 n) => bytes_eqb n (text "A") || bytes_eqb n (text "B") | _ => false end) vs | Mono => true end)) (obj_attrs f))
     (selected dec1 (pystr_eqb (lit (text "FRAME"))) (fun _ => true) sets2) = true) by (vm_compute; reflexivity).
  rewrite forallb_forall in ALL. intros f If. specialize (ALL f If). apply andb_true_iff in ALL as [L ALL]. rewrite forallb_forall in ALL. split.
  { left. destruct (obj_log f); [reflexivity|discriminate]. }
  intros a Ia La. specialize (ALL a Ia). apply andb_true_iff in ALL as [LA ALL]. split.
  { left. destruct (at_log a); [reflexivity|discriminate]. }
  intros c vs v E Iv. rewrite E in ALL. replace (bytes_eqb _ _) with true in ALL by (symmetry; apply DlisStoreProofs.bytes_eqb_spec; exact La).
  cbn [negb orb] in ALL. rewrite forallb_forall in ALL. specialize (ALL v Iv). destruct v as [| | | |[o cp n]| |]; try discriminate.
  destruct o as [|[|[]|]|]; try discriminate. destruct cp; try discriminate.
  apply orb_true_iff in ALL. rewrite !DlisStoreProofs.bytes_eqb_spec in ALL.
  assert (IN : In n [text "A"; text "B"]) by (cbn; intuition). destruct (TO n IN) as (x & X). exists (mk_obname 1 0 n), x. split; [reflexivity|]. split; [apply kept1|].
  split; [destruct ALL as [->| ->]; reflexivity|]. split; [vm_compute; reflexivity|exact X].
Qed.

(** *** Finding: a reference to a channel that does not exist, in any frame, makes it
    raise for every channel *)
Definition frame_bad : bytes := object1' (text "H") ([x29; x01] ++ name1 (text "MISSING") ++ [x21; x00; x00; x00; x00]).
Theorem C39_unresolved_refuted : exists dec enc esc set_order sets channel f,
  logical_file dec enc sets /\ a_set_order set_order /\ (forall p, esc p = false) /\
  (exists s, In s sets /\ In channel (objects_in s)) /\
  filter (fun f => existsb (obname_eqb (obj_name channel)) (listed enc f)) (selected dec (pystr_eqb (lit (text "FRAME"))) (fun _ => true) sets) = [f] /\
  snd (snd (channel_frame dec enc esc set_order (after dec enc esc set_order sets []) channel)) = Exn.
Proof.
  exists dec1, enc1, quiet, order1, (sets_of [channel_set; frame_set (frame_F ++ frame_bad)]), (nth_object sets2 0 0), (nth_object sets2 1 0).
  split.
  { split; [|split]; [repeat (constructor; [vm_compute; reflexivity|]); constructor|repeat (constructor; [vm_compute; discriminate|]); constructor|].
    apply Forall_forall. intros s _. apply kept1. }
  split; [exact order1_ok|]. split; [reflexivity|].
  split; [exists (hd (mk_set 0 [] [] [] [] [] false) sets2); split; vm_compute; auto|]. split; vm_compute; reflexivity.
Qed.
Print Assumptions C39_unresolved_refuted.
