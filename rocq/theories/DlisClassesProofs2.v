(** Proofs about the documented properties of classes, and about groups and coordinates. *)
From Verif Require Import Bytes BytesProofs Stream PyBase DlisTypes DlisCore SpecTypes DlisRecords CommonPy DlisStore SpecDlisStore DlisStoreProofs DlisStoreProofs2 DlisStoreProofs3 DlisStoreProofs4
  DlisStoreProofs5 DlisSchema DlisObject SpecDlisObject DlisObjectProofs DlisObjectProofs2 DlisObjectProofs3 DlisObjectProofs6 DlisCurves SpecDlisCurves DlisCurvesProofs DlisClasses SpecDlisClasses DlisClassesProofs.
Local Open Scope Z_scope.

(** ** The tables agree with the documentation *)
Definition rule_of (r : reading) : rule := match r with One => Scalar | Many => Vector | Reversed => Reverse | Truth => Boolean end.
Lemma shaped_presented r xs res : shaped (rule_of r) xs res -> presented r xs res.
Proof. destruct r; inversion 1; constructor; assumption. Qed.
Definition link_eqb (a b : option link) : bool :=
  match a, b with
  | Some (ToName t), Some (ToName u) => pystr_eqb t u
  | Some ToRef, Some ToRef | None, None => true
  | _, _ => false
  end.
Lemma link_eqb_eq a b : link_eqb a b = true -> a = b.
Proof. destruct a as [[t|]|], b as [[u|]|]; cbn; try discriminate; try reflexivity. intros E. apply pystr_eqb_spec in E. subst u. reflexivity. Qed.
Definition rule_eqb (a b : rule) : bool :=
  match a, b with Boolean, Boolean | Scalar, Scalar | Vector, Vector | Reverse, Reverse => true | _, _ => false end.
Lemma rule_eqb_eq a b : rule_eqb a b = true -> a = b.
Proof. destruct a, b; cbn; congruence. Qed.
Fixpoint distinct (l : list pystr) : bool := match l with [] => true | x :: l => negb (existsb (pystr_eqb x) l) && distinct l end.
Lemma distinct_nodup l : distinct l = true -> NoDup l.
Proof.
  induction l as [|x l IH]; cbn [distinct]; intros H; constructor; apply andb_true_iff in H as [H1 H2]; [|exact (IH H2)].
  intros I. apply in_keys in I. rewrite I in H1. discriminate.
Qed.
Lemma dict_get_some {A} k (d : list (pystr * A)) v : dict_get k d = Some v -> In (k, v) d.
Proof.
  induction d as [|[k' v'] d IH]; cbn [dict_get In]; [discriminate|]. destruct (pystr_eqb k k') eqn:E; [|auto].
  apply pystr_eqb_spec in E. subst k'. intros [= ->]. auto.
Qed.
Lemma dict_get_none {A} k (d : list (pystr * A)) : dict_get k d = None -> ~ In k (map fst d).
Proof.
  induction d as [|[k' v'] d IH]; cbn [dict_get map fst In]; [auto|]. destruct (pystr_eqb k k') eqn:E; [discriminate|].
  intros N [->|I]; [rewrite (proj2 (pystr_eqb_spec k k) eq_refl) in E; discriminate|exact (IH N I)].
Qed.

Definition check (class : pystr) (d : documented) : bool :=
  known class &&
  match dict_get class all_properties, dict_get class schemas with
  | Some table, Some sc =>
      match dict_get (dc_name d) table, dict_get (dc_label d) (sc_attributes sc) with
      | Some label, Some r => pystr_eqb label (dc_label d) && rule_eqb r (rule_of (dc_reading d))
      | _, _ => false
      end && link_eqb (dict_get (dc_label d) (sc_linkage sc)) (dc_links d)
      && distinct (map fst (sc_attributes sc)) && distinct (map fst (sc_linkage sc))
  | _, _ => false
  end.
Lemma tables_checked : forallb (fun p => forallb (check (fst p)) (snd p)) documentation = true.
Proof. vm_compute. reflexivity. Qed.
Lemma documented_ok class docs d : In (class, docs) documentation -> In d docs ->
  standard class /\ exists table sc, dict_get class all_properties = Some table /\ dict_get class schemas = Some sc /\
    dict_get (dc_name d) table = Some (dc_label d) /\ a_schema sc /\ rule_for sc (dc_label d) (rule_of (dc_reading d)) /\
    link_for sc (dc_label d) (dc_links d) /\ In (dc_label d) (map fst (sc_attributes sc)).
Proof.
  intros I1 I2. pose proof tables_checked as C. rewrite forallb_forall in C. specialize (C _ I1). cbn [fst snd] in C. rewrite forallb_forall in C. specialize (C _ I2).
  unfold check in C. apply andb_true_iff in C as [K C]. split; [apply known_standard; exact K|].
  destruct (dict_get class all_properties) as [table|]; [|discriminate]. destruct (dict_get class schemas) as [sc|]; [|discriminate].
  exists table, sc. split; [reflexivity|]. split; [reflexivity|].
  apply andb_true_iff in C as [C D2]. apply andb_true_iff in C as [C D1]. apply andb_true_iff in C as [C L].
  destruct (dict_get (dc_name d) table) as [label|]; [|discriminate]. destruct (dict_get (dc_label d) (sc_attributes sc)) as [r|] eqn:R; [|discriminate].
  apply andb_true_iff in C as [C1 C2]. apply pystr_eqb_spec in C1. subst label. apply rule_eqb_eq in C2. subst r.
  apply dict_get_some in R. split; [reflexivity|]. split; [split; apply distinct_nodup; assumption|]. split; [left; exact R|]. split.
  - apply link_eqb_eq in L. unfold link_for. destruct (dc_links d) as [x|]; [apply dict_get_some; exact L|apply dict_get_none; exact L].
  - apply in_map_iff. exists (dc_label d, rule_of (dc_reading d)). auto.
Qed.
Lemma misnamed_checked : forallb (fun p => match dict_get (fst p) all_properties with
  | Some table => match dict_get (snd p) table with Some _ => false | None => true end | None => true end) misnamed = true.
Proof. vm_compute. reflexivity. Qed.

Lemma group_schema_ok : a_schema group_schema.
Proof. split; apply distinct_nodup; vm_compute; reflexivity. Qed.

Section classes.
Variable dec : bytes -> pystr.
Variable enc : pystr -> bytes.
Variable esc : severity -> bool.
Variable set_order : list pystr -> list pystr.
Variable sets : list object_set.
Hypothesis loaded : as_loaded sets.
Hypothesis parses : parsable sets.
Hypothesis order : a_set_order set_order.
Hypothesis typed : Forall (fun s => SpecDlisStore.kept dec enc (dec (os_type s))) sets.
Local Notation sane := (sane dec esc sets).
Local Notation turns := (turns dec sets).
Local Notation readable := (readable dec enc esc sets).
Local Notation performs := (fold_left (perform dec enc esc set_order)).
Local Notation getitem := (getitem dec enc esc set_order).

Lemma property_ok st s o class docs d c vs lg : sane st -> In s sets -> In o (objects_in s) -> dec (os_type s) = class ->
  In (class, docs) documentation -> In d docs ->
  stored enc o (dc_label d) c vs lg -> calm dec enc esc o (obj_log o) -> calm dec enc esc o lg -> Forall (readable (dc_links d)) vs ->
  exists xs res ops l, Forall2 (turns (dc_links d) c) vs xs /\ presented (dc_reading d) xs res /\ Forall (op_ok dec enc) ops /\
    property dec enc esc set_order st (promote dec o) (dc_name d) = Some (performs ops st, (l, Ok (Some res))).
Proof.
  intros SA Is Io TY I1 I2 ST C1 C2 RD. destruct (documented_ok class docs d I1 I2) as (S & table & sc & P & SC & L & AS & RF & LF & K).
  assert (PC : po_class (promote dec o) = Some class).
  { apply class_spec. split; [|exact S]. rewrite (objects_in_type sets loaded s o Is Io). auto. }
  destruct (getitem_ok dec enc esc set_order sets loaded parses order typed st sc o (dc_label d) (rule_of (dc_reading d)) (dc_links d) c vs lg SA) as (xs & res & ops & T & SH & R & O & E); try assumption.
  { exact (file_objects sets loaded s o Is Io). }
  { left. exact K. }
  unfold property, schema_of. rewrite PC. cbn [obind]. rewrite P, SC. cbn [obind]. rewrite L. cbn [obind]. change (po_attic (promote dec o)) with o.
  destruct (getitem st sc o (dc_label d)) as [st' [l r]]. cbn [fst snd] in R, E. subst r st'.
  exists xs, res, ops, l. split; [exact T|]. split; [apply shaped_presented; exact SH|]. split; [exact O|reflexivity].
Qed.
Lemma misnamed_none st o class name : In (class, name) misnamed -> dec (obj_type o) = class -> property dec enc esc set_order st (promote dec o) name = None.
Proof.
  intros I T. pose proof misnamed_checked as C. rewrite forallb_forall in C. specialize (C _ I). cbn [fst snd] in C. unfold property.
  destruct (po_class (promote dec o)) as [t|] eqn:PC; cbn [obind]; [|reflexivity]. apply class_spec in PC as [-> _]. rewrite T.
  destruct (dict_get class all_properties) as [table|]; cbn [obind]; [|reflexivity]. destruct (dict_get name table); [discriminate|reflexivity].
Qed.

(** ** Groups *)
Local Notation list_label := (lit (text "OBJECT-LIST")).
Lemma linked_twice t t' : linked_to (linked_to group_schema t) t' = linked_to group_schema t'.
Proof. reflexivity. Qed.
Lemma linked_ok t : a_schema (linked_to group_schema t).
Proof. split; apply distinct_nodup; vm_compute; reflexivity. Qed.
Lemma linked_link t : link_for (linked_to group_schema t) list_label (Some (ToName t)).
Proof. left. reflexivity. Qed.

(** the tables of an instance *)
Lemma tables_form o sc : tables dec enc esc set_order o sc ->
  sc = group_schema \/
  (exists t, sc = linked_to group_schema t) /\ exists a n ps, attic_get enc o list_label = Some a /\ attribute_value dec a = Some (Some (PName n :: ps)).
Proof.
  induction 1 as [|st sc T IH]; [left; reflexivity|]. unfold group_objects.
  destruct (attic_get enc o list_label) as [a|] eqn:EA; [|exact IH].
  destruct (attribute_value dec a) as [[[|p ps]|]|] eqn:EV; try exact IH.
  assert (NEW : forall t, (exists t', linked_to sc t = linked_to group_schema t') ).
  { intros t. destruct IH as [->|[(t' & ->) _]]; [exists t; reflexivity|exists t; apply linked_twice]. }
  destruct p as [| | | |n| | | |]; try exact IH.
  destruct (DlisObject.getitem dec enc esc set_order st sc o (lit (text "OBJECT-TYPE"))) as [st' [l [[[|[| |t| | | | | |]| |]|]| | |]]]; try exact IH.
  destruct (DlisObject.getitem dec enc esc set_order st' (linked_to sc t) o list_label) as [st'' [l' r']]. cbn [fst].
  right. split; [apply NEW|]. exists a, n, ps. auto.
Qed.

Lemma text_turns s c p l : turns l c (VText s) p -> exists t, p = PText t /\ text_of dec s t.
Proof.
  inversion 1 as [| |s' u v D T|s' b D| |v t n o R|v N R Q| | |]; subst.
  - eexists. split; [reflexivity|]. eapply str_of; eassumption.
  - eexists. split; [reflexivity|]. apply raw_of. exact D.
  - inversion R.
  - discriminate R.
Qed.
Lemma text_unique s t t' : text_of dec s t -> text_of dec s t' -> t = t'.
Proof.
  assert (T : forall t, text_of dec s t -> Forall2 (turns None 0) [VText s] [PText t]).
  { intros x [u v D T|b D]; (constructor; [|constructor]); [eapply turn_text; eassumption|apply turn_bytes; exact D]. }
  intros A B. pose proof (one_result dec sets Scalar None 0 [VText s] _ _ (ROne (PText t)) (ROne (PText t')) (T _ A) (a_scalar _ _) (T _ B) (a_scalar _ _)) as E. congruence.
Qed.

Lemma stored_get o key c vs lg : from_file o -> stored enc o key c vs lg -> (vs = [] -> ~ valueless enc o key) ->
  match attic_get enc o key with
  | None => vs = []
  | Some a => exists c', at_value a = Vec c' vs /\ (vs <> [] -> c' = c)
  end.
Proof.
  intros (_ & FU & _) ST NV. unfold attic_get. destruct ST as [c N|c a Ia La Va|a c vs Ia La Va].
  - rewrite (attr_at_out _ _ N). reflexivity.
  - exfalso. apply (NV eq_refl). exists a. auto.
  - rewrite (attr_at_in _ _ a FU Ia La). exists c. auto.
Qed.
Lemma readable_texts ss : Forall (readable None) (map VText ss).
Proof. apply Forall_forall. intros v I. apply in_map_iff in I as (s & <- & _). split; [discriminate|]. intros t n R. inversion R. Qed.
Lemma type_rule sc : sc = group_schema \/ (exists t, sc = linked_to group_schema t) ->
  a_schema sc /\ rule_for sc (lit (text "OBJECT-TYPE")) Scalar /\ link_for sc (lit (text "OBJECT-TYPE")) None /\ In (lit (text "OBJECT-TYPE")) (map fst (sc_attributes sc)) /\
  rule_for sc list_label Vector /\ In list_label (map fst (sc_attributes sc)).
Proof.
  assert (H : forall l, map fst l = map fst (sc_linkage group_schema) ->
    rule_for (mk_schema (sc_attributes group_schema) l) (lit (text "OBJECT-TYPE")) Scalar /\ link_for (mk_schema (sc_attributes group_schema) l) (lit (text "OBJECT-TYPE")) None /\
    In (lit (text "OBJECT-TYPE")) (map fst (sc_attributes group_schema)) /\ rule_for (mk_schema (sc_attributes group_schema) l) list_label Vector /\ In list_label (map fst (sc_attributes group_schema))).
  { intros l E. unfold rule_for, link_for. cbn [sc_attributes sc_linkage]. rewrite E. cbn [group_schema sc_attributes sc_linkage map fst In].
    split; [left; tauto|]. split; [intros [X|[X|[]]]; discriminate X|]. split; [tauto|]. split; [left; tauto|tauto]. }
  intros [->|(t & ->)]; [split; [exact group_schema_ok|exact (H _ eq_refl)]|split; [exact (linked_ok t)|exact (H _ eq_refl)]].
Qed.
Lemma group_ok st sc o c vs lg l : sane st -> from_file o -> tables dec enc esc set_order o sc ->
  stored enc o list_label c vs lg -> ~ valueless enc o list_label -> calm dec enc esc o (obj_log o) -> calm dec enc esc o lg ->
  vs = [] \/ members_link dec enc esc o vs l -> Forall (readable l) vs ->
  exists xs ops lgs, Forall2 (turns l c) vs xs /\ Forall (op_ok dec enc) ops /\
    snd (group_objects dec enc esc set_order st sc o) = (performs ops st, (lgs, Ok (Some (RMany xs)))).
Proof.
  intros SA F TB ST NV C1 C2 ML RD. pose proof (stored_get o list_label c vs lg F ST (fun _ => NV)) as SG. pose proof (tables_form o sc TB) as TF. unfold group_objects.
  assert (SCF : sc = group_schema \/ (exists t, sc = linked_to group_schema t)) by (destruct TF as [?|[? _]]; auto).
  destruct (type_rule sc SCF) as (AS & R1 & L1 & K1 & R2 & K2).
  assert (NIL : vs = [] -> exists xs ops lgs, Forall2 (turns l c) vs xs /\ Forall (op_ok dec enc) ops /\ (st, ret (Some (RMany [] : result))) = (performs ops st, (lgs, Ok (Some (RMany xs))))).
  { intros ->. exists [], [], []. repeat split; constructor. }
  destruct (attic_get enc o list_label) as [a|] eqn:EA; [|exact (NIL SG)].
  destruct SG as (c' & EV & CC).
  destruct (converts dec enc esc sets l c' vs RD) as (ps & M & LN).
  assert (AV : attribute_value dec a = Some (Some ps)) by (unfold attribute_value; rewrite EV, M; reflexivity).
  rewrite AV. destruct vs as [|v vs]; [destruct ps; [exact (NIL eq_refl)|discriminate LN]|]. destruct ps as [|p ps]; [discriminate LN|].
  destruct ML as [ML|ML]; [discriminate ML|]. assert (c' = c) as -> by (apply CC; discriminate). clear CC NIL.
  assert (TP : to_py dec c v = Some p).
  { cbn [map_opt] in M. destruct (to_py dec c v) as [p'|]; cbn [obind] in M; [|discriminate]. destruct (map_opt (to_py dec c) vs); cbn [obind] in M; [|discriminate]. congruence. }
  inversion ML as [n vs' c0 ty more lg0 t ST0 CL TX|v' vs' NN]; subst.
  - cbn [to_py] in TP. injection TP as <-.
    destruct (getitem_ok dec enc esc set_order sets loaded parses order typed st sc o (lit (text "OBJECT-TYPE")) Scalar None c0 (map VText (ty :: more)) lg0 SA F AS R1 L1 (or_introl K1) ST0 C1 CL (readable_texts _))
      as (xs & res & ops & T & S & R & O & E).
    destruct (getitem st sc o (lit (text "OBJECT-TYPE"))) as [st1 [l1 r1]]. cbn [fst snd] in R, E. subst r1 st1.
    cbn [map] in T. inversion T as [|v0 x0 vs0 xs0 T1 T2]; subst. inversion S; subst. apply text_turns in T1 as (t1 & -> & TX1). rewrite (text_unique _ _ _ TX1 TX). cbv zeta.
    assert (SL : linked_to sc t = linked_to group_schema t) by (destruct SCF as [->|(t0 & ->)]; [reflexivity|apply linked_twice]). rewrite SL.
    destruct (type_rule (linked_to group_schema t) (or_intror (ex_intro _ t eq_refl))) as (AS' & _ & _ & _ & R2' & K2').
    destruct (getitem_ok dec enc esc set_order sets loaded parses order typed (performs ops st) (linked_to group_schema t) o list_label Vector (Some (ToName t)) c (VName n :: vs) lg) as (ys & res & ops' & T' & S' & R' & O' & E'); try assumption.
    { apply performs_sane; assumption. }
    { apply linked_link. }
    { left. exact K2'. }
    destruct (getitem (performs ops st) (linked_to group_schema t) o list_label) as [st2 [l2 r2]]. cbn [fst snd] in R', E' |- *. subst r2 st2. inversion S'; subst.
    exists ys, (ops ++ ops'), (l1 ++ l2). split; [exact T'|]. split; [apply Forall_app; auto|]. rewrite fold_left_app. reflexivity.
  - assert (sc = group_schema) as ->.
    { destruct TF as [->|[_ (a' & n & ps' & EA' & AV')]]; [reflexivity|]. exfalso. assert (a' = a) by congruence. subst a'. assert (p = PName n) by congruence. subst p.
      destruct v as [| | |tm| | |]; cbn [to_py] in TP; try congruence. destruct (to_pydatetime tm); cbn [obind] in TP; congruence. }
    assert (LR : link_for group_schema list_label (Some ToRef)) by (left; reflexivity).
    destruct (getitem_ok dec enc esc set_order sets loaded parses order typed st group_schema o list_label Vector (Some ToRef) c (v :: vs) lg) as (ys & res & ops & T & S & R & O & E); try assumption.
    { left. exact K2. }
    destruct (getitem st group_schema o list_label) as [st2 [l2 r2]] eqn:G. cbn [fst snd] in R, E. subst r2 st2. inversion S; subst.
    assert (NP : forall n, p <> PName n).
    { intros n ->. destruct v as [| | |tm| | |]; cbn [to_py] in TP; try congruence. destruct (to_pydatetime tm); cbn [obind] in TP; congruence. }
    exists ys, ops, l2. split; [exact T|]. split; [exact O|].
    destruct p; try reflexivity. exfalso. exact (NP _ eq_refl).
Qed.

(** ** Coordinates *)
Lemma plainly_py c v p : to_py dec c v = Some p <-> plainly dec c v p.
Proof.
  destruct v as [z|zs|s|t|n|r|a]; cbn [to_py]; (split; [|inversion 1; subst; try reflexivity]);
    try (intros [= <-]; constructor).
  - destruct (to_pydatetime t) as [d|] eqn:E; cbn [obind]; [|discriminate]. intros [= <-]. constructor. exact E.
  - match goal with H : to_pydatetime t = Some _ |- _ => rewrite H end. reflexivity.
Qed.
Lemma map_opt_forall {A B} (f : A -> option B) l r : Forall2 (fun x y => f x = Some y) l r -> map_opt f l = Some r.
Proof. induction 1 as [|x y l r E F IH]; cbn [map_opt]; [reflexivity|]. rewrite E, IH. reflexivity. Qed.
Lemma first_ok o label x p : from_file o -> first_or dec enc o (lit label) x p ->
  exists r, first_value dec enc o label = ret r /\ (match r with Some v => v | None => x end) = p.
Proof.
  intros (_ & FU & _) H. unfold first_value, attic_get. destruct H as [N|a c v vs p ps Ia La Va F].
  - rewrite (attr_at_out _ _ N). exists None. auto.
  - rewrite (attr_at_in _ _ a FU Ia La). unfold attribute_value. rewrite Va, (map_opt_forall _ _ (p :: ps)).
    + exists (Some p). auto.
    + clear - F. induction F; constructor; [apply plainly_py; assumption|assumption].
Qed.
Lemma coordinates_ok o k1 v1 k2 v2 k3 v3 : from_file o ->
  coordinate dec enc o "1" k1 v1 -> coordinate dec enc o "2" k2 v2 -> coordinate dec enc o "3" k3 v3 ->
  wellref_coordinates dec enc o = ret (dict_put k3 v3 (dict_put k2 v2 (dict_put k1 v1 []))).
Proof.
  intros F. assert (ONE : forall name value custom k v d,
    first_or dec enc o (lit name) (PText (lit custom)) (PText k) -> first_or dec enc o (lit value) PNone v ->
    (let* k := first_value dec enc o name in
     let* key := match k with None => ret (lit custom) | Some (PText t) => ret t | Some _ => fail end in
     let* v := first_value dec enc o value in
     ret (dict_put key (match v with Some v => v | None => PNone end) d)) = ret (dict_put k v d)).
  { intros name value custom k v d H1 H2. destruct (first_ok o name _ _ F H1) as (r1 & -> & E1). destruct (first_ok o value _ _ F H2) as (r2 & -> & E2). cbn [bind ret].
    destruct r1 as [r1|]; [subst r1|injection E1 as <-]; cbn [bind ret app]; rewrite E2; reflexivity. }
  intros [A1 B1] [A2 B2] [A3 B3]. unfold wellref_coordinates. cbv zeta.
  rewrite (ONE (text "COORDINATE-1-NAME") (text "COORDINATE-1-VALUE") (text "COORDINATE-1") k1 v1 []) by assumption. cbn [bind ret].
  rewrite (ONE (text "COORDINATE-2-NAME") (text "COORDINATE-2-VALUE") (text "COORDINATE-2") k2 v2) by assumption. cbn [bind ret app].
  rewrite (ONE (text "COORDINATE-3-NAME") (text "COORDINATE-3-VALUE") (text "COORDINATE-3") k3 v3) by assumption. reflexivity.
Qed.
Lemma coordinates_fail o (number : txt) a : from_file o -> In number ["1"; "2"; "3"]%txt ->
  In a (obj_attrs o) -> (at_label a = enc (lit (text "COORDINATE-" ++ text number ++ text "-NAME")) \/ at_label a = enc (lit (text "COORDINATE-" ++ text number ++ text "-VALUE"))) ->
  (at_value a = Mono \/ exists c, at_value a = Vec c []) -> snd (wellref_coordinates dec enc o) = Exn.
Proof.
  intros (_ & FU & _) NB Ia LA V.
  assert (FV : forall label, at_label a = enc (lit label) -> first_value dec enc o label = fail).
  { intros label L. unfold first_value, attic_get. rewrite (attr_at_in _ _ a FU Ia L). unfold attribute_value. destruct V as [->|(c & ->)]; reflexivity. }
  assert (OTHER : forall label, exists l r, first_value dec enc o label = (l, r) /\ (r = Exn \/ exists x, r = Ok x)).
  { intros label. unfold first_value. destruct (attic_get enc o (lit label)); [|eexists; eexists; split; [reflexivity|eauto]].
    destruct (attribute_value dec _) as [[[|]|]|]; eexists; eexists; (split; [reflexivity|eauto]). }
  assert (ONE : forall name value custom d, exists l r,
    (let* k := first_value dec enc o name in
     let* key := match k with None => ret (lit custom) | Some (PText t) => ret t | Some _ => fail end in
     let* v := first_value dec enc o value in
     ret (dict_put key (match v with Some v => v | None => PNone end) d)) = (l, r) /\ (r = Exn \/ exists x, r = Ok x) /\
    (at_label a = enc (lit name) \/ at_label a = enc (lit value) -> r = Exn)).
  { intros name value custom d. destruct (OTHER name) as (l1 & r1 & E1 & R1). destruct (OTHER value) as (l2 & r2 & E2 & R2).
    rewrite E1. destruct R1 as [->|(x & ->)]; cbn [bind]; [eexists; eexists; split; [reflexivity|auto]|].
    assert (N1 : at_label a <> enc (lit name)). { intros L. rewrite (FV _ L) in E1. discriminate E1. }
    assert (X : forall key : pystr, exists l r, (let* v := first_value dec enc o value in ret (dict_put key (match v with Some v => v | None => PNone end) d)) = (l, r) /\ (r = Exn \/ exists x, r = Ok x) /\ (at_label a = enc (lit value) -> r = Exn)).
    { intros key. rewrite E2. destruct R2 as [->|(y & ->)]; cbn [bind ret]; eexists; eexists; (split; [reflexivity|]); [auto|]. split; [eauto|].
      intros L. rewrite (FV _ L) in E2. discriminate E2. }
    destruct x as [[| |t| | | | | |]|]; cbn [bind ret fail]; try (eexists; eexists; split; [reflexivity|split; [auto|intros _; reflexivity]]).
    - destruct (X t) as (l & r & -> & A & B). eexists; eexists; split; [reflexivity|]. split; [exact A|]. intros [?|?]; [contradiction|auto].
    - destruct (X (lit custom)) as (l & r & -> & A & B). eexists; eexists; split; [reflexivity|]. split; [exact A|]. intros [?|?]; [contradiction|auto]. }
  unfold wellref_coordinates. cbv zeta.
  destruct (ONE (text "COORDINATE-1-NAME") (text "COORDINATE-1-VALUE") (text "COORDINATE-1") []) as (l1 & r1 & -> & [->|(x1 & ->)] & B1); cbn [bind]; [reflexivity|].
  destruct (ONE (text "COORDINATE-2-NAME") (text "COORDINATE-2-VALUE") (text "COORDINATE-2") x1) as (l2 & r2 & -> & [->|(x2 & ->)] & B2); cbn [bind]; [reflexivity|].
  destruct (ONE (text "COORDINATE-3-NAME") (text "COORDINATE-3-VALUE") (text "COORDINATE-3") x2) as (l3 & r3 & -> & R3 & B3); cbn [bind snd].
  cbn [In] in NB. destruct NB as [<-|[<-|[<-|[]]]]; [specialize (B1 LA); discriminate B1|specialize (B2 LA); discriminate B2|exact (B3 LA)].
Qed.
Lemma encrypted_ok o : frame_encrypted dec o = true <-> exists a, In a (obj_attrs o) /\ dec (at_label a) = lit (text "ENCRYPTED").
Proof.
  unfold frame_encrypted. rewrite in_keys. unfold keys. rewrite in_map_iff. split; intros (a & A & B); exists a; auto.
Qed.
End classes.
