(** C23-C27, C63: metadata objects. *)
From Verif Require Import Bytes BytesProofs DlisTypes SpecTypes TypesProofs DlisCore Stream DlisRecords
  SpecRecords RecordsProofs RecordsProofs2 RecordsProofs3.
Local Open Scope Z_scope.

(** ** C23 *)

(** Every object set written per RP66 is read back: the set's type, name, and
    the objects in order, each with its name and attributes as [reads_as]
    says (inherited, overridden, absent); the log has only what the kind of set
    calls for. *)
Theorem C23_roundtrip : forall w e,
  wf_set w -> enc_set e w ->
  exists s s' xs,
    new_set e = Ok s /\ os_type s = ws_type w /\ parse_set s = Ok s' /\
    os_type s' = ws_type w /\ os_name s' = or_else (ws_name w) [] /\
    os_role s' = kind_bits (ws_kind w) /\
    os_objs s' = xs /\ Forall2 (reads_as w) (ws_objects w) xs /\
    os_log s' = kind_log (ws_kind w)
                ++ (match ws_objects w with [] => [P_no_objects] | _ => [] end).
Proof.
  intros w e Hw He.
  destruct (set_read w e [] Hw He (or_introl eq_refl)) as (s & s' & xs & H1 & H2 & H3 & H4 & H5 & H6 & H7 & H8 & H9 & H10).
  exists s, s', xs. rewrite app_nil_r in H1. rewrite app_nil_r in H10.
  repeat (split; [assumption|]). exact H10.
Qed.

(** a set with an invariant attribute, a default value of two numbers and a
    default text; four objects: all inherited, overridden, absent, shrunk *)
Definition example_tmpl : list tattr :=
  [ mk_tattr (text "INV") true (mk_chars None None None (Some [VText (text "x")]));
    mk_tattr (text "DIM") false (mk_chars (Some 2) (Some 15) (Some (text "m")) (Some [VNum 7; VNum 9]));
    mk_tattr (text "NAME") false (mk_chars None None None None) ].
Definition example_set : wset :=
  mk_wset Normal (text "CHANNEL") (Some (text "set1")) example_tmpl
    [ mk_wobject 1 0 (text "A") [];
      mk_wobject 1 0 (text "B")
        [Given (mk_chars (Some 1) (Some 16) None (Some [VNum 258])); Given (mk_chars None None None (Some [VText (text "n")]))];
      mk_wobject 1 0 (text "C") [Absent];
      mk_wobject 200 3 (text "D") [Given (mk_chars (Some 1) None None None); Absent] ].
Definition example_bytes : bytes :=
  [xf8; x07] ++ text "CHANNEL" ++ [x04] ++ text "set1"
  ++ [x51; x03] ++ text "INV" ++ [x01] ++ text "x"
  ++ [x3f; x03] ++ text "DIM" ++ [x02; x0f; x01] ++ text "m" ++ [x07; x09]
  ++ [x30; x04] ++ text "NAME"
  ++ [x70; x01; x00; x01] ++ text "A"
  ++ [x70; x01; x00; x01] ++ text "B" ++ [x2d; x01; x10; x01; x02] ++ [x21; x01] ++ text "n"
  ++ [x70; x01; x00; x01] ++ text "C" ++ [x00]
  ++ [x70; x80; xc8; x03; x01] ++ text "D" ++ [x28; x01] ++ [x00].

Ltac ident_ := apply ident_enc; reflexivity.
Ltac chars_ ec er eu ev := exists ec, er, eu, ev; split; [reflexivity|].

Example C23_example : wf_set example_set /\ enc_set example_bytes example_set.
Proof.
  split.
  { split; [|discriminate]. cbn [ws_tmpl example_set example_tmpl map ta_label].
    repeat constructor; cbn [In]; intuition discriminate. }
  exists xf8, (x07 :: text "CHANNEL"), (x04 :: text "set1"),
    (([x51; x03] ++ text "INV" ++ [x01] ++ text "x")
     ++ ([x3f; x03] ++ text "DIM" ++ [x02; x0f; x01] ++ text "m" ++ [x07; x09])
     ++ ([x30; x04] ++ text "NAME") ++ []),
    (([x70; x01; x00; x01] ++ text "A")
     ++ ([x70; x01; x00; x01] ++ text "B" ++ [x2d; x01; x10; x01; x02] ++ [x21; x01] ++ text "n")
     ++ ([x70; x01; x00; x01] ++ text "C" ++ [x00])
     ++ ([x70; x80; xc8; x03; x01] ++ text "D" ++ [x28; x01] ++ [x00]) ++ []).
  split; [reflexivity|].
  split; [exists 0; split; [lia|reflexivity]|].
  split; [ident_|]. split; [cbn [optional ws_name example_set]; ident_|].
  assert (U : forall b, b2z b < 128 -> rp66_uvari [b] (b2z b)) by (intros; apply uvari_1; assumption).
  split.
  - apply el_cons; [|apply el_cons; [|apply el_cons; [|apply el_nil]]].
    + exists x51, (x03 :: text "INV"), (x01 :: text "x"). split; [reflexivity|]. split; [reflexivity|]. split; [ident_|].
      chars_ (@nil byte) (@nil byte) (@nil byte) (x01 :: text "x"). do 3 (split; [reflexivity|]).
      split; [reflexivity|]. apply (vs_cons _ (x01 :: text "x") _ [] []); [|constructor]. constructor. ident_.
    + exists x3f, (x03 :: text "DIM"), ([x02; x0f; x01] ++ text "m" ++ [x07; x09]).
      split; [reflexivity|]. split; [reflexivity|]. split; [ident_|].
      chars_ [x02] [x0f] (x01 :: text "m") [x07; x09].
      split; [apply (U x02); reflexivity|]. split; [exists x0f; repeat split; try reflexivity; discriminate|].
      split; [cbn [optional c_units]; ident_|]. split; [reflexivity|].
      apply (vs_cons _ [x07] _ [x09] _); [exact (v_ushort x07)|].
      apply (vs_cons _ [x09] _ [] []); [exact (v_ushort x09)|constructor].
    + exists x30, (x04 :: text "NAME"), []. split; [reflexivity|]. split; [reflexivity|]. split; [ident_|].
      chars_ (@nil byte) (@nil byte) (@nil byte) (@nil byte). repeat split; reflexivity.
  - assert (N : forall o c l, b2z o < 128 -> rp66_obname [o; c; x01; l] (b2z o) (b2z c) [l]).
    { intros o c l Ho. apply (obname_enc [o] (b2z o) c [x01; l] [l]); [apply U; exact Ho|]. ident_. }
    apply el_cons; [|apply el_cons; [|apply el_cons; [|apply el_cons; [|apply el_nil]]]].
    + exists x70, ([x01; x00; x01] ++ text "A"), []. split; [reflexivity|]. split; [cbn; lia|].
      split; [apply (N x01); reflexivity|]. apply comps_end.
    + exists x70, ([x01; x00; x01] ++ text "B"), (([x2d; x01; x10; x01; x02]) ++ [x21; x01] ++ text "n").
      split; [reflexivity|]. split; [cbn; lia|]. split; [apply (N x01); reflexivity|].
      apply comps_invariant; [reflexivity|].
      apply (comps_given _ _ x2d [x01; x10; x01; x02]); [reflexivity|reflexivity| |].
      { chars_ [x01] [x10] (@nil byte) [x01; x02].
        split; [apply (U x01); reflexivity|]. split; [exists x10; repeat split; try reflexivity; discriminate|].
        split; [reflexivity|]. split; [reflexivity|].
        apply (vs_cons _ [x01; x02] _ [] []); [exact (v_unorm x01 x02)|constructor]. }
      apply (comps_given _ _ x21 (x01 :: text "n") _ []); [reflexivity|reflexivity| |apply comps_end].
      chars_ (@nil byte) (@nil byte) (@nil byte) (x01 :: text "n"). do 3 (split; [reflexivity|]).
      split; [reflexivity|]. apply (vs_cons _ (x01 :: text "n") _ [] []); [|constructor]. constructor. ident_.
    + exists x70, ([x01; x00; x01] ++ text "C"), [x00]. split; [reflexivity|]. split; [cbn; lia|].
      split; [apply (N x01); reflexivity|].
      apply comps_invariant; [reflexivity|]. apply comps_absent; [reflexivity|reflexivity|apply comps_end].
    + exists x70, ([x80; xc8; x03; x01] ++ text "D"), ([x28; x01] ++ [x00]).
      split; [reflexivity|]. split; [cbn; lia|].
      split; [apply (obname_enc [x80; xc8] 200 x03 (x01 :: text "D") (text "D")); [apply (uvari_2 x80 xc8); cbn; lia|ident_]|].
      apply comps_invariant; [reflexivity|].
      apply (comps_given _ _ x28 [x01]); [reflexivity|reflexivity| |].
      { chars_ [x01] (@nil byte) (@nil byte) (@nil byte).
        split; [apply (U x01); reflexivity|]. repeat split; reflexivity. }
      apply comps_absent; [reflexivity|reflexivity|apply comps_end].
Qed.

(** ** C63 *)

(** When the record is damaged after a number of complete objects - whatever
    follows does not start an object - all of them are returned and the set's
    log ends with the interruption. *)
Theorem C63_kept : forall w e d junk,
  wf_set w -> enc_set e w -> ws_objects w <> [] ->
  (forall o, In o (ws_objects w) ->
     length (wo_comps o) = length (filter (fun t => negb (ta_invariant t)) (ws_tmpl w))) ->
  b2z d / 32 <> 3 ->
  exists s s' xs,
    new_set (e ++ d :: junk) = Ok s /\ parse_set s = Ok s' /\
    os_type s' = ws_type w /\
    os_objs s' = xs /\ Forall2 (reads_as w) (ws_objects w) xs /\
    os_log s' = kind_log (ws_kind w) ++ [P_interrupted].
Proof.
  intros w e d junk Hw He Hne Hc Hd.
  destruct (set_read w e (d :: junk) Hw He) as (s & s' & xs & H1 & H2 & H3 & H4 & H5 & H6 & H7 & H8 & H9 & H10).
  { right. exists d, junk. repeat (split; [auto|]). apply Forall_forall. exact Hc. }
  exists s, s', xs. repeat (split; [assumption|]).
  destruct (ws_objects w); [congruence|exact H10].
Qed.

Example C63_example :
  exists s s', new_set ([xf0; x01] ++ text "T" ++ [x30; x01] ++ text "L"
                        ++ [x70; x01; x00; x01] ++ text "A" ++ [x21; x01] ++ text "v" ++ [xff; x00]) = Ok s /\
    parse_set s = Ok s' /\ map (fun o => ob_id (obj_name o)) (os_objs s') = [text "A"] /\
    os_log s' = [P_interrupted].
Proof. do 2 eexists. split; [vm_compute; reflexivity|]. split; [vm_compute; reflexivity|]. split; reflexivity. Qed.

(** Parsing ends for every record, and never by an exception. *)
Theorem C63_terminates : forall data s,
  new_set data <> Fuel /\ parse_set s <> Fuel /\ parse_set s <> Exn.
Proof. intros data s. destruct (parse_set_never s). split; [apply new_set_never|auto]. Qed.

(** A cut set, and a value whose meaning is lost, are critical; everything but an
    empty set is at least a minor problem. *)
Theorem C63_severity :
  (forall p, severity_of p = CRITICAL <-> In p [P_interrupted; P_value_left; P_undefined_default]) /\
  (forall p, severity_of p = MINOR <-> In p [P_redundant_set; P_invalid_reprc; P_attribute_violation]) /\
  (forall p, severity_of p = INFO <-> p = P_no_objects).
Proof. repeat split; intros H; destruct p; cbn in *; try congruence; intuition congruence. Qed.

(** An object that has an attribute (other than those it takes unchanged from
    the template) with a problem is marked; only such objects are. *)
Theorem C63_marked : forall type tmpl d xs o rest, parse_object type tmpl d xs = Ok (o, rest) ->
  (forall a, In a (obj_attrs o) -> ~ In a tmpl ->
     (exists q, In q (at_log a) /\ severity_of q <> INFO) -> In P_attribute_violation (obj_log o)) /\
  (In P_attribute_violation (obj_log o) ->
     exists t f ys a zs, In t tmpl /\ object_attr t f ys = Ok (a, zs) /\
       exists q, In q (at_log a) /\ severity_of q <> INFO).
Proof. exact parse_object_flag. Qed.

(** invalid representation code 99 in attribute L of object N: marked *)
Example C63_marked_example :
  exists o, parse_object (text "T") [mk_attr (text "L") 1 19 [] Mono false []] x70
    (map z2b [0; 0; 1; 78; 0x2C; 0; 99]) = Ok (o, []) /\
  existsb (fun a => existsb (fun q => match q with P_invalid_reprc => true | _ => false end) (at_log a)) (obj_attrs o) = true /\
  existsb (fun q => match q with P_attribute_violation => true | _ => false end) (obj_log o) = true.
Proof. eexists. split; [vm_compute; reflexivity|]. split; vm_compute; reflexivity. Qed.

(** But it is not confined to the record: there are records, cut short in the
    set's type or in an attribute, whose parsing reads past their end. *)
Theorem C63_in_bounds_refuted :
  (exists data, new_set data = UB) /\
  (exists data s, new_set data = Ok s /\ parse_set s = UB).
Proof.
  split.
  - exists [xf0; x05; x41]. reflexivity.
  - exists ([xf0; x01] ++ text "T" ++ [x30; x01] ++ text "L" ++ [x70; x01; x00; x05; x41]).
    eexists. split; [vm_compute; reflexivity|]. vm_compute. reflexivity.
Qed.

(** ** C24 *)

(** After any history of set and remove operations on a new object, looking up a
    label gives exactly what the last operation on this label left behind, and
    there is at most one attribute per label. *)
Theorem C24_map : forall ops,
  let attrs := fold_left (fun l o => match o with OpSet a => set_attr a l | OpRemove a => remove_attr a l end) ops [] in
  (forall k r, looks_up k ops r <-> attr_at k attrs = r) /\
  NoDup (map at_label attrs).
Proof. intros ops. split; [intros k r; exact (looks_up_run k ops r) | exact (run_ops_nodup ops)]. Qed.

(** one step, on any object: only the label of the operation is affected *)
Theorem C24_frame : forall a attrs k,
  (attr_at (at_label a) (set_attr a attrs) = Some a) /\
  (attr_at (at_label a) (remove_attr a attrs) = None) /\
  (k <> at_label a -> attr_at k (set_attr a attrs) = attr_at k attrs /\
                      attr_at k (remove_attr a attrs) = attr_at k attrs).
Proof.
  intros a attrs k. split; [apply attr_at_set_same|]. split.
  - rewrite attr_at_remove, bytes_eqb_refl. reflexivity.
  - intros Hk. split; [apply attr_at_set_other; exact Hk|].
    rewrite attr_at_remove, (proj2 (bytes_eqb_neq (at_label a) k)) by congruence. reflexivity.
Qed.

Example C24_example :
  let a := mk_attr (text "A") 1 15 [] (Vec 15 [VNum 1]) false [] in
  let a' := mk_attr (text "A") 1 15 [] (Vec 15 [VNum 2]) false [] in
  let b := mk_attr (text "B") 1 15 [] (Vec 15 [VNum 3]) false [] in
  looks_up (text "A") [OpSet a; OpSet b; OpSet a'; OpRemove b] (Some a') /\
  looks_up (text "B") [OpSet a; OpSet b; OpSet a'; OpRemove b] None /\
  looks_up (text "C") [OpSet a; OpSet b; OpSet a'; OpRemove b] None.
Proof. cbv zeta. repeat split; apply looks_up_run; vm_compute; reflexivity. Qed.

(** ** C25 *)

(** The value an object's attribute gets, for every template attribute and every
    combination of characteristics the object's component carries. *)
Theorem C25_rules : forall et t c e rest,
  enc_tattr et t -> ta_invariant t = false ->
  enc_chars (at_count (template_attribute t)) (at_reprc (template_attribute t)) e c ->
  exists a,
    object_attr (template_attribute t)
      (mk_aflags false (given (c_count c)) (given (c_reprc c)) (given (c_units c)) (given (c_value c)) false)
      (e ++ rest) = Ok (a, rest) /\
    overrides (template_attribute t) c a.
Proof.
  intros et t c e rest Ht Hi Hc. destruct (tattr_ranges et t Ht) as [Rn Rrc].
  apply (object_attr_read (template_attribute t) c e rest); auto.
  cbn [template_attribute at_value at_reprc]. intros rc vs.
  destruct (c_value (ta_chars t)); [|discriminate].
  destruct (or_else (c_count (ta_chars t)) 1 =? 0); [discriminate|]. intros [= <- _]. reflexivity.
Qed.

(** Supplying a missing value, for every attribute (also with an unknown type):
    without a message the value is the template's, of the right size, or the
    type's default; with a message it is what the message announces - for every
    message except "value is left as in template".
    Missing: that message is not truthful, see [C25_left_refuted]. *)
Theorem C25_announced_partial : forall a, 0 <= at_count a ->
  let r := patch_missing_value a in
  at_label r = at_label a /\ at_count r = at_count a /\ at_reprc r = at_reprc a /\
  at_units r = at_units a /\ at_invariant r = at_invariant a /\
  exists l, at_log r = at_log a ++ l /\
    (l = [] ->
      (exists rc vs, at_value a = Vec rc vs /\ Z.of_nat (length vs) = at_count a /\ at_value r = at_value a) \/
      (at_value a = Mono /\ exists z, zero_value (at_reprc a) z /\
         at_value r = Vec (at_reprc a) (repeat z (Z.to_nat (at_count a))))) /\
    (forall p, In p l -> p <> P_value_left -> announces p a (at_value r)).
Proof. exact patch_rules. Qed.

(** A set is read where the object raises the count from 2 to 3 without giving a
    value: the log says that the value is left as in the template, [1; 2], but the
    attribute has the value [0; 0; 0]. *)
Theorem C25_left_refuted :
  exists s s' o a,
    new_set ([xf0; x01] ++ text "T" ++ [x3d; x01] ++ text "L" ++ [x02; x0f; x01; x02]
             ++ [x70; x01; x00; x01] ++ text "A" ++ [x28; x03]) = Ok s /\
    parse_set s = Ok s' /\ os_objs s' = [o] /\ obj_attrs o = [a] /\
    at_log a = [P_value_left] /\
    ~ announces P_value_left (with_value a (Vec 15 [VNum 1; VNum 2])) (at_value a) /\
    at_value a = Vec 15 [VNum 0; VNum 0; VNum 0].
Proof.
  do 4 eexists. split; [vm_compute; reflexivity|]. split; [vm_compute; reflexivity|].
  split; [reflexivity|]. split; [reflexivity|]. split; [reflexivity|]. split; [|reflexivity].
  cbn. discriminate.
Qed.

Example C25_example :
  patch_missing_value (mk_attr (text "L") 1 15 [] (Vec 15 [VNum 4; VNum 5]) false []) =
    mk_attr (text "L") 1 15 [] (Vec 15 [VNum 4]) false [P_value_shrunk] /\
  patch_missing_value (mk_attr (text "L") 2 19 [] Mono false []) =
    mk_attr (text "L") 2 19 [] (Vec 19 [VText []; VText []]) false [].
Proof. split; reflexivity. Qed.

(** ** C26 *)

(** Asking a set for its objects again changes nothing. *)
Theorem C26_set : forall s s', parse_set s = Ok s' -> parse_set s' = Ok s'.
Proof. exact parse_set_again. Qed.

(** Every answer (objects and messages) in every history of queries on a loaded
    file is the one the same query gets on the freshly loaded file. *)
Theorem C26_history : forall esc recs l p qs,
  parse_sets esc recs = (l, Ok p) ->
  answers p qs = map (fun q => snd (ask q p)) qs.
Proof. intros esc recs l p qs H. apply answers_same, fresh_same. exact (parse_sets_fresh esc recs l p H). Qed.

Definition example_record : bool * bytes := (false, example_bytes).
Definition example_query (n : option bytes) : query :=
  mk_query (fun _ => false) (fun a b => Some (bytes_eqb a b)) (text "CHANNEL") n.
Example C26_example : exists p,
  parse_sets (fun _ => false) [example_record] = ([], Ok p) /\
  map (fun r => match r with (_, Ok os) => map (fun o => ob_id (obj_name o)) os | _ => [] end)
    (answers p [example_query None; example_query (Some (text "B")); example_query None]) =
  [[text "A"; text "B"; text "C"; text "D"]; [text "B"]; [text "A"; text "B"; text "C"; text "D"]].
Proof. eexists. split; [vm_compute; reflexivity|]. vm_compute. reflexivity. Qed.

(** ** C27 *)

(** For every matcher that answers (any predicate [f]), whenever the query
    returns, it returns the matching objects of the matching sets, in file order,
    and the messages of these sets, in file order. *)
Theorem C27_exact : forall f esc type name p objs l,
  snd (pool_get esc (fun a b => Some (f a b)) type name p) = (l, Ok objs) ->
  let sel := filter (fun s => f type (os_type s)) p in
  l = flat_map (fun s => map severity_of (log_of s)) sel /\
  objs = flat_map (fun s => filter (name_matches f name) (objects_of s)) sel.
Proof. exact pool_get_any. Qed.

(** It does return unless the user escalates a message of a matching set. *)
Theorem C27_returns : forall f esc type name p,
  (forall s, In s p -> parse_set s <> UB) ->
  (forall s, In s p -> f type (os_type s) = true -> forall q, In q (log_of s) -> esc (severity_of q) = false) ->
  let sel := filter (fun s => f type (os_type s)) p in
  snd (pool_get esc (fun a b => Some (f a b)) type name p) =
  (flat_map (fun s => map severity_of (log_of s)) sel,
   Ok (flat_map (fun s => filter (name_matches f name) (objects_of s)) sel)).
Proof. exact pool_get_spec. Qed.

(** The pool itself: the sets of the records that are not encrypted and whose set
    component can be read, in file order; each of the others is reported. *)
Theorem C27_sets : forall esc recs, esc CRITICAL = false ->
  (forall data, In (false, data) recs -> new_set data <> UB) ->
  parse_sets esc recs =
  (flat_map (fun r : bool * bytes =>
      if fst r then [] else match new_set (snd r) with Ok _ => [] | _ => [CRITICAL] end) recs,
   Ok (flat_map (fun r : bool * bytes =>
      if fst r then [] else match new_set (snd r) with Ok s => [s] | _ => [] end) recs)).
Proof. exact parse_sets_spec. Qed.

Example C27_example : exists s t,
  new_set example_bytes = Ok s /\ new_set ([xf0; x01] ++ text "T" ++ [x30; x01] ++ text "L") = Ok t /\
  snd (pool_get (fun _ => false) (fun a b => Some (bytes_eqb a b)) (text "CHANNEL") (Some (text "C")) [t; s; t; s]) =
  ([], Ok (filter (fun o => bytes_eqb (ob_id (obj_name o)) (text "C")) (objects_of s ++ objects_of s))) /\
  length (objects_of s) = 4%nat.
Proof. do 2 eexists. split; [vm_compute; reflexivity|]. split; [vm_compute; reflexivity|]. split; vm_compute; reflexivity. Qed.

Print Assumptions C23_roundtrip.
Print Assumptions C63_kept.
Print Assumptions C63_terminates.
Print Assumptions C63_in_bounds_refuted.
Print Assumptions C24_map.
Print Assumptions C24_frame.
Print Assumptions C25_rules.
Print Assumptions C25_announced_partial.
Print Assumptions C25_left_refuted.
Print Assumptions C26_set.
Print Assumptions C26_history.
Print Assumptions C27_exact.
Print Assumptions C27_returns.
Print Assumptions C27_sets.
Print Assumptions C63_severity.
Print Assumptions C63_marked.
