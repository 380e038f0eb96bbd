(** Proofs about metadata objects: reading an attribute, after any history. *)
From Verif Require Import Bytes BytesProofs Stream PyBase DlisTypes DlisCore DlisRecords CoreProofs2 RecordsProofs3 CommonPy DlisStore SpecDlisStore DlisStoreProofs DlisStoreProofs2 DlisStoreProofs3 DlisStoreProofs4 DlisStoreProofs5 DlisSchema DlisObject SpecDlisObject DlisObjectProofs DlisObjectProofs2.
Local Open Scope Z_scope.

Section reading.
Variable dec : bytes -> pystr.
Variable enc : pystr -> bytes.
Variable esc : severity -> bool.
Variable set_order : list pystr -> list pystr.
Variable sets : list object_set.
Hypothesis loaded : as_loaded sets.
Hypothesis parses : parsable sets.
Hypothesis order : a_set_order set_order.
Hypothesis typed : Forall (fun s => kept dec enc (dec (os_type s))) sets.

Local Notation sane := (sane dec esc sets).
Local Notation turns := (turns dec sets).
Local Notation readable := (readable dec enc esc sets).
Local Notation performs := (fold_left (perform dec enc esc set_order)).

(** ** Reports *)
Lemma fingerprint_ok o : from_file o -> enc (dec (obj_type o)) <> [] ->
  exists f, py_fingerprint (enc (dec (obj_type o))) (enc (dec (ob_id (obj_name o)))) (ob_origin (obj_name o)) (ob_copy (obj_name o)) = FpOk f.
Proof.
  intros (_ & _ & O & C) N.
  destruct (fingerprint_form (enc (dec (obj_type o))) (enc (dec (ob_id (obj_name o)))) (ob_origin (obj_name o)) (ob_copy (obj_name o))) as (a & b & _ & _ & E); try assumption; try lia.
  eexists. exact E.
Qed.
Lemma report_calm o lg : from_file o -> calm dec enc esc o lg -> report dec enc esc o lg = (map severity_of lg, Ok tt).
Proof.
  intros F [->|[N C]]; [reflexivity|]. destruct lg as [|p lg]; [reflexivity|]. cbn [report].
  destruct (fingerprint_ok o F N) as (f & ->). apply report_quiet. exact C.
Qed.
Lemma report_raises o lg p : In p lg -> esc (severity_of p) = true -> from_file o -> snd (report dec enc esc o lg) = Exn.
Proof.
  intros I E F. destruct lg as [|q lg]; [destruct I|]. cbn [report].
  destruct (enc (dec (obj_type o))) as [|b t] eqn:T.
  - rewrite fingerprint_rejects by auto. reflexivity.
  - destruct (fingerprint_ok o F) as (f & H); [rewrite T; discriminate|]. rewrite T in H. rewrite H, report_result.
    replace (existsb _ (q :: lg)) with true; [reflexivity|]. symmetry. apply existsb_exists. exists p. auto.
Qed.

(** ** One reference *)
Lemma lookup_ok st l c v p : sane st -> a_reference v = true -> to_py dec c v = Some p -> readable (Some l) v ->
  exists x ops, snd (snd (lookup dec enc esc set_order st l p)) = Ok x /\ turns (Some l) c v x /\ pyval_ok x /\
    Forall (op_ok dec enc) ops /\ fst (lookup dec enc esc set_order st l p) = performs ops st.
Proof.
  intros SA R T [_ RD].
  assert (FIND : forall t n, refers dec (Some l) v t n ->
    (lookup dec enc esc set_order st l p =
     let '(st, r) := lf_object dec enc esc set_order st t (dec (ob_id n)) (Some (ob_origin n)) (Some (ob_copy n)) in
     (st, let* o := r in ret match o with Some o => PObject o | None => PNone end)) ->
    (forall t' n', refers dec (Some l) v t' n' -> t' = t /\ n' = n) ->
    exists x ops, snd (snd (lookup dec enc esc set_order st l p)) = Ok x /\ turns (Some l) c v x /\ pyval_ok x /\
      Forall (op_ok dec enc) ops /\ fst (lookup dec enc esc set_order st l p) = performs ops st).
  { intros t n RF -> UN. destruct (RD t n RF) as (K & KN & TN & SR).
    pose proof (lf_object_result dec enc esc set_order sets parses st t (dec (ob_id n)) (Some (ob_origin n)) (Some (ob_copy n)) SA K KN (or_introl TN)) as H.
    rewrite SR in H. pose proof (choice_spec dec sets loaded t (dec (ob_id n)) (Some (ob_origin n)) (Some (ob_copy n))) as CH.
    assert (ST : fst (lf_object dec enc esc set_order st t (dec (ob_id n)) (Some (ob_origin n)) (Some (ob_copy n))) =
                 performs [Object t (dec (ob_id n)) (Some (ob_origin n)) (Some (ob_copy n))] st) by reflexivity.
    destruct (lf_object _ _ _ _ st t _ _ _) as [st' [lg r]]. cbn [fst snd] in H, ST |- *. subst r. cbn [bind ret snd fst].
    destruct (choice dec (candidates dec t (dec (ob_id n)) (Some (ob_origin n)) (Some (ob_copy n)) sets)) as [o|].
    - destruct (proj1 (CH o) eq_refl) as (o' & rest & E & -> & D). eexists. eexists. split; [reflexivity|].
      split; [apply (turn_found dec sets _ c v t n o' RF); exists rest; auto|]. split; [exact I|].
      split; [|exact ST]. constructor; [exact K|constructor].
    - eexists. eexists. split; [reflexivity|]. split; [|split; [exact I|split; [|exact ST]; constructor; [exact K|constructor]]].
      apply turn_missing; [discriminate|exact R|]. intros t' n' o RF' (rest & E & D). destruct (UN t' n' RF') as [-> ->].
      assert (X : None = Some (promote dec o)); [|discriminate]. apply CH. exists o, rest. auto. }
  assert (NONE : lookup dec enc esc set_order st l p = (st, ret PNone) -> (forall t n, ~ refers dec (Some l) v t n) ->
    exists x ops, snd (snd (lookup dec enc esc set_order st l p)) = Ok x /\ turns (Some l) c v x /\ pyval_ok x /\
      Forall (op_ok dec enc) ops /\ fst (lookup dec enc esc set_order st l p) = performs ops st).
  { intros -> N. exists PNone, []. split; [reflexivity|]. split; [|split; [exact I|split; [constructor|reflexivity]]].
    apply turn_missing; [discriminate|exact R|]. intros t n o RF. destruct (N t n RF). }
  destruct v as [z|zs|s|t|n|r|a]; try discriminate R; injection T as <-; destruct l as [t|].
  - apply (FIND t n); [constructor|reflexivity|]. intros t' n' X. inversion X. auto.
  - apply NONE; [reflexivity|]. intros t' n' X. inversion X.
  - apply NONE; [reflexivity|]. intros t' n' X. inversion X.
  - destruct r as [t n]. apply (FIND (dec t) n); [constructor|reflexivity|]. intros t' n' X. inversion X. auto.
  - apply NONE; [reflexivity|]. intros t' n' X. inversion X.
  - apply NONE; [reflexivity|]. intros t' n' X. inversion X.
Qed.

Lemma performs_sane ops : Forall (op_ok dec enc) ops -> forall st, sane st -> sane (performs ops st).
Proof.
  induction 1 as [|op ops O OK IH]; intros st SA; cbn [fold_left]; [exact SA|]. apply IH.
  apply perform_sane; assumption.
Qed.

Lemma lookups_ok l c vs : forall st ps, sane st -> Forall (fun v => a_reference v = true) vs -> map_opt (to_py dec c) vs = Some ps ->
  Forall (readable (Some l)) vs ->
  exists xs ops, snd (snd (lookups dec enc esc set_order st l ps)) = Ok xs /\ Forall2 (turns (Some l) c) vs xs /\ Forall pyval_ok xs /\
    Forall (op_ok dec enc) ops /\ fst (lookups dec enc esc set_order st l ps) = performs ops st.
Proof.
  induction vs as [|v vs IH]; intros st ps SA R M RD; cbn [map_opt] in M.
  - injection M as <-. exists [], []. repeat split; constructor.
  - destruct (to_py dec c v) as [p|] eqn:T; cbn [obind] in M; [|discriminate].
    destruct (map_opt (to_py dec c) vs) as [ps'|] eqn:M'; cbn [obind] in M; [|discriminate]. injection M as <-.
    apply Forall_cons_iff in R as [R1 R2]. apply Forall_cons_iff in RD as [RD1 RD2]. cbn [lookups].
    destruct (lookup_ok st l c v p SA R1 T RD1) as (x & ops1 & E1 & T1 & P1 & O1 & S1).
    destruct (lookup dec enc esc set_order st l p) as [st1 [lg1 r1]]. cbn [fst snd] in E1, S1. subst r1.
    assert (SA1 : sane st1) by (rewrite S1; apply performs_sane; assumption).
    destruct (IH st1 ps' SA1 R2 eq_refl RD2) as (xs & ops2 & E2 & T2 & P2 & O2 & S2).
    destruct (lookups dec enc esc set_order st1 l ps') as [st2 [lg2 r2]]. cbn [fst snd] in E2, S2. subst r2.
    exists (x :: xs), (ops1 ++ ops2). cbn [bind ret fst snd]. split; [reflexivity|]. split; [constructor; assumption|]. split; [constructor; assumption|].
    split; [apply Forall_app; auto|]. rewrite fold_left_app, <- S1. exact S2.
Qed.

(** ** Values that are not resolved *)
Lemma plain_ok l c v p : (l = None \/ a_reference v = false) -> value_ok c v -> to_py dec c v = Some p ->
  turns l c v (stripped p) /\ pyval_ok (stripped p).
Proof.
  intros NL K T. destruct v as [z|zs|s|t|n|r|a]; cbn [to_py] in T; cbn [a_reference] in NL; cbn [value_ok] in K.
  - injection T as <-. split; [constructor|exact K].
  - injection T as <-. split; [constructor|exact K].
  - injection T as <-. destruct (dec s) as [u|b] eqn:E; cbn [stripped]; (split; [|exact I]).
    + apply (turn_text dec sets l c s u _ E). apply strip_trimmed.
    + apply turn_bytes. exact E.
  - destruct (to_pydatetime t) as [d|] eqn:E; cbn [obind] in T; [|discriminate]. injection T as <-. split; [constructor; exact E|exact I].
  - destruct NL as [->|NL]; [|discriminate]. injection T as <-. split; [constructor; reflexivity|exact I].
  - destruct NL as [->|NL]; [|discriminate]. injection T as <-. split; [constructor; reflexivity|exact I].
  - destruct NL as [->|NL]; [|discriminate]. injection T as <-. split; [constructor; reflexivity|exact I].
Qed.
Lemma plains_ok l c vs : (l = None \/ Forall (fun v => a_reference v = false) vs) -> Forall (value_ok c) vs -> forall ps,
  map_opt (to_py dec c) vs = Some ps ->
  Forall2 (turns l c) vs (map stripped ps) /\ Forall pyval_ok (map stripped ps).
Proof.
  intros NL K. induction vs as [|v vs IH]; intros ps M; cbn [map_opt] in M.
  - injection M as <-. split; constructor.
  - destruct (to_py dec c v) as [p|] eqn:T; cbn [obind] in M; [|discriminate].
    destruct (map_opt (to_py dec c) vs) as [ps'|] eqn:M'; cbn [obind] in M; [|discriminate]. injection M as <-. cbn [map].
    apply Forall_cons_iff in K as [K1 K2].
    assert (NL1 : l = None \/ a_reference v = false) by (destruct NL as [N|N]; [left; exact N|right; apply Forall_cons_iff in N as [N _]; exact N]).
    assert (NL2 : l = None \/ Forall (fun v => a_reference v = false) vs) by (destruct NL as [N|N]; [left; exact N|right; apply Forall_cons_iff in N as [_ N]; exact N]).
    destruct (plain_ok l c v p NL1 K1 T) as [A1 A2]. destruct (IH NL2 K2 ps' eq_refl) as [B1 B2].
    split; constructor; assumption.
Qed.

(** ** Lists of values *)
Lemma converts l c vs : Forall (readable l) vs -> exists ps, map_opt (to_py dec c) vs = Some ps /\ length ps = length vs.
Proof.
  induction 1 as [|v vs [R _] _ (ps & IH & L)]; [exists []; auto|]. cbn [map_opt]. rewrite IH.
  assert (T : exists p, to_py dec c v = Some p).
  { destruct v as [z|zs|s|t|n|r|a]; cbn [to_py]; try (eexists; reflexivity). destruct (to_pydatetime t) as [d|] eqn:E; [eexists; reflexivity|].
    destruct (R t eq_refl E). }
  destruct T as (p & ->). cbn [obind]. eexists. split; [reflexivity|]. cbn [length]. congruence.
Qed.
Lemma same_kind c vs : Forall (kind c) vs -> Forall (fun v => a_reference v = true) vs \/ Forall (fun v => a_reference v = false) vs.
Proof.
  intros K. assert (D : (c = 23 \/ c = 24 \/ c = 25) \/ (c <> 23 /\ c <> 24 /\ c <> 25)) by lia. destruct D as [D|D]; [left|right]; (eapply Forall_impl; [|exact K]);
  intros v [_ KV]; destruct v; cbn [a_reference]; try reflexivity; lia.
Qed.
Lemma isreference_py c v p : to_py dec c v = Some p -> isreference p = a_reference v.
Proof.
  destruct v as [z|zs|s|t|n|r|a]; cbn [to_py]; try (intros [= <-]; reflexivity).
  destruct (to_pydatetime t); cbn [obind]; [intros [= <-]; reflexivity|discriminate].
Qed.

(** ** The attribute *)
Lemma attr_at_in k attrs a : NoDup (map at_label attrs) -> In a attrs -> at_label a = k -> attr_at k attrs = Some a.
Proof.
  unfold attr_at. induction attrs as [|x l IH]; intros N I E; [destruct I|]. cbn [map] in N. apply NoDup_cons_iff in N as [NX N]. cbn [find].
  destruct (bytes_eqb (at_label x) k) eqn:B.
  - destruct I as [->|I]; [reflexivity|]. apply bytes_eqb_spec in B. exfalso. apply NX. apply in_map_iff. exists a. split; [congruence|exact I].
  - destruct I as [->|I]; [|exact (IH N I E)]. assert (T : bytes_eqb (at_label a) k = true) by (apply bytes_eqb_spec; exact E). congruence.
Qed.
Lemma attr_at_out k attrs : ~ In k (map at_label attrs) -> attr_at k attrs = None.
Proof.
  unfold attr_at. induction attrs as [|x l IH]; intros N; [reflexivity|]. cbn [map In] in N. cbn [find].
  destruct (bytes_eqb (at_label x) k) eqn:B; [apply bytes_eqb_spec in B; exfalso; apply N; left; exact B|]. apply IH. intros H. apply N. right. exact H.
Qed.

Lemma getitem_ok st sc o key r l c vs lg : sane st -> from_file o -> a_schema sc -> rule_for sc key r -> link_for sc key l ->
  In key (map fst (sc_attributes sc)) \/ In key (keys dec o) ->
  stored enc o key c vs lg -> calm dec enc esc o (obj_log o) -> calm dec enc esc o lg -> Forall (readable l) vs ->
  exists xs res ops, Forall2 (turns l c) vs xs /\ shaped r xs res /\
    snd (snd (getitem dec enc esc set_order st sc o key)) = Ok (Some res) /\
    Forall (op_ok dec enc) ops /\ fst (getitem dec enc esc set_order st sc o key) = performs ops st.
Proof.
  intros SA F SC RF LF KEY ST C1 C2 RD. unfold getitem.
  replace (negb _ && negb _) with false.
  2:{ symmetry. destruct KEY as [K|K]; [apply known_key in K; rewrite K; reflexivity|apply in_keys in K; rewrite K; apply andb_false_r]. }
  rewrite (rule_for_get sc key r SC RF), (link_for_get sc key l SC LF), (report_calm o (obj_log o) F C1). unfold attic_get.
  destruct F as (FA & FU & FN). assert (F : from_file o) by (repeat split; assumption || apply FN). cbv zeta.
  destruct ST as [c N|c a Ia La Va|a c vs Ia La Va].
  - rewrite (attr_at_out _ _ N). exists [], (defaultvalue r), []. split; [constructor|]. split; [apply default_shaped|]. repeat split. constructor.
  - rewrite (attr_at_in _ _ a FU Ia La). unfold attribute_value. rewrite Va. rewrite (report_calm o (at_log a) F C2).
    exists [], (defaultvalue r), []. split; [constructor|]. split; [apply default_shaped|]. repeat split. constructor.
  - rewrite (attr_at_in _ _ a FU Ia La). unfold attribute_value. rewrite Va.
    pose proof (proj1 (Forall_forall _ _) FA a Ia) as K. unfold attr_ok in K. rewrite Va in K. cbn [vals_ok] in K.
    destruct (converts l c vs RD) as (ps & M & LN). rewrite M. cbn [obind]. rewrite (report_calm o (at_log a) F C2).
    destruct ps as [|p ps].
    + destruct vs; [|discriminate LN]. exists [], (defaultvalue r), []. split; [constructor|]. split; [apply default_shaped|]. repeat split. constructor.
    + destruct vs as [|v vs]; [discriminate LN|].
      assert (HP : isreference p = a_reference v).
      { cbn [map_opt] in M. destruct (to_py dec c v) as [p'|] eqn:T; cbn [obind] in M; [|discriminate].
        destruct (map_opt (to_py dec c) vs); cbn [obind] in M; [|discriminate]. injection M as -> _. exact (isreference_py c v p T). }
      assert (KO : Forall (value_ok c) (v :: vs)) by (eapply Forall_impl; [|exact K]; intros y [KV _]; exact KV).
      assert (PLAIN : (l = None \/ Forall (fun v => a_reference v = false) (v :: vs)) ->
        exists xs res ops, Forall2 (turns l c) (v :: vs) xs /\ shaped r xs res /\ res = parsevalue (map stripped (p :: ps)) r /\
          Forall (op_ok dec enc) ops /\ st = performs ops st).
      { intros NL. destruct (plains_ok l c (v :: vs) NL KO (p :: ps) M) as [A1 A2].
        exists (map stripped (p :: ps)), (parsevalue (map stripped (p :: ps)) r), []. split; [exact A1|]. cbn [map] in A2 |- *. apply Forall_cons_iff in A2 as [A2 _].
        split; [apply parsevalue_shaped; exact A2|]. repeat split. constructor. }
      destruct l as [l|].
      * destruct (same_kind c (v :: vs) K) as [REF|NREF].
        -- assert (RV : a_reference v = true) by (apply Forall_cons_iff in REF as [RV _]; exact RV). rewrite HP, RV.
           destruct (lookups_ok l c (v :: vs) st (p :: ps) SA REF M RD) as (xs & ops & E & T & PO & O & S).
           destruct (lookups dec enc esc set_order st l (p :: ps)) as [st' [lg' r']]. cbn [fst snd] in E, S. subst r'. cbn [bind ret fst snd].
           destruct xs as [|x xs]; [inversion T|]. exists (x :: xs), (parsevalue (x :: xs) r), ops. split; [exact T|].
           split; [apply parsevalue_shaped; apply Forall_cons_iff in PO as [PO _]; exact PO|]. repeat split; assumption.
        -- assert (RV : a_reference v = false) by (apply Forall_cons_iff in NREF as [RV _]; exact RV). rewrite HP, RV.
           destruct (PLAIN (or_intror NREF)) as (xs & res & ops & T & S & -> & O & E). exists xs, (parsevalue (map stripped (p :: ps)) r), ops. repeat split; assumption.
      * destruct (PLAIN (or_introl eq_refl)) as (xs & res & ops & T & S & -> & O & E). exists xs, (parsevalue (map stripped (p :: ps)) r), ops. repeat split; assumption.
Qed.
End reading.
