(** Proofs about metadata objects: the stash, and when reading raises. *)
From Verif Require Import Bytes BytesProofs Stream PyBase DlisTypes DlisCore DlisRecords CoreProofs2 RecordsProofs3 CommonPy DlisStore SpecDlisStore DlisStoreProofs DlisStoreProofs2 DlisStoreProofs3 DlisStoreProofs4 DlisStoreProofs5 DlisStoreProofs6 DlisSchema DlisObject SpecDlisObject DlisObjectProofs DlisObjectProofs2 DlisObjectProofs3.
Local Open Scope Z_scope.

Section stash.
Variable dec : bytes -> pystr.
Variable enc : pystr -> bytes.
Variable esc : severity -> bool.
Variable set_order : list pystr -> list pystr.
Variable sets : list object_set.

Lemma dict_put_new {A} k (v : A) d : ~ In k (map fst d) -> dict_put k v d = d ++ [(k, v)].
Proof.
  induction d as [|[k' v'] d IH]; cbn [map fst dict_put app]; intros N; [reflexivity|]. destruct (pystr_eqb k k') eqn:E.
  - apply pystr_eqb_spec in E. exfalso. apply N. left. congruence.
  - rewrite IH; [reflexivity|]. intros H. apply N. right. exact H.
Qed.
Lemma dict_of_distinct {A} (l : list (pystr * A)) : forall d, NoDup (map fst (d ++ l)) ->
  fold_left (fun d e => dict_put (fst e) (snd e) d) l d = d ++ l.
Proof.
  induction l as [|[k v] l IH]; intros d N; cbn [fold_left fst snd]; [symmetry; apply app_nil_r|].
  rewrite dict_put_new.
  - rewrite IH; rewrite <- app_assoc; [reflexivity|exact N].
  - rewrite map_app in N. cbn [map fst] in N. apply NoDup_remove_2 in N. intros H. apply N. apply in_app_iff. left. exact H.
Qed.
Lemma map_opt_app {A B} (f : A -> option B) l r : map_opt f l = Some r -> Forall2 (fun x y => f x = Some y) l r.
Proof.
  revert r. induction l as [|x l IH]; intros r; cbn [map_opt]; [intros [= <-]; constructor|].
  destruct (f x) as [y|] eqn:E; cbn [obind]; [|discriminate]. destruct (map_opt f l) as [r'|]; cbn [obind]; [|discriminate]. intros [= <-].
  constructor; [exact E|apply IH; reflexivity].
Qed.
Lemma map_opt_total {A B} (f : A -> option B) (g : A -> B) l : (forall x, In x l -> f x = Some (g x)) -> map_opt f l = Some (map g l).
Proof.
  induction l as [|x l IH]; intros H; cbn [map_opt map]; [reflexivity|]. rewrite (H x (or_introl eq_refl)). cbn [obind].
  rewrite IH by (intros y I; apply H; right; exact I). reflexivity.
Qed.
Lemma filter_map {A B} (f : A -> B) g l : filter g (map f l) = map f (filter (fun x => g (f x)) l).
Proof. induction l as [|x l IH]; cbn [map filter]; [reflexivity|]. destruct (g (f x)); cbn [map]; rewrite IH; reflexivity. Qed.

Definition values_py (a : attribute) : list pyval :=
  match at_value a with Vec c vs => match map_opt (to_py dec c) vs with Some l => l | None => [] end | Mono => [] end.
Lemma stash_ok sc o extra : from_file o ->
  (forall a, extra a = true <-> unknown_label dec sc a) ->
  (forall a, In a (obj_attrs o) -> extra a = true -> enc (dec (at_label a)) = at_label a /\ has_values a) ->
  exists d, stash dec enc sc o = Some d /\
    map fst d = map (fun a => dec (at_label a)) (filter extra (obj_attrs o)) /\
    Forall2 (fun a e => exists c vs, at_value a = Vec c vs /\ Forall2 (turns dec sets None c) vs (snd e)) (filter extra (obj_attrs o)) d.
Proof.
  intros (FA & FU & _) EX H. unfold stash, keys. rewrite filter_map.
  assert (EF : filter (fun a => negb (existsb (fun e => pystr_eqb (dec (at_label a)) (fst e)) (sc_attributes sc))) (obj_attrs o) = filter extra (obj_attrs o)).
  { apply filter_ext_in'. intros a _. apply eq_true_iff_eq. rewrite EX, negb_true_iff, <- not_true_iff_false, known_key. reflexivity. }
  rewrite EF. clear EF.
  assert (HX : forall a, In a (filter extra (obj_attrs o)) -> In a (obj_attrs o) /\ enc (dec (at_label a)) = at_label a /\ has_values a).
  { intros a I. apply filter_In in I as [I E]. split; [exact I|]. apply H; assumption. }
  set (xs := filter extra (obj_attrs o)) in *.
  assert (V : forall a, In a xs -> attribute_value dec a = Some (Some (values_py a)) /\ exists c vs, at_value a = Vec c vs /\ Forall2 (turns dec sets None c) vs (map stripped (values_py a))).
  { intros a I. destruct (HX a I) as (Ia & _ & c & vs & E & T). unfold attribute_value, values_py. rewrite E.
    destruct (converts dec enc esc sets None c vs) as (ps & M & _).
    { apply Forall_forall. intros v Iv. split; [intros t ->; apply T; exact Iv|]. intros t n X. inversion X. }
    rewrite M. cbn [obind]. split; [reflexivity|]. exists c, vs. split; [reflexivity|].
    pose proof (proj1 (Forall_forall _ _) FA a Ia) as K. unfold attr_ok in K. rewrite E in K. cbn [vals_ok] in K.
    eapply plains_ok; [left; reflexivity| |exact M]. eapply Forall_impl; [|exact K]. intros v [KV _]. exact KV. }
  rewrite (map_opt_total _ (fun k => (k, match attr_at (enc k) (obj_attrs o) with Some a => Some (values_py a) | None => None end))).
  2:{ intros k I. apply in_map_iff in I as (a & <- & I). destruct (HX a I) as (Ia & E & _). unfold attic_get.
      rewrite (attr_at_in _ _ a FU Ia (eq_sym E)). cbn [obind]. rewrite (proj1 (V a I)). reflexivity. }
  cbn [obind]. rewrite map_map. 
  assert (ME : map (fun a => (dec (at_label a), match attr_at (enc (dec (at_label a))) (obj_attrs o) with Some a => Some (values_py a) | None => None end)) xs =
               map (fun a => (dec (at_label a), Some (values_py a))) xs).
  { apply map_ext_in. intros a I. destruct (HX a I) as (Ia & E & _). rewrite (attr_at_in _ _ a FU Ia (eq_sym E)). reflexivity. }
  rewrite ME. clear ME. rewrite dict_of_distinct.
  2:{ cbn [app]. rewrite map_map. cbn [fst].
      assert (NL : NoDup (map at_label xs)) by (apply filter_unique; exact FU).
      assert (INJ : map (fun a => enc (dec (at_label a))) xs = map at_label xs) by (apply map_ext_in; intros a I; apply (HX a I)).
      rewrite <- INJ in NL. rewrite <- (map_map (fun a => dec (at_label a)) enc) in NL. exact (NoDup_map_inv _ _ NL). }
  cbn [app].
  rewrite (map_opt_total _ (fun e => (fst e, map stripped (match snd e with Some v => v | None => [] end)))).
  2:{ intros e I. apply in_map_iff in I as (a & <- & _). reflexivity. }
  eexists. split; [reflexivity|]. rewrite !map_map. cbn [fst snd]. split; [reflexivity|].
  clear - V. induction xs as [|a xs IH]; cbn [map]; constructor; [cbn [snd]; apply V; left; reflexivity|apply IH; intros b I; apply V; right; exact I].
Qed.

(** ** KeyError *)
Lemma getitem_unknown st sc o key : ~ In key (map fst (sc_attributes sc)) -> ~ In key (keys dec o) ->
  getitem dec enc esc set_order st sc o key = (st, ([], Ok None)).
Proof.
  intros N1 N2. unfold getitem. replace (negb _ && negb _) with true; [reflexivity|]. symmetry. rewrite andb_true_iff, !negb_true_iff, <- !not_true_iff_false, known_key, in_keys. auto.
Qed.
Lemma getitem_known st sc o key : In key (map fst (sc_attributes sc)) \/ In key (keys dec o) ->
  snd (snd (getitem dec enc esc set_order st sc o key)) <> Ok None.
Proof.
  intros K. unfold getitem. replace (negb _ && negb _) with false.
  2:{ symmetry. destruct K as [K|K]; [apply known_key in K; rewrite K; reflexivity|apply in_keys in K; rewrite K; apply andb_false_r]. }
  cbv zeta. destruct (report dec enc esc o (obj_log o)) as [l1 [u| | |]]; try discriminate. destruct (attic_get enc o key) as [a|]; [|discriminate].
  destruct (attribute_value dec a) as [v|]; [|discriminate]. destruct (report dec enc esc o (at_log a)) as [l2 [u2| | |]]; try discriminate.
  destruct v as [[|v vs]|]; try discriminate. destruct (dict_get key (sc_linkage sc)) as [l|]; [|discriminate]. destruct (isreference v); [|discriminate].
  destruct (lookups dec enc esc set_order st l (v :: vs)) as [st' [lg r]]. destruct r; discriminate.
Qed.

(** ** Escalated problems *)
Lemma getitem_escalates st sc o key p : from_file o -> In key (map fst (sc_attributes sc)) \/ In key (keys dec o) ->
  In p (obj_log o) \/ (exists a, In a (obj_attrs o) /\ at_label a = enc key /\ In p (at_log a)) -> esc (severity_of p) = true ->
  snd (snd (getitem dec enc esc set_order st sc o key)) = Exn.
Proof.
  intros F K P E. unfold getitem. replace (negb _ && negb _) with false.
  2:{ symmetry. destruct K as [K|K]; [apply known_key in K; rewrite K; reflexivity|apply in_keys in K; rewrite K; apply andb_false_r]. }
  cbv zeta. assert (R : snd (report dec enc esc o (obj_log o)) = Exn \/ snd (report dec enc esc o (obj_log o)) = Ok tt).
  { destruct (existsb (fun p => esc (severity_of p)) (obj_log o)) eqn:X.
    - apply existsb_exists in X as (q & Iq & Eq). left. eapply report_raises; eassumption.
    - destruct (obj_log o) as [|q lg] eqn:LG; [right; reflexivity|]. cbn [report]. destruct (enc (dec (obj_type o))) as [|b t] eqn:T.
      + rewrite fingerprint_rejects by auto. left. reflexivity.
      + destruct (fingerprint_ok dec enc o F) as (f & HF); [rewrite T; discriminate|]. rewrite T in HF. rewrite HF, report_result, X. right. reflexivity. }
  destruct P as [P|(a & Ia & La & P)].
  - pose proof (report_raises dec enc esc o (obj_log o) p P E F) as RR. destruct (report dec enc esc o (obj_log o)) as [l1 r]. cbn [snd] in RR. subst r. reflexivity.
  - destruct (report dec enc esc o (obj_log o)) as [l1 r]. cbn [snd] in R. destruct R as [->| ->]; [reflexivity|]. unfold attic_get.
    rewrite (attr_at_in _ _ a (proj1 (proj2 F)) Ia La). destruct (attribute_value dec a); [|reflexivity].
    pose proof (report_raises dec enc esc o (at_log a) p P E F) as RR. destruct (report dec enc esc o (at_log a)) as [l2 r2]. cbn [snd] in RR. subst r2. reflexivity.
Qed.
End stash.
