(** Proofs about curves of loaded files: fingerprints, the index as a dict, records. *)
From Verif Require LisPyProofs.
From Verif Require Import Bytes BytesProofs Stream PyBase DlisTypes DlisCore SpecTypes SpecCore CoreProofs CoreProofs2 DlisIo SpecIo IoProofs IoProofs2 DlisRecords SpecRecords DlisFdata SpecFdata
  CommonPy DlisStore SpecDlisStore DlisStoreProofs DlisObject SpecDlisObject DlisObjectProofs DlisObjectProofs2 DlisObjectProofs3 DlisObjectProofs5
  SpecDlisLoad DlisFrame SpecDlisFrame SpecDimensional DlisCurves SpecDlisCurves.
Local Open Scope Z_scope.

(** ** Fingerprints *)
Lemma printed_unique ty id o c k k' : printed ty id o c k -> printed ty id o c k' -> k = k'.
Proof.
  intros (_ & so & sc & O & C & ->) (_ & so' & sc' & O' & C' & ->). rewrite (LisPyProofs.numeral_unique so so' o O O'), (LisPyProofs.numeral_unique sc sc' c C C'). reflexivity.
Qed.
Lemma printed_ok ty id o c k : 0 <= o < 2 ^ 31 -> 0 <= c <= 255 -> printed ty id o c k -> py_fingerprint ty id o c = FpOk k.
Proof.
  intros O C P. pose proof (proj1 P) as N. destruct (fingerprint_form ty id o c N O C) as (so & sc & NO & NC & E). rewrite E. f_equal.
  apply (printed_unique ty id o c); [|exact P]. split; [exact N|]. exists so, sc. auto.
Qed.
Lemma printed_ok_iff ty id o c k : 0 <= o < 2 ^ 31 -> py_fingerprint ty id o c = FpOk k -> printed ty id o c k.
Proof.
  intros O F. pose proof (py_fingerprint_Ok ty id o c k F O) as [C _].
  destruct ty as [|b ty]; [rewrite fingerprint_rejects in F by auto; discriminate|].
  destruct (fingerprint_form (b :: ty) id o c) as (so & sc & NO & NC & E); [discriminate|exact O|exact C|]. rewrite E in F. injection F as <-. split; [discriminate|]. exists so, sc. auto.
Qed.

(** ** The index as a dict *)
Section dict.
Variable dec : bytes -> pystr.
Local Notation put := (fun (d : list (pystr * list Z)) (e : bytes * list Z) => dict_put (dec (fst e)) (snd e) d).
Lemma dict_get_put {A} K k (v : A) d : dict_get K (dict_put k v d) = if pystr_eqb K k then Some v else dict_get K d.
Proof.
  induction d as [|[k' v'] d IH]; cbn [dict_put dict_get]; [reflexivity|]. destruct (pystr_eqb k k') eqn:E; cbn [dict_get].
  - apply pystr_eqb_spec in E. subst k'. destruct (pystr_eqb K k); reflexivity.
  - destruct (pystr_eqb K k') eqn:E'; [|exact IH]. apply pystr_eqb_spec in E'. subst k'.
    destruct (pystr_eqb K k) eqn:E''; [|reflexivity]. apply pystr_eqb_spec in E''. subst. rewrite pystr_eqb_refl in E. discriminate.
Qed.
Lemma fold_other K idx : forall d, (forall e, In e idx -> dec (fst e) <> K) -> dict_get K (fold_left put idx d) = dict_get K d.
Proof.
  induction idx as [|e idx IH]; intros d H; cbn [fold_left]; [reflexivity|]. rewrite IH by (intros x I; apply H; right; exact I). rewrite dict_get_put.
  destruct (pystr_eqb K (dec (fst e))) eqn:E; [|reflexivity]. apply pystr_eqb_spec in E. destruct (H e (or_introl eq_refl) (eq_sym E)).
Qed.
Lemma fold_last a k v b : (forall e, In e b -> dec (fst e) <> dec k) -> dict_get (dec k) (fold_left put (a ++ (k, v) :: b) []) = Some v.
Proof. intros H. rewrite fold_left_app. cbn [fold_left]. rewrite fold_other by exact H. rewrite dict_get_put. cbn [fst snd]. rewrite pystr_eqb_refl. reflexivity. Qed.

Lemma index_get_in k v idx : NoDup (map fst idx) -> In (k, v) idx -> index_get k idx = v.
Proof.
  induction idx as [|[k' v'] idx IH]; intros N I; [destruct I|]. cbn [map fst] in N. inversion N as [|? ? N1 N2]; subst. cbn [index_get].
  destruct (bytes_eqb k k') eqn:E.
  - apply bytes_eqb_eq in E. subst k'. destruct I as [I|I]; [congruence|]. destruct N1. exact (in_map fst _ _ I).
  - destruct I as [[= -> ->]|I]; [|exact (IH N2 I)]. rewrite (proj2 (bytes_eqb_eq k k) eq_refl) in E. discriminate.
Qed.
Lemma index_get_some k idx : index_get k idx <> [] -> exists a b, idx = a ++ (k, index_get k idx) :: b.
Proof.
  induction idx as [|[k' v'] idx IH]; cbn [index_get]; [congruence|]. destruct (bytes_eqb k k') eqn:E; intros H.
  - apply bytes_eqb_eq in E. subst k'. exists [], idx. reflexivity.
  - destruct (IH H) as (a & b & E'). exists ((k', v') :: a), b. cbn [app]. f_equal. exact E'.
Qed.

Lemma indices_ok idx k : index_sound idx ->
  (forall k', index_get k' idx <> [] -> dec k' = dec k -> k' = k) -> indices_of dec idx (dec k) = index_get k idx.
Proof.
  intros [N NE] U. unfold indices_of, fdata_dict.
  assert (X : forall e, In e idx -> dec (fst e) = dec k -> e = (k, index_get k idx) /\ index_get k idx <> []).
  { intros [k' v'] I E. cbn [fst] in E. pose proof (index_get_in k' v' idx N I) as G. pose proof (proj1 (Forall_forall _ _) NE _ I) as G'. cbn [snd] in G'.
    assert (k' = k) as -> by (apply U; [congruence|exact E]). split; congruence. }
  destruct (index_get k idx) as [|z l] eqn:G.
  - rewrite fold_other; [reflexivity|]. intros e I E. destruct (X e I E) as [_ H]. congruence.
  - destruct (index_get_some k idx) as (a & b & E); [congruence|]. rewrite G in E. rewrite E. rewrite fold_last; [reflexivity|].
    intros e I E'. assert (Ie : In e idx) by (rewrite E; apply in_or_app; right; right; exact I). destruct (X e Ie E') as [-> _].
    rewrite E, map_app in N. cbn [map fst] in N. apply NoDup_remove_2 in N. apply N. apply in_or_app. right. exact (in_map fst _ _ I).
Qed.
End dict.

Lemma holds_owners recs cs : Forall2 holds recs cs -> forall off x, In (Some x) (map snd (data_at off recs cs)) ->
  let '(t, o, c, i) := x in (t = text "FRAME" \/ t = text "NO-FORMAT") /\ 0 <= o < 2 ^ 30 /\ 0 <= c <= 255.
Proof.
  induction 1 as [|[e segs] c recs cs H F IH]; intros off x I; cbn [data_at map] in I; [destruct I|].
  rewrite map_app in I. apply in_app_or in I as [I|I]; [|exact (IH _ _ I)].
  destruct c as [w| |o]; cbn [map snd In] in I; try contradiction. destruct I as [->|[]]. inversion H; subst. eapply data_record_owner. eassumption.
Qed.

Section records.
Variable dec : bytes -> pystr.
Variable enc : pystr -> bytes.

Lemma shown_fingerprint o fp : from_file o -> shown dec enc o fp -> fingerprint dec enc o = ret fp.
Proof.
  intros (_ & _ & O & C) (k & P & <-). unfold fingerprint. rewrite (printed_ok _ _ _ _ k); try assumption; [reflexivity|].
  change (2 ^ 30) with 1073741824 in O. change (2 ^ 31) with 2147483648. lia.
Qed.
Lemma recognised_indices ty o ds idx : (ty = text "FRAME" \/ ty = text "NO-FORMAT") -> from_file o ->
  (forall x, In (Some x) (map snd ds) -> let '(t, o, c, i) := x in (t = text "FRAME" \/ t = text "NO-FORMAT") /\ 0 <= o < 2 ^ 30 /\ 0 <= c <= 255) ->
  index_sound idx -> index_reads ds idx -> recognised dec enc ty o (map snd ds) ->
  exists fp, fingerprint dec enc o = ret fp /\ indices_of dec idx fp = offsets_of (owned ty o) ds.
Proof.
  intros T F B S [R1 R2] (k & P & SH & U). exists (dec k). split; [exact (shown_fingerprint o _ F SH)|].
  assert (O : 0 <= ob_origin (obj_name o) < 2 ^ 31 /\ 0 <= ob_copy (obj_name o) <= 255).
  { destruct F as (_ & _ & O & C). change (2 ^ 30) with 1073741824 in O. change (2 ^ 31) with 2147483648. lia. }
  rewrite indices_ok; [|exact S|].
  - apply R1; [exact T|apply O|]. apply printed_ok; try apply O; exact P.
  - intros k' H E. destruct (R2 k' H) as (ty' & o' & c' & i' & I & FP). apply (U ty' o' c' i' k' I); [|exact E].
    apply printed_ok_iff; [|exact FP]. destruct (B _ I) as (_ & O' & _). change (2 ^ 30) with 1073741824 in O'. change (2 ^ 31) with 2147483648. lia.
Qed.
End records.

(** ** The records of an object *)
Lemma recorded_tells {A} own (P : bytes -> list A -> Prop) recs cs xs : recorded own P recs cs xs ->
  forall seen pre tail, SpecIo.logical_file seen recs ->
  exists xss, concat xss = xs /\
    Forall2 (fun tell x => exists ds en o c i es, plain_record (pre ++ enc_records recs ++ tail) tell ds /\ ds = en ++ es /\ rp66_obname en o c i /\ P es x)
      (offsets_of own (data_at (len pre) recs cs)) xss.
Proof.
  induction 1 as [|e g t ds en o c i es xs recs cs rest RD B D O H R IH|[e segs] c recs cs rest NE R IH]; intros seen pre tail L.
  - exists []. split; [reflexivity|constructor].
  - cbn [SpecIo.logical_file] in L. destruct L as (W & _ & L). destruct (IH _ (pre ++ enc_record (g :: t)) tail L) as (xss & C & F).
    exists (xs :: xss). split; [cbn [concat]; congruence|]. cbn [data_at app offsets_of]. rewrite (proj2 (owner_eqb_eq own own) eq_refl). cbn [app].
    assert (EQ : (pre ++ enc_record (g :: t)) ++ enc_records recs ++ tail = pre ++ enc_records ((e, g :: t) :: recs) ++ tail).
    { unfold enc_records. cbn [map concat snd]. rewrite <- !app_assoc. reflexivity. }
    constructor.
    + exists ds, en, o, c, i, es. split; [|auto]. exists g, t. split; [|exact B]. destruct W as (W1 & W2 & _).
      exists pre, (enc_records recs ++ tail). rewrite <- EQ, <- app_assoc. auto.
    + rewrite EQ in F. replace (len pre + len (enc_record (g :: t))) with (len (pre ++ enc_record (g :: t))); [exact F|]. rewrite len_app. lia.
  - cbn [SpecIo.logical_file] in L. destruct L as (_ & _ & L). destruct (IH _ (pre ++ enc_record segs) tail L) as (xss & C & F).
    exists xss. split; [exact C|]. cbn [data_at].
    assert (EQ : (pre ++ enc_record segs) ++ enc_records recs ++ tail = pre ++ enc_records ((e, segs) :: recs) ++ tail).
    { unfold enc_records. cbn [map concat snd]. rewrite <- !app_assoc. reflexivity. }
    rewrite EQ in F. replace (len pre + len (enc_record segs)) with (len (pre ++ enc_record segs)) by (rewrite len_app; lia).
    assert (OF : forall l, offsets_of own (match c with Data w => [(len pre, w)] | _ => [] end ++ l) = offsets_of own l).
    { intros l. destruct c as [w| |[w|]]; try reflexivity. cbn [app offsets_of]. destruct (owner_eqb own w) eqn:E; [|reflexivity].
      apply owner_eqb_eq in E. subst w. contradiction. }
    rewrite OF. exact F.
Qed.
