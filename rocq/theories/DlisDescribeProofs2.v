(** Proofs about describe: attributes of objects in a sound file, and rows of them. *)
From Verif Require Import Bytes BytesProofs Stream PyBase DlisTypes DlisCore SpecTypes DlisRecords CommonPy DlisStore SpecDlisStore DlisStoreProofs DlisStoreProofs2 DlisStoreProofs3 DlisStoreProofs4
  DlisStoreProofs5 DlisStoreProofs6 DlisSchema DlisObject SpecDlisObject DlisObjectProofs DlisObjectProofs2 DlisObjectProofs3 DlisObjectProofs4 DlisObjectProofs5 DlisObjectProofs6 Dimensional SpecDimensional DimensionalProofs2 DimensionalProofs3 DimensionalProofs4
  DlisCurves DlisClasses SpecDlisClasses DlisClassesProofs DlisClassesProofs2 PropDlisObject DlisDescribe SpecDlisDescribe DlisDescribeProofs.
Local Open Scope Z_scope.

Section sound.
Variable maxdims : nat.
Variable dec : bytes -> pystr.
Variable enc : pystr -> bytes.
Variable esc : severity -> bool.
Variable set_order : list pystr -> list pystr.
Variable sets : list object_set.
Hypothesis loaded : as_loaded sets.
Hypothesis parses : parsable sets.
Hypothesis order : a_set_order set_order.
Hypothesis typed : Forall (fun s => SpecDlisStore.kept dec enc (dec (os_type s))) sets.
Hypothesis sound : sound_file dec enc esc sets.
Local Notation sane := (sane dec esc sets).
Local Notation turns := (turns dec sets).
Local Notation readable := (readable dec enc esc sets).
Local Notation performs := (fold_left (perform dec enc esc set_order)).
Local Notation gives := (gives dec enc sets).
Local Notation has_label := (has_label dec).
Local Notation legible := (legible dec enc esc sets).
Local Notation item := (item dec enc esc set_order).
Local Notation unit_of := (unit_of dec enc).
Local Notation values_of := (values_of dec enc).
Local Notation absent := (absent enc).

(** ** Calls that succeed *)
Definition succeeds {A} (m : store -> store * io A) (P : A -> Prop) : Prop :=
  forall st, sane st -> exists ops lg a, Forall (op_ok dec enc) ops /\ m st = (performs ops st, (lg, Ok a)) /\ P a.
Lemma succ_ret {A} (a : A) (P : A -> Prop) : P a -> succeeds (fun st => (st, ret a)) P.
Proof. intros H st SA. exists [], [], a. split; [constructor|]. split; [reflexivity|exact H]. Qed.
Lemma succ_io {A} (m : io A) (P : A -> Prop) : (exists a, m = ret a /\ P a) -> succeeds (fun st => (st, m)) P.
Proof. intros (a & -> & H). apply succ_ret. exact H. Qed.
Lemma succ_chain {A B} (m : store -> store * io A) (k : store -> A -> store * io B) P Q : succeeds m P -> (forall a, P a -> succeeds (fun st => k st a) Q) ->
  succeeds (fun st => chain (m st) k) Q.
Proof.
  intros M K st SA. destruct (M st SA) as (ops & lg & a & O & E & Pa).
  destruct (K a Pa (performs ops st)) as (ops' & lg' & b & O' & E' & Qb); [apply performs_sane; assumption|].
  exists (ops ++ ops'), (lg ++ lg'), b. split; [apply Forall_app; auto|]. split; [|exact Qb]. unfold chain. rewrite E, E', fold_left_app. reflexivity.
Qed.
Lemma succ_weaken {A} (m : store -> store * io A) (P Q : A -> Prop) : succeeds m P -> (forall a, P a -> Q a) -> succeeds m Q.
Proof. intros M H st SA. destruct (M st SA) as (ops & lg & a & O & E & Pa). exists ops, lg, a. auto. Qed.

(** ** Objects *)
Definition in_file (x : pyobject) : Prop := exists s o, In s sets /\ In o (objects_in s) /\ x = promote dec o.
Lemma in_file_from x : in_file x -> from_file (po_attic x).
Proof. intros (s & o & Is & Io & ->). exact (file_objects sets loaded s o Is Io). Qed.
Lemma in_file_promote x : in_file x -> promote dec (po_attic x) = x.
Proof. intros (s & o & _ & _ & ->). reflexivity. Qed.
Lemma in_file_sound x : in_file x -> sound_object dec enc esc sets (po_attic x).
Proof. intros (s & o & Is & Io & ->). exact (sound s o Is Io). Qed.
Lemma referred t n o : the_object dec sets t n o -> in_file (promote dec o) /\ dec (obj_type o) = t.
Proof.
  intros (rest & C & _). assert (I : In o (candidates dec t (dec (ob_id n)) (Some (ob_origin n)) (Some (ob_copy n)) sets)) by (rewrite C; left; reflexivity).
  unfold candidates in I. apply filter_In in I as [I _]. unfold selected in I. apply in_flat_map in I as (s & Is & Io).
  apply filter_In in Is as [Is E]. apply filter_In in Io as [Io _]. apply pystr_eqb_spec in E. split; [exists s, o; auto|].
  rewrite (objects_in_type sets loaded s o Is Io). auto.
Qed.
Lemma legible_label x key : in_file x -> has_label x key -> legible x key.
Proof. intros I H. destruct (in_file_sound x I) as (L & _). rewrite (in_file_promote x I) in L. exact (L key H). Qed.
Lemma rule_exists sc key : exists r, rule_for sc key r.
Proof.
  destruct (in_dec pystr_dec key (map fst (sc_attributes sc))) as [I|N]; [|exists Vector; right; auto].
  apply in_map_iff in I as ([k r] & E & I). cbn [fst] in E. subst k. exists r. left. exact I.
Qed.
Lemma item_legible x key : from_file (po_attic x) -> has_label x key -> legible x key -> succeeds (item x key) (gives x key).
Proof.
  intros I HL (l & c & vs & lg & LF & ST & C1 & C2 & RD) st SA. destruct (rule_exists (schema_of x) key) as (r & RF).
  destruct (getitem_ok dec enc esc set_order sets loaded parses order typed st (schema_of x) (po_attic x) key r l c vs lg) as (xs & res & ops & T & S & R & O & E); try assumption.
  { apply C37_tables. }
  unfold DlisDescribe.item. destruct (getitem dec enc esc set_order st (schema_of x) (po_attic x) key) as [st' [lg' r']]. cbn [fst snd] in R, E. subst r' st'.
  exists ops, (lg' ++ []), res. split; [exact O|]. split; [reflexivity|]. exists r, l, c, vs, lg, xs. auto 10.
Qed.
Lemma item_ok x key : in_file x -> has_label x key -> succeeds (item x key) (gives x key).
Proof. intros I H. apply item_legible; [apply in_file_from; exact I|exact H|apply legible_label; assumption]. Qed.
Lemma rule_unique sc key r r' : a_schema sc -> rule_for sc key r -> rule_for sc key r' -> r = r'.
Proof. intros A R R'. apply (rule_for_get sc key r A) in R. apply (rule_for_get sc key r' A) in R'. congruence. Qed.
Lemma link_unique sc key l l' : a_schema sc -> link_for sc key l -> link_for sc key l' -> l = l'.
Proof. intros A R R'. apply (link_for_get sc key l A) in R. apply (link_for_get sc key l' A) in R'. congruence. Qed.
Lemma label_once x a a' : in_file x -> In a (obj_attrs (po_attic x)) -> In a' (obj_attrs (po_attic x)) -> at_label a = at_label a' -> a = a'.
Proof.
  intros I Ia Ia' E. destruct (in_file_from x I) as (_ & FU & _). pose proof (attr_at_in (at_label a') _ a FU Ia E) as X. rewrite (attr_at_in (at_label a') _ a' FU Ia' eq_refl) in X. congruence.
Qed.
Lemma stored_unique x key c vs lg c' vs' lg' : in_file x -> stored enc (po_attic x) key c vs lg -> stored enc (po_attic x) key c' vs' lg' ->
  vs = vs' /\ lg = lg' /\ (vs <> [] -> c = c').
Proof.
  intros I S S'. destruct S as [c N|c a Ia La Va|a c vs Ia La Va]; inversion S' as [c1 N1|c1 a1 Ia1 La1 Va1|a1 c1 vs1 Ia1 La1 Va1]; subst; try (repeat split; intros; congruence);
    try (exfalso; match goal with H : ~ In ?k _ |- _ => apply H; apply in_map_iff; eexists; split; eassumption end);
    assert (a1 = a) as -> by (apply (label_once x); congruence); repeat split; try congruence.
Qed.
Lemma gives_unique x key r r' : in_file x -> gives x key r -> gives x key r' -> r = r'.
Proof.
  intros I (rl & l & c & vs & lg & xs & RF & LF & ST & T & S) (rl' & l' & c' & vs' & lg' & xs' & RF' & LF' & ST' & T' & S').
  pose proof (proj1 (C37_tables x)) as A. assert (rl' = rl) as -> by (eapply rule_unique; eassumption). assert (l' = l) as -> by (eapply link_unique; eassumption).
  destruct (stored_unique x key c vs lg c' vs' lg' I ST ST') as (<- & _ & C). destruct vs as [|v vs].
  - inversion T; subst. inversion T'; subst. apply (one_result dec sets rl l c [] [] [] r r'); try assumption; constructor.
  - rewrite <- (C ltac:(discriminate)) in T'. exact (one_result dec sets rl l c (v :: vs) xs xs' r r' T S T' S').
Qed.
(** the shape by the rule of the class *)
Lemma gives_vector x key r : gives x key r -> In (key, Vector) (sc_attributes (schema_of x)) \/ In (key, Reverse) (sc_attributes (schema_of x)) -> exists xs, r = RMany xs.
Proof.
  intros (rl & l & c & vs & lg & xs & RF & _ & _ & _ & S) R. pose proof (proj1 (C37_tables x)) as A.
  assert (E : rl = Vector \/ rl = Reverse) by (destruct R as [R|R]; [left|right]; eapply rule_unique; try eassumption; left; exact R).
  destruct E as [-> | ->]; inversion S; subst; eexists; reflexivity.
Qed.
Lemma gives_scalar x key r : gives x key r -> In (key, Scalar) (sc_attributes (schema_of x)) -> r = RNone \/ exists v, r = ROne v.
Proof.
  intros (rl & l & c & vs & lg & xs & RF & _ & _ & _ & S) R. pose proof (proj1 (C37_tables x)) as A.
  assert (rl = Scalar) as -> by (eapply rule_unique; try eassumption; left; exact R). inversion S; subst; eauto.
Qed.
(** the objects it gives are in the file and of the type that is linked to *)
Definition listed_in (r : result) (v : pyval) : Prop := match r with ROne w => v = w | RMany l => In v l | _ => False end.
Lemma shaped_in rl xs r v : shaped rl xs r -> listed_in r v -> In v xs.
Proof.
  intros S H. destruct S as [|w vs| | |vs|vs ws L N]; cbn [listed_in] in H; try contradiction; try exact H; [subst; left; reflexivity|].
  apply In_nth_error in H as (i & E). assert (Li : (i < length ws)%nat) by (apply nth_error_Some; congruence). rewrite N in E by lia. exact (nth_error_In _ _ E).
Qed.
Lemma forall2_in {A B} (R : A -> B -> Prop) l l' y : Forall2 R l l' -> In y l' -> exists x, In x l /\ R x y.
Proof. induction 1 as [|a b l l' H F IH]; intros I; [destruct I|]. destruct I as [<-|I]; [exists a; split; [left; reflexivity|exact H]|]. destruct (IH I) as (x & Ix & Rx). exists x. split; [right; exact Ix|exact Rx]. Qed.
Lemma turns_object l c v p : turns l c v (PObject p) -> in_file p /\ forall t, l = Some (ToName t) -> dec (obj_type (po_attic p)) = t.
Proof.
  intros T. inversion T as [| | | | |v' t n o R H| | | |]; subst. destruct (referred t n o H) as [I E]. split; [exact I|].
  intros t' ->. inversion R; subst. reflexivity.
Qed.
Lemma gives_object x key r p : in_file x -> gives x key r -> listed_in r (PObject p) ->
  in_file p /\ forall t, In (key, ToName t) (sc_linkage (schema_of x)) -> dec (obj_type (po_attic p)) = t.
Proof.
  intros I (rl & l & c & vs & lg & xs & RF & LF & ST & T & S) H. pose proof (proj1 (C37_tables x)) as A. apply (shaped_in rl xs r (PObject p) S) in H.
  destruct (forall2_in _ _ _ _ T H) as (v & Iv & Tv). destruct (turns_object l c v p Tv) as [J K]. split; [exact J|].
  intros t IL. apply K. eapply link_unique; try eassumption.
Qed.
(** lists have text of one kind *)
Lemma mixed_false l : (forall u, ~ In (PText (Str u)) l) \/ (forall u, ~ In (PText (Raw u)) l) -> mixed_text l = false.
Proof.
  intros H. unfold mixed_text. apply not_true_is_false. intros X. apply andb_true_iff in X as [X Y]. apply existsb_exists in X as (v & Iv & X). apply existsb_exists in Y as (w & Iw & Y).
  destruct v as [| |[u|u]| | | | | |]; try discriminate. destruct w as [| |[u'|u']| | | | | |]; try discriminate. destruct H as [H|H]; eapply H; eassumption.
Qed.
Lemma stored_uniform x key c vs lg : in_file x -> stored enc (po_attic x) key c vs lg ->
  (forall t, In (VText t) vs -> exists u, dec t = Str u) \/ (forall t, In (VText t) vs -> exists u, dec t = Raw u).
Proof.
  intros I ST. destruct (in_file_sound x I) as (_ & _ & U). destruct ST as [c N|c a Ia La Va|a c vs Ia La Va]; try (left; intros t []). destruct (U a Ia) as [_ X]. exact (X c vs Va).
Qed.
Lemma turns_printable x key c vs lg l xs : in_file x -> stored enc (po_attic x) key c vs lg -> Forall2 (turns l c) vs xs -> mixed_text xs = false.
Proof.
  intros I ST T. apply mixed_false. destruct (stored_uniform x key c vs lg I ST) as [U|U]; [right|left]; intros u J; destruct (forall2_in _ _ _ _ T J) as (v & Iv & Tv);
    inversion Tv as [| |s a b D TR|s b D| | | | | |]; subst; destruct (U s Iv) as (w & E); congruence.
Qed.
Lemma mixed_incl l l' : incl l' l -> mixed_text l = false -> mixed_text l' = false.
Proof.
  intros I M. apply not_true_is_false. intros X. unfold mixed_text in *. apply andb_true_iff in X as [X Y]. apply existsb_exists in X as (v & Iv & X). apply existsb_exists in Y as (w & Iw & Y).
  apply andb_false_iff in M as [M|M]; apply not_true_iff_false in M; apply M; apply existsb_exists; [exists v|exists w]; split; auto.
Qed.
Lemma gives_printable x key r : in_file x -> gives x key r -> unprintable (SResult r) = false.
Proof.
  intros I (rl & l & c & vs & lg & xs & RF & LF & ST & T & S). destruct r as [| |ys|]; try reflexivity. cbn [unprintable].
  apply (mixed_incl xs); [|exact (turns_printable x key c vs lg l xs I ST T)]. intros v Iv. exact (shaped_in rl xs (RMany ys) v S Iv).
Qed.
(** names *)
Lemma names_of xs : Forall2 (name_of dec) xs (map (replist_one dec) xs).
Proof. induction xs as [|v xs IH]; cbn [map]; constructor; [|exact IH]. destruct v; cbn [replist_one]; try (apply name_other; intros; discriminate). apply name_object. Qed.
Lemma names_printable xs : (forall p, In (PObject p) xs -> in_file p) -> unprintable (SNames (map (replist_one dec) xs)) = false.
Proof.
  intros H. cbn [unprintable]. apply mixed_false. right. intros u J. apply in_map_iff in J as (w & E & J). apply in_map_iff in J as (v & <- & J).
  destruct v; cbn [replist_one as_value] in E; try discriminate. destruct (in_file_sound _ (H _ J)) as (_ & (s & N) & _). unfold po_name in E. congruence.
Qed.

(** ** Units *)
Lemma attic_label x a : in_file x -> In a (obj_attrs (po_attic x)) -> attic_get enc (po_attic x) (dec (at_label a)) = Some a.
Proof. intros I Ia. destruct (in_file_from x I) as (_ & FU & _). destruct (in_file_sound x I) as (_ & _ & U). unfold attic_get. apply (attr_at_in _ _ a FU Ia). symmetry. apply U. exact Ia. Qed.
Lemma retrieve_label x key : in_file x -> has_label x key -> SpecDlisStore.kept dec enc key \/ In key (keys dec (po_attic x)) ->
  succeeds (retrieve dec enc esc set_order x (GText key)) (fun e => exists r, gives x key r /\ fst e = SResult r /\ unit_of x key (snd e)).
Proof.
  intros I H K. unfold retrieve. cbv iota beta. destruct (existsb (pystr_eqb key) (keys dec (po_attic x))) eqn:X.
  - apply in_keys in X. unfold keys in X. apply in_map_iff in X as (a & <- & Ia). cbv iota beta. apply (succ_chain (item x (dec (at_label a))) _ _ _ (item_ok x (dec (at_label a)) I H)). intros r G. rewrite (attic_label x a I Ia).
    apply succ_ret. exists r. split; [exact G|]. split; [reflexivity|]. cbn [snd]. apply unit_present; [exact Ia|]. destruct (in_file_sound x I) as (_ & _ & U). symmetry. apply U. exact Ia.
  - assert (N : ~ In key (keys dec (po_attic x))) by (intros J; apply in_keys in J; congruence).
    assert (C : In key (map fst (sc_attributes (schema_of x)))) by (destruct H as [H|H]; [exact H|exfalso; exact (N H)]).
    cbv iota beta. rewrite (proj2 (known_key key (sc_attributes (schema_of x))) C). apply (succ_chain (item x key) _ _ _ (item_ok x key I H)). intros r G. apply succ_ret. exists r. split; [exact G|]. split; [reflexivity|].
    cbn [snd]. apply unit_absent. intros J. apply in_map_iff in J as (a & E & Ia). destruct K as [K|K]; [|exact (N K)]. apply N. apply in_map_iff. exists a. split; [|exact Ia]. rewrite E. exact K.
Qed.
Lemma retrieve_free x s : ~ has_label x s -> succeeds (retrieve dec enc esc set_order x (GText s)) (fun e => e = (SResult (ROne (PText s)), None)).
Proof.
  intros N. unfold retrieve. cbv iota beta.
  assert (X : existsb (pystr_eqb s) (keys dec (po_attic x)) = false) by (apply not_true_is_false; intros X; apply in_keys in X; apply N; right; exact X).
  assert (Y : existsb (fun e => pystr_eqb s (fst e)) (sc_attributes (schema_of x)) = false) by (apply not_true_is_false; intros Y; apply known_key in Y; apply N; left; exact Y).
  rewrite X, Y. apply succ_ret. reflexivity.
Qed.

(** ** Samples *)
Lemma values_exist x key : in_file x -> absent x key \/ exists data a, In a (obj_attrs (po_attic x)) /\ at_label a = enc key /\ attic_get enc (po_attic x) key = Some a /\ values_of x key data /\
  mixed_text data = false /\ (data <> [] -> one_kind data) /\
  (attribute_value dec a = Some (Some data) \/ data = [] /\ attribute_value dec a = Some None).
Proof.
  intros I. destruct (in_dec (list_eq_dec Byte.byte_eq_dec) (enc key) (map at_label (obj_attrs (po_attic x)))) as [J|N]; [|left; exact N]. right.
  apply in_map_iff in J as (a & La & Ia). destruct I as (s & o & Is & Io & EX). assert (I : in_file x) by (exists s, o; auto).
  destruct (in_file_from x I) as (_ & FU & _). pose proof (attr_at_in _ _ a FU Ia La) as AT.
  destruct (at_value a) as [|c vs] eqn:V.
  { exists [], a. split; [exact Ia|]. split; [exact La|]. split; [exact AT|]. split; [eapply values_none; eassumption|]. split; [reflexivity|]. split; [congruence|]. right. split; [reflexivity|]. unfold attribute_value. rewrite V. reflexivity. }
  assert (H : has_label x (dec (at_label a))) by (right; apply in_map_iff; exists a; auto).
  destruct (legible_label x _ I H) as (l & c' & vs' & lg & LF & ST & C1 & C2 & RD). destruct (in_file_sound x I) as (_ & _ & U). destruct (U a Ia) as [E UN].
  assert (S2 : stored enc (po_attic x) (dec (at_label a)) c vs (at_log a)) by (apply stored_values; auto).
  destruct (stored_unique x _ _ _ _ _ _ _ I ST S2) as (-> & _ & _). clear ST.
  assert (D : exists data, Forall2 (stands dec c) vs data).
  { clear - RD. induction RD as [|v vs [R _] F (data & IH)]; [exists []; constructor|]. destruct v as [z|zs|t|t|n|r|r]; try (eexists; constructor; [solve [constructor]|exact IH]).
    destruct (to_pydatetime t) as [d|] eqn:T; [|exfalso; exact (R t eq_refl T)]. eexists. constructor; [constructor; exact T|exact IH]. }
  destruct D as (data & D). exists data, a. split; [exact Ia|]. split; [exact La|]. split; [exact AT|]. split; [eapply values_some; eassumption|]. split.
  - apply mixed_false. destruct (UN c vs V) as [X|X]; [right|left]; intros u J; destruct (forall2_in _ _ _ _ D J) as (v & Iv & Tv); inversion Tv; subst; destruct (X s0 Iv) as (w & Ew); congruence.
  - split.
    + intros _. subst x. pose proof (DlisObjectProofs.objects_in_ok typed_value typed_cast typed_default sets loaded s o Is Io) as (FT & _).
      pose proof (proj1 (Forall_forall _ _) FT a Ia) as Ta. unfold attr_ok in Ta. rewrite V in Ta. cbn [vals_ok] in Ta. exact (kinds dec c vs data Ta D (UN c vs V)).
    + left. unfold attribute_value. rewrite V, (to_py_stands dec c vs data D). reflexivity.
Qed.
Lemma sample_ok data shape single : one_kind data -> data <> [] -> Forall (Z.le 1) shape -> small maxdims data shape ->
  exists out, outcome data shape None out /\
    match out with
    | Some (first :: rest) => sample maxdims (Some data) (Some shape) single = Sampled (if single then first else Arr (first :: rest))
    | Some [] => False
    | None => sample maxdims (Some data) (Some shape) single = WrongShape
    end.
Proof.
  intros K N F S. assert (C : In 15 integer_codes) by (cbn; tauto). destruct (structured_ok maxdims data 15 shape None single K N C F S) as (out & O & E).
  exists out. split; [exact O|]. unfold structured in E. rewrite (integers 15 shape C) in E. cbn [sample].
  assert (B : shape <> [] -> volume shape < 2 ^ 63).
  { intros _. destruct S as (_ & w & Fm & B). destruct data as [|v data]; [contradiction|]. inversion Fm as [|? ? M _]; subst. cbn beta in M.
    pose proof (memory_pos (v :: data) v K (or_introl eq_refl)). pose proof (volume_pos _ F). nia. }
  destruct out as [[|first rest]|].
  - (* an array has at least one sample *)
    assert (LEN : forall sh, volume sh >= 1 -> samples_of data sh [] -> False).
    { intros sh V (_ & L & _). cbn [length] in L. destruct data; [contradiction|]. cbn [length] in L. lia. }
    pose proof (volume_pos _ F). inversion O as [l NS D Sm|N1 D|l Es Cs Sm|Es Cs L]; subst.
    + apply (LEN shape); [lia|exact Sm].
    + apply (LEN [1]); [cbn; lia|exact Sm].
  - destruct (validshape (Some data) shape None) as [sh|]; cbn [obind] in E; [|discriminate]. rewrite E. destruct single; reflexivity.
  - assert (V : validshape (Some data) shape None = None).
    { destruct (validshape (Some data) shape None) as [sh|] eqn:V; [exfalso|reflexivity]. inversion O as [l NS D Sm|NS D|l Es Cs Sm|Es Cs L]; subst.
      - apply validshape_given in V as [_ V]; auto.
      - apply validshape_inferred in V as [_ [V|V]]; auto. }
    rewrite V. reflexivity.
Qed.
Lemma sample_empty value shape single : value = None \/ value = Some [] -> sample maxdims value (Some shape) single = Sampled (Arr []).
Proof. intros [-> | ->]; reflexivity. Qed.
Lemma values_unique x key data data' : in_file x -> values_of x key data -> values_of x key data' -> data = data'.
Proof.
  intros I V V'. assert (P : forall d, values_of x key d -> exists a, In a (obj_attrs (po_attic x)) /\ at_label a = enc key /\ match attribute_value dec a with Some (Some l) => d = l | Some None => d = [] | None => False end).
  { intros d [a Ia La Va|a c vs d' Ia La Va S]; exists a; (split; [exact Ia|]; split; [exact La|]); unfold attribute_value; rewrite Va; [reflexivity|]. rewrite (to_py_stands dec c vs d' S). reflexivity. }
  destruct (P _ V) as (a & Ia & La & E). destruct (P _ V') as (a' & Ia' & La' & E'). assert (a' = a) as -> by (apply (label_once x); congruence).
  destruct (attribute_value dec a) as [[l|]|]; congruence || contradiction.
Qed.
End sound.
