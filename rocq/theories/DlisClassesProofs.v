(** Proofs about the listings of a logical file. *)
From Coq Require Import Permutation.
From Verif Require Import Bytes BytesProofs Stream PyBase DlisTypes DlisCore CoreProofs2 SpecTypes DlisRecords CommonPy DlisStore SpecDlisStore DlisStoreProofs DlisStoreProofs2 DlisStoreProofs3 DlisStoreProofs4
  DlisStoreProofs5 DlisSchema DlisObject SpecDlisObject DlisObjectProofs DlisObjectProofs2 DlisObjectProofs3 DlisCurves SpecDlisCurves DlisCurvesProofs DlisClasses SpecDlisClasses.
Local Open Scope Z_scope.

(** ** Objects have the type of their set *)
Lemma parse_objects_type fuel type tmpl : forall objs xs, Forall (fun o => obj_type o = type) objs ->
  Forall (fun o => obj_type o = type) (fst (parse_objects fuel type tmpl objs xs)).
Proof.
  induction fuel as [|fuel IH]; intros objs [|d xs] H; cbn [parse_objects]; try exact H.
  destruct (parse_object type tmpl d xs) as [[o x2]| | |] eqn:E; try exact H. apply IH. apply Forall_app. split; [exact H|]. constructor; [|constructor].
  unfold parse_object in E. destruct (parse_object_descriptor d) as [named|]; [|discriminate].
  destruct (dlis_obname xs) as [[nm x1]|] eqn:EN; cbn [unchecked rbind] in E; [|discriminate].
  destruct (object_attrs tmpl _ true x1) as [[[l c] r]| | |] eqn:EA; cbn [rbind] in E; try discriminate.
  injection E as <- _. reflexivity.
Qed.
Lemma objects_in_type sets : as_loaded sets -> forall s o, In s sets -> In o (objects_in s) -> obj_type o = os_type s.
Proof.
  intros L s o Is. pose proof (proj1 (Forall_forall _ _) L s Is) as N. unfold objects_in, parse_set. unfold new_set in N.
  destruct (parse_set_component (os_data s)) as [lg [[[[role type] name] xs]| | |]]; try discriminate.
  assert (B : os_objs s = [] /\ os_parsed s = false /\ os_type s = type).
  { destruct s as [a1 a2 a3 a4 a5 a6 a7]. injection N. intros. subst. repeat split. }
  destruct B as (B1 & B2 & B3). rewrite B1, B2, B3.
  destruct (parse_template (S (length xs)) [] lg xs) as [[tmpl lg'] [ys| | |]]; try (intros []).
  pose proof (parse_objects_type (length ys) type tmpl [] ys (Forall_nil _)) as PO.
  destruct (parse_objects (length ys) type tmpl [] ys) as [objs [[]| | |]]; cbn [fst os_objs] in PO |- *; try (intros []);
    intros Io; exact (proj1 (Forall_forall _ _) PO o Io).
Qed.

(** ** Dictionaries *)
Lemma dict_put_keys {A} k0 (v : A) d k : In k (map fst (dict_put k0 v d)) <-> k = k0 \/ In k (map fst d).
Proof.
  induction d as [|[k' v'] d IH]; cbn [dict_put map fst In]; [intuition auto|].
  destruct (pystr_eqb k0 k') eqn:E; cbn [map fst In].
  - apply pystr_eqb_spec in E. subst k'. intuition auto.
  - rewrite IH. intuition auto.
Qed.
Lemma dict_put_nodup {A} k0 (v : A) d : NoDup (map fst d) -> NoDup (map fst (dict_put k0 v d)).
Proof.
  induction d as [|[k' v'] d IH]; cbn [dict_put map fst]; intros N; [constructor; [intros []|constructor]|].
  apply NoDup_cons_iff in N as [N1 N2]. destruct (pystr_eqb k0 k') eqn:E; cbn [map fst]; constructor; try assumption; [|apply IH; exact N2].
  rewrite dict_put_keys. intros [->|I]; [|exact (N1 I)]. rewrite (proj2 (pystr_eqb_spec k0 k0) eq_refl) in E. discriminate.
Qed.
Lemma dict_put_in {A} k0 (v : A) d k w : In (k, w) (dict_put k0 v d) -> k = k0 /\ w = v \/ In (k, w) d.
Proof.
  induction d as [|[k' v'] d IH]; cbn [dict_put In]; [intros [[= <- <-]|[]]; auto|].
  destruct (pystr_eqb k0 k') eqn:E; cbn [In].
  - apply pystr_eqb_spec in E. subst k'. intros [[= <- <-]|I]; auto.
  - intros [I|I]; [auto|]. destruct (IH I); auto.
Qed.

(** ** Classes *)
Definition known (t : pystr) : bool := existsb (fun k => pystr_eqb (lit k) t) known_types.
Lemma known_standard t : known t = true <-> standard t.
Proof.
  unfold known, standard. rewrite existsb_exists. split.
  - intros (k & I & E). apply pystr_eqb_spec in E. subst t. cbn [known_types In] in I.
    repeat (destruct I as [<-|I]; [(left; reflexivity) || (right; cbn [listed_types map fst In]; tauto)|]). destruct I.
  - intros H. assert (I : In t (map lit known_types)).
    { destruct H as [->|H]; [cbn [known_types map In]; tauto|]. cbn [listed_types map fst In] in H. cbn [known_types map In].
      repeat (destruct H as [<-|H]; [tauto|]). destruct H. }
    apply in_map_iff in I as (k & <- & I). exists k. split; [exact I|]. apply pystr_eqb_spec. reflexivity.
Qed.
Lemma class_spec dec o t : po_class (promote dec o) = Some t <-> t = dec (obj_type o) /\ standard t.
Proof.
  unfold promote. cbn [po_class]. fold (known (dec (obj_type o))). pose proof (known_standard (dec (obj_type o))) as K.
  destruct (known (dec (obj_type o))).
  - split; [intros [= <-]; split; [reflexivity|apply K; reflexivity]|intros [-> _]; reflexivity].
  - split; [discriminate|]. intros [-> S]. apply K in S. discriminate.
Qed.
Lemma class_none dec o : po_class (promote dec o) = None <-> ~ standard (dec (obj_type o)).
Proof.
  pose proof (known_standard (dec (obj_type o))) as K. unfold promote. cbn [po_class]. fold (known (dec (obj_type o))).
  destruct (known (dec (obj_type o))); split; try discriminate.
  - intros N. exfalso. apply N, K. reflexivity.
  - intros _ S. apply K in S. discriminate.
  - reflexivity.
Qed.

(** ** Unknown objects *)
Section listings.
Variable dec : bytes -> pystr.
Variable enc : pystr -> bytes.
Variable esc : severity -> bool.
Variable set_order : list pystr -> list pystr.
Variable sets : list object_set.
Hypothesis loaded : as_loaded sets.
Hypothesis parses : parsable sets.
Hypothesis order : a_set_order set_order.
Hypothesis typed : Forall (fun s => SpecDlisStore.kept dec enc (dec (os_type s))) sets.
Local Notation sane := (sane dec esc sets).
Local Notation of_type := (of_type dec sets).
Local Notation shown := (shown dec enc).

Lemma fingerprint_shown o : from_file o -> enc (dec (obj_type o)) <> [] -> exists fp, shown o fp /\ fingerprint dec enc o = ret fp.
Proof.
  intros F N. destruct (fingerprint_ok dec enc o F N) as [k E]. pose proof F as (_ & _ & RO & RC).
  exists (dec k). unfold fingerprint. rewrite E. split; [|reflexivity]. exists k. split; [|reflexivity].
  apply printed_ok_iff in E; [exact E|lia].
Qed.
Lemma shown_unique o fp fp' : shown o fp -> shown o fp' -> fp = fp'.
Proof. intros (k & P & <-) (k' & P' & <-). rewrite (printed_unique _ _ _ _ _ _ P P'). reflexivity. Qed.
Lemma fingerprint_untyped o : enc (dec (obj_type o)) = [] -> fingerprint dec enc o = fail.
Proof. intros N. unfold fingerprint. rewrite N, (fingerprint_rejects [] _ _ _ (or_introl eq_refl)). reflexivity. Qed.

Lemma by_fingerprint_ok objs : Forall (fun x => from_file (po_attic x) /\ enc (dec (obj_type (po_attic x))) <> []) objs ->
  forall d, NoDup (map fst d) -> exists e, by_fingerprint dec enc objs d = ret e /\ NoDup (map fst e) /\
    (forall fp, In fp (map fst e) <-> In fp (map fst d) \/ exists x, In x objs /\ shown (po_attic x) fp) /\
    (forall fp x, In (fp, x) e -> In (fp, x) d \/ In x objs /\ shown (po_attic x) fp).
Proof.
  induction 1 as [|x objs [F N] FA IH]; intros d ND; cbn [by_fingerprint].
  - exists d. split; [reflexivity|]. split; [exact ND|]. split; [|auto]. intros fp. split; [auto|]. intros [I|(x & [] & _)]. exact I.
  - destruct (fingerprint_shown _ F N) as (fp & S & ->). destruct (IH (dict_put fp x d) (dict_put_nodup _ _ _ ND)) as (e & E & N' & K & V).
    exists e. split; [cbn [bind ret]; rewrite E; reflexivity|]. split; [exact N'|]. split.
    + intros f. rewrite K, dict_put_keys. split.
      * intros [[->|I]|(y & I & SY)]; [right; exists x; split; [left; reflexivity|exact S]|left; exact I|right; exists y; split; [right; exact I|exact SY]].
      * intros [I|(y & [<-|I] & SY)]; [left; right; exact I|left; left; exact (shown_unique _ _ _ SY S)|right; exists y; auto].
    + intros f y I. destruct (V f y I) as [I'|[I' SY]]; [|right; split; [right; exact I'|exact SY]].
      apply dict_put_in in I' as [[-> ->]|I']; [right; split; [left; reflexivity|exact S]|left; exact I'].
Qed.
Lemma by_fingerprint_fails x objs d : enc (dec (obj_type (po_attic x))) = [] -> by_fingerprint dec enc (x :: objs) d = fail.
Proof. intros N. cbn [by_fingerprint]. rewrite (fingerprint_untyped _ N). reflexivity. Qed.

Lemma selected_of_type t o : In o (selected dec (pystr_eqb t) (fun _ => true) sets) <-> of_type t o.
Proof.
  unfold selected, of_type, SpecDlisClasses.of_type. rewrite in_flat_map. split.
  - intros (s & Is & Io). apply filter_In in Is as [Is E]. apply filter_In in Io as [Io _]. apply pystr_eqb_spec in E. exists s. auto.
  - intros (s & Is & E & Io). exists s. split; apply filter_In; split; try assumption; [|reflexivity]. apply pystr_eqb_spec. auto.
Qed.

(** types that make it raise *)
Definition bad (t : pystr) : Prop :=
  exists s, In s sets /\ dec (os_type s) = t /\ (raising esc s = true \/ enc t = [] /\ exists o, of_type t o).
Definition entry (p : pystr * list (pystr * pyobject)) : Prop :=
  NoDup (map fst (snd p)) /\
  (forall fp, In fp (map fst (snd p)) <-> exists o, of_type (fst p) o /\ shown o fp) /\
  (forall fp x, In (fp, x) (snd p) -> po_class x = None /\ of_type (fst p) (po_attic x) /\ shown (po_attic x) fp).
Lemma find_type st t : sane st -> SpecDlisStore.kept dec enc t ->
  sane (fst (store_find dec enc esc set_order st t None (Some exact))) /\
  if selected_raises dec esc (pystr_eqb t) sets then snd (snd (store_find dec enc esc set_order st t None (Some exact))) = Exn
  else exists objs, snd (snd (store_find dec enc esc set_order st t None (Some exact))) = Ok objs /\
    forall x, In x objs <-> exists o, of_type t o /\ x = promote dec o.
Proof.
  intros SA K. split; [apply store_find_sane; assumption|].
  pose proof (find_any dec enc esc set_order sets parses order typed st t None (Some exact) pystr_eqb SA K) as FA.
  cbn [the_matcher exact pm_match pm_exact] in FA. specialize (FA ltac:(discriminate) ltac:(reflexivity) ltac:(reflexivity)).
  destruct (selected_raises _ _ _ _); [exact FA|]. destruct FA as (objs & E & P). exists objs. split; [exact E|]. intros x. cbn [wanted] in P. split.
  - intros I. apply (Permutation_in _ P) in I. apply in_map_iff in I as (o & <- & I). exists o. split; [apply selected_of_type; exact I|reflexivity].
  - intros (o & I & ->). apply (Permutation_in _ (Permutation_sym P)). apply in_map. apply selected_of_type. exact I.
Qed.
Lemma raises_iff t : selected_raises dec esc (pystr_eqb t) sets = true <-> exists s, In s sets /\ dec (os_type s) = t /\ raising esc s = true.
Proof.
  unfold selected_raises. rewrite existsb_exists. split.
  - intros (s & Is & E). apply andb_true_iff in E as [E R]. apply pystr_eqb_spec in E. exists s. auto.
  - intros (s & Is & E & R). exists s. split; [exact Is|]. rewrite R, andb_true_r. apply pystr_eqb_spec. auto.
Qed.

Lemma unknowns_loop_ok ts : Forall (fun t => SpecDlisStore.kept dec enc t /\ exists s, In s sets /\ dec (os_type s) = t) ts -> forall st d, sane st ->
  NoDup (map fst d) -> Forall entry d ->
  let r := snd (snd (unknowns_loop dec enc esc set_order st ts d)) in
  ((exists t, In t ts /\ ~ standard t /\ bad t) -> r = Exn) /\
  ((forall t, In t ts -> ~ standard t -> ~ bad t) -> exists d', r = Ok d' /\ NoDup (map fst d') /\ Forall entry d' /\
     forall t, In t (map fst d') <-> In t (map fst d) \/ In t ts /\ ~ standard t).
Proof.
  induction 1 as [|t ts [K TS] FA IH]; intros st d SA ND EN; cbn [unknowns_loop].
  - split; [intros (t & [] & _)|]. intros _. exists d. split; [reflexivity|]. split; [exact ND|]. split; [exact EN|].
    intros t. cbn [In]. tauto.
  - fold (known t). pose proof (known_standard t) as KS. destruct (known t) eqn:KT.
    { destruct (IH st d SA ND EN) as [I1 I2]. assert (ST : standard t) by (apply KS; reflexivity). split.
      - intros (t' & [<-|I] & N & B); [contradiction|]. apply I1. exists t'. auto.
      - intros H. destruct I2 as (d' & E & N' & E' & Q); [intros t' I; apply H; right; exact I|]. exists d'. split; [exact E|]. split; [exact N'|]. split; [exact E'|].
        intros x. rewrite Q. cbn [In]. split; [intuition auto|]. intros [I|[[<-|I] NS]]; [auto|contradiction|auto]. }
    assert (NS : ~ standard t) by (intros S; apply KS in S; discriminate).
    destruct (find_type st t SA K) as [SA' FT]. pose proof (raises_iff t) as RI.
    destruct (store_find dec enc esc set_order st t None (Some exact)) as [st1 [l1 r1]]. cbn [fst snd] in SA', FT.
    destruct (selected_raises dec esc (pystr_eqb t) sets).
    { subst r1. cbn [chain snd]. split; [reflexivity|]. intros H. exfalso. apply (H t (or_introl eq_refl) NS).
      destruct (proj1 RI eq_refl) as (s & Is & E & R). exists s. auto. }
    destruct FT as (objs & -> & MO).
    assert (FO : Forall (fun x => from_file (po_attic x) /\ obj_type (po_attic x) = obj_type (po_attic x) /\ dec (obj_type (po_attic x)) = t) objs).
    { apply Forall_forall. intros x I. apply MO in I as (o & (s & Is & E & Io) & ->). change (po_attic (promote dec o)) with o.
      split; [exact (file_objects sets loaded s o Is Io)|]. split; [reflexivity|]. rewrite (objects_in_type sets loaded s o Is Io). exact E. }
    destruct (list_eq_dec Byte.byte_eq_dec (enc t) []) as [EM|EM].
    + destruct objs as [|x objs].
      * cbn [chain by_fingerprint ret]. destruct (IH st1 (dict_put t [] d) SA' (dict_put_nodup _ _ _ ND)) as [I1 I2].
        { apply Forall_forall. intros [k e] I. apply dict_put_in in I as [[-> ->]|I]; [|exact (proj1 (Forall_forall _ _) EN _ I)].
          split; [constructor|]. cbn [fst snd map In]. split; [|intros fp x []]. intros fp. split; [intros []|].
          intros (o & O & _). exact (proj2 (MO (promote dec o)) (ex_intro _ o (conj O eq_refl))). }
        destruct (unknowns_loop dec enc esc set_order st1 ts (dict_put t [] d)) as [st2 [l2 r2]]. cbn [snd fst] in I1, I2 |- *.
        assert (NB : ~ bad t).
        { intros (s & Is & E & [R|[_ (o & O)]]); [assert (X : false = true) by (apply RI; exists s; auto); discriminate X|].
          exact (proj2 (MO (promote dec o)) (ex_intro _ o (conj O eq_refl))). }
        split.
        -- intros (t' & [<-|I] & N & B); [contradiction|]. apply I1. exists t'. auto.
        -- intros H. destruct I2 as (d' & E & N' & E' & Q); [intros t' I; apply H; right; exact I|]. exists d'. split; [exact E|]. split; [exact N'|]. split; [exact E'|].
           intros x. rewrite Q, dict_put_keys. cbn [In]. split; [intros [[->|I]|[I N]]; auto|]. intros [I|[[<-|I] N]]; auto.
      * cbn [chain]. apply Forall_cons_iff in FO as [(F & _ & T) _]. rewrite by_fingerprint_fails by (rewrite T; exact EM). cbn [chain fail snd]. split; [reflexivity|].
        intros H. exfalso. apply (H t (or_introl eq_refl) NS). destruct (proj1 (MO x) (or_introl eq_refl)) as (o & O & _). pose proof O as (s & Is & E & Io).
        exists s. split; [exact Is|]. split; [exact E|]. right. split; [exact EM|]. exists o. exact O.
    + destruct (by_fingerprint_ok objs) with (d := @nil (pystr * pyobject)) as (e & E & NE & KE & VE).
      { eapply Forall_impl; [|exact FO]. intros x (F & _ & T). split; [exact F|]. rewrite T. exact EM. }
      { constructor. }
      cbn [chain]. rewrite E. cbn [chain ret]. destruct (IH st1 (dict_put t e d) SA' (dict_put_nodup _ _ _ ND)) as [I1 I2].
      { apply Forall_forall. intros [k e'] I. apply dict_put_in in I as [[-> ->]|I]; [|exact (proj1 (Forall_forall _ _) EN _ I)].
        split; [exact NE|]. cbn [fst snd]. split.
        - intros fp. rewrite KE. cbn [map In]. split.
          + intros [[]|(x & I & S)]. apply MO in I as (o & O & ->). exists o. auto.
          + intros (o & O & S). right. exists (promote dec o). split; [|exact S]. apply MO. exists o. auto.
        - intros fp x I. destruct (VE fp x I) as [[]|[I' S]]. apply MO in I' as (o & O & ->). split; [|split; [exact O|exact S]].
          apply class_none. destruct O as (s & Is & EO & Io). rewrite (objects_in_type sets loaded s o Is Io), EO. exact NS. }
      destruct (unknowns_loop dec enc esc set_order st1 ts (dict_put t e d)) as [st2 [l2 r2]]. cbn [snd fst app] in I1, I2 |- *.
      assert (NB : ~ bad t).
      { intros (s & Is & EO & [R|[X _]]); [assert (X : false = true) by (apply RI; exists s; auto); discriminate X|contradiction]. }
      split.
      * intros (t' & [<-|I] & N & B); [contradiction|]. apply I1. exists t'. auto.
      * intros H. destruct I2 as (d' & E2 & N' & E' & Q); [intros t' I; apply H; right; exact I|]. exists d'. split; [exact E2|]. split; [exact N'|]. split; [exact E'|].
        intros x. rewrite Q, dict_put_keys. cbn [In]. split; [intros [[->|I]|[I N]]; auto|]. intros [I|[[<-|I] N]]; auto.
Qed.

Lemma unknowns_ok st : sane st ->
  let r := snd (snd (unknowns dec enc esc set_order st)) in
  ((exists t, ~ standard t /\ bad t) -> r = Exn) /\
  ((forall t, ~ standard t -> ~ bad t) -> exists d, r = Ok d /\ lists_unknowns dec enc sets d).
Proof.
  intros SA. unfold unknowns. rewrite (types_eq dec esc set_order sets st SA).
  set (ts := set_order _). assert (IT : forall t, In t ts <-> exists s, In s sets /\ dec (os_type s) = t).
  { intros t. unfold ts. rewrite (proj2 (order _) t). rewrite in_map_iff. split; intros (s & A & B); exists s; auto. }
  assert (KT : Forall (fun t => SpecDlisStore.kept dec enc t /\ exists s, In s sets /\ dec (os_type s) = t) ts).
  { apply Forall_forall. intros t I. apply IT in I as (s & Is & <-). split; [exact (proj1 (Forall_forall _ _) typed s Is)|]. exists s. auto. }
  destruct (unknowns_loop_ok ts KT st [] SA (NoDup_nil _) (Forall_nil _)) as [L1 L2].
  split.
  - intros (t & N & B). apply L1. exists t. split; [|auto]. apply IT. destruct B as (s & Is & E & _). exists s. auto.
  - intros H. destruct L2 as (d & E & N & EN & Q); [intros t _; apply H|]. exists d. split; [exact E|]. split; [exact N|]. split.
    + intros t. rewrite Q, IT. cbn [map In]. tauto.
    + intros t e I. exact (proj1 (Forall_forall _ _) EN _ I).
Qed.

(** ** Loading everything *)
Lemma load_loop_ok ts : Forall (SpecDlisStore.kept dec enc) ts -> forall st, sane st ->
  snd (snd (load_loop dec enc esc set_order st ts)) = (if existsb (fun t => selected_raises dec esc (pystr_eqb t) sets) ts then Exn else Ok tt) /\
  sane (fst (load_loop dec enc esc set_order st ts)).
Proof.
  induction 1 as [|t ts K FA IH]; intros st SA; cbn [load_loop existsb]; [split; [reflexivity|exact SA]|].
  destruct (find_type st t SA K) as [SA' FT]. destruct (store_find dec enc esc set_order st t None (Some exact)) as [st1 [l1 r1]]. cbn [fst snd] in SA', FT.
  destruct (selected_raises dec esc (pystr_eqb t) sets); cbn [orb].
  - subst r1. split; [reflexivity|exact SA'].
  - destruct FT as (objs & -> & _). cbn [chain]. destruct (IH st1 SA') as [I1 I2].
    destruct (load_loop dec enc esc set_order st1 ts) as [st2 [l2 r2]]. cbn [fst snd] in I1, I2 |- *. split; assumption.
Qed.
Lemma load_all_ok st : sane st ->
  snd (snd (load_all dec enc esc set_order st)) = if existsb (raising esc) sets then Exn else Ok tt.
Proof.
  intros SA. unfold load_all. rewrite (proj1 (load_loop_ok (types dec set_order st) ltac:(rewrite (types_eq dec esc set_order sets st SA); apply Forall_forall; intros t I;
    apply (proj2 (order (map (fun s => dec (os_type s)) sets)) t) in I; apply in_map_iff in I as (s & <- & Is); exact (proj1 (Forall_forall _ _) typed s Is)) st SA)).
  rewrite (types_eq dec esc set_order sets st SA), (raises_types dec esc sets (fun _ => true)).
  - reflexivity.
  - intros x. rewrite (proj2 (order (map (fun s => dec (os_type s)) sets)) x). tauto.
Qed.
Lemma update_warning st : sane st ->
  warns_of_updates dec set_order st = true <-> exists s, In s sets /\ dec (os_type s) = lit (text "UPDATE").
Proof.
  intros SA. unfold warns_of_updates. rewrite (types_eq dec esc set_order sets st SA), existsb_exists. split.
  - intros (t & I & E). apply pystr_eqb_spec in E. subst t. apply (proj2 (order (map (fun s => dec (os_type s)) sets))) in I. apply in_map_iff in I as (s & E & Is). exists s. auto.
  - intros (s & Is & E). exists (lit (text "UPDATE")). split; [|apply pystr_eqb_spec; reflexivity]. apply (proj2 (order (map (fun s => dec (os_type s)) sets))). apply in_map_iff. exists s. auto.
Qed.
End listings.
