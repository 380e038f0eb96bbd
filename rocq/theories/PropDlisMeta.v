(** C82: metadata from the bytes of a file to Python.  See SpecDlisMeta.v. *)
From Coq Require Import Permutation.
From Verif Require Import Bytes BytesProofs Stream SpecIo PyBase DlisTypes DlisRecords SpecRecords CommonPy DlisStore SpecDlisStore DlisStoreProofs DlisStoreProofs2 DlisStoreProofs3 DlisStoreProofs5 DlisStoreProofs6 DlisSchema DlisObject SpecDlisObject DlisObjectProofs DlisObjectProofs3 DlisObjectProofs6
  SpecDlisLoad SpecDlisMeta DlisMetaProofs.
From Verif Require DlisLoad.
From Verif Require Import PropDlisStore PropDlisObject PropDlisCurves DlisCurvesExample.
Local Open Scope Z_scope.

(** load succeeds, and every logical file that was written can be opened *)
Theorem C82_opens : forall esc ot tr lab fs, storage_label lab -> Forall wf_file fs -> len (lab ++ enc_files fs) < 2 ^ 63 ->
  exists st, (forall fuel, len (lab ++ enc_files fs) + 1 < Z.of_nat fuel -> DlisLoad.load esc ot tr fuel (lab ++ enc_files fs) = ([], Ok st)) /\
    length (DlisLoad.di_files st) = length fs /\
    forall i f, nth_error fs i = Some f -> exists x, nth_error (DlisLoad.di_files st) i = Some x /\ opened esc (lab ++ enc_files fs) i f (DlisLoad.lf_sets x).
Proof.
  intros esc ot tr lab fs L W B. destruct (C65_loaded esc ot tr lab fs L W B) as (st & H & F). exists st. split; [exact H|]. pose proof (forall2_len _ _ _ F) as N. split; [symmetry; exact N|].
  intros i f E. assert (I : (i < length (DlisLoad.di_files st))%nat) by (rewrite <- N; apply nth_error_Some; congruence).
  destruct (nth_error (DlisLoad.di_files st) i) as [x|] eqn:X; [|apply nth_error_None in X; lia]. exists x. split; [reflexivity|]. split; [apply SpecDlisCut.cs_labelled; assumption|].
  pose proof (H (Z.to_nat (len (lab ++ enc_files fs) + 2))) as G. rewrite Z2Nat.id in G by (unfold len; lia).
  exists ot, tr, (Z.to_nat (len (lab ++ enc_files fs) + 2)), [], st, x. rewrite Z2Nat.id by (unfold len; lia). split; [lia|]. split; [apply G; lia|]. auto.
Qed.
Print Assumptions C82_opens.

(** The same for files without a label, for what is in front of damage, and for files that
    are cut: whenever load returns, the logical file is there. *)
Theorem C82_there : forall esc ot tr file i f fuel l st, SpecDlisCut.carries esc file i f -> len file + 1 < Z.of_nat fuel ->
  DlisLoad.load esc ot tr fuel file = (l, Ok st) ->
  exists x, nth_error (DlisLoad.di_files st) i = Some x /\ opened esc file i f (DlisLoad.lf_sets x).
Proof.
  intros esc ot tr file i f fuel l st SD FU LO.
  assert (X : exists x, nth_error (DlisLoad.di_files st) i = Some x) by (eapply carries_there; eassumption).
  destruct X as (x & X). exists x. split; [exact X|]. split; [exact SD|]. exists ot, tr, fuel, l, st, x. auto.
Qed.
Print Assumptions C82_there.

(** *** f.find(type, name), after any history: what was written with that type and name,
    in the order of the file.
    The full statement is about all files and names; it is false for the empty name
    (C35_empty_refuted) and with a handler that raises for problems that are not
    critical, such as a redundant set (C35_exact_partial). *)
Theorem C82_find_partial : forall dec enc esc set_order file i f sets ops type name,
  opened esc file i f sets -> typed dec enc f -> lenient esc -> a_set_order set_order -> Forall (op_ok dec enc) ops ->
  kept dec enc type -> kept dec enc name -> named ops name ->
  exists ps xs, picked (bears dec type name None None) (written f) ps /\ Forall2 read_from ps xs /\
    snd (snd (store_find dec enc esc set_order (after dec enc esc set_order sets ops) type (Some name) None)) = Ok (map (promote dec) xs).
Proof.
  intros dec enc esc set_order file i f sets ops type name OP TY LE O OK K KN NM. destruct (opened_sets _ _ _ _ _ OP) as (R & L & P).
  exists (filter (matching dec (pystr_eqb type) (pystr_eqb name)) (written f)), (selected dec (pystr_eqb type) (pystr_eqb name) sets). split.
  { apply filter_picked. intros p. apply matching_spec. }
  split; [exact (selected_written dec (pystr_eqb type) (pystr_eqb name) _ _ R)|].
  rewrite C35_exact_partial; try assumption; [|split; [exact L|split; [exact P|exact (sets_typed dec enc f sets R TY)]]|left; reflexivity].
  rewrite (no_raise dec esc f sets R LE). reflexivity.
Qed.
Print Assumptions C82_find_partial.

(** *** Any matcher that does not raise (by a regular expression, say), with or without a
    name, and so f.channels, f.frames, ..: what was written with a type and name that
    match, each once *)
Theorem C82_matching_partial : forall dec enc esc set_order file i f sets ops type name m g,
  opened esc file i f sets -> typed dec enc f -> lenient esc -> a_set_order set_order -> Forall (op_ok dec enc) ops ->
  kept dec enc type -> (forall n, name = Some n -> kept dec enc n /\ named ops n) ->
  (forall p c, pm_match m p c = Some (g p c)) -> matcher_ok (Some m) ->
  exists ps xs objs,
    picked (fun p => g type (dec (ws_type (fst p))) = true /\ forall n, name = Some n -> g n (dec (wo_id (snd p))) = true) (written f) ps /\
    Forall2 read_from ps xs /\ Permutation objs (map (promote dec) xs) /\
    snd (snd (store_find dec enc esc set_order (after dec enc esc set_order sets ops) type name (Some m))) = Ok objs.
Proof.
  intros dec enc esc set_order file i f sets ops type name m g OP TY LE O OK K KN M ME. destruct (opened_sets _ _ _ _ _ OP) as (R & L & P).
  pose proof (C35_any dec enc esc set_order sets ops type name m g (conj L (conj P (sets_typed dec enc f sets R TY))) O OK K KN M ME) as F. cbv zeta in F.
  rewrite (no_raise dec esc f sets R LE) in F. destruct F as (objs & E & PM).
  exists (filter (matching dec (g type) (wanted g name)) (written f)), (selected dec (g type) (wanted g name) sets), objs. split.
  - apply filter_picked. intros p. unfold matching. rewrite andb_true_iff. destruct name as [n|]; cbn [wanted]; split; intros [A B]; split; try assumption; try reflexivity; [intros ? [= <-]; exact B|exact (B n eq_refl)|discriminate].
  - split; [exact (selected_written dec (g type) (wanted g name) _ _ R)|]. split; [exact PM|exact E].
Qed.
Print Assumptions C82_matching_partial.

(** *** f.object(type, name, origin, copynr), after any history: the object that was
    written with them, and an error if there is none, or if there are several that are
    not the same *)
Theorem C82_object_partial : forall dec enc esc set_order file i f sets ops type name origin copynr,
  opened esc file i f sets -> typed dec enc f -> lenient esc -> a_set_order set_order -> Forall (op_ok dec enc) ops ->
  kept dec enc type -> kept dec enc name -> named ops name ->
  let result := snd (snd (lf_object dec enc esc set_order (after dec enc esc set_order sets ops) type name origin copynr)) in
  (forall p, the_written dec f type name origin copynr p -> exists x, read_from p x /\ result = Ok (Some (promote dec x))) /\
  ((forall p, ~ the_written dec f type name origin copynr p) -> result = Ok None).
Proof.
  intros dec enc esc set_order file i f sets ops type name origin copynr OP TY LE O OK K KN NM. destruct (opened_sets _ _ _ _ _ OP) as (R & L & P). cbv zeta.
  rewrite (lf_object_result dec enc esc set_order sets P); try assumption; [|apply after_sane; assumption || exact (sets_typed dec enc f sets R TY)|apply named_now; exact NM].
  rewrite (no_raise dec esc f sets R LE). split.
  - intros p W. destruct (the_written_read dec f sets R _ _ _ _ p W) as (_ & x & _ & _ & X). exists x. split; [exact X|]. f_equal. apply choice_spec; [exact L|].
    destruct (proj2 (the_written_chosen dec f sets R type name origin copynr x) (ex_intro _ p (conj W X))) as (rest & E & S). exists x, rest. auto.
  - intros N. f_equal. destruct (choice _) as [x|] eqn:C; [|reflexivity]. exfalso. apply choice_spec in C as (o & rest & E & _ & S); [|exact L].
    destruct (proj1 (the_written_chosen dec f sets R type name origin copynr o) (ex_intro _ rest (conj E S))) as (p & W & _). exact (N p W).
Qed.
Print Assumptions C82_object_partial.

(** *** obj[key] and obj.key, after any history, for an object that was written: the values
    it was given for the label, or inherits from the template, or the default of their
    type, each turned into Python, in the shape the class has for it.
    The full statement is about all values; it is false for dates that do not exist and
    for references with an empty name (C37_date_refuted, C37_empty_refuted). *)
Theorem C82_read_partial : forall dec enc esc set_order file i f sets ops p x key r l c vs lg,
  opened esc file i f sets -> typed dec enc f -> lenient esc -> a_set_order set_order -> Forall (op_ok dec enc) ops ->
  In p (written f) -> read_from p x ->
  rule_for (schema_of (promote dec x)) key r -> link_for (schema_of (promote dec x)) key l ->
  In key (map fst (sc_attributes (schema_of (promote dec x)))) \/ (exists a, In a (obj_attrs x) /\ dec (at_label a) = key) ->
  has p (enc key) c vs lg -> tolerated esc lg -> Forall (legible dec enc l) vs ->
  exists ys res, Forall2 (means dec f l c) vs ys /\ shaped r ys res /\
    snd (snd (getitem dec enc esc set_order (after dec enc esc set_order sets ops) (schema_of (promote dec x)) x key)) = Ok (Some res).
Proof.
  intros dec enc esc set_order file i f sets ops p x key r l c vs lg OP TY LE O OK I X RF LF KEY H T LG. destruct (opened_sets _ _ _ _ _ OP) as (R & L & P).
  destruct (written_object dec f sets R p x I X) as (s & Is & Ix).
  destruct (C37_read_partial dec enc esc set_order sets ops s x (schema_of (promote dec x)) key r l c vs lg) as (xs & res & A & B & C); try assumption.
  - split; [exact L|split; [exact P|exact (sets_typed dec enc f sets R TY)]].
  - apply C37_tables.
  - destruct KEY as [KEY|(a & Ia & <-)]; [left; exact KEY|right; apply (in_map (fun a => dec (at_label a)) _ a Ia)].
  - exact (has_stored enc p x key c vs lg X H).
  - apply (object_calm dec enc esc f TY p x _ I X). exact (log_tolerated esc LE p x X).
  - exact (object_calm dec enc esc f TY p x _ I X T).
  - eapply Forall_impl; [|exact LG]. intros v. apply (legible_readable dec enc esc f sets R LE).
  - exists xs, res. split; [|split; [exact B|exact C]]. clear - A R. induction A as [|v y vs ys H A IH]; constructor; [exact (turns_means dec f sets R l c v y H)|exact IH].
Qed.
Print Assumptions C82_read_partial.

(** *** What is read is determined by what is written *)
Theorem C82_one_object : forall dec f type name origin copynr p q x y,
  the_written dec f type name origin copynr p -> the_written dec f type name origin copynr q -> read_from p x -> read_from q y -> p = q /\ x = y.
Proof.
  intros dec f type name origin copynr p q x y (a & b & W & B & N & _) (a' & b' & W' & B' & N' & _) X Y.
  assert (E : p = q).
  { rewrite W in W'. clear - W' B B' N N'. revert a' W' N'. induction a as [|z a IH]; intros [|z' a'] W' N'; cbn [app] in W'.
    - congruence.
    - injection W' as -> _. destruct (N' z' (or_introl eq_refl) B).
    - injection W' as -> _. destruct (N q (or_introl eq_refl) B').
    - injection W' as _ W'. apply (IH (fun r I => N r (or_intror I)) a' W'). intros r I. apply N'. right. exact I. }
  subst q. split; [reflexivity|]. exact (read_from_det p x y X Y).
Qed.
Print Assumptions C82_one_object.
Theorem C82_one_value : forall esc file i f sets p label c vs lg c' vs' lg',
  opened esc file i f sets -> In p (written f) -> has p label c vs lg -> has p label c' vs' lg' -> vs = vs' /\ lg = lg' /\ (vs = [] \/ c = c').
Proof.
  intros esc file i f sets p label c vs lg c' vs' lg' OP I H H'. destruct (opened_sets _ _ _ _ _ OP) as (R & L & P).
  destruct (written_read Raw f sets R p I) as (s & x & Is & Ix & (_ & _ & X & _)). destruct (file_objects sets L s x Is Ix) as (_ & ND & _).
  assert (ONE : forall a a', In a (obj_attrs x) -> In a' (obj_attrs x) -> at_label a = label -> at_label a' = label -> a = a').
  { clear - ND. revert ND. generalize (obj_attrs x). intros l. induction l as [|b l IH]; intros ND a a' [] ; cbn [map] in ND; apply NoDup_cons_iff in ND as [N ND].
    - intros [<-|I'] E E'; [congruence|]. subst b. destruct N. rewrite E, <- E'. apply in_map, I'.
    - intros [<-|I'] E E'; [|apply IH; assumption]. destruct N. rewrite E', <- E. apply in_map. assumption. }
  destruct H as [attrs c O N|attrs c a O Ia La Va|attrs c vs a O Ia La Va]; destruct H' as [attrs' c' O' N'|attrs' c' a' O' Ia' La' Va'|attrs' c' vs' a' O' Ia' La' Va'];
    pose proof (object_reads_det _ _ _ O _ X) as E; pose proof (object_reads_det _ _ _ O' _ X) as E'; subst attrs attrs';
    try (exfalso; first [apply N; rewrite <- La'; apply in_map; assumption | apply N'; rewrite <- La; apply in_map; assumption]); auto.
  - rewrite (ONE a a') by assumption. auto.
  - pose proof (ONE a a' Ia Ia' La La'). congruence.
  - pose proof (ONE a a' Ia Ia' La La'). congruence.
  - pose proof (ONE a a' Ia Ia' La La') as ->. rewrite Va in Va'. injection Va' as -> ->. auto.
Qed.
Print Assumptions C82_one_value.
Theorem C82_one_result : forall dec esc file i f sets r l c vs ys ys' res res',
  opened esc file i f sets -> Forall2 (means dec f l c) vs ys -> shaped r ys res -> Forall2 (means dec f l c) vs ys' -> shaped r ys' res' -> res = res'.
Proof.
  intros dec esc file i f sets r l c vs ys ys' res res' OP M S M' S'. destruct (opened_sets _ _ _ _ _ OP) as (R & _ & _).
  assert (T : forall vs ys, Forall2 (means dec f l c) vs ys -> Forall2 (turns dec sets l c) vs ys).
  { clear - R. induction 1 as [|v y vs ys H A IH]; constructor; [exact (means_turns dec f sets R l c v y H)|exact IH]. }
  exact (one_result dec sets r l c vs ys ys' res res' (T _ _ M) S (T _ _ M') S').
Qed.
Print Assumptions C82_one_result.

(** *** The file of C65, with the handler that raises for critical problems: its frame, and
    the channels the frame lists *)
Definition default (s : severity) : bool := match s with CRITICAL => true | _ => false end.
Definition frame_obj : wset * wobject := (frame_w (text "F"), mk_wobject 1 0 (text "F")
  [Given (mk_chars (Some 2) None None (Some [VName (mk_obname 1 0 (text "A")); VName (mk_obname 1 0 (text "B"))])); value_of [VText (text "TIME")]]).
Lemma example_typed : typed dec1 enc1 (wfile_of (text "F")).
Proof.
  intros w I. split; [apply kept1|]. revert w I. apply Forall_forall. repeat (constructor; [vm_compute; discriminate|]). constructor.
Qed.
Example C82_example :
  lenient default /\ a_set_order order1 /\ typed dec1 enc1 (wfile_of (text "F")) /\
  (exists sets, opened default (label_bytes ++ enc_files [wfile_of (text "F")]) 0 (wfile_of (text "F")) sets) /\
  map (fun p => (ws_type (fst p), wo_id (snd p))) (written (wfile_of (text "F"))) =
    [(text "FILE-HEADER", text "0"); (text "CHANNEL", text "A"); (text "CHANNEL", text "B"); (text "FRAME", text "F"); (text "NO-FORMAT", text "N")] /\
  the_written dec1 (wfile_of (text "F")) (lit (text "FRAME")) (lit (text "F")) (Some 1) None frame_obj /\
  (exists x, read_from frame_obj x /\ rule_for (schema_of (promote dec1 x)) (lit (text "CHANNELS")) Vector /\
     link_for (schema_of (promote dec1 x)) (lit (text "CHANNELS")) (Some (ToName (lit (text "CHANNEL"))))) /\
  has frame_obj (enc1 (lit (text "CHANNELS"))) 23 [VName (mk_obname 1 0 (text "A")); VName (mk_obname 1 0 (text "B"))] [] /\
  legible dec1 enc1 (Some (ToName (lit (text "CHANNEL")))) (VName (mk_obname 1 0 (text "A"))) /\
  (exists o, means dec1 (wfile_of (text "F")) (Some (ToName (lit (text "CHANNEL")))) 23 (VName (mk_obname 1 0 (text "B"))) (PObject o) /\ po_name dec1 o = lit (text "B")) /\
  means dec1 (wfile_of (text "F")) (Some (ToName (lit (text "CHANNEL")))) 23 (VName (mk_obname 1 0 (text "C"))) PNone.
Proof.
  assert (OP : exists sets, opened default (label_bytes ++ enc_files [wfile_of (text "F")]) 0 (wfile_of (text "F")) sets).
  { destruct (C82_opens default (fun _ _ => None) (fun _ _ => None) label_bytes [wfile_of (text "F")] label_is) as (st & _ & _ & H).
    - constructor; [exact file_F|constructor].
    - vm_compute. reflexivity.
    - destruct (H 0%nat _ eq_refl) as (x & _ & O). exists (DlisLoad.lf_sets x). exact O. }
  split; [intros []; intros; try reflexivity; contradiction|]. split; [exact order1_ok|]. split; [exact example_typed|]. split; [exact OP|]. split; [vm_compute; reflexivity|].
  destruct OP as (sets & OP). destruct (opened_sets _ _ _ _ _ OP) as (R & _ & _).
  assert (OTHERS : forall t n c q l, Forall (fun q => bearsb dec1 t n (Some 1) c q = false) l -> In q l -> ~ bears dec1 t n (Some 1) c q).
  { intros t n c q l F I. apply bearsb_not. exact (proj1 (Forall_forall _ _) F q I). }
  split.
  { exists [(header_w, hd (snd frame_obj) (ws_objects header_w)); (channels_w, hd (snd frame_obj) (ws_objects channels_w)); (channels_w, nth 1 (ws_objects channels_w) (snd frame_obj))],
      [(noformat_w, hd (snd frame_obj) (ws_objects noformat_w))]. split; [reflexivity|]. split; [apply bearsb_spec; vm_compute; reflexivity|].
    split; [|left]; intros q; apply OTHERS; repeat (constructor; [vm_compute; reflexivity|]); constructor. }
  split.
  { destruct (written_read dec1 _ sets R frame_obj) as (_ & x & _ & _ & X); [vm_compute; auto 10|]. exists x. split; [exact X|]. destruct X as (_ & T & _).
    unfold schema_of, promote. rewrite T. split; [left; vm_compute; tauto|vm_compute; tauto]. }
  split.
  { pose (a := mk_attr (text "CHANNELS") 2 23 [] (Vec 23 [VName (mk_obname 1 0 (text "A")); VName (mk_obname 1 0 (text "B"))]) false []).
    pose (b := mk_attr (text "INDEX-TYPE") 1 19 [] (Vec 19 [VText (text "TIME")]) false []).
    change (@nil problem) with (at_log a). apply (has_values _ _ [a; b] 23 _ a); [|left; reflexivity|reflexivity|reflexivity].
    apply o_given; [reflexivity| |apply o_given; [reflexivity| |apply o_end]].
    - repeat (split; [reflexivity|]). apply r_given; [discriminate|reflexivity].
    - repeat (split; [reflexivity|]). apply r_given; [discriminate|reflexivity]. }
  split.
  { split; [discriminate|]. intros t n X. inversion X. subst. split; [apply kept1|]. split; [apply kept1|]. split; discriminate. }
  split.
  - destruct (written_read dec1 _ sets R (channels_w, nth 1 (ws_objects channels_w) (snd frame_obj))) as (_ & x & _ & _ & X); [vm_compute; auto 10|].
    exists (promote dec1 x). split.
    + eapply means_object; [apply by_name| |exact X].
      exists [(header_w, hd (snd frame_obj) (ws_objects header_w)); (channels_w, hd (snd frame_obj) (ws_objects channels_w))], [frame_obj; (noformat_w, hd (snd frame_obj) (ws_objects noformat_w))].
      split; [reflexivity|]. split; [apply bearsb_spec; vm_compute; reflexivity|].
      split; [|left]; intros q; apply OTHERS; repeat (constructor; [vm_compute; reflexivity|]); constructor.
    + unfold po_name. destruct X as (N & _). cbn [promote po_attic]. rewrite N. reflexivity.
  - apply means_none; [discriminate|reflexivity|]. intros t n p X (a & b & W & B & _). inversion X; subst. apply bearsb_spec in B.
    assert (F : Forall (fun q => bearsb dec1 (lit (text "CHANNEL")) (dec1 (text "C")) (Some 1) (Some 0) q = false) (written (wfile_of (text "F")))) by (repeat (constructor; [vm_compute; reflexivity|]); constructor).
    rewrite W in F. apply Forall_app in F as [_ F]. apply Forall_cons_iff in F as [F _]. pose proof (eq_trans (eq_sym F) B). discriminate.
Qed.
