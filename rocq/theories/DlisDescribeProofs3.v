(** Proofs about describe: the parts of the descriptions. *)
From Verif Require Import Bytes BytesProofs Stream PyBase DlisTypes DlisCore SpecTypes DlisRecords CommonPy DlisStore SpecDlisStore DlisStoreProofs DlisStoreProofs2 DlisStoreProofs3 DlisStoreProofs4
  DlisStoreProofs5 DlisStoreProofs6 DlisSchema DlisObject SpecDlisObject DlisObjectProofs DlisObjectProofs2 DlisObjectProofs3 DlisObjectProofs4 DlisObjectProofs5 DlisObjectProofs6 Dimensional SpecDimensional DimensionalProofs2 DimensionalProofs3 DimensionalProofs4
  DlisCurves DlisClasses SpecDlisClasses DlisClassesProofs DlisClassesProofs2 PropDlisObject DlisDescribe SpecDlisDescribe DlisDescribeProofs DlisDescribeProofs2.
Local Open Scope Z_scope.

(** ** Blocks and steps *)
Definition is_handed (c : cell) : bool := match c with Attr _ | Free _ | Sample_count _ _ => true | _ => false end.
Definition to_handed (c : cell) : handed := match c with Attr l => Label l | Free l => Value l | _ => SampleCount end.
Definition to_expr (c : cell) : expr :=
  match c with Val l => Get l | Names l => NamesOf l | Pair t a b => Joined t a b | Count l => LengthOf l | _ => Objects end.
Definition to_step (rows : list (bytes * cell)) : step :=
  if forallb (fun r => is_handed (snd r)) rows
  then Attributes (map (fun r => (fst r, to_handed (snd r))) rows)
  else Dict (map (fun r => (fst r, to_expr (snd r))) rows).
Definition to_steps (b : block) : list step :=
  match b with
  | Rows rows => [to_step rows]
  | Titled h [] => [Heading h]
  | Titled h rows => [Heading h; to_step rows]
  | Long_name l => [Description l]
  | Sampled_rows dims l extras single => [Samples dims l extras single]
  | Text l => [TextOf l]
  | Coordinate_rows => [Coordinates]
  | Frame_rows => [Channels]
  end.

(** what a block needs of the tables of the class *)
Definition ruled (sc : schema) (l : bytes) (rs : list rule) : bool :=
  match dict_get (lit l) (sc_attributes sc) with Some r => existsb (rule_eqb r) rs | None => false end.
Definition knows (sc : schema) (l : bytes) : bool := ruled sc l [Scalar; Boolean; Vector; Reverse].
Definition cell_ok (sc : schema) (c : cell) : bool :=
  match c with
  | Attr l | Val l | Free l => knows sc l
  | Names l => ruled sc l [Scalar; Vector; Reverse]
  | Pair _ a b => knows sc a && knows sc b
  | Count l => ruled sc l [Vector; Reverse]
  | Members => false
  | Sample_count dims l => bytes_eqb dims (text "DIMENSION") && bytes_eqb l (text "MEASUREMENT") && knows sc dims
  end.
Definition rows_ok (sc : schema) (rows : list (bytes * cell)) : bool :=
  forallb (fun r => cell_ok sc (snd r)) rows && (forallb (fun r => is_handed (snd r)) rows || forallb (fun r => negb (is_handed (snd r))) rows).
Definition block_ok (sc : schema) (b : block) : bool :=
  match b with
  | Rows rows => rows_ok sc rows
  | Titled _ rows => rows_ok sc rows
  | Long_name l => ruled sc l [Scalar] && link_eqb (dict_get (lit l) (sc_linkage sc)) (Some (ToName (lit (text "LONG-NAME"))))
  | Sampled_rows dims _ _ _ => match dims with Some d => knows sc d | None => true end
  | Text l => ruled sc l [Vector]
  | Coordinate_rows => true
  | Frame_rows => false
  end.
Lemma ruled_in sc l rs : ruled sc l rs = true -> exists r, In r rs /\ In (lit l, r) (sc_attributes sc).
Proof.
  unfold ruled. destruct (dict_get (lit l) (sc_attributes sc)) as [r|] eqn:E; [|discriminate]. intros H. apply existsb_exists in H as (r' & I & R). apply rule_eqb_eq in R. subst r'.
  exists r. split; [exact I|]. apply dict_get_some. exact E.
Qed.
Lemma ruled_known sc l rs : ruled sc l rs = true -> In (lit l) (map fst (sc_attributes sc)).
Proof. intros H. apply ruled_in in H as (r & _ & I). exact (in_map fst _ _ I). Qed.
Arguments lit : simpl never.

Section blocks.
Variable maxdims : nat.
Variable dec : bytes -> pystr.
Variable enc : pystr -> bytes.
Variable esc : severity -> bool.
Variable set_order : list pystr -> list pystr.
Variable sets : list object_set.
Hypothesis loaded : as_loaded sets.
Hypothesis parses : parsable sets.
Hypothesis order : a_set_order set_order.
Hypothesis typed : Forall (fun s => SpecDlisStore.kept dec enc (dec (os_type s))) sets.
Hypothesis sound : sound_file dec enc esc sets.
Local Notation sane := (sane dec esc sets).
Local Notation turns := (turns dec sets).
Local Notation readable := (readable dec enc esc sets).
Local Notation performs := (fold_left (perform dec enc esc set_order)).
Local Notation gives := (gives dec enc sets).
Local Notation has_label := (has_label dec).
Local Notation item := (item dec enc esc set_order).
Local Notation unit_of := (unit_of dec enc).
Local Notation values_of := (values_of dec enc).
Local Notation absent := (absent enc).
Local Notation succeeds := (succeeds dec enc esc set_order sets).
Local Notation in_file := (in_file dec sets).
Local Notation cell_shows := (cell_shows dec enc esc sets).
Local Notation row_shows := (row_shows dec enc esc sets).
Local Notation block_shows := (block_shows dec enc esc sets).
Local Notation cell_clear := (cell_clear maxdims dec enc esc sets).
Local Notation block_clear := (block_clear maxdims dec enc esc sets).
Local Notation shape_of := (shape_of dec enc sets).
Local Notation samples_fit := (samples_fit maxdims dec enc sets).
Local Notation item_ok := (item_ok dec enc esc set_order sets loaded parses order typed sound).

Local Notation succ_chain := (succ_chain dec enc esc set_order sets parses order typed).

Definition row_ok (x : pyobject) (row : bytes * cell) (e : entry) : Prop := row_shows x row e /\ printable e.
Lemma lit_str b : exists u, lit b = Str u.
Proof. eexists. reflexivity. Qed.

(** *** describe_dict of expressions *)
Lemma replist_ok x l r : in_file x -> gives x (lit l) r -> (exists rl, In rl [Scalar; Vector; Reverse] /\ In (lit l, rl) (sc_attributes (schema_of x))) -> cell_clear x (Names l) ->
  exists v, replist dec r = ret v /\ cell_shows x (Names l) v None /\ unprintable v = false.
Proof.
  intros I G (rl & Rl & RL) CL. cbn [SpecDlisDescribe.cell_clear] in CL. destruct r as [|v|xs|b].
  - exists (SResult RNone). split; [reflexivity|]. split; [apply shows_no_name; auto|reflexivity].
  - assert (v = PNone) as -> by (apply CL; exact G). exists (SResult (ROne PNone)). split; [reflexivity|]. split; [apply shows_no_name; auto|reflexivity].
  - exists (SNames (map (replist_one dec) xs)). split; [reflexivity|]. split; [apply (shows_names _ _ _ _ _ _ xs); [exact G|apply names_of]|].
    apply (names_printable dec enc esc sets sound). intros p J. exact (proj1 (gives_object dec enc sets loaded x (lit l) (RMany xs) p I G J)).
  - exfalso. destruct Rl as [<-|[<-|[<-|[]]]].
    + destruct (gives_scalar dec enc sets x (lit l) _ G RL) as [X|(v & X)]; discriminate X.
    + destruct (gives_vector dec enc sets x (lit l) _ G (or_introl RL)) as (v & X); discriminate X.
    + destruct (gives_vector dec enc sets x (lit l) _ G (or_intror RL)) as (v & X); discriminate X.
Qed.
Lemma eval_ok x c : in_file x -> is_handed c = false -> (cell_ok (schema_of x) c = true \/ c = Members /\ schema_of x = group_schema) -> cell_clear x c ->
  succeeds (eval dec enc esc set_order x (to_expr c)) (fun v => cell_shows x c v None /\ unprintable v = false).
Proof.
  intros I H K CL. destruct c as [l|l|l|l|t a b|l| |dims l]; try discriminate H; cbn [to_expr eval]; unfold eval; cbv iota beta.
  - destruct K as [K|[K _]]; [|discriminate K]. cbn [cell_ok] in K. apply (succ_chain (item x (lit l)) _ _ _ (item_ok x (lit l) I (or_introl (ruled_known _ _ _ K)))).
    intros r G. apply succ_ret. split; [constructor; exact G|]. exact (gives_printable dec enc esc sets sound x (lit l) r I G).
  - destruct K as [K|[K _]]; [|discriminate K]. cbn [cell_ok] in K. apply (succ_chain (item x (lit l)) _ _ _ (item_ok x (lit l) I (or_introl (ruled_known _ _ _ K)))).
    intros r G. apply succ_io. apply ruled_in in K. exact (replist_ok x l r I G K CL).
  - destruct K as [K|[K _]]; [|discriminate K]. cbn [cell_ok] in K. apply andb_true_iff in K as [K1 K2].
    apply (succ_chain (item x (lit a)) _ _ _ (item_ok x (lit a) I (or_introl (ruled_known _ _ _ K1)))). intros ra Ga.
    apply (succ_chain (item x (lit b)) _ _ _ (item_ok x (lit b) I (or_introl (ruled_known _ _ _ K2)))). intros rb Gb. apply succ_ret. split; [constructor; assumption|reflexivity].
  - destruct K as [K|[K _]]; [|discriminate K]. cbn [cell_ok] in K. apply (succ_chain (item x (lit l)) _ _ _ (item_ok x (lit l) I (or_introl (ruled_known _ _ _ K)))).
    intros r G. apply ruled_in in K as (rl & Rl & RL). assert (X : exists xs, r = RMany xs).
    { apply (gives_vector dec enc sets x (lit l) r G). destruct Rl as [<-|[<-|[]]]; auto. }
    destruct X as (xs & ->). apply succ_ret. split; [constructor; exact G|reflexivity].
  - destruct K as [K|[_ K]]; [discriminate K|]. destruct CL as (NV & c & vs & lg & l & ST & ML & RD).
    assert (HL : has_label x (lit (text "OBJECT-LIST"))) by (left; rewrite K; apply (type_rule group_schema); left; reflexivity).
    destruct (legible_label dec enc esc sets sound x _ I HL) as (l' & c' & vs' & lg' & _ & ST' & C1 & C2 & _).
    destruct (stored_unique dec enc sets loaded x _ _ _ _ _ _ _ I ST ST') as (_ & <- & _).
    apply (succ_chain (fun st => snd (group_objects dec enc esc set_order st (schema_of x) (po_attic x))) _ (fun r => exists xs, r = Some (RMany xs) /\ Forall2 (turns l c) vs xs)).
    + intros st SA. destruct (group_ok dec enc esc set_order sets loaded parses order typed st (schema_of x) (po_attic x) c vs lg l) as (xs & ops & lgs & T & O & E); try assumption.
      * exact (in_file_from dec sets loaded x I).
      * rewrite K. constructor.
      * exists ops, lgs, (Some (RMany xs)). split; [exact O|]. split; [exact E|]. exists xs. auto.
    + intros r (xs & -> & T). apply succ_ret. split; [eapply shows_members; [exact ST|exact ML|exact T]|]. cbn [unprintable]. exact (turns_printable dec enc esc sets sound x _ c vs lg l xs I ST T).
Qed.
Lemma eval_rows_ok x rows : in_file x -> Forall (fun r => is_handed (snd r) = false) rows ->
  Forall (fun r => cell_ok (schema_of x) (snd r) = true \/ snd r = Members /\ schema_of x = group_schema) rows -> Forall (fun r => cell_clear x (snd r)) rows ->
  succeeds (eval_rows dec enc esc set_order x (map (fun r => (fst r, to_expr (snd r))) rows)) (Forall2 (row_ok x) rows).
Proof.
  intros I. induction rows as [|[c e] rows IH]; intros H K CL; cbn [map fst snd].
  - apply succ_ret. constructor.
  - apply Forall_cons_iff in H as [H1 H]. apply Forall_cons_iff in K as [K1 K]. apply Forall_cons_iff in CL as [C1 CL]. cbn [snd] in *.
    apply (succ_chain (eval dec enc esc set_order x (to_expr e)) _ _ _ (eval_ok x e I H1 K1 C1)). intros v [V U].
    apply (succ_chain (eval_rows dec enc esc set_order x (map (fun r => (fst r, to_expr (snd r))) rows)) _ _ _ (IH H K CL)). intros d D. apply succ_ret.
    constructor; [|exact D]. split; [split; [reflexivity|exact V]|]. split; [exact U|apply lit_str].
Qed.
Lemma rows_split x rows d : Forall2 (row_ok x) rows d -> Forall2 (row_shows x) rows d /\ Forall printable d.
Proof. induction 1 as [|r e rows d [A B] F [IH1 IH2]]; split; constructor; assumption. Qed.
Lemma dict_ok fmt x rows d : Forall2 (row_ok x) rows d -> exists ps, describe_dict (parseoptions fmt) d = ret ps /\ Forall2 (row_shows x) rows d /\ rows_written fmt d ps.
Proof. intros F. apply rows_split in F as [F P]. destruct (describe_dict_ok fmt d P) as (ps & E & R). exists ps. auto. Qed.

(** *** describe_attributes *)
Lemma shape_unique x dims shape r : in_file x -> shape_of x (Some dims) shape -> gives x (lit dims) r -> dims_shape r = Some shape.
Proof. intros I (c & C & G) G'. rewrite (gives_unique dec enc sets loaded x (lit dims) _ _ I G' G). cbn [dims_shape]. apply integers. exact C. Qed.
Lemma samplecount_ok x : in_file x -> has_label x (lit (text "DIMENSION")) -> samples_fit x (Some (text "DIMENSION")) [text "MEASUREMENT"] ->
  succeeds (samplecount maxdims dec enc esc set_order x) (fun n => cell_shows x (Sample_count (text "DIMENSION") (text "MEASUREMENT")) (SInt n) None).
Proof.
  intros I HL (shape & SH & F & SM). unfold samplecount. destruct (values_exist dec enc esc sets loaded sound x (lit (text "MEASUREMENT")) I) as [N|(data & a & Ia & La & AT & V & _ & OK & AV)].
  - unfold attic_get. rewrite (attr_at_out _ _ N). apply succ_ret. apply shows_no_samples. left. exact N.
  - rewrite AT. destruct data as [|d data].
    + assert (E : exists value, attribute_value dec a = Some value /\ (value = None \/ value = Some [])) by (destruct AV as [AV|[_ AV]]; eauto). destruct E as (value & -> & E).
      apply (succ_chain (item x (lit (text "DIMENSION"))) _ _ _ (item_ok x _ I HL)). intros r G. rewrite (shape_unique x _ shape r I SH G), (sample_empty maxdims value shape false E).
      apply succ_ret. cbn [length]. apply shows_no_samples. right. exact V.
    + destruct AV as [-> |[X _]]; [|discriminate X].
      apply (succ_chain (item x (lit (text "DIMENSION"))) _ _ _ (item_ok x _ I HL)). intros r G. rewrite (shape_unique x _ shape r I SH G).
      assert (ND : d :: data <> []) by discriminate.
      destruct (sample_ok maxdims (d :: data) shape false (OK ND) ND F (SM _ _ (or_introl eq_refl) V ND)) as (out & O & E). destruct out as [[|first rest]|]; [contradiction| |]; rewrite E; apply succ_ret.
      * exact (shows_samples dec enc esc sets x _ _ shape _ (Some (first :: rest)) SH V ND O).
      * exact (shows_samples dec enc esc sets x _ _ shape _ None SH V ND O).
Qed.
(** what is handed over for a cell *)
Definition ready (x : pyobject) (c : cell) (g : given) : Prop :=
  match c with
  | Attr l => g = GText (lit l)
  | Free l => exists r, gives x (lit l) r /\ g = match r with ROne (PText s) => GText s | _ => GOther (SResult r) end
  | _ => exists n, cell_shows x c (SInt n) None /\ g = GOther (SInt n)
  end.
Lemma hand_over_ok x rows : in_file x -> Forall (fun r => is_handed (snd r) = true) rows ->
  Forall (fun r => cell_ok (schema_of x) (snd r) = true) rows -> Forall (fun r => cell_clear x (snd r)) rows ->
  succeeds (hand_over maxdims dec enc esc set_order x (map (fun r => (fst r, to_handed (snd r))) rows))
    (Forall2 (fun row (g : pystr * given) => fst g = lit (fst row) /\ ready x (snd row) (snd g)) rows).
Proof.
  intros I. induction rows as [|[c e] rows IH]; intros H K CL; cbn [map fst snd].
  - apply succ_ret. constructor.
  - apply Forall_cons_iff in H as [H1 H]. apply Forall_cons_iff in K as [K1 K]. apply Forall_cons_iff in CL as [C1 CL]. cbn [snd] in *.
    assert (G : succeeds (fun st => match to_handed e with
             | Label l => (st, ret (GText (lit l)))
             | Value l => chain (item x (lit l) st) (fun st r => (st, ret match r with ROne (PText s) => GText s | _ => GOther (SResult r) end))
             | SampleCount => chain (samplecount maxdims dec enc esc set_order x st) (fun st n => (st, ret (GOther (SInt n))))
             end) (ready x e)).
    { destruct e as [l|l|l|l|t a b|l| |dims l]; try discriminate H1; cbn [to_handed ready cell_ok] in *.
      - apply succ_ret. reflexivity.
      - apply (succ_chain (item x (lit l)) _ _ _ (item_ok x (lit l) I (or_introl (ruled_known _ _ _ K1)))). intros r G. apply succ_ret. exists r. auto.
      - apply andb_true_iff in K1 as [K1 K3]. apply andb_true_iff in K1 as [K1 K2]. apply bytes_eqb_spec in K1. apply bytes_eqb_spec in K2. subst dims l.
        apply (succ_chain (samplecount maxdims dec enc esc set_order x) _ _ _ (samplecount_ok x I (or_introl (ruled_known _ _ _ K3)) C1)). intros n N. apply succ_ret. exists n. auto. }
    apply (succ_chain (fun st => match to_handed e with
             | Label l => (st, ret (GText (lit l)))
             | Value l => chain (item x (lit l) st) (fun st r => (st, ret match r with ROne (PText s) => GText s | _ => GOther (SResult r) end))
             | SampleCount => chain (samplecount maxdims dec enc esc set_order x st) (fun st n => (st, ret (GOther (SInt n))))
             end) _ _ _ G). intros g R.
    apply (succ_chain (hand_over maxdims dec enc esc set_order x (map (fun r => (fst r, to_handed (snd r))) rows)) _ _ _ (IH H K CL)). intros d D. apply succ_ret.
    constructor; [split; [reflexivity|exact R]|exact D].
Qed.
Lemma retrieve_ok x c g : in_file x -> labels_clear dec enc x -> is_handed c = true -> cell_ok (schema_of x) c = true -> cell_clear x c -> ready x c g ->
  succeeds (retrieve dec enc esc set_order x g) (fun e => cell_shows x c (fst e) (snd e) /\ unprintable (fst e) = false).
Proof.
  intros I LC H K CL R. destruct c as [l|l|l|l|t a b|l| |dims l]; try discriminate H; cbn [ready cell_ok] in *.
  - subst g. pose proof (ruled_known _ _ _ K) as J.
    apply (succ_weaken _ _ _ _ _ _ _ _ (retrieve_label dec enc esc set_order sets loaded parses order typed sound x (lit l) I (or_introl J) (or_introl (LC _ J)))).
    intros [v u] (r & G & E & U). cbn [fst snd] in *. subst v. split; [constructor; assumption|]. exact (gives_printable dec enc esc sets sound x (lit l) r I G).
  - destruct R as (r & G & ->). pose proof (gives_printable dec enc esc sets sound x (lit l) r I G) as P.
    assert (OTHER : succeeds (retrieve dec enc esc set_order x (GOther (SResult r))) (fun e => cell_shows x (Free l) (fst e) (snd e) /\ unprintable (fst e) = false)).
    { unfold retrieve. cbv iota beta. apply succ_ret. split; [constructor; exact G|exact P]. }
    destruct r as [|[| |s| | | | | |]| |]; try exact OTHER.
    apply (succ_weaken _ _ _ _ _ _ _ _ (retrieve_free dec enc esc set_order sets x s (CL s G))). intros e ->. split; [constructor; exact G|reflexivity].
  - destruct R as (n & N & ->). unfold retrieve. cbv iota beta. apply succ_ret. split; [exact N|reflexivity].
Qed.
Lemma retrieve_all_ok x rows : in_file x -> labels_clear dec enc x -> Forall (fun r => is_handed (snd r) = true) rows ->
  Forall (fun r => cell_ok (schema_of x) (snd r) = true) rows -> Forall (fun r => cell_clear x (snd r)) rows ->
  forall d, Forall2 (fun row (g : pystr * given) => fst g = lit (fst row) /\ ready x (snd row) (snd g)) rows d ->
  succeeds (retrieve_all dec enc esc set_order x d) (Forall2 (row_ok x) rows).
Proof.
  intros I LC. induction rows as [|[c e] rows IH]; intros H K CL d D; inversion D as [|? [c' g] ? d' [E R] D']; subst; cbn [fst snd] in *.
  - apply succ_ret. constructor.
  - subst c'. apply Forall_cons_iff in H as [H1 H]. apply Forall_cons_iff in K as [K1 K]. apply Forall_cons_iff in CL as [C1 CL]. cbn [snd] in *. cbn [retrieve_all].
    apply (succ_chain (retrieve dec enc esc set_order x g) _ _ _ (retrieve_ok x e g I LC H1 K1 C1 R)). intros [v u] [V U].
    apply (succ_chain (retrieve_all dec enc esc set_order x d') _ _ _ (IH H K CL d' D')). intros r RR. apply succ_ret.
    constructor; [|exact RR]. split; [split; [reflexivity|exact V]|]. split; [exact U|apply lit_str].
Qed.

(** *** A step of rows *)
Lemma forallb_Forall {A} (f : A -> bool) l : forallb f l = true -> Forall (fun x => f x = true) l.
Proof. intros H. apply Forall_forall. apply forallb_forall. exact H. Qed.
Lemma step_ok fmt x rows : in_file x -> labels_clear dec enc x ->
  rows_ok (schema_of x) rows = true \/ Forall (fun r => is_handed (snd r) = false) rows /\ rows <> [] /\
    Forall (fun r => cell_ok (schema_of x) (snd r) = true \/ snd r = Members /\ schema_of x = group_schema) rows ->
  Forall (fun r => cell_clear x (snd r)) rows ->
  succeeds (run maxdims dec enc esc set_order (parseoptions fmt) x (to_step rows)) (fun ps => exists d, Forall2 (row_shows x) rows d /\ rows_written fmt d ps).
Proof.
  intros I LC K CL.
  assert (DICT : Forall (fun r => is_handed (snd r) = false) rows -> Forall (fun r => cell_ok (schema_of x) (snd r) = true \/ snd r = Members /\ schema_of x = group_schema) rows ->
    succeeds (run maxdims dec enc esc set_order (parseoptions fmt) x (Dict (map (fun r => (fst r, to_expr (snd r))) rows))) (fun ps => exists d, Forall2 (row_shows x) rows d /\ rows_written fmt d ps)).
  { intros H C. unfold run. cbv iota beta. apply (succ_chain (eval_rows dec enc esc set_order x (map (fun r => (fst r, to_expr (snd r))) rows)) _ _ _ (eval_rows_ok x rows I H C CL)).
    intros d D. apply succ_io. destruct (dict_ok fmt x rows d D) as (ps & E & R & W). exists ps. split; [exact E|]. exists d. auto. }
  unfold to_step. destruct (forallb (fun r : bytes * cell => is_handed (snd r)) rows) eqn:FH.
  - assert (HH : Forall (fun r => is_handed (snd r) = true) rows) by (apply forallb_Forall in FH; exact FH).
    assert (CC : Forall (fun r => cell_ok (schema_of x) (snd r) = true) rows).
    { destruct K as [K|(N & NE & _)].
      - unfold rows_ok in K. apply andb_true_iff in K as [K _]. apply forallb_Forall in K. exact K.
      - exfalso. destruct rows as [|r rows]; [contradiction|]. apply Forall_cons_iff in N as [N _]. apply Forall_cons_iff in HH as [HH _]. congruence. }
    unfold run. cbv iota beta. apply (succ_chain (hand_over maxdims dec enc esc set_order x (map (fun r => (fst r, to_handed (snd r))) rows)) _ _ _ (hand_over_ok x rows I HH CC CL)).
    intros d D. unfold describe_attributes. apply (succ_chain (retrieve_all dec enc esc set_order x d) _ _ _ (retrieve_all_ok x rows I LC HH CC CL d D)).
    intros e E. apply succ_io. destruct (dict_ok fmt x rows e E) as (ps & DD & R & W). exists ps. split; [exact DD|]. exists e. auto.
  - destruct K as [K|(N & _ & C)]; [|exact (DICT N C)]. unfold rows_ok in K. apply andb_true_iff in K as [K O]. rewrite FH in O. cbn [orb] in O.
    apply DICT; [apply forallb_Forall in O; eapply Forall_impl; [|exact O]; intros r E; apply negb_true_iff in E; exact E|]. apply forallb_Forall in K. eapply Forall_impl; [|exact K]. intros r E. left. exact E.
Qed.

(** *** Samples *)
Local Notation samples_sorted := (samples_sorted dec enc).
Lemma sorted_app x shape r1 ok1 ko1 r2 ok2 ko2 : samples_sorted x shape r1 ok1 ko1 -> samples_sorted x shape r2 ok2 ko2 -> samples_sorted x shape (r1 ++ r2) (ok1 ++ ok2) (ko1 ++ ko2).
Proof. intros H G. induction H; cbn [app]; [exact G|econstructor; eassumption..]. Qed.
Lemma sampled_one x shape c l single : in_file x -> Forall (Z.le 1) shape -> (forall data, values_of x (lit l) data -> data <> [] -> small maxdims data shape) ->
  exists ok ko, samples_sorted x shape [(c, l, single)] ok ko /\ Forall printable ok /\ Forall printable ko /\
    forall v i now, exists now', describe_sampled maxdims dec enc (po_attic x) (Some shape) c l single (v, i, now) = ret (v ++ ok, i ++ ko, now').
Proof.
  intros I F SM. unfold describe_sampled. destruct (values_exist dec enc esc sets loaded sound x (lit l) I) as [N|(data & a & Ia & La & AT & V & MX & OK & AV)].
  - exists [], []. split; [apply sorted_absent; [exact N|constructor]|]. split; [constructor|]. split; [constructor|]. intros v i now. exists now. unfold attic_get. rewrite (attr_at_out _ _ N), !app_nil_r. reflexivity.
  - assert (U : unit_of x (lit l) (Some (dec (at_units a)))) by (apply unit_present; assumption). rewrite AT. destruct data as [|d data].
    + assert (E : exists value, attribute_value dec a = Some value /\ (value = None \/ value = Some [])) by (destruct AV as [AV|[_ AV]]; eauto). destruct E as (value & -> & E).
      rewrite (sample_empty maxdims value shape single E). eexists. exists []. split; [apply sorted_empty; [exact V|exact U|constructor]|].
      split; [repeat constructor; apply lit_str|]. split; [constructor|]. intros v i now. eexists. rewrite app_nil_r. reflexivity.
    + destruct AV as [-> |[X _]]; [|discriminate X]. assert (ND : d :: data <> []) by discriminate.
      destruct (sample_ok maxdims (d :: data) shape single (OK ND) ND F (SM _ V ND)) as (out & O & E). destruct out as [[|first rest]|]; [contradiction| |]; rewrite E.
      * exists [(lit c, (SArray (if single then first else Arr (first :: rest)), Some (dec (at_units a))))], []. split; [destruct single; [eapply sorted_first|eapply sorted_all]; try eassumption; constructor|].
        split; [constructor; [split; [|apply lit_str]; destruct single; reflexivity|constructor]|]. split; [constructor|]. intros v i now. eexists. rewrite app_nil_r. destruct single; reflexivity.
      * exists []. eexists. split; [eapply sorted_invalid; try eassumption; constructor|]. split; [constructor|]. split; [constructor; [split; [exact MX|apply lit_str]|constructor]|].
        intros v i now. eexists. rewrite app_nil_r. reflexivity.
Qed.
Lemma sampled_all x shape single : in_file x -> Forall (Z.le 1) shape -> forall extras, (forall l data, In l (map snd extras) -> values_of x (lit l) data -> data <> [] -> small maxdims data shape) ->
  exists ok ko, samples_sorted x shape (map (fun e => (fst e, snd e, single)) extras) ok ko /\ Forall printable ok /\ Forall printable ko /\
    forall v i now, exists now', describe_sampled_all maxdims dec enc (po_attic x) (Some shape) extras single (v, i, now) = ret (v ++ ok, i ++ ko, now').
Proof.
  intros I F. induction extras as [|[c l] extras IH]; intros SM.
  - exists [], []. split; [constructor|]. split; [constructor|]. split; [constructor|]. intros v i now. exists now. rewrite !app_nil_r. reflexivity.
  - destruct (sampled_one x shape c l single I F) as (ok1 & ko1 & S1 & P1 & Q1 & E1); [intros data; apply SM; left; reflexivity|].
    destruct IH as (ok2 & ko2 & S2 & P2 & Q2 & E2); [intros l' data J; apply SM; right; exact J|].
    exists (ok1 ++ ok2), (ko1 ++ ko2). split; [exact (sorted_app x shape _ _ _ _ _ _ S1 S2)|]. split; [apply Forall_app; auto|]. split; [apply Forall_app; auto|].
    intros v i now. destruct (E1 v i now) as (n1 & X1). destruct (E2 (v ++ ok1) (i ++ ko1) n1) as (n2 & X2). exists n2. cbn [describe_sampled_all]. rewrite X1. cbn [bind ret].
    unfold ret in X2 |- *. rewrite X2, <- !app_assoc. reflexivity.
Qed.
Lemma sampled_rows_ok fmt x dims l extras single shape : in_file x -> shape_of x dims shape -> Forall (Z.le 1) shape ->
  (forall l' data, In l' (l :: map snd extras) -> values_of x (lit l') data -> data <> [] -> small maxdims data shape) ->
  exists ps, describe_sampled_attrs maxdims dec enc (parseoptions fmt) (po_attic x) (Some shape) l extras single = ret ps /\ block_shows x fmt (Sampled_rows dims l extras single) ps.
Proof.
  intros I SH F SM. destruct (sampled_one x shape (text "Value(s)") l false I F) as (ok1 & ko1 & S1 & P1 & Q1 & E1); [intros data; apply SM; left; reflexivity|].
  destruct (sampled_all x shape single I F extras) as (ok2 & ko2 & S2 & P2 & Q2 & E2); [intros l' data J; apply SM; right; exact J|].
  pose proof (sorted_app x shape _ _ _ _ _ _ S1 S2) as S. cbn [app] in S. destruct (E1 [] [] None) as (n1 & X1). destruct (E2 ok1 ko1 n1) as (n2 & X2). cbn [app] in X1.
  unfold describe_sampled_attrs. match goal with |- context [bind ?m _] => replace m with (ret (ok1, ko1, n1)) by (symmetry; exact X1) end. unfold ret in X2 |- *. cbn [bind]. rewrite X2. cbn [bind app].
  assert (P : Forall printable (ok1 ++ ok2)) by (apply Forall_app; auto). assert (Q : Forall printable (ko1 ++ ko2)) by (apply Forall_app; auto).
  destruct (describe_dict_ok fmt _ P) as (ps & D & W). destruct (describe_dict_ok fmt _ Q) as (qs & D' & W'). rewrite D. unfold ret. cbn [bind app].
  destruct (x_inv (parseoptions fmt)) eqn:X; cbn [negb andb].
  - exists ps. split; [reflexivity|]. rewrite <- (app_nil_r ps). eapply shows_sampled; try eassumption. left. split; [apply opt_inv; exact X|reflexivity].
  - assert (NI : ~ without fmt "i"%byte) by (intros Y; apply opt_inv in Y; congruence). destruct (ko1 ++ ko2) as [|k ks] eqn:EK.
    + exists ps. split; [reflexivity|]. rewrite <- (app_nil_r ps). eapply shows_sampled; try eassumption. right. split; [exact NI|]. left. auto.
    + rewrite D'. unfold ret. cbn [bind app]. eexists. split; [reflexivity|]. eapply shows_sampled; try eassumption. right. split; [exact NI|]. right. split; [discriminate|]. exists qs. auto.
Qed.
End blocks.
