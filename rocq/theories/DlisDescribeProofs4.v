(** Proofs about describe: whole descriptions. *)
From Verif Require Import Bytes BytesProofs Stream PyBase DlisTypes DlisCore SpecTypes DlisRecords CommonPy DlisStore SpecDlisStore DlisStoreProofs DlisStoreProofs2 DlisStoreProofs3 DlisStoreProofs4
  DlisStoreProofs5 DlisStoreProofs6 DlisSchema DlisObject SpecDlisObject DlisObjectProofs DlisObjectProofs2 DlisObjectProofs3 DlisObjectProofs4 DlisObjectProofs5 DlisObjectProofs6 Dimensional SpecDimensional DimensionalProofs2 DimensionalProofs3 DimensionalProofs4
  DlisCurves DlisClasses SpecDlisClasses DlisClassesProofs DlisClassesProofs2 PropDlisObject DlisDescribe SpecDlisDescribe DlisDescribeProofs DlisDescribeProofs2 DlisDescribeProofs3.
Local Open Scope Z_scope.

(** ** The tables *)
Definition described : list (pystr * list block) :=
  map (fun p => if pystr_eqb (fst p) (lit (text "CALIBRATION-COEFFICIENT")) then (fst p, coefficient_swapped) else p) summaries.
Definition members_ok (sc : schema) (b : block) : bool :=
  match b with
  | Rows (r :: rows) => forallb (fun r => negb (is_handed (snd r)) && (cell_ok sc (snd r) || match snd r with Members => true | _ => false end)) (r :: rows)
  | _ => false
  end.
Definition allowed (t : pystr) (sc : schema) (b : block) : bool :=
  block_ok sc b || pystr_eqb t (lit (text "GROUP")) && members_ok sc b ||
  pystr_eqb t (lit (text "FRAME")) && match b with Frame_rows => true | _ => false end.
Definition table_ok (p : pystr * list block) : bool :=
  match dict_get (fst p) schemas with Some sc => forallb (allowed (fst p) sc) (snd p) | None => false end.
Lemma tables_ok : forallb table_ok described = true.
Proof. vm_compute. reflexivity. Qed.
Lemma steps_ok : all_steps = map (fun p => (fst p, flat_map to_steps (snd p))) described.
Proof. vm_compute. reflexivity. Qed.
Lemma types_ok : forallb (fun p => existsb (fun k => pystr_eqb (lit k) (fst p)) known_types) described = true.
Proof. vm_compute. reflexivity. Qed.
Lemma types_all : forallb (fun k => existsb (fun p => pystr_eqb (lit k) (fst p)) described) known_types = true.
Proof. vm_compute. reflexivity. Qed.
Lemma described_once : NoDup (map fst described).
Proof.
  apply (@NoDup_count_occ' pystr pystr_dec). assert (F : forallb (fun t => Nat.eqb (count_occ pystr_dec (map fst described) t) 1) (map fst described) = true) by (vm_compute; reflexivity).
  intros t I. rewrite forallb_forall in F. apply Nat.eqb_eq. exact (F t I).
Qed.
Lemma dict_get_map {A B} (f : A -> B) k d : dict_get k (map (fun p => (fst p, f (snd p))) d) = match dict_get k d with Some x => Some (f x) | None => None end.
Proof. induction d as [|[k' x] d IH]; cbn [map dict_get fst snd]; [reflexivity|]. destruct (pystr_eqb k k'); [reflexivity|exact IH]. Qed.

Section whole.
Variable maxdims : nat.
Variable dec : bytes -> pystr.
Variable enc : pystr -> bytes.
Variable esc : severity -> bool.
Variable set_order : list pystr -> list pystr.
Variable sets : list object_set.
Hypothesis loaded : as_loaded sets.
Hypothesis parses : parsable sets.
Hypothesis order : a_set_order set_order.
Hypothesis typed : Forall (fun s => SpecDlisStore.kept dec enc (dec (os_type s))) sets.
Hypothesis sound : sound_file dec enc esc sets.
Local Notation sane := (sane dec esc sets).
Local Notation gives := (gives dec enc sets).
Local Notation has_label := (has_label dec).
Local Notation item := (item dec enc esc set_order).
Local Notation unit_of := (unit_of dec enc).
Local Notation succeeds := (succeeds dec enc esc set_order sets).
Local Notation in_file := (in_file dec sets).
Local Notation row_shows := (row_shows dec enc esc sets).
Local Notation block_shows := (block_shows dec enc esc sets).
Local Notation block_clear := (block_clear maxdims dec enc esc sets).
Local Notation item_ok := (item_ok dec enc esc set_order sets loaded parses order typed sound).
Local Notation succ_chain := (succ_chain dec enc esc set_order sets parses order typed).
Local Notation run := (run maxdims dec enc esc set_order).
Local Notation run_all := (run_all maxdims dec enc esc set_order).
Local Notation step_ok := (step_ok maxdims dec enc esc set_order sets loaded parses order typed sound).

(** ** Sequences of steps *)
Lemma chain_assoc {A B C} (m : store * io A) (k : store -> A -> store * io B) (h : store -> B -> store * io C) :
  chain (chain m k) h = chain m (fun st a => chain (k st a) h).
Proof.
  destruct m as [st [l [a| | |]]]; try reflexivity. unfold chain. destruct (k st a) as [st' [l' [b| | |]]]; try reflexivity.
  destruct (h st' b) as [st2 [l2 r]]. rewrite app_assoc. reflexivity.
Qed.
Lemma chain_ext {A B} (m : store * io A) (k h : store -> A -> store * io B) : (forall st a, k st a = h st a) -> chain m k = chain m h.
Proof. intros H. destruct m as [st [l [a| | |]]]; try reflexivity. unfold chain. rewrite H. reflexivity. Qed.
Lemma chain_ret {A B} st (a : A) (k : store -> A -> store * io B) : chain (st, ret a) k = k st a.
Proof. unfold chain, ret. destruct (k st a) as [st' [l r]]. reflexivity. Qed.
Lemma chain_end {A} (m : store * io A) : chain m (fun st a => (st, ret a)) = m.
Proof. destruct m as [st [l [a| | |]]]; unfold chain, ret; rewrite ?app_nil_r; reflexivity. Qed.
Lemma run_app ex x s1 s2 st : run_all ex x (s1 ++ s2) st = chain (run_all ex x s1 st) (fun st p => chain (run_all ex x s2 st) (fun st q => (st, ret (p ++ q)))).
Proof.
  revert st. induction s1 as [|s s1 IH]; intros st; cbn [app DlisDescribe.run_all].
  - rewrite chain_ret. cbn [app]. symmetry. apply chain_end.
  - rewrite chain_assoc. apply chain_ext. intros st' p. rewrite (IH st'), !chain_assoc. apply chain_ext. intros st1 p1. rewrite chain_ret, !chain_assoc. apply chain_ext.
    intros st2 p2. rewrite chain_ret, app_assoc. reflexivity.
Qed.
Lemma succ_one ex x s P : succeeds (run ex x s) P -> succeeds (run_all ex x [s]) P.
Proof.
  intros H. unfold DlisDescribe.run_all. apply (succ_chain (run ex x s) _ _ _ H). intros p Pp. cbn [chain ret]. apply succ_io. exists p. split; [|exact Pp]. unfold ret. rewrite (app_nil_r p). reflexivity.
Qed.
Lemma succ_blocks {A} ex x (f : A -> list step) (R : A -> list piece -> Prop) bs : Forall (fun b => succeeds (run_all ex x (f b)) (R b)) bs ->
  succeeds (run_all ex x (flat_map f bs)) (fun ps => exists parts, ps = concat parts /\ Forall2 R bs parts).
Proof.
  induction 1 as [|b bs B F IH]; cbn [flat_map].
  - apply succ_ret. exists []. split; [reflexivity|constructor].
  - intros st SA. rewrite run_app. revert st SA. apply (succ_chain (run_all ex x (f b)) _ _ _ B). intros p Pp.
    apply (succ_chain (run_all ex x (flat_map f bs)) _ _ _ IH). intros q (parts & -> & Q). apply succ_ret. exists (p :: parts). split; [reflexivity|]. constructor; assumption.
Qed.

(** ** Values *)
Lemma gives_value_ok x key v : in_file x -> gives x key (ROne v) -> pyval_ok v.
Proof.
  intros I (rl & l & c & vs & lg & xs & RF & LF & ST & T & S). inversion S as [|w ws| | | |]; subst. inversion T as [|y ? vs' ? Ty T']; subst.
  destruct (in_file_from dec sets loaded x I) as (FA & _). inversion ST as [| |a c' vs0 Ia La Va]; subst.
  assert (K : value_ok c y).
  { pose proof (proj1 (Forall_forall _ _) FA a Ia) as K. unfold attr_ok in K. rewrite Va in K. apply Forall_cons_iff in K as [[K _] _]. exact K. }
  inversion Ty; subst; cbn [pyval_ok value_ok] in *; auto.
Qed.
Lemma schema_by_type x t sc : in_file x -> dec (obj_type (po_attic x)) = t -> existsb (fun k => pystr_eqb (lit k) t) known_types = true -> dict_get t schemas = Some sc -> schema_of x = sc.
Proof.
  intros (s & o & _ & _ & ->) E K D. cbn [po_attic promote] in E. unfold schema_of, promote. cbn [po_class]. rewrite E, K, D. reflexivity.
Qed.

(** ** Long names *)
Lemma longname_ok ln : in_file ln -> dec (obj_type (po_attic ln)) = lit (text "LONG-NAME") ->
  succeeds (fun st => match longname_steps with
               | [Dict rows] => chain (eval_rows dec enc esc set_order ln rows st) (fun st d => (st, describe_dict (parseoptions (map b2z (text "hes"))) d))
               | _ => (st, fail)
               end) (fun ps => exists d, Forall2 (row_shows ln) longname_rows d /\ rows_written [b2z "e"%byte] d ps).
Proof.
  intros I E. assert (S : schema_of ln = longname_schema) by (apply (schema_by_type ln _ _ I E); vm_compute; reflexivity).
  assert (EL : longname_steps = [Dict (map (fun r => (fst r, to_expr (snd r))) longname_rows)]) by reflexivity. rewrite EL.
  apply (succ_chain (eval_rows dec enc esc set_order ln (map (fun r => (fst r, to_expr (snd r))) longname_rows)) _
    (Forall2 (row_ok dec enc esc sets ln) longname_rows)).
  - apply (eval_rows_ok maxdims dec enc esc set_order sets loaded parses order typed sound ln longname_rows I).
    +
      apply Forall_forall. intros r J. assert (X : forallb (fun r : bytes * cell => negb (is_handed (snd r))) longname_rows = true) by reflexivity.
      rewrite forallb_forall in X. apply negb_true_iff. exact (X r J).
    + apply Forall_forall. intros r J. left. rewrite S. assert (X : forallb (fun r : bytes * cell => cell_ok longname_schema (snd r)) longname_rows = true) by (vm_compute; reflexivity).
      rewrite forallb_forall in X. exact (X r J).
    + apply Forall_forall. intros r J. assert (X : forallb (fun r : bytes * cell => match snd r with Val _ => true | _ => false end) longname_rows = true) by reflexivity.
      rewrite forallb_forall in X. specialize (X r J). destruct r as [c [l|l|l|l|t a b|l| |dims l]]; try discriminate X. exact Logic.I.
  - intros d D. apply succ_io. destruct (dict_ok dec enc esc sets [b2z "e"%byte] ln longname_rows d D) as (ps & P & R & W). exists ps. split; [exact P|]. exists d. auto.
Qed.
Lemma description_ok fmt x l : in_file x -> In (lit l, Scalar) (sc_attributes (schema_of x)) -> In (lit l, ToName (lit (text "LONG-NAME"))) (sc_linkage (schema_of x)) ->
  succeeds (run (parseoptions fmt) x (Description l)) (block_shows x fmt (Long_name l)).
Proof.
  intros I RL LK. unfold DlisDescribe.run. cbv iota beta.
  apply (succ_chain (item x (lit l)) _ _ _ (item_ok x (lit l) I (or_introl (in_map fst _ _ RL)))). intros r G.
  assert (TR : truth_of r = false <-> r = RNone \/ exists v, r = ROne v /\ is_false v).
  { destruct (gives_scalar dec enc sets x (lit l) r G RL) as [-> |(v & ->)]; cbn [truth_of].
    - split; auto.
    - rewrite (truth_spec v (gives_value_ok x (lit l) v I G)). split; [intros F; right; exists v; auto|]. intros [X|(w & [= <-] & F)]; [discriminate X|exact F]. }
  unfold describe_description. destruct (truth_of r) eqn:TT; cbn [negb andb].
  - assert (NF : exists v, r = ROne v /\ ~ is_false v).
    { destruct (gives_scalar dec enc sets x (lit l) r G RL) as [-> |(v & ->)]; [discriminate TT|]. exists v. split; [reflexivity|]. intros F.
      enough (true = false) by discriminate. apply TR. right. exists v. auto. }
    destruct NF as (v & -> & NF).
    assert (OTHER : (forall o, v <> PObject o) -> succeeds (fun st => (st, describe_dict (parseoptions fmt) [(lit (text "Description"), (SResult (ROne v), None))])) (block_shows x fmt (Long_name l))).
    { intros NO. apply succ_io. destruct (describe_dict_ok fmt [(lit (text "Description"), (SResult (ROne v), None))]) as (ps & E & W).
      { constructor; [|constructor]. split; [reflexivity|apply lit_str]. }
      exists ps. split; [exact E|]. apply (shows_description dec enc esc sets x fmt l (ROne v) ps G); [intros _; exists v; auto|intros o [= X]; exact (NO o X)|exact W]. }
    destruct v as [| | | | | | |ln|]; try (apply OTHER; intros o; discriminate).
    destruct (gives_object dec enc sets loaded x (lit l) (ROne (PObject ln)) ln I G eq_refl) as [J TY].
    apply (succ_chain (fun st => match longname_steps with
               | [Dict rows] => chain (eval_rows dec enc esc set_order ln rows st) (fun st d => (st, describe_dict (parseoptions (map b2z (text "hes"))) d))
               | _ => (st, fail)
               end) _ _ _ (longname_ok ln J (TY _ LK))). intros ps (d & D & W). apply succ_ret. exact (shows_long_name dec enc esc sets x fmt l ln d ps G D W).
  - pose proof (proj1 TR eq_refl) as FF. destruct (x_empty (parseoptions fmt)) eqn:XE.
    + apply succ_ret. apply (shows_no_description dec enc esc sets x fmt l r); [apply opt_empty; exact XE|exact G|exact FF].
    + assert (NO : forall o, r <> ROne (PObject o)). { intros o ->. destruct FF as [X|(v & [= <-] & X)]; [discriminate X|inversion X]. }
      assert (FIN : succeeds (fun st => (st, describe_dict (parseoptions fmt) [(lit (text "Description"), (SResult r, None))])) (block_shows x fmt (Long_name l))).
      { apply succ_io. destruct (describe_dict_ok fmt [(lit (text "Description"), (SResult r, None))]) as (ps & E & W).
        { constructor; [|constructor]. split; [exact (gives_printable dec enc esc sets sound x (lit l) r I G)|apply lit_str]. }
        exists ps. split; [exact E|]. apply (shows_description dec enc esc sets x fmt l r ps G); [intros X; apply opt_empty in X; congruence|exact NO|exact W]. }
      destruct r as [|[| | | | | | |ln|]| |]; try exact FIN. destruct (NO ln eq_refl).
Qed.

(** ** Frames *)
Lemma retrieve_list x (ts : list (entry -> Prop)) d : Forall2 (fun (P : entry -> Prop) (g : pystr * given) => succeeds (retrieve dec enc esc set_order x (snd g)) (fun e => P (fst g, e))) ts d ->
  succeeds (retrieve_all dec enc esc set_order x d) (Forall2 (fun P e => P e) ts).
Proof.
  induction 1 as [|P [c g] ts d H F IH]; cbn [retrieve_all].
  - apply succ_ret. constructor.
  - apply (succ_chain (retrieve dec enc esc set_order x g) _ _ _ H). intros v V.
    apply (succ_chain (retrieve_all dec enc esc set_order x d) _ _ _ IH). intros r R. apply succ_ret. constructor; assumption.
Qed.
Lemma names_shown l : Forall2 (name_of dec) l (map (replist_one dec) l).
Proof. apply names_of. Qed.
Lemma channels_ok fmt x : in_file x -> labels_clear dec enc x -> schema_of x = frame_schema -> block_clear x Frame_rows ->
  succeeds (run (parseoptions fmt) x Channels) (block_shows x fmt Frame_rows).
Proof.
  intros I LC SC CL. cbn [SpecDlisDescribe.block_clear] in CL. unfold DlisDescribe.run. cbv iota beta. unfold describe_channels.
  assert (RC : In (lit (text "CHANNELS"), Vector) (sc_attributes (schema_of x))) by (rewrite SC; vm_compute; tauto).
  assert (RI : In (lit (text "INDEX-TYPE"), Scalar) (sc_attributes (schema_of x))) by (rewrite SC; vm_compute; tauto).
  assert (LK : In (lit (text "CHANNELS"), ToName (lit (text "CHANNEL"))) (sc_linkage (schema_of x))) by (rewrite SC; vm_compute; tauto).
  assert (FC : succeeds (fun st => frame_channels dec enc esc set_order st x) (fun chs => gives x (lit (text "CHANNELS")) (RMany chs))).
  { intros st SA. destruct (item_ok x (lit (text "CHANNELS")) I (or_introl (in_map fst _ _ RC)) st SA) as (ops & lg & r & O & E & G).
    destruct (gives_vector dec enc sets x _ r G (or_introl RC)) as (xs & ->). exists ops, lg, xs. split; [exact O|]. split; [|exact G].
    unfold frame_channels. unfold DlisDescribe.item in E. rewrite SC in E. destruct (getitem dec enc esc set_order st frame_schema (po_attic x) (lit (text "CHANNELS"))) as [st' [l0 [[r0|]| | |]]]; cbn [bind ret fail] in E |- *;
      inversion E; subst; try reflexivity. }
  apply (succ_chain (fun st => frame_channels dec enc esc set_order st x) _ _ _ FC). intros [|ch chs] GC.
  { apply succ_ret. apply shows_no_channels. exact GC. }
  apply (succ_chain (item x (lit (text "INDEX-TYPE"))) _ _ _ (item_ok x _ I (or_introl (in_map fst _ _ RI)))). intros it GI.
  assert (NP : unprintable (SNames (map (replist_one dec) (ch :: chs))) = false).
  { apply (names_printable dec enc esc sets sound). intros p J. exact (proj1 (gives_object dec enc sets loaded x _ (RMany (ch :: chs)) p I GC J)). }
  assert (DA : describe_array (SNames (map (replist_one dec) (ch :: chs))) = ret [Line (SNames (map (replist_one dec) (ch :: chs)))]).
  { unfold describe_array. rewrite NP. reflexivity. }
  destruct (gives_scalar dec enc sets x _ it GI RI) as [-> |(t & ->)].
  - apply (succ_chain (fun st => (st, ret [Line (SResult (ROne (PText (lit (text "There is no index channel, channels are indexed by samplenumber, i.e [1,2,3,..,n]")))))])) _
      (fun p => p = [told "There is no index channel, channels are indexed by samplenumber, i.e [1,2,3,..,n]"%txt])); [apply succ_ret; reflexivity|].
    intros p ->. apply succ_io. rewrite DA. eexists. split; [reflexivity|].
    exact (shows_channels dec enc esc sets x fmt (ch :: chs) _ GC ltac:(discriminate) GI (names_shown (ch :: chs))).
  - destruct (CL ch chs t GC GI) as (index & -> & FREE).
    destruct (gives_object dec enc sets loaded x _ _ index I GC (or_introl eq_refl)) as [J TY]. specialize (TY _ LK).
    assert (SI : schema_of index = channel_schema) by (apply (schema_by_type index _ _ J TY); vm_compute; reflexivity).
    assert (HU : has_label index (lit (text "UNITS"))) by (left; rewrite SI; vm_compute; tauto).
    assert (ATTR : forall c l, In (lit l) (map fst (sc_attributes frame_schema)) ->
      succeeds (retrieve dec enc esc set_order x (GText (lit l))) (fun e => row_shows x (c, Attr l) (lit c, e) /\ printable (lit c, e))).
    { intros c l K. rewrite <- SC in K. apply (succ_weaken _ _ _ _ _ _ _ _ (retrieve_label dec enc esc set_order sets loaded parses order typed sound x (lit l) I (or_introl K) (or_introl (LC _ K)))).
      intros [v u] (r & G & E & U). cbn [fst snd] in *. subst v. split; [split; [reflexivity|constructor; assumption]|]. split; [exact (gives_printable dec enc esc sets sound x (lit l) r I G)|apply lit_str]. }
    match goal with |- DlisDescribeProofs2.succeeds _ _ _ _ _ (fun st => chain (@?m st) ?k) _ => apply (succ_chain m k (fun p => exists ps d, p = Section (lit (text "Channel indexing")) :: ps /\
      Forall2 (index_shows dec enc esc sets x index) index_rows d /\ rows_written fmt (d ++ [(lit (text "Index channel"), (SResult (ROne (PObject index)), None))]) ps)) end.
    + cbv beta. apply (succ_chain (item index (lit (text "UNITS"))) _ _ _ (item_ok index _ J HU)). intros units GU.
      unfold describe_attributes.
      set (row c l := fun e : entry => row_shows x (c, Attr l) e /\ printable e).
      set (ts := [ row (text "Description") (text "DESCRIPTION"); row (text "Indexed by") (text "INDEX-TYPE");
                   (fun e => row_shows index (text "Index units", Val (text "UNITS")) e /\ printable e);
                   row (text "Index min") (text "INDEX-MIN"); row (text "Index max") (text "INDEX-MAX"); row (text "Direction") (text "DIRECTION");
                   row (text "Constant spacing") (text "SPACING");
                   (fun e => e = (lit (text "Index channel"), (SResult (ROne (PObject index)), None))) ]).
      match goal with |- DlisDescribeProofs2.succeeds _ _ _ _ _ (fun st => chain (chain (retrieve_all _ _ _ _ _ ?d st) ?k1) ?k2) _ =>
        assert (RA : succeeds (retrieve_all dec enc esc set_order x d) (Forall2 (fun P e => P e) ts)) end.
      { apply retrieve_list. subst ts. cbv beta.
        apply Forall2_cons; [apply ATTR; vm_compute; tauto|]. apply Forall2_cons; [apply ATTR; vm_compute; tauto|]. apply Forall2_cons.
        { cbn [fst snd]. assert (OTHER : succeeds (retrieve dec enc esc set_order x (GOther (SResult units))) (fun e => row_shows index (text "Index units", Val (text "UNITS")) (lit (text "Index units"), e) /\ printable (lit (text "Index units"), e))).
          { unfold retrieve. cbv iota beta. apply succ_ret. split; [split; [reflexivity|constructor; exact GU]|]. split; [exact (gives_printable dec enc esc sets sound index _ units J GU)|apply lit_str]. }
          destruct units as [|[| |s| | | | | |]| |]; try exact OTHER.
          apply (succ_weaken _ _ _ _ _ _ _ _ (retrieve_free dec enc esc set_order sets x s (FREE s GU))). intros e ->. split; [split; [reflexivity|constructor; exact GU]|]. split; [reflexivity|apply lit_str]. }
        apply Forall2_cons; [apply ATTR; vm_compute; tauto|]. apply Forall2_cons; [apply ATTR; vm_compute; tauto|].
        apply Forall2_cons; [apply ATTR; vm_compute; tauto|]. apply Forall2_cons; [apply ATTR; vm_compute; tauto|].
        apply Forall2_cons; [|constructor]. unfold retrieve. cbv iota beta. cbn [fst snd]. apply succ_ret. reflexivity. }
      match goal with |- DlisDescribeProofs2.succeeds _ _ _ _ _ (fun st => chain (@?m st) ?k) _ => apply (succ_chain m k (fun p => exists d,
        Forall2 (index_shows dec enc esc sets x index) index_rows d /\ rows_written fmt (d ++ [(lit (text "Index channel"), (SResult (ROne (PObject index)), None))]) p)) end.
      * cbv beta. match goal with |- DlisDescribeProofs2.succeeds _ _ _ _ _ (fun st => chain (@?m st) ?k) _ => apply (succ_chain m k _ _ RA) end.
        intros d D. apply succ_io. subst ts row. cbv beta in D.
        repeat match goal with H : Forall2 _ (_ :: _) _ |- _ => inversion H; clear H; subst | H : Forall2 _ [] _ |- _ => inversion H; clear H; subst end.
        repeat match goal with H : _ /\ printable _ |- _ => destruct H as [? ?] end.
        match goal with |- exists a, describe_dict _ ?l = _ /\ _ => destruct (describe_dict_ok fmt l) as (ps & E & W) end.
        { repeat (constructor; [assumption|]). constructor; [|constructor]. split; [reflexivity|apply lit_str]. }
        exists ps. split; [exact E|]. eexists [_; _; _; _; _; _; _]. split; [|exact W]. unfold index_rows. repeat (constructor; [unfold index_shows; cbn [fst snd]; assumption|]). constructor.
      * intros p (d & D & W). apply succ_ret. exists p, d. auto.
    + intros p (ps & d & -> & D & W). apply succ_io. rewrite DA. eexists. split; [reflexivity|].
      exact (shows_index dec enc esc sets x fmt t index chs _ d ps GC GI (names_shown (PObject index :: chs)) D W).
Qed.

(** ** Coordinates *)
Lemma coordinates_in fmt x : in_file x -> block_clear x Coordinate_rows -> succeeds (run (parseoptions fmt) x Coordinates) (block_shows x fmt Coordinate_rows).
Proof.
  intros I (k1 & v1 & k2 & v2 & k3 & v3 & H1 & H2 & H3). unfold DlisDescribe.run. cbv iota beta. apply succ_io.
  rewrite (coordinates_ok dec enc (po_attic x) _ v1 _ v2 _ v3 (in_file_from dec sets loaded x I) H1 H2 H3).
  set (d := dict_put (Str k3) v3 (dict_put (Str k2) v2 (dict_put (Str k1) v1 []))).
  assert (ND : NoDup (map fst d)) by (repeat apply dict_put_nodup; constructor).
  assert (IN : forall k v, In (k, v) d <-> k = Str k3 /\ v = v3 \/ k = Str k2 /\ v = v2 /\ k <> Str k3 \/ k = Str k1 /\ v = v1 /\ k <> Str k2 /\ k <> Str k3).
  { intros k v. unfold d. generalize (Str k1), (Str k2), (Str k3). clear. intros k1 k2 k3. cbn [dict_put].
    assert (EQ : forall a b, pystr_eqb a b = true /\ a = b \/ pystr_eqb a b = false /\ a <> b).
    { intros a b. destruct (pystr_eqb a b) eqn:E; [left; split; [reflexivity|apply pystr_eqb_spec; exact E]|right; split; [reflexivity|]].
      intros ->. rewrite (proj2 (pystr_eqb_spec b b) eq_refl) in E. discriminate. }
    destruct (EQ k2 k1) as [[-> <-]|[-> N1]]; cbn [dict_put].
    - destruct (EQ k3 k2) as [[-> <-]|[-> N2]]; cbn [dict_put In]; split; intuition (try congruence).
    - destruct (EQ k3 k1) as [[-> <-]|[-> N2]]; cbn [dict_put]; [|destruct (EQ k3 k2) as [[-> <-]|[-> N3]]]; cbn [In]; split; intuition (try congruence). }
  destruct (describe_dict_ok fmt (map (fun e => (fst e, (SResult (ROne (snd e)), None))) d)) as (ps & E & W).
  { apply Forall_forall. intros e J. apply in_map_iff in J as ([k v] & <- & J). split; [reflexivity|]. cbn [fst snd]. apply IN in J as [[-> _]|[[-> _]|[-> _]]]; eexists; reflexivity. }
  exists ps. split; [unfold ret at 1; cbn [bind]; rewrite E; reflexivity|].
  exact (shows_coordinates dec enc esc sets x fmt _ v1 _ v2 _ v3 d ps H1 H2 H3 ND IN W).
Qed.

(** ** Blocks *)
Lemma link_eqb_eq a b : link_eqb a b = true -> a = b.
Proof.
  destruct a as [[t|]|], b as [[u|]|]; cbn; intros H; try discriminate H; try reflexivity. apply pystr_eqb_spec in H. subst. reflexivity.
Qed.
Lemma block_run fmt x b : in_file x -> labels_clear dec enc x -> dict_get (dec (obj_type (po_attic x))) schemas = Some (schema_of x) ->
  allowed (dec (obj_type (po_attic x))) (schema_of x) b = true -> block_clear x b ->
  succeeds (run_all (parseoptions fmt) x (to_steps b)) (block_shows x fmt b).
Proof.
  intros I LC DS OK CL. unfold allowed in OK. apply orb_true_iff in OK as [OK|OK]; [apply orb_true_iff in OK as [OK|OK]|].
  - destruct b as [rows|h rows|l|dims l extras single|l| |]; cbn [block_ok] in OK; cbn [SpecDlisDescribe.block_clear] in CL.
    + apply succ_one. apply (succ_weaken _ _ _ _ _ _ _ _ (step_ok fmt x rows I LC (or_introl OK) CL)). intros ps (d & D & W). exact (shows_rows dec enc esc sets x fmt rows d ps D W).
    + destruct rows as [|r rows].
      * apply succ_one. unfold DlisDescribe.run. cbv iota beta. apply succ_ret. exact (shows_titled dec enc esc sets x fmt h [] [] [] (Forall2_nil _) (rows_none fmt)).
      * cbn [to_steps]. intros st SA. cbn [DlisDescribe.run_all]. unfold DlisDescribe.run at 1. cbv iota beta. rewrite chain_ret. revert st SA.
        apply (succ_chain (run_all (parseoptions fmt) x [to_step (r :: rows)]) _ _ _ (succ_one _ _ _ _ (step_ok fmt x (r :: rows) I LC (or_introl OK) CL))).
        intros ps (d & D & W). apply succ_ret. exact (shows_titled dec enc esc sets x fmt h (r :: rows) d ps D W).
    + apply andb_true_iff in OK as [K L]. apply succ_one. apply description_ok; [exact I| |].
      * apply ruled_in in K as (r & [<-|[]] & K). exact K.
      * apply link_eqb_eq in L. apply dict_get_some. exact L.
    + apply succ_one. destruct CL as (shape & SH & F & SM). unfold DlisDescribe.run. destruct dims as [dims|]; cbv iota beta.
      * apply (succ_chain (item x (lit dims)) _ _ _ (item_ok x (lit dims) I (or_introl (ruled_known _ _ _ OK)))). intros r G.
        rewrite (shape_unique dec enc sets loaded x dims shape r I SH G). apply succ_io.
        exact (sampled_rows_ok maxdims dec enc esc sets loaded sound fmt x (Some dims) l extras single shape I SH F SM).
      * cbn [SpecDlisDescribe.shape_of] in SH. subst shape. apply succ_io.
        exact (sampled_rows_ok maxdims dec enc esc sets loaded sound fmt x None l extras single [1] I eq_refl F SM).
    + apply succ_one. unfold DlisDescribe.run. cbv iota beta. apply (succ_chain (item x (lit l)) _ _ _ (item_ok x (lit l) I (or_introl (ruled_known _ _ _ OK)))). intros r G.
      apply ruled_in in OK as (rl & [<-|[]] & RL). destruct (gives_vector dec enc sets x (lit l) r G (or_introl RL)) as (xs & ->). apply succ_io. destruct xs as [|v vs].
      * exists []. split; [reflexivity|]. apply shows_no_text. exact G.
      * exists [Line (SResult (RMany (v :: vs)))]. split; [|apply shows_text; exact G]. unfold describe_array. rewrite (gives_printable dec enc esc sets sound x (lit l) _ I G). reflexivity.
    + apply succ_one. apply coordinates_in; assumption.
    + discriminate OK.
  - apply andb_true_iff in OK as [T OK]. apply pystr_eqb_spec in T. assert (SG : schema_of x = group_schema) by (rewrite T in DS; assert (X : dict_get (lit (text "GROUP")) schemas = Some group_schema) by (vm_compute; reflexivity); congruence).
    destruct b as [[|r rows]| | | | | |]; try discriminate OK. cbn [SpecDlisDescribe.block_clear] in CL. unfold members_ok in OK. apply succ_one. rewrite forallb_forall in OK.
    assert (K : Forall (fun r => is_handed (snd r) = false) (r :: rows) /\ Forall (fun r => cell_ok (schema_of x) (snd r) = true \/ snd r = Members /\ schema_of x = group_schema) (r :: rows)).
    { split; apply Forall_forall; intros y J; specialize (OK y J); apply andb_true_iff in OK as [A B]; [apply negb_true_iff; exact A|].
      apply orb_true_iff in B as [B|B]; [left; exact B|right]. split; [destruct (snd y); try discriminate B; reflexivity|exact SG]. }
    destruct K as [K1 K2]. assert (NE : r :: rows <> []) by discriminate.
    assert (ST : succeeds (run (parseoptions fmt) x (to_step (r :: rows))) (fun ps => exists d, Forall2 (row_shows x) (r :: rows) d /\ rows_written fmt d ps)).
    { apply step_ok; [exact I|exact LC| |exact CL]. right. split; [exact K1|]. split; [exact NE|exact K2]. }
    apply (succ_weaken _ _ _ _ _ _ _ _ ST). intros ps (d & D & W). exact (shows_rows dec enc esc sets x fmt (r :: rows) d ps D W).
  - apply andb_true_iff in OK as [T OK]. apply pystr_eqb_spec in T. assert (SF : schema_of x = frame_schema) by (rewrite T in DS; assert (X : dict_get (lit (text "FRAME")) schemas = Some frame_schema) by (vm_compute; reflexivity); congruence).
    destruct b; try discriminate OK. apply succ_one. apply channels_ok; assumption.
Qed.

(** ** Unknown attributes *)
Lemma stash_shows fmt x : in_file x -> extras_clear dec x ->
  succeeds (describe_stash dec enc esc set_order (parseoptions fmt) x) (fun p3 =>
    forall unknown, (forall a, unknown a = true <-> unknown_label dec (schema_of x) a) ->
       filter unknown (obj_attrs (po_attic x)) = [] /\ p3 = [] \/
       filter unknown (obj_attrs (po_attic x)) <> [] /\
       exists d q, p3 = Section (lit (text "Unknown attributes")) :: q /\
         Forall2 (extra_shows dec enc sets x) (filter unknown (obj_attrs (po_attic x))) d /\ rows_written fmt d q).
Proof.
  intros I EC. set (un := fun a => negb (existsb (fun e => pystr_eqb (dec (at_label a)) (fst e)) (sc_attributes (schema_of x)))).
  assert (UN : forall a, un a = true <-> unknown_label dec (schema_of x) a).
  { intros a. unfold un, unknown_label. rewrite negb_true_iff, <- not_true_iff_false, known_key. reflexivity. }
  assert (ANY : forall unknown, (forall a, unknown a = true <-> unknown_label dec (schema_of x) a) -> filter unknown (obj_attrs (po_attic x)) = filter un (obj_attrs (po_attic x))).
  { intros unknown H. apply filter_ext_in'. intros a _. apply eq_true_iff_eq. rewrite H, UN. reflexivity. }
  assert (LB : forall a, In a (obj_attrs (po_attic x)) -> enc (dec (at_label a)) = at_label a).
  { intros a Ia. exact (proj1 (proj2 (proj2 (in_file_sound dec enc esc sets sound x I)) a Ia)). }
  assert (HL : forall a, In a (obj_attrs (po_attic x)) -> has_label x (dec (at_label a))) by (intros a Ia; right; apply (in_map (fun a => dec (at_label a))); exact Ia).
  destruct (stash_ok dec enc esc sets (schema_of x) (po_attic x) un) as (d & E & F & _).
  { exact (in_file_from dec sets loaded x I). }
  { exact UN. }
  { intros a Ia U. split; [exact (LB a Ia)|]. apply UN in U. destruct (EC a Ia U) as [NM _].
    destruct (legible_label dec enc esc sets sound x _ I (HL a Ia)) as (l & c & vs & lg & _ & ST & _ & _ & RD).
    destruct (at_value a) as [|c' vs'] eqn:V; [contradiction|]. exists c', vs'. split; [exact V|].
    assert (ST' : stored enc (po_attic x) (dec (at_label a)) c' vs' (at_log a)) by (apply stored_values; [exact Ia|symmetry; exact (LB a Ia)|exact V]).
    destruct (stored_unique dec enc sets loaded x _ _ _ _ _ _ _ I ST ST') as (-> & _). intros t J. exact (proj1 (proj1 (Forall_forall _ _) RD _ J) t eq_refl). }
  unfold describe_stash. rewrite E. destruct d as [|e0 d0].
  - apply succ_ret. intros unknown H. left. rewrite (ANY unknown H). split; [|reflexivity]. destruct (filter un (obj_attrs (po_attic x))); [reflexivity|discriminate F].
  - set (d := e0 :: d0) in *. unfold describe_attributes.
    assert (RA : succeeds (retrieve_all dec enc esc set_order x (map (fun e => (fst e, GText (fst e))) d))
      (Forall2 (fun P e => P e) (map (fun a (e : entry) => extra_shows dec enc sets x a e /\ printable e) (filter un (obj_attrs (po_attic x)))))).
    { apply retrieve_list. assert (SUB : forall a, In a (filter un (obj_attrs (po_attic x))) -> In a (obj_attrs (po_attic x)) /\ un a = true) by (intros a J; apply filter_In in J; exact J).
      clear E ANY. clearbody d. revert d F SUB. induction (filter un (obj_attrs (po_attic x))) as [|a l IH]; intros [|e d] F SUB; try discriminate F; cbn [map]; constructor.
      - cbn [map] in F. injection F as F1 F2. cbn [fst snd]. destruct (SUB a (or_introl eq_refl)) as [Ia U].
        assert (KK : In (dec (at_label a)) (keys dec (po_attic x))) by (apply (in_map (fun a => dec (at_label a))); exact Ia). rewrite F1.
        apply (succ_weaken _ _ _ _ _ _ _ _ (retrieve_label dec enc esc set_order sets loaded parses order typed sound x _ I (HL a Ia) (or_intror KK))).
        intros [v u] (r & G & Ev & Ue). cbn [fst snd] in *. subst v. split.
        + split; [reflexivity|]. cbn [fst snd]. split; [|exists r; auto]. inversion Ue as [N|a' Ia' La']; subst.
          * exfalso. apply N. rewrite (LB a Ia). apply in_map. exact Ia.
          * f_equal. f_equal. f_equal. apply (label_once dec sets loaded x); auto. rewrite La'. apply LB. exact Ia.
        + split; [exact (gives_printable dec enc esc sets sound x _ r I G)|]. cbn [fst]. exact (proj2 (EC a Ia (proj1 (UN a) U))).
      - cbn [map] in F. injection F as _ F2. apply IH; [exact F2|]. intros b J. apply SUB. right. exact J. }
    match goal with |- DlisDescribeProofs2.succeeds _ _ _ _ _ (fun st => chain (chain (@?m st) ?k1) ?k2) _ =>
      assert (DA : succeeds (fun st => chain (m st) k1) (fun q => exists d, Forall2 (extra_shows dec enc sets x) (filter un (obj_attrs (po_attic x))) d /\ rows_written fmt d q)) end.
    { match goal with |- DlisDescribeProofs2.succeeds _ _ _ _ _ (fun st => chain (@?m st) ?k) _ => apply (succ_chain m k _ _ RA) end. intros r R. apply succ_io.
      assert (SP : Forall2 (extra_shows dec enc sets x) (filter un (obj_attrs (po_attic x))) r /\ Forall printable r).
      { clear -R. revert r R. induction (filter un (obj_attrs (po_attic x))) as [|a l IH]; intros r R; cbn [map] in R; inversion R as [|P e ? r' H R']; subst; [split; constructor|]. cbv beta in H. destruct H as [H1 H2].
        destruct (IH r' R') as [A B]. split; constructor; assumption. }
      destruct SP as [A B]. destruct (describe_dict_ok fmt r B) as (q & Q & W). exists q. split; [exact Q|]. exists r. auto. }
    match goal with |- DlisDescribeProofs2.succeeds _ _ _ _ _ (fun st => chain (@?m st) ?k) _ => apply (succ_chain m k _ _ DA) end.
    intros q (r & R & W). apply succ_ret. intros unknown H. rewrite (ANY unknown H). right. split; [destruct (filter un (obj_attrs (po_attic x))); [subst d; discriminate F|discriminate]|]. exists r, q. auto.
Qed.

(** ** Everything *)
Lemma blocks_steps x blocks : in_file x -> In (dec (obj_type (po_attic x)), blocks) described ->
  steps_of x = flat_map to_steps blocks /\ dict_get (dec (obj_type (po_attic x))) schemas = Some (schema_of x) /\
  Forall (fun b => allowed (dec (obj_type (po_attic x))) (schema_of x) b = true) blocks.
Proof.
  intros I J. pose proof types_ok as K. rewrite forallb_forall in K. specialize (K _ J). cbn [fst] in K. pose proof tables_ok as T. rewrite forallb_forall in T. specialize (T _ J).
  unfold table_ok in T. cbn [fst snd] in T. destruct (dict_get (dec (obj_type (po_attic x))) schemas) as [sc|] eqn:D; [|discriminate T].
  assert (SO : schema_of x = sc) by (exact (schema_by_type x _ sc I eq_refl K D)). rewrite SO. split; [|split; [reflexivity|apply forallb_Forall; exact T]].
  unfold steps_of. destruct I as (s & o & _ & _ & ->). cbn [po_attic promote po_class] in *. rewrite K, steps_ok, dict_get_map.
  rewrite (dict_get_in _ _ _ described_once J). reflexivity.
Qed.
Lemma no_steps x : in_file x -> ~ In (dec (obj_type (po_attic x))) (map fst described) -> steps_of x = [].
Proof.
  intros (s & o & _ & _ & ->) N. cbn [po_attic promote] in N. unfold steps_of, promote. cbn [po_class].
  destruct (existsb (fun k => pystr_eqb (lit k) (dec (obj_type o))) known_types) eqn:K; [|reflexivity]. exfalso. apply N.
  apply existsb_exists in K as (k & J & E). apply pystr_eqb_spec in E. pose proof types_all as T. rewrite forallb_forall in T. specialize (T k J). apply existsb_exists in T as (p & Ip & P).
  apply pystr_eqb_spec in P. rewrite <- E, P. apply in_map. exact Ip.
Qed.
Lemma describe_ok fmt x blocks : in_file x -> labels_clear dec enc x -> extras_clear dec x -> Forall (block_clear x) blocks ->
  In (dec (obj_type (po_attic x)), blocks) described \/ ~ In (dec (obj_type (po_attic x))) (map fst described) /\ blocks = [] ->
  succeeds (fun st => describe maxdims dec enc esc set_order st x fmt) (summary_with dec enc esc sets x fmt blocks).
Proof.
  intros I LC EC BC BL. unfold describe.
  assert (P1 : succeeds (fun st => if x_head (parseoptions fmt) then (st, ret [])
         else (st, let* p := describe_dict (parseoptions fmt) (headerinfo dec (po_attic x)) in ret (Title (dec (obj_type (po_attic x))) :: p)))
    (fun p1 => if_in fmt "h"%byte (p1 = []) (exists q, p1 = Title (dec (obj_type (po_attic x))) :: q /\ rows_written fmt (head_rows dec (po_attic x)) q))).
  { destruct (x_head (parseoptions fmt)) eqn:X; [apply succ_ret; left; split; [apply opt_head; exact X|reflexivity]|]. apply succ_io.
    destruct (describe_dict_ok fmt (headerinfo dec (po_attic x))) as (q & E & W).
    { unfold headerinfo. repeat (constructor; [split; [reflexivity|apply lit_str]|]). constructor. }
    rewrite E. eexists. split; [reflexivity|]. right. split; [intros Y; apply opt_head in Y; congruence|]. exists q. auto. }
  assert (P2 : succeeds (fun st => if x_attr (parseoptions fmt) then (st, ret []) else run_all (parseoptions fmt) x (steps_of x) st)
    (fun p2 => if_in fmt "a"%byte (p2 = []) (exists parts, p2 = concat parts /\ Forall2 (block_shows x fmt) blocks parts))).
  { destruct (x_attr (parseoptions fmt)) eqn:X; [apply succ_ret; left; split; [apply opt_attr; exact X|reflexivity]|].
    assert (NA : ~ without fmt "a"%byte) by (intros Y; apply opt_attr in Y; congruence). destruct BL as [J|[N ->]].
    - destruct (blocks_steps x blocks I J) as (E & D & A). rewrite E.
      match goal with |- DlisDescribeProofs2.succeeds _ _ _ _ _ ?m _ => apply (succ_weaken _ _ _ _ _ m (fun ps => exists parts, ps = concat parts /\ Forall2 (block_shows x fmt) blocks parts)) end.
      + apply (succ_blocks (parseoptions fmt) x to_steps (block_shows x fmt) blocks). apply Forall_forall. intros b Ib.
        apply block_run; try assumption; [exact (proj1 (Forall_forall _ _) A b Ib)|exact (proj1 (Forall_forall _ _) BC b Ib)].
      + intros ps H. right. auto.
    - rewrite (no_steps x I N). apply succ_ret. right. split; [exact NA|]. exists []. split; [reflexivity|constructor]. }
  assert (P3 : succeeds (fun st => if x_stash (parseoptions fmt) then (st, ret []) else describe_stash dec enc esc set_order (parseoptions fmt) x st)
    (fun p3 => if_in fmt "s"%byte (p3 = []) (forall unknown, (forall a, unknown a = true <-> unknown_label dec (schema_of x) a) ->
       filter unknown (obj_attrs (po_attic x)) = [] /\ p3 = [] \/
       filter unknown (obj_attrs (po_attic x)) <> [] /\
       exists d q, p3 = Section (lit (text "Unknown attributes")) :: q /\
         Forall2 (extra_shows dec enc sets x) (filter unknown (obj_attrs (po_attic x))) d /\ rows_written fmt d q))).
  { destruct (x_stash (parseoptions fmt)) eqn:X; [apply succ_ret; left; split; [apply opt_stash; exact X|reflexivity]|].
    apply (succ_weaken _ _ _ _ _ _ _ _ (stash_shows fmt x I EC)). intros p3 H. right. split; [intros Y; apply opt_stash in Y; congruence|exact H]. }
  match goal with |- DlisDescribeProofs2.succeeds _ _ _ _ _ (fun st => chain (@?m st) ?k) _ => apply (succ_chain m k _ _ P1) end. intros p1 H1.
  match goal with |- DlisDescribeProofs2.succeeds _ _ _ _ _ (fun st => chain (@?m st) ?k) _ => apply (succ_chain m k _ _ P2) end. intros p2 H2.
  match goal with |- DlisDescribeProofs2.succeeds _ _ _ _ _ (fun st => chain (@?m st) ?k) _ => apply (succ_chain m k _ _ P3) end. intros p3 H3.
  apply succ_ret. exists p1, p2, p3. split; [reflexivity|]. split; [exact H1|]. split; [exact H2|exact H3].
Qed.
End whole.
Lemma described_table : forall t blocks, In (t, blocks) summaries -> t <> lit (text "CALIBRATION-COEFFICIENT") -> In (t, blocks) described.
Proof.
  intros t blocks I N. unfold described. apply in_map_iff. exists (t, blocks). split; [|exact I]. cbn [fst].
  destruct (pystr_eqb t (lit (text "CALIBRATION-COEFFICIENT"))) eqn:E; [apply pystr_eqb_spec in E; contradiction|reflexivity].
Qed.
Lemma described_keys : map fst described = map fst summaries.
Proof. vm_compute. reflexivity. Qed.
Lemma described_coefficient : In (lit (text "CALIBRATION-COEFFICIENT"), coefficient_swapped) described.
Proof. vm_compute. tauto. Qed.
