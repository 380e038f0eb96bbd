(** Proofs about describe: logical and physical files. *)
From Coq Require Import Permutation.
From Verif Require Import Bytes BytesProofs Stream PyBase DlisTypes DlisCore SpecTypes DlisRecords CommonPy DlisStore SpecDlisStore DlisStoreProofs DlisStoreProofs2 DlisStoreProofs3 DlisStoreProofs4
  DlisStoreProofs5 DlisStoreProofs6 DlisSchema DlisObject SpecDlisObject DlisObjectProofs DlisObjectProofs2 DlisObjectProofs3 DlisObjectProofs4 DlisObjectProofs5 DlisObjectProofs6 Dimensional SpecDimensional DimensionalProofs2 DimensionalProofs3 DimensionalProofs4
  DlisCurves DlisClasses SpecDlisClasses DlisClassesProofs DlisClassesProofs2 PropDlisStore PropDlisObject DlisDescribe SpecDlisDescribe DlisDescribeProofs DlisDescribeProofs2.
Local Open Scope Z_scope.

(** ** Rows without units, all of which are written *)
Lemma rows_plain d ps : rows_written [] d ps -> Forall (fun e => snd (snd e) = None) d -> ps = map (fun e : entry => Entry (fst e) (fst (snd e)) None) d.
Proof.
  induction 1 as [|c v u u' d ps N U R IH|c v u d ps W]; intros F; cbn [map fst snd]; [reflexivity| |destruct W].
  inversion F as [|e d' E F']; subst. cbn [snd] in E. subst u. inversion U; subst; [f_equal; auto| f_equal; auto].
Qed.
Lemma chain_assoc {A B C} (m : store * io A) (f : store -> A -> store * io B) (g : store -> B -> store * io C) :
  chain (chain m f) g = chain m (fun st a => chain (f st a) g).
Proof.
  destruct m as [st [l [a| | |]]]; cbn [chain]; try reflexivity. destruct (f st a) as [st' [l' [b| | |]]]; cbn [chain]; try reflexivity.
  destruct (g st' b) as [st'' [l'' r]]. rewrite app_assoc. reflexivity.
Qed.

Lemma dict_cases ex d : (exists p, describe_dict ex d = ret p) \/ describe_dict ex d = fail.
Proof. unfold describe_dict. cbv zeta. repeat match goal with |- context [if ?b then fail else _] => destruct b end; eauto. Qed.

Section files.
Variable dec : bytes -> pystr.
Variable enc : pystr -> bytes.
Variable esc : severity -> bool.
Variable set_order : list pystr -> list pystr.
Variable sets : list object_set.
Hypothesis loaded : as_loaded sets.
Hypothesis parses : parsable sets.
Hypothesis order : a_set_order set_order.
Hypothesis typed : Forall (fun s => SpecDlisStore.kept dec enc (dec (os_type s))) sets.
Local Notation sane := (sane dec esc sets).
Local Notation kept := (SpecDlisStore.kept dec enc).
Local Notation succeeds := (succeeds dec enc esc set_order sets).
Local Notation succ_chain := (succ_chain dec enc esc set_order sets parses order typed).
Local Notation succ_ret := (succ_ret dec enc esc set_order sets).
Local Notation count_of := (count_of dec sets).
Local Notation find st t := (store_find dec enc esc set_order st t None (Some exact)).
Local Notation raises t := (selected_raises dec esc (pystr_eqb t) sets).

(** ** Calls that raise *)
Definition fails {A} (m : store -> store * io A) : Prop := forall st, sane st -> snd (snd (m st)) = Exn.
Lemma fail_first {A B} (m : store -> store * io A) (k : store -> A -> store * io B) : fails m -> fails (fun st => chain (m st) k).
Proof. intros F st SA. specialize (F st SA). destruct (m st) as [st' [l r]]. cbn [snd] in F. subst r. reflexivity. Qed.
Lemma fail_then {A B} (m : store -> store * io A) (k : store -> A -> store * io B) P : succeeds m P -> (forall a, P a -> fails (fun st => k st a)) ->
  fails (fun st => chain (m st) k).
Proof.
  intros M K st SA. destruct (M st SA) as (ops & l & a & O & E & H). rewrite E. unfold chain.
  assert (F : snd (snd (k (fold_left (perform dec enc esc set_order) ops st) a)) = Exn) by (apply (K a H); apply performs_sane; assumption).
  destruct (k (fold_left (perform dec enc esc set_order) ops st) a) as [st' [l' r]]. exact F.
Qed.
Lemma fail_io {A} (m : io A) : snd m = Exn -> fails (fun st => (st, m)).
Proof. intros E st _. exact E. Qed.

(** ** Counting *)
Lemma find_succ t : kept t -> raises t = false -> succeeds (fun st => find st t) (fun objs => Z.of_nat (length objs) = count_of t).
Proof.
  intros K R st SA. pose proof (find_any dec enc esc set_order sets parses order typed st t None (Some exact) pystr_eqb SA K
    ltac:(discriminate) (fun _ _ => eq_refl) (fun _ _ _ => eq_refl)) as F. rewrite R in F. destruct F as (objs & E & P).
  exists [Find t None (Some exact)]. destruct (find st t) as [st' [l r]] eqn:S. cbn [snd] in E. subst r. exists l, objs.
  split; [constructor; [|constructor]; split; [exact K|]; intros x [= <-] _ p c; reflexivity|].
  split; [cbn [fold_left perform]; rewrite S; reflexivity|]. apply Permutation_length in P. rewrite P, map_length. reflexivity.
Qed.
Lemma find_fails t : kept t -> raises t = true -> fails (fun st => find st t).
Proof.
  intros K R st SA. pose proof (find_any dec enc esc set_order sets parses order typed st t None (Some exact) pystr_eqb SA K
    ltac:(discriminate) (fun _ _ => eq_refl) (fun _ _ _ => eq_refl)) as F. rewrite R in F. exact F.
Qed.
Lemma count_succ t : kept (lit t) -> raises (lit t) = false ->
  succeeds (fun st => chain (objects_of_type dec enc esc set_order st t) (fun st l => (st, ret (SInt (Z.of_nat (length l)))))) (fun v => v = SInt (count_of (lit t))).
Proof. intros K R. apply (succ_chain _ _ _ _ (find_succ (lit t) K R)). intros a <-. apply succ_ret. reflexivity. Qed.
Lemma count_fails t : kept (lit t) -> raises (lit t) = true ->
  fails (fun st => chain (objects_of_type dec enc esc set_order st t) (fun st l => (st, ret (SInt (Z.of_nat (length l)))))).
Proof. intros K R. apply fail_first. exact (find_fails (lit t) K R). Qed.

(** ** The name of the file *)
Local Notation headers := (selected dec (pystr_eqb (lit (text "FILE-HEADER"))) (fun _ => true) sets).
Lemma header_succ : kept (lit (text "FILE-HEADER")) -> raises (lit (text "FILE-HEADER")) = false ->
  succeeds (fileheader dec enc esc set_order) (fun h => h = match headers with [o] => Some (promote dec o) | _ => None end).
Proof.
  intros K R st SA. pose proof (fileheader_result dec enc esc set_order sets parses order typed st SA K) as E. rewrite R in E.
  exists [Fileheader]. destruct (fileheader dec enc esc set_order st) as [st' [l r]] eqn:S. cbn [snd] in E. subst r. eexists l, _.
  split; [constructor; [exact K|constructor]|]. split; [cbn [fold_left perform]; rewrite S; reflexivity|reflexivity].
Qed.
Lemma header_in o : headers = [o] -> exists s, In s sets /\ In o (objects_in s) /\ dec (obj_type o) = lit (text "FILE-HEADER").
Proof.
  intros E. assert (I : In o headers) by (rewrite E; left; reflexivity). unfold selected in I. apply in_flat_map in I as (s & Is & Io).
  apply filter_In in Is as [Is T]. apply filter_In in Io as [Io _]. apply pystr_eqb_spec in T. exists s. split; [exact Is|]. split; [exact Io|].
  rewrite (objects_in_type sets loaded s o Is Io). auto.
Qed.
Lemma repr_succ : kept (lit (text "FILE-HEADER")) -> raises (lit (text "FILE-HEADER")) = false -> header_legible dec enc esc sets ->
  succeeds (file_repr dec enc esc set_order) (fun v => exists r, file_named dec enc sets r /\ v = SFormat (text "LogicalFile({})") [r]).
Proof.
  intros K R H. unfold file_repr. cbv zeta. apply (succ_chain _ _ _ _ (header_succ K R)). intros h ->. unfold file_named, header_legible in *.
  destruct headers as [|o [|o' l]] eqn:E; [apply succ_ret; eexists; split; reflexivity| |apply succ_ret; eexists; split; reflexivity].
  destruct (header_in o E) as (s & Is & Io & T).
  eapply succ_chain.
  - apply (item_legible dec enc esc set_order sets loaded parses order typed (promote dec o) (lit (text "ID"))); [exact (file_objects sets loaded s o Is Io)| |exact (H o eq_refl)].
    left. unfold promote. cbv zeta. rewrite T. unfold schema_of. cbn [po_class]. vm_compute. tauto.
  - intros r G. apply succ_ret. exists r. split; [exact G|reflexivity].
Qed.
Lemma repr_fails : kept (lit (text "FILE-HEADER")) -> raises (lit (text "FILE-HEADER")) = true -> fails (file_repr dec enc esc set_order).
Proof.
  intros K R. unfold file_repr. cbv zeta. apply fail_first. intros st SA.
  rewrite (fileheader_result dec enc esc set_order sets parses order typed st SA K), R. reflexivity.
Qed.

(** ** The rows shown by logical and physical files *)
Definition rows_raise : bool := raises (lit (text "FILE-HEADER")) || raises (lit (text "FRAME")) || raises (lit (text "CHANNEL")).
Lemma rows_succ : kept (lit (text "FILE-HEADER")) -> kept (lit (text "FRAME")) -> kept (lit (text "CHANNEL")) -> header_legible dec enc esc sets -> rows_raise = false ->
  succeeds (file_rows dec enc esc set_order) (file_rows_show dec enc sets).
Proof.
  intros K1 K2 K3 H R. apply orb_false_iff in R as [R R3]. apply orb_false_iff in R as [R1 R2]. unfold file_rows. cbv zeta.
  apply (succ_chain _ _ _ _ (repr_succ K1 R1 H)). intros v (r & N & ->).
  apply (succ_chain _ _ _ _ (count_succ (text "FRAME") K2 R2)). intros v ->.
  apply (succ_chain _ _ _ _ (count_succ (text "CHANNEL") K3 R3)). intros v ->.
  apply succ_io. eexists. split; [reflexivity|]. exists r. split; [exact N|reflexivity].
Qed.
Lemma rows_fails : kept (lit (text "FILE-HEADER")) -> kept (lit (text "FRAME")) -> kept (lit (text "CHANNEL")) -> header_legible dec enc esc sets -> rows_raise = true ->
  fails (file_rows dec enc esc set_order).
Proof.
  intros K1 K2 K3 H R. unfold rows_raise in R. unfold file_rows. cbv zeta.
  destruct (raises (lit (text "FILE-HEADER"))) eqn:R1; [apply fail_first; apply repr_fails; assumption|].
  apply (fail_then _ _ _ (repr_succ K1 R1 H)). intros v _.
  destruct (raises (lit (text "FRAME"))) eqn:R2; [apply fail_first; exact (count_fails (text "FRAME") K2 R2)|].
  apply (fail_then _ _ _ (count_succ (text "FRAME") K2 R2)). intros w _.
  apply fail_first. exact (count_fails (text "CHANNEL") K3 R).
Qed.

(** ** The types *)
Local Notation ent := (fun t => (t, (SInt (count_of t), None)) : entry).
Lemma types_succ ts : Forall (fun t => kept t /\ raises t = false) ts -> forall known unknown,
  succeeds (fun st => count_types dec enc esc set_order st ts known unknown)
    (fun ku => ku = (known ++ map ent (filter DlisClassesProofs.known ts), unknown ++ map ent (filter (fun t => negb (DlisClassesProofs.known t)) ts))).
Proof.
  induction 1 as [|t ts [K R] F IH]; intros k u; cbn [count_types filter map].
  - apply succ_ret. rewrite !app_nil_r. reflexivity.
  - apply (succ_chain _ _ _ _ (find_succ t K R)). intros objs E. rewrite E. fold (DlisClassesProofs.known t). destruct (DlisClassesProofs.known t); cbn [negb map].
    + eapply succ_weaken; [apply IH|]. intros ku ->. rewrite <- app_assoc. reflexivity.
    + eapply succ_weaken; [apply IH|]. intros ku ->. rewrite <- app_assoc. reflexivity.
Qed.
Lemma types_fail ts : Forall kept ts -> existsb (fun t => raises t) ts = true -> forall known unknown, fails (fun st => count_types dec enc esc set_order st ts known unknown).
Proof.
  induction 1 as [|t ts K F IH]; cbn [existsb count_types]; [discriminate|]. intros E k u. destruct (raises t) eqn:R; [apply fail_first; apply find_fails; assumption|].
  apply (fail_then _ _ _ (find_succ t K R)). intros objs _. destruct (existsb _ known_types); apply IH; exact E.
Qed.
Lemma dict_counts ts : Forall (fun t => exists u, t = Str u) ts ->
  describe_dict (parseoptions []) (map ent ts) = ret (map (fun e : pystr * Z => Entry (fst e) (SInt (snd e)) None) (map (fun t => (t, count_of t)) ts)).
Proof.
  intros F. destruct (describe_dict_ok [] (map ent ts)) as (ps & E & W).
  { apply Forall_forall. intros e I. apply in_map_iff in I as (t & <- & I). split; [reflexivity|]. exact (proj1 (Forall_forall _ _) F t I). }
  rewrite E. f_equal. rewrite (rows_plain _ _ W), !map_map; [reflexivity|]. apply Forall_forall. intros e I. apply in_map_iff in I as (t & <- & _). reflexivity.
Qed.
Lemma dict_raw ts t u : In t ts -> t = Raw u -> describe_dict (parseoptions []) (map ent ts) = fail.
Proof.
  intros I ->. unfold describe_dict.
  match goal with |- context [if existsb ?f ?d then fail else _] => replace (existsb f d) with false by (clear; induction ts as [|t l IH]; [reflexivity|exact IH]) end. cbv zeta.
  change (x_empty (parseoptions [])) with false. cbv iota.
  match goal with |- context [if existsb ?f ?d then fail else _] => replace (existsb f d) with true; [reflexivity|] end.
  symmetry. apply existsb_exists. exists (ent (Raw u)). split; [apply in_map_iff; exists (Raw u); auto|reflexivity].
Qed.
Lemma the_types st : sane st -> Forall kept (types dec set_order st) /\ NoDup (types dec set_order st) /\ forall t, In t (types dec set_order st) <-> exists s, In s sets /\ dec (os_type s) = t.
Proof.
  intros SA. rewrite (types_eq dec esc set_order sets st SA).
  assert (I : forall t, In t (set_order (map (fun s => dec (os_type s)) sets)) <-> exists s, In s sets /\ dec (os_type s) = t).
  { intros t. rewrite (proj2 (order _) t), in_map_iff. split; intros (s & A & B); exists s; auto. }
  split; [|split; [apply order|exact I]]. apply Forall_forall. intros t It. apply I in It as (s & Is & <-). exact (proj1 (Forall_forall _ _) typed s Is).
Qed.
Lemma counts_of (P : pystr -> Prop) (p : pystr -> bool) ts : NoDup ts -> (forall t, In t ts <-> exists s, In s sets /\ dec (os_type s) = t) -> (forall t, p t = true <-> P t) ->
  counts dec sets P (map (fun t => (t, count_of t)) (filter p ts)).
Proof.
  intros N I H. split; [rewrite map_map; cbn [fst]; rewrite map_id; apply NoDup_filter; exact N|]. intros t n. rewrite in_map_iff. split.
  - intros (t' & [= <- <-] & It). apply filter_In in It as [It Pt]. rewrite <- I, <- H. auto.
  - intros (T & Pt & ->). exists t. split; [reflexivity|]. apply filter_In. rewrite I, H. auto.
Qed.

(** ** LogicalFile.describe *)
Definition undecoded : Prop := exists s u, In s sets /\ dec (os_type s) = Raw u.
Local Notation section title d := (match d with [] => ret [] | _ => let* p := describe_dict (parseoptions []) d in ret (Section (lit title) :: p) end).
Lemma section_ok title ts : Forall (fun t => exists u, t = Str u) ts -> section title (map ent ts) = ret (under title (map (fun t => (t, count_of t)) ts)).
Proof. intros F. pose proof (dict_counts ts F) as E. destruct ts as [|t ts]; [reflexivity|]. rewrite E. reflexivity. Qed.
Lemma section_raw title ts t u : In t ts -> t = Raw u -> section title (map ent ts) = fail.
Proof. intros I R. pose proof (dict_raw ts t u I R) as E. destruct ts as [|t' ts]; [destruct I|]. rewrite E. reflexivity. Qed.
Lemma describe_file_ok : kept (lit (text "FILE-HEADER")) -> kept (lit (text "FRAME")) -> kept (lit (text "CHANNEL")) -> header_legible dec enc esc sets ->
  (forall s, In s sets -> raising esc s = false) -> ~ undecoded -> succeeds (describe_file dec enc esc set_order) (file_summary dec enc sets).
Proof.
  intros K1 K2 K3 H R U. assert (R' : forall t, raises t = false).
  { intros t. destruct (raises t) eqn:E; [|reflexivity]. apply raises_iff in E as (s & Is & _ & E). rewrite (R s Is) in E. discriminate. }
  unfold describe_file. apply (succ_chain _ _ (file_rows_show dec enc sets)).
  { apply rows_succ; try assumption. unfold rows_raise. rewrite !R'. reflexivity. }
  intros rows S st SA. destruct (the_types st SA) as (K & N & I). set (ts := types dec set_order st) in *.
  assert (ST : Forall (fun t => exists u, t = Str u) ts).
  { apply Forall_forall. intros t It. apply I in It as (s & Is & E). destruct t as [u|u]; [eauto|]. destruct U. exists s, u. auto. }
  refine (succ_chain _ _ _ _ (types_succ ts _ [] []) _ st SA).
  { apply Forall_forall. intros t It. split; [exact (proj1 (Forall_forall _ _) K t It)|apply R']. }
  intros ku ->. cbn [fst snd app]. apply succ_io. rewrite !section_ok.
  - unfold ret. cbn [bind app]. eexists. split; [reflexivity|].
    exists rows, (map (fun t => (t, count_of t)) (filter DlisClassesProofs.known ts)), (map (fun t => (t, count_of t)) (filter (fun t => negb (DlisClassesProofs.known t)) ts)).
    split; [exact S|]. split; [apply counts_of; [exact N|exact I|apply known_standard]|]. split; [apply counts_of; [exact N|exact I|]|reflexivity].
    intros t. rewrite <- known_standard, negb_true_iff. destruct (DlisClassesProofs.known t); split; congruence.
  - apply Forall_forall. intros t It. apply filter_In in It as [It _]. exact (proj1 (Forall_forall _ _) ST t It).
  - apply Forall_forall. intros t It. apply filter_In in It as [It _]. exact (proj1 (Forall_forall _ _) ST t It).
Qed.
Lemma describe_file_fails : kept (lit (text "FILE-HEADER")) -> kept (lit (text "FRAME")) -> kept (lit (text "CHANNEL")) -> header_legible dec enc esc sets ->
  (exists s, In s sets /\ raising esc s = true) \/ undecoded -> fails (describe_file dec enc esc set_order).
Proof.
  intros K1 K2 K3 H X. unfold describe_file. destruct rows_raise eqn:RR; [apply fail_first; apply rows_fails; assumption|].
  apply (fail_then _ _ _ (rows_succ K1 K2 K3 H RR)). intros rows _ st SA. destruct (the_types st SA) as (K & N & I). set (ts := types dec set_order st) in *.
  destruct (existsb (fun t => raises t) ts) eqn:RT.
  { refine (fail_first _ _ (types_fail ts K RT [] []) st SA). }
  assert (RF : forall t, In t ts -> raises t = false). { intros t It. destruct (raises t) eqn:E; [|reflexivity]. assert (Y : existsb (fun t => raises t) ts = true) by (apply existsb_exists; exists t; auto). congruence. }
  destruct X as [(s & Is & Rs)|(s & u & Is & Es)].
  { assert (It : In (dec (os_type s)) ts) by (apply I; exists s; auto). apply RF in It.
    assert (Y : raises (dec (os_type s)) = true) by (apply raises_iff; exists s; auto). congruence. }
  refine (fail_then _ _ _ (types_succ ts _ [] []) _ st SA).
  { apply Forall_forall. intros t It. split; [exact (proj1 (Forall_forall _ _) K t It)|exact (RF t It)]. }
  intros ku ->. cbn [fst snd app]. apply fail_io. assert (It : In (Raw u) ts) by (apply I; exists s; auto).
  assert (KN : DlisClassesProofs.known (Raw u) = false) by reflexivity.
  match goal with |- snd (bind ?m _) = _ => assert (M : (exists a, m = ret a) \/ m = fail) end.
  { destruct (map ent (filter DlisClassesProofs.known ts)) as [|e l]; [left; eexists; reflexivity|].
    destruct (dict_cases (parseoptions []) (e :: l)) as [(p & ->)| ->]; [left; eexists; reflexivity|right; reflexivity]. }
  rewrite (section_raw (text "Unknown objects") (filter (fun t => negb (DlisClassesProofs.known t)) ts) (Raw u) u); [|apply filter_In; split; [exact It|rewrite KN; reflexivity]|reflexivity].
  destruct M as [(a & ->)| ->]; reflexivity.
Qed.
End files.

(** ** After any queries *)
Lemma file_described dec enc esc set_order sets ops : logical_file dec enc sets -> a_set_order set_order -> Forall (op_ok dec enc) ops ->
  Forall (fun t => SpecDlisStore.kept dec enc (lit t)) [text "FILE-HEADER"; text "FRAME"; text "CHANNEL"] -> header_legible dec enc esc sets ->
  (forall s, In s sets -> raising esc s = false /\ exists u, dec (os_type s) = Str u) ->
  exists ps ops' log, Forall (op_ok dec enc) ops' /\
    describe_file dec enc esc set_order (after dec enc esc set_order sets ops) = (after dec enc esc set_order sets (ops ++ ops'), (log, Ok ps)) /\
    file_summary dec enc sets ps.
Proof.
  intros (L & P & T) OR O K H R. inversion K as [|? ? K1 K']; subst. inversion K' as [|? ? K2 K'']; subst. inversion K'' as [|? ? K3 _]; subst.
  destruct (describe_file_ok dec enc esc set_order sets L P OR T K1 K2 K3 H) with (st := after dec enc esc set_order sets ops) as (ops' & lg & ps & O' & E & S).
  - intros s Is. apply R. exact Is.
  - intros (s & u & Is & E). destruct (R s Is) as (_ & v & E'). congruence.
  - apply after_sane; assumption.
  - exists ps, ops', lg. split; [exact O'|]. split; [|exact S]. rewrite E. unfold after. rewrite fold_left_app. reflexivity.
Qed.
Lemma file_refused dec enc esc set_order sets ops s : logical_file dec enc sets -> a_set_order set_order -> Forall (op_ok dec enc) ops ->
  Forall (fun t => SpecDlisStore.kept dec enc (lit t)) [text "FILE-HEADER"; text "FRAME"; text "CHANNEL"] -> header_legible dec enc esc sets ->
  In s sets -> raising esc s = true \/ (exists u, dec (os_type s) = Raw u) ->
  snd (snd (describe_file dec enc esc set_order (after dec enc esc set_order sets ops))) = Exn.
Proof.
  intros (L & P & T) OR O K H Is R. inversion K as [|? ? K1 K']; subst. inversion K' as [|? ? K2 K'']; subst. inversion K'' as [|? ? K3 _]; subst.
  apply (describe_file_fails dec enc esc set_order sets L P OR T K1 K2 K3 H).
  - destruct R as [R|(u & R)]; [left; exists s; auto|right; exists s, u; auto].
  - apply after_sane; assumption.
Qed.

(** ** Physical files *)
Section physical.
Variable dec : bytes -> pystr.
Variable enc : pystr -> bytes.
Variable esc : severity -> bool.
Variable set_order : list pystr -> list pystr.
Hypothesis order : a_set_order set_order.
Hypothesis basics : Forall (fun t => SpecDlisStore.kept dec enc (lit t)) [text "FILE-HEADER"; text "FRAME"; text "CHANNEL"].
Local Notation store_of := (fun f : list object_set * list operation => after dec enc esc set_order (fst f) (snd f)).
Definition good (f : list object_set * list operation) : Prop :=
  logical_file dec enc (fst f) /\ Forall (op_ok dec enc) (snd f) /\ header_legible dec enc esc (fst f).
Definition rows_quiet (f : list object_set * list operation) : Prop :=
  forall s t, In s (fst f) -> In t [text "FILE-HEADER"; text "FRAME"; text "CHANNEL"] -> dec (os_type s) = lit t -> raising esc s = false.
Definition later (f f' : list object_set * list operation) : Prop := fst f' = fst f /\ exists ops, Forall (op_ok dec enc) ops /\ snd f' = snd f ++ ops.
Lemma later_refl f : later f f.
Proof. split; [reflexivity|]. exists []. split; [constructor|]. rewrite app_nil_r. reflexivity. Qed.

Lemma rows_of f : good f -> rows_quiet f -> exists f' lg ps, later f f' /\ file_rows dec enc esc set_order (store_of f) = (store_of f', (lg, Ok ps)) /\ file_rows_show dec enc (fst f) ps.
Proof.
  intros ((L & P & T) & O & H) Q. inversion basics as [|? ? K1 K']; subst. inversion K' as [|? ? K2 K'']; subst. inversion K'' as [|? ? K3 _]; subst.
  assert (R : forall t, In t [text "FILE-HEADER"; text "FRAME"; text "CHANNEL"] -> selected_raises dec esc (pystr_eqb (lit t)) (fst f) = false).
  { intros t It. destruct (selected_raises dec esc (pystr_eqb (lit t)) (fst f)) eqn:E; [|reflexivity]. apply raises_iff in E as (s & Is & Et & E).
    rewrite (Q s t Is It Et) in E. discriminate. }
  destruct (rows_succ dec enc esc set_order (fst f) L P order T K1 K2 K3 H) with (st := store_of f) as (ops & lg & ps & O' & E & S).
  - unfold rows_raise. rewrite (R (text "FILE-HEADER")), (R (text "FRAME")), (R (text "CHANNEL")) by (cbn [In]; tauto). reflexivity.
  - apply after_sane; assumption.
  - exists (fst f, snd f ++ ops), lg, ps. split; [split; [reflexivity|exists ops; auto]|]. split; [|exact S]. rewrite E. cbn [fst snd]. unfold after. rewrite fold_left_app. reflexivity.
Qed.
Lemma rows_refused f : good f -> ~ rows_quiet f -> snd (snd (file_rows dec enc esc set_order (store_of f))) = Exn.
Proof.
  intros ((L & P & T) & O & H) Q. inversion basics as [|? ? K1 K']; subst. inversion K' as [|? ? K2 K'']; subst. inversion K'' as [|? ? K3 _]; subst.
  apply (rows_fails dec enc esc set_order (fst f) L P order T K1 K2 K3 H); [|apply after_sane; assumption].
  destruct (rows_raise dec esc (fst f)) eqn:R; [reflexivity|]. destruct Q. intros s t Is It Et. destruct (raising esc s) eqn:E; [|reflexivity].
  assert (X : selected_raises dec esc (pystr_eqb (lit t)) (fst f) = true) by (apply raises_iff; exists s; auto).
  unfold rows_raise in R. apply orb_false_iff in R as [R R3]. apply orb_false_iff in R as [R1 R2]. cbn [In] in It.
  destruct It as [<-|[<-|[<-|[]]]]; congruence.
Qed.
Lemma each_ok files : Forall good files -> Forall rows_quiet files -> exists files' lg pss, Forall2 later files files' /\
  describe_each dec enc esc set_order (map store_of files) = (map store_of files', (lg, Ok (concat pss))) /\ Forall2 (fun f ps => file_rows_show dec enc (fst f) ps) files pss.
Proof.
  intros G Q. induction G as [|f files Gf G IH]; [exists [], [], []; repeat split; constructor|]. inversion Q as [|? ? Qf Q']; subst.
  destruct (rows_of f Gf Qf) as (f' & lg & ps & LT & E & S). destruct (IH Q') as (files' & lg' & pss & LT' & E' & S').
  exists (f' :: files'), (lg ++ lg'), (ps :: pss). split; [constructor; assumption|]. split; [|constructor; assumption].
  cbn [map describe_each]. rewrite E, E'. cbn [map concat]. reflexivity.
Qed.
Lemma each_refused files f : Forall good files -> In f files -> ~ rows_quiet f -> snd (snd (describe_each dec enc esc set_order (map store_of files))) = Exn.
Proof.
  intros G I Q. induction G as [|f' files Gf G IH]; [destruct I|]. cbn [map describe_each].
  assert (D : (exists st lg ps, file_rows dec enc esc set_order (store_of f') = (st, (lg, Ok ps)) /\ In f files) \/ snd (snd (file_rows dec enc esc set_order (store_of f'))) = Exn).
  { destruct I as [<-|I]; [right; apply rows_refused; assumption|].
    destruct (rows_raise dec esc (fst f')) eqn:R.
    - right. apply rows_refused; [exact Gf|]. intros Y. unfold rows_raise in R.
      assert (Z : exists t, In t [text "FILE-HEADER"; text "FRAME"; text "CHANNEL"] /\ selected_raises dec esc (pystr_eqb (lit t)) (fst f') = true).
      { apply orb_true_iff in R as [R|R]; [apply orb_true_iff in R as [R|R]|]; eexists; (split; [|exact R]); cbn [In]; tauto. }
      destruct Z as (t & It & R'). apply raises_iff in R' as (s & Is & Et & R'). rewrite (Y s t Is It Et) in R'. discriminate.
    - left. destruct (rows_of f' Gf) as (f2 & lg & ps & _ & E & _); [|eauto 6].
      intros s t Is It Et. destruct (raising esc s) eqn:E; [|reflexivity].
      assert (X : selected_raises dec esc (pystr_eqb (lit t)) (fst f') = true) by (apply raises_iff; exists s; auto).
      unfold rows_raise in R. apply orb_false_iff in R as [R R3]. apply orb_false_iff in R as [R1 R2]. cbn [In] in It.
      destruct It as [<-|[<-|[<-|[]]]]; congruence. }
  destruct D as [(st & lg & ps & E & I')|E].
  - rewrite E. specialize (IH I'). destruct (describe_each dec enc esc set_order (map store_of files)) as [sts [l r]]. cbn [snd] in IH |- *. subst r. reflexivity.
  - destruct (file_rows dec enc esc set_order (store_of f')) as [st [l r]]. cbn [snd] in E. subst r. reflexivity.
Qed.
Lemma physical_described files : Forall good files -> Forall rows_quiet files -> exists files' lg pss, Forall2 later files files' /\
  describe_physical dec enc esc set_order (map store_of files) = (map store_of files', (lg, Ok
    (Title (lit (text "Physical File")) :: Entry (lit (text "Number of Logical Files")) (SInt (Z.of_nat (length files))) None :: concat pss))) /\
  Forall2 (fun f ps => file_rows_show dec enc (fst f) ps) files pss.
Proof.
  intros G Q. destruct (each_ok files G Q) as (files' & lg & pss & LT & E & S). exists files', lg, pss. split; [exact LT|]. split; [|exact S].
  unfold describe_physical. rewrite map_length, E. reflexivity.
Qed.
Lemma physical_refused files f : Forall good files -> In f files -> ~ rows_quiet f -> snd (snd (describe_physical dec enc esc set_order (map store_of files))) = Exn.
Proof.
  intros G I Q. pose proof (each_refused files f G I Q) as E. unfold describe_physical.
  match goal with |- context [describe_dict ?a ?b] => change (describe_dict a b) with (ret [Entry (lit (text "Number of Logical Files")) (SInt (Z.of_nat (length (map store_of files)))) None]) end.
  unfold ret. destruct (describe_each dec enc esc set_order (map store_of files)) as [sts [l r]]. cbn [snd] in E |- *. subst r. reflexivity.
Qed.
End physical.
