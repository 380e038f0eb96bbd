(** Proofs about every type a frame can get (DlisFrame.v). *)
From Verif Require SpecLisPy.
From Verif Require Import Bytes BytesProofs Stream DlisTypes SpecFdata DlisFrame SpecDlisFrame DlisFrameProofs DlisFrameProofs2 DlisFrameProofs3 DlisFrameProofs5.
From Coq Require Import ZifyBool ZifyNat.
Local Open Scope Z_scope.

Lemma keys_names es : NoDup (entries_keys es) -> NoDup (map entry_name es).
Proof.
  induction es as [|e es IH]; intros N; [constructor|]. unfold entries_keys in N. cbn [flat_map] in N. fold (entries_keys es) in N. cbn [map].
  assert (forall x, In x (map entry_name es) -> In x (entries_keys es)) as W.
  { intros x I. apply in_map_iff in I as (e' & <- & I). apply in_flat_map. exists e'. split; [exact I|]. destruct e' as [[[s|] n] t]; cbn [entry_keys]; [right; left | left]; reflexivity. }
  destruct e as [[[s|] n] t]; cbn [entry_keys app] in N.
  - inversion N as [|? ? _ N2]; subst. inversion N2 as [|? ? N3 N4]; subst. constructor; [intros I; exact (N3 (W _ I)) | apply IH, N4].
  - inversion N as [|? ? N3 N4]; subst. constructor; [intros I; exact (N3 (W _ I)) | apply IH, N4].
Qed.
Lemma number_first dup k es : label_eqb (fst first_entry) dup = false -> number_label dup k (first_entry :: es) = first_entry :: number_label dup k es.
Proof. intros E. unfold first_entry in *. cbn [number_label]. cbn [fst] in E. rewrite E. reflexivity. Qed.
Lemma mkunique_first es : Forall (fun e : entry => fst (fst e) <> None) es -> exists es', mkunique (first_entry :: es) = first_entry :: es'.
Proof.
  intros F. unfold mkunique. set (ds := filter _ _).
  assert (Forall (fun d => label_eqb (fst first_entry) d = false) ds) as D.
  { apply Forall_forall. intros d I. apply (dups_in d (map fst (first_entry :: es))) in I.
    destruct (label_eqb (fst first_entry) d) eqn:E; [|reflexivity]. exfalso. apply label_eqb_eq in E. subst d. cbn [map] in I. rewrite count_cons, label_eqb_refl in I.
    assert (0 < count (fst first_entry) (map fst es))%nat as P by lia. apply count_in, in_map_iff in P as (e & E & P).
    apply (proj1 (Forall_forall _ _) F) in P. apply P. rewrite E. reflexivity. }
  clearbody ds. clear F. revert es. induction D as [|d ds E _ IH]; intros es; cbn [fold_left]; [eauto|].
  rewrite (number_first d 0 es E). apply IH.
Qed.

Section any.
Variable maxdims : nat.
Variable fmtlabel : ustr -> Z -> Z -> option ustr.
Lemma dtype_columns strict cs d : frame_dtype maxdims fmtlabel strict (map Some cs) = Some d ->
  exists f d' ts, d = f :: d' /\ fd_name f = FRAMENO /\ fd_title f = None /\ fd_type f = (text "i4", []) /\ map fd_type d' = ts /\
    Forall2 sample_type cs ts /\ NoDup (map fd_name d).
Proof.
  rewrite dtype_unfold. destruct (ents maxdims fmtlabel cs cs) as [es0|] eqn:E; [|discriminate]. cbn [obind].
  apply ents_pairs in E as (ls & ts & L & T & ->). pose proof (f2_length _ _ _ L) as L1. pose proof (f2_length _ _ _ T) as L2.
  set (es0 := map entry2 (combine (combine (map cl_fp cs) ls) ts)).
  assert (map snd es0 = ts) as M.
  { unfold es0. rewrite map_map. rewrite <- (map_snd_combine (combine (map cl_fp cs) ls) ts) at 2; [reflexivity|]. rewrite combine_length, map_length. lia. }
  assert (forall es, np_dtype (first_entry :: es) = Some d -> map snd es = ts ->
    exists f d' ts, d = f :: d' /\ fd_name f = FRAMENO /\ fd_title f = None /\ fd_type f = (text "i4", []) /\ map fd_type d' = ts /\
    Forall2 sample_type cs ts /\ NoDup (map fd_name d)) as K.
  { intros es N Me. apply np_dtype_spec in N as [N ->]. eexists _, _, ts. split; [reflexivity|]. do 3 (split; [reflexivity|]).
    split; [rewrite fields_types; exact Me|]. split; [apply (sample_types maxdims), T|]. rewrite fields_names. apply keys_names, N. }
  intros H. destruct (np_dtype (first_entry :: es0)) as [d'|] eqn:N; [injection H as ->; exact (K es0 N M)|].
  destruct strict; [discriminate|].
  destruct (mkunique_first es0) as [es' Eu].
  { apply Forall_forall. intros e I. apply in_map_iff in I as (x & <- & _). discriminate. }
  rewrite Eu in H. apply (K es' H). pose proof (mkunique_types (first_entry :: es0)) as Mt. rewrite Eu in Mt. cbn [map] in Mt. injection Mt as Mt. congruence.
Qed.
End any.

Lemma dtype_table_iff rc t : table_get rc dtype_table = Some t <-> 1 <= rc /\ nth_error type_names (Z.to_nat (rc - 1)) = Some t.
Proof. rewrite dtype_table_spec. destruct (Z.leb_spec 1 rc) as [L|L]; split; intros H; [auto | tauto | discriminate | lia]. Qed.
Lemma dtype_table_codes rc : 1 <= rc <= 27 <-> table_get rc dtype_table <> None.
Proof.
  split.
  - intros H. rewrite dtype_table_spec. replace (1 <=? rc) with true by lia. apply nth_error_Some. change (length type_names) with 27%nat. lia.
  - intros H. destruct (table_get rc dtype_table) eqn:E; [|contradiction]. exact (table_bounds dtype_table _ _ eq_refl E).
Qed.
Lemma fmt_table_codes rc : 1 <= rc <= 27 <-> table_get rc fmt_table <> None.
Proof.
  split.
  - intros H. destruct (nth_error format_chars (Z.to_nat (rc - 1))) as [c|] eqn:E.
    + rewrite (proj2 (fmt_table_spec rc c)); [discriminate|]. split; [lia | exact E].
    + apply nth_error_None in E. change (length format_chars) with 27%nat in E. lia.
  - intros H. destruct (table_get rc fmt_table) eqn:E; [|contradiction]. exact (table_bounds fmt_table _ _ eq_refl E).
Qed.
Lemma tables_width rc c t w : table_get rc fmt_table = Some c -> table_get rc dtype_table = Some t -> (width_of c w <-> np_size t = Some w).
Proof.
  intros C T. apply fmt_table_spec in C. apply dtype_table_iff in T as [_ T]. destruct (type_widths _ _ T) as (w' & W & S & _).
  pose proof (char_width rc c w' C W) as W2. rewrite S. split.
  - intros (k & K & K2). destruct W2 as (k' & K' & K2'). f_equal.
    assert (NoDup format_chars) as N by (vm_compute; repeat constructor; cbn; intuition discriminate).
    assert (k = k') as <-; [|congruence]. apply (proj1 (NoDup_nth_error _) N); [apply nth_error_Some; congruence | congruence].
  - intros E. injection E as <-. exact W2.
Qed.
Lemma plain_strict maxdims cs : Forall (fits maxdims) cs -> Forall plain cs -> NoDup (map identity cs) ->
  exists d ls, frame_dtype maxdims default_label true (map Some cs) = Some d /\ labels default_label cs ls /\ describes cs ls (map cl_fp cs) d.
Proof.
  intros F P N. destruct (labels_exist cs) as [ls L]. pose proof (labels_tidy cs P ls L) as (_ & _ & _ & _ & E).
  destruct (proj2 (strict_iff maxdims default_label cs ls F L (fun I => E (in_or_app _ _ _ (or_introl I)))) (labels_distinct cs P ls L N)) as [d D].
  destruct (strict_ok maxdims default_label cs d D) as (ls' & L' & Ds & _). exists d, ls'. auto.
Qed.
Lemma plain_relaxed maxdims cs : Forall (fits maxdims) cs -> Forall plain cs ->
  exists d ls names titles, frame_dtype maxdims default_label false (map Some cs) = Some d /\ labels default_label cs ls /\
    describes cs names titles d /\ SpecLisPy.made_unique ls names /\ SpecLisPy.made_unique (map cl_fp cs) titles.
Proof.
  intros F P. destruct (labels_exist cs) as [ls L]. destruct (relaxed_ok maxdims default_label cs ls F L (labels_tidy cs P ls L)) as (d & names & titles & D & Ds & U1 & U2 & _).
  exists d, ls, names, titles. auto.
Qed.
Lemma formats_exist maxdims cs : Forall (fits maxdims) cs -> (forall c, In c cs -> cl_dim c <> []) -> exists f, frame_fmtstr (map Some cs) = Some f.
Proof.
  intros F D. enough (exists f, join_fmtstr (map Some cs) = Some f) as [f E] by (unfold frame_fmtstr; rewrite E; eexists; reflexivity).
  induction cs as [|c cs IH]; [eexists; reflexivity|]. inversion F as [|? ? F1 F2]; subst. destruct IH as [f E]; [exact F2 | intros; apply D; right; assumption|].
  cbn [map join_fmtstr]. unfold channel_fmtstr. specialize (D c (or_introl eq_refl)). destruct (cl_dim c) eqn:Ed; [contradiction|].
  destruct F1 as (w & L & W & _). destruct (table_get (cl_reprc c) fmt_table) as [ch|] eqn:C.
  - cbn [obind]. rewrite E. eexists; reflexivity.
  - exfalso. revert C. apply (fmt_table_codes (cl_reprc c)). assert (Z.to_nat (cl_reprc c - 1) < 27)%nat; [|lia]. change 27%nat with (length widths). apply nth_error_Some. congruence.
Qed.
Lemma no_dimension a c b : cl_dim c = [] -> frame_fmtstr (a ++ Some c :: b) = None.
Proof.
  intros E. enough (join_fmtstr (a ++ Some c :: b) = None) as J by (unfold frame_fmtstr; rewrite J; reflexivity).
  induction a as [|[x|] a IH]; cbn [app join_fmtstr].
  - unfold channel_fmtstr. rewrite E. reflexivity.
  - destruct (channel_fmtstr x); [|reflexivity]. cbn [obind]. rewrite IH. reflexivity.
  - reflexivity.
Qed.
Lemma curves_no_dimension maxdims fmt esc s after strict a c b tells : cl_dim c = [] ->
  frame_curves maxdims fmt esc s after strict (a ++ Some c :: b) tells = ([], Exn).
Proof. intros E. unfold frame_curves. rewrite (no_dimension a c b E). destruct (frame_dtype maxdims fmt strict _); reflexivity. Qed.
