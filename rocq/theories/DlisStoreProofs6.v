(** Proofs about the object store: the caching switch, and an example. *)
From Verif Require Import Bytes BytesProofs Stream DlisTypes DlisRecords RecordsProofs3 CommonPy DlisStore SpecDlisStore DlisStoreProofs.
Local Open Scope Z_scope.

Section switch.
Variable dec : bytes -> pystr.
Variable enc : pystr -> bytes.
Variable esc : severity -> bool.
Variable set_order : list pystr -> list pystr.

Lemma get_item_caching st t : st_caching (fst (get_item dec enc esc st t)) = st_caching st.
Proof.
  unfold get_item. destruct (dict_get t (st_cache st)); [reflexivity|]. destruct (pool_get _ _ _ _ _) as [p [l [o| | |]]]; try reflexivity.
  cbn [fst]. destruct (st_caching (with_pool st p)) eqn:E; cbn [with_cache st_caching]; cbn [with_pool st_caching] in E |- *; symmetry; try assumption; reflexivity.
Qed.
Lemma collect_caching m n ts : forall st, st_caching (fst (collect dec enc esc m n ts st)) = st_caching st.
Proof.
  induction ts as [|t ts IH]; intros st; cbn [collect]; [reflexivity|]. pose proof (get_item_caching st t) as G.
  destruct (get_item dec enc esc st t) as [st1 [l [d| | |]]]; cbn [fst] in G |- *; try exact G.
  destruct (filter_raising _ d); [|exact G]. specialize (IH st1). destruct (collect dec enc esc m n ts st1) as [st2 r]. cbn [fst] in *. congruence.
Qed.
Lemma store_find_caching st t n m : st_caching (fst (store_find dec enc esc set_order st t n m)) = st_caching st.
Proof.
  unfold store_find. destruct (st_caching st) eqn:C; cbn [negb].
  - set (mm := match m with Some _ => _ | None => _ end). clearbody mm.
    assert (GEN : st_caching (fst (match filter_raising (pm_match mm t) (types dec set_order st) with None => (st, fail) | Some ts => collect dec enc esc mm n ts st end)) = true).
    { destruct (filter_raising _ _); [rewrite collect_caching|]; exact C. }
    destruct (pm_exact mm); [|exact GEN]. destruct n as [n|]; [|exact GEN].
    pose proof (get_item_caching st t) as G. rewrite C in G. destruct (get_item dec enc esc st t) as [st1 [l [d| | |]]]; cbn [fst] in G |- *; try exact G.
    destruct (dict_get n d); exact G.
  - destruct (pool_get _ _ _ _ _) as [p r]. exact C.
Qed.
Lemma after_caching sets ops : st_caching (after dec enc esc set_order sets ops) = caching ops.
Proof.
  unfold after, caching. change true with (st_caching (new_store sets)). generalize (new_store sets) as st.
  induction ops as [|op ops IH]; intros st; cbn [fold_left]; [reflexivity|]. rewrite IH. f_equal. destruct op as [t n m|t n o c| |t|on]; cbn [perform].
  - apply store_find_caching.
  - unfold lf_object. pose proof (store_find_caching st t (Some n) (Some exact)) as H. destruct (store_find _ _ _ _ st t _ _). exact H.
  - unfold fileheader. pose proof (store_find_caching st (lit (text "FILE-HEADER")) None (Some exact)) as H. destruct (store_find _ _ _ _ st _ _ _). exact H.
  - apply store_find_caching.
  - reflexivity.
Qed.
End switch.

(** ** A concrete file: text in Latin-1, two sets of channels *)
Definition dec1 (s : bytes) : pystr := lit s.
Definition enc1 (t : pystr) : bytes := match t with Str u => map z2b u | Raw s => s end.
Lemma kept1 s : kept dec1 enc1 (lit s).
Proof.
  unfold kept, dec1, enc1, lit. f_equal. induction s as [|b s IH]; cbn [map]; [reflexivity|]. rewrite IH, z2b_b2z. reflexivity.
Qed.
Definition pystr_dec (a b : pystr) : {a = b} + {a <> b}.
Proof.
  destruct (pystr_eqb a b) eqn:E; [left; apply pystr_eqb_spec; exact E|right; intros ->; rewrite pystr_eqb_refl in E; discriminate].
Defined.
Definition order1 (l : list pystr) : list pystr := nodup pystr_dec l.
Lemma order1_ok : a_set_order order1.
Proof. intros l. split; [apply NoDup_nodup|intros x; apply nodup_In]. Qed.
Definition quiet (_ : severity) : bool := false.

