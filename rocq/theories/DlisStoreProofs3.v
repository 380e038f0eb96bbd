(** Proofs about the object store: queries after any history. *)
From Coq Require Import Permutation.
From Verif Require Import Bytes BytesProofs Stream DlisTypes DlisRecords RecordsProofs3 CommonPy DlisStore SpecDlisStore DlisStoreProofs DlisStoreProofs2.
Local Open Scope Z_scope.

Section queries.
Variable dec : bytes -> pystr.
Variable enc : pystr -> bytes.
Variable esc : severity -> bool.
Variable set_order : list pystr -> list pystr.
Variable sets : list object_set.
Hypothesis loaded : as_loaded sets.
Hypothesis parses : parsable sets.
Hypothesis order : a_set_order set_order.
Hypothesis typed : Forall (fun s => kept dec enc (dec (os_type s))) sets.

Local Notation selected := (selected dec).
Local Notation selected_raises := (selected_raises dec esc).
Local Notation promote := (promote dec).
Local Notation po_name := (po_name dec).
Local Notation get_item := (get_item dec enc esc).
Local Notation store_find := (store_find dec enc esc set_order).
Local Notation kept := (kept dec enc).
Local Notation sane := (sane dec esc sets).

Lemma sane_new : sane (new_store sets).
Proof.
  split; [|discriminate]. cbn [new_store st_pool]. unfold as_loaded in loaded. clear parses typed.
  induction loaded as [|s l H HF IH]; [constructor|]. constructor; [|exact (IH HF)]. split; [exact H|left; reflexivity].
Qed.

Lemma types_eq st : sane st -> types dec set_order st = set_order (map (fun s => dec (os_type s)) sets).
Proof.
  intros [P _]. unfold types, pool_types. f_equal. rewrite map_map. clear loaded parses typed. induction P as [|s s' p p' H P IH]; cbn [map]; [reflexivity|].
  rewrite IH. destruct (same_set_facts s s' H) as [-> _]. reflexivity.
Qed.
Lemma types_kept (f : pystr -> bool) st : sane st -> Forall kept (filter f (types dec set_order st)).
Proof.
  intros SA. rewrite (types_eq st SA). apply Forall_forall. intros t I. apply filter_In in I as [I _].
  apply (proj1 (proj2 (order _) t)) in I. apply in_map_iff in I as (s & <- & I). exact (proj1 (Forall_forall _ _) typed s I).
Qed.
Lemma filter_raising_in {A} (f : A -> option bool) l r : filter_raising f l = Some r -> incl r l.
Proof.
  revert r. induction l as [|x l IH]; intros r; cbn [filter_raising]; [intros [= <-] ? []|].
  destruct (f x) as [b|]; cbn [obind]; [|discriminate]. destruct (filter_raising f l) as [r'|]; cbn [obind]; [|discriminate].
  intros [= <-]. specialize (IH r' eq_refl). destruct b; intros y I; [destruct I as [<-|I]; [left; reflexivity|]|]; right; apply IH; assumption.
Qed.

Lemma get_item_sane st t : sane st -> kept t -> sane (fst (get_item st t)).
Proof. intros SA K. exact (proj1 (get_item_ok dec enc esc sets parses st t SA K)). Qed.

Lemma collect_sane m name ts : Forall kept ts -> forall st, sane st -> sane (fst (collect dec enc esc m name ts st)).
Proof.
  induction 1 as [|t ts K Kt IH]; intros st SA; cbn [collect]; [exact SA|].
  pose proof (get_item_sane st t SA K) as G. destruct (get_item st t) as [st1 [l [d| | |]]]; cbn [fst] in G |- *; try exact G.
  destruct (filter_raising _ d); [|exact G]. specialize (IH st1 G). destruct (collect dec enc esc m name ts st1) as [st2 r]. exact IH.
Qed.

Lemma store_find_sane st t n m : sane st -> kept t -> sane (fst (store_find st t n m)).
Proof.
  intros SA K. unfold DlisStore.store_find. set (mm := match m with Some x => x | None => exact end). clearbody mm.
  destruct (st_caching st) eqn:CS; cbn [negb].
  - assert (GEN : sane (fst (match filter_raising (pm_match mm t) (types dec set_order st) with
        | None => (st, fail) | Some ts => collect dec enc esc mm n ts st end))).
    { destruct (filter_raising (pm_match mm t) (types dec set_order st)) as [ts|] eqn:F; [|exact SA]. apply collect_sane; [|exact SA].
      apply Forall_forall. intros x I. apply filter_raising_in in F. pose proof (types_kept (fun _ => true) st SA) as TK.
      apply (proj1 (Forall_forall _ _) TK). apply filter_In. split; [apply F; exact I|reflexivity]. }
    destruct (pm_exact mm); [|exact GEN]. destruct n as [n|]; [|exact GEN].
    pose proof (get_item_ok dec enc esc sets parses st t SA K) as G. cbv zeta in G.
    destruct (get_item st t) as [st1 [l r]]. cbn [fst snd] in G. destruct G as (S1 & C1 & G1 & G2).
    destruct r as [d| | |]; cbn [fst]; try exact S1. destruct (dict_get n d) as [found|] eqn:DG; [exact S1|].
    destruct S1 as [P1 E1]. split; [exact P1|]. cbn [fst with_cache st_cache]. intros t' d' G'.
    destruct (pystr_eqb t' t) eqn:Et.
    + apply pystr_eqb_spec in Et. subst t'. rewrite get_put_same in G'. injection G' as <-.
      destruct (selected_raises (pystr_eqb t) sets) eqn:SR; [discriminate (G1 eq_refl)|]. destruct (G2 eq_refl) as (d1 & Ed & Eo & _).
      injection Ed as <-. apply entry_default; assumption.
    + rewrite get_put_other in G' by (intros ->; rewrite pystr_eqb_refl in Et; discriminate). apply E1. exact G'.
  - destruct SA as [P E].
    match goal with |- context [pool_get ?a ?b ?c ?d (st_pool st)] => pose proof (proj2 (pool_get_same a b c d sets (st_pool st) P)) as P'; destruct (pool_get a b c d (st_pool st)) as [pool r] end.
    cbn [fst] in P' |- *. split; [exact P'|exact E].
Qed.

Lemma perform_sane st op : sane st -> op_ok dec enc op -> sane (perform dec enc esc set_order st op).
Proof.
  intros SA OK. destruct op as [t n m|t n o c| |t|on]; cbn [perform op_ok] in *.
  - apply store_find_sane; [exact SA|exact (proj1 OK)].
  - unfold lf_object. pose proof (store_find_sane st t (Some n) (Some exact) SA OK) as H.
    destruct (store_find st t (Some n) (Some exact)) as [st' r]. exact H.
  - unfold fileheader. pose proof (store_find_sane st _ None (Some exact) SA OK) as H.
    destruct (store_find st _ None (Some exact)) as [st' r]. exact H.
  - apply store_find_sane; assumption.
  - destruct SA as [P _]. split; [exact P|discriminate].
Qed.

Lemma after_sane ops : Forall (op_ok dec enc) ops -> sane (after dec enc esc set_order sets ops).
Proof.
  unfold after. generalize sane_new. generalize (new_store sets) as st. induction ops as [|op ops IH]; intros st SA OK; cbn [fold_left]; [exact SA|].
  apply Forall_cons_iff in OK as [O OK]. apply IH; [apply perform_sane; assumption|exact OK].
Qed.

(** ** What a query finds *)
Definition the_matcher (m : option pymatcher) : pymatcher := match m with Some x => x | None => exact end.

Lemma selected_names ft fn fn' : (forall x, fn x = fn' x) -> selected ft fn sets = selected ft fn' sets.
Proof.
  intros H. unfold SpecDlisStore.selected. induction (filter _ sets) as [|s l IH]; cbn [flat_map]; [reflexivity|]. rewrite IH. f_equal.
  apply filter_ext_in'. intros x _. apply H.
Qed.

Lemma find_uncached st t n m f : sane st -> kept t -> (forall x, n = Some x -> kept x) -> st_caching st = false ->
  (forall p c, pm_match (the_matcher m) p c = Some (f p c)) ->
  snd (snd (store_find st t n m)) =
  if selected_raises (f t) sets then Exn
  else Ok (map promote (selected (f t) (wanted f (match n with Some x => if truthy x then Some x else None | None => None end)) sets)).
Proof.
  intros [P E] K KN CS M. unfold DlisStore.store_find. fold (the_matcher m). rewrite CS. cbn [negb].
  rewrite (in_pool_total dec (the_matcher m) f M).
  match goal with |- context [pool_get _ _ _ ?nm _] => set (name := nm) end.
  destruct (pool_result esc sets parses (fun a b => f (dec a) (dec b)) (enc t) name (st_pool st) P) as [_ R].
  destruct (pool_get _ _ _ name (st_pool st)) as [pool [l r]]. cbn [fst snd] in R |- *.
  change (existsb _ sets) with (selected_raises (f (dec (enc t))) sets) in R. unfold SpecDlisStore.kept in K.
  match type of R with context [flat_map ?g ?l] => assert (ER : flat_map g l = selected (f (dec (enc t))) (wanted f (match n with Some x => if truthy x then Some x else None | None => None end)) sets) end.
  { unfold SpecDlisStore.selected. match goal with |- flat_map _ ?l' = _ => generalize l' end. intros l0. clear R. induction l0 as [|s l' IH]; cbn [flat_map]; [reflexivity|]. rewrite IH. f_equal.
    apply filter_ext_in'. intros o _. unfold name, name_matches, wanted. destruct n as [x|]; [|reflexivity].
    destruct (truthy x); [|reflexivity]. rewrite (KN x eq_refl). reflexivity. }
  rewrite ER, K in R. subst r. destruct (selected_raises (f t) sets); reflexivity.
Qed.

Lemma find_exact st t n m : sane st -> kept t -> kept n -> truthy n = true \/ st_caching st = true ->
  pm_exact (the_matcher m) = true -> (forall p c, pm_match (the_matcher m) p c = Some (pystr_eqb p c)) ->
  snd (snd (store_find st t (Some n) m)) =
  if selected_raises (pystr_eqb t) sets then Exn else Ok (map promote (selected (pystr_eqb t) (pystr_eqb n) sets)).
Proof.
  intros SA K KN TN X M. destruct (st_caching st) eqn:CS.
  - unfold DlisStore.store_find. fold (the_matcher m). rewrite CS, X. cbn [negb].
    pose proof (get_item_ok dec enc esc sets parses st t SA K) as G. cbv zeta in G.
    destruct (get_item st t) as [st1 [l r]]. cbn [fst snd] in G. destruct G as (_ & _ & G1 & G2).
    destruct (selected_raises (pystr_eqb t) sets) eqn:SR.
    + rewrite (G1 eq_refl). reflexivity.
    + destruct (G2 eq_refl) as (d & -> & E & _). rewrite <- named_all. rewrite <- (entry_get dec esc sets t d n E).
      destruct (dict_get n d); reflexivity.
  - rewrite (find_uncached st t (Some n) m pystr_eqb SA K) by (try assumption; intros x [= <-]; exact KN).
    destruct TN as [-> |TN]; [reflexivity | congruence].
Qed.

Lemma raises_types (g : pystr -> bool) ts : (forall x, In x ts <-> In x (map (fun s => dec (os_type s)) sets) /\ g x = true) ->
  existsb (fun t => selected_raises (pystr_eqb t) sets) ts = selected_raises g sets.
Proof.
  intros H. apply eq_true_iff_eq. unfold SpecDlisStore.selected_raises. rewrite !existsb_exists. split.
  - intros (t & It & R). apply existsb_exists in R as (s & Is & R). apply andb_true_iff in R as [Et R].
    apply pystr_eqb_spec in Et. subst t. exists s. split; [exact Is|]. apply H in It as [_ ->]. exact R.
  - intros (s & Is & R). apply andb_true_iff in R as [Et R]. exists (dec (os_type s)). split.
    + apply H. split; [|exact Et]. apply in_map_iff. exists s. auto.
    + apply existsb_exists. exists s. split; [exact Is|]. rewrite pystr_eqb_refl, R. reflexivity.
Qed.

Lemma find_any st t n m f : sane st -> kept t -> (forall x, n = Some x -> kept x /\ (truthy x = true \/ st_caching st = true)) ->
  (forall p c, pm_match (the_matcher m) p c = Some (f p c)) ->
  (pm_exact (the_matcher m) = true -> forall p c, pm_match (the_matcher m) p c = Some (pystr_eqb p c)) ->
  if selected_raises (f t) sets then snd (snd (store_find st t n m)) = Exn
  else exists objs, snd (snd (store_find st t n m)) = Ok objs /\ Permutation objs (map promote (selected (f t) (wanted f n) sets)).
Proof.
  intros SA K KN M EX. destruct (st_caching st) eqn:CS.
  - assert (GEN : if selected_raises (f t) sets then snd (snd (match filter_raising (pm_match (the_matcher m) t) (types dec set_order st) with
        | None => (st, fail) | Some ts => collect dec enc esc (the_matcher m) n ts st end)) = Exn
      else exists objs, snd (snd (match filter_raising (pm_match (the_matcher m) t) (types dec set_order st) with
        | None => (st, fail) | Some ts => collect dec enc esc (the_matcher m) n ts st end)) = Ok objs /\
        Permutation objs (map promote (selected (f t) (wanted f n) sets))).
    { rewrite (filter_raising_total _ (f t)) by (intros x _; apply M). rewrite (types_eq st SA).
      set (all := set_order _). assert (IT : forall x, In x (filter (f t) all) <-> In x (map (fun s => dec (os_type s)) sets) /\ f t x = true).
      { intros x. rewrite filter_In. unfold all. rewrite (proj2 (order _) x). reflexivity. }
      assert (KT : Forall kept (filter (f t) all)). { unfold all. rewrite <- (types_eq st SA). apply types_kept. exact SA. }
      pose proof (collect_ok dec enc esc sets parses (the_matcher m) f n _ M KT st SA CS) as C. cbv zeta in C.
      destruct (collect dec enc esc (the_matcher m) n (filter (f t) all) st) as [st2 [l r]]. cbn [fst snd] in C |- *.
      destruct C as (_ & _ & C1 & C2). rewrite (raises_types (f t) _ IT) in C1, C2.
      destruct (selected_raises (f t) sets); [exact (C1 eq_refl)|]. destruct (C2 eq_refl) as (objs & -> & PM). exists objs. split; [reflexivity|].
      rewrite PM. apply types_perm.
      - apply NoDup_filter. apply (proj1 (order _)).
      - intros s Is G. apply IT. split; [|exact G]. apply in_map_iff. exists s. auto.
      - intros x I. apply IT in I as [_ I]. exact I. }
    destruct (pm_exact (the_matcher m)) eqn:X.
    + destruct n as [n|].
      * destruct (KN n eq_refl) as [K1 K2]. specialize (EX eq_refl). rewrite (find_exact st t n m SA K K1 (or_intror CS) X EX).
        assert (FE : forall p c, f p c = pystr_eqb p c) by (intros p c; specialize (M p c); rewrite EX in M; congruence).
        assert (RE : selected_raises (f t) sets = selected_raises (pystr_eqb t) sets).
        { unfold SpecDlisStore.selected_raises. clear - FE. induction sets as [|s l IH]; cbn [existsb]; [reflexivity|]. rewrite FE, IH. reflexivity. }
        rewrite RE. destruct (selected_raises (pystr_eqb t) sets); [reflexivity|]. eexists. split; [reflexivity|].
        cbn [wanted]. rewrite (selected_names (pystr_eqb t) (pystr_eqb n) (f n)) by (intros; symmetry; apply FE).
        unfold SpecDlisStore.selected. erewrite (filter_ext_in' (fun s => pystr_eqb t (dec (os_type s)))); [apply Permutation_refl|].
        intros s _. symmetry. apply FE.
      * unfold DlisStore.store_find. fold (the_matcher m). rewrite CS, X. cbn [negb]. exact GEN.
    + unfold DlisStore.store_find. fold (the_matcher m). rewrite CS, X. cbn [negb]. destruct n as [n|]; exact GEN.
  - rewrite (find_uncached st t n m f SA K) by (try assumption; intros x E; apply KN; exact E).
    destruct (selected_raises (f t) sets); [reflexivity|]. eexists. split; [reflexivity|].
    destruct n as [x|]; [|apply Permutation_refl]. destruct (KN x eq_refl) as [_ [-> |X]]; [apply Permutation_refl | congruence].
Qed.
End queries.
