(** Proofs about tables of information records. *)
From Verif Require Import Bytes BytesProofs DlisTypes SpecTypes SpecCore Stream DlisRecords LisTypes LisProtocol LisPy LisInfo LisCurves
  SpecLisCurves SpecLisProtocol LisIo SpecLisIo LisLoad SpecLisLoad LisFile SpecLisFile LisFileProofs SpecLisPy LisPyProofs LisInfoProofs LisProtocolProofs LisProtocolProofs2 CommonPy LisTable SpecLisTable.
Local Open Scope Z_scope.

Lemma components_one ds cs cs' : of_components ds cs -> of_components ds cs' -> cs = cs'.
Proof.
  intros H H'. assert (E : parse_info_record ds = Ok cs) by (apply info_exact; exact H). assert (E' : parse_info_record ds = Ok cs') by (apply info_exact; exact H'). congruence.
Qed.

Lemma parsed_list type rs dss : In type [32; 34; 39] -> Forall (fun r => type_of r = type) rs -> length rs = length dss ->
  Forall (fun ds => exists cs, of_components ds cs) dss ->
  exists xs, Forall2 (fun '(r, ds) x => parsed_as r ds x) (combine rs dss) xs /\ length xs = length dss /\
    forall k ds cs, nth_error dss k = Some ds -> of_components ds cs -> exists info, nth_error xs k = Some (Information info cs).
Proof.
  intros T TY. revert dss. induction TY as [|r rs Tr TY IH]; intros [|ds dss] L F; try discriminate.
  - exists []. split; [constructor|]. split; [reflexivity|]. intros [|k]; discriminate.
  - apply Forall_cons_iff in F as [(cs & bs & E & B) F]. destruct (IH dss ltac:(cbn in L; lia) F) as (xs & X & LX & K).
    exists (Information (entry r) cs :: xs). split; [constructor; [|exact X]|split; [cbn; congruence|]].
    + apply (pa_information r ds bs cs); [rewrite Tr; exact T|exact E|exact B].
    + intros [|k] d c; cbn [nth_error]; [|apply K]. intros [= <-] H. exists (entry r). rewrite (components_one ds c cs H); [reflexivity|exists bs; auto].
Qed.

Section table.
Variable dec : bytes -> CommonPy.pystr.
Local Notation txt := (text_of dec).

Lemma is_text_spec b : is_text dec b = true <-> exists m, dec b = Str m.
Proof. unfold is_text. destruct (dec b) as [m|x]; split; try discriminate; eauto. intros (m & H). discriminate. Qed.
Lemma txt_is c m : is_text dec (cb_mnemonic c) = true -> (txt (cb_mnemonic c) = m <-> mnemonic_is dec c m).
Proof. unfold is_text, text_of, mnemonic_is. destruct (dec _) as [u|x]; [|discriminate]. intros _. split; congruence. Qed.

Lemma first_seen_columns cs cols : first_seen txt cs cols -> (forall c, In c cs -> is_text dec (cb_mnemonic c) = true) -> columns_of dec cs cols.
Proof.
  induction 1 as [|cs ms c H IH I|cs ms c H IH I]; intros A.
  - split; [constructor|]. split; [intros m; split; [intros []|intros (c & [] & _)]|]. intros [|i]; discriminate.
  - destruct IH as (N & S & O); [intros x Ix; apply A, in_or_app; auto|]. split; [exact N|]. split.
    + intros m. rewrite S. split; intros (x & Ix & M).
      * exists x. split; [apply in_or_app; auto|exact M].
      * apply in_app_or in Ix as [Ix|[<-|[]]]; [eauto|]. apply S. apply (txt_is c m) in M; [|apply A, in_or_app; right; left; reflexivity]. rewrite <- M. exact I.
    + intros i j m n Ei Ej L. destruct (O i j m n Ei Ej L) as (a & x & b & -> & M & NX). exists a, x, (b ++ [c]). rewrite <- app_assoc. auto.
  - assert (AC : is_text dec (cb_mnemonic c) = true) by (apply A, in_or_app; right; left; reflexivity).
    destruct IH as (N & S & O); [intros x Ix; apply A, in_or_app; auto|].
    assert (MC : mnemonic_is dec c (txt (cb_mnemonic c))) by (apply txt_is; auto).
    split; [|split].
    + apply NoDup_rev in N. rewrite <- (rev_involutive (ms ++ _)), rev_app_distr. apply NoDup_rev. cbn [rev app]. constructor; [rewrite <- in_rev; exact I|exact N].
    + intros m. rewrite in_app_iff, S. split.
      * intros [(x & Ix & M)|[<-|[]]]; [exists x; split; [apply in_or_app; auto|exact M]|exists c; split; [apply in_or_app; right; left; reflexivity|exact MC]].
      * intros (x & Ix & M). apply in_app_or in Ix as [Ix|[<-|[]]]; [left; eauto|right; left; apply txt_is; auto].
    + intros i j m n Ei Ej L. assert (Lj : (j < length (ms ++ [txt (cb_mnemonic c)]))%nat) by (apply nth_error_Some; intros HN; pose proof (eq_trans (eq_sym HN) Ej); discriminate). rewrite app_length in Lj. cbn [length] in Lj.
      assert (Ei' : nth_error ms i = Some m) by (rewrite <- Ei; symmetry; apply nth_error_app1; lia).
      destruct (Nat.lt_ge_cases j (length ms)) as [J|J].
      * rewrite nth_error_app1 in Ej by exact J. destruct (O i j m n Ei' Ej L) as (a & x & b & -> & M & NX). exists a, x, (b ++ [c]). rewrite <- app_assoc. auto.
      * assert (j = length ms) by lia. subst j. rewrite nth_error_app2, Nat.sub_diag in Ej by lia. injection Ej as <-.
        destruct (proj1 (S m) (nth_error_In _ _ Ei')) as (x & Ix & M). apply in_split in Ix as (a & b & ->). exists a, x, (b ++ [c]). rewrite <- app_assoc. split; [reflexivity|]. split; [exact M|].
        intros y Iy MY. apply I. apply S. exists y. split; [apply in_or_app; left; exact Iy|exact MY].
Qed.

Lemma cell_of_in simple row m cell : (forall c, In c row -> is_text dec (cb_mnemonic c) = true) -> cell_of txt simple row m cell -> cell_in dec simple row m cell.
Proof.
  intros A [(c & (a & b & -> & M & N) & ->)|[N ->]].
  - left. exists a, c, b. split; [reflexivity|]. split; [apply txt_is; [apply A, in_elt|exact M]|]. split; [|reflexivity].
    intros x Ix MX. apply (N x Ix). apply txt_is; [apply A, in_or_app; right; right; exact Ix|exact MX].
  - right. split; [|reflexivity]. intros c Ic MC. apply (N c Ic). apply txt_is; [apply A, Ic|exact MC].
Qed.

Lemma table_ok simple c0 rows : cb_type_nb c0 = 73 -> rows <> [] -> Forall row_of rows ->
  ((exists c, In c (concat rows) /\ forall m, ~ mnemonic_is dec c m) /\ table_method dec (c0 :: concat rows) simple = Exn) \/
  ((forall c, In c (concat rows) -> exists m, mnemonic_is dec c m) /\
   exists cols cells, table_method dec (c0 :: concat rows) simple = Ok (mk_table cols cells) /\ columns_of dec (concat rows) cols /\
     Forall2 (fun row => Forall2 (cell_in dec simple row) cols) rows cells).
Proof.
  intros C N F. destruct (table_spec txt simple c0 rows C N F) as (cols & cells & E & FS & H). unfold table_method. rewrite E. cbn [rbind tl].
  destruct (forallb (fun c => is_text dec (cb_mnemonic c)) (concat rows)) eqn:A.
  - right. rewrite forallb_forall in A. split; [intros c Ic; apply is_text_spec, A, Ic|]. exists cols, cells. split; [reflexivity|]. split; [apply first_seen_columns; assumption|].
    assert (AR : forall row, In row rows -> forall c, In c row -> is_text dec (cb_mnemonic c) = true).
    { intros row Ir c Ic. apply A. apply in_concat. eauto. }
    clear - H AR. induction H as [|row cs rows cells H1 H IH]; constructor.
    + clear IH. assert (AR1 := AR row (or_introl eq_refl)). clear - H1 AR1. induction H1; constructor; [apply cell_of_in; assumption|assumption].
    + apply IH. intros r Ir. apply AR. right. exact Ir.
  - left. split; [|reflexivity]. assert (X : exists c, In c (concat rows) /\ is_text dec (cb_mnemonic c) = false).
    { clear - A. induction (concat rows) as [|c l IH]; [discriminate|]. cbn [forallb] in A. destruct (is_text dec (cb_mnemonic c)) eqn:T; [|exists c; cbn; auto].
      destruct (IH A) as (x & Ix & Tx). exists x. cbn; auto. }
    destruct X as (c & Ic & T). exists c. split; [exact Ic|]. intros m M. assert (is_text dec (cb_mnemonic c) = true) by (apply is_text_spec; exists m; exact M). congruence.
Qed.

Lemma columns_one cs cols cols' : columns_of dec cs cols -> columns_of dec cs cols' -> cols = cols'.
Proof.
  intros (N & S & O) (N' & S' & O').
  (* the order of two mnemonics is that of their first occurrences *)
  assert (ORD : forall i j i' j' m n, nth_error cols i = Some m -> nth_error cols j = Some n -> nth_error cols' i' = Some m -> nth_error cols' j' = Some n -> (i < j)%nat -> (i' < j')%nat).
  { intros i j i' j' m n Ei Ej Ei' Ej' L. destruct (Nat.lt_trichotomy i' j') as [H|[H|H]]; [exact H|subst j'; exfalso|exfalso].
    - assert (m = n) by congruence. subst n. assert (i = j); [|lia]. apply (NoDup_nth_error cols); [exact N|apply nth_error_Some; congruence|congruence].
    - destruct (O i j m n Ei Ej L) as (a & c & b & E & M & A). destruct (O' j' i' n m Ej' Ei' H) as (a' & c' & b' & E' & M' & A').
      rewrite E in E'. apply app_eq_app in E' as (l & [[E1 E2]|[E1 E2]]).
      + destruct l as [|x l]; cbn [app] in E2; injection E2 as E2 E3.
        * subst c'. unfold mnemonic_is in M, M'. assert (m = n) by congruence. subst n. assert (i = j); [|lia]. apply (NoDup_nth_error cols); [exact N|apply nth_error_Some; congruence|congruence].
        * subst x a. apply (A c'); [apply in_or_app; right; left; reflexivity|exact M'].
      + destruct l as [|x l]; cbn [app] in E2; injection E2 as E2 E3.
        * subst c'. unfold mnemonic_is in M, M'. assert (m = n) by congruence. subst n. assert (i = j); [|lia]. apply (NoDup_nth_error cols); [exact N|apply nth_error_Some; congruence|congruence].
        * subst x a'. apply (A' c); [apply in_or_app; right; left; reflexivity|exact M]. }
  assert (SAME : forall m, In m cols <-> In m cols') by (intros m; rewrite S, S'; reflexivity).
  clear - N N' SAME ORD. revert cols' N' SAME ORD. induction cols as [|m cols IH]; intros [|m' cols'] N' SAME ORD.
  - reflexivity.
  - exfalso. apply (SAME m'). left. reflexivity.
  - exfalso. apply (SAME m). left. reflexivity.
  - assert (m = m').
    { destruct (proj1 (SAME m) (or_introl eq_refl)) as [E|I]; [auto|]. destruct (proj2 (SAME m') (or_introl eq_refl)) as [E|I']; [auto|]. exfalso.
      apply In_nth_error in I as (k & Ek). apply In_nth_error in I' as (k' & Ek').
      pose proof (ORD 0%nat (S k') (S k) 0%nat m m' eq_refl Ek' Ek eq_refl ltac:(lia)). lia. }
    subst m'. f_equal. apply NoDup_cons_iff in N as [NM N]. apply NoDup_cons_iff in N' as [NM' N']. apply IH; try assumption.
    + intros x. specialize (SAME x). cbn [In] in SAME. split; intros I.
      * destruct (proj1 SAME (or_intror I)) as [<-|H]; [contradiction|exact H].
      * destruct (proj2 SAME (or_intror I)) as [<-|H]; [contradiction|exact H].
    + intros i j i' j' x y Ei Ej Ei' Ej' L. pose proof (ORD (S i) (S j) (S i') (S j') x y Ei Ej Ei' Ej' ltac:(lia)). lia.
Qed.
Lemma cell_one simple row m a b : cell_in dec simple row m a -> cell_in dec simple row m b -> a = b.
Proof.
  intros [(x & c & y & -> & M & N & ->)|[N ->]] [(x' & c' & y' & E & M' & N' & ->)|[N' ->]].
  - apply app_eq_app in E as (l & [[E1 E2]|[E1 E2]]); destruct l as [|z l]; cbn [app] in E2; injection E2 as E2 E3; try (subst; reflexivity).
    + exfalso. subst. apply (N' c); [apply in_elt|exact M].
    + exfalso. subst. apply (N c'); [apply in_elt|exact M'].
  - exfalso. apply (N' c); [apply in_elt|exact M].
  - exfalso. subst row. apply (N c'); [apply in_elt|exact M'].
  - reflexivity.
Qed.
Lemma one_table simple rows cols cells cols' cells' :
  columns_of dec (concat rows) cols -> Forall2 (fun row => Forall2 (cell_in dec simple row) cols) rows cells ->
  columns_of dec (concat rows) cols' -> Forall2 (fun row => Forall2 (cell_in dec simple row) cols') rows cells' -> cols = cols' /\ cells = cells'.
Proof.
  intros C F C' F'. pose proof (columns_one _ _ _ C C'). subst cols'. split; [reflexivity|]. clear C C'.
  revert cells' F'. induction F as [|row cs rows cells H F IH]; intros cells' F'; inversion F' as [|? cs' ? ? H' F'']; subst; [reflexivity|]. f_equal; [|apply IH; assumption].
  clear - H H'. revert cs' H'. induction H as [|m a cols cs A H IH]; intros cs' H'; inversion H'; subst; [reflexivity|]. f_equal; [eapply cell_one; eassumption|apply IH; assumption].
Qed.
End table.
