(** Tables of information records. *)
From Verif Require Import Bytes BytesProofs DlisTypes Stream DlisRecords SpecTypes LisTypes LisProtocol LisPy LisInfo SpecLisCurves LisCurvesProofs5 SpecLisPy LisPyProofs.
From Coq Require Import Lia ZArith.
Local Open Scope Z_scope.

Lemma forall2_impl {A B} (P Q : A -> B -> Prop) : (forall x y, P x y -> Q x y) -> forall l l', Forall2 P l l' -> Forall2 Q l l'.
Proof. induction 2; constructor; auto. Qed.
Section Dec.
Variable dec : bytes -> pystr.
Lemma columns_snoc cs c : forall seen, columns_from dec seen (cs ++ [c]) =
  columns_from dec seen cs ++ (if existsb (str_eqb (dec (cb_mnemonic c))) (seen ++ columns_from dec seen cs) then [] else [dec (cb_mnemonic c)]).
Proof.
  induction cs as [|x cs IH]; intros seen; cbn [columns_from app].
  - rewrite app_nil_r. reflexivity.
  - destruct (existsb (str_eqb (dec (cb_mnemonic x))) seen) eqn:E; [apply IH|]. cbn [app]. rewrite IH. f_equal. f_equal.
    assert (forall p a (l : list pystr), existsb (str_eqb p) ((a :: seen) ++ l) = existsb (str_eqb p) (seen ++ a :: l)) as ->; [|reflexivity].
    intros p a l. apply eq_true_iff_eq. rewrite !exists_in, !in_app_iff. cbn [In]. tauto.
Qed.
Lemma columns_first cs : first_seen dec cs (columns_from dec [] cs).
Proof.
  induction cs as [|c cs IH] using rev_ind; [constructor|]. rewrite columns_snoc. cbn [app].
  destruct (existsb (str_eqb (dec (cb_mnemonic c))) (columns_from dec [] cs)) eqn:E.
  - rewrite app_nil_r. apply fs_old; [exact IH | apply exists_in, E].
  - apply fs_new; [exact IH|]. intros I. apply exists_in in I. congruence.
Qed.
Lemma first_nodup cs ms : first_seen dec cs ms -> NoDup ms.
Proof.
  induction 1 as [|cs ms c F IH I|cs ms c F IH I]; [constructor | exact IH |]. rewrite <- (rev_involutive (ms ++ [dec (cb_mnemonic c)])). rewrite rev_app_distr.
  apply NoDup_rev. cbn. constructor; [rewrite <- in_rev; exact I | apply NoDup_rev, IH].
Qed.
Variable simple : bool.
Definition cell (c : component_block) : tcell := if simple then Value (cb_component c) else Block c.
Lemma set_column_spec name v (P : pystr -> tcell -> Prop) cols r : NoDup cols -> Forall2 P cols r ->
  Forall2 (fun m k => (m = name /\ k = v) \/ (m <> name /\ P m k)) cols (set_column name v cols r).
Proof.
  intros N F. induction F as [|m k cols r H F IH]; cbn [set_column]; [constructor|]. inversion N as [|? ? N1 N2]; subst.
  destruct (str_eqb name m) eqn:E.
  - apply str_eqb_eq in E as ->. constructor; [auto|]. clear IH H N N2. induction F as [|m' k' cols r H F IH]; constructor.
    + right. split; [intros ->; apply N1; left; reflexivity | exact H].
    + apply IH. intros I. apply N1. right. exact I.
  - constructor; [|apply IH, N2]. right. split; [|exact H]. intros ->. rewrite (proj2 (str_eqb_eq name name) eq_refl) in E. discriminate.
Qed.
Definition row_cells (cols : list pystr) (row : list component_block) (r : list tcell) : list tcell :=
  fold_left (fun r c => set_column (dec (cb_mnemonic c)) (cell c) cols r) row r.
Lemma row_cells_spec cols row : NoDup cols -> Forall2 (cell_of dec simple row) cols (row_cells cols row (repeat Fill (length cols))).
Proof.
  intros N. unfold row_cells. induction row as [|c row IH] using rev_ind.
  - cbn [fold_left]. clear N. induction cols as [|m cols IH]; cbn [length repeat]; constructor; [|exact IH]. right. split; [intros c [] | reflexivity].
  - rewrite fold_left_app. cbn [fold_left]. pose proof (set_column_spec (dec (cb_mnemonic c)) (cell c) _ _ _ N IH) as H. revert H. apply forall2_impl.
    intros m k [[-> ->]|[Nm [(c' & (a & b & E & M & L) & K)|[A K]]]].
    + left. exists c. split; [|reflexivity]. exists row, []. split; [reflexivity|]. split; [reflexivity|]. intros x [].
    + left. exists c'. split; [|exact K]. exists a, (b ++ [c]). rewrite E, <- app_assoc. split; [reflexivity|]. split; [exact M|].
      intros x I. apply in_app_or in I as [I|[<-|[]]]; [apply L, I | congruence].
    + right. split; [|exact K]. intros x I. apply in_app_or in I as [I|[<-|[]]]; [apply A, I | congruence].
Qed.
Lemma set_cell_at cols name v done r post : set_cell cols name (length done) v (done ++ r :: post) = Ok (done ++ set_column name v cols r :: post).
Proof. induction done as [|x done IH]; cbn [length app set_cell]; [reflexivity|]. rewrite IH. reflexivity. Qed.
Lemma fill_row cols xs : forall done r post tl, (forall x, In x xs -> cb_type_nb x <> 0) ->
  fill_table dec simple cols (S (length done)) (xs ++ tl) (done ++ r :: post) = fill_table dec simple cols (S (length done)) tl (done ++ row_cells cols xs r :: post).
Proof.
  induction xs as [|x xs IH]; intros done r post tl H; [reflexivity|]. cbn [app fill_table]. destruct (Z.eqb_spec (cb_type_nb x) 0) as [E|_]; [exfalso; apply (H x); [left; reflexivity | exact E]|].
  rewrite set_cell_at. cbn [rbind]. apply (IH done); intros y I. apply H. right. exact I.
Qed.
Lemma fill_rows cols rows : Forall row_of rows -> forall done, 
  fill_table dec simple cols (length done) (concat rows) (done ++ repeat (repeat Fill (length cols)) (length rows)) =
  Ok (done ++ map (fun row => row_cells cols row (repeat Fill (length cols))) rows).
Proof.
  induction 1 as [|row rows R F IH]; intros done; [reflexivity|]. destruct R as [c cs C Z0]. cbn [concat app fill_table length repeat map].
  rewrite C. cbn [Z.eqb]. rewrite set_cell_at. cbn [rbind]. rewrite (fill_row cols cs) by exact Z0.
  specialize (IH (done ++ [row_cells cols (c :: cs) (repeat Fill (length cols))])). rewrite app_length, Nat.add_1_r, <- !app_assoc in IH. cbn [app] in IH. exact IH.
Qed.
Lemma split_rows c1 rest : cb_type_nb c1 = 0 -> exists rows, c1 :: rest = concat rows /\ Forall row_of rows /\ rows <> [].
Proof.
  revert c1. induction rest as [|x rest IH]; intros c1 C.
  - exists [[c1]]. split; [reflexivity|]. split; [|discriminate]. constructor; [|constructor]. constructor; [exact C | intros x []].
  - destruct (Z.eq_dec (cb_type_nb x) 0) as [Z0|Z0].
    + destruct (IH x Z0) as (rows & E & F & N). exists ([c1] :: rows). split; [cbn; rewrite E; reflexivity|]. split; [|discriminate].
      constructor; [|exact F]. constructor; [exact C | intros y []].
    + destruct (IH c1 C) as ([|row rows] & E & F & N); [congruence|]. inversion F as [|? ? [c cs Ct Cs] F']; subst. cbn in E. injection E as <- E.
      exists ((c1 :: x :: cs) :: rows). split; [cbn; rewrite E; reflexivity|]. split; [|discriminate]. constructor; [|exact F'].
      constructor; [exact C|]. intros y [<-|I]; [exact Z0 | exact (Cs y I)].
Qed.
Lemma count_rows rows : Forall row_of rows -> length (filter (fun c => cb_type_nb c =? 0) (concat rows)) = length rows.
Proof.
  induction 1 as [|row rows [c cs C Cs] F IH]; [reflexivity|]. cbn [concat]. rewrite filter_app, app_length, IH. cbn [filter length]. rewrite C. cbn [Z.eqb length].
  assert (filter (fun c0 => cb_type_nb c0 =? 0) cs = []) as ->; [|reflexivity].
  apply filter_none. intros x I. specialize (Cs x I). destruct (Z.eqb_spec (cb_type_nb x) 0); [contradiction | reflexivity].
Qed.
Lemma table_spec c0 rows : cb_type_nb c0 = 73 -> rows <> [] -> Forall row_of rows ->
  exists cols cells, info_table dec (c0 :: concat rows) simple = Ok (mk_table cols cells) /\ first_seen dec (concat rows) cols /\
    Forall2 (fun row => Forall2 (cell_of dec simple row) cols) rows cells.
Proof.
  intros C N F. destruct rows as [|row rows]; [congruence|]. pose proof F as F0. inversion F as [|? ? [c cs Ct Cs] F']; subst.
  pose proof (count_rows _ F0) as L. pose proof (columns_first (concat ((c :: cs) :: rows))) as FS. pose proof (first_nodup _ _ FS) as ND.
  pose proof (fill_rows (columns_from dec [] (concat ((c :: cs) :: rows))) _ F0 []) as FR.
  unfold info_table, isstructured. rewrite C. cbn [Z.eqb Pos.eqb negb concat app]. rewrite Ct. cbn [Z.eqb negb].
  assert (filter (fun c2 => cb_type_nb c2 =? 0) (c0 :: c :: cs ++ concat rows) = filter (fun c2 => cb_type_nb c2 =? 0) (concat ((c :: cs) :: rows))) as ->
    by (cbn [filter concat app]; rewrite C; reflexivity).
  rewrite L. cbn [concat app] in FR, FS, ND |- *. change (length (@nil (list tcell))) with 0%nat in FR. rewrite FR. cbn [rbind]. eexists _, _. split; [reflexivity|]. split; [exact FS|].
  clear - ND. revert ND. generalize (columns_from dec [] (c :: cs ++ concat rows)). intros cols ND. induction ((c :: cs) :: rows) as [|r rs IH]; constructor; [apply row_cells_spec, ND | exact IH].
Qed.
End Dec.
