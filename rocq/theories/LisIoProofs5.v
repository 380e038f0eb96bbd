(** Proofs about indexing whole files, continued. *)
From Verif Require Import Bytes BytesProofs DlisTypes SpecTypes TypesProofs Stream SpecIo IoProofs LisProtocol LisIo SpecLisIo LisIoProofs LisIoProofs2 LisIoProofs3 LisIoProofs4.
Local Open Scope Z_scope.
Ltac Zify.zify_post_hook ::= Z.div_mod_to_equations.

Lemma reposition_next d pos q : 0 <= pos -> next_start (d_offset d) (d_data d) pos q ->
  reposition_tell d pos = (DOk tt, q).
Proof.
  intros Hp [(r & last & R & ->)|(p & P & T & ->)]; unfold reposition_tell.
  - apply records_head in R as (E & _). rewrite E. reflexivity.
  - rewrite (index_at_rest d pos Hp p P T). reflexivity.
Qed.
Lemma damaged_error d pos : 0 <= pos -> damaged_at (d_offset d) (d_data d) pos ->
  exists e q, index_record d pos = (DErr e, q) /\ e <> EofError.
Proof.
  intros Hp (p & h & l & a & G & H & L & A & B). pose proof (header_found d pos p h l a H L G A) as E.
  pose proof (index_record_inv d pos Hp) as I. destruct (index_record d pos) as [[i|e|] q]; [|exists e, q; split; [reflexivity|]|destruct I].
  - exfalso. destruct I as (I1 & I2 & I3 & I4 & I5 & l' & a' & h' & t & x & J1 & J2 & J3 & J4 & J5 & J6).
    rewrite J4 in E. destruct (Z.ltb_spec l (min_length a)) as [Lm|Lm]; [discriminate|].
    injection E as E1 E2 E3. subst l' a'. rewrite min_length_spec in Lm. change (d_size d) with (len (d_data d)) in *.
    destruct B as [B|[B|[(t' & x' & B1 & B2)|B]]]; [lia | lia | | congruence].
    apply at_pos_app in B1 as [_ B1]. apply at_pos_app in B1 as [_ B1]. rewrite (phys_len _ _ _ H) in B1.
    apply at_pos_app in J2 as [_ J2]. rewrite (phys_len _ _ _ J1) in J2. rewrite E3 in J2.
    pose proof (at_pos_same _ _ _ _ B1 J2 eq_refl) as X. injection X as -> _. rewrite J3 in B2. contradiction.
  - intros ->. destruct I as [_ I]. specialize (I eq_refl). rewrite E in I. cbn [fst] in I. destruct (_ <? _); discriminate.
Qed.

Lemma fuel_rest d rs pos last : 0 <= pos -> records_at (d_offset d) (d_data d) pos rs last ->
  (length rs < S (length (d_data d)))%nat.
Proof.
  intros Hp R. destruct rs as [|r rs]; [cbn; lia|]. destruct (records_bound _ _ _ _ _ R Hp) as [B1 B2].
  specialize (B2 ltac:(discriminate)). unfold len in B2. lia.
Qed.
Lemma records_last off data pos rs last : records_at off data pos rs last -> 0 <= pos -> 0 <= last.
Proof. intros R Hp. destruct (records_bound _ _ _ _ _ R Hp) as [B _]. lia. Qed.

Lemma filter_snoc {A} f (l : list A) x : filter f (l ++ [x]) = filter f l ++ (if f x then [x] else []).
Proof. rewrite filter_app. reflexivity. Qed.
Lemma closing_other r : is_closing (type_of r) -> datab r = false.
Proof. intros C. destruct (datab r) eqn:D; [|reflexivity]. apply datab_spec in D. destruct C as [C|[C|[]]]; rewrite <- C in D; cbn in D; lia. Qed.
Lemma delimiter_other r : is_delimiter (type_of r) -> datab r = false.
Proof. intros C. destruct (datab r) eqn:D; [|reflexivity]. apply datab_spec in D. destruct C as [C|[C|[C|[C|[]]]]]; rewrite <- C in D; cbn in D; lia. Qed.

Definition index_of (rs : list (Z * Z * Z)) (incomplete : bool) : record_index :=
  mk_index (map info_of (others_of rs)) (map info_of (data_of rs)) incomplete.

Lemma file_closed d pos rs c last q : 0 <= pos ->
  records_at (d_offset d) (d_data d) pos (rs ++ [c]) last -> inside (map type_of rs) -> is_closing (type_of c) ->
  next_start (d_offset d) (d_data d) last q ->
  index_records d pos = (DOk (index_of (rs ++ [c]) false), q).
Proof.
  intros Hp R I C N. pose proof (records_last _ _ _ _ _ R Hp) as Hlast.
  apply records_app in R as (mid & R1 & R2). unfold index_records.
  pose proof (fuel_rest _ _ _ _ Hp R1) as F.
  rewrite (index_insides d rs pos mid true [] [] _ R1 (inside_insides _ I) (fun _ => eq_refl) F).
  destruct (S (length (d_data d)) - length rs)%nat as [|fuel] eqn:Ef; [lia|].
  apply records_head in R2 as (E & R2 & _). rewrite (step_closing d fuel _ _ _ c _ E C). inversion R2; subst.
  unfold dbind. rewrite (reposition_next d _ q Hlast N). unfold dret, index_of, others_of, data_of.
  rewrite !filter_snoc, (closing_other c C), !map_app. cbn [negb map app]. rewrite app_nil_r. reflexivity.
Qed.
Lemma file_delimiter d pos c last q : 0 <= pos ->
  records_at (d_offset d) (d_data d) pos [c] last -> is_delimiter (type_of c) ->
  next_start (d_offset d) (d_data d) last q ->
  index_records d pos = (DOk (index_of [c] false), q).
Proof.
  intros Hp R C N. pose proof (records_last _ _ _ _ _ R Hp) as Hlast. unfold index_records.
  apply records_head in R as (E & R & _). rewrite (step_first d _ _ _ c _ E C). inversion R; subst.
  unfold dbind. rewrite (reposition_next d _ q Hlast N). unfold dret, index_of, others_of, data_of.
  cbn [filter]. rewrite (delimiter_other c C). reflexivity.
Qed.
Lemma file_separated d pos rs c last : 0 <= pos ->
  records_at (d_offset d) (d_data d) pos (rs ++ [c]) last -> inside (map type_of rs) -> has_explicit (map type_of rs) ->
  is_delimiter (type_of c) \/ is_header (type_of c) ->
  index_records d pos = (DOk (index_of rs false), start_of c).
Proof.
  intros Hp R I (t & T & Nt) C.
  apply records_app in R as (mid & R1 & R2). unfold index_records.
  pose proof (fuel_rest _ _ _ _ Hp R1) as F.
  rewrite (index_insides d rs pos mid true [] [] _ R1 (inside_insides _ I) (fun _ => eq_refl) F).
  destruct (S (length (d_data d)) - length rs)%nat as [|fuel] eqn:Ef; [lia|].
  apply records_head in R2 as (E & R2 & _). rewrite (step_separate d fuel _ _ _ c _ E C); [reflexivity|].
  cbn [app]. intros X. apply map_eq_nil in X. apply Nt. eapply others_nil; eassumption.
Qed.
Lemma file_rest d pos rs last p : 0 <= pos ->
  records_at (d_offset d) (d_data d) pos rs last -> inside (map type_of rs) ->
  padding p -> tail_at (d_data d) last p ->
  index_records d pos = (DOk (index_of rs (s_hard (d_stream d))), len (d_data d)).
Proof.
  intros Hp R I P T. pose proof (records_last _ _ _ _ _ R Hp) as Hlast. unfold index_records.
  pose proof (fuel_rest _ _ _ _ Hp R) as F.
  rewrite (index_insides d rs pos last true [] [] _ R (inside_insides _ I) (fun _ => eq_refl) F).
  destruct (S (length (d_data d)) - length rs)%nat as [|fuel] eqn:Ef; [lia|].
  rewrite (step_error d fuel _ _ _ _ _ (index_at_rest d last Hlast p P T)). unfold stop, index_of.
  destruct (s_hard _); reflexivity.
Qed.
Lemma file_damaged d pos rs last : 0 <= pos ->
  records_at (d_offset d) (d_data d) pos rs last -> inside (map type_of rs) ->
  damaged_at (d_offset d) (d_data d) last ->
  exists q, index_records d pos = (DOk (index_of rs true), q).
Proof.
  intros Hp R I D. pose proof (records_last _ _ _ _ _ R Hp) as Hlast. unfold index_records.
  pose proof (fuel_rest _ _ _ _ Hp R) as F.
  rewrite (index_insides d rs pos last true [] [] _ R (inside_insides _ I) (fun _ => eq_refl) F).
  destruct (S (length (d_data d)) - length rs)%nat as [|fuel] eqn:Ef; [lia|].
  destruct (damaged_error d last Hlast D) as (e & q & E & Ne). exists q.
  rewrite (step_error d fuel _ _ _ _ _ E). destruct e; [congruence|reflexivity..].
Qed.

(** ** Any file *)
Definition tuple (i : record_info) : Z * Z * Z := (ri_type i, ri_size i, ri_ltell i).
Lemma ordered_mono from to l from' to' : ordered from to l -> from' <= from -> to <= to' -> ordered from' to' l.
Proof.
  revert from from'. induction l as [|r l IH]; cbn [ordered]; intros from from' O F T; [trivial|].
  destruct O as (O1 & O2 & O3). split; [lia|]. split; [lia|]. apply (IH (stop_of r)); [exact O3 | lia | exact T].
Qed.
Lemma ordered_snoc from to l r to' : ordered from to l -> from <= to -> to <= start_of r -> start_of r < stop_of r <= to' ->
  ordered from to' (l ++ [r]).
Proof.
  revert from. induction l as [|x l IH]; cbn [ordered app]; intros from O F L H.
  - split; [lia|]. split; [exact H | trivial].
  - destruct O as (O1 & O2 & O3). split; [lia|]. split; [lia|]. apply IH; [exact O3 | lia | exact L | exact H].
Qed.

Definition all_of (l : list record_info) (p : Z -> Prop) : Prop := forall i, In i l -> p (ri_type i).
Lemma all_snoc l p i : all_of l p -> p (ri_type i) -> all_of (l ++ [i]) p.
Proof. intros A P j J. apply in_app_or in J as [J|[<-|[]]]; auto. Qed.

Lemma index_records_inv d start : 0 <= start -> forall fuel ex im pos, start <= pos ->
  Z.max 0 (d_size d - pos) < Z.of_nat fuel ->
  ordered start pos (map tuple ex) -> ordered start pos (map tuple im) -> pos <= Z.max start (d_size d) ->
  all_of ex (fun t => ~ is_data t) -> all_of im is_data ->
  (ex <> [] \/ im <> [] -> start < pos) ->
  exists ix q, index_records_loop fuel d ex im pos = (DOk ix, q) /\ start <= q /\
    ordered start (Z.max start (d_size d)) (map tuple (ix_explicits ix)) /\
    ordered start (Z.max start (d_size d)) (map tuple (ix_implicits ix)) /\
    all_of (ix_explicits ix) (fun t => ~ is_data t) /\ all_of (ix_implicits ix) is_data /\
    (ix_explicits ix <> [] \/ ix_implicits ix <> [] -> start < q).
Proof.
  intros Hs. induction fuel as [|fuel IH]; intros ex im pos Hp M Oe Oi Hpos Ae Ai Hprog; [lia|].
  cbn [index_records_loop]. pose proof (index_record_inv d pos ltac:(lia)) as I.
  destruct (index_record d pos) as [[i|e|] p1]; [| |destruct I].
  2: { destruct I as [I _].
    assert (X : forall b, exists ix q, (DOk (mk_index ex im b), p1) = (DOk ix, q) /\ start <= q /\
      ordered start (Z.max start (d_size d)) (map tuple (ix_explicits ix)) /\
      ordered start (Z.max start (d_size d)) (map tuple (ix_implicits ix)) /\
      all_of (ix_explicits ix) (fun t => ~ is_data t) /\ all_of (ix_implicits ix) is_data /\
      (ix_explicits ix <> [] \/ ix_implicits ix <> [] -> start < q)).
    { intros b. eexists _, _. split; [reflexivity|]. split; [lia|]. cbn [ix_explicits ix_implicits].
      split; [eapply ordered_mono; [exact Oe | lia | lia]|]. split; [eapply ordered_mono; [exact Oi | lia | lia]|].
      split; [exact Ae|]. split; [exact Ai|]. intros N. specialize (Hprog N). lia. }
    destruct e; apply X. }
  destruct I as (I1 & I2 & I3 & I4 & _).
  set (im' := if (ri_type i =? 0) || (ri_type i =? 1) then im ++ [i] else im).
  set (ex' := if (ri_type i =? 0) || (ri_type i =? 1) then ex else ex ++ [i]).
  assert (Oe' : ordered start p1 (map tuple ex')).
  { unfold ex'. destruct (_ || _); [eapply ordered_mono; [exact Oe | lia | lia]|]. rewrite map_app.
    eapply ordered_snoc; [exact Oe | lia | exact I1 | unfold start_of, stop_of, tuple; cbn [fst snd]; lia]. }
  assert (Oi' : ordered start p1 (map tuple im')).
  { unfold im'. destruct (_ || _); [|eapply ordered_mono; [exact Oi | lia | lia]]. rewrite map_app.
    eapply ordered_snoc; [exact Oi | lia | exact I1 | unfold start_of, stop_of, tuple; cbn [fst snd]; lia]. }
  assert (Ae' : all_of ex' (fun t => ~ is_data t)).
  { unfold ex'. destruct (_ || _) eqn:D; [exact Ae|]. apply all_snoc; [exact Ae|]. unfold is_data. cbn [In]. lia. }
  assert (Ai' : all_of im' is_data).
  { unfold im'. destruct (_ || _) eqn:D; [|exact Ai]. apply all_snoc; [exact Ai|]. unfold is_data. cbn [In]. lia. }
  assert (R : exists ix q, dbind (reposition_tell d) (fun _ => dret (mk_index ex' im' false)) p1 = (DOk ix, q) /\ start <= q /\
    ordered start (Z.max start (d_size d)) (map tuple (ix_explicits ix)) /\
    ordered start (Z.max start (d_size d)) (map tuple (ix_implicits ix)) /\
    all_of (ix_explicits ix) (fun t => ~ is_data t) /\ all_of (ix_implicits ix) is_data /\
    (ix_explicits ix <> [] \/ ix_implicits ix <> [] -> start < q)).
  { unfold dbind, reposition_tell. pose proof (index_record_inv d p1 ltac:(lia)) as J.
    assert (X : forall q, p1 <= q -> exists ix q', dret (mk_index ex' im' false) q = (DOk ix, q') /\ start <= q' /\
      ordered start (Z.max start (d_size d)) (map tuple (ix_explicits ix)) /\
      ordered start (Z.max start (d_size d)) (map tuple (ix_implicits ix)) /\
      all_of (ix_explicits ix) (fun t => ~ is_data t) /\ all_of (ix_implicits ix) is_data /\
      (ix_explicits ix <> [] \/ ix_implicits ix <> [] -> start < q')).
    { intros q Q. eexists _, _. split; [reflexivity|]. split; [lia|]. cbn [ix_explicits ix_implicits].
      split; [eapply ordered_mono; [exact Oe' | lia | lia]|]. split; [eapply ordered_mono; [exact Oi' | lia | lia]|].
      split; [exact Ae'|]. split; [exact Ai'|]. intros _. lia. }
    destruct (index_record d p1) as [[j|e|] p2]; [apply X; lia | apply X; lia | destruct J]. }
  assert (N : exists ix q, index_records_loop fuel d ex' im' p1 = (DOk ix, q) /\ start <= q /\
    ordered start (Z.max start (d_size d)) (map tuple (ix_explicits ix)) /\
    ordered start (Z.max start (d_size d)) (map tuple (ix_implicits ix)) /\
    all_of (ix_explicits ix) (fun t => ~ is_data t) /\ all_of (ix_implicits ix) is_data /\
    (ix_explicits ix <> [] \/ ix_implicits ix <> [] -> start < q)).
  { apply IH; [lia | lia | exact Oe' | exact Oi' | lia | exact Ae' | exact Ai' | lia]. }
  assert (S1 : ex <> [] -> exists ix q, (DOk (mk_index ex im' false), ri_ltell i) = (DOk ix, q) /\ start <= q /\
    ordered start (Z.max start (d_size d)) (map tuple (ix_explicits ix)) /\
    ordered start (Z.max start (d_size d)) (map tuple (ix_implicits ix)) /\
    all_of (ix_explicits ix) (fun t => ~ is_data t) /\ all_of (ix_implicits ix) is_data /\
    (ix_explicits ix <> [] \/ ix_implicits ix <> [] -> start < q)).
  { intros Ne. eexists _, _. split; [reflexivity|]. split; [lia|]. cbn [ix_explicits ix_implicits].
    split; [eapply ordered_mono; [exact Oe | lia | lia]|]. split; [eapply ordered_mono; [exact Oi' | lia | lia]|].
    split; [exact Ae|]. split; [exact Ai'|]. intros _. specialize (Hprog (or_introl Ne)). lia. }
  assert (L : forall n, (n < length ex')%nat -> (n = 1)%nat -> ex <> []).
  { intros n Ln -> ->. unfold ex' in Ln. destruct (_ || _); cbn in Ln; lia. }
  destruct ((ri_type i =? 132) || _ || _ || _).
  { destruct (Nat.ltb_spec 1 (length ex')) as [L1|L1]; [apply S1; apply (L 1%nat L1 eq_refl) | exact R]. }
  destruct (Z.eqb_spec (ri_type i) 128) as [E8|E8].
  { destruct (Nat.eqb_spec (length ex') 1) as [L1|L1]; [exact N|]. apply S1. intros ->.
    apply L1. unfold ex'. rewrite E8. reflexivity. }
  destruct ((ri_type i =? 137) || _); [exact R | exact N].
Qed.

Lemma index_records_total d pos : 0 <= pos ->
  exists ix q, index_records d pos = (DOk ix, q) /\ pos <= q /\
    ordered pos (Z.max pos (d_size d)) (map tuple (ix_explicits ix)) /\
    ordered pos (Z.max pos (d_size d)) (map tuple (ix_implicits ix)) /\
    all_of (ix_explicits ix) (fun t => ~ is_data t) /\ all_of (ix_implicits ix) is_data /\
    (ix_explicits ix <> [] \/ ix_implicits ix <> [] -> pos < q).
Proof.
  intros Hp. apply index_records_inv; cbn [ordered map]; try lia; try (unfold d_size; lia); try (intros i []); try trivial.
  intros [|]; congruence.
Qed.

(** ** The data records of a format specification *)
Lemma ordered_after from to l : ordered from to l -> forall r, In r l -> from <= start_of r.
Proof.
  revert from. induction l as [|x l IH]; cbn [ordered]; intros from O r []; destruct O as (O1 & O2 & O3); [subst; exact O1|].
  specialize (IH _ O3 r H). lia.
Qed.
Lemma filter_all {A} (f : A -> bool) l : (forall x, In x l -> f x = true) -> filter f l = l.
Proof.
  induction l as [|x l IH]; intros F; [reflexivity|]. cbn [filter]. rewrite (F x) by (left; reflexivity).
  f_equal. apply IH. intros y Y. apply F. right. exact Y.
Qed.
Lemma upper_skip tell : forall l from to, ordered from to (map tuple l) ->
  skipn (upper_bound tell l) l = filter (fun i => tell <? ri_ltell i) l.
Proof.
  induction l as [|i l IH]; intros from to O; [reflexivity|]. cbn [map ordered] in O. destruct O as (O1 & O2 & O3).
  cbn [upper_bound filter]. destruct (Z.ltb_spec tell (ri_ltell i)) as [L|L].
  - cbn [skipn]. f_equal. symmetry. apply filter_all. intros j J. pose proof (ordered_after _ _ _ O3 (tuple j) (in_map tuple _ _ J)) as A.
    unfold start_of, tuple in A, O2. cbn [snd] in A, O2. lia.
  - cbn [skipn]. eapply IH, O3.
Qed.
Lemma upper_first tell : forall l from to, ordered from to (map tuple l) ->
  firstn (upper_bound tell l) l = filter (fun i => ri_ltell i <=? tell) l.
Proof.
  induction l as [|i l IH]; intros from to O; [reflexivity|]. cbn [map ordered] in O. destruct O as (O1 & O2 & O3).
  cbn [upper_bound filter]. destruct (Z.ltb_spec tell (ri_ltell i)) as [L|L].
  - cbn [firstn]. replace (ri_ltell i <=? tell) with false by lia. symmetry.
    assert (F : forall m, (forall j, In j m -> tell < ri_ltell j) -> filter (fun i => ri_ltell i <=? tell) m = []).
    { induction m as [|j m IHm]; intros F; [reflexivity|]. cbn [filter]. pose proof (F j (or_introl eq_refl)).
      replace (ri_ltell j <=? tell) with false by lia. apply IHm. intros k K. apply F. right. exact K. }
    apply F. intros j J. pose proof (ordered_after _ _ _ O3 (tuple j) (in_map tuple _ _ J)) as A.
    unfold start_of, tuple in A, O2. cbn [snd] in A, O2. lia.
  - cbn [firstn]. replace (ri_ltell i <=? tell) with true by lia. f_equal. eapply IH, O3.
Qed.
Lemma ordered_filter f : forall l from to, ordered from to (map tuple l) -> ordered from to (map tuple (filter f l)).
Proof.
  induction l as [|i l IH]; intros from to O; [exact I|]. cbn [map ordered] in O. destruct O as (O1 & O2 & O3).
  cbn [filter]. destruct (f i).
  - cbn [map ordered]. split; [exact O1|]. split; [exact O2 | apply IH, O3].
  - apply IH. eapply ordered_mono; [exact O3 | unfold start_of, stop_of, tuple in *; cbn in *; lia | lia].
Qed.
Lemma find_from_split {A} (p : A -> bool) l : match find_from p l with
  | [] => forall x, In x l -> p x = false
  | c :: t => exists pre, l = pre ++ c :: t /\ p c = true /\ forall x, In x pre -> p x = false
  end.
Proof.
  induction l as [|x l IH]; cbn [find_from]; [intros y []|]. destruct (p x) eqn:P.
  - exists []. split; [reflexivity|]. split; [exact P | intros y []].
  - destruct (find_from p l) as [|c t].
    + intros y [<-|Y]; auto.
    + destruct IH as (pre & -> & Pc & F). exists (x :: pre). split; [reflexivity|]. split; [exact Pc|]. intros y [<-|Y]; auto.
Qed.
Lemma ordered_split from to : forall a i b, ordered from to (map tuple (a ++ i :: b)) ->
  (forall j, In j a -> ri_ltell j < ri_ltell i) /\ (forall j, In j b -> ri_ltell i < ri_ltell j) /\ ordered (ri_ltell i) to (map tuple b).
Proof.
  intros a; revert from. induction a as [|x a IH]; cbn [map ordered app]; intros from i b (O1 & O2 & O3).
  - split; [intros j []|]. split.
    + intros j J. pose proof (ordered_after _ _ _ O3 (tuple j) (in_map tuple _ _ J)) as A.
      unfold start_of, stop_of, tuple in A, O2. cbn [snd fst] in A, O2. lia.
    + eapply ordered_mono; [exact O3 | unfold start_of, stop_of, tuple in *; cbn in *; lia | lia].
  - destruct (IH _ _ _ O3) as (I1 & I2 & I3). split; [|split; [exact I2 | exact I3]].
    intros j [<-|J]; [|apply I1, J].
    assert (A : stop_of (tuple x) <= start_of (tuple i)).
    { eapply ordered_after; [exact O3|]. apply in_map. apply in_or_app. right. left. reflexivity. }
    unfold start_of, stop_of, tuple in A, O2. cbn [snd fst] in A, O2. lia.
Qed.

(** the records between the specification and the next one *)
Definition belongs (ix : record_index) (tell : Z) (i : record_info) : bool :=
  (tell <? ri_ltell i) &&
  forallb (fun s => negb (ri_type s =? 64) || (ri_ltell s <=? tell) || (ri_ltell i <=? ri_ltell s)) (ix_explicits ix).

Lemma filter_filter {A} (f g : A -> bool) l : filter f (filter g l) = filter (fun x => g x && f x) l.
Proof. induction l as [|x l IH]; [reflexivity|]. cbn [filter]. destruct (g x); cbn [filter andb]; [destruct (f x)|]; rewrite IH; reflexivity. Qed.
Lemma filter_ext_on {A} (f g : A -> bool) l : (forall x, In x l -> f x = g x) -> filter f l = filter g l.
Proof.
  induction l as [|x l IH]; intros E; [reflexivity|]. cbn [filter]. rewrite (E x) by (left; reflexivity).
  rewrite IH by (intros y Y; apply E; right; exact Y). reflexivity.
Qed.

Lemma implicits_spec ix tell from to : ordered from to (map tuple (ix_explicits ix)) -> ordered from to (map tuple (ix_implicits ix)) ->
  implicits_of ix tell =
  if existsb (fun s => ri_ltell s =? tell) (ix_explicits ix) then Some (filter (belongs ix tell) (ix_implicits ix)) else None.
Proof.
  intros Oe Oi. unfold implicits_of. pose proof (find_from_split (fun i => ri_ltell i =? tell) (ix_explicits ix)) as F.
  destruct (find_from _ (ix_explicits ix)) as [|curr after].
  - replace (existsb _ _) with false; [reflexivity|]. symmetry. apply not_true_is_false. intros E.
    apply existsb_exists in E as (x & X & E). rewrite (F x X) in E. discriminate.
  - destruct F as (pre & Ex & Ec & F). apply Z.eqb_eq in Ec.
    replace (existsb _ _) with true. 2: { symmetry. apply existsb_exists. exists curr. split; [rewrite Ex; apply in_elt | lia]. }
    pose proof Oe as Oe'. rewrite Ex in Oe'. destruct (ordered_split _ _ _ _ _ Oe') as (S1 & S2 & S3).
    rewrite (upper_skip _ _ _ _ Oi), Ec.
    pose proof (find_from_split (fun i => ri_type i =? 64) after) as G.
    destruct (find_from _ after) as [|next rest].
    + f_equal. apply filter_ext_on. intros i _. unfold belongs. rewrite Ex.
      replace (forallb _ _) with true; [rewrite andb_true_r; reflexivity|]. symmetry. apply forallb_forall.
      intros s Hs. apply in_app_or in Hs as [Hs|[<-|Hs]]; [specialize (S1 s Hs); lia | lia |]. rewrite (G s Hs). reflexivity.
    + destruct G as (pre' & Ea & En & G). f_equal. rewrite (upper_first (ri_ltell next) _ from to) by (apply ordered_filter; exact Oi).
      rewrite filter_filter. apply filter_ext_on. intros i _. unfold belongs. f_equal. rewrite Ex, Ea.
      rewrite Ea in S3. destruct (ordered_split _ _ _ _ _ S3) as (T1 & T2 & _).
      apply eq_true_iff_eq. rewrite forallb_forall. split.
      * intros L s Hs. apply in_app_or in Hs as [Hs|[<-|Hs]]; [specialize (S1 s Hs); lia | lia |].
        apply in_app_or in Hs as [Hs|[<-|Hs]]; [rewrite (G s Hs); reflexivity | lia |]. specialize (T2 s Hs). lia.
      * intros A. specialize (A next ltac:(apply in_or_app; right; right; apply in_elt)).
        assert (In next after) by (rewrite Ea; apply in_elt). specialize (S2 next H). lia.
Qed.
