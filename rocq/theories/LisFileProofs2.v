From Verif Require Import Bytes BytesProofs DlisTypes SpecTypes Stream SpecIo IoProofs DlisRecords DlisFdata LisProtocol LisIo SpecLisIo LisPy LisCurves LisLoad
  SpecLisProtocol LisIoProofs LisIoProofs2 LisIoProofs3 LisIoProofs4 LisIoProofs5 SpecLisLoad LisLoadProofs3
  LisFile SpecLisFile LisFileProofs SpecLisCurves PropLisCurves.
Local Open Scope Z_scope.

(** ** Plain files *)
Lemma tail_from_eq data o dd : tail_at data o dd -> 0 <= o /\ dd = from o data.
Proof.
  intros (pre & -> & L). pose proof (len_nonneg pre). split; [lia|]. unfold from. unfold len in L. rewrite <- L, Nat2Z.id, skipn_app, Nat.sub_diag, skipn_all. reflexivity.
Qed.
Lemma contents_back o data dd r ds : tail_at data o dd -> o <= start_of r -> contents 0 data r ds -> contents o dd (back o r) ds.
Proof.
  intros T L (padded & e & A & G & R). destruct (tail_from_eq _ _ _ T) as [Ho ->]. exists padded, e.
  unfold back, start_of, type_of in *. cbn [fst snd]. split; [apply from_at; assumption|]. split; [apply gap_shift; exact G | apply lis_record_shift; exact R].
Qed.
Lemma contents_all_back o data dd rs dss : tail_at data o dd -> (forall r, In r rs -> o <= start_of r) -> Forall2 (contents 0 data) rs dss ->
  Forall2 (contents o dd) (map (back o) rs) dss.
Proof.
  intros T L F. induction F as [|r ds rs dss C F IH]; [constructor|]. cbn [map]. constructor.
  - apply (contents_back o data); [exact T | apply L; left; reflexivity | exact C].
  - apply IH. intros x X. apply L. right. exact X.
Qed.
Lemma of_type_back o t rs dss rs' dss' : of_type t rs dss rs' dss' -> of_type t (map (back o) rs) dss (map (back o) rs') dss'.
Proof. induction 1; cbn [map]; [constructor | apply ot_take | apply ot_drop]; assumption. Qed.

(** *** the records of a logical file *)
Definition whole (rs : list (Z * Z * Z)) : Prop :=
  inside (map type_of rs) \/ exists a c, rs = a ++ [c] /\ inside (map type_of a) /\ is_closing (type_of c).
Lemma layout_file data b pos secs : SpecLisLoad.layout data b pos secs -> 0 <= pos -> forall rs, In (File rs) secs ->
  whole rs /\ exists p last, 0 <= p /\ records_at 0 data p rs last.
Proof.
  assert (E : forall pos rs last, records_at 0 data pos rs last -> 0 <= pos -> 0 <= last).
  { intros q rs last R H. exact (records_last 0 data q rs last R H). }
  assert (D : forall pos type ds last, record_at data pos type ds last -> 0 <= pos -> 0 <= last).
  { intros q type ds last (p & e & _ & _ & _ & ->) H. pose proof (len_nonneg p). pose proof (len_nonneg e). lia. }
  induction 1 as [|b pos type ds last secs R _ _ Y IH|b pos ds last secs R _ Y IH|b pos rs c last secs R I C _ _ Y IH|b pos rs last secs R I _ _ Y IH
    |pos rs last p R I _ _ _| |pos rs last R I _ _]; intros Hp rs0 X.
  - destruct X.
  - destruct X as [X|X]; [discriminate|]. apply IH; [eapply D; eassumption | exact X].
  - apply IH; [eapply D; eassumption | exact X].
  - destruct X as [X|X]; [|apply IH; [eapply E; eassumption | exact X]]. injection X as <-. split; [right; exists rs, c; auto | eauto].
  - destruct X as [X|X]; [|apply IH; [eapply E; eassumption | exact X]]. injection X as <-. split; [left; exact I | eauto].
  - destruct X as [X|[]]. injection X as <-. split; [left; exact I | eauto].
  - destruct X.
  - destruct X as [X|[]]. injection X as <-. split; [left; exact I | eauto].
Qed.

(** *** once *)
Lemma of_type_filter t rs dss rs' dss' : ~ is_data t -> of_type t rs dss rs' dss' -> rs' = filter (fun r => type_of r =? t) rs.
Proof.
  intros N. induction 1 as [|r rs ds dss rs' dss' E _ H IH|r rs ds dss rs' dss' E H IH]; [reflexivity| |]; cbn [filter].
  - rewrite E, Z.eqb_refl. congruence.
  - destruct (Z.eqb_spec (type_of r) t); [exfalso; destruct E; contradiction | exact IH].
Qed.
Lemma inside_none t rs : is_closing t \/ is_delimiter t -> inside (map type_of rs) -> filter (fun r => type_of r =? t) rs = [].
Proof.
  intros C [I _]. induction rs as [|r rs IH]; [reflexivity|]. cbn [filter]. cbn [map] in I.
  destruct (Z.eqb_spec (type_of r) t) as [E|_]; [|apply IH; intros x X; apply I; right; exact X].
  exfalso. destruct (I (type_of r) (or_introl eq_refl)) as [A B]. rewrite E in *. destruct C; contradiction.
Qed.
Lemma inside_one rs : inside (map type_of rs) -> (length (filter (fun r => (type_of r =? 128)%Z) rs) <= 1)%nat.
Proof.
  intros [_ I]. destruct (filter (fun r => type_of r =? 128) rs) as [|x [|y l]] eqn:F; cbn [length]; try lia. exfalso.
  assert (exists a b c, rs = a ++ x :: b ++ y :: c) as (a & b & c & ->).
  { revert F. clear I. induction rs as [|r rs IH]; intros F; [discriminate|]. cbn [filter] in F. destruct (type_of r =? 128).
    - injection F as -> F. assert (In y rs) as Y.
      { assert (In y (filter (fun r => type_of r =? 128) rs)) by (rewrite F; left; reflexivity). apply filter_In in H. tauto. }
      apply in_split in Y as (b & c & ->). exists [], b, c. reflexivity.
    - destruct (IH F) as (a & b & c & ->). exists (r :: a), b, c. reflexivity. }
  assert (X : type_of x = 128 /\ type_of y = 128).
  { assert (In x (filter (fun r => type_of r =? 128) (a ++ x :: b ++ y :: c)) /\ In y (filter (fun r => type_of r =? 128) (a ++ x :: b ++ y :: c))) as [H1 H2]
      by (rewrite F; cbn; auto). apply filter_In in H1, H2. lia. }
  specialize (I (map type_of (a ++ x :: b)) (type_of y) (map type_of c)).
  assert (D : is_data (type_of x)).
  { apply I; [rewrite !map_app; cbn [map]; rewrite map_app, <- app_assoc; reflexivity | exact (proj2 X) | rewrite map_app; apply in_or_app; right; left; reflexivity]. }
  rewrite (proj1 X) in D. destruct D as [D|[D|[]]]; discriminate.
Qed.
Lemma whole_once rs dss t rs' dss' : whole rs -> In t [128; 129] -> of_type t rs dss rs' dss' -> (length rs' <= 1)%nat.
Proof.
  intros W T O. assert (N : ~ is_data t) by (destruct T as [<-|[<-|[]]]; intros [D|[D|[]]]; discriminate).
  rewrite (of_type_filter _ _ _ _ _ N O). destruct T as [<-|[<-|[]]].
  - destruct W as [I|(a & c & -> & I & C)]; [apply inside_one; exact I|]. rewrite filter_app. cbn [filter].
    destruct (Z.eqb_spec (type_of c) 128) as [E|_]; [rewrite E in C; destruct C as [C|[C|[]]]; discriminate|]. rewrite app_nil_r. apply inside_one. exact I.
  - assert (C9 : is_closing 129 \/ is_delimiter 129) by (left; left; reflexivity).
    destruct W as [I|(a & c & -> & I & C)]; [rewrite (inside_none 129 rs C9 I); cbn; lia|]. rewrite filter_app, (inside_none 129 a C9 I).
    cbn [filter app]. destruct (type_of c =? 129); cbn; lia.
Qed.

(** ** Data records of a format specification *)
Lemma ordered_app from to a b : ordered from to (a ++ b) -> exists mid, from <= to -> from <= mid /\ mid <= to /\ ordered from mid a /\ ordered mid to b.
Proof.
  revert from. induction a as [|r a IH]; intros from O; [exists from; intros L; split; [lia|]; split; [exact L|]; split; [exact I | exact O]|].
  cbn [app ordered] in O. destruct O as (O1 & O2 & O3). destruct (IH _ O3) as (mid & H). exists mid. intros L. destruct (H ltac:(lia)) as (H1 & H2 & H3 & H4).
  split; [lia|]. split; [lia|]. split; [|exact H4]. cbn [ordered]. split; [lia|]. split; [|exact H3]. lia.
Qed.
Lemma ordered_bounds from to l : ordered from to l -> forall r, In r l -> from <= start_of r < to.
Proof.
  revert from. induction l as [|x l IH]; intros from O r X; [destruct X|]. cbn [ordered] in O. destruct O as (O1 & O2 & O3).
  destruct X as [<-|X]; [lia|]. specialize (IH _ O3 r X). lia.
Qed.
Lemma ordered_sub f from to l : ordered from to l -> ordered from to (filter f l).
Proof.
  revert from. induction l as [|r l IH]; intros from O; [exact I|]. cbn [ordered] in O. destruct O as (O1 & O2 & O3). cbn [filter].
  destruct (f r); [cbn [ordered]; split; [lia|]; split; [lia|]; apply IH; exact O3|].
  apply (ordered_mono (stop_of r) to); [apply IH; exact O3 | lia | lia].
Qed.
Lemma records_ordered off data pos rs last : records_at off data pos rs last -> 0 <= pos -> pos <= last /\ ordered pos last rs.
Proof.
  induction 1 as [pos|pos p e type ds rs last A G R V T IH]; intros Hp; [split; [lia | exact I]|].
  destruct R as (t & x & _ & P). apply pieces_length in P. pose proof (len_nonneg p). destruct IH as [I1 I2]; [lia|]. split; [lia|].
  cbn [ordered]. unfold start_of, stop_of. cbn [fst snd]. split; [lia|]. split; [lia|]. exact I2.
Qed.
Lemma map_tuple_info l : map tuple (map info_of l) = l.
Proof. rewrite map_map. rewrite <- (map_id l) at 2. apply map_ext. intros [[a b] c]. reflexivity. Qed.
Lemma filter_none {A} (f : A -> bool) l : (forall x, In x l -> f x = false) -> filter f l = [].
Proof. induction l as [|x l IH]; intros H; [reflexivity|]. cbn [filter]. rewrite (H x (or_introl eq_refl)). apply IH. intros y Y. apply H. right. exact Y. Qed.
Lemma part_heads rs a r b ix from to : part rs a r b -> listed rs ix -> from <= to -> ordered from to rs ->
  implicits_of ix (start_of r) = Some (map info_of (data_of b)).
Proof.
  intros [rest -> T64 Nb Hr] L FT O.
  rewrite (implicits_spec ix (start_of r) from to).
  2: { rewrite (listed_explicits _ _ L), map_tuple_info. apply ordered_sub. exact O. }
  2: { rewrite (listed_implicits _ _ L), map_tuple_info. apply ordered_sub. exact O. }
  destruct (ordered_app _ _ _ _ O) as (m1 & X). destruct (X FT) as (F1 & F2 & Oa & O1). cbn [ordered] in O1. destruct O1 as (S1 & S2 & O2).
  destruct (ordered_app _ _ _ _ O2) as (m2 & X2). destruct (X2 ltac:(lia)) as (F3 & F4 & Ob & Or).
  pose proof (ordered_bounds _ _ _ Oa) as Ba. pose proof (ordered_bounds _ _ _ Ob) as Bb. pose proof (ordered_bounds _ _ _ Or) as Br.
  assert (Dr : datab r = false) by (apply datab_false; rewrite T64; intros [D|[D|[]]]; discriminate).
  assert (Ex : forall s, In s (ix_explicits ix) -> exists y, s = info_of y /\ In y (a ++ r :: b ++ rest)).
  { intros s Hs. rewrite (listed_explicits _ _ L) in Hs. apply in_map_iff in Hs as (y & <- & Y). apply filter_In in Y as [Y _]. eauto. }
  assert (Ex' : forall y, In y (a ++ r :: b ++ rest) -> datab y = false -> In (info_of y) (ix_explicits ix)).
  { intros y Y D. rewrite (listed_explicits _ _ L). apply in_map. apply filter_In. split; [exact Y | rewrite D; reflexivity]. }
  replace (existsb (fun s => ri_ltell s =? start_of r) (ix_explicits ix)) with true.
  2: { symmetry. apply existsb_exists. exists (info_of r). split; [|apply Z.eqb_refl]. apply Ex'; [apply in_elt | exact Dr]. }
  f_equal. rewrite (listed_implicits _ _ L). unfold data_of. rewrite filter_app. cbn [filter]. rewrite Dr. rewrite filter_app, !map_app, !filter_app.
  match goal with |- ?x ++ ?y ++ ?z = ?w => assert (E1 : x = []); [|assert (E2 : y = w); [|assert (E3 : z = [])]] end.
  - apply filter_none. intros i Hi. apply in_map_iff in Hi as (y & <- & Y). apply filter_In in Y as [Y _]. specialize (Ba y Y). unfold LisIoProofs5.belongs.
    change (ri_ltell (info_of y)) with (start_of y). replace (start_of r <? start_of y) with false by lia. reflexivity.
  - apply filter_all. intros i Hi. apply in_map_iff in Hi as (y & <- & Y). apply filter_In in Y as [Y _]. pose proof (Bb y Y) as By. unfold LisIoProofs5.belongs.
    change (ri_ltell (info_of y)) with (start_of y). replace (start_of r <? start_of y) with true by lia. cbn [andb].
    apply forallb_forall. intros s Hs. destruct (Ex s Hs) as (z & -> & Z0). change (ri_ltell (info_of z)) with (start_of z). change (ri_type (info_of z)) with (type_of z).
    apply in_app_or in Z0 as [Z0|[<-|Z0]]; [specialize (Ba z Z0); lia | lia |]. apply in_app_or in Z0 as [Z0|Z0]; [specialize (Nb z Z0); lia | specialize (Br z Z0); lia].
  - apply filter_none. intros i Hi. apply in_map_iff in Hi as (y & <- & Y). apply filter_In in Y as [Y Dy].
    destruct Hr as [-> |(n & t & -> & Tn)]; [destruct Y|]. unfold LisIoProofs5.belongs.
    apply andb_false_intro2. apply not_true_is_false. intros A. rewrite forallb_forall in A.
    assert (Dn : datab n = false) by (apply datab_false; rewrite Tn; intros [D|[D|[]]]; discriminate).
    specialize (A (info_of n) (Ex' n ltac:(apply in_or_app; right; right; apply in_or_app; right; left; reflexivity) Dn)).
    change (ri_ltell (info_of n)) with (start_of n) in A. change (ri_type (info_of n)) with (type_of n) in A. change (ri_ltell (info_of y)) with (start_of y) in A.
    cbn [ordered] in Or. destruct Or as (R1 & R2 & R3). destruct Y as [<-|Y]; [congruence|]. pose proof (ordered_bounds _ _ _ R3 y Y). lia.
  - rewrite E1, E2, E3, app_nil_r. reflexivity.
Qed.
Lemma heads_read d b db datas : Forall2 (contents (d_offset d) (d_data d)) b db -> data_contents b db datas ->
  Forall2 (fun h data => fst (read_record d h 0) = DOk data) (map info_of (data_of b)) datas.
Proof.
  intros F D. induction D as [|r rs ds dss datas T D IH|r rs ds dss datas T D IH].
  - constructor.
  - inversion F as [|? ? ? ? C F']; subst. unfold data_of. cbn [filter]. rewrite (proj2 (datab_spec r) T). cbn [map]. constructor; [|apply IH; exact F'].
    destruct (read_contents d r ds (info_of r) 0 C eq_refl) as [q ->]. reflexivity.
  - inversion F as [|? ? ? ? C F']; subst. unfold data_of. cbn [filter]. rewrite (proj2 (datab_false r) T). apply IH. exact F'.
Qed.
Lemma reads_unique d heads datas datas' : Forall2 (fun h data => fst (read_record d h 0) = DOk data) heads datas ->
  Forall2 (fun h data => fst (read_record d h 0) = DOk data) heads datas' -> datas = datas'.
Proof.
  intros A. revert datas'. induction A as [|h x heads datas E A IH]; intros l B; inversion B as [|? y ? l' E' B']; subst; [reflexivity|].
  f_equal; [congruence | apply IH; exact B'].
Qed.
(** the [n]th format specification *)
Lemma combine_app {A B} (a a' : list A) (b b' : list B) : length a = length b -> combine (a ++ a') (b ++ b') = combine a b ++ combine a' b'.
Proof. revert b. induction a as [|x a IH]; intros [|y b] L; try discriminate; [reflexivity|]. cbn. rewrite IH by (injection L; auto). reflexivity. Qed.
Lemma of_type_split t a r b : forall dss rs' dss', type_of r = t -> ~ is_data t -> of_type t (a ++ r :: b) dss rs' dss' ->
  nth_error dss' (length (filter (fun x => type_of x =? t) a)) = nth_error dss (length a) /\
  nth_error rs' (length (filter (fun x => type_of x =? t) a)) = Some r.
Proof.
  induction a as [|x a IH]; intros dss rs' dss' E N O; cbn [app filter length] in *.
  - inversion O as [|? ? ? ? ? ? E' _ O'|? ? ? ? ? ? E' O']; subst; [split; reflexivity | exfalso; destruct E'; contradiction].
  - inversion O as [|? ? ? ? ? ? E' _ O'|? ? ? ? ? ? E' O']; subst.
    + rewrite (proj2 (Z.eqb_eq _ _) E'). cbn [length nth_error]. apply IH; auto.
    + destruct (Z.eqb_spec (type_of x) (type_of r)) as [X|_]; [exfalso; destruct E'; contradiction|]. cbn [nth_error]. apply IH; auto.
Qed.
Lemma Forall2_nth_error {A B} (P : A -> B -> Prop) l l' n x : Forall2 P l l' -> nth_error l n = Some x -> exists y, nth_error l' n = Some y /\ P x y.
Proof.
  intros F. revert n. induction F as [|a b l l' H F IH]; intros [|n] E; try discriminate; [injection E as <-; exists b; auto | apply IH; exact E].
Qed.
Lemma nth_combine {A B} (l : list A) (l' : list B) n x y : nth_error l n = Some x -> nth_error l' n = Some y -> nth_error (combine l l') n = Some (x, y).
Proof.
  revert l' n. induction l as [|a l IH]; intros [|b l'] [|n] E E'; try discriminate; [injection E as <-; injection E' as <-; reflexivity | apply IH; assumption].
Qed.
Lemma says_iff l xs : Forall2 says l xs <-> Forall2 (fun '(r, ds) x => parsed_as r ds x) l xs.
Proof. split; induction 1 as [|[r ds] x l xs H _ IH]; constructor; assumption. Qed.

(** *** Files behind any protocol *)
Lemma records_front off data c : forall rs pos last, records_at off data pos (rs ++ [c]) last -> exists last', records_at off data pos rs last'.
Proof.
  induction rs as [|r rs IH]; intros pos last H; cbn [app] in H; [exists pos; constructor|].
  inversion H; subst. edestruct IH as [l L]; [eassumption|]. exists l. econstructor; eassumption.
Qed.
Lemma course_file opens stopped b o secs : course opens stopped b o secs -> forall d rs, In (DFile d rs) secs ->
  whole rs /\ exists last, records_at (d_offset d) (d_data d) 0 rs last.
Proof.
  induction 1 as [| | | |b o d rs c last q secs O R I C _ _ _ IH|b o d rs c last secs O R I _ _ _ IH|b o d rs last p secs O R I _ _ _ _ _ IH| |o d rs last O R I _ _];
    intros d0 rs0 X; try (apply IHcourse; exact X); try (destruct X as [X|X]; [discriminate | apply IHcourse; exact X]); try (destruct X; fail).
  - destruct X as [X|X]; [|apply IH; exact X]. injection X as <- <-. split; [right; exists rs, c; auto | eauto].
  - destruct X as [X|X]; [|apply IH; exact X]. injection X as <- <-. split; [left; exact I|]. eapply records_front; exact R.
  - destruct X as [X|X]; [|apply IH; exact X]. injection X as <- <-. split; [left; exact I | eauto].
  - destruct X as [X|[]]. injection X as <- <-. split; [left; exact I | eauto].
Qed.
