From Verif Require Import Bytes BytesProofs DlisTypes SpecTypes Stream SpecIo IoProofs DlisRecords LisProtocol LisIo SpecLisIo LisPy LisCurves LisLoad
  SpecLisProtocol LisProtocolProofs LisProtocolProofs2 LisIoProofs LisIoProofs2 LisIoProofs3 LisIoProofs4 LisIoProofs5 SpecLisLoad LisLoadProofs3
  LisFile SpecLisFile PropLisIo PropLisProtocol.
Local Open Scope Z_scope.

(** ** Contents *)
Lemma entry_info r : entry r = info_of r. Proof. reflexivity. Qed.
Lemma read_contents d r ds i q : contents (d_offset d) (d_data d) r ds -> ri_ltell i = start_of r ->
  exists q', read_record d i q = (DOk ds, q').
Proof.
  intros (padded & e & A & G & R) L. eexists. apply (C43_read d padded (start_of r) [] (type_of r) ds e i q).
  - change (len []) with 0. rewrite Z.add_0_r. exact R.
  - exact G.
  - exact A.
  - exact L.
Qed.
Lemma contents_unique d r ds ds' : contents (d_offset d) (d_data d) r ds -> contents (d_offset d) (d_data d) r ds' -> ds = ds'.
Proof.
  intros A B. destruct (read_contents d r ds (info_of r) 0 A eq_refl) as [q E]. destruct (read_contents d r ds' (info_of r) 0 B eq_refl) as [q' E'].
  congruence.
Qed.
Lemma gap_here off pos p h : gap off pos p h -> gap off (pos + len p) [] h.
Proof.
  intros (_ & G1 & G2). split; [exists x00, 0%nat; auto|]. split; [exact G1|].
  destruct G2 as [[-> G2]|[_ G2]]; [left; auto | right]. change (len []) with 0. split; [discriminate|].
  rewrite Z.add_0_r, Z.add_assoc. exact G2.
Qed.
Lemma records_contents off data pos rs last : records_at off data pos rs last -> exists dss, Forall2 (contents off data) rs dss.
Proof.
  induction 1 as [|pos p e type ds rs last A G R V H [dss IH]]; [exists []; constructor|].
  exists (ds :: dss). constructor; [|exact IH]. exists false, e. unfold start_of, type_of. cbn [fst snd].
  apply at_pos_app in A as [_ A]. split; [exact A|]. split; [apply gap_here; exact G | exact R].
Qed.

(** ** Parsing a record *)
Lemma in_parsable t : existsb (Z.eqb t) parsable = true <-> In t parsable.
Proof.
  rewrite existsb_exists. split.
  - intros (x & I & E). apply Z.eqb_eq in E. subst. exact I.
  - intros I. exists t. split; [exact I | apply Z.eqb_refl].
Qed.
Lemma res_cases {A} (m : res A) : (m = Exn \/ exists r, m = Ok r) -> match m with Ok _ | Exn => True | _ => False end.
Proof. intros [-> |[r ->]]; exact I. Qed.

Ltac step := cbn -[parse_file_record parse_reel_tape_record parse_info_record parse_dfsr parse_text_record].
Lemma parse_exact r ds x : parse_record (entry r, ds) = Ok (Some x) <-> parsed_as r ds x.
Proof.
  unfold parse_record. cbn [ri_type entry].
  split.
  - intros H.
    destruct (Z.eqb_spec (type_of r) 64) as [T|_].
    { destruct (parse_dfsr ds) as [[es sps]| | |] eqn:E; try discriminate. injection H as <-. apply C48_exact in E. constructor; assumption. }
    repeat match type of H with (if ?t =? ?n then _ else _) = _ => destruct (Z.eqb_spec t n) as [T|_] end;
    try discriminate;
    try match type of H with context [parse_file_record ?t ?d] =>
      destruct (parse_file_record t d) as [v| | |] eqn:E; try discriminate; injection H as <-; apply (proj1 (C50_file _ _)) in E as [_ E]; constructor; assumption end;
    try match type of H with context [parse_reel_tape_record ?t ?d] =>
      destruct (parse_reel_tape_record t d) as [v| | |] eqn:E; try discriminate; injection H as <-; apply (proj1 (C50_reel_tape _ _)) in E as [_ E]; constructor; assumption end;
    try match type of H with context [parse_info_record ?d] =>
      destruct (parse_info_record d) as [v| | |] eqn:E; try discriminate; injection H as <-; apply C49_exact in E as (bs & -> & E);
      eapply pa_information; [rewrite T; cbn; tauto | reflexivity | exact E] end;
    try (rewrite C50_text in H; rewrite T in H; cbn in H; injection H as <-; rewrite <- T; constructor; rewrite T; cbn; tauto).
  - intros P. inversion P as [es sps T E|bs cs T D E|v T E|v T E|v T E|v T E|v T E|v T E|T]; subst.
    + rewrite T. step. apply C48_exact in E. rewrite E. reflexivity.
    + assert (X : parse_info_record (concat bs) = Ok cs) by (apply C49_exact; exists bs; auto).
      destruct T as [T|[T|[T|[]]]]; rewrite <- T; step; rewrite X; reflexivity.
    + rewrite T. step. rewrite (proj2 (proj1 (C50_file 128 ds) v) (conj (or_introl eq_refl) E)). reflexivity.
    + rewrite T. step. rewrite (proj2 (proj1 (C50_file 129 ds) v) (conj (or_intror eq_refl) E)). reflexivity.
    + rewrite T. step. rewrite (proj2 (proj1 (C50_reel_tape 130 ds) v)); [reflexivity|split; [cbn; tauto|exact E]].
    + rewrite T. step. rewrite (proj2 (proj1 (C50_reel_tape 131 ds) v)); [reflexivity|split; [cbn; tauto|exact E]].
    + rewrite T. step. rewrite (proj2 (proj1 (C50_reel_tape 132 ds) v)); [reflexivity|split; [cbn; tauto|exact E]].
    + rewrite T. step. rewrite (proj2 (proj1 (C50_reel_tape 133 ds) v)); [reflexivity|split; [cbn; tauto|exact E]].
    + destruct T as [T|[T|[T|[T|[]]]]]; rewrite <- T; step; rewrite C50_text; cbn; reflexivity.
Qed.
Lemma parse_none r ds : parse_record (entry r, ds) = Ok None <-> ~ In (type_of r) parsable.
Proof.
  rewrite <- in_parsable. split.
  - intros H P. unfold parse_record in H. cbn [ri_type entry] in H.
    destruct (Z.eqb_spec (type_of r) 64) as [T|N]; [destruct (parse_dfsr ds) as [[es sps]| | |]; discriminate|].
    repeat match type of H with (if ?t =? ?n then _ else _) = _ =>
      let T := fresh "T" in destruct (t =? n) eqn:T; [first [destruct (parse_file_record t ds); discriminate | destruct (parse_reel_tape_record t ds); discriminate
        | destruct (parse_info_record ds); discriminate | destruct (parse_text_record t ds); discriminate]|] end.
    apply in_parsable in P. unfold parsable in P. cbn in P. lia.
  - intros N. assert (M : existsb (Z.eqb (type_of r)) parsable = false) by (destruct (existsb (Z.eqb (type_of r)) parsable); congruence).
    unfold parse_record. cbn [ri_type entry]. unfold parsable in M. cbn [existsb] in M.
    repeat match goal with |- context [if type_of r =? ?n then _ else _] => replace (type_of r =? n) with false by (symmetry; lia) end. reflexivity.
Qed.
Lemma parse_ends r ds : match parse_record (entry r, ds) with Ok _ | Exn => True | _ => False end.
Proof.
  unfold parse_record. cbn [ri_type entry].
  repeat match goal with |- context [if type_of r =? ?n then _ else _] => destruct (type_of r =? n) end; try exact I;
  repeat match goal with
  | |- context [parse_dfsr ?d] => destruct (C48_safe d) as [-> |[[? ?] ->]]; exact I
  | |- context [parse_info_record ?d] => destruct (C49_safe d) as [-> |[? ->]]; exact I
  | |- context [parse_file_record ?t ?d] => destruct (proj1 (proj2 (C50_file t d))) as [-> |[? ->]]; exact I
  | |- context [parse_reel_tape_record ?t ?d] => destruct (proj1 (proj2 (C50_reel_tape t d))) as [-> |[? ->]]; exact I
  | |- context [parse_text_record ?t ?d] => rewrite C50_text; destruct (existsb (Z.eqb t) [224; 225; 227; 232]); exact I
  end.
Qed.

(** ** The records of a type *)
Lemma listed_explicits rs ix : listed rs ix -> ix_explicits ix = map info_of (others_of rs).
Proof.
  intros [H _]. rewrite <- H. rewrite map_map. rewrite <- (map_id (ix_explicits ix)) at 1. apply map_ext. intros [a b c]. reflexivity.
Qed.
Lemma listed_implicits rs ix : listed rs ix -> ix_implicits ix = map info_of (data_of rs).
Proof.
  intros [_ H]. rewrite <- H. rewrite map_map. rewrite <- (map_id (ix_implicits ix)) at 1. apply map_ext. intros [a b c]. reflexivity.
Qed.
Lemma others_cons r rs : others_of (r :: rs) = if datab r then others_of rs else r :: others_of rs.
Proof. unfold others_of. cbn [filter]. destruct (datab r); reflexivity. Qed.
Lemma datab_false r : datab r = false <-> ~ is_data (type_of r).
Proof. rewrite <- datab_spec. destruct (datab r); split; intros; congruence. Qed.
Lemma of_type_exists t rs : forall dss, length rs = length dss -> exists rs' dss', of_type t rs dss rs' dss'.
Proof.
  induction rs as [|r rs IH]; intros [|ds dss] L; try discriminate; [exists [], []; constructor|].
  injection L as L. destruct (IH dss L) as (rs' & dss' & H).
  destruct (Z.eq_dec (type_of r) t) as [E|N]; [|exists rs', dss'; apply ot_drop; auto].
  destruct (datab r) eqn:D; [apply datab_spec in D; rewrite E in D; exists rs', dss'; apply ot_drop; auto|].
  apply datab_false in D. rewrite E in D. exists (r :: rs'), (ds :: dss'). apply ot_take; auto.
Qed.
Lemma of_type_types t rs dss rs' dss' : of_type t rs dss rs' dss' -> Forall (fun r => type_of r = t) rs' /\ length rs' = length dss' /\
  (forall P : Z * Z * Z -> bytes -> Prop, Forall2 P rs dss -> Forall2 P rs' dss').
Proof.
  induction 1 as [|r rs ds dss rs' dss' E N H (F & L & S)|r rs ds dss rs' dss' _ H (F & L & S)].
  - repeat split; auto.
  - split; [constructor; auto|]. split; [cbn; congruence|]. intros P FP. inversion FP; subst. constructor; auto.
  - split; [exact F|]. split; [exact L|]. intros P FP. inversion FP; subst. auto.
Qed.
Lemma read_of d t rs dss rs' dss' : Forall2 (contents (d_offset d) (d_data d)) rs dss -> of_type t rs dss rs' dss' -> forall q,
  exists q', read_records_of d (map info_of (others_of rs)) t q = (DOk (combine (map info_of rs') dss'), q').
Proof.
  intros F H. induction H as [|r rs ds dss rs' dss' E N H IH|r rs ds dss rs' dss' N H IH]; intros q.
  - exists q. reflexivity.
  - inversion F as [|? ? ? ? C F']; subst. rewrite others_cons. rewrite (proj2 (datab_false r) N). cbn [map read_records_of].
    change (ri_type (info_of r)) with (type_of r). rewrite Z.eqb_refl. unfold dbind at 1.
    destruct (read_contents d r ds (info_of r) q C eq_refl) as [q1 ->]. unfold dbind. destruct (IH F' q1) as [q2 ->]. exists q2. reflexivity.
  - inversion F as [|? ? ? ? C F']; subst. rewrite others_cons. destruct (datab r) eqn:D; [apply IH; exact F'|].
    cbn [map read_records_of]. change (ri_type (info_of r)) with (type_of r). apply datab_false in D.
    destruct (Z.eqb_spec (type_of r) t) as [E|_]; [exfalso; destruct N as [N|N]; [contradiction | rewrite <- E in N; contradiction]|]. apply IH. exact F'.
Qed.
Lemma filter_of t rs dss rs' dss' : ~ is_data t -> of_type t rs dss rs' dss' ->
  filter (fun i => ri_type i =? t) (map info_of (others_of rs)) = map info_of rs'.
Proof.
  intros ND H. induction H as [|r rs ds dss rs' dss' E N H IH|r rs ds dss rs' dss' N H IH].
  - reflexivity.
  - subst t. rewrite others_cons, (proj2 (datab_false r) N). cbn [map filter]. change (ri_type (info_of r)) with (type_of r). rewrite Z.eqb_refl, IH. reflexivity.
  - rewrite others_cons. destruct (datab r) eqn:D; [exact IH|]. cbn [map filter]. change (ri_type (info_of r)) with (type_of r).
    destruct (Z.eqb_spec (type_of r) t) as [E|_]; [exfalso; destruct N; contradiction|exact IH].
Qed.

(** ** Parsing them *)
Definition says (rd : Z * Z * Z * bytes) (x : parsed) : Prop := parsed_as (fst rd) (snd rd) x.
Lemma parse_all_exact : forall rs dss xs, length rs = length dss ->
  (parse_all (combine (map info_of rs) dss) = Ok (Some xs) <-> Forall2 says (combine rs dss) xs).
Proof.
  induction rs as [|r rs IH]; intros [|ds dss] xs L; try discriminate.
  - cbn. split; [intros E; injection E as <-; constructor | intros F; inversion F; reflexivity].
  - injection L as L. cbn [map combine parse_all]. split.
    + intros H. destruct (parse_record (info_of r, ds)) as [[x|]| | |] eqn:E; try discriminate.
      destruct (parse_all (combine (map info_of rs) dss)) as [[ys|]| | |] eqn:A; try discriminate. injection H as <-.
      constructor; [apply parse_exact; exact E | apply IH; auto].
    + intros F. inversion F as [|? x ? ys P F']; subst. apply parse_exact in P. cbn [fst snd] in P. rewrite entry_info in P. rewrite P.
      apply IH in F'; [|exact L]. rewrite F'. reflexivity.
Qed.
Lemma parse_all_none t : forall rs dss, length rs = length dss -> Forall (fun r => type_of r = t) rs ->
  (parse_all (combine (map info_of rs) dss) = Ok None <-> rs <> [] /\ ~ In t parsable).
Proof.
  intros [|r rs] [|ds dss] L F; try discriminate; [cbn; split; [discriminate | intros [N _]; contradiction]|].
  inversion F as [|? ? E F']; subst. injection L as L. cbn [map combine parse_all]. split.
  - intros H. split; [discriminate|]. revert L F F' H. revert r dss ds. induction rs as [|r' rs IH]; intros r dss ds L F F' H.
    + destruct dss; [|discriminate]. cbn [map combine parse_all] in H. destruct (parse_record (info_of r, ds)) as [[x|]| | |] eqn:P; try discriminate.
      apply (parse_none r ds). exact P.
    + destruct dss as [|ds' dss]; [discriminate|]. injection L as L. inversion F' as [|? ? E F'']; subst.
      destruct (parse_record (info_of r, ds)) as [[x|]| | |] eqn:P; try discriminate.
      * cbn [map combine parse_all] in H. rewrite <- E. apply (IH r' dss ds' L).
        -- rewrite E. exact F'.
        -- rewrite E. exact F''.
        -- destruct (parse_record (info_of r', ds')) as [[y|]| | |]; try discriminate; [|reflexivity].
           destruct (parse_all (combine (map info_of rs) dss)) as [[ys|]| | |]; try discriminate. reflexivity.
      * apply (parse_none r ds). exact P.
  - intros [_ N]. apply (parse_none r ds) in N. rewrite entry_info in N. rewrite N. reflexivity.
Qed.
Lemma parse_all_ends : forall rs dss, match parse_all (combine (map info_of rs) dss) with Ok _ | Exn => True | _ => False end.
Proof.
  induction rs as [|r rs IH]; intros [|ds dss]; try exact I. cbn [map combine parse_all].
  pose proof (parse_ends r ds) as P. rewrite entry_info in P. destruct (parse_record (info_of r, ds)) as [[x|]| | |]; try exact P.
  specialize (IH dss). destruct (parse_all (combine (map info_of rs) dss)); exact IH.
Qed.
Lemma records_parsed f rs dss type q : Forall2 (contents (d_offset (lf_io f)) (d_data (lf_io f))) rs dss -> listed rs (lf_index f) ->
  forall rs' dss', of_type type rs dss rs' dss' ->
  (forall xs, parse_records f type q = Ok (Some xs) <-> Forall2 says (combine rs' dss') xs) /\
  (parse_records f type q = Ok None <-> rs' <> [] /\ ~ In type parsable) /\
  match parse_records f type q with Ok _ | Exn => True | _ => False end.
Proof.
  intros F X rs' dss' H. unfold parse_records, read_records. rewrite (listed_explicits _ _ X).
  destruct (read_of _ _ _ _ _ _ F H q) as [q' ->]. cbn [read_result].
  destruct (of_type_types _ _ _ _ _ H) as (T & L & _).
  split; [intros xs; apply parse_all_exact; exact L|]. split; [apply parse_all_none; assumption | apply parse_all_ends].
Qed.
Lemma only_exact type level f rs dss q : ~ is_data type -> In type parsable ->
  Forall2 (contents (d_offset (lf_io f)) (d_data (lf_io f))) rs dss -> listed rs (lf_index f) ->
  forall rs' dss', of_type type rs dss rs' dss' ->
  match rs', dss' with
  | [], _ => only_record type level f q = ([level], Ok None)
  | [r], [ds] => (forall x, only_record type level f q = ([], Ok (Some x)) <-> parsed_as r ds x) /\
                 ((forall x, ~ parsed_as r ds x) -> only_record type level f q = ([], Exn))
  | _, _ => only_record type level f q = ([], Exn)
  end.
Proof.
  intros ND PT F X rs' dss' H. destruct (of_type_types _ _ _ _ _ H) as (T & L & S). pose proof (S _ F) as F'.
  unfold only_record. rewrite (listed_explicits _ _ X), (filter_of _ _ _ _ _ ND H).
  destruct rs' as [|r [|r2 rs']]; [reflexivity | | destruct dss' as [|? [|? ?]]; reflexivity || discriminate].
  destruct dss' as [|ds [|ds2 dss']]; try discriminate. cbn [map].
  inversion F' as [|? ? ? ? C _]; subst. destruct (read_contents (lf_io f) r ds (info_of r) q C eq_refl) as [q' ->]. cbn [read_result].
  change (let! data := Ok ds in returned (parse_record (info_of r, data))) with (returned (parse_record (info_of r, ds))).
  assert (PT' : In (type_of r) parsable) by (inversion T; subst; assumption). clear S F' T H.
  pose proof (parse_ends r ds) as PE. pose proof (parse_none r ds) as PN. change (entry r) with (info_of r) in *.
  split.
  - intros x. rewrite <- (parse_exact r ds x). change (entry r) with (info_of r). split.
    + intros E. apply (f_equal snd) in E. cbn [snd] in E. destruct (parse_record (info_of r, ds)) as [[y|]| | |]; [exact E | discriminate..].
    + intros ->. reflexivity.
  - intros N. destruct (parse_record (info_of r, ds)) as [[y|]| | |] eqn:E; cbn; try reflexivity; try contradiction.
    exfalso. apply (N y). apply parse_exact. exact E.
Qed.
