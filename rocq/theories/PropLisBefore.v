(** C89: what is in front of damage in a LIS file can be used. *)
From Verif Require Import Bytes BytesProofs DlisTypes SpecTypes SpecCore Stream SpecIo IoProofs DlisRecords LisTypes LisProtocol LisIo SpecLisIo LisPy LisInfo LisCurves LisLoad
  SpecLisProtocol LisIoProofs4 LisIoProofs5 SpecLisLoad LisLoadProofs5 LisFile SpecLisFile LisFileProofs LisFileProofs2 LisSameProofs SpecLisPy SpecLisCurves CommonPy LisTable SpecLisTable LisTableProofs SpecLisAny LisAnyProofs
  PropLisIo PropLisProtocol PropLisCurves PropLisLoad PropLisFile PropLisTable PropLisAny.
Local Open Scope Z_scope.

(** What can be done with the records [rs] of the file [data], as C72, C73 and C88 say for
    files without damage: the records of each type, the header and the trailer, the
    tables, and the curves.  Positions are relative to where the logical file was
    opened. *)
Definition records_used (data : bytes) (rs : list (Z * Z * Z)) (f : LisLoad.logical_file) : Prop :=
  exists dss, Forall2 (contents 0 data) rs dss /\
    forall type rs' dss', of_type type rs dss rs' dss' ->
    (forall q xs, parse_records f type q = Ok (Some xs) <-> Forall2 (fun '(r, ds) x => parsed_as r ds x) (combine (map (back (d_offset (lf_io f))) rs') dss') xs) /\
    (forall q, type = 128 -> match rs', dss' with
       | [r], [ds] => forall x, header f q = ([], Ok (Some x)) <-> parsed_as r ds x
       | _, _ => header f q = ([Warning], Ok None)
       end) /\
    (forall q, type = 129 -> match rs', dss' with
       | [r], [ds] => forall x, trailer f q = ([], Ok (Some x)) <-> parsed_as r ds x
       | _, _ => trailer f q = ([Info], Ok None)
       end) /\
    (forall dec method q, In (method, type) information_methods -> Forall (fun ds => exists cs, of_components ds cs) dss' -> tables_read dec (method f q) dss').
Definition curves_used (data : bytes) (rs : list (Z * Z * Z)) (f : LisLoad.logical_file) : Prop :=
  forall a r b ds db datas, part rs a r b -> contents 0 data r ds -> Forall2 (contents 0 data) b db -> data_contents b db datas ->
  forall q xs, data_format_specs f q = Ok (Some xs) ->
  exists x info es sps, nth_error xs (formats a) = Some x /\ x = Format info (mk_dfsr es sps) /\ dfsr_bytes ds es sps /\
  forall dec mem asked strict l rate cols rows lasti,
  layout_of (mk_dfsr es sps) l -> usable l -> rate_used l asked rate -> 1 <= rate <= 255 -> dtype_of dec rate l strict cols ->
  data_records rate l None datas rows lasti ->
  file_curves dec mem f x asked strict = Ok (cols, concat rows, Z.of_nat (length rows)).

Lemma loaded_used data secs st before rs after p last : loaded data secs st -> secs = before ++ File rs :: after ->
  whole rs -> 0 <= p -> records_at 0 data p rs last ->
  exists f, nth_error (fi_files st) (count_files before) = Some f /\ records_used data rs f /\ curves_used data rs f.
Proof.
  intros [_ D2] S W Hp R. destruct (D2 before rs after S) as (f & o & F1 & F2 & F3 & F4 & F5 & _). exists f. split; [exact F1|].
  destruct (records_contents _ _ _ _ _ R) as [dss C].
  assert (C' : Forall2 (contents (d_offset (lf_io f)) (d_data (lf_io f))) (map (back o) rs) dss).
  { rewrite F2. apply (contents_all_back o data); assumption. }
  split.
  - exists dss. split; [exact C|]. rewrite F2.
    assert (P : forall r ds x, type_of r = 128 \/ type_of r = 129 -> parsed_as (back o r) ds x <-> parsed_as r ds x).
    { intros r ds x T. split; intros H; inversion H; subst x; change (type_of (back o r)) with (type_of r) in *; try (constructor; assumption); exfalso; cbn in *; lia. }
    intros type rs' dss' O. pose proof (of_type_back o _ _ _ _ _ O) as O'. destruct (of_type_types _ _ _ _ _ O) as (Ty & Len & _).
    assert (A : forall q xs, parse_records f type q = Ok (Some xs) <-> Forall2 (fun '(r, ds) x => parsed_as r ds x) (combine (map (back o) rs') dss') xs).
    { intros q. exact (proj1 (C72_records f _ _ type q C' F5 _ _ O')). }
    split; [exact A|]. split; [|split].
    + intros q ->. pose proof (whole_once rs dss 128 rs' dss' W ltac:(cbn; tauto) O) as Once.
      pose proof (C72_header header 128 Warning ltac:(cbn; tauto) f _ dss q C' F5 _ _ O') as H.
      destruct rs' as [|r [|r2 rs']]; [exact H | | cbn in Once; lia]. destruct dss' as [|ds [|? ?]]; try discriminate. cbn [map] in H.
      intros x. rewrite <- (P r ds x) by (left; inversion Ty; assumption). apply H.
    + intros q ->. pose proof (whole_once rs dss 129 rs' dss' W ltac:(cbn; tauto) O) as Once.
      pose proof (C72_header trailer 129 Info ltac:(cbn; tauto) f _ dss q C' F5 _ _ O') as H.
      destruct rs' as [|r [|r2 rs']]; [exact H | | cbn in Once; lia]. destruct dss' as [|ds [|? ?]]; try discriminate. cbn [map] in H.
      intros x. rewrite <- (P r ds x) by (right; inversion Ty; assumption). apply H.
    + intros dec method q M FC.
      assert (G : In type [32; 34; 39] /\ method f q = parse_records f type q) by (destruct M as [M|[M|[M|[]]]]; injection M as <- <-; (split; [cbn; tauto|reflexivity])).
      destruct G as [T ->]. apply (reads_tables dec type (map (back o) rs') dss'); try assumption; [apply Forall_map; exact Ty|rewrite map_length; exact Len|apply A].
  - intros a r b ds db datas P Cr Fb Dc q xs H.
    assert (P' : part (map (back o) rs) (map (back o) a) (back o r) (map (back o) b)).
    { destruct P as [rest -> T Nb Hr]. apply part_of with (rest := map (back o) rest).
      - rewrite map_app. cbn [map]. rewrite map_app. reflexivity.
      - exact T.
      - intros x X. apply in_map_iff in X as (y & <- & X). apply (Nb y X).
      - destruct Hr as [-> |(n & t & -> & Tn)]; [left; reflexivity | right; exists (back o n), (map (back o) t); split; [reflexivity | exact Tn]]. }
    assert (Inr : In r rs /\ incl b rs).
    { destruct P as [rest -> _ _ _]. split; [apply in_elt|]. intros x X. apply in_or_app. right. right. apply in_or_app. left. exact X. }
    assert (Cr' : contents (d_offset (lf_io f)) (d_data (lf_io f)) (back o r) ds).
    { rewrite F2. apply (contents_back o data); [exact F3 | apply F4; exact (proj1 Inr) | exact Cr]. }
    destruct (C73_listed f _ dss _ _ _ ds q xs C' F5 P' Cr' H) as (es & sps & X1 & X2).
    assert (Ef : formats (map (back o) a) = formats a).
    { unfold formats. clear. induction a as [|x a IH]; [reflexivity|]. cbn [map filter]. change (type_of (back o x)) with (type_of x).
      destruct (type_of x =? 64); cbn [length]; rewrite IH; reflexivity. }
    rewrite Ef in X1. eexists _, _, es, sps. split; [exact X1|]. split; [reflexivity|]. split; [exact X2|].
    intros dec mem asked strict l rate cols rows lasti LO U RU RR DT DR.
    destruct (records_ordered _ _ _ _ _ R Hp) as [FT O]. cbn [file_curves]. change (ri_ltell (entry (back o r))) with (start_of (back o r)).
    assert (O' : ordered (p - o) (last - o) (map (back o) rs)).
    { clear -O. revert p O. induction rs as [|x rs IH]; intros p O; [exact I|]. cbn [map ordered] in *. destruct O as (O1 & O2 & O3).
      unfold back, start_of, stop_of in *. cbn [fst snd]. split; [lia|]. split; [lia|]. replace (snd x - o + snd (fst x)) with (snd x + snd (fst x) - o) by lia. apply IH. exact O3. }
    eapply C53_rows; try eassumption.
    + apply (part_heads _ _ _ _ _ (p - o) (last - o) P' F5); [lia | exact O'].
    + apply (heads_read (lf_io f) (map (back o) b) db); [rewrite F2; apply (contents_all_back o data); [exact F3 | intros y Yb; apply F4; apply (proj2 Inr); exact Yb | exact Fb]|].
      clear -Dc. induction Dc; cbn [map]; [constructor | apply dc_take | apply dc_drop]; assumption.
Qed.

Lemma so_far_file data pos secs rest : so_far data pos secs rest -> 0 <= pos -> forall rs, In (File rs) secs ->
  whole rs /\ exists p last, 0 <= p /\ records_at 0 data p rs last.
Proof.
  assert (E : forall pos rs last, records_at 0 data pos rs last -> 0 <= pos -> 0 <= last).
  { intros q rs last R H. exact (records_last 0 data q rs last R H). }
  assert (D : forall pos type ds last, record_at data pos type ds last -> 0 <= pos -> 0 <= last).
  { intros q type ds last (p & e & _ & _ & _ & ->) H. pose proof (len_nonneg p). pose proof (len_nonneg e). lia. }
  induction 1 as [|pos type ds last secs part R _ Y IH|pos ds last secs part R Y IH|pos rs c last secs part R I C _ Y IH|pos rs last secs part R I _ _ Y IH]; intros Hp rs0 X.
  - destruct X.
  - destruct X as [X|X]; [discriminate|]. apply IH; [eapply D; eassumption | exact X].
  - apply IH; [eapply D; eassumption | exact X].
  - destruct X as [X|X]; [|apply IH; [eapply E; eassumption | exact X]]. injection X as <-. split; [right; exists rs, c; auto | eauto].
  - destruct X as [X|X]; [|apply IH; [eapply E; eassumption | exact X]]. injection X as <-. split; [left; exact I | eauto].
Qed.

(** ** C89 *)

(** *** The logical files before any damage: whatever follows them, they can be used as
    in a file without damage, if load returns *)
Theorem C89_before : forall esc open_tif tif_stopped fuel data secs rest,
  12 <= len data -> (forall type, ~ starts_with_mark data type) -> so_far data 0 secs rest -> (length data + 2 <= fuel)%nat ->
  (exists log st, load esc open_tif tif_stopped fuel data = (log, Ok st) /\ (log = [] \/ log = [CRITICAL] /\ esc CRITICAL = false) /\
     forall before rs after, secs = before ++ File rs :: after ->
     exists f, nth_error (fi_files st) (count_files before) = Some f /\ records_used data rs f /\ curves_used data rs f) \/
  (load esc open_tif tif_stopped fuel data = ([CRITICAL], Exn) /\ esc CRITICAL = true).
Proof.
  intros esc ot ts fuel data secs rest L N S F. destruct (C83_prefix esc ot ts fuel data secs rest L N S F) as [(log & st & later & E & LG & LD & _)|H]; [left|right; exact H].
  exists log, st. split; [exact E|]. split; [exact LG|]. intros before rs after EQ.
  destruct (so_far_file data 0 secs rest S ltac:(lia) rs) as [W (p & last & Hp & R)]; [rewrite EQ; apply in_elt|].
  apply (loaded_used data (secs ++ later) st before rs (after ++ later) p last); try assumption. rewrite EQ, <- app_assoc. reflexivity.
Qed.
Print Assumptions C89_before.

(** *** and if a record does not fit into the file, is of no known type or is no first
    part of a record, then the records before it in its own logical file as well *)
Theorem C89_damaged : forall esc open_tif tif_stopped data secs,
  12 <= len data -> (forall type, ~ starts_with_mark data type) -> SpecLisLoad.layout data false 0 secs ->
  exists st, load esc open_tif tif_stopped (length data + 2) data = ([CRITICAL], if esc CRITICAL then Exn else Ok st) /\ length (fi_files st) = count_files secs /\
    forall before rs after, secs = before ++ File rs :: after ->
    exists f, nth_error (fi_files st) (count_files before) = Some f /\ records_used data rs f /\ curves_used data rs f.
Proof.
  intros esc ot ts data secs L N Y. destruct (C61_lis_continues esc ot ts data secs L N Y) as (st & D & E). exists st. split; [exact E|]. split; [exact (proj1 D)|].
  intros before rs after EQ. destruct (layout_file data false 0 secs Y ltac:(lia) rs) as [W (p & last & Hp & R)]; [rewrite EQ; apply in_elt|].
  apply (loaded_used data secs st before rs after p last); assumption.
Qed.
Print Assumptions C89_damaged.

(** *** and the same through any sequence of devices, such as a tape image *)
Definition records_used_in (d : device) (rs : list (Z * Z * Z)) (f : LisLoad.logical_file) : Prop :=
  exists dss, Forall2 (contents (d_offset d) (d_data d)) rs dss /\
    forall type rs' dss', of_type type rs dss rs' dss' ->
    (forall q xs, parse_records f type q = Ok (Some xs) <-> Forall2 (fun '(r, ds) x => parsed_as r ds x) (combine rs' dss') xs) /\
    (forall q, type = 128 -> match rs', dss' with
       | [r], [ds] => forall x, header f q = ([], Ok (Some x)) <-> parsed_as r ds x
       | _, _ => header f q = ([Warning], Ok None)
       end) /\
    (forall q, type = 129 -> match rs', dss' with
       | [r], [ds] => forall x, trailer f q = ([], Ok (Some x)) <-> parsed_as r ds x
       | _, _ => trailer f q = ([Info], Ok None)
       end) /\
    (forall dec method q, In (method, type) information_methods -> Forall (fun ds => exists cs, of_components ds cs) dss' -> tables_read dec (method f q) dss').
Definition curves_used_in (d : device) (rs : list (Z * Z * Z)) (f : LisLoad.logical_file) : Prop :=
  forall a r b ds db datas, part rs a r b -> contents (d_offset d) (d_data d) r ds -> Forall2 (contents (d_offset d) (d_data d)) b db -> data_contents b db datas ->
  forall q xs, data_format_specs f q = Ok (Some xs) ->
  exists x es sps, nth_error xs (formats a) = Some x /\ x = Format (entry r) (mk_dfsr es sps) /\ dfsr_bytes ds es sps /\
  forall dec mem asked strict l rate cols rows lasti,
  layout_of (mk_dfsr es sps) l -> usable l -> rate_used l asked rate -> 1 <= rate <= 255 -> dtype_of dec rate l strict cols ->
  data_records rate l None datas rows lasti ->
  file_curves dec mem f x asked strict = Ok (cols, concat rows, Z.of_nat (length rows)).
Theorem C89_devices : forall esc openlis stopped o secs,
  course (fun o x => openlis o = match x with Some d => DOk d | None => DErr EofError end) stopped false o secs ->
  exists n, forall fuel, (n <= fuel)%nat ->
  exists st, index_all esc openlis stopped fuel (new_indexer o) = ([CRITICAL], if esc CRITICAL then Exn else Ok st) /\ length (fi_files st) = dcount_files secs /\
  forall before d rs after, secs = before ++ DFile d rs :: after ->
  exists f, nth_error (fi_files st) (dcount_files before) = Some f /\ records_used_in d rs f /\ curves_used_in d rs f.
Proof.
  intros esc openlis stopped o secs Y. destruct (course_loaded esc openlis stopped false o secs Y) as (n & st & D & A).
  exists n. intros fuel F. destruct (A fuel F) as (st' & E1 & E2). exists st'. split; [exact E2|].
  destruct (dloaded_core secs st st' ltac:(symmetry; exact E1) D) as [D1 D2]. split; [exact D1|].
  intros before d rs after S. destruct (D2 before d rs after S) as (f & F1 & F2 & F5 & _). exists f. split; [exact F1|].
  destruct (course_file _ _ _ _ _ Y d rs) as [W (last & R)]; [rewrite S; apply in_elt|].
  destruct (records_contents _ _ _ _ _ R) as [dss C]. split.
  - exists dss. split; [exact C|]. rewrite <- F2 in C.
    intros type rs' dss' O. destruct (of_type_types _ _ _ _ _ O) as (Ty & Len & _).
    assert (P : forall q xs, parse_records f type q = Ok (Some xs) <-> Forall2 (fun '(r, ds) x => parsed_as r ds x) (combine rs' dss') xs).
    { intros q. exact (proj1 (C72_records f _ _ type q C F5 _ _ O)). }
    split; [exact P|]. split; [|split].
    + intros q ->. pose proof (whole_once rs dss 128 rs' dss' W ltac:(cbn; tauto) O) as Once.
      pose proof (C72_header header 128 Warning ltac:(cbn; tauto) f _ dss q C F5 _ _ O) as H.
      destruct rs' as [|r [|r2 rs']]; [exact H | | cbn in Once; lia]. destruct dss' as [|ds [|? ?]]; try discriminate. apply H.
    + intros q ->. pose proof (whole_once rs dss 129 rs' dss' W ltac:(cbn; tauto) O) as Once.
      pose proof (C72_header trailer 129 Info ltac:(cbn; tauto) f _ dss q C F5 _ _ O) as H.
      destruct rs' as [|r [|r2 rs']]; [exact H | | cbn in Once; lia]. destruct dss' as [|ds [|? ?]]; try discriminate. apply H.
    + intros dec method q M FC.
      assert (G : In type [32; 34; 39] /\ method f q = parse_records f type q) by (destruct M as [M|[M|[M|[]]]]; injection M as <- <-; (split; [cbn; tauto|reflexivity])).
      destruct G as [T ->]. apply (reads_tables dec type rs' dss'); try assumption. apply P.
  - intros a r b ds db datas P Cr Fb Dc q xs H. rewrite <- F2 in *.
    destruct (C73_listed f _ dss _ _ _ ds q xs C F5 P Cr H) as (es & sps & X1 & X2).
    eexists _, es, sps. split; [exact X1|]. split; [reflexivity|]. split; [exact X2|]. intros dec mem asked strict l rate cols rows lasti.
    intros. eapply (C73_curves f 0 rs last a r b db datas ds es sps); try eassumption; lia.
Qed.
Print Assumptions C89_devices.

(** *** Cut, overwritten or continued files: if a file agrees with a good one in its first
    [n] bytes, the logical files that end with a trailer within these bytes give what they
    give in the good file *)
Lemma used_agree data data' n pos rs last f : (exists pre post post', data = pre ++ post /\ data' = pre ++ post' /\ len pre = n) ->
  records_at 0 data pos rs last -> 0 <= pos -> last <= n -> records_used data' rs f /\ curves_used data' rs f -> records_used data rs f /\ curves_used data rs f.
Proof.
  intros AG R Hp Le [(dss & F & U) C]. destruct (contents_agree data data' n AG pos rs last R Hp Le) as (dss0 & F0 & F0').
  assert (K : forall r ds, In r rs -> contents 0 data r ds -> contents 0 data' r ds).
  { clear - F0 F0'. induction F0 as [|r ds rs dss A F0 IH]; inversion F0' as [|? ? ? ? A' F0'']; subst; intros x dx I X; [destruct I|]. destruct I as [<-|I]; [|eauto].
    rewrite (contents_one data r dx ds X A). exact A'. }
  split.
  - exists dss. split; [|exact U]. assert (dss = dss0); [|subst; exact F0].
    clear - F F0'. revert dss0 F0'. induction F as [|r ds rs dss A F IH]; intros dss0 F0'; inversion F0' as [|? ds0 ? dss1 A' F1]; subst; [reflexivity|].
    f_equal; [exact (contents_one data' r ds ds0 A A')|apply IH; exact F1].
  - intros a r b ds db datas P Cr Fb Dc. assert (Inr : In r rs /\ incl b rs).
    { destruct P as [rest -> _ _ _]. split; [apply in_elt|]. intros x X. apply in_or_app. right. right. apply in_or_app. left. exact X. }
    assert (Fb' : Forall2 (contents 0 data') b db).
    { destruct Inr as [_ Ib]. clear - K Fb Ib. induction Fb as [|x dx b db X Fb IH]; constructor; [apply K; [apply Ib; left; reflexivity|exact X]|].
      apply IH. intros y Y. apply Ib. right. exact Y. }
    exact (C a r b ds db datas P (K r ds (proj1 Inr) Cr) Fb' Dc).
Qed.
Theorem C89_same : forall esc open_tif tif_stopped fuel data b secs pre post post' data' before rs after,
  SpecLisLoad.layout data b 0 secs -> secs = before ++ File rs :: after -> closed rs -> (forall r, In r rs -> stop_of r <= len pre) ->
  data = pre ++ post -> data' = pre ++ post' ->
  12 <= len data' -> (forall type, ~ starts_with_mark data' type) -> (length data' + 2 <= fuel)%nat ->
  (exists log st f, load esc open_tif tif_stopped fuel data' = (log, Ok st) /\ (log = [] \/ log = [CRITICAL] /\ esc CRITICAL = false) /\
     nth_error (fi_files st) (count_files before) = Some f /\ records_used data rs f /\ curves_used data rs f) \/
  (load esc open_tif tif_stopped fuel data' = ([CRITICAL], Exn) /\ esc CRITICAL = true).
Proof.
  intros esc ot ts fuel data b secs pre post post' data' before rs after Y EQ CL ST E E' L N F.
  assert (AG : exists h t t', data = h ++ t /\ data' = h ++ t' /\ len h = len pre) by (exists pre, post, post'; auto).
  pose proof (layout_so_far data data' (len pre) AG b 0 secs Y ltac:(lia) before rs after EQ CL ST) as S.
  destruct (C89_before esc ot ts fuel data' _ _ L N S F) as [(log & st & LD & LG & U)|H]; [left|right; exact H].
  destruct (U before rs [] eq_refl) as (f & NF & U'). exists log, st, f. split; [exact LD|]. split; [exact LG|]. split; [exact NF|].
  destruct (layout_file data b 0 secs Y ltac:(lia) rs) as [_ (p & last & Hp & R)]; [rewrite EQ; apply in_elt|].
  apply (used_agree data data' (len pre) p rs last f AG R Hp); [|exact U'].
  destruct CL as (a & c & -> & _). rewrite (last_stop _ _ _ _ _ R). apply ST. apply in_elt.
Qed.
Print Assumptions C89_same.

(** *** Examples *)

(** the file of C73 with garbage behind it: another reel header that breaks off *)
Definition C89_bytes : bytes := C73_bytes ++ one_record (z2b 132) C50_reel ++ one_record (z2b 128) C50_data ++ C83_garbage.
Lemma C89_so_far : so_far C89_bytes 0 (C73_secs ++ [Delimiter 132 C50_reel]) [(128, 62, 546)].
Proof.
  cbn [C73_secs app].
  apply sf_delimiter with (last := 132); [one 132 C50_reel 0%nat | cbn; tauto |].
  apply sf_closed with (last := 414).
  - rec 128 C50_data 132%nat. rec 64 format1 194%nat. rec 0 (map z2b [1; 2; 3; 4]) 283%nat. rec 64 format2 293%nat. rec 0 (map z2b [1; 0; 2; 0]) 342%nat.
    rec 129 C50_data 352%nat. apply ra_nil.
  - inside_tac.
  - cbn; tauto.
  - intros HH; vm_compute in HH; discriminate HH.
  - apply sf_delimiter with (last := 546); [one 132 C50_reel 414%nat | cbn; tauto |].
    eapply sf_rest; [rec 128 C50_data 546%nat; apply ra_nil | inside_tac |]. right. exists 128. split; [left; reflexivity | cbn; lia].
Qed.
(** the same file, cut inside its trailer *)
Definition C89_cut : bytes := firstn 400 C73_bytes.
Lemma C89_layout : SpecLisLoad.layout C89_cut false 0 [Delimiter 132 C50_reel; File C73_records].
Proof.
  apply la_delimiter with (last := 132); [one 132 C50_reel 0%nat | cbn; tauto | next 128 C50_data 132%nat|].
  apply la_broken_file with (last := 352).
  - rec 128 C50_data 132%nat. rec 64 format1 194%nat. rec 0 (map z2b [1; 2; 3; 4]) 283%nat. rec 64 format2 293%nat. rec 0 (map z2b [1; 0; 2; 0]) 342%nat. apply ra_nil.
  - inside_tac.
  - discriminate.
  - exists [], [x00; z2b 62; x00; x00], 62, 0. split; [|split; [|split; [lia|split; [|right; left; vm_compute; reflexivity]]]].
    + split; [exists x00, 0%nat; auto|]. split; [discriminate | left; split; [reflexivity | discriminate]].
    + exists x00, (z2b 62), x00, x00. repeat split; reflexivity.
    + here 352%nat.
Qed.
Example C89_example :
  (so_far C89_bytes 0 (C73_secs ++ [Delimiter 132 C50_reel]) [(128, 62, 546)] /\ 12 <= len C89_bytes /\ (forall type, ~ starts_with_mark C89_bytes type)) /\
  (SpecLisLoad.layout C89_cut false 0 [Delimiter 132 C50_reel; File C73_records] /\ 12 <= len C89_cut /\ (forall type, ~ starts_with_mark C89_cut type)) /\
  forall data, In data [C89_bytes; C89_cut] ->
    fst (load quiet never_tif plain_stopped (length data + 2) data) = [CRITICAL] /\
    results (load quiet never_tif plain_stopped (length data + 2) data) (fun st f => (header f 0, data_format_specs f 0, file_curves str_of (fun _ => []) f C73_format2 None true)) =
      Some (([], Ok (Some C73_header)), Ok (Some [C73_format1; C73_format2]), Ok ([mk_column (str_of (text "TIME")) (text "i2") 2 1], ints [0; 1; 0; 2], 2)).
Proof.
  split; [|split].
  - split; [exact C89_so_far|]. split; [vm_compute; discriminate|exact (proj2 (proj1 (check_plain C89_bytes) ltac:(vm_compute; reflexivity)))].
  - split; [exact C89_layout|]. split; [vm_compute; discriminate|exact (proj2 (proj1 (check_plain C89_cut) ltac:(vm_compute; reflexivity)))].
  - intros data [<-|[<-|[]]]; split; vm_compute; reflexivity.
Qed.
(** whatever follows the logical file of C73 leaves it whole *)
Example C89_same_example :
  SpecLisLoad.layout C73_bytes true 0 C73_secs /\ C73_secs = [Delimiter 132 C50_reel] ++ File (C73_records ++ [(129, 62, 352)]) :: [] /\
  closed (C73_records ++ [(129, 62, 352)]) /\ (forall r, In r (C73_records ++ [(129, 62, 352)]) -> stop_of r <= len C73_bytes) /\
  C73_bytes = C73_bytes ++ [] /\ C89_bytes = C73_bytes ++ (one_record (z2b 132) C50_reel ++ one_record (z2b 128) C50_data ++ C83_garbage).
Proof.
  split; [exact C73_layout|]. split; [reflexivity|]. split; [exists C73_records, (129, 62, 352); split; [reflexivity|cbn; tauto]|].
  split; [|split; [rewrite app_nil_r; reflexivity|reflexivity]]. change (len C73_bytes) with 414. intros r H. cbn [C73_records app] in H.
  repeat (destruct H as [<-|H]; [vm_compute; discriminate|]). destruct H.
Qed.
(** the file of C72_devices_example: the second device ends inside the trailer *)
Definition C89_device := file_of (skipn 132 C89_cut).
Definition C89_open (o : Z) : dres device := if o =? 0 then DOk C72_reel_device else if o =? 156 then DOk C89_device else DErr EofError.
Example C89_devices_example :
  course (fun o x => C89_open o = match x with Some d => DOk d | None => DErr EofError end) C72_stopped false 0
    [DDelimiter 132 C50_reel; DFile C89_device [(128, 62, 0); (64, 89, 62); (0, 10, 151); (64, 49, 161); (0, 10, 210)]] /\
  fst (index_all quiet C89_open C72_stopped 5 (new_indexer 0)) = [CRITICAL] /\
  results (index_all quiet C89_open C72_stopped 5 (new_indexer 0)) (fun st f => data_format_specs f 7) = Some (Ok (Some [C73_format1; C73_format2])).
Proof.
  assert (D : C72_reel_device = file_of (one_record (z2b 132) C50_reel)) by (vm_compute; reflexivity).
  split; [|split; vm_compute; reflexivity].
  apply co_delimiter with (d := C72_reel_device) (last := 132) (q := 132); [reflexivity | | cbn; tauto | |].
  - rewrite D. destruct (one_record_spec 0 0 (z2b 132) C50_reel ltac:(vm_compute; reflexivity)) as [S G]. exists [], (one_record (z2b 132) C50_reel).
    split; [here 0%nat|]. split; [exact G|]. split; [exact S | vm_compute; reflexivity].
  - right. exists []. split; [exists x00, 0%nat; auto|]. split; [exists (d_data C72_reel_device); split; vm_compute; reflexivity | vm_compute; reflexivity].
  - change (C72_stopped C72_reel_device 132) with 156.
    apply co_broken_file with (last := 220); [reflexivity | | inside_tac | discriminate |].
    + rec 128 C50_data 0%nat. rec 64 format1 62%nat. rec 0 (map z2b [1; 2; 3; 4]) 151%nat. rec 64 format2 161%nat. rec 0 (map z2b [1; 0; 2; 0]) 210%nat. apply ra_nil.
    + exists [], [x00; z2b 62; x00; x00], 62, 0. split; [|split; [|split; [lia|split; [|right; left; vm_compute; reflexivity]]]].
      * split; [exists x00, 0%nat; auto|]. split; [discriminate | left; split; [reflexivity | discriminate]].
      * exists x00, (z2b 62), x00, x00. repeat split; reflexivity.
      * here 220%nat.
Qed.
