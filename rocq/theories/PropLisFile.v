(** C72, C73: the records of LIS79 logical files, and their curves from end to end. *)
From Verif Require Import Bytes BytesProofs DlisTypes SpecTypes Stream SpecIo IoProofs DlisRecords DlisFdata LisProtocol LisIo SpecLisIo LisPy LisCurves LisLoad
  SpecLisProtocol LisIoProofs4 SpecLisLoad LisLoadProofs5 LisFile SpecLisFile LisFileProofs LisFileProofs2 SpecLisCurves PropLisIo PropLisProtocol PropLisCurves PropLisLoad.
Local Open Scope Z_scope.

(** ** C72: the records of a logical file *)

(** Every record is parsed to what its contents say according to its type, or an
    exception is raised; NotImplementedError exactly for the types that have no
    parsing routine. *)
Theorem C72_parse : forall r ds,
  (forall x, parse_record (entry r, ds) = Ok (Some x) <-> parsed_as r ds x) /\
  (parse_record (entry r, ds) = Ok None <-> ~ In (type_of r) parsable) /\
  (In (type_of r) parsable -> (forall x, ~ parsed_as r ds x) -> parse_record (entry r, ds) = Exn).
Proof.
  intros r ds. split; [intros x; apply parse_exact|]. split; [apply parse_none|]. intros P N.
  pose proof (parse_ends r ds) as E. destruct (parse_record (entry r, ds)) as [[x|]| | |] eqn:H; try contradiction; [| |reflexivity].
  - exfalso. apply (N x). apply parse_exact. exact H.
  - apply parse_none in H. contradiction.
Qed.
Print Assumptions C72_parse.

(** The contents of the records of a file are determined, and so are the records of
    a type. *)
Theorem C72_contents : forall d pos rs last, records_at (d_offset d) (d_data d) pos rs last ->
  exists dss, Forall2 (contents (d_offset d) (d_data d)) rs dss /\
    (forall dss', Forall2 (contents (d_offset d) (d_data d)) rs dss' -> dss' = dss) /\
    forall type, exists rs' dss', of_type type rs dss rs' dss'.
Proof.
  intros d pos rs last R. destruct (records_contents _ _ _ _ _ R) as [dss F]. exists dss. split; [exact F|]. split.
  - clear R. induction F as [|r ds rs dss C F IH]; intros l G; inversion G as [|? ds' ? l' C' G']; subst; [reflexivity|].
    f_equal; [eapply contents_unique; eassumption | apply IH; exact G'].
  - intros type. apply of_type_exists. clear R. induction F; [reflexivity | cbn; congruence].
Qed.
Print Assumptions C72_contents.

(** parse_records: the records of the type, in order, each parsed (wherever the
    device is positioned); if one of them cannot be parsed an exception is raised,
    NotImplementedError exactly if there is no routine for the type. *)
Theorem C72_records : forall f rs dss type q,
  Forall2 (contents (d_offset (lf_io f)) (d_data (lf_io f))) rs dss -> listed rs (lf_index f) ->
  forall rs' dss', of_type type rs dss rs' dss' ->
  (forall xs, parse_records f type q = Ok (Some xs) <-> Forall2 (fun '(r, ds) x => parsed_as r ds x) (combine rs' dss') xs) /\
  (parse_records f type q = Ok None <-> rs' <> [] /\ ~ In type parsable) /\
  parse_records f type q <> UB /\ parse_records f type q <> Fuel.
Proof.
  intros f rs dss type q F L rs' dss' O. destruct (records_parsed f rs dss type q F L rs' dss' O) as (A & B & C). split; [|split; [exact B|]].
  - intros xs. rewrite (A xs). apply says_iff.
  - split; intros E; rewrite E in C; exact C.
Qed.
Print Assumptions C72_records.

(** the methods and the types of the records they give *)
Theorem C72_methods : forall m type,
  In (m, type) [(data_format_specs, 64); (job_identification, 32); (wellsite_data, 34); (tool_string_info, 39);
                (operator_command_inputs, 224); (operator_response_inputs, 225); (system_outputs_to_operator, 227); (flic_comment, 232)] ->
  forall f rs dss q, Forall2 (contents (d_offset (lf_io f)) (d_data (lf_io f))) rs dss -> listed rs (lf_index f) ->
  forall rs' dss', of_type type rs dss rs' dss' ->
  (forall xs, m f q = Ok (Some xs) <-> Forall2 (fun '(r, ds) x => parsed_as r ds x) (combine rs' dss') xs) /\
  ((~ exists xs, Forall2 (fun '(r, ds) x => parsed_as r ds x) (combine rs' dss') xs) -> m f q = Exn).
Proof.
  assert (G : forall type, In type parsable -> forall f rs dss q, Forall2 (contents (d_offset (lf_io f)) (d_data (lf_io f))) rs dss -> listed rs (lf_index f) ->
    forall rs' dss', of_type type rs dss rs' dss' ->
    (forall xs, parse_records f type q = Ok (Some xs) <-> Forall2 (fun '(r, ds) x => parsed_as r ds x) (combine rs' dss') xs) /\
    ((~ exists xs, Forall2 (fun '(r, ds) x => parsed_as r ds x) (combine rs' dss') xs) -> parse_records f type q = Exn)).
  { intros type P f rs dss q F L rs' dss' O. destruct (C72_records f rs dss type q F L rs' dss' O) as (A & B & C & D). split; [exact A|].
    intros N. destruct (parse_records f type q) as [[xs|]| | |] eqn:E; try contradiction; [| |reflexivity].
    - exfalso. apply N. exists xs. apply A. reflexivity.
    - destruct (proj1 B eq_refl) as [_ X]. contradiction. }
  intros m type I. destruct I as [I|[I|[I|[I|[I|[I|[I|[I|[]]]]]]]]]; injection I as <- <-; apply G; unfold parsable; cbn [In]; tauto.
Qed.
Print Assumptions C72_methods.

(** header() and trailer(): the record if there is one, None and a message if there
    is none; several are refused. *)
Theorem C72_header : forall get type level, In (get, type, level) [(header, 128, Warning); (trailer, 129, Info)] ->
  forall f rs dss q, Forall2 (contents (d_offset (lf_io f)) (d_data (lf_io f))) rs dss -> listed rs (lf_index f) ->
  forall rs' dss', of_type type rs dss rs' dss' ->
  match rs', dss' with
  | [], _ => get f q = ([level], Ok None)
  | [r], [ds] => (forall x, get f q = ([], Ok (Some x)) <-> parsed_as r ds x) /\ ((forall x, ~ parsed_as r ds x) -> get f q = ([], Exn))
  | _, _ => get f q = ([], Exn)
  end.
Proof.
  intros get type level I f rs dss q F L rs' dss' O.
  destruct I as [I|[I|[]]]; injection I as <- <- <-; eapply only_exact; try eassumption; try (intros [D|[D|[]]]; discriminate); unfold parsable; cbn [In]; tauto.
Qed.
Print Assumptions C72_header.

(** The files load() makes have at most one header and one trailer. *)
Theorem C72_once : forall data b secs rs dss type rs' dss',
  SpecLisLoad.layout data b 0 secs -> In (File rs) secs -> In type [128; 129] -> of_type type rs dss rs' dss' -> (length rs' <= 1)%nat.
Proof.
  intros data b secs rs dss type rs' dss' Y I T O. destruct (layout_file data b 0 secs Y ltac:(lia) rs I) as [W _]. eapply whole_once; eassumption.
Qed.
Print Assumptions C72_once.

(** a reel's or tape's header or trailer of that type, if any *)
Definition answers (level : note) (type : Z) (x : option bytes) (a : list note * res (option parsed)) : Prop :=
  match x with
  | None => a = ([level], Ok None)
  | Some ds => (forall v, a = ([], Ok (Some v)) <-> exists r, type_of r = type /\ parsed_as r ds v) /\
               ((~ exists r v, type_of r = type /\ parsed_as r ds v) -> a = ([], Exn))
  end.
(** The reel and the tape of a loaded file: header() and trailer() are what the
    delimiters around the file say. *)
Theorem C72_reel : forall data secs st before rs after, loaded data secs st -> secs = before ++ File rs :: after ->
  exists f, nth_error (fi_files st) (count_files before) = Some f /\
    forall objs ref h t, In (objs, ref, h, t) [(fi_reels st, lf_reel f, 132, 133); (fi_tapes st, lf_tape f, 130, 131)] ->
    exists o x y, nth_error objs ref = Some o /\
      opened_by h t (delimiters before) x /\ answers Warning h x (ht_header o) /\
      closed_by h t (delimiters after) y /\ answers Info t y (ht_trailer o).
Proof.
  intros data secs st before rs after [_ L] E. destruct (L before rs after E) as (f & o & N & _ & _ & _ & _ & R & T). exists f. split; [exact N|].
  assert (G : forall level type raw x, In type [130; 131; 132; 133] -> holds raw type x -> answers level type x (raw_or level raw)).
  { intros level type [[[a b c] d]|] [ds|] P H; cbn [holds] in H; try contradiction; [|reflexivity]. destruct H as [<- ->]. cbn [ri_type] in P.
    destruct (C72_parse (a, b, c) ds) as (A & B & C). change (entry (a, b, c)) with (mk_info a b c) in *. change (type_of (a, b, c)) with a in *.
    assert (PP : In a parsable) by (cbn in P |- *; tauto).
    assert (Any : forall r v, type_of r = a -> parsed_as r ds v -> parsed_as (a, b, c) ds v).
    { intros r v Tr Pv. inversion Pv; subst v; rewrite Tr in *; try (constructor; assumption); exfalso; cbn in *; lia. }
    cbn [answers raw_or ri_type]. split.
    - intros v. split.
      + intros X. apply (f_equal snd) in X. cbn [snd] in X. exists (a, b, c). split; [reflexivity|]. apply A.
        destruct (parse_record (mk_info a b c, ds)) as [[w|]| | |]; [exact X | discriminate..].
      + intros (r & Tr & Pv). apply (Any r v Tr) in Pv. apply A in Pv. rewrite Pv. reflexivity.
    - intros X. rewrite (C PP); [reflexivity|]. intros v Pv. apply X. exists (a, b, c), v. auto. }
  intros objs ref h t I. destruct I as [I|[I|[]]]; injection I as <- <- <- <-.
  - destruct R as (u & x & y & E1 & H1 & O1 & H2 & C2). exists u, x, y. split; [exact E1|]. split; [exact O1|]. split; [apply G; [cbn; tauto | exact H1]|].
    split; [exact C2 | apply G; [cbn; tauto | exact H2]].
  - destruct T as (u & x & y & E1 & H1 & O1 & H2 & C2). exists u, x, y. split; [exact E1|]. split; [exact O1|]. split; [apply G; [cbn; tauto | exact H1]|].
    split; [exact C2 | apply G; [cbn; tauto | exact H2]].
Qed.
Print Assumptions C72_reel.

(** Plain files from end to end: every logical file of the layout is loaded, and
    its records are those of the layout.  Positions are relative to where the
    logical file starts. *)
Theorem C72_plain : forall esc open_tif tif_stopped data secs,
  12 <= len data -> (forall type, ~ starts_with_mark data type) -> SpecLisLoad.layout data true 0 secs ->
  exists st, load esc open_tif tif_stopped (length data + 2) data = ([], Ok st) /\ length (fi_files st) = count_files secs /\
  forall before rs after, secs = before ++ File rs :: after ->
  exists f o dss, nth_error (fi_files st) (count_files before) = Some f /\ Forall2 (contents 0 data) rs dss /\
    forall type rs' dss', of_type type rs dss rs' dss' ->
    (forall q xs, parse_records f type q = Ok (Some xs) <-> Forall2 (fun '(r, ds) x => parsed_as r ds x) (combine (map (back o) rs') dss') xs) /\
    (forall q, type = 128 -> match rs', dss' with
       | [r], [ds] => forall x, header f q = ([], Ok (Some x)) <-> parsed_as r ds x
       | _, _ => header f q = ([Warning], Ok None)
       end) /\
    (forall q, type = 129 -> match rs', dss' with
       | [r], [ds] => forall x, trailer f q = ([], Ok (Some x)) <-> parsed_as r ds x
       | _, _ => trailer f q = ([Info], Ok None)
       end).
Proof.
  intros esc ot ts data secs L N Y. destruct (C58_plain esc ot ts data secs L N Y) as (st & E & D). exists st. split; [exact E|]. destruct D as [D1 D2]. split; [exact D1|].
  intros before rs after S. destruct (D2 before rs after S) as (f & o & F1 & F2 & F3 & F4 & F5 & _).
  destruct (layout_file data true 0 secs Y ltac:(lia) rs) as [W (p & last & Hp & R)]; [rewrite S; apply in_elt|].
  destruct (records_contents _ _ _ _ _ R) as [dss C]. exists f, o, dss. split; [exact F1|]. split; [exact C|].
  assert (C' : Forall2 (contents (d_offset (lf_io f)) (d_data (lf_io f))) (map (back o) rs) dss).
  { rewrite F2. apply (contents_all_back o data); assumption. }
  assert (P : forall r ds x, type_of r = 128 \/ type_of r = 129 -> parsed_as (back o r) ds x <-> parsed_as r ds x).
  { intros r ds x T. split; intros H; inversion H; subst x; change (type_of (back o r)) with (type_of r) in *; try (constructor; assumption); exfalso; cbn in *; lia. }
  intros type rs' dss' O. pose proof (of_type_back o _ _ _ _ _ O) as O'. destruct (of_type_types _ _ _ _ _ O) as (Ty & Len & _). split; [|split].
  - intros q. exact (proj1 (C72_records f _ _ type q C' F5 _ _ O')).
  - intros q ->. pose proof (C72_once data true secs rs dss 128 rs' dss' Y ltac:(rewrite S; apply in_elt) ltac:(cbn; tauto) O) as Once.
    pose proof (C72_header header 128 Warning ltac:(cbn; tauto) f _ dss q C' F5 _ _ O') as H.
    destruct rs' as [|r [|r2 rs']]; [exact H | | cbn in Once; lia]. destruct dss' as [|ds [|? ?]]; try discriminate. cbn [map] in H.
    intros x. rewrite <- (P r ds x) by (left; inversion Ty; assumption). apply H.
  - intros q ->. pose proof (C72_once data true secs rs dss 129 rs' dss' Y ltac:(rewrite S; apply in_elt) ltac:(cbn; tauto) O) as Once.
    pose proof (C72_header trailer 129 Info ltac:(cbn; tauto) f _ dss q C' F5 _ _ O') as H.
    destruct rs' as [|r [|r2 rs']]; [exact H | | cbn in Once; lia]. destruct dss' as [|ds [|? ?]]; try discriminate. cbn [map] in H.
    intros x. rewrite <- (P r ds x) by (right; inversion Ty; assumption). apply H.
Qed.
Print Assumptions C72_plain.

(** Files read through any sequence of devices, such as tape images *)
Theorem C72_devices : forall esc openlis stopped o secs,
  course (fun o x => openlis o = match x with Some d => DOk d | None => DErr EofError end) stopped true o secs ->
  exists n, forall fuel, (n <= fuel)%nat ->
  exists st, index_all esc openlis stopped fuel (new_indexer o) = ([], Ok st) /\ length (fi_files st) = dcount_files secs /\
  forall before d rs after, secs = before ++ DFile d rs :: after ->
  exists f dss, nth_error (fi_files st) (dcount_files before) = Some f /\ Forall2 (contents (d_offset d) (d_data d)) rs dss /\
    forall type rs' dss', of_type type rs dss rs' dss' ->
    (forall q xs, parse_records f type q = Ok (Some xs) <-> Forall2 (fun '(r, ds) x => parsed_as r ds x) (combine rs' dss') xs) /\
    (forall q, type = 128 -> match rs', dss' with
       | [r], [ds] => forall x, header f q = ([], Ok (Some x)) <-> parsed_as r ds x
       | _, _ => header f q = ([Warning], Ok None)
       end) /\
    (forall q, type = 129 -> match rs', dss' with
       | [r], [ds] => forall x, trailer f q = ([], Ok (Some x)) <-> parsed_as r ds x
       | _, _ => trailer f q = ([Info], Ok None)
       end).
Proof.
  intros esc openlis stopped o secs Y. destruct (C58_devices esc openlis stopped o secs Y) as (n & A). exists n. intros fuel Fu.
  destruct (A fuel Fu) as (st & E & D1 & D2). exists st. split; [exact E|]. split; [exact D1|].
  intros before d rs after S. destruct (D2 before d rs after S) as (f & F1 & F2 & F5 & _).
  destruct (course_file _ _ _ _ _ Y d rs) as [W (last & R)]; [rewrite S; apply in_elt|].
  destruct (records_contents _ _ _ _ _ R) as [dss C]. exists f, dss. split; [exact F1|]. split; [exact C|]. rewrite <- F2 in C.
  intros type rs' dss' O. destruct (of_type_types _ _ _ _ _ O) as (Ty & Len & _). split; [|split].
  - intros q. exact (proj1 (C72_records f _ _ type q C F5 _ _ O)).
  - intros q ->. pose proof (whole_once rs dss 128 rs' dss' W ltac:(cbn; tauto) O) as Once.
    pose proof (C72_header header 128 Warning ltac:(cbn; tauto) f _ dss q C F5 _ _ O) as H.
    destruct rs' as [|r [|r2 rs']]; [exact H | | cbn in Once; lia]. destruct dss' as [|ds [|? ?]]; try discriminate. apply H.
  - intros q ->. pose proof (whole_once rs dss 129 rs' dss' W ltac:(cbn; tauto) O) as Once.
    pose proof (C72_header trailer 129 Info ltac:(cbn; tauto) f _ dss q C F5 _ _ O) as H.
    destruct rs' as [|r [|r2 rs']]; [exact H | | cbn in Once; lia]. destruct dss' as [|ds [|? ?]]; try discriminate. apply H.
Qed.
Print Assumptions C72_devices.

(** One record that cannot be parsed makes the others of its type inaccessible: here
    the comment of type 232 is fine, but of two information records only one is. *)
Definition C72_bad : bytes :=
  one_record (z2b 128) C50_data ++ one_record (z2b 34) C49_b1 ++ one_record (z2b 34) [x00] ++ one_record (z2b 232) (text "note") ++ one_record (z2b 129) C50_data.
Theorem C72_one_bad_refuted : exists f rs dss r ds x,
  records_at (d_offset (lf_io f)) (d_data (lf_io f)) 0 rs (len C72_bad) /\ d_data (lf_io f) = C72_bad /\
  Forall2 (contents (d_offset (lf_io f)) (d_data (lf_io f))) rs dss /\ listed rs (lf_index f) /\
  In (r, ds) (combine rs dss) /\ parsed_as r ds x /\ type_of r = 34 /\ wellsite_data f 0 = Exn /\
  flic_comment f 0 = Ok (Some [Text 232 (text "note")]).
Proof.
  exists (mk_lf (file_of C72_bad) (mk_index [mk_info 128 62 0; mk_info 34 22 62; mk_info 34 7 84; mk_info 232 10 91; mk_info 129 62 101] [] false) 0 0).
  exists [(128, 62, 0); (34, 22, 62); (34, 7, 84); (232, 10, 91); (129, 62, 101)].
  assert (R : records_at 0 C72_bad 0 [(128, 62, 0); (34, 22, 62); (34, 7, 84); (232, 10, 91); (129, 62, 101)] (len C72_bad)).
  { rec 128 C50_data 0%nat. rec 34 C49_b1 62%nat. rec 34 [x00] 84%nat. rec 232 (text "note") 91%nat. rec 129 C50_data 101%nat. apply ra_nil. }
  exists [C50_data; C49_b1; [x00]; text "note"; C50_data], (34, 22, 62), C49_b1.
  exists (Information (mk_info 34 22 62) [mk_component 73 65 4 0 (text "TYPE") (text "    ") (LString (text "CONS"))]).
  split; [exact R|]. split; [reflexivity|]. split.
  { assert (K : forall n ty ds, len ds < 200 -> at_pos C72_bad (Z.of_nat n) (one_record ty ds) -> forall size, contents 0 C72_bad (b2z ty, size, Z.of_nat n) ds).
    { intros n ty ds L A size. destruct (one_record_spec 0 (Z.of_nat n) ty ds L) as [S G]. exists false, (one_record ty ds). auto. }
    constructor; [apply (K 0%nat (z2b 128)); [reflexivity | here 0%nat]|]. constructor; [apply (K 62%nat (z2b 34)); [reflexivity | here 62%nat]|].
    constructor; [apply (K 84%nat (z2b 34)); [reflexivity | here 84%nat]|]. constructor; [apply (K 91%nat (z2b 232)); [reflexivity | here 91%nat]|].
    constructor; [apply (K 101%nat (z2b 129)); [reflexivity | here 101%nat]|]. constructor. }
  split; [split; reflexivity|]. split; [right; left; reflexivity|]. split; [apply (parse_exact (34, 22, 62)); vm_compute; reflexivity|].
  split; [reflexivity|]. split; vm_compute; reflexivity.
Qed.
Print Assumptions C72_one_bad_refuted.

(** ** C73: curves from end to end *)

(** The format specifications come in the order of the records: the one after
    [a] is at the index that counts those in [a]. *)
Theorem C73_listed : forall f rs dss a r b ds q xs,
  Forall2 (contents (d_offset (lf_io f)) (d_data (lf_io f))) rs dss -> listed rs (lf_index f) -> part rs a r b ->
  contents (d_offset (lf_io f)) (d_data (lf_io f)) r ds -> data_format_specs f q = Ok (Some xs) ->
  exists es sps, nth_error xs (formats a) = Some (Format (entry r) (mk_dfsr es sps)) /\ dfsr_bytes ds es sps.
Proof.
  intros f rs dss a r b ds q xs F L [rest E T64 _ _] C H. assert (N : ~ is_data 64) by (intros [D|[D|[]]]; discriminate).
  destruct (of_type_exists 64 rs dss) as (rs' & dss' & O); [clear -F; induction F; cbn; congruence|].
  apply (proj1 (C72_records f rs dss 64 q F L rs' dss' O)) in H. rewrite E in O. destruct (of_type_split 64 a r (b ++ rest) dss rs' dss' T64 N O) as [O1 O2].
  fold (formats a) in O1, O2. destruct (Forall2_nth_error _ rs dss (length a) r F) as (ds' & D1 & D2); [rewrite E, nth_error_app2, Nat.sub_diag by lia; reflexivity|].
  rewrite (contents_unique (lf_io f) r ds ds' C D2) in *. rewrite D1 in O1.
  destruct (Forall2_nth_error _ _ _ _ _ H (nth_combine _ _ _ _ _ O2 O1)) as (x & X1 & X2). cbn in X2.
  inversion X2; subst x; try (exfalso; rewrite T64 in *; cbn in *; lia). eauto.
Qed.
Print Assumptions C73_listed.

(** The curves of a format specification are the rows of the data records between
    it and the next one, as far as they are valid frames of it. *)
Theorem C73_curves : forall f pos rs last a r b db datas ds es sps,
  0 <= pos -> records_at (d_offset (lf_io f)) (d_data (lf_io f)) pos rs last -> listed rs (lf_index f) -> part rs a r b ->
  Forall2 (contents (d_offset (lf_io f)) (d_data (lf_io f))) b db -> data_contents b db datas -> dfsr_bytes ds es sps ->
  forall dec after asked strict l rate cols rows lasti,
  layout_of (mk_dfsr es sps) l -> usable l -> rate_used l asked rate -> 1 <= rate <= 255 -> dtype_of dec rate l strict cols ->
  data_records rate l None datas rows lasti ->
  file_curves dec after f (Format (entry r) (mk_dfsr es sps)) asked strict = Ok (cols, concat rows, Z.of_nat (length rows)).
Proof.
  intros f pos rs last a r b db datas ds es sps Hp R L P F D _ dec after asked strict l rate cols rows lasti LO U RU RR DT DR.
  destruct (records_ordered _ _ _ _ _ R Hp) as [FT O]. cbn [file_curves]. change (ri_ltell (entry r)) with (start_of r).
  eapply C53_rows; try eassumption; [eapply part_heads; eassumption | eapply heads_read; eassumption].
Qed.
Print Assumptions C73_curves.

(** Conversely, an array that is returned holds those rows; each data record may be
    followed by bytes [ext] of the memory behind it (C53). *)
Theorem C73_exact_partial : forall f pos rs last a r b db datas ds es sps,
  0 <= pos -> records_at (d_offset (lf_io f)) (d_data (lf_io f)) pos rs last -> listed rs (lf_index f) -> part rs a r b ->
  Forall2 (contents (d_offset (lf_io f)) (d_data (lf_io f))) b db -> data_contents b db datas -> dfsr_bytes ds es sps ->
  forall dec after asked strict cols cells n, asked <> Some 0 ->
  file_curves dec after f (Format (entry r) (mk_dfsr es sps)) asked strict = Ok (cols, cells, n) ->
  exists l rate exts rows lasti, layout_of (mk_dfsr es sps) l /\ usable l /\ rate_used l asked rate /\ 1 <= rate <= 255 /\ dtype_of dec rate l strict cols /\
    length exts = length datas /\
    ((exists ss s, layout_channels l = ss ++ [s] /\ selected rate s /\ sp_reprc s <> 65) -> Forall (fun ext => ext = []) exts) /\
    data_records rate l None (map (fun '(data, ext) => data ++ ext) (combine datas exts)) rows lasti /\
    cells = concat rows /\ n = Z.of_nat (length rows).
Proof.
  intros f pos rs last a r b db datas ds es sps Hp R L P F D _ dec after asked strict cols cells n NZ H.
  destruct (records_ordered _ _ _ _ _ R Hp) as [FT O]. cbn [file_curves] in H. change (ri_ltell (entry r)) with (start_of r) in H.
  destruct (C53_exact_partial _ _ _ _ _ _ _ _ _ _ _ NZ H) as (l & rate & heads & datas' & exts & rows & lasti & A1 & A2 & A3 & A4 & A5 & A6 & A7 & A8 & A9 & A10 & A11 & _).
  rewrite (part_heads _ _ _ _ _ _ _ P L FT O) in A6. injection A6 as <-. pose proof (heads_read _ _ _ _ F D) as B.
  rewrite (reads_unique _ _ _ _ A7 B) in A9. exists l, rate, exts, rows, lasti. repeat (split; [assumption|]). split; [|split; [|auto]].
  - assert (length (map info_of (data_of b)) = length datas) by (clear -B; induction B; cbn; congruence).
    assert (length (map info_of (data_of b)) = length exts) by (clear -A8; induction A8; cbn; congruence). congruence.
  - intros C. clear -A8 C. induction A8 as [|h e hs exts [_ E] A8 IH]; constructor; [apply E; exact C | exact IH].
Qed.
Print Assumptions C73_exact_partial.

(** Plain files from the bytes to the array *)
Theorem C73_plain : forall esc open_tif tif_stopped data secs,
  12 <= len data -> (forall type, ~ starts_with_mark data type) -> SpecLisLoad.layout data true 0 secs ->
  exists st, load esc open_tif tif_stopped (length data + 2) data = ([], Ok st) /\
  forall before rs after, secs = before ++ File rs :: after ->
  exists f, nth_error (fi_files st) (count_files before) = Some f /\
    forall a r b ds db datas, part rs a r b -> contents 0 data r ds -> Forall2 (contents 0 data) b db -> data_contents b db datas ->
    forall q xs, data_format_specs f q = Ok (Some xs) ->
    exists x info es sps, nth_error xs (formats a) = Some x /\ x = Format info (mk_dfsr es sps) /\ dfsr_bytes ds es sps /\
    forall dec mem asked strict l rate cols rows lasti,
    layout_of (mk_dfsr es sps) l -> usable l -> rate_used l asked rate -> 1 <= rate <= 255 -> dtype_of dec rate l strict cols ->
    data_records rate l None datas rows lasti ->
    file_curves dec mem f x asked strict = Ok (cols, concat rows, Z.of_nat (length rows)).
Proof.
  intros esc ot ts data secs L N Y. destruct (C58_plain esc ot ts data secs L N Y) as (st & E & D). exists st. split; [exact E|]. destruct D as [_ D2].
  intros before rs after S. destruct (D2 before rs after S) as (f & o & F1 & F2 & F3 & F4 & F5 & _). exists f. split; [exact F1|].
  destruct (layout_file data true 0 secs Y ltac:(lia) rs) as [_ (p & last & Hp & R)]; [rewrite S; apply in_elt|].
  intros a r b ds db datas P C Fb Dc q xs H. destruct (records_contents _ _ _ _ _ R) as [dss Fr].
  assert (Fr' : Forall2 (contents (d_offset (lf_io f)) (d_data (lf_io f))) (map (back o) rs) dss) by (rewrite F2; apply (contents_all_back o data); assumption).
  assert (P' : part (map (back o) rs) (map (back o) a) (back o r) (map (back o) b)).
  { destruct P as [rest -> T Nb Hr]. apply part_of with (rest := map (back o) rest).
    - rewrite map_app. cbn [map]. rewrite map_app. reflexivity.
    - exact T.
    - intros x X. apply in_map_iff in X as (y & <- & X). apply (Nb y X).
    - destruct Hr as [-> |(n & t & -> & Tn)]; [left; reflexivity | right; exists (back o n), (map (back o) t); split; [reflexivity | exact Tn]]. }
  assert (Inr : In r rs /\ incl b rs).
  { destruct P as [rest -> _ _ _]. split; [apply in_elt|]. intros x X. apply in_or_app. right. right. apply in_or_app. left. exact X. }
  assert (C' : contents (d_offset (lf_io f)) (d_data (lf_io f)) (back o r) ds).
  { rewrite F2. apply (contents_back o data); [exact F3 | apply F4; exact (proj1 Inr) | exact C]. }
  destruct (C73_listed f _ dss _ _ _ ds q xs Fr' F5 P' C' H) as (es & sps & X1 & X2).
  assert (Ef : formats (map (back o) a) = formats a).
  { unfold formats. clear. induction a as [|x a IH]; [reflexivity|]. cbn [map filter]. change (type_of (back o x)) with (type_of x).
    destruct (type_of x =? 64); cbn [length]; rewrite IH; reflexivity. }
  rewrite Ef in X1. eexists _, _, es, sps. split; [exact X1|]. split; [reflexivity|]. split; [exact X2|].
  intros dec mem asked strict l rate cols rows lasti LO U RU RR DT DR.
  destruct (records_ordered _ _ _ _ _ R Hp) as [FT O]. cbn [file_curves]. change (ri_ltell (entry (back o r))) with (start_of (back o r)).
  assert (O' : ordered (p - o) (last - o) (map (back o) rs)).
  { clear -O. revert p O. induction rs as [|x rs IH]; intros p O; [exact I|]. cbn [map ordered] in *. destruct O as (O1 & O2 & O3).
    unfold back, start_of, stop_of in *. cbn [fst snd]. split; [lia|]. split; [lia|]. replace (snd x - o + snd (fst x)) with (snd x + snd (fst x) - o) by lia. apply IH. exact O3. }
  eapply C53_rows; try eassumption.
  - apply (part_heads _ _ _ _ _ (p - o) (last - o) P' F5); [lia | exact O'].
  - apply (heads_read (lf_io f) (map (back o) b) db); [rewrite F2; apply (contents_all_back o data); [exact F3 | intros y Yb; apply F4; apply (proj2 Inr); exact Yb | exact Fb]|].
    clear -Dc. induction Dc; cbn [map]; [constructor | apply dc_take | apply dc_drop]; assumption.
Qed.
Print Assumptions C73_plain.

(** and files read through any sequence of devices *)
Theorem C73_devices : forall esc openlis stopped o secs,
  course (fun o x => openlis o = match x with Some d => DOk d | None => DErr EofError end) stopped true o secs ->
  exists n, forall fuel, (n <= fuel)%nat ->
  exists st, index_all esc openlis stopped fuel (new_indexer o) = ([], Ok st) /\
  forall before d rs after, secs = before ++ DFile d rs :: after ->
  exists f, nth_error (fi_files st) (dcount_files before) = Some f /\
    forall a r b ds db datas, part rs a r b -> contents (d_offset d) (d_data d) r ds -> Forall2 (contents (d_offset d) (d_data d)) b db -> data_contents b db datas ->
    forall q xs, data_format_specs f q = Ok (Some xs) ->
    exists x es sps, nth_error xs (formats a) = Some x /\ x = Format (entry r) (mk_dfsr es sps) /\ dfsr_bytes ds es sps /\
    forall dec mem asked strict l rate cols rows lasti,
    layout_of (mk_dfsr es sps) l -> usable l -> rate_used l asked rate -> 1 <= rate <= 255 -> dtype_of dec rate l strict cols ->
    data_records rate l None datas rows lasti ->
    file_curves dec mem f x asked strict = Ok (cols, concat rows, Z.of_nat (length rows)).
Proof.
  intros esc openlis stopped o secs Y. destruct (C58_devices esc openlis stopped o secs Y) as (n & A). exists n. intros fuel Fu.
  destruct (A fuel Fu) as (st & E & D1 & D2). exists st. split; [exact E|].
  intros before d rs after S. destruct (D2 before d rs after S) as (f & F1 & F2 & F5 & _). exists f. split; [exact F1|].
  destruct (course_file _ _ _ _ _ Y d rs) as [_ (last & R)]; [rewrite S; apply in_elt|].
  intros a r b ds db datas P C Fb Dc q xs H. destruct (records_contents _ _ _ _ _ R) as [dss Fr]. rewrite <- F2 in *.
  destruct (C73_listed f _ dss _ _ _ ds q xs Fr F5 P C H) as (es & sps & X1 & X2).
  eexists _, es, sps. split; [exact X1|]. split; [reflexivity|]. split; [exact X2|]. intros dec mem asked strict l rate cols rows lasti.
  intros. eapply (C73_curves f 0 rs last a r b db datas ds es sps); try eassumption; lia.
Qed.
Print Assumptions C73_devices.

(** a reel with one file: two format specifications, each with a data record *)
Definition a_block (mnem : bytes) (size reprc : Z) : bytes :=
  mnem ++ text "SERV  " ++ text "ORDER   " ++ text "M   " ++ [x00; x00; x00; x00] ++ [x00; x01] ++ [x00; z2b size] ++ [x00; x00; x00; x01; z2b reprc] ++ repeat x00 5.
Definition format1 : bytes := [x00; x00; x42] ++ a_block (text "DEPT") 1 66 ++ a_block (text "CHAN") 1 66.
Definition format2 : bytes := [x00; x00; x42] ++ a_block (text "TIME") 2 79.
Definition C73_bytes : bytes :=
  one_record (z2b 132) C50_reel ++ one_record (z2b 128) C50_data ++ one_record (z2b 64) format1 ++ one_record x00 (map z2b [1; 2; 3; 4]) ++
  one_record (z2b 64) format2 ++ one_record x00 (map z2b [1; 0; 2; 0]) ++ one_record (z2b 129) C50_data.
Definition C73_records : list (Z * Z * Z) := [(128, 62, 132); (64, 89, 194); (0, 10, 283); (64, 49, 293); (0, 10, 342)].
Definition C73_secs : list section := [Delimiter 132 C50_reel; File (C73_records ++ [(129, 62, 352)])].
Lemma C73_layout : SpecLisLoad.layout C73_bytes true 0 C73_secs.
Proof.
  apply la_delimiter with (last := 132); [one 132 C50_reel 0%nat | cbn; tauto | next 128 C50_data 132%nat|].
  assert (T : tail_at C73_bytes 414 []) by (exists C73_bytes; split; vm_compute; reflexivity).
  apply la_closed with (last := 414).
  - rec 128 C50_data 132%nat. rec 64 format1 194%nat. rec 0 (map z2b [1; 2; 3; 4]) 283%nat. rec 64 format2 293%nat. rec 0 (map z2b [1; 0; 2; 0]) 342%nat.
    rec 129 C50_data 352%nat. apply ra_nil.
  - inside_tac.
  - cbn; tauto.
  - intros HH; vm_compute in HH; discriminate HH.
  - exists 414. right. exists []. split; [exists x00, 0%nat; auto|]. split; [exact T | reflexivity].
  - eapply la_end; [exists x00, 0%nat; auto | exact T].
Qed.
Definition C73_spec (mnem : bytes) (size reprc : Z) : spec_block :=
  mk_spec mnem (text "SERV  ") (text "ORDER   ") (text "M   ") 1 size 1 reprc (Sub0 0 0 0 0 0).
Definition C73_end : entry_block := mk_entry 0 0 66 LNone.
Definition results {A} (m : list severity * res indexer) (k : indexer -> logical_file -> A) : option A :=
  match m with
  | (_, Ok st) => option_map (k st) (nth_error (fi_files st) 0)
  | _ => None
  end.
Definition C73_loaded := load quiet never_tif plain_stopped (length C73_bytes + 2) C73_bytes.
Definition C73_header : parsed :=
  FileHeader (mk_file_record (text "LIS1  .001") (text "SUBLVL") (text "VERSION1") (text "79/06/15") (text " 1024") (text "LO") (text "PREVFILE10")).
Definition C73_format1 : parsed := Format (mk_info 64 89 62) (mk_dfsr [C73_end] [C73_spec (text "DEPT") 1 66; C73_spec (text "CHAN") 1 66]).
Definition C73_format2 : parsed := Format (mk_info 64 49 161) (mk_dfsr [C73_end] [C73_spec (text "TIME") 2 79]).
(** the same logical file through two devices, as on a tape image *)
Definition C72_reel_device := file_of (firstn 132 C73_bytes).
Definition C72_file_device := file_of (skipn 132 C73_bytes).
Definition C72_open (o : Z) : dres device := if o =? 0 then DOk C72_reel_device else if o =? 156 then DOk C72_file_device else DErr EofError.
Definition C72_stopped (d : device) (q : Z) : Z := q + 24.
Example C72_devices_example :
  course (fun o x => C72_open o = match x with Some d => DOk d | None => DErr EofError end) C72_stopped true 0
    [DDelimiter 132 C50_reel; DFile C72_file_device [(128, 62, 0); (64, 89, 62); (0, 10, 151); (64, 49, 161); (0, 10, 210); (129, 62, 220)]] /\
  results (index_all quiet C72_open C72_stopped 5 (new_indexer 0)) (fun st f => data_format_specs f 7) = Some (Ok (Some [C73_format1; C73_format2])).
Proof.
  assert (D : C72_reel_device = file_of (one_record (z2b 132) C50_reel)) by (vm_compute; reflexivity).
  split; [|vm_compute; reflexivity].
  apply co_delimiter with (d := C72_reel_device) (last := 132) (q := 132); [reflexivity | | cbn; tauto | |].
  - rewrite D. destruct (one_record_spec 0 0 (z2b 132) C50_reel ltac:(vm_compute; reflexivity)) as [S G]. exists [], (one_record (z2b 132) C50_reel).
    split; [here 0%nat|]. split; [exact G|]. split; [exact S | vm_compute; reflexivity].
  - right. exists []. split; [exists x00, 0%nat; auto|]. split; [exists (d_data C72_reel_device); split; vm_compute; reflexivity | vm_compute; reflexivity].
  - change (C72_stopped C72_reel_device 132) with 156.
    change [(128, 62, 0); (64, 89, 62); (0, 10, 151); (64, 49, 161); (0, 10, 210); (129, 62, 220)] with
      ([(128, 62, 0); (64, 89, 62); (0, 10, 151); (64, 49, 161); (0, 10, 210)] ++ [(129, 62, 220)]).
    apply co_closed with (last := 282) (q := 282); [reflexivity | | inside_tac | cbn; tauto | intros HH; vm_compute in HH; discriminate HH | |].
    + cbn [app]. rec 128 C50_data 0%nat. rec 64 format1 62%nat. rec 0 (map z2b [1; 2; 3; 4]) 151%nat. rec 64 format2 161%nat. rec 0 (map z2b [1; 0; 2; 0]) 210%nat.
      rec 129 C50_data 220%nat. apply ra_nil.
    + right. exists []. split; [exists x00, 0%nat; auto|]. split; [exists (d_data C72_file_device); split; vm_compute; reflexivity | vm_compute; reflexivity].
    + apply co_end. reflexivity.
Qed.
Example C72_example : SpecLisLoad.layout C73_bytes true 0 C73_secs /\ 12 <= len C73_bytes /\ (forall type, ~ starts_with_mark C73_bytes type) /\
  results C73_loaded (fun st f => (header f 0, trailer f 3)) = Some (([], Ok (Some C73_header)), ([], Ok (Some (FileTrailer
    (mk_file_record (text "LIS1  .001") (text "SUBLVL") (text "VERSION1") (text "79/06/15") (text " 1024") (text "LO") (text "PREVFILE10")))))) /\
  results C73_loaded (fun st f => (option_map ht_header (nth_error (fi_reels st) (lf_reel f)), option_map ht_trailer (nth_error (fi_reels st) (lf_reel f)))) =
    Some (Some ([], Ok (Some (ReelHeader (mk_reel_tape (text "SERVCE") (text "79/06/15") (text "ORGN") (text "REELNAME") (text "01") (text "PREVREEL") (repeat "c"%byte 74))))),
          Some ([Info], Ok None)) /\
  results C73_loaded (fun st f => (option_map ht_header (nth_error (fi_tapes st) (lf_tape f)))) = Some (Some ([Warning], Ok None)) /\
  results C73_loaded (fun st f => (data_format_specs f 7, wellsite_data f 7, parse_records f 0 7, parse_records f 47 7)) =
    Some (Ok (Some [C73_format1; C73_format2]), Ok (Some []), Ok (Some []), Ok (Some [])) /\
  parse_record (mk_info 47 6 0, []) = Ok None.
Proof.
  split; [exact C73_layout|]. split; [vm_compute; discriminate|]. split; [exact (proj2 (proj1 (check_plain C73_bytes) ltac:(vm_compute; reflexivity)))|].
  repeat (split; [vm_compute; reflexivity|]). vm_compute. reflexivity.
Qed.
Example C73_example :
  part (C73_records ++ [(129, 62, 352)]) [(128, 62, 132)] (64, 89, 194) [(0, 10, 283)] /\
  part (C73_records ++ [(129, 62, 352)]) (firstn 3 C73_records) (64, 49, 293) [(0, 10, 342); (129, 62, 352)] /\
  data_contents [(0, 10, 342); (129, 62, 352)] [map z2b [1; 0; 2; 0]; C50_data] [map z2b [1; 0; 2; 0]] /\
  results C73_loaded (fun st f => file_curves str_of (fun _ => []) f C73_format1 None true) =
    Some (Ok ([mk_column (str_of (text "DEPT")) (text "u1") 1 1; mk_column (str_of (text "CHAN")) (text "u1") 1 1], ints [1; 2; 3; 4], 2)) /\
  results C73_loaded (fun st f => file_curves str_of (fun _ => []) f C73_format2 None true) =
    Some (Ok ([mk_column (str_of (text "TIME")) (text "i2") 2 1], ints [0; 1; 0; 2], 2)).
Proof.
  split; [|split; [|split; [|split; vm_compute; reflexivity]]].
  - apply part_of with (rest := [(64, 49, 293); (0, 10, 342); (129, 62, 352)]); [reflexivity | reflexivity | | right; eexists _, _; split; reflexivity].
    intros x [<-|[]]. discriminate.
  - apply part_of with (rest := []); [reflexivity | reflexivity | | left; reflexivity]. intros x [<-|[<-|[]]]; discriminate.
  - apply dc_take; [left; reflexivity|]. apply dc_drop; [intros [H|[H|[]]]; discriminate | constructor].
Qed.

(** A format specification of another logical file is not refused: positions are
    relative to the logical file, so it is taken for the one at the same place. *)
Definition C73_two : bytes :=
  one_record (z2b 64) format2 ++ one_record x00 (map z2b [1; 0; 2; 0]) ++ one_record (z2b 129) C50_data ++
  one_record (z2b 64) format1 ++ one_record x00 (map z2b [1; 2; 3; 4]) ++ one_record (z2b 129) C50_data.
Definition C73_files : indexer :=
  Eval vm_compute in match load quiet never_tif plain_stopped (length C73_two + 2) C73_two with (_, Ok st) => st | _ => new_indexer 0 end.
Definition C73_file (n : nat) : logical_file := nth n (fi_files C73_files) (mk_lf (file_of []) (mk_index [] [] false) 0 0).
Theorem C73_foreign_refuted :
  load quiet never_tif plain_stopped (length C73_two + 2) C73_two = ([], Ok C73_files) /\ fi_files C73_files = [C73_file 0; C73_file 1] /\
  exists x, data_format_specs (C73_file 0) 0 = Ok (Some [x]) /\ data_format_specs (C73_file 1) 0 <> Ok (Some [x]) /\
    file_curves str_of (fun _ => []) (C73_file 1) x None true = Ok ([mk_column (str_of (text "TIME")) (text "i2") 2 1], ints [2; 1; 4; 3], 2).
Proof.
  split; [vm_compute; reflexivity|]. split; [vm_compute; reflexivity|].
  exists (Format (mk_info 64 49 0) (mk_dfsr [C73_end] [C73_spec (text "TIME") 2 79])). split; [vm_compute; reflexivity|].
  split; [|vm_compute; reflexivity].
  replace (data_format_specs (C73_file 1) 0) with
    (Ok (Some [Format (mk_info 64 89 0) (mk_dfsr [C73_end] [C73_spec (text "DEPT") 1 66; C73_spec (text "CHAN") 1 66])])) by (vm_compute; reflexivity).
  discriminate.
Qed.
Print Assumptions C73_foreign_refuted.
