(** C90: curves of LIS files whose mnemonics may not decode. *)
From Verif Require Import Bytes BytesProofs DlisTypes SpecTypes SpecCore Stream SpecIo DlisRecords DlisFdata LisTypes LisProtocol LisPy LisInfo LisCurves
  SpecLisCurves LisCurvesProofs5 SpecLisProtocol LisIo SpecLisIo LisLoad SpecLisLoad LisFile SpecLisFile SpecLisPy LisPyProofs CommonPy LisText SpecLisText LisTextProofs
  PropLisIo PropLisCurves PropLisPy PropLisLoad PropLisFile SpecLisAny PropLisBefore.
Local Open Scope Z_scope.

(** ** Curves *)

(** If the mnemonics of the columns that are read decode, the array is that of C53, with
    those texts for names.  Channels that are not read, because they have another rate
    or are suppressed, may be called anything. *)
Theorem C90_curves : forall dec names dv after ix tell d asked strict l rate chans cols heads datas rows last,
  agrees_with dec names -> layout_of d l -> usable l -> rate_used l asked rate -> 1 <= rate <= 255 -> chosen rate (layout_channels l) chans ->
  (forall s, In s (read_specs l chans) -> exists u, reads_as dec s u) ->
  dtype_of names rate l strict cols ->
  implicits_of ix tell = Some heads -> Forall2 (fun h data => fst (read_record dv h 0) = DOk data) heads datas ->
  data_records rate l None datas rows last ->
  exists fs, curves_any dec dv after ix tell d asked strict = Ok (fs, concat rows, Z.of_nat (length rows)) /\ Forall2 as_field cols fs.
Proof.
  intros dec names dv after ix tell d asked strict l rate chans cols heads datas rows last A LO U RU R C T DT IM F D.
  exists (map field_of cols). split; [|apply fields_as]. rewrite (curves_text dec names A).
  - rewrite (C53_rows names dv after ix tell d asked strict l rate cols heads datas rows last LO U RU R DT IM F D). reflexivity.
  - intros mode rate' M P s I. destruct (layout_specs d l LO) as (_ & _ & M'). rewrite M' in M. injection M as <-.
    apply (rate_iff d l asked rate LO) in RU. rewrite RU in P. injection P as <-. rewrite (read_list_spec d l rate chans LO U C) in I. exact (T s I).
Qed.
Print Assumptions C90_curves.

(** If the mnemonic of one of them does not decode, curves() raises, strict or not. *)
Theorem C90_refused : forall dec dv after ix tell d asked strict l rate chans s,
  layout_of d l -> usable l -> rate_used l asked rate -> chosen rate (layout_channels l) chans ->
  In s (read_specs l chans) -> (forall u, ~ reads_as dec s u) -> curves_any dec dv after ix tell d asked strict = Exn.
Proof.
  intros dec dv after ix tell d asked strict l rate chans s LO U RU C I N. destruct (dec (sp_mnemonic s)) as [u|b] eqn:E; [destruct (N u E)|].
  exact (refused dec dv after ix tell d asked strict l rate chans s b LO U RU C I E).
Qed.
Print Assumptions C90_refused.

(** Conversely, if curves() returns an array, whatever is in the file, all the names that
    are read decode, and it is the array of C53 and C54 for those names. *)
Theorem C90_exact : forall dec names dv after ix tell d asked strict fs cells n, agrees_with dec names ->
  curves_any dec dv after ix tell d asked strict = Ok (fs, cells, n) ->
  exists l rate chans cols, layout_of d l /\ usable l /\ rate_used l asked rate /\ chosen rate (layout_channels l) chans /\
    (forall s, In s (read_specs l chans) -> exists u, reads_as dec s u) /\
    Forall2 as_field cols fs /\ curves names dv after ix tell d asked strict = Ok (cols, cells, n).
Proof.
  intros dec names dv after ix tell d asked strict fs cells n A H.
  assert (ALL : forall mode rate, depth_mode d = Ok mode -> pick_rate mode d asked = Ok rate -> forall s, In s (read_list mode d rate) -> exists u, reads_as dec s u).
  { intros mode rate M P. destruct (all_or_one dec (read_list mode d rate)) as [T|(s & b & I & B)]; [exact T|]. exfalso.
    unfold curves_any, frame_config_any in H. rewrite M in H. cbn [rbind] in H. rewrite P in H. cbn [rbind] in H. destruct (validate_dfsr d); try discriminate. cbn [rbind] in H.
    destruct (if pv_is mode 1 then directional_spacing d else Ok (PInt 0)); try discriminate. cbn [rbind] in H. destruct (dfsr_fmtstr mode a d rate) as [[? ?]| | |]; try discriminate. cbn [rbind] in H.
    rewrite (dtype_raw dec mode a d rate strict s b I B) in H. discriminate. }
  rewrite (curves_text dec names A dv after ix tell d asked strict ALL) in H. unfold rmap in H.
  destruct (curves names dv after ix tell d asked strict) as [[[cols cells'] n']| | |] eqn:E; try discriminate. cbn [rbind] in H. injection H as <- <- <-.
  assert (CF : exists fc, frame_config names d asked strict = Ok (fc, cols)).
  { unfold curves in E. destruct (frame_config names d asked strict) as [[fc c']| | |]; try discriminate. cbn [rbind] in E. destruct (read_data_records fc dv after ix tell) as [[? ?]| | |]; try discriminate.
    injection E as -> _ _. exists fc. reflexivity. }
  destruct CF as (fc & CF). destruct (config_inv names d asked strict fc cols CF) as (l & rate & c & k & m & its & LO & U & RU & _).
  assert (US : Forall usable_channel (layout_channels l)) by (destruct l; cbn in *; tauto). destruct (chosen_filter rate (layout_channels l) US) as [C _].
  eexists l, rate, _, cols. split; [exact LO|]. split; [exact U|]. split; [exact RU|]. split; [exact C|]. split; [|split; [apply fields_as|reflexivity]].
  intros s I. rewrite <- (read_list_spec d l rate _ LO U C) in I. destruct (layout_specs d l LO) as (_ & _ & M). apply (rate_iff d l asked rate LO) in RU. exact (ALL _ _ M RU s I).
Qed.
Print Assumptions C90_exact.

(** ** From the bytes of a file *)

(** what holds for names that are text, for names that may not be *)
Lemma from_text dec mem f info d datas :
  (forall names asked strict l rate cols rows lasti, layout_of d l -> usable l -> rate_used l asked rate -> 1 <= rate <= 255 -> dtype_of names rate l strict cols ->
     data_records rate l None datas rows lasti -> file_curves names mem f (Format info d) asked strict = Ok (cols, concat rows, Z.of_nat (length rows))) ->
  forall asked strict l rate chans,
  layout_of d l -> usable l -> rate_used l asked rate -> 1 <= rate <= 255 -> chosen rate (layout_channels l) chans ->
  (forall names cols rows lasti, agrees_with dec names -> (forall s, In s (read_specs l chans) -> exists u, reads_as dec s u) ->
     dtype_of names rate l strict cols -> data_records rate l None datas rows lasti ->
     exists fs, file_curves_any dec mem f (Format info d) asked strict = Ok (fs, concat rows, Z.of_nat (length rows)) /\ Forall2 as_field cols fs) /\
  (forall s, In s (read_specs l chans) -> (forall u, ~ reads_as dec s u) -> file_curves_any dec mem f (Format info d) asked strict = Exn).
Proof.
  intros X4 asked strict l rate chans LO U RU R CH. cbn [file_curves_any]. split.
  - intros names cols rows lasti A T DT DR. exists (map field_of cols). split; [|apply fields_as]. rewrite (curves_text dec names A).
    + specialize (X4 names asked strict l rate cols rows lasti LO U RU R DT DR). cbn [file_curves] in X4. rewrite X4. reflexivity.
    + intros mode rate' M Q s I. destruct (layout_specs _ l LO) as (_ & _ & M'). rewrite M' in M. injection M as <-.
      apply (rate_iff _ l asked rate LO) in RU. rewrite RU in Q. injection Q as <-. rewrite (read_list_spec _ l rate chans LO U CH) in I. exact (T s I).
  - intros s I NT. exact (C90_refused dec _ _ _ _ _ asked strict l rate chans s LO U RU CH I NT).
Qed.
(** the curves of the format specifications of a logical file, as in C73_plain *)
Theorem C90_plain : forall esc open_tif tif_stopped data secs,
  12 <= len data -> (forall type, ~ starts_with_mark data type) -> SpecLisLoad.layout data true 0 secs ->
  exists st, load esc open_tif tif_stopped (length data + 2) data = ([], Ok st) /\
  forall before rs after, secs = before ++ File rs :: after ->
  exists f, nth_error (fi_files st) (count_files before) = Some f /\
    forall a r b ds db datas, part rs a r b -> contents 0 data r ds -> Forall2 (contents 0 data) b db -> data_contents b db datas ->
    forall q xs, data_format_specs f q = Ok (Some xs) ->
    exists x info es sps, nth_error xs (formats a) = Some x /\ x = Format info (mk_dfsr es sps) /\ dfsr_bytes ds es sps /\
    forall dec mem asked strict l rate chans,
    layout_of (mk_dfsr es sps) l -> usable l -> rate_used l asked rate -> 1 <= rate <= 255 -> chosen rate (layout_channels l) chans ->
    (forall names cols rows lasti, agrees_with dec names -> (forall s, In s (read_specs l chans) -> exists u, reads_as dec s u) ->
       dtype_of names rate l strict cols -> data_records rate l None datas rows lasti ->
       exists fs, file_curves_any dec mem f x asked strict = Ok (fs, concat rows, Z.of_nat (length rows)) /\ Forall2 as_field cols fs) /\
    (forall s, In s (read_specs l chans) -> (forall u, ~ reads_as dec s u) -> file_curves_any dec mem f x asked strict = Exn).
Proof.
  intros esc ot ts data secs L N Y. destruct (C73_plain esc ot ts data secs L N Y) as (st & E & D). exists st. split; [exact E|].
  intros before rs after S. destruct (D before rs after S) as (f & F1 & F2). exists f. split; [exact F1|].
  intros a r b ds db datas P C Fb Dc q xs H. destruct (F2 a r b ds db datas P C Fb Dc q xs H) as (x & info & es & sps & X1 & X2 & X3 & X4).
  exists x, info, es, sps. split; [exact X1|]. split; [exact X2|]. split; [exact X3|]. subst x. intros dec mem. apply from_text.
  intros names asked strict l rate cols rows lasti. apply X4.
Qed.
Print Assumptions C90_plain.

(** the same through any devices, such as tape images *)
Theorem C90_devices : forall esc openlis stopped o secs,
  course (fun o x => openlis o = match x with Some d => DOk d | None => DErr EofError end) stopped true o secs ->
  exists n, forall fuel, (n <= fuel)%nat ->
  exists st, index_all esc openlis stopped fuel (new_indexer o) = ([], Ok st) /\
  forall before d rs after, secs = before ++ DFile d rs :: after ->
  exists f, nth_error (fi_files st) (dcount_files before) = Some f /\
    forall a r b ds db datas, part rs a r b -> contents (d_offset d) (d_data d) r ds -> Forall2 (contents (d_offset d) (d_data d)) b db -> data_contents b db datas ->
    forall q xs, data_format_specs f q = Ok (Some xs) ->
    exists x es sps, nth_error xs (formats a) = Some x /\ x = Format (entry r) (mk_dfsr es sps) /\ dfsr_bytes ds es sps /\
    forall dec mem asked strict l rate chans,
    layout_of (mk_dfsr es sps) l -> usable l -> rate_used l asked rate -> 1 <= rate <= 255 -> chosen rate (layout_channels l) chans ->
    (forall names cols rows lasti, agrees_with dec names -> (forall s, In s (read_specs l chans) -> exists u, reads_as dec s u) ->
       dtype_of names rate l strict cols -> data_records rate l None datas rows lasti ->
       exists fs, file_curves_any dec mem f x asked strict = Ok (fs, concat rows, Z.of_nat (length rows)) /\ Forall2 as_field cols fs) /\
    (forall s, In s (read_specs l chans) -> (forall u, ~ reads_as dec s u) -> file_curves_any dec mem f x asked strict = Exn).
Proof.
  intros esc openlis stopped o secs Y. destruct (C73_devices esc openlis stopped o secs Y) as (n & A). exists n. intros fuel Fu.
  destruct (A fuel Fu) as (st & E & D). exists st. split; [exact E|].
  intros before d rs after S. destruct (D before d rs after S) as (f & F1 & F2). exists f. split; [exact F1|].
  intros a r b ds db datas P C Fb Dc q xs H. destruct (F2 a r b ds db datas P C Fb Dc q xs H) as (x & es & sps & X1 & X2 & X3 & X4).
  exists x, es, sps. split; [exact X1|]. split; [exact X2|]. split; [exact X3|]. subst x. intros dec mem. apply from_text.
  intros names asked strict l rate cols rows lasti. apply X4.
Qed.
Print Assumptions C90_devices.

(** *** in files that are damaged behind it *)
Definition named_curves (f : LisLoad.logical_file) (x : parsed) (es : list entry_block) (sps : list spec_block) (datas : list bytes) : Prop :=
  forall dec mem asked strict l rate chans,
  layout_of (mk_dfsr es sps) l -> usable l -> rate_used l asked rate -> 1 <= rate <= 255 -> chosen rate (layout_channels l) chans ->
  (forall names cols rows lasti, agrees_with dec names -> (forall s, In s (read_specs l chans) -> exists u, reads_as dec s u) ->
     dtype_of names rate l strict cols -> data_records rate l None datas rows lasti ->
     exists fs, file_curves_any dec mem f x asked strict = Ok (fs, concat rows, Z.of_nat (length rows)) /\ Forall2 as_field cols fs) /\
  (forall s, In s (read_specs l chans) -> (forall u, ~ reads_as dec s u) -> file_curves_any dec mem f x asked strict = Exn).
Theorem C90_before : forall esc open_tif tif_stopped fuel data secs rest,
  12 <= len data -> (forall type, ~ starts_with_mark data type) -> so_far data 0 secs rest -> (length data + 2 <= fuel)%nat ->
  (exists log st, load esc open_tif tif_stopped fuel data = (log, Ok st) /\ (log = [] \/ log = [CRITICAL] /\ esc CRITICAL = false) /\
     forall before rs after, secs = before ++ File rs :: after ->
     exists f, nth_error (fi_files st) (count_files before) = Some f /\
       forall a r b ds db datas, part rs a r b -> contents 0 data r ds -> Forall2 (contents 0 data) b db -> data_contents b db datas ->
       forall q xs, data_format_specs f q = Ok (Some xs) ->
       exists x info es sps, nth_error xs (formats a) = Some x /\ x = Format info (mk_dfsr es sps) /\ dfsr_bytes ds es sps /\ named_curves f x es sps datas) \/
  (load esc open_tif tif_stopped fuel data = ([CRITICAL], Exn) /\ esc CRITICAL = true).
Proof.
  intros esc ot ts fuel data secs rest L N S F. destruct (C89_before esc ot ts fuel data secs rest L N S F) as [(log & st & E & LG & D)|H]; [left|right; exact H].
  exists log, st. split; [exact E|]. split; [exact LG|]. intros before rs after EQ. destruct (D before rs after EQ) as (f & F1 & _ & F2). exists f. split; [exact F1|].
  intros a r b ds db datas P C Fb Dc q xs H. destruct (F2 a r b ds db datas P C Fb Dc q xs H) as (x & info & es & sps & X1 & X2 & X3 & X4).
  exists x, info, es, sps. split; [exact X1|]. split; [exact X2|]. split; [exact X3|]. subst x. intros dec mem. apply from_text.
  intros names asked strict l rate cols rows lasti. apply X4.
Qed.
Print Assumptions C90_before.

(** ** Metadata *)

(** curves_metadata() has them: as bytes, in their place.  If such a mnemonic is repeated
    it raises, strict or not. *)
Theorem C90_metadata : forall dec d l asked rate strict, layout_of d l -> df_specs d <> [] -> rate_used l asked rate ->
  let names := index_name dec l :: map (fun s => dec (sp_mnemonic s)) (at_rate rate l) in
  (NoDup names -> metadata_any dec d asked strict = Ok (combine names (index_block l :: map Some (at_rate rate l)))) /\
  (forall a u b c, names = a ++ CommonPy.Raw u :: b ++ CommonPy.Raw u :: c -> metadata_any dec d asked strict = Exn).
Proof.
  intros dec d l asked rate strict LO NE RU names. pose proof (metadata_names dec d l asked rate strict LO NE RU) as M. cbv zeta in M. fold names in M. rewrite M. split.
  - intros ND. rewrite (unique_any_id names ND). cbn [rbind]. rewrite same_names, andb_false_r. f_equal. apply dict_fold_nodup. rewrite fst_combine; [exact ND|].
    unfold names. cbn [length]. rewrite !map_length. reflexivity.
  - intros a u b c E. rewrite E, unique_bytes. reflexivity.
Qed.
Print Assumptions C90_metadata.

(** Repeated texts are refused if [strict], and numbered among themselves if not, whatever
    bytes are between them. *)
Theorem C90_repeated : forall dec d l asked rate strict, layout_of d l -> df_specs d <> [] -> rate_used l asked rate ->
  let names := index_name dec l :: map (fun s => dec (sp_mnemonic s)) (at_rate rate l) in
  NoDup (raws names) ->
  (strict = true -> ~ NoDup (texts names) -> metadata_any dec d asked strict = Exn) /\
  (strict = false -> forall ts, made_unique (texts names) ts -> unnumbered (texts names) ->
     metadata_any dec d asked strict = Ok (combine (with_texts names ts) (index_block l :: map Some (at_rate rate l)))).
Proof.
  intros dec d l asked rate strict LO NE RU names ND. pose proof (metadata_names dec d l asked rate strict LO NE RU) as M. cbv zeta in M. fold names in M. rewrite M, unique_mixed by exact ND.
  cbn [rbind]. split.
  - intros -> N. rewrite same_mixed by apply unique_length. cbn [andb].
    match goal with |- (if negb ?b then _ else _) = _ => destruct b eqn:E; [|reflexivity] end. exfalso. apply N.
    apply unique_fixed. apply forallb_combine; [apply unique_length|exact E].
  - intros -> ts MU U. rewrite (made_is _ _ MU U). cbn [andb]. f_equal. apply dict_fold_nodup.
    assert (LT : length ts = length (texts names)) by (destruct MU; assumption).
    rewrite fst_combine by (rewrite with_length by exact LT; unfold names; cbn [length]; rewrite !map_length; reflexivity).
    apply nodup_mixed; [exact LT| |exact ND]. rewrite <- (made_is _ _ MU U). apply unique_nodup. exact U.
Qed.
Print Assumptions C90_repeated.

(** bytes below 0x80 decode to themselves, others do not *)
Definition ascii (b : bytes) : CommonPy.pystr := if forallb (fun c => b2z c <? 128) b then Str (str_of b) else CommonPy.Raw b.
(** [two_rates] with a mnemonic that does not decode, of the channel at rate 2 *)
Definition odd_rates : dfsr :=
  mk_dfsr [] [a_spec (text "DEPT") 4 1 73; a_spec (text "SLOW") 2 1 79; a_spec (map z2b [255; 70]) 2 2 56; a_spec (map z2b [255; 70]) (-1) 1 56; a_spec (text "NUM ") 1 1 66].
Definition odd_curves (rate : option Z) (strict : bool) :=
  curves_any ascii (file_of (a_file two_frames)) (fun _ => []) (an_index 20) 6 odd_rates rate strict.
(** The suppressed channel and the one at the other rate do not matter; it does at rate 2.
    The metadata has the suppressed one, and at rate 1 nothing is repeated. *)
Example C90_example :
  layout_of odd_rates (Mode0 (a_spec (text "DEPT") 4 1 73) (tl (df_specs odd_rates))) /\
  odd_curves (Some 1) true = Ok ([mk_field (Str (str_of (text "DEPT"))) (text "i4") 4 1; mk_field (Str (str_of (text "SLOW"))) (text "i2") 2 1; mk_field (Str (str_of (text "NUM "))) (text "u1") 1 1],
      ints [10; 0; 0; 0; 2; 1; 6;  20; 0; 0; 0; 18; 17; 22], 2) /\
  odd_curves (Some 2) true = Exn /\ odd_curves (Some 2) false = Exn /\
  (exists m, metadata_any ascii odd_rates (Some 1) true = Ok m /\ map fst m = [Str (str_of (text "DEPT")); Str (str_of (text "SLOW")); CommonPy.Raw (map z2b [255; 70]); Str (str_of (text "NUM "))]) /\
  (exists m, metadata_any ascii (mk_dfsr [] (df_specs odd_rates ++ [a_spec (text "SLOW") 1 1 66])) (Some 1) false = Ok m /\
     map fst m = [Str (str_of (text "DEPT")); Str (str_of (text "SLOW(0)")); CommonPy.Raw (map z2b [255; 70]); Str (str_of (text "NUM ")); Str (str_of (text "SLOW(1)"))]) /\
  agrees_with ascii str_of.
Proof.
  split; [|split; [vm_compute; reflexivity|split; [vm_compute; reflexivity|split; [vm_compute; reflexivity|split; [eexists; split; vm_compute; reflexivity|split; [eexists; split; vm_compute; reflexivity|]]]]]].
  - constructor; [|reflexivity]. constructor. intros e [].
  - intros b u H. unfold ascii in H. destruct (forallb _ b); congruence.
Qed.
