(** C65: Frame.curves of a loaded file.  C66: Noformat.data.  C67: Channel.curves.
    C68: Frame.index.  See SpecDlisCurves.v. *)
From Coq Require Import Permutation.
From Verif Require Import Bytes BytesProofs Stream PyBase DlisTypes DlisCore SpecTypes SpecCore DlisIo SpecIo IoProofs DlisRecords SpecRecords DlisFdata SpecFdata Tapemark Lfp
  CommonPy DlisStore SpecDlisStore DlisStoreProofs2 DlisStoreProofs3 DlisStoreProofs6 DlisSchema DlisObject SpecDlisObject DlisObjectProofs
  SpecDlisLoad DlisFrame SpecDlisFrame DlisFrameProofs3 DlisFrameProofs6 DlisCurves SpecDlisCurves DlisCurvesProofs2 DlisCurvesProofs3 DlisCurvesProofs4 DlisCurvesProofs5.
From Verif Require DlisLoad.
From Verif Require PropFdata.
From Verif Require Import PropDlisStore PropDlisObject PropDlisFrame DlisCurvesExample.
Local Open Scope Z_scope.

(** ** What load makes of a file *)

(** A plain file with a label: every logical file that was written is there, its sets are
    those written and can be queried (C35), and its stream and index are those of its
    records.  So the theorems below are about the bytes of the file. *)
Theorem C65_loaded : forall esc ot tr lab fs,
  storage_label lab -> Forall wf_file fs -> len (lab ++ enc_files fs) < 2 ^ 63 ->
  exists st,
    (forall fuel, len (lab ++ enc_files fs) + 1 < Z.of_nat fuel -> DlisLoad.load esc ot tr fuel (lab ++ enc_files fs) = ([], Ok st)) /\
    Forall2 (fun f x => Forall2 set_reads (metadata (wf_contents f)) (DlisLoad.lf_sets x) /\ as_loaded (DlisLoad.lf_sets x) /\ parsable (DlisLoad.lf_sets x) /\
                        data_of (wf_recs f) (wf_contents f) (vs_stream (DlisLoad.lf_stream x)) (DlisLoad.lf_fdata x)) fs (DlisLoad.di_files st).
Proof.
  intros esc ot tr lab fs L W B. destruct (labelled_well esc ot tr lab fs L W B) as (st & H & F). exists st. split; [exact H|].
  clear - F W. induction F as [|f x fs xs ((_ & T & S & X) & A & P & I & Z) F IH]; constructor.
  - apply Forall_cons_iff in W as [(_ & W1 & W2 & _) _]. unfold data_of. auto 10.
  - apply Forall_cons_iff in W as [_ W]. exact (IH W).
Qed.
Print Assumptions C65_loaded.
(** Any file that loads, whatever is in it: its sets are those of records, each key of the
    index is there once. *)
Theorem C65_sound : forall esc ot tr fuel file l st, DlisLoad.load esc ot tr fuel file = (l, Ok st) ->
  Forall (fun x => as_loaded (DlisLoad.lf_sets x) /\ index_sound (DlisLoad.lf_fdata x)) (DlisLoad.di_files st).
Proof. intros esc ot tr fuel file l st H. apply (load_sound esc ot tr fuel file). rewrite H. reflexivity. Qed.
Print Assumptions C65_sound.

(** ** C65 *)

(** The curves of a frame, after any history of queries, for any type and format that
    can be made of its channels (C33, C34): a row for each row in the records of the
    frame, in the order of the file, and each item is the sample of that row and channel.
    Records of other frames may hold anything.
    The full statement is about all frames; it is false for those whose records cannot be
    recognised (C65_nul_refuted). *)
Theorem C65_curves_partial :
  forall dec enc esc set_order maxdims fmt after' strict sets ops recs cs s idx f chs cols d fs rows,
  logical_file dec enc sets -> a_set_order set_order -> Forall (op_ok dec enc) ops -> data_of recs cs s idx ->
  object_of sets f -> has_channels dec enc esc sets f chs -> Forall2 (described dec enc esc) chs cols ->
  frame_dtype maxdims fmt strict (map Some cols) = Some d -> frame_fmtstr (map Some cols) = Some fs ->
  recognised dec enc (text "FRAME") f (map snd (data_at 0 recs cs)) ->
  recorded (owned (text "FRAME") f) (frame_rows cols) recs cs rows ->
  exists cells logs ops', Forall (op_ok dec enc) ops' /\
    curves dec enc esc set_order maxdims fmt (after dec enc esc set_order sets ops) s after' idx (promote dec f) strict =
      (after dec enc esc set_order sets (ops ++ ops'), (logs, Ok (d, cells, Z.of_nat (length rows)))) /\
    Z.of_nat (length cells) = Z.of_nat (length rows) * itemsize d /\
    forall r j row fd k, nth_error rows r = Some row -> nth_error d j = Some fd -> nth_error row j = Some k -> cell_at d cells r fd = k.
Proof.
  intros dec enc esc set_order maxdims fmt after' strict sets ops recs cs s idx f chs cols d fs rows (L & P & T) O OK (W & H & (tail & E) & Z & R & S) I HC D DT FM K RC.
  destruct s as [data hard]. cbn [s_data] in E, Z. subst data.
  destruct (curves_of_frame dec enc esc set_order sets L P O T idx recs cs tail hard W H Z R S maxdims fmt after' strict f chs cols d fs rows I HC D DT FM K RC) as (cells & G & LC & C).
  destruct (G (after dec enc esc set_order sets ops)) as (logs & ops' & O' & X); [apply after_sane; assumption|].
  exists cells, logs, ops'. split; [exact O'|]. split; [|auto]. rewrite X. unfold after. rewrite fold_left_app. reflexivity.
Qed.
Print Assumptions C65_curves_partial.

(** With strict=True, in terms of the channels alone: known codes, positive dimensions,
    distinct labels.  The columns are FRAMENO and the channels in the order of the frame. *)
Theorem C65_strict_partial :
  forall dec enc esc set_order maxdims fmt after' sets ops recs cs s idx f chs cols ls rows,
  logical_file dec enc sets -> a_set_order set_order -> Forall (op_ok dec enc) ops -> data_of recs cs s idx ->
  object_of sets f -> has_channels dec enc esc sets f chs -> Forall2 (described dec enc esc) chs cols ->
  Forall (fits maxdims) cols -> (forall c, In c cols -> cl_dim c <> []) -> labels fmt cols ls -> ~ In [] ls -> NoDup (FRAMENO :: ls ++ map cl_fp cols) ->
  recognised dec enc (text "FRAME") f (map snd (data_at 0 recs cs)) ->
  recorded (owned (text "FRAME") f) (frame_rows cols) recs cs rows ->
  exists d cells, describes cols ls (map cl_fp cols) d /\
    snd (snd (curves dec enc esc set_order maxdims fmt (after dec enc esc set_order sets ops) s after' idx (promote dec f) true)) = Ok (d, cells, Z.of_nat (length rows)) /\
    forall r j row fd k, nth_error rows r = Some row -> nth_error d j = Some fd -> nth_error row j = Some k -> cell_at d cells r fd = k.
Proof.
  intros dec enc esc set_order maxdims fmt after' sets ops recs cs s idx f chs cols ls rows LF O OK DO I HC D FT DM LB NE ND K RC.
  destruct (proj2 (strict_iff maxdims fmt cols ls FT LB NE) ND) as (d & DT).
  destruct (formats_exist maxdims cols FT DM) as (fs & FM).
  destruct (strict_ok maxdims fmt cols d DT) as (ls' & LB' & DS & _).
  rewrite <- (labels_unique fmt cols ls ls' LB LB') in DS.
  destruct (C65_curves_partial dec enc esc set_order maxdims fmt after' true sets ops recs cs s idx f chs cols d fs rows) as (cells & logs & ops' & _ & X & _ & C); try assumption.
  exists d, cells. split; [exact DS|]. split; [rewrite X; reflexivity|exact C].
Qed.
Print Assumptions C65_strict_partial.

(** ** C66 *)

(** The data of a NOFORMAT object: what its records hold after its name, one after the
    other in the order of the file, without a message.  Which queries went before makes
    no difference: none is needed. *)
Theorem C66_data_partial :
  forall dec enc esc sets recs cs s idx o data,
  as_loaded sets -> data_of recs cs s idx -> object_of sets o ->
  recognised dec enc (text "NO-FORMAT") o (map snd (data_at 0 recs cs)) ->
  recorded (owned (text "NO-FORMAT") o) eq recs cs data ->
  noformat_data dec enc esc s idx o = ([], Ok data).
Proof.
  intros dec enc esc sets recs cs s idx o data L (W & H & (tail & E) & Z & R & S) I K RC. destruct s as [b hard]. cbn [s_data] in E, Z. subst b.
  apply noformat_ok with (sets := sets) (cs := cs); assumption.
Qed.
Print Assumptions C66_data_partial.

(** ** C67 *)

(** The curves of a channel that is listed by exactly one frame, where frames that are
    the same count as one as in C39, after any history: the channel's column of the
    curves of that frame, with the type of its samples.
    The full statement is about all channels; see C39 for its exceptions, and C65. *)
Theorem C67_curves_partial :
  forall dec enc esc set_order maxdims fmt after' sets ops recs cs s idx f chs cols d fs rows j self c lists,
  logical_file dec enc sets -> a_set_order set_order -> Forall (op_ok dec enc) ops -> data_of recs cs s idx ->
  kept dec enc (lit (text "FRAME")) -> kept dec enc (lit (text "CHANNEL")) ->
  (forall b, dec b = dec (ob_id (obj_name self)) -> b = ob_id (obj_name self)) ->
  (forall g, lists g = true <-> In (obj_name self) (listed enc g)) ->
  let frames := selected dec (pystr_eqb (lit (text "FRAME"))) (fun _ => true) sets in
  selected_raises dec esc (pystr_eqb (lit (text "FRAME"))) sets = false ->
  (forall g, In g frames -> frame_ok dec enc esc sets g) ->
  (* one frame lists it *)
  the_only (filter lists frames) f -> object_of sets f -> has_channels dec enc esc sets f chs -> nth_error chs j = Some self ->
  (* and the curves of that frame can be read *)
  Forall2 (described dec enc esc) chs cols -> nth_error cols j = Some c ->
  frame_dtype maxdims fmt true (map Some cols) = Some d -> frame_fmtstr (map Some cols) = Some fs ->
  recognised dec enc (text "FRAME") f (map snd (data_at 0 recs cs)) ->
  recorded (owned (text "FRAME") f) (frame_rows cols) recs cs rows ->
  exists t vals logs ops', sample_type c t /\ Forall2 (fun row v => nth_error row (S j) = Some v) rows vals /\ Forall (op_ok dec enc) ops' /\
    channel_curves dec enc esc set_order maxdims fmt (after dec enc esc set_order sets ops) s after' idx self =
      (after dec enc esc set_order sets (ops ++ ops'), (logs, Ok (Some (t, vals)))).
Proof.
  intros dec enc esc set_order maxdims fmt after' sets ops recs cs s idx f chs cols d fs rows j self c lists (L & P & T) O OK (W & H & (tail & E) & Z & R & S) KF KC U LS frames SR FO ONE I HC J1 D J2 DT FM K RC.
  destruct s as [data hard]. cbn [s_data] in E, Z. subst data.
  destruct (channel_curves_ok dec enc esc set_order sets L P O T idx recs cs tail hard W H Z R S KF KC maxdims fmt after' f chs cols d fs rows j self c lists I HC D DT FM K RC U LS SR FO ONE J1 J2)
    as (t & vals & ST & F & G).
  destruct (G (after dec enc esc set_order sets ops)) as (logs & ops' & O' & X); [apply after_sane; assumption|].
  exists t, vals, logs, ops'. split; [exact ST|]. split; [exact F|]. split; [exact O'|]. rewrite X. unfold after. rewrite fold_left_app. reflexivity.
Qed.
Print Assumptions C67_curves_partial.

(** ** C68 *)

(** The index of a frame after any history: None without channels; FRAMENO if the frame
    has no INDEX-TYPE; the name of its first channel otherwise. *)
Theorem C68_index : forall dec enc esc set_order sets ops f chs rc vs lg,
  logical_file dec enc sets -> a_set_order set_order -> Forall (op_ok dec enc) ops ->
  object_of sets f -> has_channels dec enc esc sets f chs ->
  stored enc f (lit (text "INDEX-TYPE")) rc vs lg -> calm dec enc esc f lg -> (forall t, In (VTime t) vs -> to_pydatetime t <> None) ->
  exists logs ops', Forall (op_ok dec enc) ops' /\
    frame_index dec enc esc set_order (after dec enc esc set_order sets ops) (promote dec f) =
      (after dec enc esc set_order sets (ops ++ ops'),
       (logs, Ok (match chs, vs with
                  | [], _ => None
                  | _, [] => Some (lit (text "FRAMENO"))
                  | ch :: _, _ => Some (dec (ob_id (obj_name ch)))
                  end))).
Proof.
  intros dec enc esc set_order sets ops f chs rc vs lg (L & P & T) O OK I H ST C TM.
  destruct (index_ok dec enc esc set_order sets L P O T (after dec enc esc set_order sets ops) f chs rc vs lg) as (logs & ops' & O' & X); try assumption.
  - apply after_sane; assumption.
  - exists logs, ops'. split; [exact O'|]. rewrite X. unfold after. rewrite fold_left_app. reflexivity.
Qed.
Print Assumptions C68_index.

(** It is the name of a column of the curves: FRAMENO, or the first channel's.  The full
    statement has no hypothesis about repeated names; it is false then
    (C68_column_refuted). *)
Theorem C68_column_partial : forall dec enc esc set_order maxdims fmt sets ops f ch chs c cols rc vs lg d,
  logical_file dec enc sets -> a_set_order set_order -> Forall (op_ok dec enc) ops ->
  object_of sets f -> has_channels dec enc esc sets f (ch :: chs) -> Forall2 (described dec enc esc) (ch :: chs) (c :: cols) ->
  stored enc f (lit (text "INDEX-TYPE")) rc vs lg -> calm dec enc esc f lg -> (forall t, In (VTime t) vs -> to_pydatetime t <> None) ->
  frame_dtype maxdims fmt true (map Some (c :: cols)) = Some d ->
  ~ repeated (c :: cols) (cl_name c) ->
  exists n fd, snd (snd (frame_index dec enc esc set_order (after dec enc esc set_order sets ops) (promote dec f))) = Ok (Some (Str n)) /\
    nth_error d (match vs with [] => 0 | _ => 1 end)%nat = Some fd /\ fd_name fd = n.
Proof.
  intros dec enc esc set_order maxdims fmt sets ops f ch chs c cols rc vs lg d LF O OK I H D ST C TM DT NR.
  destruct (C68_index dec enc esc set_order sets ops f (ch :: chs) rc vs lg LF O OK I H ST C TM) as (logs & ops' & _ & X). rewrite X. cbn [snd].
  destruct (strict_ok maxdims fmt (c :: cols) d DT) as (ls & LB & (DN & _) & _).
  inversion D as [|? ? ? ? (NM & _) _]; subst. inversion LB as [|? l ? ls' LO _]; subst.
  assert (l = cl_name c) as -> by (destruct LO as [[R _]|[_ E]]; [contradiction|exact E]).
  destruct d as [|f0 [|f1 d]]; try discriminate. cbn [map] in DN. injection DN as N0 N1 _.
  destruct vs as [|v vs].
  - exists FRAMENO, f0. split; [reflexivity|]. split; [reflexivity|exact N0].
  - exists (cl_name c), f1. rewrite NM. split; [reflexivity|]. split; [reflexivity|exact N1].
Qed.
Print Assumptions C68_column_partial.

(** ** A file *)
Definition no_tape1 (_ : bytes) (_ : Z) : option raw := None.
Definition no_tape2 (_ : raw) (_ : Z) : option rp66 := None.
Definition load_of (nm : bytes) : io DlisLoad.indexer := DlisLoad.load DlisStoreProofs6.quiet no_tape1 no_tape2 1000 (bytes_of nm).
Definition empty_file : DlisLoad.logical_file := DlisLoad.mk_file (mk_rp66 (mk_stream [] false) (fun n => n)) [] [] None.
(** the only logical file *)
Definition the_file (nm : bytes) : DlisLoad.logical_file :=
  match snd (load_of nm) with Ok st => hd empty_file (DlisLoad.di_files st) | _ => empty_file end.
Definition sets_in (nm : bytes) : list object_set := DlisLoad.lf_sets (the_file nm).
Definition stream_of (nm : bytes) : stream := vs_stream (DlisLoad.lf_stream (the_file nm)).
Definition index_of (nm : bytes) : fdata_index := DlisLoad.lf_fdata (the_file nm).
Lemma file_data nm : wf_file (wfile_of nm) -> len (bytes_of nm) < 900 ->
  as_loaded (sets_in nm) /\ parsable (sets_in nm) /\ data_of (file_records nm) (file_contents nm) (stream_of nm) (index_of nm).
Proof.
  intros W B. assert (W' : Forall wf_file [wfile_of nm]) by (constructor; [exact W|constructor]).
  destruct (C65_loaded DlisStoreProofs6.quiet no_tape1 no_tape2 label_bytes [wfile_of nm] label_is W') as (st & L & F).
  { change (len (bytes_of nm) < 2 ^ 63). change (2 ^ 63) with 9223372036854775808. lia. }
  assert (L' : load_of nm = ([], Ok st)) by (apply L; change (len (bytes_of nm) + 1 < Z.of_nat 1000); change (Z.of_nat 1000) with 1000; lia).
  unfold sets_in, stream_of, index_of, the_file. rewrite L'. cbn [snd]. inversion F as [|? x ? xs (_ & A & P & D) _]; subst. cbn [hd]. auto.
Qed.

(** text as Python's decoder makes it without any encoding set (C60) *)
Definition dec_utf8 (s : bytes) : pystr :=
  match snd (decode_str unit (fun _ _ => None) false [] s) with Some t => t | None => CommonPy.Raw s end.
(** the same, computed *)
Definition F_sets : list object_set := Eval vm_compute in sets_in (text "F").
Definition nul_sets : list object_set := Eval vm_compute in sets_in nul_name.
Definition F_frame : object := Eval vm_compute in nth_object F_sets 2 0.
Definition nul_frame : object := Eval vm_compute in nth_object nul_sets 2 0.
Definition F_channels : list object := Eval vm_compute in [nth_object F_sets 1 0; nth_object F_sets 1 1].
Definition F_noformat : object := Eval vm_compute in nth_object F_sets 3 0.
Lemma F_sets_eq : sets_in (text "F") = F_sets.
Proof. vm_compute. reflexivity. Qed.
Lemma nul_sets_eq : sets_in nul_name = nul_sets.
Proof. vm_compute. reflexivity. Qed.

Lemma the_rows : frame_rows cols_of [x01; x07; x00; x02; xff; xfe] (firstn 1 rows_of) /\ frame_rows cols_of [x02; x08; x00; x03; x00; x04] (skipn 1 rows_of).
Proof.
  split.
  - apply (frs_cons cols_of [x01; x07; x00; x02; xff; xfe] _ [] []); [|constructor].
    apply (fr cols_of [x01] _ [x07; x00; x02; xff; xfe]); [apply uvari_sample; reflexivity|].
    apply (cs_cons _ "u" [x07]); [split; [cbn; lia | reflexivity] | apply (row_cons "u" [x07] (PropFdata.raw [x07]) [] [] []); [apply PropFdata.ushort_sample | constructor]|].
    apply (cs_cons _ "D" [x00; x02; xff; xfe] _ [] []); [split; [cbn; lia | reflexivity]| |constructor].
    apply (row_cons "D" [x00; x02] (PropFdata.raw [x02; x00]) ["D"%byte] [xff; xfe] (PropFdata.raw [xfe; xff])); [apply (PropFdata.snorm_sample _ _ 2); [split; cbn; lia | reflexivity]|].
    apply (row_cons "D" [xff; xfe] (PropFdata.raw [xfe; xff]) [] [] []); [apply (PropFdata.snorm_sample _ _ (-2)); [split; cbn; lia | reflexivity] | constructor].
  - apply (frs_cons cols_of [x02; x08; x00; x03; x00; x04] _ [] []); [|constructor].
    apply (fr cols_of [x02] _ [x08; x00; x03; x00; x04]); [apply uvari_sample; reflexivity|].
    apply (cs_cons _ "u" [x08]); [split; [cbn; lia | reflexivity] | apply (row_cons "u" [x08] (PropFdata.raw [x08]) [] [] []); [apply PropFdata.ushort_sample | constructor]|].
    apply (cs_cons _ "D" [x00; x03; x00; x04] _ [] []); [split; [cbn; lia | reflexivity]| |constructor].
    apply (row_cons "D" [x00; x03] (PropFdata.raw [x03; x00]) ["D"%byte] [x00; x04] (PropFdata.raw [x04; x00])); [apply (PropFdata.snorm_sample _ _ 3); [split; cbn; lia | reflexivity]|].
    apply (row_cons "D" [x00; x04] (PropFdata.raw [x04; x00]) [] [] []); [apply (PropFdata.snorm_sample _ _ 4); [split; cbn; lia | reflexivity] | constructor].
Qed.
Lemma recorded_as {A} own (P : bytes -> list A -> Prop) ty kind nm es xs recs cs rest : plain_name nm -> own = (kind, 1, 0, nm) -> P es xs -> recorded own P recs cs rest ->
  recorded own P (data_record_of ty (name_of nm) es :: recs) (Data (Some own) :: cs) (xs ++ rest).
Proof. intros N -> H R. eapply rec_own; [apply one_part; reflexivity|reflexivity|reflexivity|apply name_is, N|exact H|exact R]. Qed.
Ltac other_ := apply rec_other; [discriminate|].
Lemma frame_recorded nm : plain_name nm -> (text "other" <> nm) -> recorded (text "FRAME", 1, 0, nm) (frame_rows cols_of) (file_records nm) (file_contents nm) rows_of.
Proof.
  intros N D. unfold file_records, file_contents. do 4 other_. apply (recorded_as _ _ _ (text "FRAME") nm _ (firstn 1 rows_of)); [exact N|reflexivity|exact (proj1 the_rows)|].
  other_. apply rec_other; [congruence|]. apply (recorded_as _ _ _ (text "FRAME") nm _ (skipn 1 rows_of) _ _ []); [exact N|reflexivity|exact (proj2 the_rows)|]. other_. constructor.
Qed.

(** how the channels and the frame are described, with either decoder *)
Ltac values_ n := match goal with |- stored _ ?o _ _ _ _ =>
  change (@nil problem) with (at_log (nth n (obj_attrs o) new_attribute)); apply stored_values; vm_compute; auto end.
Ltac printed_ := split; [vm_compute; discriminate|exists (text "1"), (text "0"); split; [exact one_numeral|split; [exact zero_numeral|reflexivity]]].
Ltac channel_ more := split; [vm_compute; reflexivity|]; split; [eexists; split; [printed_|vm_compute; reflexivity]|];
  split; [vm_compute; reflexivity|]; split; [vm_compute; reflexivity|]; split; [left; vm_compute; reflexivity|]; split;
  [exists 15, [], []; split; [values_ 0%nat|split; [vm_compute; tauto|left; reflexivity]]|
   exists 15, []; split; [values_ 1%nat|split; [vm_compute; tauto|left; reflexivity]]].
Ltac channels_ := constructor; [channel_ 0|constructor; [channel_ 0|constructor]].
Ltac has_ := split; [left; vm_compute; reflexivity|];
  exists 23, [mk_obname 1 0 (text "A"); mk_obname 1 0 (text "B")], []; split; [values_ 0%nat|]; split; [left; reflexivity|]; split;
  [repeat constructor; try (vm_compute; reflexivity); eexists; (split; [vm_compute; reflexivity|left; reflexivity])|split; vm_compute; reflexivity].

Lemma F_described : Forall2 (described dec1 enc1 DlisStoreProofs6.quiet) F_channels cols_of.
Proof. channels_. Qed.
Lemma nul_described : Forall2 (described dec_utf8 enc1 DlisStoreProofs6.quiet) F_channels cols_of.
Proof. channels_. Qed.
Lemma F_has : has_channels dec1 enc1 DlisStoreProofs6.quiet F_sets F_frame F_channels.
Proof. has_. Qed.
Lemma nul_has : has_channels dec_utf8 enc1 DlisStoreProofs6.quiet nul_sets nul_frame F_channels.
Proof. has_. Qed.

Definition F_stream : stream := Eval vm_compute in stream_of (text "F").
Definition F_index : fdata_index := Eval vm_compute in index_of (text "F").
Definition nul_stream : stream := Eval vm_compute in stream_of nul_name.
Definition nul_index : fdata_index := Eval vm_compute in index_of nul_name.
Definition after_0 (_ : Z) : bytes := [].
Lemma F_file : logical_file dec1 enc1 F_sets /\ data_of (file_records (text "F")) (file_contents (text "F")) F_stream F_index.
Proof.
  destruct (file_data (text "F") file_F) as (A & P & D); [vm_compute; reflexivity|]. rewrite F_sets_eq in A, P.
  replace (stream_of (text "F")) with F_stream in D by (vm_compute; reflexivity). replace (index_of (text "F")) with F_index in D by (vm_compute; reflexivity).
  split; [|exact D]. split; [exact A|]. split; [exact P|]. apply Forall_forall. intros s _. apply kept1.
Qed.
Lemma nul_file : logical_file dec_utf8 enc1 nul_sets /\ data_of (file_records nul_name) (file_contents nul_name) nul_stream nul_index.
Proof.
  destruct (file_data nul_name file_nul) as (A & P & D); [vm_compute; reflexivity|]. rewrite nul_sets_eq in A, P.
  replace (stream_of nul_name) with nul_stream in D by (vm_compute; reflexivity). replace (index_of nul_name) with nul_index in D by (vm_compute; reflexivity).
  split; [|exact D]. split; [exact A|]. split; [exact P|]. repeat (constructor; [vm_compute; reflexivity|]). constructor.
Qed.
Lemma dec1_inj a b : dec1 a = dec1 b -> a = b.
Proof.
  unfold dec1, lit. intros E. assert (E' : map b2z a = map b2z b) by congruence. clear E. revert b E'. induction a as [|x a IH]; intros [|y b] E; try discriminate; [reflexivity|].
  cbn [map] in E. injection E as E1 E2. rewrite <- (z2b_b2z x), E1, z2b_b2z, (IH b E2). reflexivity.
Qed.
Lemma F_recognised ty o owners : In (ty, o) [(text "FRAME", F_frame); (text "NO-FORMAT", F_noformat)] -> recognised dec1 enc1 ty o owners.
Proof.
  intros [E|[E|[]]]; injection E as <- <-; (eexists; split; [split; [discriminate|exists (text "1"), (text "0"); split; [exact one_numeral|split; [exact zero_numeral|reflexivity]]]|]; split;
    [eexists; split; [split; [vm_compute; discriminate|exists (text "1"), (text "0"); split; [exact one_numeral|split; [exact zero_numeral|reflexivity]]]|vm_compute; reflexivity]|
     intros ? ? ? ? ? _ _ X; apply dec1_inj, X]).
Qed.
Lemma data_recorded nm : text "N" <> nm -> recorded (text "NO-FORMAT", 1, 0, text "N") eq (file_records nm) (file_contents nm) (text "PNG...").
Proof.
  intros D. unfold file_records, file_contents. do 5 other_. change (text "PNG...") with (text "PNG" ++ text "...").
  apply (recorded_as _ _ _ (text "NO-FORMAT") (text "N")); [split; [reflexivity|vm_compute; discriminate]|reflexivity|reflexivity|]. do 2 other_.
  rewrite <- (app_nil_r (text "...")). apply (recorded_as _ _ _ (text "NO-FORMAT") (text "N")); [split; [reflexivity|vm_compute; discriminate]|reflexivity|reflexivity|]. constructor.
Qed.
Lemma not_repeated cs n : NoDup (map cl_name cs) -> ~ repeated cs n.
Proof.
  intros ND (a & x & b & y & c & E & <- & N). rewrite E, map_app in ND. cbn [map] in ND. apply NoDup_remove_2 in ND. apply ND, in_or_app. right. rewrite <- N. apply in_map, in_or_app. right. left. reflexivity.
Qed.
Lemma F_names : NoDup (map cl_name cols_of).
Proof. repeat constructor; vm_compute; intuition discriminate. Qed.
Definition history_F : list operation := [Find (lit (text "FRAME")) (Some (lit (text "F"))) None; Cache false].
Definition store_F : store := after dec1 enc1 DlisStoreProofs6.quiet order1 F_sets history_F.
Lemma history_F_ok : Forall (op_ok dec1 enc1) history_F.
Proof. repeat constructor; try apply kept1; intros x H; discriminate H. Qed.

(** the hypotheses of C65_curves_partial and C65_strict_partial, and the curves *)
Example C65_hypotheses :
  logical_file dec1 enc1 F_sets /\ Forall (op_ok dec1 enc1) history_F /\ data_of (file_records (text "F")) (file_contents (text "F")) F_stream F_index /\
  object_of F_sets F_frame /\ has_channels dec1 enc1 DlisStoreProofs6.quiet F_sets F_frame F_channels /\ Forall2 (described dec1 enc1 DlisStoreProofs6.quiet) F_channels cols_of /\
  Forall (fits 32) cols_of /\ (forall c, In c cols_of -> cl_dim c <> []) /\ labels default_label cols_of (map cl_name cols_of) /\ ~ In [] (map cl_name cols_of) /\
  NoDup (FRAMENO :: map cl_name cols_of ++ map cl_fp cols_of) /\
  (exists d fs, frame_dtype 32 default_label true (map Some cols_of) = Some d /\ frame_fmtstr (map Some cols_of) = Some fs) /\
  recognised dec1 enc1 (text "FRAME") F_frame (map snd (data_at 0 (file_records (text "F")) (file_contents (text "F")))) /\
  recorded (owned (text "FRAME") F_frame) (frame_rows cols_of) (file_records (text "F")) (file_contents (text "F")) rows_of.
Proof.
  split; [exact (proj1 F_file)|]. split; [exact history_F_ok|]. split; [exact (proj2 F_file)|]. split.
  { exists (nth 2 F_sets (mk_set 0 [] [] [] [] [] false)). split; vm_compute; auto 6. }
  split; [exact F_has|]. split; [exact F_described|]. split.
  { constructor; [exists 1|constructor; [exists 2|constructor]]; repeat split; try reflexivity; try (cbn; lia); repeat constructor; lia. }
  split; [intros c [<-|[<-|[]]]; discriminate|]. split.
  { constructor; [|constructor; [|constructor]]; right; (split; [apply not_repeated, F_names|reflexivity]). }
  split; [cbn; intuition discriminate|]. split; [repeat constructor; vm_compute; intuition discriminate|].
  split; [eexists _, _; split; vm_compute; reflexivity|]. split; [apply F_recognised; left; reflexivity|].
  apply frame_recorded; [split; [reflexivity|vm_compute; discriminate]|discriminate].
Qed.
Example C65_example :
  exists d, frame_dtype 32 default_label true (map Some cols_of) = Some d /\ map fd_name d = [FRAMENO; map b2z (text "A"); map b2z (text "B")] /\
    snd (snd (curves dec1 enc1 DlisStoreProofs6.quiet order1 32 default_label store_F F_stream after_0 F_index (promote dec1 F_frame) true)) =
      Ok (d, concat (concat rows_of), 2).
Proof. eexists. split; [vm_compute; reflexivity|]. split; vm_compute; reflexivity. Qed.

(** *** Finding: a NUL in the name of a frame.  What follows it is lost when the name is
    decoded; of the key of the index even the origin and the copy number are.  The frame
    has two rows, but curves returns none, and says nothing. *)
Theorem C65_nul_refuted :
  exists dec enc esc set_order maxdims fmt after' sets recs cs s idx f chs cols d fs rows,
    (forall b, dec b = dec_utf8 b) /\ (forall p, esc p = false) /\
    logical_file dec enc sets /\ a_set_order set_order /\ data_of recs cs s idx /\
    object_of sets f /\ has_channels dec enc esc sets f chs /\ Forall2 (described dec enc esc) chs cols /\
    frame_dtype maxdims fmt true (map Some cols) = Some d /\ frame_fmtstr (map Some cols) = Some fs /\
    recorded (owned (text "FRAME") f) (frame_rows cols) recs cs rows /\ length rows = 2%nat /\
    snd (curves dec enc esc set_order maxdims fmt (after dec enc esc set_order sets []) s after' idx (promote dec f) true) = ([], Ok (d, [], 0)).
Proof.
  exists dec_utf8, enc1, DlisStoreProofs6.quiet, order1, 32%nat, default_label, after_0, nul_sets, (file_records nul_name), (file_contents nul_name), nul_stream, nul_index, nul_frame, F_channels, cols_of.
  eexists _, _, rows_of. split; [reflexivity|]. split; [reflexivity|]. split; [exact (proj1 nul_file)|]. split; [exact order1_ok|]. split; [exact (proj2 nul_file)|]. split.
  { exists (nth 2 nul_sets (mk_set 0 [] [] [] [] [] false)). split; vm_compute; auto 6. }
  split; [exact nul_has|]. split; [exact nul_described|]. split; [vm_compute; reflexivity|]. split; [vm_compute; reflexivity|]. split.
  { apply frame_recorded; [split; [reflexivity|vm_compute; discriminate]|discriminate]. }
  split; vm_compute; reflexivity.
Qed.
Print Assumptions C65_nul_refuted.

Example C66_example :
  object_of F_sets F_noformat /\
  recognised dec1 enc1 (text "NO-FORMAT") F_noformat (map snd (data_at 0 (file_records (text "F")) (file_contents (text "F")))) /\
  recorded (owned (text "NO-FORMAT") F_noformat) eq (file_records (text "F")) (file_contents (text "F")) (text "PNG...") /\
  noformat_data dec1 enc1 DlisStoreProofs6.quiet F_stream F_index F_noformat = ([], Ok (text "PNG...")).
Proof.
  split; [exists (nth 3 F_sets (mk_set 0 [] [] [] [] [] false)); split; vm_compute; auto 6|]. split; [apply F_recognised; right; left; reflexivity|].
  split; [apply data_recorded; discriminate|vm_compute; reflexivity].
Qed.

(** channel B: the hypotheses of C67_curves_partial that C65_hypotheses does not have *)
Definition channel_B : object := nth 1 F_channels F_frame.
Definition lists_B (g : object) : bool := existsb (obname_eqb (obj_name channel_B)) (listed enc1 g).
Example C67_hypotheses :
  kept dec1 enc1 (lit (text "FRAME")) /\ kept dec1 enc1 (lit (text "CHANNEL")) /\
  (forall b, dec1 b = dec1 (ob_id (obj_name channel_B)) -> b = ob_id (obj_name channel_B)) /\
  (forall g, lists_B g = true <-> In (obj_name channel_B) (listed enc1 g)) /\
  selected_raises dec1 DlisStoreProofs6.quiet (pystr_eqb (lit (text "FRAME"))) F_sets = false /\
  (forall g, In g (selected dec1 (pystr_eqb (lit (text "FRAME"))) (fun _ => true) F_sets) -> frame_ok dec1 enc1 DlisStoreProofs6.quiet F_sets g) /\
  filter lists_B (selected dec1 (pystr_eqb (lit (text "FRAME"))) (fun _ => true) F_sets) = [F_frame] /\
  the_only (filter lists_B (selected dec1 (pystr_eqb (lit (text "FRAME"))) (fun _ => true) F_sets)) F_frame /\ nth_error F_channels 1 = Some channel_B.
Proof.
  split; [apply kept1|]. split; [apply kept1|]. split; [intros b; apply dec1_inj|]. split.
  { intros g. unfold lists_B. rewrite existsb_exists. split; [intros (x & I & X); apply DlisStoreProofs4.obname_eqb_spec in X; congruence|].
    intros I. exists (obj_name channel_B). split; [exact I|]. apply DlisStoreProofs4.obname_eqb_spec. reflexivity. }
  split; [vm_compute; reflexivity|].
  assert (ONE : filter lists_B (selected dec1 (pystr_eqb (lit (text "FRAME"))) (fun _ => true) F_sets) = [F_frame]) by (vm_compute; reflexivity).
  split; [|split; [exact ONE|split; [rewrite ONE; exists []; split; [apply Permutation_refl|intros y []]|vm_compute; reflexivity]]]. clear ONE.
  replace (selected dec1 (pystr_eqb (lit (text "FRAME"))) (fun _ => true) F_sets) with [F_frame] by (vm_compute; reflexivity). intros g [<-|[]].
  split; [left; reflexivity|]. intros a [<-|[<-|[]]] LB; [|discriminate LB]. split; [left; reflexivity|].
  intros c vs v E. apply (f_equal (fun x => match x with Vec _ vs => vs | Mono => [] end)) in E. cbn [at_value F_frame obj_attrs] in E. subst vs.
  intros [<-|[<-|[]]]; eexists _, _; (split; [reflexivity|]; split; [apply kept1|]; split; [reflexivity|]; split; [vm_compute; reflexivity|]; exists []; split; [vm_compute; reflexivity|left; reflexivity]).
Qed.
Example C67_example :
  snd (snd (channel_curves dec1 enc1 DlisStoreProofs6.quiet order1 32 default_label store_F F_stream after_0 F_index channel_B)) =
    Ok (Some ((text "i2", [2]), [PropFdata.raw [x02; x00; xfe; xff]; PropFdata.raw [x03; x00; x04; x00]])).
Proof. vm_compute. reflexivity. Qed.

(** the set of frames twice: both frames list B, and they are the same *)
Definition FF_sets : list object_set := F_sets ++ [nth 2 F_sets (mk_set 0 [] [] [] [] [] false)].
Example C67_twice :
  the_only (filter lists_B (selected dec1 (pystr_eqb (lit (text "FRAME"))) (fun _ => true) FF_sets)) F_frame /\
  length (filter lists_B (selected dec1 (pystr_eqb (lit (text "FRAME"))) (fun _ => true) FF_sets)) = 2%nat /\
  snd (snd (channel_curves dec1 enc1 DlisStoreProofs6.quiet order1 32 default_label (after dec1 enc1 DlisStoreProofs6.quiet order1 FF_sets []) F_stream after_0 F_index channel_B)) =
    Ok (Some ((text "i2", [2]), [PropFdata.raw [x02; x00; xfe; xff]; PropFdata.raw [x03; x00; x04; x00]])).
Proof.
  assert (E : filter lists_B (selected dec1 (pystr_eqb (lit (text "FRAME"))) (fun _ => true) FF_sets) = [F_frame; F_frame]) by (vm_compute; reflexivity).
  rewrite E. split; [|split; [reflexivity|vm_compute; reflexivity]].
  exists [F_frame]. split; [apply Permutation_refl|]. intros y [<-|[]]. split; [reflexivity|].
  repeat (constructor; [repeat (split; [reflexivity|]); constructor; repeat constructor|]). constructor.
Qed.

Example C68_example :
  stored enc1 F_frame (lit (text "INDEX-TYPE")) 19 [VText (text "TIME")] [] /\ calm dec1 enc1 DlisStoreProofs6.quiet F_frame [] /\
  ~ repeated cols_of (cl_name (hd (channel [] 0 0 0 []) cols_of)) /\
  snd (snd (frame_index dec1 enc1 DlisStoreProofs6.quiet order1 store_F (promote dec1 F_frame))) = Ok (Some (lit (text "A"))).
Proof.
  split; [values_ 1%nat|]. split; [left; reflexivity|]. split; [apply not_repeated, F_names|vm_compute; reflexivity].
Qed.

(** *** Finding: the index is not always the name of a column, nor the title of one.  If
    the mnemonic of the first channel is also that of another one, both columns are
    called something else (C33), so that curves()[frame.index] raises. *)
Definition two_A : wset :=
  mk_wset Normal (text "CHANNEL") None [label_code (text "REPRESENTATION-CODE") 15; label_code (text "DIMENSION") 15]
    [mk_wobject 1 0 (text "A") [value_of [VNum 15]; value_of [VNum 1]]; mk_wobject 2 0 (text "A") [value_of [VNum 15]; value_of [VNum 1]]].
Definition frame_AA : wset :=
  mk_wset Normal (text "FRAME") None [label_code (text "CHANNELS") 23; label_code (text "INDEX-TYPE") 19]
    [mk_wobject 1 0 (text "F") [Given (mk_chars (Some 2) None None (Some [VName (mk_obname 1 0 (text "A")); VName (mk_obname 2 0 (text "A"))])); value_of [VText (text "TIME")]]].
Definition sets_AA : list object_set :=
  Eval vm_compute in sets_of (flat_map (fun w => match w_set w with Some e => [e] | None => [] end) [two_A; frame_AA]).
Definition channels_AA : list object := Eval vm_compute in [nth_object sets_AA 0 0; nth_object sets_AA 0 1].
Definition frame_of_AA : object := Eval vm_compute in nth_object sets_AA 1 0.
Lemma two_numeral : is_numeral (text "2") 2.
Proof. split; [discriminate|]. split; [repeat constructor; cbn; lia|]. split; [reflexivity|]. intros d t E T. injection E as _ <-. contradiction. Qed.
Theorem C68_column_refuted : exists dec enc esc set_order maxdims fmt sets f chs cols d n,
  logical_file dec enc sets /\ a_set_order set_order /\ (forall p, esc p = false) /\ (forall n o c, fmt n o c = default_label n o c) /\
  object_of sets f /\ has_channels dec enc esc sets f chs /\ Forall2 (described dec enc esc) chs cols /\
  frame_dtype maxdims fmt true (map Some cols) = Some d /\
  snd (snd (frame_index dec enc esc set_order (after dec enc esc set_order sets []) (promote dec f))) = Ok (Some (Str n)) /\
  forall fd, In fd d -> fd_name fd <> n /\ fd_title fd <> Some n.
Proof.
  exists dec1, enc1, DlisStoreProofs6.quiet, order1, 32%nat, default_label, sets_AA, frame_of_AA, channels_AA, [channel (text "A") 1 0 15 [1]; channel (text "A") 2 0 15 [1]].
  eexists _, (map b2z (text "A")). split.
  { split; [|split]; [repeat (constructor; [vm_compute; reflexivity|]); constructor|repeat (constructor; [vm_compute; discriminate|]); constructor|].
    apply Forall_forall. intros s _. apply kept1. }
  split; [exact order1_ok|]. split; [reflexivity|]. split; [reflexivity|].
  split; [exists (nth 1 sets_AA (mk_set 0 [] [] [] [] [] false)); split; vm_compute; auto 6|]. split.
  { split; [left; vm_compute; reflexivity|]. exists 23, [mk_obname 1 0 (text "A"); mk_obname 2 0 (text "A")], []. split; [values_ 0%nat|]. split; [left; reflexivity|]. split; [|split; vm_compute; reflexivity].
    constructor; [|constructor; [|constructor]]; (split; [apply kept1|]; split; [reflexivity|]; exists []; split; [vm_compute; reflexivity|left; reflexivity]). }
  split.
  { constructor; [channel_ 0|]. constructor; [|constructor].
    split; [vm_compute; reflexivity|]. split.
    { eexists. split; [split; [vm_compute; discriminate|exists (text "2"), (text "0"); split; [exact two_numeral|split; [exact zero_numeral|reflexivity]]]|vm_compute; reflexivity]. }
    split; [vm_compute; reflexivity|]; split; [vm_compute; reflexivity|]; split; [left; vm_compute; reflexivity|]; split.
    - exists 15, [], []; split; [values_ 0%nat|split; [vm_compute; tauto|left; reflexivity]].
    - exists 15, []; split; [values_ 1%nat|split; [vm_compute; tauto|left; reflexivity]]. }
  split; [vm_compute; reflexivity|]. split; [vm_compute; reflexivity|].
  intros fd [<-|[<-|[<-|[]]]]; split; vm_compute; discriminate.
Qed.
Print Assumptions C68_column_refuted.
