(** C65 and C66 without their restriction: names with a NUL.  See also C65_nul_refuted. *)
From Verif Require Import Bytes BytesProofs Stream PyBase DlisTypes DlisCore SpecTypes SpecCore DlisIo SpecIo IoProofs DlisRecords SpecRecords DlisFdata SpecFdata Tapemark Lfp
  CommonPy DlisStore SpecDlisStore DlisStoreProofs2 DlisStoreProofs3 DlisStoreProofs6 DlisSchema DlisObject SpecDlisObject DlisObjectProofs
  SpecDlisLoad DlisFrame SpecDlisFrame DlisFrameProofs3 DlisFrameProofs6 DlisCurves SpecDlisCurves.
From Verif Require DlisLoad.
From Verif Require Import PropDlisStore PropDlisObject PropDlisFrame DlisCurvesExample PropDlisCurves.
Local Open Scope Z_scope.

(** a file with two NOFORMAT objects and a record of each: X, and one whose name is that of
    X with an origin and a copy number, a NUL, and a letter *)
Definition long_name : bytes := text "X-O.1-C.0" ++ [x00; "Y"%byte].
Definition two_w : wset :=
  mk_wset Normal (text "NO-FORMAT") None [label_code (text "DESCRIPTION") 20]
    [mk_wobject 1 0 (text "X") [value_of [VText (text "image")]]; mk_wobject 1 0 long_name [value_of [VText (text "notes")]]].
Definition two_records : list (bool * list segment) :=
  [set_record x00 header_w; set_record x07 two_w; data_record_of x01 (name_of (text "X")) (text "PNG"); data_record_of x01 (name_of long_name) (text "mine")].
Definition two_contents : list content :=
  [Meta header_w; Meta two_w; Data (Some (text "NO-FORMAT", 1, 0, text "X")); Data (Some (text "NO-FORMAT", 1, 0, long_name))].
Definition two_wfile : wfile := mk_wfile two_records two_contents [firstn 60 (enc_records two_records); skipn 60 (enc_records two_records)].
Definition two_bytes : bytes := label_bytes ++ enc_files [two_wfile].
Lemma two_wf : wf_file two_wfile.
Proof. unfold two_wfile. split;
  [eexists _, _; split; [reflexivity|repeat split; reflexivity]|]; split;
  [cbn [SpecIo.logical_file wf_recs two_records orb set_record data_record_of]; repeat match goal with |- wf_record _ _ => split; [reflexivity|]; split; [constructor; [vm_compute; reflexivity|constructor]|]; split; repeat constructor | |- _ /\ _ => split | |- True => exact I end; intros X; try discriminate X; intros (_ & X1 & X2); first [discriminate X1|discriminate X2]|];
  split; [repeat (apply Forall2_cons; [first [set_|data_ plain_]|]); apply Forall2_nil|];
  split; [reflexivity|]; split; [repeat constructor; vm_compute; try reflexivity; discriminate|]; split; vm_compute; discriminate.
Qed.
Definition two_file : DlisLoad.logical_file :=
  match snd (DlisLoad.load DlisStoreProofs6.quiet no_tape1 no_tape2 1000 two_bytes) with Ok st => hd empty_file (DlisLoad.di_files st) | _ => empty_file end.
Lemma two_data : as_loaded (DlisLoad.lf_sets two_file) /\ data_of two_records two_contents (vs_stream (DlisLoad.lf_stream two_file)) (DlisLoad.lf_fdata two_file).
Proof.
  assert (W' : Forall wf_file [two_wfile]) by (constructor; [exact two_wf|constructor]).
  destruct (C65_loaded DlisStoreProofs6.quiet no_tape1 no_tape2 label_bytes [two_wfile] label_is W') as (st & L & F); [vm_compute; reflexivity|].
  assert (L' : DlisLoad.load DlisStoreProofs6.quiet no_tape1 no_tape2 1000 two_bytes = ([], Ok st)) by (apply L; vm_compute; reflexivity).
  unfold two_file. rewrite L'. cbn [snd]. inversion F as [|? x ? xs (_ & A & P & D) _]; subst. cbn [hd]. auto.
Qed.
Definition two_sets : list object_set := Eval vm_compute in DlisLoad.lf_sets two_file.
Definition two_stream : stream := Eval vm_compute in vs_stream (DlisLoad.lf_stream two_file).
Definition two_index : fdata_index := Eval vm_compute in DlisLoad.lf_fdata two_file.
Definition X_object : object := Eval vm_compute in nth_object two_sets 1 0.
Definition long_object : object := Eval vm_compute in nth_object two_sets 1 1.

(** *** Finding: what is behind the NUL is lost, so that the records of both objects have
    the same key, and those of the second take the place of those of the first.  X has the
    data of the other object, which itself has none; nothing is said about it.
    (The keys are here in the order in which std::map has them, see [fdata_dict].) *)
Theorem C66_foreign_refuted :
  exists dec enc esc sets recs cs s idx o o',
    (forall b, dec b = dec_utf8 b) /\ (forall p, esc p = false) /\ as_loaded sets /\ data_of recs cs s idx /\
    object_of sets o /\ object_of sets o' /\
    recorded (owned (text "NO-FORMAT") o) eq recs cs (text "PNG") /\ recorded (owned (text "NO-FORMAT") o') eq recs cs (text "mine") /\
    noformat_data dec enc esc s idx o = ([], Ok (text "mine")) /\ noformat_data dec enc esc s idx o' = ([], Ok []).
Proof.
  exists dec_utf8, enc1, DlisStoreProofs6.quiet, two_sets, two_records, two_contents, two_stream, two_index, X_object, long_object.
  split; [reflexivity|]. split; [reflexivity|]. destruct two_data as [A D].
  split; [replace two_sets with (DlisLoad.lf_sets two_file) by (vm_compute; reflexivity); exact A|].
  split; [replace two_stream with (vs_stream (DlisLoad.lf_stream two_file)) by (vm_compute; reflexivity); replace two_index with (DlisLoad.lf_fdata two_file) by (vm_compute; reflexivity); exact D|].
  split; [exists (nth 1 two_sets (mk_set 0 [] [] [] [] [] false)); split; vm_compute; auto 6|].
  split; [exists (nth 1 two_sets (mk_set 0 [] [] [] [] [] false)); split; vm_compute; auto 6|].
  split.
  { change (owned (text "NO-FORMAT") X_object) with (text "NO-FORMAT", 1, 0, text "X"). unfold two_records, two_contents. do 2 other_.
    rewrite <- (app_nil_r (text "PNG")). apply (recorded_as _ _ _ (text "NO-FORMAT") (text "X")); [plain_|reflexivity|reflexivity|]. other_. constructor. }
  split.
  { change (owned (text "NO-FORMAT") long_object) with (text "NO-FORMAT", 1, 0, long_name). unfold two_records, two_contents. do 3 other_.
    rewrite <- (app_nil_r (text "mine")). apply (recorded_as _ _ _ (text "NO-FORMAT") long_name); [plain_|reflexivity|reflexivity|]. constructor. }
  split; vm_compute; reflexivity.
Qed.
Print Assumptions C66_foreign_refuted.

(** ** The same for frames *)

(** a file with a frame F, a record of it with a row, and one of another frame, which has
    a NUL in its name *)
Definition long_frame : bytes := text "F-O.1-C.0" ++ [x00; "Y"%byte].
Definition fr_records : list (bool * list segment) :=
  [set_record x00 header_w; set_record x03 channels_w; set_record x04 (frame_w (text "F"));
   data_record_of x00 (name_of (text "F")) [x01; x07; x00; x02; xff; xfe]; data_record_of x00 (name_of long_frame) [x02; x08; x00; x03; x00; x04]].
Definition fr_contents : list content :=
  [Meta header_w; Meta channels_w; Meta (frame_w (text "F")); Data (Some (text "FRAME", 1, 0, text "F")); Data (Some (text "FRAME", 1, 0, long_frame))].
Definition fr_wfile : wfile := mk_wfile fr_records fr_contents [firstn 60 (enc_records fr_records); skipn 60 (enc_records fr_records)].
Definition fr_bytes : bytes := label_bytes ++ enc_files [fr_wfile].
Lemma fr_wf : wf_file fr_wfile.
Proof. unfold fr_wfile. split;
  [eexists _, _; split; [reflexivity|repeat split; reflexivity]|]; split;
  [cbn [SpecIo.logical_file wf_recs fr_records orb set_record data_record_of]; repeat match goal with |- wf_record _ _ => split; [reflexivity|]; split; [constructor; [vm_compute; reflexivity|constructor]|]; split; repeat constructor | |- _ /\ _ => split | |- True => exact I end; intros X; try discriminate X; intros (_ & X1 & X2); first [discriminate X1|discriminate X2]|];
  split; [repeat (apply Forall2_cons; [first [set_|data_ plain_]|]); apply Forall2_nil|];
  split; [reflexivity|]; split; [repeat constructor; vm_compute; try reflexivity; discriminate|]; split; vm_compute; discriminate.
Qed.
Definition fr_file : DlisLoad.logical_file :=
  match snd (DlisLoad.load DlisStoreProofs6.quiet no_tape1 no_tape2 1000 fr_bytes) with Ok st => hd empty_file (DlisLoad.di_files st) | _ => empty_file end.
Lemma fr_data : as_loaded (DlisLoad.lf_sets fr_file) /\ parsable (DlisLoad.lf_sets fr_file) /\ data_of fr_records fr_contents (vs_stream (DlisLoad.lf_stream fr_file)) (DlisLoad.lf_fdata fr_file).
Proof.
  assert (W' : Forall wf_file [fr_wfile]) by (constructor; [exact fr_wf|constructor]).
  destruct (C65_loaded DlisStoreProofs6.quiet no_tape1 no_tape2 label_bytes [fr_wfile] label_is W') as (st & L & F); [vm_compute; reflexivity|].
  assert (L' : DlisLoad.load DlisStoreProofs6.quiet no_tape1 no_tape2 1000 fr_bytes = ([], Ok st)) by (apply L; vm_compute; reflexivity).
  unfold fr_file. rewrite L'. cbn [snd]. inversion F as [|? x ? xs (_ & A & P & D) _]; subst. cbn [hd]. auto.
Qed.
Definition fr_sets : list object_set := Eval vm_compute in DlisLoad.lf_sets fr_file.
Definition fr_stream : stream := Eval vm_compute in vs_stream (DlisLoad.lf_stream fr_file).
Definition fr_index : fdata_index := Eval vm_compute in DlisLoad.lf_fdata fr_file.
Definition fr_frame : object := Eval vm_compute in nth_object fr_sets 2 0.
Lemma fr_has : has_channels dec_utf8 enc1 DlisStoreProofs6.quiet fr_sets fr_frame F_channels.
Proof. has_. Qed.

(** *** Finding: the frame has the row of the other frame in place of its own. *)
Theorem C65_foreign_refuted :
  exists dec enc esc set_order maxdims fmt after' sets recs cs s idx f chs cols d fs row cells,
    (forall b, dec b = dec_utf8 b) /\ (forall p, esc p = false) /\
    logical_file dec enc sets /\ a_set_order set_order /\ data_of recs cs s idx /\
    object_of sets f /\ has_channels dec enc esc sets f chs /\ Forall2 (described dec enc esc) chs cols /\
    frame_dtype maxdims fmt true (map Some cols) = Some d /\ frame_fmtstr (map Some cols) = Some fs /\
    recorded (owned (text "FRAME") f) (frame_rows cols) recs cs [row] /\
    snd (curves dec enc esc set_order maxdims fmt (after dec enc esc set_order sets []) s after' idx (promote dec f) true) = ([], Ok (d, cells, 1)) /\
    cells <> concat row /\ recorded (text "FRAME", 1, 0, long_frame) (fun b r => frame_rows cols b r /\ cells = concat (concat r)) recs cs (skipn 1 rows_of).
Proof.
  exists dec_utf8, enc1, DlisStoreProofs6.quiet, order1, 32%nat, default_label, after_0, fr_sets, fr_records, fr_contents, fr_stream, fr_index, fr_frame, F_channels, cols_of.
  eexists _, _, (hd [] rows_of), _. split; [reflexivity|]. split; [reflexivity|]. destruct fr_data as (A & P & D).
  replace (DlisLoad.lf_sets fr_file) with fr_sets in A, P by (vm_compute; reflexivity).
  replace (vs_stream (DlisLoad.lf_stream fr_file)) with fr_stream in D by (vm_compute; reflexivity). replace (DlisLoad.lf_fdata fr_file) with fr_index in D by (vm_compute; reflexivity).
  split. { split; [exact A|]. split; [exact P|]. repeat (constructor; [vm_compute; reflexivity|]). constructor. }
  split; [exact order1_ok|]. split; [exact D|]. split.
  { exists (nth 2 fr_sets (mk_set 0 [] [] [] [] [] false)). split; vm_compute; auto 6. }
  split; [exact fr_has|]. split; [exact nul_described|]. split; [vm_compute; reflexivity|]. split; [vm_compute; reflexivity|]. split.
  { change (owned (text "FRAME") fr_frame) with (text "FRAME", 1, 0, text "F"). unfold fr_records, fr_contents. do 3 other_.
    apply (recorded_as _ _ _ (text "FRAME") (text "F") _ (firstn 1 rows_of) _ _ []); [plain_|reflexivity|exact (proj1 the_rows)|]. other_. constructor. }
  split; [vm_compute; reflexivity|]. split; [vm_compute; discriminate|].
  unfold fr_records, fr_contents. do 4 other_.
  apply (recorded_as _ _ _ (text "FRAME") long_frame _ (skipn 1 rows_of) _ _ []); [plain_|reflexivity|split; [exact (proj2 the_rows)|vm_compute; reflexivity]|]. constructor.
Qed.
Print Assumptions C65_foreign_refuted.
