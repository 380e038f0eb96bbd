(** C65 from the bytes of a file, whole or not. *)
From Verif Require Import Bytes BytesProofs Stream PyBase DlisTypes DlisCore SpecTypes SpecCore DlisIo SpecIo DlisRecords SpecRecords DlisFdata SpecFdata Lfp
  CommonPy DlisStore SpecDlisStore DlisStoreProofs6 DlisSchema DlisObject SpecDlisObject SpecDlisMeta DlisMetaProofs
  SpecDlisLoad DlisFrame SpecDlisFrame DlisCurves SpecDlisCurves.
From Verif Require DlisLoad SpecDlisCut.
From Verif Require Import PropDlisStore PropDlisObject PropDlisFrame DlisCurvesExample PropDlisCurves PropDlisCut PropDlisMeta.
Local Open Scope Z_scope.

(** *** C65 from the bytes of a file: the curves of a frame in any of these files are the
    rows in its records, and in a cut file the rows that are whole.  What is missing is
    what is missing in C65_curves_partial. *)
Theorem C65_file_partial :
  forall dec enc esc ot tr set_order maxdims fmt after' strict file i f fuel l st x ops fr chs cols d fs rows,
  SpecDlisCut.carries esc file i f -> len file + 1 < Z.of_nat fuel -> DlisLoad.load esc ot tr fuel file = (l, Ok st) ->
  nth_error (DlisLoad.di_files st) i = Some x ->
  let sets := DlisLoad.lf_sets x in
  typed dec enc f -> a_set_order set_order -> Forall (op_ok dec enc) ops ->
  object_of sets fr -> has_channels dec enc esc sets fr chs -> Forall2 (described dec enc esc) chs cols ->
  frame_dtype maxdims fmt strict (map Some cols) = Some d -> frame_fmtstr (map Some cols) = Some fs ->
  recognised dec enc (text "FRAME") fr (map snd (data_at 0 (wf_recs f) (wf_contents f))) ->
  recorded (owned (text "FRAME") fr) (frame_rows cols) (wf_recs f) (wf_contents f) rows ->
  exists cells logs ops', Forall (op_ok dec enc) ops' /\
    curves dec enc esc set_order maxdims fmt (after dec enc esc set_order sets ops) (vs_stream (DlisLoad.lf_stream x)) after' (DlisLoad.lf_fdata x) (promote dec fr) strict =
      (after dec enc esc set_order sets (ops ++ ops'), (logs, Ok (d, cells, Z.of_nat (length rows)))) /\
    Z.of_nat (length cells) = Z.of_nat (length rows) * itemsize d /\
    forall r j row fd k, nth_error rows r = Some row -> nth_error d j = Some fd -> nth_error row j = Some k -> cell_at d cells r fd = k.
Proof.
  intros dec enc esc ot tr set_order maxdims fmt after' strict file i f fuel l st x ops fr chs cols d fs rows SD FU LO NX sets TY O OK I HC D DT FM K RC.
  destruct (carries_consists _ _ _ _ _ _ _ _ _ _ SD FU LO NX) as (sul & _ & R & L & P & DO).
  eapply C65_curves_partial; try eassumption. split; [exact L|]. split; [exact P|]. exact (sets_typed dec enc f _ R TY).
Qed.
Print Assumptions C65_file_partial.

(** the cut file of C87: one row is whole *)
Example C65_file_example :
  exists st x, DlisLoad.load (fun _ => false) (fun _ _ => None) (fun _ _ => None) 2000 (firstn (80 + length (enc_files []) + ex_cut) (label_bytes ++ enc_files ([] ++ long_file 60 :: []))) = ([CRITICAL], Ok st) /\
    nth_error (DlisLoad.di_files st) 0 = Some x /\ DlisLoad.lf_sets x = F_sets /\
    SpecDlisCut.carries (fun _ => false) (firstn (80 + length (enc_files []) + ex_cut) (label_bytes ++ enc_files ([] ++ long_file 60 :: []))) 0
      (mk_wfile whole_recs (firstn 7 (file_contents (text "F"))) []) /\
    typed dec1 enc1 (mk_wfile whole_recs (firstn 7 (file_contents (text "F"))) []) /\
    recognised dec1 enc1 (text "FRAME") F_frame (map snd (data_at 0 whole_recs (firstn 7 (file_contents (text "F"))))) /\
    recorded (owned (text "FRAME") F_frame) (frame_rows cols_of) whole_recs (firstn 7 (file_contents (text "F"))) [hd [] rows_of].
Proof.
  eexists _, _. split; [vm_compute; reflexivity|]. split; [reflexivity|]. split; [vm_compute; reflexivity|]. split.
  { destruct C87_cut_example as (L & W & M & CU & NO & _).
    exact (SpecDlisCut.cs_cut (fun _ => false) label_bytes [] (long_file 60) [] ex_cut whole_recs _ _ [] L W ltac:(vm_compute; reflexivity) M CU NO). }
  split. { intros w I. split; [apply kept1|]. revert w I. apply Forall_forall. repeat (constructor; [vm_compute; discriminate|]). constructor. }
  split; [apply F_recognised; left; reflexivity|].
  unfold whole_recs, file_records, file_contents. cbn [firstn]. do 4 other_.
  apply (recorded_as (text "FRAME", 1, 0, text "F") (frame_rows cols_of) _ (text "FRAME") (text "F") _ (firstn 1 rows_of) _ _ []); [split; [reflexivity|vm_compute; discriminate]|reflexivity|exact (proj1 the_rows)|].
  do 2 other_. constructor.
Qed.
