(** Independent specification for C87: DLIS files that end too early. *)
From Verif Require Import Bytes Stream DlisCore SpecTypes SpecCore DlisIo SpecIo DlisRecords SpecRecords Lfp DlisStore SpecDlisStore SpecDlisLoad SpecDlisCurves SpecDlisPrefix.
From Verif Require DlisLoad.
Import DlisLoad (lf_stream, lf_sets, lf_fdata, lf_sul).
Local Open Scope Z_scope.

(** A logical file that consists of the records [recs]: what the theorems about queries and
    curves (C35 to C42, C65 to C68) ask for. *)
Definition consists_of (sul : option bytes) (recs : list (bool * list segment)) (cs : list content) (x : DlisLoad.logical_file) : Prop :=
  lf_sul x = sul /\ Forall2 set_reads (metadata cs) (lf_sets x) /\ as_loaded (lf_sets x) /\ parsable (lf_sets x) /\
  data_of recs cs (vs_stream (lf_stream x)) (lf_fdata x).

(** the first [m] bytes of visible records are whole visible records *)
Definition between (ps : list bytes) (m : nat) : Prop := exists a b, ps = a ++ b /\ m = length (concat (map enc_visible a)).

(** [cut f m r1 segs part]: of the first [m] bytes of [f] the records [r1] are whole, and
    [part] is left of the next one, [segs] *)
Definition cut (f : wfile) (m : nat) (r1 : list (bool * list segment)) (segs : list segment) (part : bytes) : Prop :=
  (exists e r2, wf_recs f = r1 ++ (e, segs) :: r2) /\ r1 <> [] /\
  kept (wf_visible f) m = enc_records r1 ++ part /\ (length part < length (enc_record segs))%nat.

(** The end can be told from the end of a logical file: it is inside a visible record; or
    inside a record, but not behind the header of the record's last segment. *)
Definition noticed (f : wfile) (m : nat) (segs : list segment) (part : bytes) : Prop :=
  ~ between (wf_visible f) m \/ (part <> [] /\ (length part < length (enc_record (removelast segs)) + 4)%nat).

(** [carries esc file i f]: the [i]-th logical file in [file] is [f] - in a whole file with a
    label or without one, in front of damage, or as what is left of one that is cut.  [esc]:
    the messages for which the error handler raises. *)
Inductive carries (esc : severity -> bool) : bytes -> nat -> wfile -> Prop :=
| cs_labelled lab fs i f :
    storage_label lab -> Forall wf_file fs -> len (lab ++ enc_files fs) < 2 ^ 63 -> nth_error fs i = Some f ->
    carries esc (lab ++ enc_files fs) i f
| cs_unlabelled fs i f :
    esc MINOR = false -> Forall wf_file fs -> len (enc_files fs) < 2 ^ 63 ->
    (forall k, ~ occurs_at (text "RECORD") (firstn 1700 (enc_files fs)) k) -> nth_error fs i = Some f ->
    carries esc (enc_files fs) i f
| cs_before lab fs b recs cs i f :
    storage_label lab -> Forall wf_file fs -> begun b recs cs -> len (lab ++ enc_files fs ++ b) < 2 ^ 63 -> nth_error fs i = Some f ->
    carries esc (lab ++ enc_files fs ++ b) i f
| cs_cut lab fs f gs m r1 segs part ps :
    storage_label lab -> Forall wf_file (fs ++ f :: gs) -> len (lab ++ enc_files (fs ++ f :: gs)) < 2 ^ 63 ->
    (m <= length (enc_file f))%nat -> cut f m r1 segs part -> noticed f m segs part ->
    carries esc (firstn (80 + length (enc_files fs) + m) (lab ++ enc_files (fs ++ f :: gs))) (length fs)
      (mk_wfile r1 (firstn (length r1) (wf_contents f)) ps).
