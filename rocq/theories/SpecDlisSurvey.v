(** Independent specification for C80: what load makes of any plain file if the error
    handler never raises. *)
From Verif Require Import Bytes Stream DlisCore SpecCore DlisIo SpecIo DlisRecords SpecRecords Lfp SpecDlisLoad.
From Verif Require Export SpecHandler.
From Verif Require DlisLoad.
Local Open Scope Z_scope.

Inductive fate := Returns | Raises.

(** a logical file: its label, its visible records, and where in them its records start,
    with their explicit bit.  Nothing is said about what the records hold. *)
Definition outline := (option bytes * rp66 * list (Z * bool))%type.

(** [survey file next sul first fs end]: from position [next] of the file on, while the
    label is [sul] (and no logical file has been found, if [first]), there are the logical
    files [fs], and then loading returns or raises. *)
Inductive survey (file : bytes) : Z -> option bytes -> bool -> list outline -> fate -> Prop :=
| sv_end next sul first :
    raw_data (plain_raw file next) = [] -> survey file next sul first [] Returns
| sv_label_end next sul first sul' pos l :
    begins (plain_raw file next) sul first sul' pos l -> pos = len (raw_data (plain_raw file next)) ->
    survey file next sul first [] Returns
(** the label is cut off *)
| sv_label_cut next sul first q l :
    label (plain_raw file next) (first && match sul with Some _ => false | None => true end) (Some q) l ->
    len (raw_data (plain_raw file next)) < q + 80 -> survey file next sul first [] Returns
(** there is no visible record where one has to be, or its length is below 4 *)
| sv_no_record next sul first sul' pos l :
    begins (plain_raw file next) sul first sul' pos l -> pos < len (raw_data (plain_raw file next)) ->
    (forall q l', ~ visible_start (plain_raw file next) pos q l') -> survey file next sul first [] Raises
| sv_bad_record next sul first sul' pos l q l' l0 l1 rest :
    begins (plain_raw file next) sul first sul' pos l -> visible_start (plain_raw file next) pos q l' ->
    skipn (Z.to_nat q) (raw_data (plain_raw file next)) = l0 :: l1 :: xff :: x01 :: rest -> 256 * b2z l0 + b2z l1 < 4 ->
    survey file next sul first [] Raises
(** records up to the end, or up to the next FILE-HEADER: go on at what should be the
    start of the visible record that holds it *)
| sv_more next sul first sul' pos l q l' vs recs stop fs fin :
    begins (plain_raw file next) sul first sul' pos l -> visible_start (plain_raw file next) pos q l' ->
    plain_rp66 (plain_raw file next) q = Some vs ->
    records_at (s_data (vs_stream vs)) (s_hard (vs_stream vs)) false 0 stop recs ->
    clean_end (s_data (vs_stream vs)) (s_hard (vs_stream vs)) (existsb snd recs) stop ->
    survey file (vs_ptell vs stop - (if len (s_data (vs_stream vs)) <=? stop then 0 else 4)) sul' false fs fin ->
    survey file next sul first ((sul', vs, recs) :: fs) fin
(** records up to something that is none *)
| sv_broken next sul first sul' pos l q l' vs recs stop :
    begins (plain_raw file next) sul first sul' pos l -> visible_start (plain_raw file next) pos q l' ->
    plain_rp66 (plain_raw file next) q = Some vs ->
    records_at (s_data (vs_stream vs)) (s_hard (vs_stream vs)) false 0 stop recs ->
    ~ clean_end (s_data (vs_stream vs)) (s_hard (vs_stream vs)) (existsb snd recs) stop ->
    (forall r e, ~ record_at (s_data (vs_stream vs)) (s_hard (vs_stream vs)) (existsb snd recs) stop r e) ->
    survey file next sul first [(sul', vs, recs)] Returns.

(** the record at [tell] can be read, and its data is a set of objects *)
Definition meta_record (data : bytes) (tell : Z) (w : wset) : Prop :=
  exists g t ds, record_in data tell (g :: t) ds /\ seg_bit 4 g = false /\ enc_set ds w /\ wf_set w.

(** a logical file as loaded: its label and stream; its sets come from explicit records
    and its data from implicit ones.  What can be read is there, whatever the other
    records are like. *)
Definition outlined (x : outline) (f : DlisLoad.logical_file) : Prop :=
  let '(sul, vs, recs) := x in
  let data := s_data (vs_stream vs) in
  DlisLoad.lf_stream f = vs /\ DlisLoad.lf_sul f = sul /\
  (length (DlisLoad.lf_sets f) <= length (filter snd recs))%nat /\
  (len data < 2 ^ 63 -> forall t w, In (t, true) recs -> meta_record data t w ->
     exists s, In s (DlisLoad.lf_sets f) /\ set_reads w s) /\
  (forall k t, In t (index_get k (DlisLoad.lf_fdata f)) -> In (t, false) recs) /\
  (forall t ty o c i k, In (t, false) recs -> data_record data t (Some (ty, o, c, i)) ->
     py_fingerprint ty i o c = FpOk k -> In t (index_get k (DlisLoad.lf_fdata f))).
