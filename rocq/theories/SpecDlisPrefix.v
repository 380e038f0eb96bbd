(** Independent specification for C86: what stands before damage in a DLIS file. *)
From Verif Require Import Bytes Stream DlisCore SpecTypes SpecCore DlisIo SpecIo DlisRecords SpecRecords Lfp SpecDlisLoad.
From Verif Require DlisLoad.
Import DlisLoad (lf_stream, lf_sets, lf_fdata, lf_sul).
Local Open Scope Z_scope.

(** ** A logical file of which the records [recs] are known, whatever comes behind them

    Its sets start with those of [recs], and the rows of every owner start with
    those of [recs]; all that is added lies behind [recs]. *)
Definition front (recs : list (bool * list segment)) (cs : list content) (f : DlisLoad.logical_file) : Prop :=
  (exists tail, s_data (vs_stream (lf_stream f)) = enc_records recs ++ tail) /\
  (exists s1 s2, lf_sets f = s1 ++ s2 /\ Forall2 set_reads (metadata cs) s1) /\
  (forall ty o c i k, ty = text "FRAME" \/ ty = text "NO-FORMAT" -> 0 <= o < 2 ^ 31 -> py_fingerprint ty i o c = FpOk k ->
     exists more, index_get k (lf_fdata f) = offsets_of (ty, o, c, i) (data_at 0 recs cs) ++ more /\
       Forall (fun t => len (enc_records recs) <= t) more).
Definition front_reads (x : found) (f : DlisLoad.logical_file) : Prop :=
  let '(sul, vs, recs, cs) := x in lf_stream f = vs /\ lf_sul f = sul /\ front recs cs f.

(** ** Any protocol *)
Section devices.
Variable tif : bool.
Variable open_stream : Z -> option raw.
Variable open_rp66 : raw -> Z -> option rp66.
Notation ending := (ending tif).

(** [leads next sul first log fs n s b]: as [course], but only up to position [n], where
    the label is [s] (and no logical file has been found, if [b]).  Nothing is said about
    what is there. *)
Inductive leads : Z -> option bytes -> bool -> list severity -> list found -> Z -> option bytes -> bool -> Prop :=
| ld_here next sul first : leads next sul first [] [] next sul first
| ld_mark next sul first r log fs n s b :
    open_stream next = Some r -> raw_data r = [] -> s_hard (raw_stream r) = false -> raw_peof r = false ->
    leads (raw_ptell r 0) sul first log fs n s b -> leads next sul first log fs n s b
| ld_label_mark next sul first r sul' pos l log fs n s b :
    open_stream next = Some r -> raw_data r <> [] -> begins r sul first sul' pos l ->
    pos = len (raw_data r) -> s_hard (raw_stream r) = false -> raw_peof r = false ->
    leads (raw_ptell r pos) sul' first log fs n s b -> leads next sul first (l ++ log) fs n s b
| ld_file next sul first r sul' pos l q l' vs recs tail cs next' log fs n s b :
    open_stream next = Some r -> begins r sul first sul' pos l -> pos < len (raw_data r) ->
    visible_start r pos q l' -> open_rp66 r q = Some vs ->
    s_data (vs_stream vs) = enc_records recs ++ tail -> len (s_data (vs_stream vs)) < 2 ^ 63 ->
    logical_file false recs -> Forall2 holds recs cs -> ending vs recs tail next' ->
    leads next' sul' false log fs n s b -> leads next sul first (l ++ l' ++ log) ((sul', vs, recs, cs) :: fs) n s b.

(** a logical file starts here; its first records are known *)
Definition starts_at (next : Z) (sul : option bytes) (first : bool) (l : list severity) (x : found) : Prop :=
  let '(sul', vs, recs, cs) := x in
  exists r pos q l1 l2 tail,
    open_stream next = Some r /\ begins r sul first sul' pos l1 /\ pos < len (raw_data r) /\
    visible_start r pos q l2 /\ open_rp66 r q = Some vs /\ l = l1 ++ l2 /\
    s_data (vs_stream vs) = enc_records recs ++ tail /\ len (s_data (vs_stream vs)) < 2 ^ 63 /\
    logical_file false recs /\ Forall2 holds recs cs.
End devices.

(** ** Plain files *)

(** [carried b d]: the bytes [b] start with visible records that hold the data [d].  The last
    of them may be cut off by the end of the file; behind them may be anything. *)
Inductive carried : bytes -> bytes -> Prop :=
| cr_rest rest : carried rest []
| cr_record p rest d : visible_fits p -> carried rest d -> carried (enc_visible p ++ rest) (p ++ d)
| cr_cut p j : visible_fits p -> (j < length p)%nat -> carried (firstn (4 + j) (enc_visible p)) (firstn j p).

(** a logical file begins: a FILE-HEADER and maybe more records, all whole, and then anything *)
Definition begun (b : bytes) (recs : list (bool * list segment)) (cs : list content) : Prop :=
  (exists segs t, recs = (true, segs) :: t /\ file_header segs) /\
  logical_file false recs /\ Forall2 holds recs cs /\
  (exists part, carried b (enc_records recs ++ part)) /\ firstn 6 (skipn 9 b) <> text "RECORD".

(** the data in the first [m] bytes of visible records *)
Fixpoint kept (ps : list bytes) (m : nat) : bytes :=
  match ps with
  | [] => []
  | p :: ps => if (m <? 4 + length p)%nat then firstn (m - 4) p else p ++ kept ps (m - 4 - length p)
  end.
