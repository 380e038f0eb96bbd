(** Independent specification for C62 and the DLIS half of C61: how a DLIS file
    divides into logical files, and what is to be read from each. *)
From Verif Require Import Bytes Stream DlisCore SpecTypes SpecCore SpecIo DlisRecords SpecRecords DlisIo Lfp.
From Verif Require DlisLoad.
Import DlisLoad (lf_stream, lf_sets, lf_fdata, lf_sul).
Local Open Scope Z_scope.

(** ** What the records of a logical file hold *)
Inductive content := Meta (w : wset) | Skipped | Data (o : option owner).

(** [holds (e, segs) c]: [e] is the explicit bit.  Explicit records hold a set of
    objects, or nothing that can be read (encrypted, or no data).  Implicit ones
    hold data that belong to an object, or something that is not indexed. *)
Inductive holds : bool * list segment -> content -> Prop :=
| h_meta g t ds w :
    seg_bit 4 g = false -> record_data (g :: t) ds 0 -> enc_set ds w -> wf_set w -> holds (true, g :: t) (Meta w)
| h_encrypted g t ds : seg_bit 4 g = true -> record_data (g :: t) ds 0 -> holds (true, g :: t) Skipped
| h_empty segs : record_data segs [] 0 -> holds (true, segs) Skipped
| h_data segs o : data_record (enc_record segs) 0 o -> holds (false, segs) (Data o).

Definition metadata (cs : list content) : list wset :=
  flat_map (fun c => match c with Meta w => [w] | _ => [] end) cs.
(** the data records: where they are and whose they are *)
Fixpoint data_at (off : Z) (recs : list (bool * list segment)) (cs : list content) : list (Z * option owner) :=
  match recs, cs with
  | (_, segs) :: recs, c :: cs =>
      (match c with Data o => [(off, o)] | _ => [] end) ++ data_at (off + len (enc_record segs)) recs cs
  | _, _ => []
  end.

(** ** What is read *)

(** a metadata record: parsing it gives the set that was written, and the problems it
    has (as in C23) *)
Definition set_reads (w : wset) (s : object_set) : Prop :=
  os_type s = ws_type w /\
  exists s', parse_set s = Ok s' /\ os_type s' = ws_type w /\ os_name s' = or_else (ws_name w) [] /\
    Forall2 (reads_as w) (ws_objects w) (os_objs s') /\
    os_log s' = kind_log (ws_kind w) ++ (match ws_objects w with [] => [P_no_objects] | _ => [] end).
(** the index of the data records by fingerprint of their owner (as in C22) *)
Definition index_reads (ds : list (Z * option owner)) (idx : fdata_index) : Prop :=
  (forall ty o c i k,
     ty = text "FRAME" \/ ty = text "NO-FORMAT" -> 0 <= o < 2 ^ 31 ->
     py_fingerprint ty i o c = FpOk k -> index_get k idx = offsets_of (ty, o, c, i) ds) /\
  (forall k, index_get k idx <> [] ->
     exists ty o c i, In (Some (ty, o, c, i)) (map snd ds) /\ py_fingerprint ty i o c = FpOk k).

(** ** Plain files *)

(** A visible record: length (header included), 0xFF, version 1.  At most 16384
    bytes (RP66 2.3.6). *)
Definition enc_visible (p : bytes) : bytes :=
  [z2b ((4 + len p) / 256); z2b (4 + len p); xff; x01] ++ p.
Definition visible_fits (p : bytes) : Prop := 0 < len p /\ 4 + len p <= 16384.

(** a logical file as written: its records, what they hold, and the visible
    records they are cut into *)
Record wfile := mk_wfile {
  wf_recs : list (bool * list segment); wf_contents : list content; wf_visible : list bytes }.
Definition enc_file (f : wfile) : bytes := concat (map enc_visible (wf_visible f)).
(** It starts with a FILE-HEADER and has no other; the visible records hold the
    logical records and nothing else.  It must not look like a storage unit label,
    which has "RECORD" at its tenth byte; 15 bytes are looked at.  (RP66 2.3.6: a
    visible record has at least 20.) *)
Definition wf_file (f : wfile) : Prop :=
  (exists segs t, wf_recs f = (true, segs) :: t /\ file_header segs) /\
  logical_file false (wf_recs f) /\ Forall2 holds (wf_recs f) (wf_contents f) /\
  concat (wf_visible f) = enc_records (wf_recs f) /\ Forall visible_fits (wf_visible f) /\
  15 <= len (enc_file f) /\ firstn 6 (skipn 9 (enc_file f)) <> text "RECORD".

Definition enc_files (fs : list wfile) : bytes := concat (map enc_file fs).

(** a storage unit label: sequence number, version, structure, and 65 bytes more;
    the sequence number is printable *)
Definition storage_label (b : bytes) : Prop :=
  exists seq rest, b = seq ++ text "V1.00" ++ text "RECORD" ++ rest /\
    length seq = 4%nat /\ length rest = 65%nat /\ Forall (fun c => 32 <= b2z c) seq.

(** ** Files behind any protocol

    Opening at a physical position gives a stream of bytes that ends at the end of
    the file or, in tape images, at a file mark; behind it another one may be
    opened.  The logical data is cut into visible records from some position of
    that stream on. *)
Section devices.
Variable tif : bool.
Variable open_stream : Z -> option raw.
Variable open_rp66 : raw -> Z -> option rp66.

Definition raw_data (r : raw) : bytes := s_data (raw_stream r).
(** the first [n] bytes can be read, or what there is of them *)
Definition within (r : raw) (n : Z) : Prop := s_hard (raw_stream r) = false \/ n <= len (raw_data r).

(** whether there is a label, where, and the messages: a label is expected before
    the first logical file only, and is then looked for in the first 1700 bytes *)
Inductive label (r : raw) (expected : bool) : option Z -> list severity -> Prop :=
| lb_first :
    within r 15 -> first_occurrence (text "RECORD") (window (raw_data r) 0 15) 9 ->
    label r expected (Some 0) (if expected then [] else [MINOR])
| lb_late q :
    expected = true -> 0 < q -> within r 1700 ->
    first_occurrence (text "RECORD") (window (raw_data r) 0 1700) (Z.to_nat (q + 9)) ->
    label r expected (Some q) [MINOR]
| lb_none :
    expected = false -> ~ (within r 15 /\ first_occurrence (text "RECORD") (window (raw_data r) 0 15) 9) ->
    label r expected None []
| lb_missing :
    expected = true -> ~ (within r 15 /\ first_occurrence (text "RECORD") (window (raw_data r) 0 15) 9) ->
    (forall q, 0 < q -> ~ (within r 1700 /\
       first_occurrence (text "RECORD") (window (raw_data r) 0 1700) (Z.to_nat (q + 9)))) ->
    label r expected None [MINOR].

(** the label that holds from here on, and where the rest starts *)
Inductive begins (r : raw) (sul : option bytes) (first : bool) : option bytes -> Z -> list severity -> Prop :=
| bg_label q l :
    label r (first && match sul with Some _ => false | None => true end) (Some q) l ->
    q + 80 <= len (raw_data r) -> begins r sul first (Some (window (raw_data r) q 80)) (q + 80) l
| bg_none l :
    label r (first && match sul with Some _ => false | None => true end) None l ->
    begins r sul first sul 0 l.

(** the first visible record from [p] on starts at [q] *)
Inductive visible_start (r : raw) (p : Z) : Z -> list severity -> Prop :=
| vs_here : within r (p + 4) -> first_occurrence [xff; x01] (window (raw_data r) p 4) 2 -> visible_start r p p []
| vs_late q : p < q -> within r (p + 200) ->
    first_occurrence [xff; x01] (window (raw_data r) p 200) (Z.to_nat (q - p + 2)) -> visible_start r p q [MINOR].

(** where the file after this logical file is opened.  The next FILE-HEADER starts
    a visible record; in tape images that record follows a tape mark *)
Inductive ending (vs : rp66) (recs : list (bool * list segment)) (tail : bytes) : Z -> Prop :=
| en_last : tail = [] -> s_hard (vs_stream vs) = false ->
    ending vs recs tail (vs_ptell vs (len (enc_records recs)))
| en_next g rest :
    tail = enc_segment g ++ rest -> seg_fits g -> file_header_seg g -> existsb fst recs = true ->
    ending vs recs tail (vs_ptell vs (len (enc_records recs)) - (if tif then 16 else 4)).
(** what follows the records is neither a record nor an end *)
Definition damaged (vs : rp66) (recs : list (bool * list segment)) (tail : bytes) : Prop :=
  let data := enc_records recs ++ tail in
  ~ clean_end data (s_hard (vs_stream vs)) (existsb fst recs) (len (enc_records recs)) /\
  forall q e, ~ record_at data (s_hard (vs_stream vs)) (existsb fst recs) (len (enc_records recs)) q e.

(** the logical files in order: the label, the stream, the records and what they
    hold *)
Definition found := (option bytes * rp66 * list (bool * list segment) * list content)%type.

(** [course next sul first log fs]: opening at [next] while the label is [sul] (and
    no logical file has been found, if [first]) leads to the logical files [fs]
    and the messages [log] *)
Inductive course : Z -> option bytes -> bool -> list severity -> list found -> Prop :=
| co_end next sul first r :
    open_stream next = Some r -> raw_data r = [] -> s_hard (raw_stream r) = false -> raw_peof r = true ->
    course next sul first [] []
| co_mark next sul first r log fs :
    open_stream next = Some r -> raw_data r = [] -> s_hard (raw_stream r) = false -> raw_peof r = false ->
    course (raw_ptell r 0) sul first log fs -> course next sul first log fs
| co_label_end next sul first r sul' pos l :
    open_stream next = Some r -> raw_data r <> [] -> begins r sul first sul' pos l ->
    pos = len (raw_data r) -> s_hard (raw_stream r) = false -> raw_peof r = true ->
    course next sul first l []
| co_label_mark next sul first r sul' pos l log fs :
    open_stream next = Some r -> raw_data r <> [] -> begins r sul first sul' pos l ->
    pos = len (raw_data r) -> s_hard (raw_stream r) = false -> raw_peof r = false ->
    course (raw_ptell r pos) sul' first log fs -> course next sul first (l ++ log) fs
| co_file next sul first r sul' pos l q l' vs recs tail cs next' log fs :
    open_stream next = Some r -> begins r sul first sul' pos l -> pos < len (raw_data r) ->
    visible_start r pos q l' -> open_rp66 r q = Some vs ->
    s_data (vs_stream vs) = enc_records recs ++ tail -> len (s_data (vs_stream vs)) < 2 ^ 63 ->
    logical_file false recs -> Forall2 holds recs cs -> ending vs recs tail next' ->
    course next' sul' false log fs -> course next sul first (l ++ l' ++ log) ((sul', vs, recs, cs) :: fs)
| co_broken next sul first r sul' pos l q l' vs recs tail cs :
    open_stream next = Some r -> begins r sul first sul' pos l -> pos < len (raw_data r) ->
    visible_start r pos q l' -> open_rp66 r q = Some vs ->
    s_data (vs_stream vs) = enc_records recs ++ tail -> len (s_data (vs_stream vs)) < 2 ^ 63 ->
    logical_file false recs -> Forall2 holds recs cs -> damaged vs recs tail ->
    course next sul first (l ++ l' ++ [CRITICAL]) [(sul', vs, recs, cs)].
End devices.

(** ** A logical file as loaded: its stream starts with exactly its records, and it
    has the label, the sets and the index of these records *)
Definition file_reads (x : found) (f : DlisLoad.logical_file) : Prop :=
  let '(sul, vs, recs, cs) := x in
  lf_stream f = vs /\ lf_sul f = sul /\ Forall2 set_reads (metadata cs) (lf_sets f) /\
  index_reads (data_at 0 recs cs) (lf_fdata f).
Definition loaded (sul : option bytes) (f : wfile) (x : DlisLoad.logical_file) : Prop :=
  lf_sul x = sul /\ (exists tail, s_data (vs_stream (lf_stream x)) = enc_records (wf_recs f) ++ tail) /\
  Forall2 set_reads (metadata (wf_contents f)) (lf_sets x) /\
  index_reads (data_at 0 (wf_recs f) (wf_contents f)) (lf_fdata x).

(** the user's actions raise for none of these messages *)
Definition quiet (esc : severity -> bool) (l : list severity) : Prop := forall s, In s l -> esc s = false.
(** the file is no tape image *)
Definition starts_plain (file : bytes) : Prop :=
  exists t0 t1 t2 t3 p0 p1 p2 p3 n0 n1 n2 n3 rest,
    file = [t0; t1; t2; t3; p0; p1; p2; p3; n0; n1; n2; n3] ++ rest /\
    (let little a b c d := b2z a + 256 * b2z b + 65536 * b2z c + 16777216 * b2z d in
     ~ ((little t0 t1 t2 t3 = 0 \/ little t0 t1 t2 t3 = 1) /\ little p0 p1 p2 p3 < little n0 n1 n2 n3)).
