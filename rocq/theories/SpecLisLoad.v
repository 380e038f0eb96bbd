(** Independent specification for C58, C59 and C61: how a LIS79 file divides into
    reels, tapes and logical files, and what tape marks look like. *)
From Verif Require Import Bytes SpecTypes SpecIo SpecLisIo.
Local Open Scope Z_scope.

(** ** Sections of a file *)

(** Between delimiters there are logical files.  A logical file is listed by the
    types, sizes and positions of its records. *)
Inductive section := Delimiter (type : Z) (ds : bytes) | File (rs : list (Z * Z * Z)).

(** a record with data [ds] at [pos], after padding; it ends at [last] *)
Definition record_at (data : bytes) (pos type : Z) (ds : bytes) (last : Z) : Prop :=
  exists p e, at_pos data pos (p ++ e) /\ gap 0 pos p (firstn 4 e) /\
    lis_record false 0 (pos + len p) type ds e /\ last = pos + len p + len e.
(** after [pos] comes a record or the end of the file *)
Definition continues (data : bytes) (pos : Z) : Prop := exists q, next_start 0 data pos q.
(** the next record starts something new *)
Definition starts_new (data : bytes) (pos : Z) : Prop :=
  exists c last, records_at 0 data pos [c] last /\ (is_delimiter (type_of c) \/ is_header (type_of c)).

(** [layout data intact pos secs]: from [pos] on, [data] is a sequence of reel and
    tape headers and trailers, lone logical EOFs and logical files.  A logical
    file ends with a closing record, before the next header or delimiter or at
    the end of the file.  If it is not [intact], it breaks off inside a logical
    file (possibly before its first record) at something that is no record. *)
Inductive layout (data : bytes) : bool -> Z -> list section -> Prop :=
| la_end pos p : padding p -> tail_at data pos p -> layout data true pos []
| la_delimiter b pos type ds last secs :
    record_at data pos type ds last -> is_delimiter type -> continues data last ->
    layout data b last secs -> layout data b pos (Delimiter type ds :: secs)
| la_eof b pos ds last secs :
    record_at data pos 137 ds last -> continues data last ->
    layout data b last secs -> layout data b pos secs
| la_closed b pos rs c last secs :
    records_at 0 data pos (rs ++ [c]) last -> inside (map type_of rs) -> is_closing (type_of c) ->
    (type_of c = 137 -> has_explicit (map type_of rs)) -> continues data last ->
    layout data b last secs -> layout data b pos (File (rs ++ [c]) :: secs)
| la_open b pos rs last secs :
    records_at 0 data pos rs last -> inside (map type_of rs) -> has_explicit (map type_of rs) ->
    starts_new data last -> layout data b last secs -> layout data b pos (File rs :: secs)
| la_last pos rs last p :
    records_at 0 data pos rs last -> inside (map type_of rs) -> rs <> [] ->
    padding p -> tail_at data last p -> layout data true pos [File rs]
| la_broken pos last :
    last = pos -> damaged_at 0 data last -> layout data false pos []
| la_broken_file pos rs last :
    records_at 0 data pos rs last -> inside (map type_of rs) -> rs <> [] ->
    damaged_at 0 data last -> layout data false pos [File rs].

(** ** Reels and tapes *)

(** A reel or tape in a sequence of delimiters (type, data).  [h], [t]: the record
    types of header and trailer: 132, 133 for reels, 130, 131 for tapes *)
Definition unconcerned (h t : Z) (l : list (Z * bytes)) : Prop := forall ty ds, In (ty, ds) l -> ty <> h /\ ty <> t.

(** the header that opened the reel (tape) that is current after [before]; none
    if the last one has been closed or none was opened *)
Definition opened_by (h t : Z) (before : list (Z * bytes)) (x : option bytes) : Prop :=
  match x with
  | Some ds => exists a b, before = a ++ (h, ds) :: b /\ unconcerned h t b
  | None => unconcerned h t before \/
            exists a ds b, before = a ++ (t, ds) :: b /\ unconcerned h t b
  end.
(** the trailer that closes it; none if another one is opened first or the file
    ends *)
Definition closed_by (h t : Z) (after : list (Z * bytes)) (x : option bytes) : Prop :=
  match x with
  | Some ds => exists a b, after = a ++ (t, ds) :: b /\ unconcerned h t a
  | None => unconcerned h t after \/
            exists a ds b, after = a ++ (h, ds) :: b /\ unconcerned h t a
  end.
(** the delimiters of a sequence of sections *)
Definition delimiters (secs : list section) : list (Z * bytes) :=
  flat_map (fun s => match s with Delimiter ty ds => [(ty, ds)] | File _ => [] end) secs.

(** positions relative to [o] *)
Definition back (o : Z) (r : Z * Z * Z) : Z * Z * Z := (fst r, snd r - o).

Fixpoint count_files (secs : list section) : nat :=
  match secs with
  | [] => 0
  | File _ :: t => S (count_files t)
  | Delimiter _ _ :: t => count_files t
  end.

(** ** Tape marks *)

(** [m] is a tape mark: type, positions of the previous and the next mark, as
    little-endian 32-bit numbers *)
Definition little (a b c d : byte) : Z := b2z a + 256 * b2z b + 65536 * b2z c + 16777216 * b2z d.
Definition mark (type prev next : Z) (m : bytes) : Prop :=
  exists t0 t1 t2 t3 p0 p1 p2 p3 n0 n1 n2 n3,
    m = [t0; t1; t2; t3; p0; p1; p2; p3; n0; n1; n2; n3] /\
    little t0 t1 t2 t3 = type /\ little p0 p1 p2 p3 = prev /\ little n0 n1 n2 n3 = next.
(** the file starts with a valid mark *)
Definition starts_with_mark (file : bytes) (type : Z) : Prop :=
  exists prev next m, at_pos file 0 m /\ mark type prev next m /\ (type = 0 \/ type = 1) /\ prev < next.

(** ** Files behind any protocol *)

(** The same for files that are read through devices opened one after the other,
    such as tape images: opening at a physical position gives a device ([None]:
    the end of the file) and a device at a logical position is at a physical
    position. *)
From Verif Require Import Stream LisIo.

Definition record_in (d : device) (type : Z) (ds : bytes) (last : Z) : Prop :=
  exists p e, at_pos (d_data d) 0 (p ++ e) /\ gap (d_offset d) 0 p (firstn 4 e) /\
    lis_record false (d_offset d) (len p) type ds e /\ last = len p + len e.

(** *** Sections, with the device their logical file is read from *)
Inductive dsection := DDelimiter (type : Z) (ds : bytes) | DFile (d : device) (rs : list (Z * Z * Z)).

Definition ddelimiters (secs : list dsection) : list (Z * bytes) :=
  flat_map (fun s => match s with DDelimiter ty ds => [(ty, ds)] | DFile _ _ => [] end) secs.
Fixpoint dcount_files (secs : list dsection) : nat :=
  match secs with
  | [] => 0
  | DFile _ _ :: t => S (dcount_files t)
  | DDelimiter _ _ :: t => dcount_files t
  end.

Section course.
Variable opens : Z -> option device -> Prop.
Variable stopped : device -> Z -> Z.
Inductive course : bool -> Z -> list dsection -> Prop :=
| co_end o : opens o None -> course true o []
| co_padding b o d p secs :
    opens o (Some d) -> s_hard (d_stream d) = false -> padding p -> tail_at (d_data d) 0 p ->
    course b (stopped d (len (d_data d))) secs -> course b o secs
| co_delimiter b o d type ds last q secs :
    opens o (Some d) -> record_in d type ds last -> is_delimiter type ->
    next_start (d_offset d) (d_data d) last q ->
    course b (stopped d q) secs -> course b o (DDelimiter type ds :: secs)
| co_eof b o d ds last q secs :
    opens o (Some d) -> record_in d 137 ds last -> next_start (d_offset d) (d_data d) last q ->
    course b (stopped d q) secs -> course b o secs
| co_closed b o d rs c last q secs :
    opens o (Some d) -> records_at (d_offset d) (d_data d) 0 (rs ++ [c]) last ->
    inside (map type_of rs) -> is_closing (type_of c) -> (type_of c = 137 -> has_explicit (map type_of rs)) ->
    next_start (d_offset d) (d_data d) last q ->
    course b (stopped d q) secs -> course b o (DFile d (rs ++ [c]) :: secs)
| co_open b o d rs c last secs :
    opens o (Some d) -> records_at (d_offset d) (d_data d) 0 (rs ++ [c]) last ->
    inside (map type_of rs) -> has_explicit (map type_of rs) ->
    is_delimiter (type_of c) \/ is_header (type_of c) ->
    course b (stopped d (start_of c)) secs -> course b o (DFile d rs :: secs)
| co_last b o d rs last p secs :
    opens o (Some d) -> records_at (d_offset d) (d_data d) 0 rs last -> inside (map type_of rs) -> rs <> [] ->
    s_hard (d_stream d) = false -> padding p -> tail_at (d_data d) last p ->
    course b (stopped d (len (d_data d))) secs -> course b o (DFile d rs :: secs)
| co_broken o d :
    opens o (Some d) -> damaged_at (d_offset d) (d_data d) 0 -> course false o []
| co_broken_file o d rs last :
    opens o (Some d) -> records_at (d_offset d) (d_data d) 0 rs last -> inside (map type_of rs) -> rs <> [] ->
    damaged_at (d_offset d) (d_data d) last -> course false o [DFile d rs].
End course.

(** ** What is observed of loaded files *)
From Verif Require Import LisLoad.

(** the header or trailer record held by a reel or tape: its type and data *)
Definition holds (r : option raw_record) (type : Z) (x : option bytes) : Prop :=
  match r, x with
  | None, None => True
  | Some (info, data), Some ds => ri_type info = type /\ data = ds
  | _, _ => False
  end.
(** the reel (tape) between these delimiters *)
Definition belongs (h t : Z) (before after : list (Z * bytes)) (obj : option header_trailer) : Prop :=
  exists o x y, obj = Some o /\ holds (rawheader o) h x /\ opened_by h t before x /\
    holds (rawtrailer o) t y /\ closed_by h t after y.
(** the index lists exactly these records: types, sizes and positions *)
Definition listed (rs : list (Z * Z * Z)) (ix : record_index) : Prop :=
  let entry i := (ri_type i, ri_size i, ri_ltell i) in
  map entry (ix_explicits ix) = others_of rs /\ map entry (ix_implicits ix) = data_of rs.

(** the logical files and their reels and tapes are those of the sections *)
Definition loaded (data : bytes) (secs : list section) (st : indexer) : Prop :=
  length (fi_files st) = count_files secs /\
  forall before rs after, secs = before ++ File rs :: after ->
    exists f o, nth_error (fi_files st) (count_files before) = Some f /\
      (* opened at position [o] of the file, not behind the records *)
      d_offset (lf_io f) = o /\ tail_at data o (d_data (lf_io f)) /\ (forall r, In r rs -> o <= start_of r) /\
      listed (map (back o) rs) (lf_index f) /\
      belongs 132 133 (delimiters before) (delimiters after) (nth_error (fi_reels st) (lf_reel f)) /\
      belongs 130 131 (delimiters before) (delimiters after) (nth_error (fi_tapes st) (lf_tape f)).
Definition dloaded (secs : list dsection) (st : indexer) : Prop :=
  length (fi_files st) = dcount_files secs /\
  forall before d rs after, secs = before ++ DFile d rs :: after ->
    exists f, nth_error (fi_files st) (dcount_files before) = Some f /\ lf_io f = d /\ listed rs (lf_index f) /\
      belongs 132 133 (ddelimiters before) (ddelimiters after) (nth_error (fi_reels st) (lf_reel f)) /\
      belongs 130 131 (ddelimiters before) (ddelimiters after) (nth_error (fi_tapes st) (lf_tape f)).

(** marks before the first mark of type 0, which is at position 12 [k] *)
Definition first_block (file : bytes) (k : Z) : Prop :=
  (exists prev next m, at_pos file (12 * k) m /\ mark 0 prev next m) /\
  forall i, 0 <= i < k -> exists type prev next m, at_pos file (12 * i) m /\ mark type prev next m /\ type <> 0.
