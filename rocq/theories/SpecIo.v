(** Independent specification for C14, C18-C22: how RP66 lays logical records out
    as segments, and what indexing them means. *)
From Verif Require Import Bytes SpecTypes SpecCore.
Local Open Scope Z_scope.

Definition len (xs : bytes) : Z := Z.of_nat (length xs).

(** ** Segments (RP66 2.2.2) *)
Record segment := mk_seg { g_attrs : byte; g_type : byte; g_payload : bytes }.

(** length (2 bytes, header included), attributes, type, then the payload *)
Definition enc_segment (g : segment) : bytes :=
  let n := 4 + len (g_payload g) in
  [z2b (n / 256); z2b n; g_attrs g; g_type g] ++ g_payload g.
(** the length fits its field *)
Definition seg_fits (g : segment) : Prop := 4 + len (g_payload g) < 65536.

(** attribute bits *)
Definition seg_bit (k : Z) (g : segment) : bool := Z.testbit (b2z (g_attrs g)) k.
Definition explicit_seg := seg_bit 7.
Definition has_pred := seg_bit 6.
Definition has_succ := seg_bit 5.

(** [payload_data a p d warn]: the data bytes of payload [p] under attributes [a].
    Encrypted payloads are passed through; otherwise checksum/trailing length
    and the pad bytes (the last of which holds their number) go.  A trailer
    announced to cover the 4 byte header as well is tolerated with a warning. *)
Inductive payload_data (a : Z) : bytes -> bytes -> bool -> Prop :=
  | pd_encrypted p : Z.testbit a 4 = true -> payload_data a p p false
  | pd_trailer body pad tail :
      Z.testbit a 4 = false -> len tail = tail_size a ->
      (if Z.testbit a 0 then exists pre c, body ++ pad = pre ++ [c] /\ b2z c = len pad
       else pad = []) ->
      payload_data a (body ++ pad ++ tail) body false
  | pd_overlong pre c tail :
      Z.testbit a 4 = false -> Z.testbit a 0 = true -> len tail = tail_size a ->
      b2z c + tail_size a = 4 + len (pre ++ c :: tail) ->
      payload_data a (pre ++ c :: tail) [] true
  | pd_overlong_nopad p :
      Z.testbit a 4 = false -> Z.testbit a 0 = false -> tail_size a = 4 + len p ->
      payload_data a p [] true.

(** ** Logical records: segments chained by the successor bit *)
Fixpoint chained (segs : list segment) : Prop :=
  match segs with
  | [] => False
  | [g] => has_succ g = false
  | g :: t => has_succ g = true /\ chained t
  end.
Definition enc_record (segs : list segment) : bytes := concat (map enc_segment segs).

(** the record's data and the number of warnings *)
Inductive record_data : list segment -> bytes -> nat -> Prop :=
  | rd_nil : record_data [] [] 0
  | rd_cons g t d (w : bool) ds n :
      payload_data (b2z (g_attrs g)) (g_payload g) d w -> record_data t ds n ->
      record_data (g :: t) (d ++ ds) ((if w then 1 else 0) + n).

(** each segment contributes a prefix of its payload *)
Definition keeps (g : segment) (k : bytes) : Prop := exists dropped, g_payload g = k ++ dropped.
(** a segment whose pad count, if any, lies inside it *)
Definition trailer_inside (g : segment) : Prop :=
  Z.testbit (b2z (g_attrs g)) 4 = false -> Z.testbit (b2z (g_attrs g)) 0 = true ->
  tail_size (b2z (g_attrs g)) < len (g_payload g).

(** a record as a writer produces it: explicit bit uniform, predecessor bit on
    all but the first segment *)
Definition wf_record (e : bool) (segs : list segment) : Prop :=
  chained segs /\ Forall seg_fits segs /\ Forall (fun g => explicit_seg g = e) segs /\
  Forall (fun g => has_pred g = true) (tl segs).
(** a FILE-HEADER: explicitly formatted, type 0, starts a record *)
Definition file_header_seg (g : segment) : Prop :=
  has_pred g = false /\ explicit_seg g = true /\ g_type g = x00.
Definition file_header (segs : list segment) : Prop :=
  match segs with g :: _ => file_header_seg g | [] => False end.

(** offsets of the records satisfying [P] when the first starts at [off] *)
Fixpoint offsets_where (P : bool -> bool) (off : Z) (recs : list (bool * list segment)) : list Z :=
  match recs with
  | [] => []
  | (e, r) :: t =>
      (if P e then [off] else []) ++ offsets_where P (off + len (enc_record r)) t
  end.
Definition enc_records (recs : list (bool * list segment)) : bytes :=
  concat (map (fun r => enc_record (snd r)) recs).

(** a logical file's records: well formed, and no FILE-HEADER once an explicit
    record has been seen *)
Fixpoint logical_file (seen : bool) (recs : list (bool * list segment)) : Prop :=
  match recs with
  | [] => True
  | (e, r) :: t => wf_record e r /\ (seen = true -> ~ file_header r) /\ logical_file (seen || e) t
  end.

(** ** Raw headers, for streams that need not be well formed *)
Definition header_at (data : bytes) (p ln attrs type : Z) : Prop :=
  exists pre post l0 l1 a t,
    data = pre ++ l0 :: l1 :: a :: t :: post /\ len pre = p /\
    ln = 256 * b2z l0 + b2z l1 /\ attrs = b2z a /\ type = b2z t.
(** a segment of a logical file: a sane header, its bytes present when the medium
    ends in a hard error, and - once an explicit record has been seen - not the
    FILE-HEADER of the next logical file *)
Definition header_of_file (attrs type : Z) : Prop :=
  Z.testbit attrs 6 = false /\ Z.testbit attrs 7 = true /\ type = 0.
Definition segment_at (data : bytes) (hard seen : bool) (p ln attrs type : Z) : Prop :=
  header_at data p ln attrs type /\ 4 <= ln /\
  (hard = true -> p + ln <= len data) /\
  ~ (seen = true /\ header_of_file attrs type).
(** a chain of segments from [p] up to [q]; [e] is the explicit bit of the last *)
Inductive record_at (data : bytes) (hard seen : bool) : Z -> Z -> bool -> Prop :=
  | ra_last p ln attrs type :
      segment_at data hard seen p ln attrs type -> Z.testbit attrs 5 = false ->
      record_at data hard seen p (p + ln) (Z.testbit attrs 7)
  | ra_more p ln attrs type q e :
      segment_at data hard seen p ln attrs type -> Z.testbit attrs 5 = true ->
      record_at data hard seen (p + ln) q e -> record_at data hard seen p q e.
(** records laid end to end from [p] to [r], with their starts and kinds *)
Inductive records_at (data : bytes) (hard : bool) : bool -> Z -> Z -> list (Z * bool) -> Prop :=
  | rs_nil seen p : records_at data hard seen p p []
  | rs_cons seen p q e r l :
      record_at data hard seen p q e -> records_at data hard (seen || e) q r l ->
      records_at data hard seen p r ((p, e) :: l).
(** where a logical file may end: at end of file, or at the next FILE-HEADER *)
Definition clean_end (data : bytes) (hard seen : bool) (p : Z) : Prop :=
  (hard = false /\ len data <= p) \/
  (seen = true /\ exists ln attrs type,
     header_at data p ln attrs type /\ 4 <= ln /\ header_of_file attrs type).
Definition starts_where (P : bool -> bool) (recs : list (Z * bool)) : list Z :=
  map fst (filter (fun r => P (snd r)) recs).

(** ** Windows onto a stream, for the searches *)
Definition window (data : bytes) (p n : Z) : bytes :=
  firstn (Z.to_nat n) (skipn (Z.to_nat p) data).

(** ** Data records and the objects they belong to *)
Definition record_in (data : bytes) (tell : Z) (segs : list segment) (ds : bytes) : Prop :=
  exists pre post, data = pre ++ enc_record segs ++ post /\ len pre = tell /\
    chained segs /\ Forall seg_fits segs /\ record_data segs ds 0.
(** the owner: object type, origin, copy number, identifier *)
Definition owner := (bytes * Z * Z * bytes)%type.
Inductive data_record (data : bytes) (tell : Z) : option owner -> Prop :=
  | dr_owned g t ds e rest o c i ty :
      record_in data tell (g :: t) ds ->
      seg_bit 4 g = false ->
      (g_type g = x00 /\ ty = text "FRAME" \/ g_type g = x01 /\ ty = text "NO-FORMAT") ->
      ds = e ++ rest -> rp66_obname e o c i ->
      data_record data tell (Some (ty, o, c, i))
  | dr_other g t ds :
      record_in data tell (g :: t) ds ->
      seg_bit 4 g = true \/ (g_type g <> x00 /\ g_type g <> x01) \/ ds = [] ->
      data_record data tell None.
Definition owner_eqb (x y : owner) : bool :=
  let '(t, o, c, i) := x in let '(t', o', c', i') := y in
  bytes_eqb t t' && (o =? o') && (c =? c') && bytes_eqb i i'.
Fixpoint offsets_of (x : owner) (rs : list (Z * option owner)) : list Z :=
  match rs with
  | [] => []
  | (tell, w) :: rs =>
      (match w with Some y => if owner_eqb x y then [tell] else [] | None => [] end) ++ offsets_of x rs
  end.
