(** Independent specification for C42-C47: how LIS79 lays logical records out as
    physical records (LIS79 2.3), and logical files as records. *)
From Verif Require Import Bytes SpecTypes SpecIo.
Local Open Scope Z_scope.

(** [x] is at position [pos] of [data] *)
Definition at_pos (data : bytes) (pos : Z) (x : bytes) : Prop :=
  exists pre post, data = pre ++ x ++ post /\ len pre = pos.

(** [x] is all of [data] from position [pos] on *)
Definition tail_at (data : bytes) (pos : Z) (x : bytes) : Prop :=
  exists pre, data = pre ++ x /\ len pre = pos.

(** ** Physical records *)

(** the header: length of the whole physical record, attributes *)
Definition phys_header (length a : Z) (h : bytes) : Prop :=
  exists l0 l1 a0 a1, h = [l0; l1; a0; a1] /\ u16 l0 l1 = length /\ u16 a0 a1 = a.
(** attribute bits *)
Definition successor (a : Z) : bool := Z.testbit a 0.
Definition predecessor (a : Z) : bool := Z.testbit a 1.
(** the trailer: record number, file number and checksum, 2 bytes each *)
Definition trailer_size (a : Z) : Z :=
  (if Z.testbit a 9 then 2 else 0) + (if Z.testbit a 10 then 2 else 0)
  + (if Z.testbit a 12 || Z.testbit a 13 then 2 else 0).

(** *** Padding *)
Definition padding (p : bytes) : Prop := exists c k, p = repeat c k /\ (c = x00 \/ c = x20).
(** Padding [p] at position [pos] before the header [h] that can be told from it
    ([off] is the physical position of the file's first byte): without padding
    the header does not look like padding; otherwise there are at least two pad
    bytes and the header is aligned to 4 bytes.  A header of four spaces cannot
    be told from padding. *)
Definition gap (off pos : Z) (p h : bytes) : Prop :=
  padding p /\ h <> repeat x20 4 /\
  ((p = [] /\ firstn 2 h <> [x20; x20]) \/
   (length p <> 1%nat /\ (off + pos + len p) mod 4 = 0)).

(** ** Logical records *)

(** [pieces padded off pos first body e]: [e], to be stored at [pos], is a chain
    of physical records that together hold [body].  [first]: the chain starts the
    record.  [padded]: there may be padding between the physical records. *)
Inductive pieces (padded : bool) (off : Z) : Z -> bool -> bytes -> bytes -> Prop :=
| pc_last pos first a h body tr :
    phys_header (4 + len body + len tr) a h -> len tr = trailer_size a ->
    predecessor a = negb first -> successor a = false ->
    (first = true -> 2 <= len body) ->
    pieces padded off pos first body (h ++ body ++ tr)
| pc_more pos first a h body tr p body' e :
    phys_header (4 + len body + len tr) a h -> len tr = trailer_size a ->
    predecessor a = negb first -> successor a = true ->
    (first = true -> 2 <= len body) ->
    (padded = false -> p = []) ->
    gap off (pos + 4 + len body + len tr) p (firstn 4 e) ->
    pieces padded off (pos + 4 + len body + len tr + len p) false body' e ->
    pieces padded off pos first (body ++ body') (h ++ body ++ tr ++ p ++ e).

(** a logical record: type, an attribute byte, then the data *)
Definition lis_record (padded : bool) (off pos type : Z) (ds e : bytes) : Prop :=
  exists t x, type = b2z t /\ pieces padded off pos true (t :: x :: ds) e.

(** the record types LIS79 defines *)
Definition record_types : list Z :=
  [0; 1; 32; 34; 39; 42; 47; 64; 65; 85; 86; 95; 96; 97; 100; 101; 102; 128; 129; 130; 131; 132;
   133; 137; 138; 139; 141; 224; 225; 227; 232; 234].

(** ** Sequences of records *)

(** [records_at off data pos rs end]: from [pos] on, [data] holds records, each
    possibly after padding; [rs] lists their types, sizes and positions and the
    data of the last one ends at [end].  No padding inside the records. *)
Inductive records_at (off : Z) (data : bytes) : Z -> list (Z * Z * Z) -> Z -> Prop :=
| ra_nil pos : records_at off data pos [] pos
| ra_cons pos p e type ds rs last :
    at_pos data pos (p ++ e) -> gap off pos p (firstn 4 e) ->
    lis_record false off (pos + len p) type ds e -> In type record_types ->
    records_at off data (pos + len p + len e) rs last ->
    records_at off data pos ((type, len e, pos + len p) :: rs) last.

(** *** Logical files *)
Definition is_data (t : Z) : Prop := In t [0; 1].
Definition is_delimiter (t : Z) : Prop := In t [130; 131; 132; 133].  (* reel and tape *)
Definition is_header (t : Z) : Prop := t = 128.
Definition is_closing (t : Z) : Prop := In t [129; 137].            (* file trailer, logical EOF *)
(** the inside of a logical file: no delimiter, no closing record, and a file
    header only as the first record apart from data records *)
Definition inside (ts : list Z) : Prop :=
  (forall t, In t ts -> ~ is_delimiter t /\ ~ is_closing t) /\
  (forall a t b, ts = a ++ t :: b -> is_header t -> forall x, In x a -> is_data x).
(** it has a record that is not a data record *)
Definition has_explicit (ts : list Z) : Prop := exists t, In t ts /\ ~ is_data t.

(** *** The index of a sequence of records *)
Definition type_of (r : Z * Z * Z) : Z := fst (fst r).
Definition start_of (r : Z * Z * Z) : Z := snd r.
Definition stop_of (r : Z * Z * Z) : Z := snd r + snd (fst r).
Definition datab (r : Z * Z * Z) : bool := existsb (Z.eqb (type_of r)) [0; 1].
Definition data_of (rs : list (Z * Z * Z)) : list (Z * Z * Z) := filter datab rs.
Definition others_of (rs : list (Z * Z * Z)) : list (Z * Z * Z) := filter (fun r => negb (datab r)) rs.

(** where the next logical file starts after [pos]: at the next record, or at the
    end of the file if only padding follows *)
Definition next_start (off : Z) (data : bytes) (pos q : Z) : Prop :=
  (exists r last, records_at off data pos [r] last /\ q = start_of r) \/
  (exists p, padding p /\ tail_at data pos p /\ q = len data).

(** [l] is ordered by position, without overlaps, inside [from, to) *)
Fixpoint ordered (from to : Z) (l : list (Z * Z * Z)) : Prop :=
  match l with
  | [] => True
  | r :: t => from <= start_of r /\ start_of r < stop_of r <= to /\ ordered (stop_of r) to t
  end.

(** *** Damage *)
(** At [pos] there is no record to be indexed: after padding comes a header whose
    length is below the minimum, or a record that is longer than the rest of the
    file, or one of an unknown type. *)
Definition damaged_at (off : Z) (data : bytes) (pos : Z) : Prop :=
  exists p h l a, gap off pos p h /\ phys_header l a h /\ 0 < l /\ at_pos data pos (p ++ h) /\
    (l < (if predecessor a then 4 else 6) + trailer_size a \/
     len data < pos + len p + l \/
     (exists t x, at_pos data pos (p ++ h ++ [t; x]) /\ ~ In (b2z t) record_types) \/
     predecessor a = true).
