(** Specification of frame data: how a row of samples is recorded (RP66 5.6) and
    what it looks like in the numpy array the user gets. *)
From Verif Require Import Bytes DlisTypes SpecTypes SpecIo DlisRecords SpecRecords PyBase DlisFdata.
Local Open Scope Z_scope.

(** the format character of each representation code, 1 to 27 *)
Definition format_chars : bytes := text "rfbBxVFzZcCdDluULisSjJoOAqQ".
Definition char_of (rc : Z) (c : byte) : Prop :=
  1 <= rc /\ nth_error format_chars (Z.to_nat (rc - 1)) = Some c.

(** the width in bytes of the numpy type (python/dlisio/dlis/utils/reprc.py) of
    each code: f4 f4 O O f4 f4 f8 O O c8 c16 i1 i2 i4 u1 u2 u4 u4 U255 O O u4 O
    O O ? U255 *)
Definition widths : list Z :=
  [4; 4; 8; 8; 4; 4; 8; 8; 8; 8; 16; 1; 2; 4; 1; 2; 4; 4; 1020; 8; 8; 4; 8; 8; 8; 1; 1020].
Definition width_of (c : byte) (n : Z) : Prop :=
  exists k, nth_error format_chars k = Some c /\ nth_error widths k = Some n.
(** the width of a row *)
Inductive row_width : bytes -> Z -> Prop :=
| rw_nil : row_width [] 0
| rw_cons c n f m : width_of c n -> row_width f m -> row_width (c :: f) (n + m).

(** little-endian number in [n] bytes *)
Definition number (n : nat) (z : Z) (w : bytes) : Prop :=
  length w = n /\ le w = z mod 256 ^ Z.of_nat n.
(** a sequence of UTF-32 code units *)
Inductive code_units : list Z -> bytes -> Prop :=
| cu_nil : code_units [] []
| cu_cons u w us ws : number 4 u w -> code_units us ws -> code_units (u :: us) (w ++ ws).

(** days of a month in the Gregorian calendar *)
Definition leap (y : Z) : Prop := y mod 4 = 0 /\ (y mod 100 <> 0 \/ y mod 400 = 0).
Definition month_days (y m d : Z) : Prop :=
  (In m [1; 3; 5; 7; 8; 10; 12] /\ 1 <= d <= 31) \/
  (In m [4; 6; 9; 11] /\ 1 <= d <= 30) \/
  (m = 2 /\ 1 <= d /\ (d <= 28 \/ d = 29 /\ leap y)).
(** a RP66 date that exists, as a datetime *)
Definition date_time (t : dtime) (p : datetime) : Prop :=
  p = mk_datetime (1900 + dt_Y t) (dt_M t) (dt_D t) (dt_H t) (dt_MN t) (dt_S t) (1000 * dt_MS t) /\
  month_days (1900 + dt_Y t) (dt_M t) (dt_D t) /\
  dt_H t <= 23 /\ dt_MN t <= 59 /\ dt_S t <= 59 /\ dt_MS t <= 999.

(** an object in the array: its 8 byte pointer *)
Definition pointer (o : pyobj) : list cell :=
  [Ref o 0; Ref o 1; Ref o 2; Ref o 3; Ref o 4; Ref o 5; Ref o 6; Ref o 7].

(** [image rc v k]: the element [v] of type [rc] is stored as the cells [k] *)
Inductive image : Z -> value -> list cell -> Prop :=
| im_num rc n z w :
    In (rc, n) [(1, 4); (2, 4); (5, 4); (6, 4); (7, 8); (12, 1); (13, 2); (14, 4); (15, 1);
                (16, 2); (17, 4); (18, 4); (22, 4); (26, 1)]%nat ->
    number n z w -> image (Z.of_nat rc) (VNum z) (map Raw w)
| im_complex rc n a b u w :
    In (rc, n) [(10, 4); (11, 8)]%nat -> number n a u -> number n b w ->
    image (Z.of_nat rc) (VNums [a; b]) (map Raw (u ++ w))
| im_tuple rc zs : In rc [3; 4; 8; 9] -> image rc (VNums zs) (pointer (PyFloats zs))
| im_text rc s us w :
    In rc [19; 27] ->
    (* one code unit per character; for characters above 127 see C31 *)
    Forall2 (fun b u => u = if b2z b <? 128 then b2z b else b2z b + 0xFFFFFF00) s us ->
    code_units (us ++ repeat 0 (255 - length s)) w ->
    image rc (VText s) (map Raw w)
| im_ascii s u : utf8 s = Some u -> image 20 (VText s) (pointer (PyStr u))
| im_time t p : date_time t p -> image 21 (VTime t) (pointer (PyTime p))
| im_name n : image 23 (VName n) (pointer (PyName n))
| im_ref r : image 24 (VRef r) (pointer (PyRef r))
| im_attr a : image 25 (VAttr a) (pointer (PyAttr a)).

(** one sample: its bytes in the file and its image *)
Definition sample (c : byte) (e : bytes) (k : list cell) : Prop :=
  exists rc v, char_of rc c /\ rp66_value rc e v /\ image rc v k.
(** a row: one sample per format character *)
Inductive row : bytes -> bytes -> list cell -> Prop :=
| row_nil : row [] [] []
| row_cons c e k f e' k' : sample c e k -> row f e' k' -> row (c :: f) (e ++ e') (k ++ k').

(** samples that are stepped over: any encoded elements *)
Inductive skipped : bytes -> bytes -> Prop :=
| sk_nil : skipped [] []
| sk_cons c rc e v f e' : char_of rc c -> rp66_value rc e v -> skipped f e' ->
    skipped (c :: f) (e ++ e').

(** consecutive rows with leading and trailing columns that are not wanted *)
Inductive rows (pre fmt post : bytes) : bytes -> list (list cell) -> Prop :=
| rows_nil : rows pre fmt post [] []
| rows_cons e1 e2 e3 k e' ks :
    skipped pre e1 -> row fmt e2 k -> skipped post e3 -> rows pre fmt post e' ks ->
    rows pre fmt post ((e1 ++ e2 ++ e3) ++ e') (k :: ks).

(** the data of a frame's record: object name, then rows *)
Definition frame_record (pre fmt post : bytes) (ds : bytes) (ks : list (list cell)) : Prop :=
  exists en o c i es, ds = en ++ es /\ rp66_obname en o c i /\ rows pre fmt post es ks.

(** the record at offset [tell] of a file: not encrypted, with data [ds] *)
Definition plain_record (data : bytes) (tell : Z) (ds : bytes) : Prop :=
  exists g t, record_in data tell (g :: t) ds /\ seg_bit 4 g = false.
(** a frame's record at [tell] with the rows [ks] *)
Definition frame_record_in (data pre fmt post : bytes) (tell : Z) (ks : list (list cell)) : Prop :=
  exists ds, plain_record data tell ds /\ frame_record pre fmt post ds ks.
(** the columns from [a] on, [n] wide, of a row *)
Definition columns (a n : Z) (row : list cell) : list cell :=
  firstn (Z.to_nat n) (skipn (Z.to_nat a) row).

(** *** Damage *)

(** the codes whose samples are bounds-checked by the reader *)
Definition checked (rc : Z) : Prop :=
  In rc [1; 2; 5; 6; 7; 10; 11; 12; 13; 14; 15; 16; 17; 18; 22; 26].

(** [broken_row fmt e]: [e] starts a row but the row cannot be completed: a
    number is cut short, a text is not UTF-8 or a date does not exist *)
Inductive broken_row : bytes -> bytes -> Prop :=
| br_cut rc c v t ext f : char_of rc c -> checked rc -> rp66_value rc (t ++ ext) v -> ext <> [] ->
    broken_row (c :: f) t
| br_text c e s f rest : char_of 20 c -> rp66_value 20 e (VText s) -> utf8 s = None ->
    broken_row (c :: f) (e ++ rest)
| br_time c e t f rest : char_of 21 c -> rp66_value 21 e (VTime t) -> (forall p, ~ date_time t p) ->
    broken_row (c :: f) (e ++ rest)
| br_later c e k f e' : sample c e k -> broken_row f e' -> broken_row (c :: f) (e ++ e').
(** a record that ends in a broken row *)
Definition broken_record (fmt : bytes) (ds : bytes) (ks : list (list cell)) : Prop :=
  exists en o c i es t, ds = en ++ es ++ t /\ rp66_obname en o c i /\
    rows [] fmt [] es ks /\ broken_row fmt t /\ t <> [].
