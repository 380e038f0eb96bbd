(** Specification for C52-C54: how LIS79 records frames (3.3.2) and what the rows of
    the array look like. *)
From Verif Require Import Bytes SpecTypes SpecIo DlisTypes PyBase DlisFdata SpecFdata LisTypes LisProtocol SpecLisTypes LisPy.
From Coq Require Import Reals.
From Flocq Require Import Core IEEE754.Binary IEEE754.Bits.
Local Open Scope Z_scope.

(** ** Samples *)

(** a sample of a channel: one or more numbers, or one text *)
Inductive sample_of : Z -> bytes -> list cell -> Prop :=
| so_numbers rc c n m k e w : In (rc, c, n, m) lis_formats -> lis_natives (repeat c k) e w -> sample_of rc e (map Raw w)
| so_text e u : utf8 e = Some u -> sample_of 65 e (pointer (PyStr u)).

(** the channel is not suppressed and has the wanted sampling rate *)
Definition selected (rate : Z) (s : spec_block) : Prop := 0 < sp_reserved_size s /\ sp_samples s = rate.

(** [channel_of rate s b ks]: the bytes [b] of channel [s] in a frame, and what it
    puts in each of the frame's [rate] rows *)
Inductive channel_of (rate : Z) (s : spec_block) : bytes -> list (list cell) -> Prop :=
| co_read es ks : selected rate s -> Z.of_nat (length es) = rate ->
    Forall2 (fun e k => sample_of (sp_reprc s) e k /\ len e * rate = sp_reserved_size s) es ks ->
    channel_of rate s (concat es) ks
| co_skip b : ~ selected rate s -> len b = Z.abs (sp_reserved_size s) ->
    channel_of rate s b (repeat [] (Z.to_nat rate)).

(** put columns side by side *)
Fixpoint beside (a b : list (list cell)) : list (list cell) :=
  match a, b with
  | x :: a, y :: b => (x ++ y) :: beside a b
  | _, _ => []
  end.
(** the channels of a frame *)
Inductive channels_of (rate : Z) : list spec_block -> bytes -> list (list cell) -> Prop :=
| cho_nil : channels_of rate [] [] (repeat [] (Z.to_nat rate))
| cho_cons s b ks ss e rows : channel_of rate s b ks -> channels_of rate ss e rows ->
    channels_of rate (s :: ss) (b ++ e) (beside ks rows).

(** ** The index *)

(** the recorded index [e] of type [rc] as a double.  What number a float is, is the
    subject of C40 and C41. *)
Inductive index_number : Z -> bytes -> binary64 -> Prop :=
| in_i8 b z : twos_complement 8 (b2z b) z -> index_number 56 [b] (f64_of z 0)
| in_i16 b0 b1 z : twos_complement 16 (u16 b0 b1) z -> index_number 79 [b0; b1] (f64_of z 0)
| in_i32 b0 b1 b2 b3 z : twos_complement 32 (u32be b0 b1 b2 b3) z -> index_number 73 [b0; b1; b2; b3] (f64_of z 0)
| in_byte b : index_number 66 [b] (f64_of (b2z b) 0)
| in_f16 e v : lis_f16 e = Some (v, []) -> index_number 49 e (f32_to_f64 (b32_of_bits v))
| in_f32 e v : lis_f32 e = Some (v, []) -> index_number 68 e (f32_to_f64 (b32_of_bits v))
| in_f32low e v : lis_f32low e = Some (v, []) -> index_number 50 e (f32_to_f64 (b32_of_bits v))
| in_f32fix e v : lis_f32fix e = Some (v, []) -> index_number 70 e (f32_to_f64 (b32_of_bits v)).

(** the integer types an index can have: code, bytes, range *)
Definition int_types : list (Z * (nat * (Z * Z))) :=
  [(56, (1%nat, (-128, 127))); (79, (2%nat, (-32768, 32767))); (73, (4%nat, (-2147483648, 2147483647))); (66, (1%nat, (0, 255)))].
(** an index value in the array: an integer of the index's type, or rounded to single *)
Inductive index_cells : Z -> binary64 -> list cell -> Prop :=
| ic_int rc n lo hi x z w : In (rc, (n, (lo, hi))) int_types -> is_finite 53 1024 x = true -> B2R 53 1024 x = IZR z ->
    lo <= z <= hi -> number n z w -> index_cells rc x (map Raw w)
| ic_float rc x w : In rc [49; 68; 50; 70] -> number 4 (bits_of_b32 (f64_to_f32 x)) w -> index_cells rc x (map Raw w).

(** the sub-sample number in 8 bits: [s] itself up to 127 (from 128 on see C54) *)
Definition counted (s : Z) : Z := (s + 128) mod 256 - 128.
(** the value for sub-sample [s] of [rate], 1 <= s <= rate: the recorded index [x] for
    the last one, else on the line from the previous frame's index [p] (0 if there is
    none), computed in double precision *)
Definition sub_value (rate : Z) (last : option binary64) (x : binary64) (s : Z) (v : binary64) : Prop :=
  (counted s = rate -> v = x /\ is_nan 53 1024 x = false) /\
  (counted s <> rate -> match last with
               | None => v = f64_of 0 0
               | Some p => is_nan 53 1024 x = false /\
                   v = b64_plus BinarySingleNaN.mode_NE p
                         (b64_mult BinarySingleNaN.mode_NE
                            (b64_div BinarySingleNaN.mode_NE (b64_minus BinarySingleNaN.mode_NE x p) (f64_of rate 0))
                            (f64_of (counted s) 0))
               end).
(** the index values of the rows of a frame *)
Definition index_rows (rate rc : Z) (last : option binary64) (x : binary64) (ks : list (list cell)) : Prop :=
  Forall2 (fun s k => exists v, sub_value rate last x s v /\ index_cells rc v k) (map Z.of_nat (seq 1 (Z.to_nat rate))) ks.

(** the index as the previous one of the next frame *)
Definition remember (x : binary64) : option binary64 := if is_nan 53 1024 x then None else Some x.

(** ** Frames and records *)

(** depth recording mode 0: the first channel is the index *)
Inductive frame0 (rate : Z) (s0 : spec_block) (ss : list spec_block) : option binary64 -> bytes -> list (list cell) -> option binary64 -> Prop :=
| f0_slow last ei ki ec rows : rate = 1 -> len ei = sp_reserved_size s0 -> sample_of (sp_reprc s0) ei ki -> channels_of rate ss ec rows ->
    frame0 rate s0 ss last (ei ++ ec) (beside [ki] rows) last
| f0_fast last ei x ks ec rows : 1 < rate -> index_number (sp_reprc s0) ei x -> index_rows rate (sp_reprc s0) last x ks ->
    channels_of rate ss ec rows ->
    frame0 rate s0 ss last (ei ++ ec) (beside ks rows) (remember x).
Inductive frames0 (rate : Z) (s0 : spec_block) (ss : list spec_block) : option binary64 -> bytes -> list (list cell) -> option binary64 -> Prop :=
| fs0_nil last : frames0 rate s0 ss last [] [] last
| fs0_cons last e rows last' e' rows' last'' :
    frame0 rate s0 ss last e rows last' -> frames0 rate s0 ss last' e' rows' last'' ->
    frames0 rate s0 ss last (e ++ e') (rows ++ rows') last''.

(** depth recording mode 1: the index [x] of the first frame is recorded once, the
    others follow at the frame spacing *)
Inductive frames1 (rate rc : Z) (spacing : binary64) (ss : list spec_block)
  : option binary64 -> binary64 -> bytes -> list (list cell) -> option binary64 -> Prop :=
| fs1_nil last x : frames1 rate rc spacing ss last x [] [] (remember x)
| fs1_last last x ks e rows : e <> [] -> index_rows rate rc last x ks -> channels_of rate ss e rows ->
    frames1 rate rc spacing ss last x e (beside ks rows) (remember x)
| fs1_more last x ks e rows e' rows' last' : index_rows rate rc last x ks -> channels_of rate ss e rows -> e <> [] -> e' <> [] ->
    is_nan 53 1024 x = false ->
    frames1 rate rc spacing ss (remember x) (b64_plus BinarySingleNaN.mode_NE x spacing) e' rows' last' ->
    frames1 rate rc spacing ss last x (e ++ e') (beside ks rows ++ rows') last'.

(** what of a format specification says how the frames are recorded *)
Inductive layout :=
| Mode0 (s0 : spec_block) (ss : list spec_block)
| Mode1 (rc : Z) (spacing : binary64) (ss : list spec_block).
(** a data record *)
Inductive data_record (rate : Z) : layout -> option binary64 -> bytes -> list (list cell) -> option binary64 -> Prop :=
| dr0 s0 ss last e rows last' : frames0 rate s0 ss last e rows last' -> data_record rate (Mode0 s0 ss) last e rows last'
| dr1 rc spacing ss last ei x e rows last' : index_number rc ei x -> frames1 rate rc spacing ss last x e rows last' ->
    data_record rate (Mode1 rc spacing ss) last (ei ++ e) rows last'.
(** the data records of a format specification, in order *)
Inductive data_records (rate : Z) (l : layout) : option binary64 -> list bytes -> list (list cell) -> option binary64 -> Prop :=
| drs_nil last : data_records rate l last [] [] last
| drs_cons last data rows last' datas rows' last'' :
    data_record rate l last data rows last' -> data_records rate l last' datas rows' last'' ->
    data_records rate l last (data :: datas) (rows ++ rows') last''.

(** ** Usable format specifications *)

(** the size in the file of the fixed-size types; texts are 65 *)
Definition number_size (rc : Z) (n : nat) : Prop := exists c m, In (rc, c, n, m) lis_formats.
(** a channel of whole samples of whole numbers *)
Definition usable_channel (s : spec_block) : Prop :=
  exists q, q <> 0 /\ 1 <= sp_samples s /\ sp_reserved_size s = q * sp_samples s /\
  (sp_reprc s = 65 \/ exists n k, number_size (sp_reprc s) n /\ q = k * Z.of_nat n).
(** [usable l]: the format specification with this layout can be read *)
Definition usable (l : layout) : Prop :=
  match l with
  | Mode0 s0 ss =>
      (exists n, number_size (sp_reprc s0) n /\ sp_reserved_size s0 = Z.of_nat n) /\ sp_samples s0 = 1 /\
      Forall usable_channel ss
  | Mode1 rc _ ss => (exists n, number_size rc n) /\ ss <> [] /\ Forall usable_channel ss
  end.

(** ** Format specifications *)

(** the value of the entry block of a type, or a default *)
Inductive entry_of (es : list entry_block) (t : Z) (default : pv) : pv -> Prop :=
| eo_absent : (forall e, In e es -> eb_type e <> t) -> entry_of es t default default
| eo_one a e b : es = a ++ e :: b -> eb_type e = t -> (forall x, In x (a ++ b) -> eb_type x <> t) ->
    entry_of es t default (pv_of (eb_value e)).
(** a number equal to [z] *)
Definition number_value (v : pv) (z : Z) : Prop :=
  v = PInt z \/ exists x, v = PFloat x /\ is_finite 53 1024 x = true /\ B2R 53 1024 x = IZR z.
(** the frame spacing: negative when logged upwards (1), positive downwards (255) *)
Inductive spacing_of : pv -> pv -> binary64 -> Prop :=
| spo_up_int dir z : number_value dir 1 -> spacing_of dir (PInt z) (f64_of (- z) 0)
| spo_up_float dir x : number_value dir 1 -> spacing_of dir (PFloat x) (b64_opp x)
| spo_down_int dir z : number_value dir 255 -> spacing_of dir (PInt z) (f64_of z 0)
| spo_down_float dir x : number_value dir 255 -> spacing_of dir (PFloat x) x.
(** entries 13 (mode), 15 (type of the index), 8 (spacing) and 4 (direction) *)
Inductive layout_of (d : dfsr) : layout -> Prop :=
| lo_mode0 s0 ss : entry_of (df_entries d) 13 (PInt 0) (PInt 0) -> df_specs d = s0 :: ss -> layout_of d (Mode0 s0 ss)
| lo_mode1 rc sp dir spacing : entry_of (df_entries d) 13 (PInt 0) (PInt 1) -> entry_of (df_entries d) 15 PNone (PInt rc) ->
    entry_of (df_entries d) 8 PNone sp -> entry_of (df_entries d) 4 (PInt 1) dir -> spacing_of dir sp spacing ->
    layout_of d (Mode1 rc spacing (df_specs d)).
Definition layout_channels (l : layout) : list spec_block := match l with Mode0 _ ss => ss | Mode1 _ _ ss => ss end.
(** the sampling rate: as asked for; 1 if not asked for and all channels have the same *)
Definition rate_used (l : layout) (asked : option Z) (rate : Z) : Prop :=
  asked = Some rate \/
  asked = None /\ rate = 1 /\ forall s t, In s (layout_channels l) -> In t (layout_channels l) -> sp_samples s = sp_samples t.

(** ** Columns *)

(** numpy's type of a representation code: code, name, bytes *)
Definition np_types : list (Z * (bytes * Z)) :=
  [(49, (text "f4", 4)); (68, (text "f4", 4)); (50, (text "f4", 4)); (70, (text "f4", 4)); (56, (text "i1", 1)); (79, (text "i2", 2));
   (73, (text "i4", 4)); (66, (text "u1", 1)); (65, (text "O", 8))].
Section Columns.
Variable dec : bytes -> pystr.
(** the column of a channel *)
Inductive column_of (s : spec_block) : column -> Prop :=
| clo_number n t w entries : number_size (sp_reprc s) n -> In (sp_reprc s, (t, w)) np_types ->
    sp_reserved_size s = entries * Z.of_nat n * sp_samples s -> column_of s (mk_column (dec (sp_mnemonic s)) t w entries)
| clo_text t w : sp_reprc s = 65 -> In (65, (t, w)) np_types -> column_of s (mk_column (dec (sp_mnemonic s)) t w 1).
(** the column of the index *)
Inductive index_column : layout -> column -> Prop :=
| ico_mode0 s0 ss c : column_of s0 c -> index_column (Mode0 s0 ss) c
| ico_mode1 rc spacing ss t w : In (rc, (t, w)) np_types -> index_column (Mode1 rc spacing ss) (mk_column (str_of (text "DEPT")) t w 1).
(** the selected channels, in order *)
Inductive chosen (rate : Z) : list spec_block -> list spec_block -> Prop :=
| ch_nil : chosen rate [] []
| ch_take s ss l : selected rate s -> chosen rate ss l -> chosen rate (s :: ss) (s :: l)
| ch_drop s ss l : ~ selected rate s -> chosen rate ss l -> chosen rate (s :: ss) l.
(** the index first, then the selected channels *)
Inductive columns_of (rate : Z) (l : layout) : list column -> Prop :=
| cso c0 chans cs : index_column l c0 -> chosen rate (layout_channels l) chans -> Forall2 column_of chans cs -> columns_of rate l (c0 :: cs).
(** what the array's type is: labels that occur more than once are an error, or are
    made different (C57) if [strict] is off *)
Inductive dtype_of (rate : Z) (l : layout) (strict : bool) : list column -> Prop :=
| dto_plain cols : columns_of rate l cols -> NoDup (map col_label cols) -> dtype_of rate l strict cols
| dto_renamed cols cols' : columns_of rate l cols -> ~ NoDup (map col_label cols) -> strict = false ->
    NoDup (map col_label cols') -> map col_label cols' = unique_mnemonics (map col_label cols) ->
    map (fun c => (col_type c, col_width c, col_entries c)) cols' = map (fun c => (col_type c, col_width c, col_entries c)) cols ->
    dtype_of rate l strict cols'.
End Columns.
(** the bytes of a row *)
Definition row_size (cols : list column) : Z := fold_right Z.add 0 (map (fun c => col_width c * col_entries c) cols).
(** the bytes of the channels in a frame, suppressed ones (negative) included *)
Definition frame_bytes (ss : list spec_block) : Z := fold_right (fun s n => Z.abs (sp_reserved_size s) + n) 0 ss.
