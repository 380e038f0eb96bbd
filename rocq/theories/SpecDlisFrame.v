(** Specification for C10 (tables), C33 and C34: the columns of a frame's curves. *)
From Verif Require SpecLisPy.
From Verif Require Import Bytes DlisTypes SpecTypes SpecCore SpecIo DlisRecords SpecRecords PyBase DlisFdata SpecFdata DlisFrame.
Local Open Scope Z_scope.

(** ** C33: labels *)

(** two of the channels have the name [n] *)
Definition repeated (cs : list column) (n : ustr) : Prop :=
  exists a x b y c, cs = a ++ x :: b ++ y :: c /\ cl_name x = n /\ cl_name y = n.
(** the label of a channel: its name, or the name with origin and copy number if the
    name is that of several channels *)
Definition label_of (fmt : ustr -> Z -> Z -> option ustr) (cs : list column) (c : column) (l : ustr) : Prop :=
  (repeated cs (cl_name c) /\ fmt (cl_name c) (cl_origin c) (cl_copy c) = Some l) \/
  (~ repeated cs (cl_name c) /\ l = cl_name c).
Definition labels (fmt : ustr -> Z -> Z -> option ustr) (cs : list column) (ls : list ustr) : Prop :=
  Forall2 (label_of fmt cs) cs ls.
Definition FRAMENO : ustr := map b2z (text "FRAMENO").

(** the numpy type of each representation code, 1 to 27 *)
Definition type_names : list bytes :=
  [text "f4"; text "f4"; text "O"; text "O"; text "f4"; text "f4"; text "f8"; text "O";
   text "O"; text "c8"; text "c16"; text "i1"; text "i2"; text "i4"; text "u1"; text "u2";
   text "u4"; text "u4"; text "U255"; text "O"; text "O"; text "u4"; text "O"; text "O";
   text "O"; text "?"; text "U255"].
(** the type of a channel's samples: a scalar if the dimension is [1], and an array of
    that shape otherwise *)
Definition sample_type (c : column) (t : type) : Prop :=
  1 <= cl_reprc c /\ nth_error type_names (Z.to_nat (cl_reprc c - 1)) = Some (fst t) /\
  ((cl_dim c = [1] /\ snd t = []) \/ (cl_dim c <> [1] /\ snd t = cl_dim c)).
(** number of values in a sample *)
Definition elements (dim : list Z) : Z := fold_right Z.mul 1 dim.
(** numpy can make the type of the samples: the code is known, the dimensions are
    positive and not too many, and a sample is smaller than 2 GiB *)
Definition fits (maxdims : nat) (c : column) : Prop :=
  exists w, 1 <= cl_reprc c /\ nth_error widths (Z.to_nat (cl_reprc c - 1)) = Some w /\
    (length (cl_dim c) <= maxdims)%nat /\ Forall (Z.le 1) (cl_dim c) /\ elements (cl_dim c) * w < 2 ^ 31.

(** [d] has the column FRAMENO and one for each channel, in order, with these names and
    titles *)
Definition describes (cs : list column) (names titles : list ustr) (d : list field) : Prop :=
  map fd_name d = FRAMENO :: names /\ map fd_title d = None :: map Some titles /\
  exists t0 ts, map fd_type d = t0 :: ts /\ t0 = (text "i4", []) /\ Forall2 sample_type cs ts.

(** labels for which strict=False works.  Labels are equal exactly when the
    fingerprints are, none is the fingerprint of a channel, and no label or
    fingerprint is empty, "FRAMENO" or looks like a repeated one with a number. *)
Definition tidy (fps ls : list ustr) : Prop :=
  (forall i j a b x y, nth_error fps i = Some a -> nth_error fps j = Some b ->
     nth_error ls i = Some x -> nth_error ls j = Some y -> (a = b <-> x = y)) /\
  (forall l, In l ls -> ~ In l fps) /\
  SpecLisPy.unnumbered (FRAMENO :: ls ++ fps) /\ ~ In FRAMENO (ls ++ fps) /\ ~ In [] (ls ++ fps).

(** ** C34: layout *)

(** column [i] of the type starts where the column before it ends, and the last one
    ends with the row *)
Inductive packed : Z -> list field -> Z -> Prop :=
| pk_nil n : packed n [] n
| pk_cons n f l m : fd_offset f = n -> packed (n + type_size (fd_type f)) l m -> packed n (f :: l) m.

(** the values of one row of the file, by channel: the bytes of each channel's sample
    and the cells it becomes *)
Inductive channel_samples : list column -> bytes -> list (list cell) -> Prop :=
| cs_nil : channel_samples [] [] []
| cs_cons c ch e k cs e' ks :
    char_of (cl_reprc c) ch -> row (repeat ch (Z.to_nat (elements (cl_dim c)))) e k ->
    channel_samples cs e' ks -> channel_samples (c :: cs) (e ++ e') (k :: ks).
(** a row: the frame number and the samples *)
Inductive frame_row (cs : list column) : bytes -> list (list cell) -> Prop :=
| fr e0 k0 e ks : sample "i" e0 k0 -> channel_samples cs e ks -> frame_row cs (e0 ++ e) (k0 :: ks).
(** rows one after the other *)
Inductive frame_rows (cs : list column) : bytes -> list (list (list cell)) -> Prop :=
| frs_nil : frame_rows cs [] []
| frs_cons e k e' ks : frame_row cs e k -> frame_rows cs e' ks -> frame_rows cs (e ++ e') (k :: ks).
(** the record at [tell]: object name and rows *)
Definition frame_data_in (data : bytes) (cs : list column) (tell : Z) (rows : list (list (list cell))) : Prop :=
  exists ds en o c i es, plain_record data tell ds /\ ds = en ++ es /\ rp66_obname en o c i /\ frame_rows cs es rows.
(** what the user sees of row [r] in column [f] of an array in memory *)
Definition cell_at (d : list field) (cells : list cell) (r : nat) (f : field) : list cell :=
  columns (Z.of_nat r * itemsize d + fd_offset f) (type_size (fd_type f)) cells.

(** ** C33: channels as files have them *)

(** the fingerprint is that of the channel's name, origin and copy number (C16) *)
Definition own_fp (c : column) : Prop :=
  exists o k, is_numeral o (cl_origin c) /\ is_numeral k (cl_copy c) /\
    cl_fp c = map b2z (text "T.CHANNEL-I.") ++ cl_name c ++ map b2z (text "-O.") ++ map b2z o ++ map b2z (text "-C.") ++ map b2z k.
(** a channel whose name is not empty and has no dot or parenthesis *)
Definition plain (c : column) : Prop :=
  own_fp c /\ cl_name c <> [] /\ cl_name c <> FRAMENO /\ ~ In (b2z "."%byte) (cl_name c) /\ ~ In (b2z "("%byte) (cl_name c).
(** the label NAME.ORIGIN.COPY *)
Definition dotted (name : ustr) (origin copy : Z) (l : ustr) : Prop :=
  exists o k, is_numeral o origin /\ is_numeral k copy /\
    l = name ++ map b2z (text ".") ++ map b2z o ++ map b2z (text ".") ++ map b2z k.
(** the channel's identity *)
Definition identity (c : column) : ustr * Z * Z := (cl_name c, cl_origin c, cl_copy c).
