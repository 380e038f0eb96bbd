(** C10 (Python's tables), C33 and C34: the numpy type of a frame's curves.  See
    SpecDlisFrame.v for labels, types and rows. *)
From Verif Require SpecLisPy.
From Verif Require Import Bytes BytesProofs DlisTypes SpecTypes SpecCore DlisCore Stream DlisIo SpecIo DlisRecords SpecRecords PyBase DlisFdata SpecFdata
  DlisFrame SpecDlisFrame DlisFrameProofs DlisFrameProofs2 DlisFrameProofs3 DlisFrameProofs4 DlisFrameProofs5 DlisFrameProofs6 PropFdata.
Local Open Scope Z_scope.

(** ** C10: the tables *)

(** The format characters and the numpy types are there for exactly the codes 1 to 27;
    they are the specified ones, and the types have the widths of what the unpacker
    writes. *)
Theorem C10_tables :
  (forall rc c, table_get rc fmt_table = Some c <-> char_of rc c) /\
  (forall rc t, table_get rc dtype_table = Some t <-> 1 <= rc /\ nth_error type_names (Z.to_nat (rc - 1)) = Some t) /\
  (forall rc, 1 <= rc <= 27 <-> table_get rc fmt_table <> None) /\
  (forall rc, 1 <= rc <= 27 <-> table_get rc dtype_table <> None) /\
  (forall rc c t w, table_get rc fmt_table = Some c -> table_get rc dtype_table = Some t -> (width_of c w <-> np_size t = Some w)).
Proof.
  split; [exact fmt_table_spec|]. split; [exact dtype_table_iff|]. split; [exact fmt_table_codes|]. split; [exact dtype_table_codes | exact tables_width].
Qed.
Print Assumptions C10_tables.

(** ** C33: names *)

(** Whatever type is made, FRAMENO comes first, then one column for each channel in
    order, with the type of the channel's samples, and names are distinct. *)
Theorem C33_columns :
  forall maxdims fmt strict cs d, frame_dtype maxdims fmt strict (map Some cs) = Some d ->
  exists f d' ts, d = f :: d' /\ fd_name f = FRAMENO /\ fd_title f = None /\ fd_type f = (text "i4", []) /\ map fd_type d' = ts /\
    Forall2 sample_type cs ts /\ NoDup (map fd_name d).
Proof. exact dtype_columns. Qed.
Print Assumptions C33_columns.

(** With strict=True names are the labels: the mnemonic, or the formatted mnemonic with
    origin and copy number if the frame has several channels with that mnemonic. *)
Theorem C33_names :
  forall maxdims fmt cs d, frame_dtype maxdims fmt true (map Some cs) = Some d ->
  exists ls, labels fmt cs ls /\ describes cs ls (map cl_fp cs) d /\ NoDup (FRAMENO :: ls ++ map cl_fp cs).
Proof. exact strict_ok. Qed.
Print Assumptions C33_names.
(** The type exists exactly if labels and fingerprints are distinct. *)
Theorem C33_strict :
  forall maxdims fmt cs ls, Forall (fits maxdims) cs -> labels fmt cs ls -> ~ In [] ls ->
  ((exists d, frame_dtype maxdims fmt true (map Some cs) = Some d) <-> NoDup (FRAMENO :: ls ++ map cl_fp cs)).
Proof. exact strict_iff. Qed.
Print Assumptions C33_strict.
(** A channel that was not found is an error. *)
Theorem C33_missing : forall maxdims fmt strict a b, frame_dtype maxdims fmt strict (a ++ None :: b) = None.
Proof. intros. unfold frame_dtype. rewrite loop_missing. reflexivity. Qed.
Print Assumptions C33_missing.

(** The default format is NAME.ORIGIN.COPY. *)
Theorem C33_default : forall name o c l, 0 <= o -> 0 <= c -> (default_label name o c = Some l <-> dotted name o c l).
Proof. exact default_dotted. Qed.
Print Assumptions C33_default.
(** Different channels whose names have no dot are told apart, *)
Theorem C33_distinct :
  forall maxdims cs, Forall (fits maxdims) cs -> Forall plain cs -> NoDup (map identity cs) ->
  exists d ls, frame_dtype maxdims default_label true (map Some cs) = Some d /\ labels default_label cs ls /\ describes cs ls (map cl_fp cs) d.
Proof. exact plain_strict. Qed.
Print Assumptions C33_distinct.
(** and strict=False works for any channels with such names, repeated or not: the n-th
    of the repeated ones gets the number n. *)
Theorem C33_repeated :
  forall maxdims cs, Forall (fits maxdims) cs -> Forall plain cs ->
  exists d ls names titles, frame_dtype maxdims default_label false (map Some cs) = Some d /\ labels default_label cs ls /\
    describes cs names titles d /\ SpecLisPy.made_unique ls names /\ SpecLisPy.made_unique (map cl_fp cs) titles.
Proof. exact plain_relaxed. Qed.
Print Assumptions C33_repeated.

(** Missing from C33: strict=False does not work for every list of channels.  It does for
    labels that are tidy. *)
Theorem C33_relaxed_partial :
  forall maxdims fmt cs ls, Forall (fits maxdims) cs -> labels fmt cs ls -> tidy (map cl_fp cs) ls ->
  exists d names titles, frame_dtype maxdims fmt false (map Some cs) = Some d /\
    describes cs names titles d /\ SpecLisPy.made_unique ls names /\ SpecLisPy.made_unique (map cl_fp cs) titles /\ NoDup (FRAMENO :: names ++ titles).
Proof. exact relaxed_ok. Qed.
Print Assumptions C33_relaxed_partial.

Lemma zero_numeral : is_numeral (text "0") 0.
Proof. split; [discriminate|]. split; [repeat constructor; cbn; lia|]. split; [reflexivity|]. intros d t E T. injection E as _ <-. contradiction. Qed.
Lemma one_numeral : is_numeral (text "1") 1.
Proof. split; [discriminate|]. split; [repeat constructor; cbn; lia|]. split; [reflexivity|]. intros d t E T. injection E as _ <-. contradiction. Qed.
(** a channel of the given name, origin, copy number, code and dimension *)
Definition channel (n : bytes) (o c rc : Z) (dim : list Z) : column :=
  mk_column (map b2z n) (map b2z (text "T.CHANNEL-I." ++ n ++ text "-O." ++ to_string o ++ text "-C." ++ to_string c)) o c rc dim.
(** A channel called FRAMENO cannot be read at all, and neither can three different
    channels one of which is called like the label of another. *)
Theorem C33_refuted :
  (exists maxdims c, Forall (fits maxdims) [c] /\ Forall own_fp [c] /\ forall strict, frame_dtype maxdims default_label strict [Some c] = None) /\
  exists maxdims cs, Forall (fits maxdims) cs /\ Forall own_fp cs /\ NoDup (map identity cs) /\
    forall strict, frame_dtype maxdims default_label strict (map Some cs) = None.
Proof.
  split.
  - exists 32%nat, (channel (text "FRAMENO") 0 0 2 [1]). split; [|split].
    + repeat constructor. exists 4. repeat split; try reflexivity; try (cbn; lia). repeat constructor; lia.
    + repeat constructor. exists (text "0"), (text "0"). split; [apply zero_numeral|]. split; [apply zero_numeral | vm_compute; reflexivity].
    + intros []; vm_compute; reflexivity.
  - exists 32%nat, [channel (text "A") 0 0 2 [1]; channel (text "A") 1 0 2 [1]; channel (text "A.0.0") 0 0 2 [1]]. split; [|split; [|split]].
    + repeat constructor; exists 4; repeat split; try reflexivity; try (cbn; lia); repeat constructor; lia.
    + constructor; [|constructor; [|constructor; [|constructor]]].
      * exists (text "0"), (text "0"). split; [apply zero_numeral|]. split; [apply zero_numeral | vm_compute; reflexivity].
      * exists (text "1"), (text "0"). split; [apply one_numeral|]. split; [apply zero_numeral | vm_compute; reflexivity].
      * exists (text "0"), (text "0"). split; [apply zero_numeral|]. split; [apply zero_numeral | vm_compute; reflexivity].
    + repeat constructor; cbn; intuition discriminate.
    + intros []; vm_compute; reflexivity.
Qed.
Print Assumptions C33_refuted.

(** TIME twice, TDEP once; a matrix *)
Definition frame3 : list column :=
  [channel (text "TIME") 0 0 2 [1]; channel (text "TDEP") 0 0 13 [1]; channel (text "TIME") 1 0 16 [2; 3]].
(** the first channel listed twice *)
Definition frame4 : list column := frame3 ++ [channel (text "TIME") 0 0 2 [1]].
Example C33_example :
  option_map (map fd_name) (frame_dtype 32 default_label true (map Some frame3)) =
    Some (map (fun s => map b2z s) [text "FRAMENO"; text "TIME.0.0"; text "TDEP"; text "TIME.1.0"]) /\
  frame_dtype 32 default_label true (map Some frame4) = None /\
  option_map (map fd_name) (frame_dtype 32 default_label false (map Some frame4)) =
    Some (map (fun s => map b2z s) [text "FRAMENO"; text "TIME.0.0(0)"; text "TDEP"; text "TIME.1.0"; text "TIME.0.0(1)"]).
Proof. repeat split; vm_compute; reflexivity. Qed.
Example C33_hypotheses : Forall (fits 32) frame4 /\ Forall plain frame4 /\ NoDup (map identity frame3) /\ ~ NoDup (map identity frame4).
Proof.
  assert (forall rc dim n o c w, 1 <= rc -> nth_error widths (Z.to_nat (rc - 1)) = Some w -> (length dim <= 32)%nat -> Forall (Z.le 1) dim ->
            elements dim * w < 2 ^ 31 -> fits 32 (channel n o c rc dim)) as F by (intros; exists w; auto).
  assert (forall n o c rc dim so sc, is_numeral so o -> is_numeral sc c -> to_string o = so -> to_string c = sc ->
            n <> [] -> map b2z n <> FRAMENO -> ~ In 46 (map b2z n) -> ~ In 40 (map b2z n) -> plain (channel n o c rc dim)) as P.
  { intros n o c rc dim so sc O C Eo Ec N1 N2 N3 N4. split; [|repeat split; try assumption].
    - exists so, sc. split; [exact O|]. split; [exact C|]. unfold channel, cl_fp, cl_name. rewrite Eo, Ec, !map_app. reflexivity.
    - cbn. destruct n; [contradiction | discriminate]. }
  split; [|split; [|split]].
  - repeat constructor; (eapply F; [lia | reflexivity | cbn; lia | repeat constructor; lia | reflexivity]).
  - constructor; [|constructor; [|constructor; [|constructor; [|constructor]]]];
      (eapply P; [first [apply zero_numeral | apply one_numeral] | apply zero_numeral | reflexivity | reflexivity | discriminate | discriminate | cbn; intuition discriminate | cbn; intuition discriminate]).
  - repeat constructor; cbn; intuition discriminate.
  - intros N. inversion N as [|? ? N1 _]; subst. apply N1. cbn. auto.
Qed.

(** ** C34: layout *)

(** The rows of the array are as wide as what the unpacker writes for a row of the
    file, every column starts where the one before it ends, and every column is as wide
    as what is written for its channel. *)
Theorem C34_layout :
  forall maxdims fmt strict cs d f, frame_dtype maxdims fmt strict (map Some cs) = Some d -> frame_fmtstr (map Some cs) = Some f ->
  row_width f (itemsize d) /\ packed 0 d (itemsize d) /\
  exists fs, f = ["i"%byte] ++ concat fs /\
    Forall2 (fun c g => exists ch, char_of (cl_reprc c) ch /\ g = repeat ch (Z.to_nat (elements (cl_dim c)))) cs fs /\
    Forall2 (fun fd g => row_width g (type_size (fd_type fd))) d (["i"%byte] :: fs).
Proof. exact layout_ok. Qed.
Print Assumptions C34_layout.

(** So the curves of a frame whose records are well formed have a row for each row of
    the file, and what the user finds at a row and column is the sample of that row and
    channel. *)
Theorem C34_curves :
  forall maxdims fmt esc data hard after strict cs d f tells rowss,
  frame_dtype maxdims fmt strict (map Some cs) = Some d -> frame_fmtstr (map Some cs) = Some f -> len data < 2 ^ 63 ->
  Forall2 (frame_data_in data cs) tells rowss ->
  exists cells, frame_curves maxdims fmt esc (mk_stream data hard) after strict (map Some cs) tells =
                  ([], Ok (d, cells, Z.of_nat (length (concat rowss)))) /\
    Z.of_nat (length cells) = Z.of_nat (length (concat rowss)) * itemsize d /\
    forall r j row fd k, nth_error (concat rowss) r = Some row -> nth_error d j = Some fd -> nth_error row j = Some k ->
      cell_at d cells r fd = k.
Proof. exact curves_ok. Qed.
Print Assumptions C34_curves.

(** Channels with known codes and positive dimensions have both a type and a format. *)
Theorem C34_formats :
  forall maxdims cs, Forall (fits maxdims) cs -> (forall c, In c cs -> cl_dim c <> []) -> exists f, frame_fmtstr (map Some cs) = Some f.
Proof. exact formats_exist. Qed.
Print Assumptions C34_formats.
(** The frame number is always there, but a channel without dimension has no samples:
    the curves cannot be read. *)
Theorem C34_no_dimension :
  forall maxdims fmt esc s after strict a c b tells, cl_dim c = [] ->
  frame_curves maxdims fmt esc s after strict (a ++ Some c :: b) tells = ([], Exn).
Proof. exact curves_no_dimension. Qed.
Print Assumptions C34_no_dimension.

(** a USHORT and a pair of SNORMs; a record with two rows *)
Definition cols2 : list column := [channel (text "A") 0 0 15 [1]; channel (text "B") 0 0 13 [2]].
Definition record2 : bytes := F_name ++ [x01; x07; x00; x02; xff; xfe; x02; x08; x00; x03; x00; x04].
Definition rows2 : list (list (list cell)) :=
  [ [raw [x01; x00; x00; x00]; raw [x07]; raw [x02; x00; xfe; xff]]; [raw [x02; x00; x00; x00]; raw [x08]; raw [x03; x00; x04; x00]] ].
Lemma uvari_sample b : b2z b < 128 -> sample "i" [b] (raw [b; x00; x00; x00]).
Proof.
  intros H. exists 18, (VNum (b2z b)). split; [split; [lia | reflexivity]|]. split; [apply v_uvari, uvari_1, H|].
  pose proof (b2z_range b). apply (im_num 18 4 _ [b; x00; x00; x00]); [cbn; tauto|]. split; [reflexivity|]. cbn [le]. change (256 ^ Z.of_nat 4) with (2 ^ 32).
  rewrite Z.mod_small by lia. change (b2z x00) with 0. ring.
Qed.
Example C34_example :
  (exists d f, frame_dtype 32 default_label true (map Some cols2) = Some d /\ frame_fmtstr (map Some cols2) = Some f /\
     map fd_offset d = [0; 4; 5] /\ itemsize d = 9 /\ f = text "iuDD") /\
  Forall2 (frame_data_in (file_of [record2]) cols2) [0] [rows2] /\
  frame_curves 32 default_label quiet (mk_stream (file_of [record2]) false) nothing_after true (map Some cols2) [0] =
    ([], Ok (match frame_dtype 32 default_label true (map Some cols2) with Some d => d | None => [] end, concat (concat rows2), 2)).
Proof.
  split; [|split].
  - eexists _, _. repeat split; vm_compute; reflexivity.
  - constructor; [|constructor]. exists record2, F_name, 1, 0, (text "F"), (skipn 4 record2).
    split; [|split; [reflexivity | split; [exact F_is_name|]]].
    + apply (one_segment [] record2 []). reflexivity.
    + apply (frs_cons cols2 [x01; x07; x00; x02; xff; xfe] _ [x02; x08; x00; x03; x00; x04] [_]).
      * apply (fr cols2 [x01] _ [x07; x00; x02; xff; xfe]); [apply uvari_sample; reflexivity|].
        apply (cs_cons _ "u" [x07]); [split; [cbn; lia | reflexivity] | apply (row_cons "u" [x07] (raw [x07]) [] [] []); [apply ushort_sample | constructor]|].
        apply (cs_cons _ "D" [x00; x02; xff; xfe] _ [] []); [split; [cbn; lia | reflexivity]| |constructor].
        apply (row_cons "D" [x00; x02] (raw [x02; x00]) ["D"%byte] [xff; xfe] (raw [xfe; xff])); [apply (snorm_sample _ _ 2); [split; cbn; lia | reflexivity]|].
        apply (row_cons "D" [xff; xfe] (raw [xfe; xff]) [] [] []); [apply (snorm_sample _ _ (-2)); [split; cbn; lia | reflexivity] | constructor].
      * apply (frs_cons cols2 [x02; x08; x00; x03; x00; x04] _ [] []); [|constructor].
        apply (fr cols2 [x02] _ [x08; x00; x03; x00; x04]); [apply uvari_sample; reflexivity|].
        apply (cs_cons _ "u" [x08]); [split; [cbn; lia | reflexivity] | apply (row_cons "u" [x08] (raw [x08]) [] [] []); [apply ushort_sample | constructor]|].
        apply (cs_cons _ "D" [x00; x03; x00; x04] _ [] []); [split; [cbn; lia | reflexivity]| |constructor].
        apply (row_cons "D" [x00; x03] (raw [x03; x00]) ["D"%byte] [x00; x04] (raw [x04; x00])); [apply (snorm_sample _ _ 3); [split; cbn; lia | reflexivity]|].
        apply (row_cons "D" [x00; x04] (raw [x04; x00]) [] [] []); [apply (snorm_sample _ _ 4); [split; cbn; lia | reflexivity] | constructor].
  - vm_compute. reflexivity.
Qed.
