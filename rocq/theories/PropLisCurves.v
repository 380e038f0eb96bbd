(** Properties C52-C54: curves of LIS79 files. *)
From Verif Require Import Bytes BytesProofs DlisTypes SpecTypes Stream SpecIo IoProofs PyBase DlisFdata SpecFdata LisTypes SpecLisTypes LisProtocol LisIo
  LisPy LisCurves SpecLisCurves LisCurvesProofs4 LisCurvesProofs5 LisCurvesProofs6 LisCurvesProofs7 PropLisIo.
From Coq Require Import Reals.
From Flocq Require Import Core IEEE754.Binary IEEE754.Bits.
Local Open Scope Z_scope.

(** ** Examples *)
Definition a_spec (mnem : bytes) (size samples reprc : Z) : spec_block :=
  mk_spec mnem (text "SERV  ") (text "ORDER   ") (text "M   ") 1 size samples reprc (Sub0 0 0 0 0 0).
(** depth recording mode 0: the index and a channel at rate 1, one at rate 2, one suppressed *)
Definition two_rates : dfsr :=
  mk_dfsr [] [a_spec (text "DEPT") 4 1 73; a_spec (text "SLOW") 2 1 79; a_spec (text "FAST") 2 2 56; a_spec (text "GONE") (-1) 1 56; a_spec (text "NUM ") 1 1 66].
(** depth recording mode 1, 16-bit index, logged upwards, spacing 4 *)
Definition depth_once : dfsr :=
  mk_dfsr [mk_entry 13 1 66 (LByte 1); mk_entry 15 1 66 (LByte 79); mk_entry 8 1 66 (LByte 4)] [a_spec (text "CHAN") 1 1 66].
Definition two_frames : bytes := map z2b [0; 0; 0; 10; 1; 2; 3; 4; 5; 6;  0; 0; 0; 20; 17; 18; 19; 20; 21; 22].
Definition a_file (data : bytes) : bytes := one_record (z2b 128) [] ++ one_record (z2b 64) [] ++ one_record x00 data ++ one_record (z2b 129) [].
Definition an_index (n : Z) : record_index := mk_index [mk_info 128 6 0; mk_info 64 6 6; mk_info 129 6 (18 + n)] [mk_info 0 (6 + n) 12] false.
Definition curves_of (after : bytes) (data : bytes) (d : dfsr) (rate : option Z) :=
  curves str_of (file_of (a_file data)) (fun _ => after) (an_index (len data)) 6 d rate true.

(** ** C52: row size and consumption *)

(** curves() accepts exactly the usable format specifications, with a rate of 0 to
    255, and the array's type is the one the format specification says.  All others
    raise an exception. *)
Theorem C52_accepts : forall dec d asked strict cols,
  (exists fc, frame_config dec d asked strict = Ok (fc, cols)) <->
  (exists l rate, layout_of d l /\ usable l /\ rate_used l asked rate /\ 0 <= rate <= 255 /\ dtype_of dec rate l strict cols).
Proof.
  intros dec d asked strict cols. split.
  - intros (fc & H). destruct (config_inv _ _ _ _ _ _ H) as (l & rate & c & n & m & its & LO & U & RU & RR & DT & _). exists l, rate. auto.
  - intros (l & rate & LO & U & RU & RR & DT). exact (config_ok dec d asked strict l rate cols LO U RU RR DT).
Qed.
Print Assumptions C52_accepts.
Theorem C52_rejects : forall dec d asked strict,
  (~ exists cols l rate, layout_of d l /\ usable l /\ rate_used l asked rate /\ 0 <= rate <= 255 /\ dtype_of dec rate l strict cols) ->
  forall dv after ix tell, curves dec dv after ix tell d asked strict = Exn.
Proof.
  intros dec d asked strict H dv after ix tell. destruct (config_plain dec d asked strict) as [N1 N2]. unfold curves.
  destruct (frame_config dec d asked strict) as [[fc cols]| | |] eqn:E; try contradiction; [|reflexivity]. exfalso. apply H. exists cols. apply C52_accepts. exists fc. exact E.
Qed.
Print Assumptions C52_rejects.

(** One frame: the bytes consumed are those of all the channels; of the array only
    the frame's rows are written, and the destination moves on by these rows. *)
Theorem C52_frame_partial : forall dec d asked strict fc cols, frame_config dec d asked strict = Ok (fc, cols) -> 1 <= fc_samples fc ->
  forall p a ix pre blk post, a_cells a = pre ++ blk ++ post -> Z.of_nat (length blk) = fc_samples fc * row_size cols -> a_dst a = Z.of_nat (length pre) ->
  forall p' a' ix', read_frame fc p a ix = Ok (p', a', ix') ->
  exists e blk', p_mem p = e ++ p_mem p' /\ p_left p' = p_left p - len e /\ len e = frame_bytes (df_specs d) /\
    a_cells a' = pre ++ blk' ++ post /\ length blk' = length blk /\ a_dst a' = a_dst a + fc_samples fc * row_size cols.
Proof. exact frame_room. Qed.
Print Assumptions C52_frame_partial.

(** The rate 0 is accepted but the index is then written outside the array. *)
Theorem C52_zero_rate_refuted :
  (exists fc cols, frame_config str_of two_rates (Some 0) true = Ok (fc, cols)) /\ curves_of [] two_frames two_rates (Some 0) = UB.
Proof. split; [eexists _, _; vm_compute; reflexivity | vm_compute; reflexivity]. Qed.
Print Assumptions C52_zero_rate_refuted.

Example C52_example :
  layout_of two_rates (Mode0 (a_spec (text "DEPT") 4 1 73) (tl (df_specs two_rates))) /\
  usable (Mode0 (a_spec (text "DEPT") 4 1 73) (tl (df_specs two_rates))) /\ frame_bytes (df_specs two_rates) = 10 /\
  frame_config str_of two_rates (Some 2) true =
    Ok (mk_config (text "l1") (text "S2s1S1S1") 2 0 (f64_of 0 0) 5, [mk_column (str_of (text "DEPT")) (text "i4") 4 1; mk_column (str_of (text "FAST")) (text "i1") 1 1]) /\
  frame_config str_of two_rates None true = Exn.
Proof.
  split; [|split; [|split; [reflexivity | split; vm_compute; reflexivity]]].
  - constructor; [|reflexivity]. constructor. intros e [].
  - split; [|split; [reflexivity|]].
    + exists 4%nat. split; [|reflexivity]. exists "l"%byte, 4%nat. cbn. tauto.
    + repeat constructor.
      * exists 2. split; [lia|]. split; [cbn; lia|]. split; [reflexivity|]. right. exists 2%nat, 1. split; [|reflexivity]. exists "i"%byte, 2%nat. cbn. tauto.
      * exists 1. split; [lia|]. split; [cbn; lia|]. split; [reflexivity|]. right. exists 1%nat, 1. split; [|reflexivity]. exists "s"%byte, 1%nat. cbn. tauto.
      * exists (-1). split; [lia|]. split; [cbn; lia|]. split; [reflexivity|]. right. exists 1%nat, (-1). split; [|reflexivity]. exists "s"%byte, 1%nat. cbn. tauto.
      * exists 1. split; [lia|]. split; [cbn; lia|]. split; [reflexivity|]. right. exists 1%nat, 1. split; [|reflexivity]. exists "b"%byte, 1%nat. cbn. tauto.
Qed.

(** ** C53: samples land in their rows *)

(** The array holds the rows of all the data records of the format specification,
    in order. *)
Theorem C53_rows : forall dec dv after ix tell d asked strict l rate cols heads datas rows last,
  layout_of d l -> usable l -> rate_used l asked rate -> 1 <= rate <= 255 -> dtype_of dec rate l strict cols ->
  implicits_of ix tell = Some heads -> Forall2 (fun h data => fst (read_record dv h 0) = DOk data) heads datas ->
  data_records rate l None datas rows last ->
  curves dec dv after ix tell d asked strict = Ok (cols, concat rows, Z.of_nat (length rows)).
Proof. exact curves_rows. Qed.
Print Assumptions C53_rows.

(** Conversely, an array that is returned is that of the data records, each
    followed by [ext], bytes of the memory behind its buffer; none if the last
    channel is read and is not a text. *)
Theorem C53_exact_partial : forall dec dv after ix tell d asked strict cols cells n, asked <> Some 0 ->
  curves dec dv after ix tell d asked strict = Ok (cols, cells, n) ->
  exists l rate heads datas exts rows last, layout_of d l /\ usable l /\ rate_used l asked rate /\ 1 <= rate <= 255 /\ dtype_of dec rate l strict cols /\
    implicits_of ix tell = Some heads /\ Forall2 (fun h data => fst (read_record dv h 0) = DOk data) heads datas /\
    Forall2 (fun h ext => (exists rest, after (ri_ltell h) = ext ++ rest) /\
      ((exists ss s, layout_channels l = ss ++ [s] /\ selected rate s /\ sp_reprc s <> 65) -> ext = [])) heads exts /\
    data_records rate l None (map (fun '(data, ext) => data ++ ext) (combine datas exts)) rows last /\
    cells = concat rows /\ n = Z.of_nat (length rows) /\ Forall (fun r => Z.of_nat (length r) = row_size cols) rows.
Proof.
  intros dec dv after ix tell d asked strict cols cells n NZ H. destruct (curves_exact _ _ _ _ _ _ _ _ _ _ _ NZ H) as (l & rate & heads & datas & exts & rows & last & R).
  exists l, rate, heads, datas, exts, rows, last. destruct R as (R1 & R2 & R3 & R4 & R5 & R6 & R7 & R8 & R9). repeat (split; [assumption|]). split; [|exact R9].
  clear -R8. induction R8 as [|h ext hs exts [E1 E2] R8 IH]; constructor; [|exact IH]. split; [exact E1|]. intros C. apply E2. destruct l; [right|]; exact C.
Qed.
Print Assumptions C53_exact_partial.

(** Without the restriction, bytes from behind a record end up in the array. *)
Theorem C53_in_bounds_refuted :
  let d := mk_dfsr [] [a_spec (text "DEPT") 1 1 66; a_spec (text "TEXT") 2 1 65] in
  curves_of (text "X") [x01; "A"%byte] d None = Ok ([mk_column (str_of (text "DEPT")) (text "u1") 1 1; mk_column (str_of (text "TEXT")) (text "O") 8 1],
    Raw x01 :: pointer (PyStr (map b2z (text "AX"))), 1) /\
  curves_of [] [x01; "A"%byte] d None = UB.
Proof. split; vm_compute; reflexivity. Qed.
Print Assumptions C53_in_bounds_refuted.

(** Reading ends. *)
Theorem C53_ends : forall dec dv after ix tell d asked strict, asked <> Some 0 ->
  (forall heads, implicits_of ix tell = Some heads -> forall h, In h heads -> fst (read_record dv h 0) <> DFuel) ->
  curves dec dv after ix tell d asked strict <> Fuel.
Proof. intros dec dv after ix tell d asked strict NZ NF. apply curves_end; [exact NZ | exact NF | apply config_plain]. Qed.
Print Assumptions C53_ends.

Definition ints (l : list Z) : list cell := map Raw (map z2b l).
Example C53_example :
  curves_of [] two_frames two_rates (Some 1) =
    Ok ([mk_column (str_of (text "DEPT")) (text "i4") 4 1; mk_column (str_of (text "SLOW")) (text "i2") 2 1; mk_column (str_of (text "NUM ")) (text "u1") 1 1],
      ints [10; 0; 0; 0; 2; 1; 6;  20; 0; 0; 0; 18; 17; 22], 2) /\
  (* the first frame has no previous index *)
  curves_of [] two_frames two_rates (Some 2) =
    Ok ([mk_column (str_of (text "DEPT")) (text "i4") 4 1; mk_column (str_of (text "FAST")) (text "i1") 1 1],
      ints [0; 0; 0; 0; 3;  10; 0; 0; 0; 4;  15; 0; 0; 0; 19;  20; 0; 0; 0; 20], 4) /\
  curves_of [] (map z2b [0; 100; 7; 8; 9]) depth_once None =
    Ok ([mk_column (str_of (text "DEPT")) (text "i2") 2 1; mk_column (str_of (text "CHAN")) (text "u1") 1 1],
      ints [100; 0; 7;  96; 0; 8;  92; 0; 9], 3) /\
  implicits_of (an_index 20) 6 = Some [mk_info 0 26 12] /\ read_record (file_of (a_file two_frames)) (mk_info 0 26 12) 0 = (DOk two_frames, 38).
Proof. split; [vm_compute; reflexivity|]. split; [vm_compute; reflexivity|]. split; [vm_compute; reflexivity|]. split; vm_compute; reflexivity. Qed.

(** ** C54: the index is interpolated *)

(** the last row of a frame has the recorded index *)
Theorem C54_last_partial : forall ix rate, 1 <= rate <= 127 -> is_nan 53 1024 (ix_current ix) = false -> index_value ix rate rate = Ok (ix_current ix).
Proof.
  intros ix rate R N. apply sub_index_value; [lia|]. split; [auto|]. rewrite counted_small by lia. lia.
Qed.
Print Assumptions C54_last_partial.
(** the others are on the line from the previous frame's index, up to rounding, if their
    number is at most 127 *)
Theorem C54_line_partial : forall p x s rate, 1 <= s < rate -> s <= 127 -> rate <= 255 ->
  is_finite 53 1024 p = true -> is_finite 53 1024 x = true ->
  (Rabs (B2R 53 1024 p) <= bpow radix2 1000)%R -> (Rabs (B2R 53 1024 x) <= bpow radix2 1000)%R ->
  exists v, index_value (mk_ix x p) s rate = Ok v /\ is_finite 53 1024 v = true /\
    (Rabs (B2R 53 1024 v - (B2R 53 1024 p + (B2R 53 1024 x - B2R 53 1024 p) * (IZR s / IZR rate))) <=
      (Rabs (B2R 53 1024 p) + Rabs (B2R 53 1024 x)) * bpow radix2 (-50) + bpow radix2 (-1060))%R.
Proof.
  intros p x s rate Hs Hn Hr Fp Fx Bp Bx. eexists. split; [|apply interpolated_accuracy; [eassumption | exact Hr | assumption..]].
  apply sub_index_value; [lia|]. unfold sub_value. rewrite counted_small by lia. split; [lia|]. intros _. unfold remember. cbn [ix_previous ix_current].
  assert (N : forall y : binary64, is_finite 53 1024 y = true -> is_nan 53 1024 y = false) by (intros y; destruct y; cbn; congruence).
  rewrite (N _ Fp), (N _ Fx). auto.
Qed.
Print Assumptions C54_line_partial.
(** From the 128th row of a frame on, the last one included, the index is on the same
    line but 256 steps behind: it lies on the other side of the previous frame's index. *)
Theorem C54_behind : forall p x s rate, 128 <= s <= rate -> rate <= 255 ->
  is_finite 53 1024 p = true -> is_finite 53 1024 x = true ->
  (Rabs (B2R 53 1024 p) <= bpow radix2 1000)%R -> (Rabs (B2R 53 1024 x) <= bpow radix2 1000)%R ->
  exists v, index_value (mk_ix x p) s rate = Ok v /\ is_finite 53 1024 v = true /\
    (Rabs (B2R 53 1024 v - (B2R 53 1024 p - (B2R 53 1024 x - B2R 53 1024 p) * (IZR (256 - s) / IZR rate))) <=
      (Rabs (B2R 53 1024 p) + Rabs (B2R 53 1024 x)) * bpow radix2 (-50) + bpow radix2 (-1060))%R.
Proof.
  intros p x s rate Hs Hr Fp Fx Bp Bx. assert (C : counted s = s - 256) by (unfold counted; apply (Z.add_cancel_r _ _ 128); rewrite Z.sub_add; symmetry; apply (Z.mod_unique_pos _ _ 1); lia).
  destruct (line_accuracy p x (s - 256) rate) as [F A]; [lia | lia | lia | assumption.. |]. eexists. split; [|split; [exact F|]].
  - apply sub_index_value; [lia|]. unfold sub_value. rewrite C. split; [lia|]. intros _. unfold remember. cbn [ix_previous ix_current].
    assert (N : forall y : binary64, is_finite 53 1024 y = true -> is_nan 53 1024 y = false) by (intros y; destruct y; cbn; congruence).
    rewrite (N _ Fp), (N _ Fx). auto.
  - assert (W : (IZR (256 - s) / IZR rate = - (IZR (s - 256) / IZR rate))%R).
    { replace (256 - s) with (- (s - 256)) by ring. rewrite opp_IZR. unfold Rdiv. apply Ropp_mult_distr_l_reverse. }
    rewrite W. replace (B2R 53 1024 p - (B2R 53 1024 x - B2R 53 1024 p) * - (IZR (s - 256) / IZR rate))%R
      with (B2R 53 1024 p + (B2R 53 1024 x - B2R 53 1024 p) * (IZR (s - 256) / IZR rate))%R by ring. exact A.
Qed.
Print Assumptions C54_behind.
(** In the first frame there is no previous index: the index of all rows but the one with
    the number of the rate, if that is at most 127, is 0. *)
Theorem C54_first : forall x s rate, 1 <= s <= rate -> rate <= 255 ->
  index_value (mk_ix x nan64) s rate = if (s =? rate) && (rate <=? 127) then (if is_nan 53 1024 x then Exn else Ok x) else Ok (f64_of 0 0).
Proof.
  intros x s rate Hs Hr. destruct ((s =? rate) && (rate <=? 127)) eqn:E.
  - apply andb_prop in E as [E1 E2]. unfold index_value. rewrite sub_of, counted_small by lia. rewrite E1. reflexivity.
  - apply sub_index_value; [lia|]. unfold sub_value. split; [|reflexivity]. intros C. exfalso.
    destruct (Z.le_gt_cases s 127) as [L|L]; [rewrite counted_small in C by lia; lia|].
    assert (counted s = s - 256) as C' by (unfold counted; apply (Z.add_cancel_r _ _ 128); rewrite Z.sub_add; symmetry; apply (Z.mod_unique_pos _ _ 1); lia). lia.
Qed.
Print Assumptions C54_first.
(** an integer index that would be between two integers is an error *)
Theorem C54_integer : forall c n lo hi rc x, In (rc, (n, (lo, hi))) int_types -> In (rc, c) [(56, "s"); (79, "i"); (73, "l"); (66, "b")]%byte ->
  is_finite 53 1024 x = true -> (forall z, B2R 53 1024 x <> IZR z) -> write_index (c :: text "1") x = Exn.
Proof.
  intros c n lo hi rc x I1 I2 F N. assert (E : integral x = None).
  { destruct (integral x) as [z|] eqn:E; [|reflexivity]. apply LisCurvesProofs3.integral_spec in E as [_ E]. exfalso. exact (N z E). }
  cbn [In] in I2. destruct I2 as [X|[X|[X|[X|[]]]]]; injection X as <- <-; cbn [write_index]; unfold to_int; rewrite E; reflexivity.
Qed.
Print Assumptions C54_integer.

(** From rate 128 on it is not so: the sub-sample number is an 8-bit integer, and
    the last row does not have the recorded index.  In the first frame all rows but
    the last have the index 0. *)
Theorem C54_rate_refuted :
  (let ix := mk_ix (f64_of 256 0) (f64_of 128 0) in index_value ix 128 128 = Ok (f64_of 0 0) /\ ix_current ix <> f64_of 0 0) /\
  (let ix := mk_ix (f64_of 256 0) nan64 in index_value ix 1 2 = Ok (f64_of 0 0)).
Proof.
  split; [split; [|intros H; apply (f_equal bits_of_b64) in H; vm_compute in H; discriminate]|].
  - assert (X : match index_value (mk_ix (f64_of 256 0) (f64_of 128 0)) 128 128 with Ok v => bits_of_b64 v = bits_of_b64 (f64_of 0 0) | _ => False end) by (vm_compute; reflexivity).
    destruct (index_value _ 128 128) as [v| | |]; try contradiction. f_equal.
    assert (B : forall y : binary64, b64_of_bits (bits_of_b64 y) = y) by (intros y; exact (binary_float_of_bits_of_binary_float 52 11 eq_refl eq_refl eq_refl y)).
    rewrite <- (B v), X. apply B.
  - reflexivity.
Qed.
Print Assumptions C54_rate_refuted.

Example C54_example :
  match index_value (mk_ix (f64_of 256 0) (f64_of 128 0)) 3 4 with Ok v => bits_of_b64 v = bits_of_b64 (f64_of 224 0) | _ => False end.
Proof. vm_compute. reflexivity. Qed.
(** the 192nd of 255 rows is a quarter of the way behind *)
Example C54_behind_example :
  match index_value (mk_ix (f64_of 510 0) (f64_of 255 0)) 192 255 with Ok v => bits_of_b64 v = bits_of_b64 (f64_of 191 0) | _ => False end.
Proof. vm_compute. reflexivity. Qed.
